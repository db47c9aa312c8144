From Verif Require Import Base IntTypes SaturatedModel SaturatedSpec.

Lemma neg_val_ok u y : c_type u -> in_type u y -> y < 0 -> ~ unnegatable u y -> neg_val u y = - y.
Proof.
  intros Hu Hy Hn Hun. unfold neg_val. unfold in_type, tmin, tmax, unnegatable in *. unfold c_type in Hu.
  destruct u as [s w]. cbn [sg wd] in *. unfold promote. cbn [sg wd].
  destruct s; cbv match in Hy, Hun; [|lia].
  destruct (w <? 32) eqn:E.
  - apply conv_small; [cbn; lia|]. unfold in_type, tmin, tmax. cbn [sg wd].
    assert (2 ^ (w - 1) <= 2 ^ 30) by (apply Z.pow_le_mono_r; lia). change (2 ^ (32 - 1)) with (2 * 2 ^ 30). lia.
  - apply conv_small; [cbn; lia|]. unfold in_type, tmin, tmax. cbn [sg wd].
    assert (y <> - 2 ^ (w - 1)) by (intro Hy'; apply Hun; split; [reflexivity|split; [lia|exact Hy']]). lia.
Qed.

Lemma overflow_clamp_max t e : 0 < wd t -> tmin t <= e -> overflow_to (builtin t e) (tmax t) = clamp t e.
Proof.
  intros Hw He. pose proof (tmin_tmax t Hw). unfold overflow_to, builtin, clamp. cbn [fst snd].
  destruct (tmin t <=? e) eqn:E1, (e <=? tmax t) eqn:E2; cbn [andb negb]; try lia.
  rewrite conv_small by (unfold in_type; lia). lia.
Qed.
Lemma overflow_clamp_min t e : 0 < wd t -> e <= tmax t -> overflow_to (builtin t e) (tmin t) = clamp t e.
Proof.
  intros Hw He. pose proof (tmin_tmax t Hw). unfold overflow_to, builtin, clamp. cbn [fst snd].
  destruct (tmin t <=? e) eqn:E1, (e <=? tmax t) eqn:E2; cbn [andb negb]; try lia.
  rewrite conv_small by (unfold in_type; lia). lia.
Qed.

Lemma unsigned_nonneg u y : in_type u y -> sg u && (y <? 0) = false -> 0 <= y.
Proof. intros Hy H. unfold in_type, tmin in Hy. destruct (sg u); cbn in H; lia. Qed.

Lemma add_exact t u x y : c_type t -> c_type u -> in_type t x -> in_type u y -> ~ unnegatable u y ->
  sat_add t u x y = clamp t (x + y) /\ sat_sub t u x y = clamp t (x - y).
Proof.
  intros Ht Hu Hx Hy Hn. pose proof (c_type_pos t Ht). unfold in_type in Hx.
  unfold sat_add, sat_sub. destruct (sg u && (y <? 0)) eqn:E.
  - assert (y < 0) by lia. rewrite (neg_val_ok u y) by (assumption || lia).
    rewrite overflow_clamp_min, overflow_clamp_max by lia. split; f_equal; lia.
  - pose proof (unsigned_nonneg u y Hy E). rewrite overflow_clamp_min, overflow_clamp_max by lia. split; reflexivity.
Qed.

Lemma incdec_exact t x : c_type t -> in_type t x -> sat_inc t x = clamp t (x + 1) /\ sat_dec t x = clamp t (x - 1).
Proof.
  intros Ht Hx. pose proof (c_type_pos t Ht). pose proof (tmin_tmax t ltac:(lia)). unfold in_type in Hx. unfold sat_inc, sat_dec, clamp.
  split.
  - destruct (x <? tmax t) eqn:E; [rewrite conv_small by (unfold in_type; lia)|]; lia.
  - destruct (tmin t <? x) eqn:E; [rewrite conv_small by (unfold in_type; lia)|]; lia.
Qed.

(* all pairs of types except those that need a 128 bit type *)
Lemma fits_any_ok t u : c_type t -> c_type u ->
  ~ is_uint64 t -> ~ is_uint64 u ->
  exists f, fits_any t u = Some f /\ 0 < wd f /\
    tmin f <= tmin t /\ tmax t <= tmax f /\ tmin f <= tmin u /\ tmax u <= tmax f.
Proof.
  destruct t as [st wt], u as [su wu]. unfold c_type. cbn [sg wd]. intros Ht Hu Hnt Hnu. unfold is_uint64 in *. cbn [sg wd] in *.
  destruct st, su; destruct Ht as [->|[->|[->| ->]]]; destruct Hu as [->|[->|[->| ->]]];
  first [ exfalso; apply Hnt; split; reflexivity | exfalso; apply Hnu; split; reflexivity
        | eexists; split; [vm_compute; reflexivity|]; vm_compute; repeat split; congruence ].
Qed.
Lemma convert_exact t u v : c_type t -> c_type u ->
  ~ is_uint64 t -> ~ is_uint64 u ->
  in_type u v -> sat_convert t u v = Some (clamp t v).
Proof.
  intros Ht Hu Hnt Hnu Hv. destruct (fits_any_ok t u Ht Hu Hnt Hnu) as (f & Hf & Hw & H1 & H2 & H3 & H4).
  pose proof (c_type_pos t Ht). pose proof (tmin_tmax t ltac:(lia)).
  unfold sat_convert. rewrite Hf. cbn [obind]. unfold in_type in Hv.
  rewrite !(conv_small f) by (unfold in_type; lia). f_equal. unfold clamp.
  destruct (v <? tmin t) eqn:E1; [|destruct (tmax t <? v) eqn:E2]; rewrite conv_small by (unfold in_type; lia); lia.
Qed.

(* multiplication, where it is right *)
Lemma mul_exact t x y : c_type t -> in_type t x -> in_type t y -> tmin t <= x * y -> sat_mul t x y = clamp t (x * y).
Proof. intros Ht Hx Hy H. pose proof (c_type_pos t Ht). apply overflow_clamp_max; lia. Qed.
Lemma mul_assign_nonneg t u x y : c_type t -> in_type t x -> in_type u y -> 0 <= y -> tmin t <= x * y ->
  sat_mul_assign t u x y = clamp t (x * y).
Proof.
  intros Ht Hx Hy H Hp. pose proof (c_type_pos t Ht). unfold sat_mul_assign. replace (y <? 0) with false by lia.
  rewrite andb_false_r. apply overflow_clamp_max; lia.
Qed.
Lemma mul_assign_neg t u x y : c_type t -> c_type u -> sg t = true -> in_type t x -> in_type u y -> y < 0 -> ~ unnegatable u y ->
  - tmax t <= x * y <= tmax t -> sat_mul_assign t u x y = clamp t (x * y).
Proof.
  intros Ht Hu Hs Hx Hy Hneg Hun Hp. pose proof (c_type_pos t Ht) as Hw. pose proof (tmin_tmax t ltac:(lia)) as (Hm1 & Hm2 & Hm3).
  specialize (Hm3 Hs).
  unfold sat_mul_assign. assert (sg u = true) as Hsu.
  { unfold in_type, tmin in Hy. destruct (sg u); [reflexivity|lia]. }
  rewrite Hsu. replace (y <? 0) with true by lia. cbn [andb].
  rewrite (neg_val_ok u y) by assumption. rewrite overflow_clamp_max by lia.
  assert (clamp t (x * - y) = - (x * y)) as -> by (unfold clamp; lia).
  assert (neg_val t (- (x * y)) = x * y) as ->.
  { destruct (Z.eq_dec (x * y) 0) as [E|E].
    - rewrite E. unfold neg_val. apply conv_small; unfold promote; destruct (wd t <? 32); cbn [wd]; try lia;
        unfold in_type; [cbn; lia|lia].
    - unfold neg_val. rewrite Z.opp_involutive. apply conv_small; [unfold promote; destruct (wd t <? 32); cbn [wd]; lia|].
      unfold promote. destruct (wd t <? 32) eqn:E32; [|unfold in_type; lia].
      unfold in_type, tmin, tmax in *. rewrite Hs in *. cbn [sg wd].
      assert (2 ^ (wd t - 1) <= 2 ^ 30) by (apply Z.pow_le_mono_r; lia). change (2 ^ (32 - 1)) with (2 * 2 ^ 30). lia. }
  rewrite conv_small by (unfold in_type; lia). unfold clamp. lia.
Qed.

Lemma neg_exact t x : c_type t -> in_type t x ->
  (sg t = true -> x <> tmin t -> sat_neg t x = clamp t (- x)) /\
  (sg t = false -> wd t <> 64 -> sat_neg t x = - x).
Proof.
  intros Ht Hx. pose proof (c_type_pos t Ht) as Hw. pose proof (tmin_tmax t ltac:(lia)) as (Hm1 & Hm2 & Hm3).
  destruct t as [s w]. unfold in_type in Hx. cbn [sg wd] in *. split.
  - intros -> Hne. specialize (Hm3 eq_refl). unfold sat_neg. cbn [sg].
    assert (neg_val (mkTy true w) x = - x) as ->.
    { unfold neg_val. apply conv_small; [unfold promote; destruct (wd _ <? 32); cbn [wd]; lia|].
      unfold promote. cbn [wd]. destruct (w <? 32) eqn:E32; [|unfold in_type; lia].
      unfold in_type, tmin, tmax in *. cbn [sg wd] in *.
      assert (2 ^ (w - 1) <= 2 ^ 30) by (apply Z.pow_le_mono_r; lia). change (2 ^ (32 - 1)) with (2 * 2 ^ 30). lia. }
    rewrite conv_small by (unfold in_type; cbn [wd]; lia). unfold clamp. lia.
  - intros -> Hne. unfold c_type in Ht. cbn [wd] in Ht. unfold tmin, tmax in Hx. cbn [sg wd] in Hx.
    assert (2 ^ (2 * w) = 2 ^ w * 2 ^ w) as E2 by (rewrite <- Z.pow_add_r by lia; f_equal; lia).
    assert (2 ^ (2 * w) = 2 * 2 ^ (2 * w - 1)) as E3 by (rewrite <- (Z.pow_succ_r 2 (2 * w - 1)) by lia; f_equal; lia).
    assert (2 ^ 8 <= 2 ^ w) as E4 by (apply Z.pow_le_mono_r; lia). change (2 ^ 8) with 256 in E4.
    assert (2 ^ (2 * w - 1) >= 2 ^ w) as E5 by nia.
    unfold sat_neg, neg_val. cbn [sg wd].
    set (ts := mkTy true (2 * w)).
    assert (tmin ts = - 2 ^ (2 * w - 1)) as M1 by reflexivity. assert (tmax ts = 2 ^ (2 * w - 1) - 1) as M2 by reflexivity.
    assert (conv ts x = x) as -> by (apply conv_small; [unfold ts; cbn [wd]; lia|unfold in_type; lia]).
    assert (conv (promote ts) (- x) = - x) as ->.
    { apply conv_small; unfold promote; change (wd ts) with (2 * w); destruct (2 * w <? 32) eqn:E; try (change (wd ts) with (2 * w)); try (cbn [wd]; lia); [|unfold in_type; lia].
      unfold in_type, tmin, tmax. cbn [sg wd].
      assert (2 ^ (2 * w - 1) <= 2 ^ 30) by (apply Z.pow_le_mono_r; lia). change (2 ^ (32 - 1)) with (2 * 2 ^ 30). lia. }
    apply conv_small; [unfold ts; cbn [wd]; lia|unfold in_type; lia].
Qed.
Lemma abs_exact t x : c_type t -> sg t = true -> in_type t x -> x <> tmin t -> sat_absolute t x = clamp t (Z.abs x).
Proof.
  intros Ht Hs Hx Hne. pose proof (c_type_pos t Ht) as Hw. pose proof (tmin_tmax t ltac:(lia)) as (Hm1 & Hm2 & Hm3). specialize (Hm3 Hs).
  unfold in_type in Hx. unfold sat_absolute. rewrite (conv_small (promote t)).
  - rewrite conv_small by (unfold in_type; lia). unfold clamp. lia.
  - unfold promote; destruct (wd t <? 32); cbn [wd]; lia.
  - unfold promote. destruct (wd t <? 32) eqn:E32; [|unfold in_type; lia].
    unfold in_type, tmin, tmax in *. rewrite Hs in *. cbn [sg wd].
    assert (2 ^ (wd t - 1) <= 2 ^ 30) by (apply Z.pow_le_mono_r; lia). change (2 ^ (32 - 1)) with (2 * 2 ^ 30). lia.
Qed.
