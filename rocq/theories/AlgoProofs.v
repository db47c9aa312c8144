(* Proofs for C29 - C32. *)
From Verif Require Import Base IntTypes FilterModel FilterProofs AlgoModel AlgoSpec.
From Coq Require Import Sorted.

(* ---- linear interpolation ---- *)
Lemma conv_sub_arith r x y : 0 < wd r -> conv r (conv r x - conv r y) = conv r (x - y).
Proof.
  intro H. apply conv_cong; [exact H|]. rewrite Zminus_mod, !conv_mod, <- Zminus_mod by exact H. reflexivity.
Qed.
Lemma in_signed t r x : 0 < wd t -> sg r = true -> (wd t < wd r \/ (sg t = true /\ wd t <= wd r)) -> in_type t x -> in_type r x.
Proof.
  intros Ht Hr Hw. unfold in_type, tmin, tmax. rewrite Hr. destruct (sg t).
  - pose proof (Z.pow_le_mono_r 2 (wd t - 1) (wd r - 1) ltac:(lia) ltac:(lia)). lia.
  - assert (wd t < wd r) by (destruct Hw as [|[]]; [assumption|discriminate]).
    pose proof (Z.pow_le_mono_r 2 (wd t) (wd r - 1) ltac:(lia) ltac:(lia)). pose proof (Z.pow_pos_nonneg 2 (wd r - 1)). lia.
Qed.
Lemma lin_type_facts tin tout : let w := lin_wide tout in let r := usual tin w in lin_types tin tout r ->
  usual r tin = r /\ usual r tout = r /\ usual tin w = r /\ 32 <= wd r /\ wd tin <= wd (usual tin tin) /\ 0 < wd tin /\ 0 < wd tout /\
  (wd tin < wd r \/ (sg tin = true /\ wd tin <= wd r)) /\ (wd tout < wd r) /\ wd w <= wd r /\ sg r = true /\
  wd (usual (signed_of tout) (signed_of tout)) = 32 /\ usual (signed_of tout) (signed_of tout) = promote (signed_of tout).
Proof.
  cbv zeta. intros ([Hi|[Hi|[Hi|Hi]]] & [Ho|[Ho|Ho]] & Hr); destruct tin as [[|] wi], tout as [[|] wo]; cbn [wd] in *; subst;
    vm_compute in Hr; try discriminate; vm_compute; repeat split; auto; try (left; reflexivity); try (right; split; [reflexivity|congruence]); try congruence.
Qed.
Lemma quot_between a b c : 0 <= a <= c -> 0 < c -> between 0 b (Z.quot (a * b) c).
Proof.
  intros Ha Hc. unfold between. destruct (Z_le_dec 0 b) as [Hb|Hb].
  - left. rewrite Z.quot_div_nonneg by nia. split; [apply Z.div_pos; nia|]. apply Z.div_le_upper_bound; nia.
  - right. replace (a * b) with (- (a * - b)) by ring. rewrite Z.quot_opp_l by lia. rewrite Z.quot_div_nonneg by nia.
    assert (0 <= a * - b / c) by (apply Z.div_pos; nia). assert (a * - b / c <= - b) by (apply Z.div_le_upper_bound; nia). lia.
Qed.
Lemma lin_segment_exact tin tout p q v : let r := usual tin (lin_wide tout) in lin_types tin tout r -> lin_fits tin tout r p q ->
  fst p < v <= fst q -> lin_segment tin tout p q v = snd p + Z.quot ((v - fst p) * (snd q - snd p)) (fst q - fst p).
Proof.
  cbv zeta. intros Ht (H1 & H2 & H3 & H4 & H5 & H6 & H7 & H8 & H9) Hv.
  destruct (lin_type_facts tin tout Ht) as (E1 & E2 & E3 & W1 & W2 & W3 & W4 & W5 & W6 & W7 & W8 & W9 & E4). cbv zeta in *.
  unfold lin_segment. set (r := usual tin (lin_wide tout)) in *. cbv zeta. rewrite E1.
  assert (forall x y, 0 <= x - y <= tmax tin -> conv tin (arith Z.sub tin tin x y) = x - y) as Hin.
  { intros x y Hxy. unfold arith. cbv zeta. rewrite conv_narrow, <- (conv_sub_arith tin) by lia.
    rewrite !conv_narrow, conv_sub_arith by lia.
    apply conv_small; [lia|]. unfold in_type. pose proof (tmin_tmax tin W3). lia. }
  rewrite !Hin by lia. clear Hin.
  set (s := signed_of tout) in *. assert (0 < wd s) as Hs by exact W4.
  rewrite (conv_small s (snd q)), (conv_small s (snd p)) by assumption.
  assert (in_type (usual s s) (snd q) /\ in_type (usual s s) (snd p)) as [Hq Hp].
  { assert (sg (usual s s) = true) by (rewrite E4; unfold promote; destruct (_ <? _); reflexivity).
    assert (wd s <= wd (usual s s)) by (rewrite W9; destruct Ht as (_ & [Hw|[Hw|Hw]] & _); unfold s, signed_of; cbn [wd]; lia).
    split; (apply (in_signed s); [exact Hs|assumption|right; split; [reflexivity|assumption]|assumption]). }
  rewrite (arith_exact Z.sub s s); [|rewrite W9; lia|exact Hq|exact Hp|rewrite E4; exact H8].
  set (a := v - fst p). set (b := snd q - snd p) in *. set (c := fst q - fst p) in *.
  assert (0 < a <= c) as Hac by (unfold a, c; lia).
  assert (in_type (lin_wide tout) b) as Hb.
  { unfold b. unfold s, signed_of in H4, H6. unfold in_type, tmin, tmax, lin_wide, wide, signed_of in *. cbn [sg wd] in *.
    replace (2 * wd tout - 1) with (wd tout - 1 + 1 + (wd tout - 1)) by lia. rewrite !Z.pow_add_r by lia.
    pose proof (Z.pow_pos_nonneg 2 (wd tout - 1)). change (2 ^ 1) with 2.
    set (P := 2 ^ (wd tout - 1)) in *. assert (P <= P * P) by nia. replace (P * 2 * P) with (2 * (P * P)) by ring. lia. }
  rewrite (conv_small (lin_wide tout) b) by (assumption || (unfold lin_wide, wide, signed_of; cbn [wd]; lia)).
  assert (0 < wd r) as Hr by lia.
  assert (in_type r b) as Hrb by (apply (in_signed (lin_wide tout)); [unfold lin_wide, wide, signed_of; cbn [wd]; lia|exact W8|right; split; [reflexivity|exact W7]|exact Hb]).
  assert (in_type r c) as Hrc.
  { apply (in_signed tin); [lia|exact W8|exact W5|]. pose proof (tmin_tmax tin W3). unfold in_type. lia. }
  assert (in_type r a) as Hra by (pose proof (tmin_tmax r Hr); unfold in_type in *; lia).
  pose proof (tmin_tmax r Hr) as (T1 & T2 & T3). specialize (T3 W8).
  rewrite Z.abs_mul in H9. rewrite (Z.abs_eq c) in H9 by lia.
  assert (Z.abs (a * b) <= c * Z.abs b) as Hm by (rewrite Z.abs_mul, (Z.abs_eq a) by lia; apply Z.mul_le_mono_nonneg_r; lia).
  rewrite (arith_exact Z.mul tin (lin_wide tout)); fold r; [|lia|exact Hra|exact Hrb|unfold in_type in *; lia].
  pose proof (quot_between a b c ltac:(lia) ltac:(lia)) as Hqb.
  assert (in_type r (a * b)) as Hab by (unfold in_type in *; lia).
  remember (Z.quot (a * b) c) as Q eqn:EQ.
  assert (arith Z.quot r tin (a * b) c = Q) as ->.
  { rewrite (arith_exact Z.quot r tin); try rewrite E1; rewrite <- ?EQ; try assumption; try reflexivity.
    clear - Hqb Hrb T1 T2. unfold between, in_type in *. lia. }
  assert (in_type tout (Q + snd p)) as Ho.
  { clear - Hqb H5 H7. unfold between, b in Hqb. unfold in_type in *. lia. }
  assert (in_type r Q) as HQ by (clear - Hqb Hrb T1 T2; unfold between, in_type in *; lia).
  rewrite (arith_exact Z.add r tout); try rewrite E2; try assumption.
  - rewrite conv_small by assumption. clear. lia.
  - apply (in_signed tout); [lia|exact W8|left; lia|assumption].
  - apply (in_signed tout); [lia|exact W8|left; lia|assumption].
Qed.

Lemma lin_loop_inside tin tout table p q v a b : increasing table -> table = a ++ p :: q :: b -> fst p < v <= fst q ->
  lin_interpolate tin tout table v = Some (lin_segment tin tout p q v).
Proof.
  intros Hs -> Hv. destruct a as [|x a].
  - cbn [app lin_interpolate]. destruct (v <=? fst p) eqn:E; [lia|]. cbn [lin_loop]. destruct (v <=? fst q) eqn:E1; [reflexivity|lia].
  - cbn [app] in *. inversion Hs as [|? ? Hs' Hall]; subst. cbn [lin_interpolate].
    assert (fst x < fst p) as Hx. { rewrite Forall_forall in Hall. apply Hall. apply in_or_app. right. left. reflexivity. }
    destruct (v <=? fst x) eqn:E; [lia|]. f_equal. clear Hall Hs Hx E. revert x Hs'. induction a as [|y a IH]; intros x Hs'.
    + cbn [app lin_loop]. destruct (v <=? fst p) eqn:E; [lia|]. destruct (v <=? fst q) eqn:E1; [reflexivity|lia].
    + cbn [app] in *. cbn [lin_loop]. inversion Hs' as [|? ? Hs2 Hall]; subst.
      assert (fst y < fst p) as Hy. { rewrite Forall_forall in Hall. apply Hall. apply in_or_app. right. left. reflexivity. }
      destruct (v <=? fst y) eqn:E; [lia|]. apply IH. exact Hs2.
Qed.
Lemma lin_low tin tout p rest v : v <= fst p -> lin_interpolate tin tout (p :: rest) v = Some (snd p).
Proof. intro H. cbn. destruct (v <=? fst p) eqn:E; [reflexivity|lia]. Qed.
Lemma lin_high tin tout a p v : increasing (a ++ [p]) -> fst p < v -> lin_interpolate tin tout (a ++ [p]) v = Some (snd p).
Proof.
  intros Hs Hv. destruct a as [|x a].
  - cbn. destruct (v <=? fst p) eqn:E; [lia|reflexivity].
  - cbn [app] in *. inversion Hs as [|? ? Hs' Hall]; subst. cbn [lin_interpolate].
    assert (fst x < fst p) as Hx. { rewrite Forall_forall in Hall. apply Hall. apply in_or_app. right. left. reflexivity. }
    destruct (v <=? fst x) eqn:E; [lia|]. f_equal. clear Hall Hs Hx E. revert x Hs'. induction a as [|y a IH]; intros x Hs'.
    + cbn [app lin_loop]. destruct (v <=? fst p) eqn:E; [lia|reflexivity].
    + cbn [app] in *. cbn [lin_loop]. inversion Hs' as [|? ? Hs2 Hall]; subst.
      assert (fst y < fst p) as Hy. { rewrite Forall_forall in Hall. apply Hall. apply in_or_app. right. left. reflexivity. }
      destruct (v <=? fst y) eqn:E; [lia|]. apply IH. exact Hs2.
Qed.
Lemma lin_point tin tout table p : let r := usual tin (lin_wide tout) in lin_types tin tout r -> increasing table ->
  (forall p q, neighbours table p q -> lin_fits tin tout r p q) -> In p table ->
  lin_interpolate tin tout table (fst p) = Some (snd p).
Proof.
  cbv zeta. intros Ht Hs Hf Hin. apply in_split in Hin. destruct Hin as (a & b & ->).
  destruct a as [|x a].
  - apply lin_low. lia.
  - destruct (exists_last (l := x :: a)) as (a' & o & E); [discriminate|]. rewrite E in *. rewrite <- app_assoc in *. cbn [app] in *.
    assert (fst o < fst p) as Ho.
    { clear - Hs. induction a' as [|y a' IH]; cbn [app] in Hs; inversion Hs as [|? ? Hs' Hall]; subst; [|auto].
      rewrite Forall_forall in Hall. apply Hall. left. reflexivity. }
    rewrite (lin_loop_inside tin tout _ o p (fst p) a' b) by (assumption || reflexivity || lia).
    rewrite lin_segment_exact; [|assumption|apply Hf; exists a', b; reflexivity|lia].
    f_equal. rewrite Z.mul_comm, Z.quot_mul by lia. lia.
Qed.

(* ---- range ---- *)
Lemma rg_more_inside start stop step x : rg_more start stop step x = true <-> rg_inside start stop step x.
Proof. unfold rg_more, rg_inside. destruct (0 <? step); lia. Qed.
Fixpoint steps (v step : Z) (m : nat) : list Z := match m with O => [] | S k => v :: steps (v + step) step k end.
Lemma steps_len v step m : zlen (steps v step m) = Z.of_nat m.
Proof. revert v. induction m; intro v; cbn [steps]; [reflexivity|]. rewrite zlen_cons, IHm. lia. Qed.
Lemma steps_nth v step m i : 0 <= i < Z.of_nat m -> znth (steps v step m) i = Some (v + i * step).
Proof.
  revert v i. induction m; intros v i Hi; [lia|]. cbn [steps]. destruct (Z.eq_dec i 0) as [->|].
  - rewrite znth_0. f_equal. lia.
  - rewrite znth_cons, IHm by lia. f_equal. lia.
Qed.
Section Range.
Variables (t : ity) (start stop step : Z).
Hypothesis Ht : 0 < wd t.
Hypothesis Hstart : in_type t start.
Hypothesis Hstop : in_type t stop.
Variable n : Z.
Hypothesis Hn : forall i, 0 <= i -> (before step (start + i * step) stop <-> i < n).
Hypothesis Hstep : step <> 0.
Lemma rg_inside_i i : 0 <= i < n -> rg_inside start stop step (start + i * step) /\ in_type t (start + i * step).
Proof.
  intro Hi. pose proof (proj2 (Hn i (proj1 Hi)) (proj2 Hi)) as B. unfold before, rg_inside, in_type in *. destruct (0 <? step) eqn:E.
  - assert (0 <= i * step) by (apply Z.mul_nonneg_nonneg; lia). lia.
  - assert (i * step <= 0) by (apply Z.mul_nonneg_nonpos; lia). lia.
Qed.
Lemma rg_loop_ok m : forall i f, 0 <= i -> i + Z.of_nat m = n -> (m < f)%nat ->
  ~ rg_inside start stop step (if n =? i then (if i =? 0 then start else conv t (start + i * step)) else conv t (start + n * step)) ->
  rg_loop f t start stop step (if (n =? i) && negb (i =? 0) then conv t (start + i * step) else start + i * step) = Some (steps (start + i * step) step m).
Proof.
  induction m as [|m IH]; intros i f Hi Hm Hf Ho; (destruct f as [|f]; [lia|]); cbn [rg_loop].
  - assert (n = i) as E by lia. rewrite E, Z.eqb_refl in *. cbn [andb].
    destruct (Z.eqb_spec i 0) as [->|].
    + cbn [negb]. replace (start + 0 * step) with start by lia.
      destruct (rg_more _ _ _ start) eqn:Em; [|reflexivity]. apply rg_more_inside in Em. contradiction.
    + cbn [negb]. destruct (rg_more _ _ _ _) eqn:Em; [|reflexivity]. apply rg_more_inside in Em. contradiction.
  - assert ((n =? i) = false) as E by lia. rewrite E in *. cbn [andb].
    destruct (rg_inside_i i) as [Hin Hty]; [lia|]. rewrite (proj2 (rg_more_inside _ _ _ _) Hin).
    replace (start + i * step + step) with (start + (i + 1) * step) by lia. cbn [steps].
    specialize (IH (i + 1) f ltac:(lia) ltac:(lia) ltac:(lia)).
    replace (start + i * step + step) with (start + (i + 1) * step) by lia.
    destruct (Z.eqb_spec n (i + 1)) as [E1|E1].
    + assert ((i + 1 =? 0) = false) as E2 by lia. rewrite E2 in *. cbn [andb negb] in IH. rewrite IH; [reflexivity|]. rewrite E1 in Ho. exact Ho.
    + cbn [andb] in IH. rewrite conv_small; [|exact Ht|apply rg_inside_i; lia]. rewrite IH; [reflexivity|]. exact Ho.
Qed.
(* if the value after the last one wraps back into the interval, the loop visits it *)
Lemma rg_loop_bad m : forall i f l, 0 <= i -> i + Z.of_nat m = n -> (0 < m)%nat ->
  rg_inside start stop step (conv t (start + n * step)) ->
  rg_loop f t start stop step (start + i * step) = Some l -> Z.of_nat m < zlen l.
Proof.
  induction m as [|m IH]; intros i f l Hi Hm Hp Ho Hl; [lia|]. destruct f as [|f]; [discriminate|]. cbn [rg_loop] in Hl.
  destruct (rg_inside_i i) as [Hin Hty]; [lia|]. rewrite (proj2 (rg_more_inside _ _ _ _) Hin) in Hl.
  replace (start + i * step + step) with (start + (i + 1) * step) in Hl by lia.
  destruct (rg_loop f t start stop step _) as [r|] eqn:Er; [|discriminate]. injection Hl as <-. rewrite zlen_cons.
  destruct m as [|m].
  - replace (i + 1) with n in Er by lia. destruct f as [|f]; [discriminate|]. cbn [rg_loop] in Er.
    rewrite (proj2 (rg_more_inside _ _ _ _) Ho) in Er. destruct (rg_loop f _ _ _ _ _) as [r'|]; [|discriminate].
    inversion Er. rewrite zlen_cons. pose proof (zlen_nonneg r'). lia.
  - rewrite conv_small in Er; [|exact Ht|apply rg_inside_i; lia].
    specialize (IH (i + 1) f r ltac:(lia) ltac:(lia) ltac:(lia) Ho Er). lia.
Qed.
Hypothesis Hn0 : 0 <= n.
Hypothesis Horder : rg_validate start stop step = true.
Lemma rg_correct : (n = 0 \/ ~ rg_inside start stop step (conv t (start + n * step))) ->
  exists l, (forall fuel, (Z.to_nat n < fuel)%nat -> rg_values fuel t start stop step = Some l) /\ arithmetic start stop step l.
Proof.
  intro Ho. exists (steps start step (Z.to_nat n)). split.
  - intros fuel Hf. unfold rg_values. rewrite Horder. cbv zeta.
    pose proof (rg_loop_ok (Z.to_nat n) 0 fuel ltac:(lia) ltac:(lia) Hf) as H.
    replace (start + 0 * step) with start in H by lia.
    cbn [Z.eqb negb] in H. rewrite Bool.andb_false_r in H. apply H.
    destruct (Z.eqb_spec n 0) as [E|E].
    + intro Hin. pose proof (proj1 (Hn 0 ltac:(lia))) as B. unfold before in B. unfold rg_inside in Hin.
      replace (start + 0 * step) with start in B by lia. destruct (0 <? step); lia.
    + destruct Ho; [lia|assumption].
  - split.
    + intros i Hi. rewrite steps_len in Hi. apply steps_nth. lia.
    + intros i Hi. rewrite steps_len, Z2Nat.id by lia. apply Hn. exact Hi.
Qed.
Lemma rg_wrong : 0 < n -> rg_inside start stop step (conv t (start + n * step)) ->
  forall fuel l, rg_values fuel t start stop step = Some l -> ~ arithmetic start stop step l.
Proof.
  intros Hp Ho fuel l Hl (_ & Ha). unfold rg_values in Hl. rewrite Horder in Hl. cbv zeta in Hl.
  replace start with (start + 0 * step) in Hl at 2 by lia.
  apply (rg_loop_bad (Z.to_nat n)) in Hl; [|lia|lia|lia|exact Ho].
  pose proof (Ha n ltac:(lia)) as A. pose proof (Hn n ltac:(lia)) as B. apply (Z.lt_irrefl n). apply B, A. lia.
Qed.
End Range.

(* ---- prescaler ---- *)
(* quotients are opaque to lia from here on *)
Local Ltac Zify.zify_post_hook ::= idtac.
Lemma asc_adj a x y b q : ascending (a ++ x :: y :: b) -> In q (a ++ x :: y :: b) -> q <= x \/ y <= q.
Proof.
  induction a as [|z a IH]; cbn [app]; intros Hs Hq; inversion Hs as [|? ? Hs' Hall]; subst.
  - destruct Hq as [->|[->|Hq]]; [lia|lia|]. inversion Hs' as [|? ? ? Hall']; subst. rewrite Forall_forall in Hall'. specialize (Hall' q Hq). lia.
  - destruct Hq as [->|Hq]; [|apply IH; assumption]. left. rewrite Forall_forall in Hall. specialize (Hall x). rewrite in_app_iff in Hall.
    cbn in Hall. assert (q < x) by (apply Hall; auto). lia.
Qed.
Lemma asc_last a x q : ascending (a ++ [x]) -> In q (a ++ [x]) -> q <= x.
Proof.
  induction a as [|z a IH]; cbn [app]; intros Hs Hq; inversion Hs as [|? ? Hs' Hall]; subst.
  - destruct Hq as [->|[]]. lia.
  - destruct Hq as [->|Hq]; [|apply IH; assumption]. rewrite Forall_forall in Hall. specialize (Hall x). rewrite in_app_iff in Hall.
    cbn in Hall. assert (q < x) by (apply Hall; auto). lia.
Qed.
Lemma ps_loop_spec inp df r : forall a x k flo cei iif iic, k = zlen a + 1 -> x * df <= inp ->
  ps_loop inp df x x k k r = (flo, cei, iif, iic) ->
  (exists b c, a ++ x :: r = b ++ flo :: cei :: c /\ iif - 1 = zlen b /\ iic - 1 = zlen b + 1 /\ flo * df <= inp < cei * df) \/
  (exists b, a ++ x :: r = b ++ [flo] /\ cei = flo /\ iif - 1 = zlen b /\ iic - 1 = zlen b /\ flo * df <= inp).
Proof.
  induction r as [|p r IH]; intros a x k flo cei iif iic Hk Hx; cbn [ps_loop].
  - intro E. inversion E; subst. right. exists a. repeat split; lia.
  - destruct (x * df <=? inp) eqn:E1; [|lia]. destruct (inp <? p * df) eqn:E2; cbn [andb].
    + intro E. inversion E; subst. left. exists a, r. repeat split; lia.
    + intro E. apply (IH (a ++ [x])) in E; [|rewrite zlen_app, zlen_cons, zlen_nil; lia|lia].
      rewrite <- app_assoc in E. exact E.
Qed.
Lemma div_ge_iff a b c : 0 < b -> (c <= a / b <-> c * b <= a).
Proof. intro H. split; intro H1; [pose proof (Z.mul_div_le a b H); nia|apply Z.div_le_lower_bound; lia]. Qed.
Lemma div_anti inp p q : 0 <= inp -> 0 < p <= q -> inp / q <= inp / p.
Proof. intros Hi Hp. apply Z.div_le_compat_l; lia. Qed.
Lemma pos_in l x : Forall (fun p => 0 < p) l -> In x l -> 0 < x.
Proof. rewrite Forall_forall. auto. Qed.
Lemma ps_range_spec inp df l : 0 < df -> 0 <= inp -> l <> [] -> ascending l -> Forall (fun p => 0 < p) l ->
  exists r, ps_from_range inp df l = Some r /\ admissible l (ps_index r) (ps_prescaler r) /\ ps_frequency r = inp / ps_prescaler r /\
    forall q, In q l -> closer_hz inp df (ps_prescaler r) q.
Proof.
  intros Hdf Hin Hne Ha Hp. destruct l as [|p0 rest]; [contradiction|]. unfold ps_from_range.
  destruct ((inp <=? p0 * df) || (zlen (p0 :: rest) =? 1)) eqn:E.
  - eexists. split; [reflexivity|]. cbn [ps_result ps_index ps_prescaler ps_frequency]. split; [reflexivity|]. split; [reflexivity|].
    intros q Hq. unfold closer_hz. apply orb_true_iff in E. destruct E as [E|E].
    + assert (p0 <= q) as Hpq. { destruct Hq as [->|Hq]; [lia|]. inversion Ha as [|? ? _ Hall]; subst. rewrite Forall_forall in Hall. specialize (Hall q Hq). lia. }
      pose proof (pos_in _ p0 Hp (or_introl eq_refl)) as H0. pose proof (div_anti inp p0 q Hin ltac:(lia)).
      assert (inp / p0 <= df) by (apply Z.div_le_upper_bound; lia). lia.
    + rewrite zlen_cons in E. assert (zlen rest = 0) as E0 by lia. apply zlen_0_nil in E0. subst. destruct Hq as [->|[]]. lia.
  - apply orb_false_iff in E. destruct E as [E _]. cbn [ps_loop]. destruct (p0 * df <=? inp) eqn:E1; [|lia]. destruct (inp <? p0 * df) eqn:E2; [lia|]. cbn [andb].
    destruct (ps_loop inp df p0 p0 (0 + 1) (0 + 1) rest) as [[[flo cei] iif] iic] eqn:El.
    apply (ps_loop_spec inp df rest [] p0) in El; [|reflexivity|lia]. cbn [app] in El.
    destruct El as [(b & c & El & I1 & I2 & Hb)|(b & El & -> & I1 & I2 & Hb)].
    + assert (In flo (p0 :: rest) /\ In cei (p0 :: rest)) as [If Ic] by (rewrite El, !in_app_iff; cbn; auto).
      pose proof (pos_in _ _ Hp If). pose proof (pos_in _ _ Hp Ic).
      assert (df <= inp / flo) by (apply div_ge_iff; lia).
      assert (inp / cei < df) by (apply Z.div_lt_upper_bound; lia).
      assert (forall q, In q (p0 :: rest) -> (df <= inp / flo <= inp / q) \/ (inp / q <= inp / cei < df)) as Hall.
      { intros q Hq. pose proof (pos_in _ _ Hp Hq). rewrite El in Hq, Ha. destruct (asc_adj _ _ _ _ _ Ha Hq).
        - left. split; [assumption|apply div_anti; lia].
        - right. split; [apply div_anti; lia|assumption]. }
      assert (admissible (p0 :: rest) (iif - 1) flo /\ admissible (p0 :: rest) (iic - 1) cei) as [A1 A2].
      { unfold admissible. rewrite El. split.
        - rewrite znth_app_r by lia. replace (iif - 1 - zlen b) with 0 by lia. reflexivity.
        - rewrite znth_app_r by lia. replace (iic - 1 - zlen b) with 1 by lia. reflexivity. }
      destruct (2 * df <=? inp / flo + inp / cei) eqn:E3; (eexists; split; [reflexivity|]);
        cbn [ps_result ps_index ps_prescaler ps_frequency]; (split; [assumption|]); (split; [reflexivity|]);
        intros q Hq; unfold closer_hz; specialize (Hall q Hq); generalize dependent (inp / q); generalize dependent (inp / flo); generalize dependent (inp / cei);
        clear; intros; lia.
    + assert (In flo (p0 :: rest)) as If by (rewrite El, !in_app_iff; cbn; auto). pose proof (pos_in _ _ Hp If).
      assert (df <= inp / flo) by (apply div_ge_iff; lia).
      assert (forall q, In q (p0 :: rest) -> df <= inp / flo <= inp / q) as Hall.
      { intros q Hq. pose proof (pos_in _ _ Hp Hq). rewrite El in Hq, Ha. pose proof (asc_last _ _ _ Ha Hq).
        split; [assumption|apply div_anti; lia]. }
      assert (admissible (p0 :: rest) (iif - 1) flo /\ iic = iif) as [A1 ->].
      { split; [|lia]. unfold admissible. rewrite El. rewrite znth_app_r by lia. replace (iif - 1 - zlen b) with 0 by lia. reflexivity. }
      destruct (2 * df <=? inp / flo + inp / flo); (eexists; split; [reflexivity|]);
        cbn [ps_result ps_index ps_prescaler ps_frequency]; (split; [assumption|]); (split; [reflexivity|]);
        intros q Hq; unfold closer_hz; specialize (Hall q Hq); generalize dependent (inp / q); generalize dependent (inp / flo); clear; intros; lia.
Qed.
Lemma ps_linear_spec inp df bgn nd : 0 < df -> 0 <= inp -> 1 <= bgn <= nd ->
  let r := ps_from_linear inp df bgn nd in
  bgn <= ps_prescaler r <= nd /\ ps_index r = ps_prescaler r - bgn /\ ps_frequency r = inp / ps_prescaler r /\
  forall q, bgn <= q <= nd -> closer_hz inp df (ps_prescaler r) q.
Proof.
  intros Hdf Hin Hb. unfold ps_from_linear. cbv zeta. set (d := inp / df).
  assert (d * df <= inp < (d + 1) * df) as Hd by (unfold d; pose proof (Z.mul_div_le inp df Hdf); pose proof (Z.mul_succ_div_gt inp df Hdf); nia).
  assert (0 <= d) as Hd0 by (apply Z.div_pos; lia). clearbody d.
  assert (forall q, 0 < q <= d -> df <= inp / q) as Hlo by (intros q Hq; apply div_ge_iff; nia).
  assert (forall q, d < q -> inp / q < df) as Hhi by (intros q Hq; apply Z.div_lt_upper_bound; nia).
  destruct (Z_lt_dec d bgn) as [C1|C1]; [|destruct (Z_lt_dec d nd) as [C2|C2]].
  - rewrite (Z.max_r d bgn), (Z.min_l (d + 1) nd) by lia.
    pose proof (Hhi bgn ltac:(lia)) as A. pose proof (Hhi (d + 1) ltac:(lia)) as B.
    destruct (2 * df <=? _) eqn:E; [lia|]. cbn [ps_result ps_index ps_prescaler ps_frequency]. repeat split; try lia.
    intros q Hq. unfold closer_hz. pose proof (div_anti inp bgn q Hin ltac:(lia)). clear - A H. lia.
  - rewrite (Z.max_l d bgn), (Z.min_l (d + 1) nd) by lia.
    pose proof (Hlo d ltac:(lia)) as A. pose proof (Hhi (d + 1) ltac:(lia)) as B.
    assert (forall q, bgn <= q <= nd -> inp / d <= inp / q \/ inp / q <= inp / (d + 1)) as Hall.
    { intros q Hq. destruct (Z_le_dec q d); [left|right]; apply div_anti; lia. }
    clear Hd Hlo Hhi; destruct (2 * df <=? _) eqn:E; cbn [ps_result ps_index ps_prescaler ps_frequency]; repeat split; try (clear - Hb C1 C2; lia);
      intros q Hq; unfold closer_hz; specialize (Hall q Hq); clear - A B E Hall; lia.
  - rewrite (Z.max_l d bgn), (Z.min_r (d + 1) nd) by lia.
    pose proof (Hlo d ltac:(lia)) as A. pose proof (Hlo nd ltac:(lia)) as B.
    clear Hd Hlo Hhi. destruct (2 * df <=? _) eqn:E; [|clear - A B E; lia]. cbn [ps_result ps_index ps_prescaler ps_frequency]. repeat split; try (clear - Hb C1 C2; lia).
    intros q Hq. unfold closer_hz. pose proof (div_anti inp q nd Hin ltac:(lia)). clear - B H. lia.
Qed.
Lemma ps_power_loop_spec inp df b k : forall c ii f, 0 <= c -> c + Z.of_nat k = b -> b < 32 -> (k < f)%nat ->
  exists j, 0 <= j /\ c + j <= b /\ ps_power_loop f inp df (2 ^ b) ii (2 ^ c) = Some (ii + j, 2 ^ (c + j)) /\
    (c + j = b \/ 3 * inp <= 4 * 2 ^ (c + j) * df) /\ (forall i, 0 <= i < j -> 4 * 2 ^ (c + i) * df < 3 * inp).
Proof.
  induction k as [|k IH]; intros c ii f Hc Hk Hb Hf; (destruct f as [|f]; [lia|]); cbn [ps_power_loop].
  - exists 0. replace (c + 0) with c by lia. replace b with c by lia. rewrite Z.ltb_irrefl. repeat split; try lia. f_equal; f_equal; lia.
  - assert (2 ^ c < 2 ^ b) as Hlt by (apply Z.pow_lt_mono_r; lia). destruct (2 ^ c <? 2 ^ b) eqn:E; [|lia].
    destruct (3 * inp <=? 4 * 2 ^ c * df) eqn:E1.
    + exists 0. replace (c + 0) with c by lia. repeat split; try lia. f_equal; f_equal; lia.
    + assert (u32 (2 ^ c * 2) = 2 ^ (c + 1)) as ->.
      { rewrite Z.pow_add_r by lia. change (2 ^ 1) with 2. apply Z.mod_small.
        assert (2 ^ (c + 1) <= 2 ^ b) by (apply Z.pow_le_mono_r; lia). assert (2 ^ b <= 2 ^ 31) by (apply Z.pow_le_mono_r; lia).
        rewrite Z.pow_add_r in H by lia. change (2 ^ 1) with 2 in H. change (2 ^ 31) with 2147483648 in H0.
        pose proof (Z.pow_pos_nonneg 2 c). lia. }
      destruct (IH (c + 1) (ii + 1) f ltac:(lia) ltac:(lia) Hb ltac:(lia)) as (j & J1 & J2 & J3 & J4 & J5).
      exists (j + 1). replace (c + (j + 1)) with (c + 1 + j) by lia. rewrite J3. repeat split; try lia.
      * f_equal; f_equal; lia.
      * intros i Hi. destruct (Z.eq_dec i 0) as [->|]; [replace (c + 0) with c by lia; lia|].
        specialize (J5 (i - 1) ltac:(lia)). replace (c + 1 + (i - 1)) with (c + i) in J5 by lia. exact J5.
Qed.
Lemma closer_up inp df p q : 0 < df -> 0 <= inp -> 0 < q -> 2 * q <= p -> 2 * p * df < 3 * inp -> closer_real inp df p q.
Proof.
  intros Hdf Hi Hq Hp H. unfold closer_real.
  assert (2 * (q * df) <= p * df) as M by (replace (2 * (q * df)) with (2 * q * df) by ring; apply Z.mul_le_mono_nonneg_r; lia).
  assert (0 <= q * df) by nia. rewrite (Z.abs_eq (inp - q * df)) by nia.
  destruct (Z_le_dec (p * df) inp) as [C|C].
  - rewrite Z.abs_eq by lia. assert (q * inp <= p * inp) by (apply Z.mul_le_mono_nonneg_r; lia). nia.
  - rewrite Z.abs_neq by lia. assert ((p + q) * (2 * p * df) <= (p + q) * (3 * inp)) by (apply Z.mul_le_mono_nonneg_l; lia).
    assert (3 * q * (2 * p * df) <= (p + q) * (2 * p * df)) by (apply Z.mul_le_mono_nonneg_r; nia). nia.
Qed.
Lemma closer_down inp df p q : 0 < df -> 0 <= inp -> 0 < p -> 2 * p <= q -> 3 * inp <= 4 * p * df -> closer_real inp df p q.
Proof.
  intros Hdf Hi Hp Hq H. unfold closer_real.
  assert (2 * (p * df) <= q * df) as M by (replace (2 * (p * df)) with (2 * p * df) by ring; apply Z.mul_le_mono_nonneg_r; lia).
  assert (0 <= p * df) by nia. rewrite (Z.abs_neq (inp - q * df)) by nia.
  destruct (Z_le_dec (p * df) inp) as [C|C].
  - rewrite Z.abs_eq by lia. assert ((p + q) * (3 * inp) <= (p + q) * (4 * p * df)) by (apply Z.mul_le_mono_nonneg_l; lia).
    assert ((p + q) * 2 * (2 * p * df) <= 3 * q * (2 * p * df)) by (apply Z.mul_le_mono_nonneg_r; nia). nia.
  - rewrite Z.abs_neq by lia. assert (p * inp <= q * inp) by (apply Z.mul_le_mono_nonneg_r; lia). nia.
Qed.
Lemma ps_power_spec inp df a b fuel : 0 < df -> 0 <= inp -> 0 <= a <= b -> b < 32 -> (32 <= fuel)%nat ->
  exists r c, ps_from_power fuel inp df (2 ^ a) (2 ^ b) = Some r /\ ps_prescaler r = 2 ^ c /\ a <= c <= b /\ ps_index r = c - a /\
    ps_frequency r = inp / ps_prescaler r /\ forall e, a <= e <= b -> closer_real inp df (ps_prescaler r) (2 ^ e).
Proof.
  intros Hdf Hi Ha Hb Hf. destruct (ps_power_loop_spec inp df b (Z.to_nat (b - a)) a 0 fuel ltac:(lia) ltac:(lia) Hb ltac:(lia)) as (j & J1 & J2 & J3 & J4 & J5).
  exists (ps_result inp (0 + j) (2 ^ (a + j))), (a + j). unfold ps_from_power. rewrite J3. cbn [obind ps_result ps_index ps_prescaler ps_frequency].
  repeat split; try lia. intros e He. destruct (Z_lt_dec e (a + j)) as [C|C]; [|destruct (Z.eq_dec e (a + j)) as [->|C2]].
  - specialize (J5 (j - 1) ltac:(lia)). assert (2 ^ (a + j) = 2 * 2 ^ (a + (j - 1))) as E by (rewrite <- Z.pow_succ_r by lia; f_equal; lia).
    apply closer_up; try assumption; [apply Z.pow_pos_nonneg; lia| |rewrite E; lia].
    rewrite <- Z.pow_succ_r by lia. apply Z.pow_le_mono_r; lia.
  - unfold closer_real. lia.
  - apply closer_down; try assumption; [apply Z.pow_pos_nonneg; lia| |lia]. rewrite <- Z.pow_succ_r by lia. apply Z.pow_le_mono_r; lia.
Qed.

(* ---- prescaler and counter ---- *)
Lemma min_pos_spec l : forall a i bi b, i = zlen a -> znth a bi = Some b -> (forall x, In x a -> b <= x) ->
  admissible (a ++ l) (fst (min_pos l i bi b)) (snd (min_pos l i bi b)) /\ forall x, In x (a ++ l) -> snd (min_pos l i bi b) <= x.
Proof.
  induction l as [|x l IH]; intros a i bi b Hi Hb Hm; cbn [min_pos].
  - rewrite app_nil_r. auto.
  - replace (a ++ x :: l) with ((a ++ [x]) ++ l) by (rewrite <- app_assoc; reflexivity). destruct (x <? b) eqn:E.
    + apply IH; [rewrite zlen_app, zlen_cons, zlen_nil; lia|rewrite znth_app_r by lia; replace (i - zlen a) with 0 by lia; reflexivity|].
      intros y Hy. apply in_app_iff in Hy. destruct Hy as [Hy|[->|[]]]; [specialize (Hm y Hy)|]; lia.
    + apply IH; [rewrite zlen_app, zlen_cons, zlen_nil; lia|rewrite znth_app_l; [assumption|apply znth_Some in Hb; lia]|].
      intros y Hy. apply in_app_iff in Hy. destruct Hy as [Hy|[->|[]]]; [specialize (Hm y Hy)|]; lia.
Qed.
Lemma max_pos_spec l : forall a i bi b, i = zlen a -> znth a bi = Some b -> (forall x, In x a -> x <= b) ->
  admissible (a ++ l) (fst (max_pos l i bi b)) (snd (max_pos l i bi b)) /\ forall x, In x (a ++ l) -> x <= snd (max_pos l i bi b).
Proof.
  induction l as [|x l IH]; intros a i bi b Hi Hb Hm; cbn [max_pos].
  - rewrite app_nil_r. auto.
  - replace (a ++ x :: l) with ((a ++ [x]) ++ l) by (rewrite <- app_assoc; reflexivity). destruct (b <=? x) eqn:E.
    + apply IH; [rewrite zlen_app, zlen_cons, zlen_nil; lia|rewrite znth_app_r by lia; replace (i - zlen a) with 0 by lia; reflexivity|].
      intros y Hy. apply in_app_iff in Hy. destruct Hy as [Hy|[->|[]]]; [specialize (Hm y Hy)|]; lia.
    + apply IH; [rewrite zlen_app, zlen_cons, zlen_nil; lia|rewrite znth_app_l; [assumption|apply znth_Some in Hb; lia]|].
      intros y Hy. apply in_app_iff in Hy. destruct Hy as [Hy|[->|[]]]; [specialize (Hm y Hy)|]; lia.
Qed.
Section Counter.
Variables (inp df maxc : Z) (l : list Z).
Hypothesis Hdf : 0 < df.
Hypothesis Hmaxc : 1 <= maxc.
Hypothesis Hl : Forall (fun p => 0 < p /\ p * maxc < 2 ^ 32) l.
Definition err (d : Z) : Z := Z.abs (inp - d * df).
(* the prescalers of [a] have been handled *)
Definition pc_inv (a : list Z) (best : pc_best) : Prop :=
  match best with
  | None => forall p, In p a -> maxc * p * df < inp
  | Some (r, e) => admissible l (pc_index r) (pc_prescaler r) /\ 1 <= pc_counter r <= maxc /\
      e = err (pc_prescaler r * pc_counter r) /\
      forall p c, In p a -> inp <= maxc * p * df -> 1 <= c <= maxc -> e <= err (p * c)
  end.
Lemma u32_id p c : In p l -> 1 <= c <= maxc -> u32 (p * c) = p * c.
Proof. intros Hp Hc. rewrite Forall_forall in Hl. specialize (Hl p Hp). change (2 ^ 32) with 4294967296 in Hl. apply Z.mod_small. nia. Qed.
Lemma compare_inv best idx pre cnt : In pre l -> 1 <= cnt <= maxc -> admissible l idx pre ->
  match best with None => True | Some (r, e) => admissible l (pc_index r) (pc_prescaler r) /\ 1 <= pc_counter r <= maxc /\ e = err (pc_prescaler r * pc_counter r) end ->
  exists r e, pc_compare inp df best idx pre cnt = Some (r, e) /\ admissible l (pc_index r) (pc_prescaler r) /\
    1 <= pc_counter r <= maxc /\ e = err (pc_prescaler r * pc_counter r) /\ e <= err (pre * cnt) /\
    match best with None => True | Some (_, e') => e <= e' end.
Proof.
  intros Hp Hc Ha Hb. unfold pc_compare. cbv zeta. rewrite u32_id by assumption. change (Z.abs (inp - pre * cnt * df)) with (err (pre * cnt)).
  destruct best as [[r e]|].
  - destruct Hb as (B1 & B2 & B3). destruct (err (pre * cnt) <? e) eqn:E.
    + eexists _, _. split; [reflexivity|]. cbn [pc_index pc_prescaler pc_counter]. repeat split; auto; lia.
    + eexists _, _. split; [reflexivity|]. repeat split; auto; lia.
  - eexists _, _. split; [reflexivity|]. cbn [pc_index pc_prescaler pc_counter]. repeat split; auto; lia.
Qed.
Lemma err_low p c c' : 0 < p -> c <= c' -> p * c' * df <= inp -> err (p * c') <= err (p * c).
Proof. intros Hp Hc H. unfold err. assert (p * c * df <= p * c' * df) by (apply Z.mul_le_mono_nonneg_r; nia). lia. Qed.
Lemma err_high p c c' : 0 < p -> c' <= c -> inp <= p * c' * df -> err (p * c') <= err (p * c).
Proof. intros Hp Hc H. unfold err. assert (p * c' * df <= p * c * df) by (apply Z.mul_le_mono_nonneg_r; nia). lia. Qed.
Lemma pc_loop_inv r : forall a idx best, l = a ++ r -> idx = zlen a -> pc_inv a best -> pc_inv l (pc_loop inp df maxc idx r best).
Proof.
  induction r as [|p r IH]; intros a idx best El Hidx Hb; cbn [pc_loop].
  - rewrite app_nil_r in El. subst a. exact Hb.
  - assert (In p l) as Hp by (rewrite El; apply in_or_app; right; left; reflexivity).
    pose proof Hl as Hl'. rewrite Forall_forall in Hl'. destruct (Hl' p Hp) as [Hp0 Hp1]. clear Hl'.
    rewrite (Z.mul_comm maxc p), (u32_id p maxc) by (assumption || lia).
    assert (admissible l idx p) as Ha by (unfold admissible; rewrite El, znth_app_r by lia; replace (idx - zlen a) with 0 by lia; reflexivity).
    assert (l = (a ++ [p]) ++ r) as El' by (rewrite <- app_assoc; exact El).
    assert (idx + 1 = zlen (a ++ [p])) as Hidx' by (rewrite zlen_app, zlen_cons, zlen_nil; lia).
    destruct (p * maxc * df <? inp) eqn:E.
    + apply (IH (a ++ [p])); [assumption|assumption|]. destruct best as [[r0 e]|]; cbn [pc_inv] in *.
      * destruct Hb as (B1 & B2 & B3 & B4). repeat split; try assumption; try lia. intros q c Hq Hr Hc. apply in_app_iff in Hq.
        destruct Hq as [Hq|[<-|[]]]; [auto|]. rewrite (Z.mul_comm maxc p) in Hr. lia.
      * intros q Hq. apply in_app_iff in Hq. destruct Hq as [Hq|[<-|[]]]; [auto|]. rewrite (Z.mul_comm maxc p). lia.
    + set (cnt := Z.max 1 (inp / (df * p))).
      assert (0 < df * p) as Hdp by nia.
      pose proof (Z.mul_div_le inp (df * p) Hdp) as D1. pose proof (Z.mul_succ_div_gt inp (df * p) Hdp) as D2.
      assert (inp / (df * p) <= maxc) as D3 by (apply Z.div_le_upper_bound; nia).
      set (d := inp / (df * p)) in *. clearbody d.
      assert (1 <= cnt <= maxc) as Hcnt by lia.
      destruct (compare_inv best idx p cnt Hp Hcnt Ha) as (r1 & e1 & -> & C1 & C2 & C3 & C4 & C5).
      { destruct best as [[r0 e]|]; [|exact I]. cbn [pc_inv] in Hb. tauto. }
      destruct (maxc - 1 <? cnt) eqn:E1.
      * apply (IH (a ++ [p])); [assumption|assumption|]. cbn [pc_inv]. repeat split; try assumption; try lia.
        intros q c Hq Hr Hc. apply in_app_iff in Hq. destruct Hq as [Hq|[<-|[]]].
        -- destruct best as [[r0 e]|]; cbn [pc_inv] in Hb; [destruct Hb as (_ & _ & _ & B4); specialize (B4 q c Hq Hr Hc); lia|specialize (Hb q Hq); lia].
        -- assert (err (p * cnt) <= err (p * c)); [|lia]. destruct (Z_le_dec 1 d).
           ++ apply err_low; [assumption|lia|]. assert (cnt = d) as -> by lia. nia.
           ++ apply err_high; [assumption|lia|]. assert (cnt = 1) as -> by lia. nia.
      * destruct (compare_inv (Some (r1, e1)) idx p (cnt + 1) Hp ltac:(lia) Ha) as (r2 & e2 & -> & F1 & F2 & F3 & F4 & F5); [tauto|].
        apply (IH (a ++ [p])); [assumption|assumption|]. cbn [pc_inv]. repeat split; try assumption; try lia.
        intros q c Hq Hr Hc. apply in_app_iff in Hq. destruct Hq as [Hq|[<-|[]]].
        -- destruct best as [[r0 e]|]; cbn [pc_inv] in Hb; [destruct Hb as (_ & _ & _ & B4); specialize (B4 q c Hq Hr Hc); lia|specialize (Hb q Hq); lia].
        -- destruct (Z_le_dec 1 d).
           ++ assert (cnt = d) as Ecd by lia. rewrite Ecd in *. destruct (Z_le_dec c d).
              ** assert (err (p * d) <= err (p * c)); [|lia]. apply err_low; [assumption|lia|]. nia.
              ** assert (err (p * (d + 1)) <= err (p * c)); [|lia]. apply err_high; [assumption|lia|]. nia.
           ++ assert (err (p * cnt) <= err (p * c)); [|lia]. apply err_high; [assumption|lia|]. assert (cnt = 1) as -> by lia. nia.
Qed.
Lemma pc_spec : l <> [] -> exists r, pc_from_range inp df maxc l = Some r /\ admissible l (pc_index r) (pc_prescaler r) /\
  1 <= pc_counter r <= maxc /\
  forall p c, In p l -> 1 <= c <= maxc ->
    (inp <= maxc * p * df \/ (forall q, In q l -> maxc * q * df < inp)) -> err (pc_prescaler r * pc_counter r) <= err (p * c).
Proof.
  intro Hne. destruct l as [|p0 rest] eqn:El; [contradiction|]. unfold pc_from_range.
  destruct (min_pos rest 1 0 p0) as [mini minv] eqn:Emin. destruct (max_pos rest 1 0 p0) as [maxi maxv] eqn:Emax.
  pose proof (min_pos_spec rest [p0] 1 0 p0 eq_refl eq_refl) as Mn. pose proof (max_pos_spec rest [p0] 1 0 p0 eq_refl eq_refl) as Mx.
  rewrite Emin in Mn. rewrite Emax in Mx. cbn [fst snd app] in *.
  destruct Mn as [A1 A2]; [intros x [->|[]]; lia|]. destruct Mx as [A3 A4]; [intros x [->|[]]; lia|].
  assert (forall i x, admissible (p0 :: rest) i x -> In x (p0 :: rest)) as Hadm.
  { intros i x Hx. unfold admissible, znth in Hx. destruct (i <? 0); [discriminate|]. eapply nth_error_In; exact Hx. }
  pose proof (Hadm _ _ A1) as I1. pose proof (Hadm _ _ A3) as I3.
  rewrite <- El in *. pose proof Hl as Hl'. rewrite Forall_forall in Hl'.
  destruct (inp <? minv * df) eqn:E1.
  - eexists. split; [reflexivity|]. cbn [pc_index pc_prescaler pc_counter]. split; [assumption|]. split; [lia|].
    intros p c Hp Hc _. specialize (A2 p Hp). destruct (Hl' minv I1). unfold err.
    assert (minv * 1 * df <= p * c * df) by (apply Z.mul_le_mono_nonneg_r; nia). lia.
  - rewrite (u32_id maxv maxc) by (assumption || lia). destruct (maxv * maxc * df <? inp) eqn:E2.
    + eexists. split; [reflexivity|]. cbn [pc_index pc_prescaler pc_counter]. split; [assumption|]. split; [lia|].
      intros p c Hp Hc _. specialize (A4 p Hp). destruct (Hl' p Hp). unfold err.
      assert (p * c * df <= maxv * maxc * df) by (apply Z.mul_le_mono_nonneg_r; nia). lia.
    + pose proof (pc_loop_inv l [] 0 None eq_refl eq_refl) as H. cbn [pc_inv] in H.
      specialize (H (fun p (Hp : In p []) => match Hp with end)). destruct (pc_loop inp df maxc 0 l None) as [[r e]|]; cbn [pc_inv] in H.
      * destruct H as (B1 & B2 & B3 & B4). exists r. split; [reflexivity|]. split; [assumption|]. split; [assumption|].
        intros p c Hp Hc [Hr|Hr]; [rewrite <- B3; auto|]. specialize (Hr maxv I3). nia.
      * specialize (H maxv I3). nia.
Qed.
End Counter.
Lemma upto_in b n x : In x (upto b n) <-> b <= x < b + Z.of_nat n.
Proof. revert b. induction n; intro b; cbn [upto In]; [lia|]. rewrite IHn. lia. Qed.
Lemma upto_len b n : length (upto b n) = n. Proof. revert b. induction n; intro b; cbn; [reflexivity|]. rewrite IHn. reflexivity. Qed.
Lemma pc_range_in f a b x : In x (pc_range f a b) <-> exists i, x = f i /\ Z.min a b <= i <= Z.max a b.
Proof.
  unfold pc_range. destruct (b <? a) eqn:E; rewrite in_map_iff; split; intros (i & H1 & H2); exists i.
  - rewrite <- in_rev, upto_in in H2. lia.
  - rewrite <- in_rev, upto_in. lia.
  - rewrite upto_in in H2. lia.
  - rewrite upto_in. lia.
Qed.
Lemma pc_range_nonempty f a b : pc_range f a b <> [].
Proof.
  intro H. assert (In (f (Z.min a b)) (pc_range f a b)) as Hi by (apply pc_range_in; exists (Z.min a b); lia). rewrite H in Hi. contradiction.
Qed.
Lemma bit_width_pow k : 0 <= k -> bit_width (2 ^ k - 1) = k.
Proof.
  intro H. unfold bit_width. destruct (Z.eqb_spec (2 ^ k - 1) 0) as [E|E].
  - destruct (Z.eq_dec k 0); [lia|]. pose proof (Z.pow_gt_1 2 k). lia.
  - assert (k <> 0) by (intros ->; apply E; reflexivity). replace (2 ^ k - 1) with (Z.pred (2 ^ k)) by lia. rewrite Z.log2_pred_pow2 by lia. lia.
Qed.
Lemma doubling_crosses M df inp : forall k p, 0 < p -> M * p * df < inp -> inp <= M * (2 ^ Z.of_nat k * p) * df ->
  exists j, 0 <= j < Z.of_nat k /\ M * (2 ^ j * p) * df < inp <= M * (2 ^ (j + 1) * p) * df.
Proof.
  induction k as [|k IH]; intros p Hp H1 H2.
  - change (2 ^ Z.of_nat 0) with 1 in H2. rewrite Z.mul_1_l in H2. lia.
  - destruct (Z_lt_dec (M * (2 * p) * df) inp) as [C|C].
    + destruct (IH (2 * p)) as (j & J1 & J2); [lia|exact C| |].
      { replace (Z.of_nat (S k)) with (Z.of_nat k + 1) in H2 by lia. rewrite Z.pow_add_r in H2 by lia. change (2 ^ 1) with 2 in H2.
        replace (2 ^ Z.of_nat k * (2 * p)) with (2 ^ Z.of_nat k * 2 * p) by ring. exact H2. }
      exists (j + 1). split; [lia|]. rewrite (Z.pow_add_r 2 (j + 1) 1), (Z.pow_add_r 2 j 1) by lia. rewrite Z.pow_add_r in J2 by lia. change (2 ^ 1) with 2 in *.
      replace (2 ^ j * 2 * p) with (2 ^ j * (2 * p)) by ring. replace (2 ^ j * 2 * 2 * p) with (2 ^ j * 2 * (2 * p)) by ring. exact J2.
    + exists 0. split; [lia|]. change (2 ^ 0) with 1. change (2 ^ (0 + 1)) with 2. rewrite Z.mul_1_l. lia.
Qed.
Lemma pc_power_spec inp df maxc a b : 0 < df -> 0 <= inp -> 1 <= maxc -> Z.even maxc = true -> 0 <= a -> 0 <= b ->
  2 ^ Z.max a b * maxc < 2 ^ 32 ->
  exists r i, pc_from_power inp df maxc (2 ^ a) (2 ^ b) = Some r /\ pc_prescaler r = 2 ^ i /\ Z.min a b <= i <= Z.max a b /\
    1 <= pc_counter r <= maxc /\
    forall e c, Z.min a b <= e <= Z.max a b -> 1 <= c <= maxc -> closer_ratio inp df (pc_prescaler r * pc_counter r) (2 ^ e * c).
Proof.
  intros Hdf Hi Hm Hev Ha Hb Hov. unfold pc_from_power. rewrite !bit_width_pow by assumption. set (l := pc_range (fun i => Z.shiftl 1 i) a b).
  assert (forall x, In x l <-> exists i, x = 2 ^ i /\ Z.min a b <= i <= Z.max a b) as Hin.
  { intro x. unfold l. rewrite pc_range_in. split; intros (i & -> & H); exists i; (split; [|exact H]); rewrite Z.shiftl_mul_pow2 by lia; lia. }
  assert (Forall (fun p => 0 < p /\ p * maxc < 2 ^ 32) l) as Hl.
  { apply Forall_forall. intros x Hx. apply Hin in Hx. destruct Hx as (i & -> & H). split; [apply Z.pow_pos_nonneg; lia|].
    assert (2 ^ i <= 2 ^ Z.max a b) by (apply Z.pow_le_mono_r; lia). nia. }
  destruct (pc_spec inp df maxc l Hdf Hm Hl (pc_range_nonempty _ _ _)) as (r & E & R1 & R2 & R3).
  assert (In (pc_prescaler r) l) as Hr. { unfold admissible, znth in R1. destruct (_ <? 0); [discriminate|]. eapply nth_error_In; exact R1. }
  apply Hin in Hr. destruct Hr as (i & Hri & Hi2). exists r, i. split; [exact E|]. split; [exact Hri|]. split; [exact Hi2|]. split; [exact R2|].
  intros e c He Hc. unfold closer_ratio. change (err inp df (pc_prescaler r * pc_counter r) <= err inp df (2 ^ e * c)).
  assert (In (2 ^ e) l) as Ie by (apply Hin; exists e; auto). assert (0 < 2 ^ e) as P by (apply Z.pow_pos_nonneg; lia).
  set (top := Z.max a b) in *. assert (In (2 ^ top) l) as It by (apply Hin; exists top; split; [reflexivity|lia]).
  destruct (Z_le_dec inp (maxc * 2 ^ e * df)) as [C|C]; [apply R3; auto|].
  destruct (Z_le_dec inp (maxc * 2 ^ top * df)) as [C2|C2].
  - destruct (doubling_crosses maxc df inp (Z.to_nat (top - e)) (2 ^ e)) as (j & J1 & J2); [exact P|lia| |].
    { rewrite Z2Nat.id by lia. rewrite <- Z.pow_add_r by lia. replace (top - e + e) with top by lia. exact C2. }
    rewrite Z2Nat.id in J1 by lia. rewrite <- !Z.pow_add_r in J2 by lia.
    apply Z.even_spec in Hev. destruct Hev as (h & Eh).
    assert (err inp df (pc_prescaler r * pc_counter r) <= err inp df (2 ^ (j + 1 + e) * h)) as Hbest.
    { apply R3; [apply Hin; exists (j + 1 + e); split; [reflexivity|lia]|lia|left; lia]. }
    assert (2 ^ (j + 1 + e) * h = maxc * 2 ^ (j + e)) as Eq.
    { replace (j + 1 + e) with (1 + (j + e)) by lia. rewrite (Z.pow_add_r 2 1) by lia. change (2 ^ 1) with 2. rewrite Eh. ring. }
    rewrite Eq in Hbest. eapply Z.le_trans; [exact Hbest|]. unfold err.
    assert (2 ^ e <= 2 ^ (j + e)) by (apply Z.pow_le_mono_r; lia).
    assert (2 ^ e * c <= maxc * 2 ^ (j + e)) by (rewrite (Z.mul_comm maxc); apply Z.mul_le_mono_nonneg; lia).
    assert (2 ^ e * c * df <= maxc * 2 ^ (j + e) * df) by (apply Z.mul_le_mono_nonneg_r; lia). lia.
  - apply R3; [assumption|assumption|]. right. intros q Hq. apply Hin in Hq. destruct Hq as (i' & -> & Hi').
    assert (2 ^ i' <= 2 ^ top) by (apply Z.pow_le_mono_r; lia).
    assert (maxc * 2 ^ i' * df <= maxc * 2 ^ top * df) by (apply Z.mul_le_mono_nonneg_r; nia). lia.
Qed.
