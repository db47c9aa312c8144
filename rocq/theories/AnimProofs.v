(* Proofs about FastRamp and Animation. *)
From Verif Require Import Base BitsProofs AnimModel AnimSpec.

Lemma facts T : In T instances ->
  0 < fr T /\ 0 < vb T /\ vb T + fr T <= ab T /\ (2 ^ vb T - 1) * 2 ^ fr T < 2 ^ (ab T - 1) /\ 0 < sb T /\ 0 < tb T /\ (db T = 8 \/ db T = 32) /\ 1 < ab T /\
  2 ^ vb T = 2 * 2 ^ (vb T - 1) /\ 0 < 2 ^ (vb T - 1) /\ 2 ^ fr T < 2 ^ ab T.
Proof.
  intro H. cbn [instances In] in H.
  repeat (destruct H as [<- | H]; [cbn; repeat split; try lia; auto|]). destruct H.
Qed.

Lemma toT_fits T x : 0 < vb T -> fits (vb T) (vs T) x -> toT T x = x.
Proof.
  unfold toT, fits. intros Hv H. destruct (vs T).
  - apply swrap_small; lia.
  - unfold wrap. apply Z.mod_small. lia.
Qed.

Lemma toT_mod T x y : 0 < vb T -> x mod 2 ^ vb T = y mod 2 ^ vb T -> toT T x = toT T y.
Proof.
  unfold toT. intros Hv H. destruct (vs T).
  - unfold swrap. f_equal. rewrite <- (Z.add_mod_idemp_l x) by (apply Z.pow_nonzero; lia). rewrite H.
    now rewrite Z.add_mod_idemp_l by (apply Z.pow_nonzero; lia).
  - exact H.
Qed.

Lemma toT_reduced T x : 0 < vb T -> reduced (vb T) (vs T) x (toT T x).
Proof.
  intro Hv. unfold reduced, toT, fits. destruct (vs T).
  - split; [apply swrap_range; lia|]. unfold swrap. exists (- ((x + 2 ^ (vb T - 1)) / 2 ^ vb T)).
    pose proof (Z.div_mod (x + 2 ^ (vb T - 1)) (2 ^ vb T) ltac:(apply Z.pow_nonzero; lia)). nia.
  - unfold wrap. split; [apply Z.mod_pos_bound; apply Z.pow_pos_nonneg; lia|].
    exists (- (x / 2 ^ vb T)). pose proof (Z.div_mod x (2 ^ vb T) ltac:(apply Z.pow_nonzero; lia)). nia.
Qed.

(* reading the bits above the point does not depend on the bits cut off *)
Lemma get_mod f v a x : 0 <= f -> 0 <= v -> v + f <= a -> (x mod 2 ^ a / 2 ^ f) mod 2 ^ v = (x / 2 ^ f) mod 2 ^ v.
Proof.
  intros Hf Hv Ha.
  assert (Pa : 0 < 2 ^ a) by (apply Z.pow_pos_nonneg; lia).
  assert (Pf : 0 < 2 ^ f) by (apply Z.pow_pos_nonneg; lia).
  assert (Pv : 0 < 2 ^ v) by (apply Z.pow_pos_nonneg; lia).
  rewrite (Z.mod_eq x (2 ^ a)) by lia.
  assert (E : x - 2 ^ a * (x / 2 ^ a) = x + (- (2 ^ (a - f - v) * (x / 2 ^ a)) * 2 ^ v) * 2 ^ f).
  { assert (E2 : 2 ^ a = 2 ^ (a - f - v) * 2 ^ v * 2 ^ f) by (rewrite <- !Z.pow_add_r by lia; f_equal; lia).
    rewrite E2 at 1. ring. }
  rewrite E. rewrite Z.div_add by lia. apply Z.mod_add. lia.
Qed.

Lemma get_true T r x : In T instances -> acc r = wrap (ab T) x -> get T r = toT T (x / 2 ^ fr T).
Proof.
  intros HT H. destruct (facts T HT) as (F1 & F2 & F3 & _). unfold get. rewrite H. apply toT_mod; [lia|]. unfold wrap. apply get_mod; lia.
Qed.

Lemma wrap_add_l w x y : 0 <= w -> wrap w (wrap w x + y) = wrap w (x + y).
Proof. intro H. unfold wrap. apply Z.add_mod_idemp_l. apply Z.pow_nonzero; lia. Qed.

Lemma steps_true T n r x : In T instances -> acc r = wrap (ab T) x ->
  acc (steps T n r) = wrap (ab T) (x + Z.of_nat n * dv r) /\ dv (steps T n r) = dv r.
Proof.
  intro HT. destruct (facts T HT) as (F1 & F2 & F3 & _). revert r x. induction n as [|n IH]; intros r x H.
  - cbn [steps]. split; [rewrite H; f_equal; lia | reflexivity].
  - cbn [steps].
    assert (H1 : acc (step T r) = wrap (ab T) (x + dv r)) by (unfold step; cbn [acc]; rewrite H; apply wrap_add_l; lia).
    destruct (IH (step T r) (x + dv r) H1) as [E1 E2]. cbn [step dv] in E1, E2. rewrite E1, E2.
    split; [f_equal; lia | reflexivity].
Qed.

(* the direction of the way from a to b *)
Definition sg (a b : Z) : Z := if a <? b then 1 else -1.
(* thousandths per step without the sign *)
Definition speed (T : ramptype) (b e time : Z) : Z := Z.max 1 (Z.abs (e - b) * 2 ^ fr T / time).

Lemma fits_diff T b e : In T instances -> fits (vb T) (vs T) b -> fits (vb T) (vs T) e -> Z.abs (e - b) <= 2 ^ vb T - 1.
Proof.
  intros HT Hb He. destruct (facts T HT) as (F1 & F2 & F3 & F4 & F5 & F6 & F7 & F8 & F9 & F10 & F11).
  unfold fits in *. destruct (vs T); lia.
Qed.

Lemma quot_sg k x t : 0 <= x -> 0 < t -> (k = 1 \/ k = -1) -> Z.quot (k * x) t = k * (x / t).
Proof.
  intros Hx Ht Hk. rewrite <- Z.quot_div_nonneg by lia. destruct Hk as [-> | ->].
  - now rewrite !Z.mul_1_l.
  - replace (-1 * x) with (- x) by ring. rewrite Z.quot_opp_l by lia. ring.
Qed.

Lemma sg_cases a b : sg a b = 1 \/ sg a b = -1.
Proof. unfold sg. destruct (a <? b); auto. Qed.

Lemma sg_abs a b : b - a = sg a b * Z.abs (b - a).
Proof. unfold sg. destruct (a <? b) eqn:E; lia. Qed.

Lemma initialize_true T b e time : In T instances -> fits (vb T) (vs T) b -> fits (vb T) (vs T) e -> b <> e -> 0 < time < 2 ^ (sb T - 1) ->
  exists r, initialize T b e time = Some r /\ dv r = sg b e * speed T b e time /\
    acc r = wrap (ab T) (b * 2 ^ fr T + sg b e * (speed T b e time / 2)).
Proof.
  intros HT Hb He Hne Ht. destruct (facts T HT) as (F1 & F2 & F3 & F4 & F5 & F6 & F7 & F8 & F9 & F10 & F11).
  pose proof (fits_diff T b e HT Hb He) as HD. pose proof (sg_cases b e) as Hs. pose proof (sg_abs b e) as Ha.
  set (P := 2 ^ fr T) in *. assert (HP : 0 < P) by (apply Z.pow_pos_nonneg; lia).
  set (D := Z.abs (e - b)) in *. assert (HD0 : 0 < D) by lia.
  assert (Hx : 0 < D * P < 2 ^ (ab T - 1)).
  { split; [apply Z.mul_pos_pos; lia|]. eapply Z.le_lt_trans; [|exact F4]. apply Z.mul_le_mono_nonneg_r; lia. }
  set (x := D * P) in *.
  assert (Ed : swrap (ab T) ((e - b) * P) = sg b e * x).
  { rewrite Ha. rewrite <- Z.mul_assoc. fold x. apply swrap_small; [|lia]. clear -Hs Hx. destruct Hs as [-> | ->]; lia. }
  unfold initialize. fold P. rewrite Ed.
  assert (E1 : sg b e * x =? 0 = false) by (apply Z.eqb_neq; destruct Hs as [-> | ->]; lia). rewrite E1.
  rewrite (swrap_small (sb T) time) by (clear -Ht F5; lia).
  assert (E2 : time =? 0 = false) by (apply Z.eqb_neq; lia). rewrite E2.
  rewrite (quot_sg (sg b e) x time) by (try assumption; lia).
  assert (Hq : 0 <= x / time <= x).
  { split; [apply Z.div_pos; lia|]. apply Z.div_le_upper_bound; [lia|]. clear -Hx Ht. nia. }
  rewrite (swrap_small (ab T) (sg b e * (x / time))) by (try lia; clear -Hq Hx Hs; destruct Hs as [-> | ->]; lia).
  assert (Esp : speed T b e time = Z.max 1 (x / time)) by reflexivity.
  set (q := x / time) in *.
  set (d := if sg b e * q =? 0 then if sg b e * x >? 0 then 1 else -1 else sg b e * q).
  assert (Eq : d = sg b e * Z.max 1 q).
  { clear -Hq Hs Hx. unfold d. destruct (sg b e * q =? 0) eqn:E.
    - apply Z.eqb_eq in E. assert (q = 0) by (destruct Hs as [H|H]; rewrite H in E; lia). subst q. replace (Z.max 1 0) with 1 by lia.
      destruct (sg b e * x >? 0) eqn:E2; destruct Hs as [K|K]; rewrite K in *; lia.
    - apply Z.eqb_neq in E. assert (q <> 0) by (intro; subst; apply E; lia). f_equal. lia. }
  eexists. split; [reflexivity|]. cbn [dv acc]. rewrite Eq, Esp. split; [reflexivity|].
  rewrite (quot_sg (sg b e) (Z.max 1 q) 2) by (try assumption; lia).
  rewrite wrap_add_l by lia. unfold wrap. rewrite <- Z.add_mod_idemp_l by (apply Z.pow_nonzero; lia).
  rewrite Z.mul_mod_idemp_l by (apply Z.pow_nonzero; lia). now rewrite Z.add_mod_idemp_l by (apply Z.pow_nonzero; lia).
Qed.

(* the value of the ramp after t steps *)
Definition at_step (T : ramptype) (b e time t : Z) : Z :=
  if t =? 0 then b else toT T ((b * 2 ^ fr T + sg b e * (speed T b e time / 2 + t * speed T b e time)) / 2 ^ fr T).

(* a running animation after t ms *)
Definition running (T : ramptype) (b e time t now : Z) (a : anim) : Prop :=
  atime a = time - t /\ endv a = e /\ prev a = u16 now /\ cur a = at_step T b e time t /\ dv (rmp a) = sg b e * speed T b e time /\
  acc (rmp a) = wrap (ab T) (b * 2 ^ fr T + sg b e * (speed T b e time / 2 + t * speed T b e time)).

Lemma animateTo_running T a now e time : In T instances -> fits (vb T) (vs T) (cur a) -> fits (vb T) (vs T) e -> cur a <> e ->
  0 < time < 2 ^ tb T -> time < 2 ^ (sb T - 1) ->
  exists a1, animateTo T a now e time = Some a1 /\ running T (cur a) e time 0 now a1 /\ hnd a1 = hnd a /\ calls a1 = calls a.
Proof.
  intros HT Hb He Hne Ht Hs. destruct (initialize_true T (cur a) e time HT Hb He Hne ltac:(lia)) as (r & E1 & E2 & E3).
  unfold animateTo. assert (E : time =? 0 = false) by lia. rewrite E.
  assert (Ew : wrap (tb T) time = time) by (unfold wrap; apply Z.mod_small; lia). rewrite Ew, E1. cbn [obind].
  assert (Ev : e =? cur a = false) by lia. rewrite Ev.
  eexists. split; [reflexivity|]. unfold running. cbn [atime endv prev cur rmp hnd calls]. rewrite E2, E3.
  repeat split; try lia. f_equal. lia.
Qed.

Definition gap_limit (T : ramptype) : Z := Z.min (2 ^ db T) 65536.

Lemma delta_true T now g : In T instances -> 0 <= g < gap_limit T -> wrap (db T) (u16 (u16 (now + g) - u16 now)) = g.
Proof.
  intros HT Hg. destruct (facts T HT) as (_ & _ & _ & _ & _ & _ & F7 & _).
  assert (E : u16 (u16 (now + g) - u16 now) = g).
  { unfold gap_limit in Hg. unfold u16. rewrite Zminus_mod_idemp_l, Zminus_mod_idemp_r. rewrite Z.mod_small; lia. }
  rewrite E. unfold wrap, gap_limit in *. apply Z.mod_small. lia.
Qed.

Definition finished (e : Z) (a : anim) : Prop := atime a = 0 /\ cur a = e.

Lemma update_running T b e time t now a g : In T instances -> 0 <= t < time -> 0 <= g < gap_limit T -> running T b e time t now a ->
  (t + g < time -> running T b e time (t + g) (now + g) (fst (update T a (now + g)))) /\
  (time <= t + g -> finished e (fst (update T a (now + g)))).
Proof.
  intros HT Ht Hg (R1 & R2 & R3 & R4 & R5 & R6). unfold update.
  assert (E1 : atime a >? 0 = true) by lia. rewrite E1, R3, (delta_true T now g HT Hg).
  destruct (g =? 0) eqn:Eg; cbn [negb].
  - assert (g = 0) by lia. subst g. rewrite !Z.add_0_r. cbn [fst]. split; [intros _; unfold running; auto 10 | lia].
  - destruct (atime a <=? g) eqn:El.
    + split; [lia|]. intros _. cbn [fst]. unfold finished, setValue. cbn [atime cur]. split; [reflexivity|exact R2].
    + split; [|lia]. intros _.
      destruct (steps_true T (Z.to_nat g) (rmp a) _ HT R6) as [S1 S2].
      rewrite Z2Nat.id in S1 by lia. rewrite R5 in S1, S2.
      assert (S3 : acc (steps T (Z.to_nat g) (rmp a)) = wrap (ab T) (b * 2 ^ fr T + sg b e * (speed T b e time / 2 + (t + g) * speed T b e time)))
        by (rewrite S1; f_equal; ring).
      pose proof (get_true T _ _ HT S3) as G.
      assert (G2 : get T (steps T (Z.to_nat g) (rmp a)) = at_step T b e time (t + g)).
      { unfold at_step. assert (E : t + g =? 0 = false) by lia. rewrite E. exact G. }
      destruct (cur a =? get T (steps T (Z.to_nat g) (rmp a))) eqn:Ec; cbn [negb fst];
        unfold running; cbn [atime endv prev cur rmp]; repeat split; try lia; try assumption.
Qed.

Lemma update_stopped T a now : atime a = 0 -> update T a now = (a, false).
Proof. intro H. unfold update. now rewrite H. Qed.

Lemma play_stopped T a now l : atime a = 0 -> play T a now l = a.
Proof.
  intro H. revert now. induction l as [|g l IH]; intro now; [reflexivity|]. cbn [play]. rewrite update_stopped by exact H. apply IH.
Qed.

Lemma zsum_nonneg l M : Forall (fun g => 0 <= g < M) l -> 0 <= zsum l.
Proof. induction 1; cbn [zsum]; lia. Qed.

Lemma play_running T b e time : In T instances -> forall l t now a, 0 <= t < time -> Forall (fun g => 0 <= g < gap_limit T) l ->
  running T b e time t now a ->
  (t + zsum l < time -> running T b e time (t + zsum l) (now + zsum l) (play T a now l)) /\
  (time <= t + zsum l -> finished e (play T a now l)).
Proof.
  intro HT. induction l as [|g l IH]; intros t now a Ht Hl HR.
  - cbn [zsum play]. rewrite !Z.add_0_r. split; [auto|lia].
  - cbn [zsum play]. inversion Hl as [|? ? Hg Hl']; subst. pose proof (zsum_nonneg _ _ Hl') as Hn.
    destruct (update_running T b e time t now a g HT Ht Hg HR) as [U1 U2].
    destruct (Z_lt_ge_dec (t + g) time) as [H|H].
    + destruct (IH (t + g) (now + g) _ ltac:(lia) Hl' (U1 H)) as [I1 I2].
      rewrite !Z.add_assoc. split; [intro; apply I1; lia | intro; apply I2; lia].
    + split; [lia|]. intros _. destruct (U2 ltac:(lia)) as [Z1 Z2]. rewrite play_stopped by exact Z1. split; assumption.
Qed.

(* ---- the shape of the ramp ---- *)
Lemma speed_fast T b e time : In T instances -> 0 < time -> time <= Z.abs (e - b) * 2 ^ fr T ->
  speed T b e time = Z.abs (e - b) * 2 ^ fr T / time /\ 0 < speed T b e time /\ speed T b e time * time <= Z.abs (e - b) * 2 ^ fr T
  /\ Z.abs (e - b) * 2 ^ fr T < (speed T b e time + 1) * time.
Proof.
  intros HT Ht H. unfold speed. set (x := Z.abs (e - b) * 2 ^ fr T) in *.
  assert (H1 : 1 <= x / time) by (apply Z.div_le_lower_bound; lia).
  assert (H2 : Z.max 1 (x / time) = x / time) by lia. rewrite H2.
  pose proof (Z.mul_div_le x time Ht). pose proof (Z.mod_pos_bound x time Ht). pose proof (Z.div_mod x time ltac:(lia)). 
  set (q := x / time) in *. clearbody q. repeat split; nia.
Qed.

Lemma speed_slow T b e time : 0 < time -> Z.abs (e - b) * 2 ^ fr T < time -> speed T b e time = 1.
Proof. intros Ht H. unfold speed. rewrite Z.div_small; [reflexivity|]. split; [|exact H]. apply Z.mul_nonneg_nonneg; [lia|apply Z.pow_nonneg; lia]. Qed.

Lemma way_div P b o1 o2 D : 0 < P -> 0 <= o1 <= o2 -> o2 <= D * P -> forall k, (k = 1 \/ k = -1) ->
  on_the_way b (b + k * D) ((b * P + k * o1) / P) ((b * P + k * o2) / P).
Proof.
  intros HP Ho Hd k Hk. unfold on_the_way. destruct Hk as [-> | ->].
  - left. split; [split|].
    + apply Z.div_le_lower_bound; lia.
    + apply Z.div_le_mono; lia.
    + apply Z.div_le_upper_bound; lia.
  - right. split; [split|].
    + apply Z.div_le_lower_bound; lia.
    + apply Z.div_le_mono; lia.
    + apply Z.div_le_upper_bound; lia.
Qed.

Lemma at_step_way T b e time t1 t2 : In T instances -> fits (vb T) (vs T) b -> fits (vb T) (vs T) e -> 0 < time ->
  time <= Z.abs (e - b) * 2 ^ fr T -> 0 <= t1 <= t2 -> t2 < time -> on_the_way b e (at_step T b e time t1) (at_step T b e time t2).
Proof.
  intros HT Hb He Ht Hd H12 H2. destruct (facts T HT) as (F1 & F2 & _).
  destruct (speed_fast T b e time HT Ht Hd) as (_ & S1 & S2 & _).
  set (s := speed T b e time) in *. set (D := Z.abs (e - b)) in *. set (P := 2 ^ fr T) in *.
  assert (HP : 0 < P) by (apply Z.pow_pos_nonneg; lia).
  assert (Eb : forall t, 0 <= t -> at_step T b e time t = if t =? 0 then b else toT T ((b * P + sg b e * (s / 2 + t * s)) / P)) by reflexivity.
  assert (Ee : b + sg b e * D = e) by (pose proof (sg_abs b e); unfold D; lia).
  assert (Ho : forall t, 0 <= t < time -> 0 <= s / 2 + t * s <= D * P).
  { intros t Htt. assert (0 <= s / 2 <= s) by (clear -S1; lia). assert (0 <= t * s) by (apply Z.mul_nonneg_nonneg; lia).
    assert ((t + 1) * s <= time * s) by (apply Z.mul_le_mono_nonneg_r; lia). lia. }
  assert (Hf : forall t, 0 <= t < time -> fits (vb T) (vs T) ((b * P + sg b e * (s / 2 + t * s)) / P)).
  { intros t Htt. destruct (Ho t Htt) as [O1 O2].
    pose proof (way_div P b (s / 2 + t * s) (s / 2 + t * s) D HP ltac:(lia) O2 (sg b e) (sg_cases b e)) as W. rewrite Ee in W.
    unfold on_the_way in W. unfold fits in *. destruct (vs T); lia. }
  rewrite (Eb t1), (Eb t2) by lia.
  destruct (t1 =? 0) eqn:E1, (t2 =? 0) eqn:E2.
  - unfold on_the_way. destruct (Z.le_ge_cases b e); lia.
  - rewrite toT_fits by (try assumption; apply Hf; lia).
    destruct (Ho t2 ltac:(lia)) as [O1 O2].
    pose proof (way_div P b 0 (s / 2 + t2 * s) D HP ltac:(lia) O2 (sg b e) (sg_cases b e)) as W. rewrite Ee in W.
    rewrite Z.mul_0_r, Z.add_0_r, Z.div_mul in W by lia. exact W.
  - lia.
  - rewrite !toT_fits by (try assumption; apply Hf; lia).
    destruct (Ho t2 ltac:(lia)) as [O1 O2]. destruct (Ho t1 ltac:(lia)) as [O3 O4].
    assert (O5 : t1 * s <= t2 * s) by (apply Z.mul_le_mono_nonneg_r; lia).
    pose proof (way_div P b (s / 2 + t1 * s) (s / 2 + t2 * s) D HP ltac:(lia) O2 (sg b e) (sg_cases b e)) as W. rewrite Ee in W. exact W.
Qed.

Lemma floor_near P x : 0 < P -> P * (x / P) <= x < P * (x / P) + P.
Proof. intro H. pose proof (Z.mul_div_le x P H). pose proof (Z.mul_succ_div_gt x P H). lia. Qed.

Lemma near_line P b e k time t s v : 0 < P -> 0 < time -> 0 <= t -> 0 < s -> (k = 1 \/ k = -1) -> e - b = k * Z.abs (e - b) ->
  s * time <= Z.abs (e - b) * P -> Z.abs (e - b) * P < (s + 1) * time ->
  v = (b * P + k * (s / 2 + t * s)) / P ->
  2 * P * Z.abs ((v - b) * time - (e - b) * t) <= 2 * P * time + 2 * t * time + P * Z.abs (e - b).
Proof.
  intros HP Ht Ht0 Hs Hk Ha S2 S3 Ev.
  pose proof (floor_near P (b * P + k * (s / 2 + t * s)) HP) as Hf. rewrite <- Ev in Hf. clear Ev.
  set (D := Z.abs (e - b)) in *. assert (HD : 0 <= D) by (unfold D; lia). clearbody D.
  assert (Hh : 0 <= s / 2 /\ 2 * (s / 2) <= s) by (clear -Hs; lia).
  set (h := s / 2) in *. clearbody h.
  (* w is the distance times P *)
  assert (H1 : - P < P * (v - b) - k * (h + t * s) <= 0) by lia.
  assert (H2 : 0 <= t * (D * P - s * time)) by (apply Z.mul_nonneg_nonneg; lia).
  assert (H3 : t * (D * P - s * time) <= t * time) by (apply Z.mul_le_mono_nonneg_l; lia).
  assert (H4 : 0 <= h * time) by (apply Z.mul_nonneg_nonneg; lia).
  assert (H5 : 2 * (h * time) <= s * time) by (rewrite Z.mul_assoc; apply Z.mul_le_mono_nonneg_r; lia).
  assert (H6 : - P * time <= (P * (v - b) - k * (h + t * s)) * time <= 0).
  { split; [apply Z.mul_le_mono_nonneg_r; lia|]. apply Z.mul_nonpos_nonneg; lia. }
  assert (E : P * ((v - b) * time - (e - b) * t) = (P * (v - b) - k * (h + t * s)) * time + k * (h * time - t * (D * P - s * time))).
  { rewrite Ha. ring. }
  set (X := (v - b) * time - (e - b) * t) in *.
  assert (E2 : 2 * P * Z.abs X = 2 * Z.abs (P * X)) by (rewrite Z.abs_mul, (Z.abs_eq P) by lia; ring).
  rewrite E2, E. clear E E2. clearbody X.
  set (Y := (P * (v - b) - k * (h + t * s)) * time) in *. set (V := t * (D * P - s * time)) in *. set (U := h * time) in *.
  clearbody Y V U.
  assert (H7 : 2 * (t * time) = 2 * t * time) by ring.
  assert (H8 : D * P = P * D) by ring.
  assert (H9 : 2 * P * time = 2 * (P * time)) by ring.
  assert (H10 : - P * time = - (P * time)) by ring.
  assert (H11 : 2 * U <= P * D) by lia.
  rewrite H9, <- H7. rewrite H10 in H6. clear -H2 H3 H4 H11 H6 Hk.
  destruct Hk as [-> | ->]; lia.
Qed.

Lemma at_step_near T b e time t : In T instances -> fits (vb T) (vs T) b -> fits (vb T) (vs T) e -> 0 < time ->
  time <= Z.abs (e - b) * 2 ^ fr T -> 0 <= t < time ->
  2 * 2 ^ fr T * Z.abs ((at_step T b e time t - b) * time - (e - b) * t) <= 2 * 2 ^ fr T * time + 2 * t * time + 2 ^ fr T * Z.abs (e - b).
Proof.
  intros HT Hb He Ht Hd Htt. destruct (facts T HT) as (F1 & F2 & _).
  destruct (speed_fast T b e time HT Ht Hd) as (_ & S1 & S2 & S3).
  assert (HP : 0 < 2 ^ fr T) by (apply Z.pow_pos_nonneg; lia).
  destruct (t =? 0) eqn:E.
  - assert (t = 0) by lia. subst t. unfold at_step. cbn [Z.eqb]. rewrite Z.sub_diag, Z.mul_0_l, Z.mul_0_r, Z.sub_0_r. cbn [Z.abs]. rewrite Z.mul_0_r.
    assert (0 <= 2 ^ fr T * time) by (apply Z.mul_nonneg_nonneg; lia). assert (0 <= 2 ^ fr T * Z.abs (e - b)) by (apply Z.mul_nonneg_nonneg; lia). lia.
  - refine (near_line (2 ^ fr T) b e (sg b e) time t (speed T b e time) _ HP Ht ltac:(lia) S1 (sg_cases b e) (sg_abs b e) S2 S3 _).
    unfold at_step. rewrite E. apply toT_fits; [lia|].
    assert (Ee : b + sg b e * Z.abs (e - b) = e) by (pose proof (sg_abs b e); lia).
    assert (Ho : 0 <= speed T b e time / 2 + t * speed T b e time <= Z.abs (e - b) * 2 ^ fr T).
    { set (s := speed T b e time) in *. assert (0 <= s / 2 <= s) by (clear -S1; lia). assert (0 <= t * s) by (apply Z.mul_nonneg_nonneg; lia).
      assert ((t + 1) * s <= time * s) by (apply Z.mul_le_mono_nonneg_r; lia). lia. }
    pose proof (way_div (2 ^ fr T) b _ _ (Z.abs (e - b)) HP (conj (proj1 Ho) (Z.le_refl _)) (proj2 Ho) (sg b e) (sg_cases b e)) as W. rewrite Ee in W.
    unfold on_the_way in W. unfold fits in *. destruct (vs T); lia.
Qed.

Lemma at_step_slow T b e time t : In T instances -> 0 < time -> Z.abs (e - b) * 2 ^ fr T < time -> fits (vb T) (vs T) b -> 0 <= t ->
  reduced (vb T) (vs T) (if b <? e then b + t / 2 ^ fr T else b - (t + 2 ^ fr T - 1) / 2 ^ fr T) (at_step T b e time t).
Proof.
  intros HT Ht Hd Hb Ht0. destruct (facts T HT) as (F1 & F2 & _).
  assert (HP : 0 < 2 ^ fr T) by (apply Z.pow_pos_nonneg; lia).
  unfold at_step. rewrite (speed_slow T b e time Ht Hd). set (P := 2 ^ fr T) in *.
  replace (1 / 2 + t * 1) with t by (change (1 / 2) with 0; ring).
  destruct (t =? 0) eqn:E.
  - assert (t = 0) by lia. subst t.
    replace (if b <? e then b + 0 / P else b - (0 + P - 1) / P) with b.
    + split; [exact Hb|]. exists 0. lia.
    + rewrite Z.div_0_l by lia. rewrite (Z.div_small (0 + P - 1)) by lia. destruct (b <? e); lia.
  - replace (if b <? e then b + t / P else b - (t + P - 1) / P) with ((b * P + sg b e * t) / P); [now apply toT_reduced|].
    unfold sg. destruct (b <? e).
    + rewrite Z.mul_1_l, Z.add_comm, Z.div_add by lia. lia.
    + replace (b * P + -1 * t) with (- t + b * P) by ring. rewrite Z.div_add by lia.
      assert (K : - t / P = - ((t + P - 1) / P)).
      { symmetry. pose proof (floor_near P (t + P - 1) HP) as K1. set (q := (t + P - 1) / P) in *. clearbody q.
        apply (Z.div_unique_pos (- t) P (- q) (- t + P * q)); [lia|ring]. }
      rewrite K. ring.
Qed.

(* ---- the same value ---- *)
Definition resting (T : ramptype) (e : Z) (a : anim) : Prop :=
  endv a = e /\ cur a = e /\ dv (rmp a) = 0 /\ acc (rmp a) = wrap (ab T) (e * 2 ^ fr T).

Lemma update_resting T e a now : In T instances -> fits (vb T) (vs T) e -> resting T e a -> atime a > 0 ->
  cur (fst (update T a now)) = e /\ (resting T e (fst (update T a now)) \/ atime (fst (update T a now)) = 0).
Proof.
  intros HT He (R1 & R2 & R3 & R4) Ha. destruct (facts T HT) as (F1 & F2 & _). unfold update. assert (E : atime a >? 0 = true) by lia. rewrite E.
  set (d := wrap (db T) (u16 (u16 now - prev a))). destruct (d =? 0) eqn:Ed; cbn [negb].
  - cbn [fst]. split; [exact R2|left; unfold resting; auto].
  - destruct (atime a <=? d).
    + cbn [fst setValue cur atime]. split; [exact R1|right; reflexivity].
    + destruct (steps_true T (Z.to_nat d) (rmp a) _ HT R4) as [S1 S2]. rewrite R3 in S1, S2. rewrite Z.mul_0_r, Z.add_0_r in S1.
      pose proof (get_true T _ _ HT S1) as G. rewrite Z.div_mul in G by (apply Z.pow_nonzero; lia). rewrite (toT_fits T e F2 He) in G. rewrite G.
      assert (E2 : cur a =? e = true) by lia. rewrite E2. cbn [negb fst cur]. split; [exact R2|].
      left. unfold resting. cbn [endv cur rmp]. auto.
Qed.

Lemma play_resting T e : In T instances -> fits (vb T) (vs T) e -> forall l a now, (resting T e a \/ atime a = 0 /\ cur a = e) -> cur (play T a now l) = e.
Proof.
  intros HT He. induction l as [|g l IH]; intros a now H; cbn [play].
  - destruct H as [(_ & H & _) | [_ H]]; exact H.
  - destruct H as [H | [H1 H2]].
    + destruct (Z_le_gt_dec (atime a) 0) as [Hz|Hz].
      * assert (E : update T a (now + g) = (a, false)) by (unfold update; assert (E : atime a >? 0 = false) by lia; now rewrite E).
        rewrite E. cbn [fst]. apply IH. left. exact H.
      * destruct (update_resting T e a (now + g) HT He H ltac:(lia)) as [U1 [U2 | U2]]; apply IH; [left; exact U2|right; split; assumption].
    + rewrite update_stopped by exact H1. cbn [fst]. apply IH. right. split; assumption.
Qed.

(* ---- the handler ---- *)
Definition told (v0 : Z) (a : anim) : Prop := hnd a = true /\ match calls a with [] => cur a = v0 | c :: _ => c = cur a end.

Lemma setValue_told v0 a v : told v0 a -> told v0 (setValue a v).
Proof. intros [H _]. unfold told, setValue, notify. cbn [hnd calls cur]. rewrite H. auto. Qed.

Lemma perform_told T v0 a now o a1 : told v0 a -> perform T a now o = Some a1 -> told v0 a1.
Proof.
  intros H E. pose proof H as [H1 H2]. destruct o as [v| |v time|]; cbn [perform] in E.
  - injection E as <-. now apply setValue_told.
  - injection E as <-. unfold stop. now apply setValue_told.
  - unfold animateTo in E. destruct (time =? 0).
    + injection E as <-. now apply setValue_told.
    + destruct (initialize T (cur a) v (wrap (tb T) time)) as [r|]; cbn [obind] in E; [|discriminate].
      injection E as <-. unfold told, notify. cbn [hnd calls cur]. rewrite H1. destruct (v =? cur a); auto.
  - injection E as <-. unfold update. destruct (atime a >? 0); [|exact H].
    destruct (negb _); [|exact H].
    destruct (atime a <=? _).
    + cbn [fst]. apply setValue_told. unfold told. cbn [hnd calls cur]. auto.
    + destruct (negb _); cbn [fst]; unfold told, notify; cbn [hnd calls cur]; rewrite H1; auto.
Qed.

Lemma performs_told T v0 : forall l a now a1, told v0 a -> performs T a now l = Some a1 -> told v0 a1.
Proof.
  induction l as [|[g o] l IH]; intros a now a1 H E; cbn [performs] in E.
  - injection E as <-. exact H.
  - destruct (perform T a (now + g) o) as [a2|] eqn:E2; cbn [obind] in E; [|discriminate].
    exact (IH a2 (now + g) a1 (perform_told T v0 a (now + g) o a2 H E2) E).
Qed.
