(* Theorems for C54: quadrature encoder input and output *)
From Verif Require Import Base EncModel EncSpec EncProofs.

(* No step is lost and none counted twice: for every sequence of movements (at most one step between samples) and queries, the answers
   times the prescaler plus what is left in the counter is the way travelled. The steps between two queries must fit the counter *)
Theorem C54_input : forall d k p0 l s p r, 0 <= k -> k < d - 1 -> sampled l -> calm (2 ^ (d - 1) - 2 ^ k) 0 l ->
  ei_run d k (ei_init (gray p0)) p0 l = (s, p, r) ->
  2 ^ k * zsum r + ei_delta s = travelled l /\ p = p0 + travelled l.
Proof.
  intros d k p0 l s p r K D Sa C R. destruct (run_count d k l _ _ _ _ _ 0 0 K D (raw_gray p0 : ei_last (ei_init (gray p0)) = _) Sa C ltac:(split; [lia|apply Z.pow_pos_nonneg; lia]) eq_refl R) as (A & B & G).
  cbn [ei_init ei_delta] in A. split; [lia|exact G].
Qed.
Example C54_input_example : let l := [Sample 1; Sample 1; Sample 1; Query; Sample 0; Sample 1; Sample 1; Query; Sample (-1); Sample (-1); Query] in
  sampled l /\ calm (2 ^ 7 - 2 ^ 2) 0 l /\ ei_run 8 2 (ei_init (gray 3)) 3 l = (mkEI 2 3, 6, [0; 1; -1]) /\ travelled l = 3.
Proof. cbv zeta. split; [repeat constructor; lia|]. split; [cbn; lia|]. split; vm_compute; reflexivity. Qed.
Print Assumptions C54_input.

(* hence after a query the answers so far add up to the way travelled in units of the prescaler, rounded down: no fraction is ever lost *)
Theorem C54_input_total : forall d k p0 l s p r, 0 <= k -> k < d - 1 -> sampled l -> calm (2 ^ (d - 1) - 2 ^ k) 0 l ->
  ei_run d k (ei_init (gray p0)) p0 (l ++ [Query]) = (s, p, r) ->
  zsum r = travelled l / 2 ^ k.
Proof.
  intros d k p0 l s p r K D Sa C R. destruct (ei_run d k (ei_init (gray p0)) p0 l) as [[s1 p1] r1] eqn:E. rewrite (run_query d k l _ _ _ _ _ E) in R. injection R as <- <- <-. destruct (C54_input d k p0 l _ _ _ K D Sa C E) as [A _].
  unfold ei_getDelta. cbn [snd]. rewrite Z.shiftr_div_pow2 by exact K. assert (forall a b, zsum (a ++ [b]) = zsum a + b) as -> by (induction a as [|x a IH]; intro b; unfold zsum in *; cbn [app fold_right]; [lia|rewrite IH; lia]).
  rewrite <- A. rewrite (Z.mul_comm (2 ^ k)), Z.div_add_l; [reflexivity|]. pose proof (Z.pow_pos_nonneg 2 k ltac:(lia) K). lia.
Qed.
Example C54_input_total_example : let l := [Sample (-1); Query; Sample (-1); Sample (-1); Sample (-1); Sample (-1)] in
  calm (2 ^ 7 - 2 ^ 2) 0 l /\ ei_run 8 2 (ei_init (gray 0)) 0 (l ++ [Query]) = (mkEI 3 3, -5, [-1; -1]) /\ (-5) / 2 ^ 2 = -2.
Proof. cbv zeta. split; [cbn; lia|]. split; vm_compute; reflexivity. Qed.
Print Assumptions C54_input_total.

(* The output driver, as long as it moves forwards: the lines are the Gray code of its position, so that every increment is one step of the
   sequence and changes exactly one line *)
Theorem C54_output_partial : forall v l, forward (eo_init v) l ->
  let s := fold_left eo_call l (eo_init v) in
  lines s = gray (2 + (eo_actual s - v)) /\ v <= eo_actual s /\
  (eo_actual s < eo_setpoint s -> lines (eo_update s true) = gray (2 + (eo_actual s - v) + 1) /\ eo_actual (eo_update s true) = eo_actual s + 1).
Proof.
  intros v l F. destruct (forward_run l (eo_init v) 2 eq_refl F eq_refl) as (A & P & N). cbv zeta in *. set (s := fold_left eo_call l (eo_init v)) in *. cbn [eo_init eo_actual] in *. split; [unfold aligned in A; rewrite A, P; apply gray_mod|]. split; [lia|].
  intro L. destruct (forward_step s (OUpdate true) A ltac:(cbn; lia)) as (A1 & P1 & N1). cbn [eo_call ticks] in *. assert ((eo_actual s <? eo_setpoint s) = true) as E by lia. rewrite E in *. split; [|exact N1].
  unfold aligned in A1. rewrite A1, P1, P, Z.add_mod_idemp_l by lia. apply gray_mod.
Qed.
Example C54_output_example : let l := [OSet 7; OUpdate true; OUpdate false; OUpdate true; OUpdate true; OUpdate true] in
  forward (eo_init 5) l /\ eo_actual (fold_left eo_call l (eo_init 5)) = 7 /\ lines (fold_left eo_call l (eo_init 5)) = 0 /\ gray (2 + 2) = 0.
Proof. cbn. lia. Qed.
Print Assumptions C54_output_partial.

(* the input driver reading the output driver: it counts every increment *)
Theorem C54_agree_partial : forall d v l o i, forward (eo_init v) l -> 0 < d -> zlen l < 2 ^ (d - 1) ->
  both d (eo_init v) (ei_init (lines (eo_init v))) l = (o, i) ->
  ei_delta i = eo_actual o - v.
Proof.
  intros d v l o i F D L R. exact (both_count d l (eo_init v) (ei_init (lines (eo_init v))) 2 o i eq_refl F eq_refl eq_refl D ltac:(cbn; lia) ltac:(cbn [ei_init ei_delta]; lia) R).
Qed.
Example C54_agree_example : forward (eo_init 0) [OSet 3; OUpdate true; OUpdate true; OUpdate true; OUpdate true] /\ ei_delta (snd (both 8 (eo_init 0) (ei_init (lines (eo_init 0))) [OSet 3; OUpdate true; OUpdate true; OUpdate true; OUpdate true])) = 3.
Proof. cbn. repeat split; lia. Qed.
Print Assumptions C54_agree_partial.

(* What is missing: backwards. Two of the four backward transitions drive line A to the level it already has, so that the step is not
   emitted at all: this happens for every position with an odd distance from the start *)
Theorem C54_backward_step_lost : forall v l, forward (eo_init v) l ->
  let s := fold_left eo_call l (eo_init v) in
  (eo_actual s - v) mod 2 = 1 -> eo_setpoint s < eo_actual s ->
  lines (eo_update s true) = lines s /\ eo_actual (eo_update s true) = eo_actual s - 1.
Proof.
  intros v l F. destruct (forward_run l (eo_init v) 2 eq_refl F eq_refl) as (A & P & _). cbv zeta in *. set (s := fold_left eo_call l (eo_init v)) in *. cbn [eo_init eo_actual] in *. clearbody s. intros O L.
  assert (phase (eo_state s) mod 2 = 1) as O2. { rewrite P. pose proof (Z.div_mod (2 + (eo_actual s - v)) 4 ltac:(lia)). pose proof (Z.div_mod (eo_actual s - v) 2 ltac:(lia)). lia. }
  destruct s as [sp ac st a b]. unfold aligned, lines in *. cbn [eo_actual eo_setpoint eo_state eo_a eo_b] in *. unfold eo_update. cbn [negb eo_actual eo_setpoint eo_state eo_a eo_b].
  assert ((ac <? sp) = false) as -> by lia. assert ((sp <? ac) = true) as -> by lia. destruct st; cbn [phase] in *; try (cbn in O2; discriminate); cbn [eo_a eo_b eo_actual]; destruct a, b; cbn in A; try discriminate; split; reflexivity.
Qed.
Example C54_backward_example : forward (eo_init 0) [OSet 1; OUpdate true; OSet 0] /\ lines (fold_left eo_call [OSet 1; OUpdate true; OSet 0; OUpdate true] (eo_init 0)) = 2 /\ lines (eo_init 0) = 3.
Proof. cbn. repeat split; lia. Qed.
Print Assumptions C54_backward_step_lost.

(* so after one step forward and one back the lines differ from those at the start, and an input driver has counted one instead of none *)
Theorem C54_backward_refuted : exists l o i, both 8 (eo_init 0) (ei_init (lines (eo_init 0))) l = (o, i) /\ eo_actual o = 0 /\ lines o <> lines (eo_init 0) /\ ei_delta i = 1.
Proof. exists [OSet 1; OUpdate true; OSet 0; OUpdate true]. eexists; eexists. split; [vm_compute; reflexivity|]. repeat split. vm_compute. discriminate. Qed.
Print Assumptions C54_backward_refuted.
