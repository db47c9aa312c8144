(* C24 - C28, C61: filters and the PID controller *)
From Verif Require Import Base IntTypes WindowSpec FilterModel FilterSpec FilterProofs.

(* C24. The counter stays within [0, max] whatever the samples and resets. *)
Theorem C24_counter_in_range :
  forall m l u os, d_valid m l u -> 0 <= d_sum (fold_left d_step os (d_init m l u)) <= m.
Proof. intros m l u os H. apply (d_run_inv m l u os _ H (d_init_inv m l u H)). Qed.
Print Assumptions C24_counter_in_range.
Example C24_counter_in_range_example :
  d_valid 10 2 8 /\ d_sum (fold_left d_step (repeat (DUpdate true) 30) (d_init 10 2 8)) = 10.
Proof. unfold d_valid. split; [lia|vm_compute; reflexivity]. Qed.

(* C24. A sample changes the output only when the counter has reached the bound for that change. *)
Theorem C24_changes_only_at_bounds :
  forall d b, d_state (d_update d b) <> d_state d ->
    (d_state d = false /\ d_upper d <= d_sum (d_update d b)) \/ (d_state d = true /\ d_sum (d_update d b) <= d_lower d).
Proof. exact d_change. Qed.
Print Assumptions C24_changes_only_at_bounds.
Example C24_changes_only_at_bounds_example :
  let d := mkDeb 10 7 2 8 false in d_state (d_update d true) = true /\ d_state (d_update d false) = false.
Proof. vm_compute. auto. Qed.

(* C24. From every reachable state, max equal samples in a row bring the output to the value of the samples. *)
Theorem C24_settles :
  forall m l u os b k, d_valid m l u -> (Z.to_nat m <= k)%nat ->
    d_state (fold_left d_update (repeat b k) (fold_left d_step os (d_init m l u))) = b.
Proof. intros m l u os b k H Hk. apply (d_settles m l u); [exact H| |exact Hk]. apply d_run_inv, d_init_inv; exact H. Qed.
Print Assumptions C24_settles.
Example C24_settles_example :
  d_valid 4 0 4 /\ d_state (fold_left d_update [true; true; true; true] (d_reset (d_init 4 0 0) false)) = true /\
  d_state (fold_left d_update [true; true; true] (d_reset (d_init 4 0 0) false)) = false.
Proof. unfold d_valid. split; [lia|]. vm_compute. auto. Qed.

(* C25. getValue() is the truncated mean of the last N inputs after any history of updates and resets, for every N and
   every integer type, if N and the sum of the last N inputs fit the type - even if an earlier sum did not. *)
Theorem C25_mean_of_last_N :
  forall t n init os, c_type t -> (0 < n)%nat -> in_type t (Z.of_nat n) -> in_type t (sum_list (a_last n init os)) ->
    exists m, a_run t n (a_init t n init) os = Some m /\
      a_getValue t n m = Z.quot (sum_list (a_last n init os)) (Z.of_nat n).
Proof. intros t n init os Ht. apply a_value. destruct Ht as [H|[H|[H|H]]]; lia. Qed.
Print Assumptions C25_mean_of_last_N.
Example C25_mean_example :
  let os := [AUpdate 120; AUpdate 110; AUpdate (-5); AReset 7; AUpdate 100; AUpdate (-20)] in
  a_last 3 0 os = [7; 100; -20] /\
  option_map (a_getValue (mkTy true 8) 3) (a_run (mkTy true 8) 3 (a_init (mkTy true 8) 3 0) os) = Some 29 /\
  in_type (mkTy true 8) (7 + 100 - 20).
Proof. vm_compute. repeat split; congruence. Qed.

(* C25. If N does not fit T the divisor wraps: with int8_t and N = 200, one input 100 among zeros gives -1 instead of 0. *)
Theorem C25_large_N_refuted :
  exists t n os m, c_type t /\ in_type t (sum_list (a_last n 0 os)) /\ a_run t n (a_init t n 0) os = Some m /\
    a_getValue t n m <> Z.quot (sum_list (a_last n 0 os)) (Z.of_nat n).
Proof.
  exists (mkTy true 8), 200%nat, [AUpdate 100], (mkMA 1 (100 :: repeat 0 199) 100).
  split; [left; reflexivity|]. split; [vm_compute; intuition congruence|]. split; [vm_compute; reflexivity|vm_compute; congruence].
Qed.
Print Assumptions C25_large_N_refuted.

(* C26. k updates towards a constant target: the value moves by k steps and stops exactly at the target. *)
Theorem C26_position_after_k_updates :
  forall t r k, c_type t -> r_wf t r -> r_near t r ->
    r_value (Nat.iter k (r_update t) r) = ramp_after r (Z.of_nat k) /\ r_target (Nat.iter k (r_update t) r) = r_target r.
Proof. intros t r k Ht. apply r_updates. destruct Ht as [H|[H|[H|H]]]; lia. Qed.
Print Assumptions C26_position_after_k_updates.
Example C26_position_example :
  let r := mkRamp 100 0 false 30 7 in r_wf (mkTy true 8) r /\ r_near (mkTy true 8) r /\
  map (fun k => r_value (Nat.iter k (r_update (mkTy true 8)) r)) [1; 2; 3; 4; 5]%nat = [30; 60; 90; 100; 100].
Proof. vm_compute. repeat split; congruence. Qed.

(* C26. Consequences: no overshoot, steps bounded, arrival exactly after ceil(distance / step) updates. *)
Theorem C26_no_overshoot_and_arrival :
  forall t r k, c_type t -> r_wf t r -> r_near t r ->
    let v := r_value r in let v1 := r_value (Nat.iter k (r_update t) r) in let v2 := r_value (Nat.iter (S k) (r_update t) r) in
    (v <= r_target r -> v <= v1 <= v2 /\ v2 <= r_target r /\ v2 - v1 <= r_inc r /\
       (v1 = r_target r <-> r_target r - v <= Z.of_nat k * r_inc r)) /\
    (r_target r <= v -> r_target r <= v2 <= v1 /\ v1 <= v /\ v1 - v2 <= r_dec r /\
       (v1 = r_target r <-> v - r_target r <= Z.of_nat k * r_dec r)).
Proof.
  intros t r k Ht Hw Hn. assert (0 < wd t) as Hp by (destruct Ht as [H|[H|[H|H]]]; lia). cbv zeta.
  rewrite (proj1 (r_updates t r k Hp Hw Hn)), (proj1 (r_updates t r (S k) Hp Hw Hn)). unfold ramp_after.
  destruct Hw as (_ & _ & Hi & Hd). replace (Z.of_nat (S k)) with (Z.of_nat k + 1) by lia. rewrite !Z.mul_add_distr_r, !Z.mul_1_l.
  assert (0 <= Z.of_nat k * r_inc r) by (apply Z.mul_nonneg_nonneg; lia).
  assert (0 <= Z.of_nat k * r_dec r) by (apply Z.mul_nonneg_nonneg; lia).
  destruct (r_value r <? r_target r) eqn:E; split; intro; lia.
Qed.
Print Assumptions C26_no_overshoot_and_arrival.
Example C26_arrival_example :
  let r := mkRamp (-50) 0 false 3 20 in r_wf (mkTy true 16) r /\ r_near (mkTy true 16) r /\
  map (fun k => r_value (Nat.iter k (r_update (mkTy true 16)) r)) [2; 3]%nat = [-40; -50].
Proof. vm_compute. repeat split; congruence. Qed.

(* C26. isTargetReached() after an update is true exactly when the value is the target, for every history of
   setTarget() and update() calls. Missing: reset() (see the refutation). *)
Theorem C26_target_reached_partial :
  forall t inc dec v os, c_type t -> in_type t v -> 0 < inc <= tmax t -> 0 < dec <= tmax t ->
    Forall no_reset os -> Forall (target_ok t) os ->
    let r := r_update t (fold_left (r_step t) os (r_init inc dec v)) in
    r_reached r = true <-> r_value r = r_target r.
Proof.
  intros t inc dec v os Ht Hv Hi Hd Hn Ho. assert (0 < wd t) as Hp by (destruct Ht as [H|[H|[H|H]]]; lia).
  destruct (r_flag t os (r_init inc dec v) Hp) as [W F]; try assumption.
  { unfold r_wf, r_init. cbn. auto. }
  { reflexivity. }
  cbv zeta. destruct (r_update_any t _ Hp W) as (_ & E & [[A B]|(A & B & C)]); cbv zeta in *; rewrite E, B.
  - tauto.
  - split; [|congruence]. intro R. specialize (F R). congruence.
Qed.
Print Assumptions C26_target_reached_partial.
Example C26_target_reached_example :
  let os := [RTarget 9; RUpdate; RUpdate; RTarget 2] in let r := fold_left (r_step (mkTy true 8)) os (r_init 5 4 0) in
  Forall no_reset os /\ r_value r = 9 /\ r_reached r = false /\ r_value (r_update (mkTy true 8) r) = 5.
Proof. cbv zeta. split; [repeat constructor|]. vm_compute. auto. Qed.

(* C26. reset() leaves the flag: the ramp reports the target as reached although its value is another one, even after an update. *)
Theorem C26_reset_refuted :
  exists t inc dec v os, c_type t /\ in_type t v /\ 0 < inc <= tmax t /\ 0 < dec <= tmax t /\ Forall (target_ok t) os /\
    let r := r_update t (fold_left (r_step t) os (r_init inc dec v)) in r_reached r = true /\ r_value r <> r_target r.
Proof.
  exists (mkTy true 16), 1, 1, 100, [RReset 0]. unfold c_type. cbn [wd]. split; [tauto|].
  split; [vm_compute; intuition congruence|]. split; [vm_compute; intuition congruence|]. split; [vm_compute; intuition congruence|].
  split; [repeat constructor; vm_compute; congruence|]. vm_compute. split; congruence.
Qed.
Print Assumptions C26_reset_refuted.

(* C26. If the distance is not a value of T the ramp jumps: int8_t from -100 to 100 with step 1 arrives in one update. *)
Theorem C26_far_target_refuted :
  exists t r, c_type t /\ r_wf t r /\ r_inc r = 1 /\ r_value r = -100 /\ r_value (r_update t r) = 100.
Proof.
  exists (mkTy true 8), (mkRamp 100 (-100) false 1 1). unfold c_type. cbn [wd]. split; [tauto|]. vm_compute. intuition congruence.
Qed.
Print Assumptions C26_far_target_refuted.

(* C27. From any state, one update leaves output and error sum within their limits - even if an intermediate result
   overflowed. *)
Theorem C27_limits_hold :
  forall t scale p e ext, c_type t -> sg t = true -> limits_ok t (p_par p) ->
    let p' := p_update t scale p e ext in
    Z.abs (p_output p') <= maxOutput (p_par p) /\ Z.abs (p_errorSum p') <= maxErrorSum (p_par p) /\ p_par p' = p_par p.
Proof. intros t scale p e ext Ht. apply p_bounds; destruct Ht as [H|[H|[H|H]]]; lia. Qed.
Print Assumptions C27_limits_hold.
Example C27_limits_example :
  let q := mkPar 4 5 0 2000 512 in let p := p_update (mkTy true 32) 10 (p_init q) 30000 false in
  limits_ok (mkTy true 32) q /\ p_output p = 512 /\ p_errorSum p = 0 /\
  p_output (p_update (mkTy true 32) 10 (p_init q) (-300) false) = -270.
Proof. vm_compute. repeat split; congruence. Qed.

(* C27. ... so after every history the bounds of the parameters in force hold (the error sum before the first update
   after a setParameter excepted). *)
Theorem C27_limits_hold_after_history :
  forall t scale q os, c_type t -> sg t = true -> limits_ok t q ->
    Forall (fun o => match o with PSet _ => False | _ => True end) os ->
    let p := fold_left (p_step t scale) os (p_init q) in
    Z.abs (p_output p) <= maxOutput q /\ Z.abs (p_errorSum p) <= maxErrorSum q /\ p_par p = q.
Proof.
  intros t scale q os Ht Hs Hl.
  assert (forall p, Z.abs (p_output p) <= maxOutput q /\ Z.abs (p_errorSum p) <= maxErrorSum q /\ p_par p = q ->
    Forall (fun o => match o with PSet _ => False | _ => True end) os ->
    let p := fold_left (p_step t scale) os p in Z.abs (p_output p) <= maxOutput q /\ Z.abs (p_errorSum p) <= maxErrorSum q /\ p_par p = q) as H.
  { induction os as [|o os IH]; intros p Hp Hf; [exact Hp|]. inversion Hf; subst. cbn [fold_left]. apply IH; [|assumption].
    destruct Hp as (_ & _ & Hq). destruct o as [x e| |q']; cbn [p_step]; [|cbn; destruct Hl; rewrite Hq; repeat split; lia|contradiction].
    rewrite <- Hq in Hl |- *. apply C27_limits_hold; assumption. }
  apply H. cbn. destruct Hl. repeat split; lia.
Qed.
Print Assumptions C27_limits_hold_after_history.
Example C27_history_example :
  p_errorSum (fold_left (p_step (mkTy true 32) 1) [PUpdate 60 false; PUpdate 60 false; PReset; PUpdate 70 true; PUpdate 90 false]
    (p_init (mkPar 1 1 0 80 1000))) = 80.
Proof. vm_compute. reflexivity. Qed.

(* C27. Anti-windup: while the output is limited, by the controller or externally, the error sum does not grow in magnitude. *)
Theorem C27_anti_windup :
  forall t scale p e ext, c_type t -> sg t = true -> limits_ok t (p_par p) ->
    (ext = true \/ maxOutput (p_par p) < Z.abs (p_raw t scale p e (p_tempErrorSum t p e))) ->
    Z.abs (p_errorSum (p_update t scale p e ext)) <= Z.abs (p_errorSum p).
Proof. intros t scale p e ext Ht. apply p_windup; destruct Ht as [H|[H|[H|H]]]; lia. Qed.
Print Assumptions C27_anti_windup.
Example C27_anti_windup_example :
  let p := mkPid (mkPar 1 1 0 80 10) 30 0 0 in
  p_errorSum (p_update (mkTy true 32) 1 p 25 false) = 30 /\ p_errorSum (p_update (mkTy true 32) 1 p (-5) true) = 25.
Proof. vm_compute. auto. Qed.

(* C61. The output is the PID formula, divided by the scale and limited, if nothing overflows and T is int32_t, or
   ScaleFactor is 1, or the sum is not negative. Missing: negative sums for 8 and 16 bit types with ScaleFactor > 1. *)
Theorem C61_pid_formula_partial :
  forall t scale p e ext, pid_type t -> 0 < scale < 2 ^ 32 -> limits_ok t (p_par p) -> in_type t (p_errorSum p) ->
    pid_fits t p e -> division_ok t scale (pid_total p e (pid_sum p e)) ->
    p_output (p_update t scale p e ext) = clamp_to (maxOutput (p_par p)) (pid_formula p scale e).
Proof. exact p_exact. Qed.
Print Assumptions C61_pid_formula_partial.
Example C61_pid_formula_example :
  let p := mkPid (mkPar 4 5 (-3) 2000 512) 100 20 0 in
  pid_fits (mkTy true 32) p (-60) /\ pid_formula p 10 (-60) = 20 /\ p_output (p_update (mkTy true 32) 10 p (-60) false) = 20 /\
  pid_formula p 10 (-300) = -124 /\ p_output (p_update (mkTy true 32) 10 p (-300) false) = -124.
Proof. vm_compute. repeat split; congruence. Qed.

(* C61. ... the error becomes the previous error of the next call, and is integrated unless the output is limited. *)
Theorem C61_pid_state_partial :
  forall t scale p e ext, pid_type t -> 0 < scale < 2 ^ 32 -> limits_ok t (p_par p) -> in_type t (p_errorSum p) ->
    pid_fits t p e -> division_ok t scale (pid_total p e (pid_sum p e)) ->
    p_lastError (p_update t scale p e ext) = e /\
    (ext = false -> Z.abs (pid_formula p scale e) <= maxOutput (p_par p) -> p_errorSum (p_update t scale p e ext) = pid_sum p e).
Proof. exact p_integrates. Qed.
Print Assumptions C61_pid_state_partial.
Example C61_pid_state_example :
  let p := mkPid (mkPar 4 5 (-3) 2000 512) 100 20 0 in let p' := p_update (mkTy true 32) 10 p (-60) false in
  p_errorSum p' = 40 /\ p_lastError p' = -60 /\ p_errorSum (p_update (mkTy true 32) 10 p' 3000 false) = 40.
Proof. vm_compute. auto. Qed.

(* C61. The controller of the documentation (pid.hpp:39, Pid<int16_t, 10> pid(0.4, 0.5, 0, 200, 512)): ScaleFactor is
   unsigned, so on a 32 bit target tmp / ScaleFactor is an unsigned division, and an error of -100 gives the output +512
   instead of -90. *)
Theorem C61_pid_int16_refuted :
  exists p e, let t := mkTy true 16 in limits_ok t (p_par p) /\ in_type t (p_errorSum p) /\ pid_fits t p e /\
    pid_formula p 10 e = -90 /\ p_output (p_update t 10 p e false) = 512.
Proof.
  exists (p_init (mkPar 4 5 0 2000 512)), (-100). vm_compute. repeat split; congruence.
Qed.
Print Assumptions C61_pid_int16_refuted.

(* C28. After any calls of append(), update() and reset(), the next update() yields the convolution of the coefficients with
   the last N samples (modulo the type, divided by the scale), whatever the block size; no access is out of bounds. *)
Theorem C28_convolution :
  forall t n b coef scale undefined os, c_type t -> (0 < n)%nat -> length coef = n -> 0 < scale < 2 ^ 31 ->
    exists f, f_run t n b scale (f_init n b coef undefined) (os ++ [FUpdate]) = Some f /\
      f_output f = Z.quot (conv t (convolution n coef os)) scale.
Proof.
  intros t n b coef scale u os Ht Hn Hc Hs. assert (0 < wd t) as Hp by (destruct Ht as [H|[H|[H|H]]]; lia).
  destruct (f_correct t n b coef scale u os Hp Hn Hc) as (f & E & O). exists f. split; [exact E|].
  rewrite O. apply f_quot; [exact Ht|apply IntTypes.conv_in_type; exact Hp|exact Hs].
Qed.
Print Assumptions C28_convolution.
Example C28_convolution_example :
  let os := [FAppend 1; FAppend 2; FUpdate; FAppend 3; FAppend 4; FAppend 5; FAppend 6] in
  convolution 5 [10; 20; 30; 40; 50] os = 10*6 + 20*5 + 30*4 + 40*3 + 50*2 /\
  option_map f_output (f_run (mkTy true 16) 5 2 10 (f_init 5 2 [10; 20; 30; 40; 50] 0) (os ++ [FUpdate])) = Some 50.
Proof. vm_compute. auto. Qed.
