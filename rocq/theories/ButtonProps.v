(* Theorems for C52: debounced buttons *)
From Verif Require Import Base ButtonModel ButtonSpec ButtonProofs.

(* The debounced state of every key is the level of its own samples: it changes exactly when the last four samples all differ from it.
   The vertical counters start as if three "pressed" samples had been seen before the first update (they are zero), which the history shows.
   No other key, no other call and no parameter has an influence *)
Theorem C52_debounced : forall w rm t iv l s r j, 0 <= j < w -> bg_run w rm t iv (bg_init t) l = (s, r) ->
  bg_getState s (2 ^ j) = level (samples j (inputs l) ++ [true; true; true]).
Proof.
  intros w rm t iv l s r j J E. destruct (run_inv w rm t iv j l _ _ _ _ J (init_inv t j) E) as [(D & _) _]. unfold bg_getState. rewrite single_land by lia. rewrite negb_involutive. exact D.
Qed.
Example C52_debounced_ex : exists s r, bg_run 8 255 10 5 (bg_init 10) [CUpdate 255; CUpdate 254; CUpdate 254; CUpdate 252; CPressed 1; CUpdate 252; CPressed 1] = (s, r) /\ bg_getState s (2 ^ 0) = true /\ bg_getState s (2 ^ 1) = false /\
  level [true; true; true; true; false] = true /\ level [true; true; true; false; false] = false.
Proof. eexists; eexists. split; [vm_compute; reflexivity|]. repeat split; vm_compute; reflexivity. Qed.
Print Assumptions C52_debounced.

(* a key that is not pressed at the first update is debounced as claimed: four samples, from then on and for ever *)
Theorem C52_debounced_partial : forall w rm t iv l s r j v ins, 0 <= j < w -> bg_run w rm t iv (bg_init t) l = (s, r) ->
  inputs l = v :: ins -> Z.testbit v j = true ->
  bg_getState s (2 ^ j) = level (samples j (inputs l)).
Proof.
  intros w rm t iv l s r j v ins J E I V. rewrite (C52_debounced w rm t iv l s r j J E), I. unfold samples. cbn [rev]. rewrite map_app. cbn [map]. rewrite V. exact (level_three _).
Qed.
Example C52_debounced_partial_ex : exists s r, bg_run 8 0 10 5 (bg_init 10) [CUpdate 255; CUpdate 254; CUpdate 254; CUpdate 254] = (s, r) /\ bg_getState s (2 ^ 0) = false /\
  exists s' r', bg_run 8 0 10 5 (bg_init 10) [CUpdate 255; CUpdate 254; CUpdate 254; CUpdate 254; CUpdate 254] = (s', r') /\ bg_getState s' (2 ^ 0) = true.
Proof. eexists; eexists. split; [vm_compute; reflexivity|]. split; [reflexivity|]. eexists; eexists. split; [vm_compute; reflexivity|reflexivity]. Qed.
Print Assumptions C52_debounced_partial.

(* what is missing: a key that reads "pressed" in the very first update is accepted at once, after a single sample *)
Theorem C52_first_sample_refuted : exists w rm t iv s r,
  bg_run w rm t iv (bg_init t) [CUpdate 254; CPressed 1] = (s, r) /\ bg_getState s (2 ^ 0) = true /\ r = [false; true] /\ level (samples 0 [254]) = false.
Proof. exists 8, 0, 10, 5. eexists; eexists. split; [vm_compute; reflexivity|]. repeat split. Qed.
Print Assumptions C52_first_sample_refuted.

(* the pending flags: an update adds a press or release exactly when the level changes, and nothing but a query takes them away *)
Theorem C52_flags : forall w rm t iv l s r j v, 0 <= j < w -> bg_run w rm t iv (bg_init t) l = (s, r) ->
  let s' := bg_update w rm t iv s v in
  Z.testbit (b_pressed s') j = Z.testbit (b_pressed s) j || (negb (bg_getState s (2 ^ j)) && bg_getState s' (2 ^ j)) /\
  Z.testbit (b_released s') j = Z.testbit (b_released s) j || (bg_getState s (2 ^ j) && negb (bg_getState s' (2 ^ j))).
Proof.
  intros w rm t iv l s r j v J E. destruct (run_inv w rm t iv j l _ _ _ _ J (init_inv t j) E) as [B _]. destruct (update_inv w rm t iv s v j _ J B) as ((D' & _) & P & Rl). cbv zeta. unfold bg_getState. rewrite !single_land by lia. rewrite !negb_involutive, D'. destruct B as (D & _). rewrite D. split; assumption.
Qed.
Example C52_flags_ex : let s := fst (bg_run 8 0 10 5 (bg_init 10) [CUpdate 255; CUpdate 254; CUpdate 254; CUpdate 254]) in
  Z.testbit (b_pressed s) 0 = false /\ Z.testbit (b_pressed (bg_update 8 0 10 5 s 254)) 0 = true /\ Z.testbit (b_pressed (bg_update 8 0 10 5 s 255)) 0 = false.
Proof. vm_compute. repeat split. Qed.
Print Assumptions C52_flags.

(* isPressed and isReleased answer true exactly when one of the keys of the mask is pending, and clear exactly the keys of the mask *)
Theorem C52_queries : forall s mask j, 0 <= mask -> 0 <= j ->
  (snd (bg_isPressed s mask) = true <-> exists k, 0 <= k /\ Z.testbit mask k = true /\ Z.testbit (b_pressed s) k = true) /\
  Z.testbit (b_pressed (fst (bg_isPressed s mask))) j = Z.testbit (b_pressed s) j && negb (Z.testbit mask j) /\
  b_released (fst (bg_isPressed s mask)) = b_released s /\ b_deb (fst (bg_isPressed s mask)) = b_deb s /\
  (snd (bg_isReleased s mask) = true <-> exists k, 0 <= k /\ Z.testbit mask k = true /\ Z.testbit (b_released s) k = true) /\
  Z.testbit (b_released (fst (bg_isReleased s mask))) j = Z.testbit (b_released s) j && negb (Z.testbit mask j) /\
  b_pressed (fst (bg_isReleased s mask)) = b_pressed s /\ b_deb (fst (bg_isReleased s mask)) = b_deb s.
Proof.
  intros s mask j M J. unfold bg_isPressed, bg_isReleased. pose proof (clear_answer (b_pressed s) mask M) as A1. pose proof (clear_bit (b_pressed s) mask j J) as B1. pose proof (clear_answer (b_released s) mask M) as A2. pose proof (clear_bit (b_released s) mask j J) as B2.
  destruct (bg_read_and_clear (b_pressed s) mask). destruct (bg_read_and_clear (b_released s) mask). cbn [fst snd b_pressed b_released b_deb] in *. tauto.
Qed.
Example C52_queries_ex : snd (bg_isPressed (mkB 0 6 8 0 0 0 0) 3) = true /\ b_pressed (fst (bg_isPressed (mkB 0 6 8 0 0 0 0) 3)) = 4 /\ snd (bg_isReleased (mkB 0 6 8 0 0 0 0) 3) = false.
Proof. vm_compute. repeat split. Qed.
Print Assumptions C52_queries.

(* no press is reported twice: for queries of single keys the reports of a key are at most the accepted presses, and those neither
   reported yet nor merged into one still pending are pending *)
Theorem C52_reported_once : forall w rm t iv l s r j, 0 <= j < w -> bg_run w rm t iv (bg_init t) l = (s, r) ->
  Forall (fun c => match c with CPressed m => exists k, 0 <= k /\ m = 2 ^ k | _ => True end) l ->
  reports j l r + (if Z.testbit (b_pressed s) j then 1 else 0) <= presses (samples j (inputs l)) [true; true; true].
Proof.
  intros w rm t iv l s r j J E F. destruct (run_inv w rm t iv j l _ _ _ _ J (init_inv t j) E) as [_ Q]. specialize (Q F). cbn [bg_init b_pressed] in Q. rewrite Z.bits_0 in Q. exact Q.
Qed.
Example C52_reported_once_ex : exists s r, let l := [CUpdate 255; CUpdate 254; CUpdate 254; CUpdate 254; CUpdate 254; CPressed 1; CPressed 1; CUpdate 254; CPressed 1] in
  bg_run 8 0 10 5 (bg_init 10) l = (s, r) /\ reports 0 l r = 1 /\ presses (samples 0 (inputs l)) [true; true; true] = 1.
Proof. eexists; eexists. cbv zeta. split; [vm_compute; reflexivity|]. split; vm_compute; reflexivity. Qed.
Print Assumptions C52_reported_once.

(* Repetition: after an update that leaves no key of the repeat mask pressed, and while one stays pressed, the pressed keys of the mask are
   flagged in the (timeout-1)-th update and in every interval-th update after it, and in no other *)
Theorem C52_repeat : forall w rm t iv s0 v0 ins n, 2 <= t < 65536 -> 1 <= iv < 65536 ->
  let run := fold_left (bg_update w rm t iv) in
  let s := bg_update w rm t iv s0 v0 in
  Z.land (b_deb s) rm = 0 ->
  (forall m, (1 <= m <= length ins)%nat -> Z.land (b_deb (run (firstn m ins) s)) rm <> 0) ->
  (n < length ins)%nat ->
  let k := Z.of_nat n + 1 in
  b_repeated (run (firstn (Datatypes.S n) ins) s) =
    Z.lor (b_repeated (run (firstn n ins) s)) (if (t - 1 <=? k) && ((k - (t - 1)) mod iv =? 0) then Z.land (b_deb (run (firstn (Datatypes.S n) ins) s)) rm else 0).
Proof.
  intros w rm t iv s0 v0 ins n T I run s Z0 H N k. destruct (update_counter w rm t iv s0 v0) as [Uc _]. fold s in Uc. rewrite Z0 in Uc. cbn [Z.eqb] in Uc. unfold u16 in Uc. rewrite Z.mod_small in Uc by lia. assert ((t - 1 =? 0) = false) as T1 by lia. rewrite T1 in Uc.
  assert (b_counter s = counter_at t iv 0) as C. { unfold counter_at. assert ((0 <? t - 1) = true) as -> by lia. lia. }
  exact (repeat_run w rm t iv ins s 0 T I ltac:(lia) C H n N).
Qed.
Example C52_repeat_ex : let run := fold_left (bg_update 8 1 3 2) in let s := run [255; 254; 254; 254] (bg_init 3) in
  Z.land (b_deb s) 1 = 0 /\ map (fun n => b_repeated (run (firstn n [254; 254; 254]) s)) [0%nat; 1%nat; 2%nat; 3%nat] = [0; 0; 1; 1].
Proof. vm_compute. split; reflexivity. Qed.
Print Assumptions C52_repeat.

(* a press is short when its key has been released again before; a press reported as long is not reported as short as well *)
Theorem C52_short_long : forall w s j, 0 <= j < w ->
  (snd (bg_isPressedShort w s (2 ^ j)) = true <-> Z.testbit (b_pressed s) j = true /\ bg_getState s (2 ^ j) = false) /\
  (snd (bg_isPressedLong s (2 ^ j)) = true <-> Z.testbit (b_pressed s) j = true /\ Z.testbit (b_repeated s) j = true) /\
  (snd (bg_isPressedLong s (2 ^ j)) = true -> snd (bg_isPressedShort w (fst (bg_isPressedLong s (2 ^ j))) (2 ^ j)) = false) /\
  (snd (bg_isPressedShort w s (2 ^ j)) = true -> snd (bg_isPressedLong (fst (bg_isPressedShort w s (2 ^ j))) (2 ^ j)) = false).
Proof.
  intros w s j J. rewrite !short_spec, !long_spec by lia. unfold bg_getState. rewrite single_land by lia. rewrite negb_involutive.
  unfold bg_isPressedLong, bg_isPressedShort. cbn [fst b_pressed b_deb b_repeated]. rewrite !Z.lxor_spec, !Z.land_spec, !BitsProofs.wrap_testbit, Z.lnot_spec, Z.pow2_bits_true by lia. assert ((j <? w) = true) as -> by lia.
  destruct (Z.testbit (b_pressed s) j), (Z.testbit (b_deb s) j), (Z.testbit (b_repeated s) j); cbn; intuition congruence.
Qed.
Example C52_short_long_ex : snd (bg_isPressedShort 8 (mkB 0 1 0 0 0 0 0) 1) = true /\ snd (bg_isPressedLong (mkB 1 1 0 1 0 0 0) 1) = true.
Proof. vm_compute. split; reflexivity. Qed.
Print Assumptions C52_short_long.
