(* C95: animations of a value. *)
From Verif Require Import Base AnimModel AnimSpec AnimProofs.

(* From its start an animation moves towards its end and never back, is running until its time is over, and then has the end value. The ramp has fr fraction bits,
   so the time must not be longer than 2^fr ms for each unit of change; updates must not be more than 255 ms (65535 ms on ARM) apart. *)
Theorem C95_an_animation_moves_to_its_end T a now e time l l2 :
  In T instances -> fits (vb T) (vs T) (cur a) -> fits (vb T) (vs T) e -> cur a <> e ->
  0 < time < 2 ^ tb T -> time < 2 ^ (sb T - 1) -> time <= Z.abs (e - cur a) * 2 ^ fr T ->
  Forall (fun g => 0 <= g < Z.min (2 ^ db T) 65536) l -> Forall (fun g => 0 <= g < Z.min (2 ^ db T) 65536) l2 ->
  exists a1, animateTo T a now e time = Some a1 /\
    on_the_way (cur a) e (cur (play T a1 now l)) (cur (play T a1 now (l ++ l2))) /\
    (zsum l < time -> isAnimating (play T a1 now l) = true) /\
    (time <= zsum l -> isAnimating (play T a1 now l) = false /\ cur (play T a1 now l) = e).
Proof.
  intros HT Hb He Hne Ht Hs Hd Hl Hl2.
  destruct (animateTo_running T a now e time HT Hb He Hne Ht Hs) as (a1 & E1 & R & _). exists a1. split; [exact E1|].
  assert (Hl3 : Forall (fun g => 0 <= g < gap_limit T) (l ++ l2)) by (apply Forall_app; split; assumption).
  assert (Es : zsum (l ++ l2) = zsum l + zsum l2) by (clear; induction l as [|x l IH]; cbn [zsum app]; lia).
  destruct (play_running T (cur a) e time HT l 0 now a1 ltac:(lia) Hl R) as [P1 P2].
  destruct (play_running T (cur a) e time HT (l ++ l2) 0 now a1 ltac:(lia) Hl3 R) as [Q1 Q2].
  pose proof (zsum_nonneg _ _ Hl). pose proof (zsum_nonneg _ _ Hl2). rewrite Es in Q1, Q2. rewrite Z.add_0_l in *.
  repeat split.
  - destruct (Z_lt_ge_dec (zsum l) time) as [H1|H1].
    + pose proof (P1 H1) as (_ & _ & _ & C1 & _). rewrite C1.
      destruct (Z_lt_ge_dec (zsum l + zsum l2) time) as [H2|H2].
      * pose proof (Q1 H2) as (_ & _ & _ & C2 & _). rewrite C2. apply at_step_way; try assumption; lia.
      * destruct (Q2 ltac:(lia)) as [_ C2]. rewrite C2.
        pose proof (at_step_way T (cur a) e time (zsum l) (zsum l) HT Hb He ltac:(lia) Hd ltac:(lia) H1) as W. unfold on_the_way in *. lia.
    + destruct (P2 ltac:(lia)) as [_ C1]. destruct (Q2 ltac:(lia)) as [_ C2]. rewrite C1, C2. unfold on_the_way.
      destruct (Z.le_ge_cases (cur a) e); lia.
  - intro H1. destruct (P1 H1) as (C1 & _). unfold isAnimating. rewrite C1. lia.
  - destruct (P2 ltac:(lia)) as [C1 _]. unfold isAnimating. now rewrite C1.
  - destruct (P2 ltac:(lia)) as [_ C1]. exact C1.
Qed.
Example C95_moves_ex : option_map (fun a => map (fun l => cur (play (uint8_on Arm) a 65530 l)) [[0; 1]; [3; 4]; [3; 4; 20]; [30; 30; 14]; [30; 30; 15]])
  (animateTo (uint8_on Arm) (fresh 200 true) 65530 10 75) = Some [196; 181; 130; 11; 10].
Proof. reflexivity. Qed.

(* The value is off the straight line by no more than 1, half of the change in a ms, and a unit for every 2^fr ms since the start. *)
Theorem C95_an_animation_follows_the_line T a now e time l :
  In T instances -> fits (vb T) (vs T) (cur a) -> fits (vb T) (vs T) e -> cur a <> e ->
  0 < time < 2 ^ tb T -> time < 2 ^ (sb T - 1) -> time <= Z.abs (e - cur a) * 2 ^ fr T ->
  Forall (fun g => 0 <= g < Z.min (2 ^ db T) 65536) l -> zsum l < time ->
  exists a1, animateTo T a now e time = Some a1 /\
    2 * 2 ^ fr T * Z.abs ((cur (play T a1 now l) - cur a) * time - (e - cur a) * zsum l)
      <= 2 * 2 ^ fr T * time + 2 * zsum l * time + 2 ^ fr T * Z.abs (e - cur a).
Proof.
  intros HT Hb He Hne Ht Hs Hd Hl Hz.
  destruct (animateTo_running T a now e time HT Hb He Hne Ht Hs) as (a1 & E1 & R & _). exists a1. split; [exact E1|].
  destruct (play_running T (cur a) e time HT l 0 now a1 ltac:(lia) Hl R) as [P1 _].
  pose proof (P1 ltac:(lia)) as (_ & _ & _ & C & _). rewrite Z.add_0_l in C. rewrite C.
  apply at_step_near; try assumption; [lia|]. pose proof (zsum_nonneg _ _ Hl). lia.
Qed.
(* half of the way from -1000 to 30000 in 1001 ms *)
Example C95_line_ex : option_map (fun a => cur (play (int16_on Arm) a 0 [250; 250])) (animateTo (int16_on Arm) (fresh (-1000) true) 0 30000 1001) = Some 14499
  /\ -1000 + 31000 * 500 / 1001 = 14484.
Proof. split; reflexivity. Qed.

(* With 7 fraction bits the line is lost: half of the range at the last step, then the rest in one jump *)
Theorem C95_bytes_follow_the_line_refuted :
  exists a1, animateTo (uint8_on Arm) (fresh 0 true) 0 255 16321 = Some a1 /\
    cur (play (uint8_on Arm) a1 0 (repeat 255 64)) = 127 /\ zsum (repeat 255 64) = 16320 /\ cur (play (uint8_on Arm) a1 0 (repeat 255 64 ++ [1])) = 255.
Proof.
  destruct (animateTo (uint8_on Arm) (fresh 0 true) 0 255 16321) as [a1|] eqn:E; [|discriminate].
  exists a1. split; [reflexivity|]. injection E as <-. vm_compute. auto.
Qed.

(* An animation that is slower than one unit in 2^fr ms does not stop at its end ("simply finishes before"): it goes on at one unit in 2^fr ms, past the end and
   over the limits of the type. *)
Theorem C95_slow_animations_do_not_stop_at_the_end T a now e time l :
  In T instances -> fits (vb T) (vs T) (cur a) -> fits (vb T) (vs T) e -> cur a <> e ->
  0 < time < 2 ^ tb T -> time < 2 ^ (sb T - 1) -> Z.abs (e - cur a) * 2 ^ fr T < time ->
  Forall (fun g => 0 <= g < Z.min (2 ^ db T) 65536) l -> zsum l < time ->
  exists a1, animateTo T a now e time = Some a1 /\
    reduced (vb T) (vs T) (if cur a <? e then cur a + zsum l / 2 ^ fr T else cur a - (zsum l + 2 ^ fr T - 1) / 2 ^ fr T) (cur (play T a1 now l)).
Proof.
  intros HT Hb He Hne Ht Hs Hd Hl Hz.
  destruct (animateTo_running T a now e time HT Hb He Hne Ht Hs) as (a1 & E1 & R & _). exists a1. split; [exact E1|].
  destruct (play_running T (cur a) e time HT l 0 now a1 ltac:(lia) Hl R) as [P1 _].
  pose proof (P1 ltac:(lia)) as (_ & _ & _ & C & _). rewrite Z.add_0_l in C. rewrite C.
  apply at_step_slow; try assumption; [lia|]. exact (zsum_nonneg _ _ Hl).
Qed.
Example C95_slow_ex : option_map (fun a => map (fun n => cur (play (uint8_on Arm) a 0 (repeat 100 n))) [1; 2; 5; 9; 10]%nat)
  (animateTo (uint8_on Arm) (fresh 7 true) 0 9 1000) = Some [7; 8; 10; 14; 9].
Proof. reflexivity. Qed.

(* a light at 5 fading to 0 within a second is at full brightness after 641 ms *)
Theorem C95_fading_out_slowly_refuted :
  exists a1, animateTo (uint8_on Arm) (fresh 5 true) 0 0 1000 = Some a1 /\
    cur (play (uint8_on Arm) a1 0 (repeat 1 640)) = 0 /\ cur (play (uint8_on Arm) a1 0 (repeat 1 641)) = 255.
Proof.
  destruct (animateTo (uint8_on Arm) (fresh 5 true) 0 0 1000) as [a1|] eqn:E; [|discriminate].
  exists a1. split; [reflexivity|]. injection E as <-. vm_compute. auto.
Qed.

(* The times of 8 bit values are cut to 16 bits: multiples of 65536 ms divide by zero. *)
Theorem C95_multiples_of_65536_ms_undefined T a now e k :
  In T instances -> vb T = 8 -> fits (vb T) (vs T) (cur a) -> fits (vb T) (vs T) e -> cur a <> e -> 0 < k ->
  animateTo T a now e (k * 65536) = None.
Proof.
  intros HT HT8 Hb He Hne Hk. unfold animateTo. assert (E : k * 65536 =? 0 = false) by lia. rewrite E.
  assert (Ht : tb T = 16).
  { clear -HT HT8. cbn [instances In] in HT. repeat (destruct HT as [<- | HT]; [cbn in *; try reflexivity; lia|]). destruct HT. }
  assert (Ew : wrap (tb T) (k * 65536) = 0) by (rewrite Ht; unfold wrap; change (2 ^ 16) with 65536; apply Z.mod_mul; lia). rewrite Ew.
  destruct (facts T HT) as (F1 & F2 & F3 & F4 & F5 & F6 & F7 & F8 & F9 & F10 & F11).
  unfold initialize.
  assert (En : swrap (ab T) ((e - cur a) * 2 ^ fr T) <> 0).
  { pose proof (fits_diff T (cur a) e HT Hb He) as HD. assert (HP : 0 < 2 ^ fr T) by (apply Z.pow_pos_nonneg; lia).
    assert (Z.abs ((e - cur a) * 2 ^ fr T) < 2 ^ (ab T - 1)).
    { rewrite Z.abs_mul, (Z.abs_eq (2 ^ fr T)) by lia. eapply Z.le_lt_trans; [|exact F4]. apply Z.mul_le_mono_nonneg_r; lia. }
    rewrite swrap_small by lia. apply Z.neq_mul_0. lia. }
  destruct (swrap (ab T) ((e - cur a) * 2 ^ fr T) =? 0) eqn:E2; [lia|].
  rewrite swrap_small; [reflexivity| |lia].
  assert (0 < 2 ^ (sb T - 1)) by (apply Z.pow_pos_nonneg; lia). lia.
Qed.
Example C95_undefined_ex : animateTo (uint8_on Avr) (fresh 5 true) 0 0 65536 = None /\ animateTo (uint8_on Avr) (fresh 5 true) 0 0 65535 <> None.
Proof. split; [reflexivity|discriminate]. Qed.

(* on the AVR times above 32767 ms of 8 bit values may run the wrong way *)
Theorem C95_long_times_on_the_avr_refuted :
  exists a1, animateTo (uint8_on Avr) (fresh 1 true) 0 255 40000 = Some a1 /\ isAnimating a1 = true /\
    map (fun n => cur (play (uint8_on Avr) a1 0 (repeat 1 n))) [1; 128; 129]%nat = [0; 0; 255].
Proof.
  destruct (animateTo (uint8_on Avr) (fresh 1 true) 0 255 40000) as [a1|] eqn:E; [|discriminate].
  exists a1. split; [reflexivity|]. injection E as <-. vm_compute. auto.
Qed.

(* Animating to the value it has leaves it there, if end << fr fits the promoted type of T. *)
Theorem C95_animating_to_the_same_value T a now time l :
  In T instances -> fits (vb T) (vs T) (cur a) -> fits (eb T) (es T) (cur a * 2 ^ fr T) ->
  exists a1, animateTo T a now (cur a) time = Some a1 /\ cur (play T a1 now l) = cur a.
Proof.
  intros HT Hb Hf. unfold animateTo. destruct (time =? 0).
  - eexists. split; [reflexivity|]. rewrite play_stopped by reflexivity. reflexivity.
  - unfold initialize. rewrite Z.sub_diag, Z.mul_0_l. destruct (facts T HT) as (F1 & F2 & F3 & F4 & F5 & F6 & F7 & F8 & F9 & F10 & F11).
    assert (E : swrap (ab T) 0 = 0) by (apply swrap_small; [|lia]; assert (0 < 2 ^ (ab T - 1)) by (apply Z.pow_pos_nonneg; lia); lia).
    rewrite E. cbn [Z.eqb obind]. eexists. split; [reflexivity|].
    apply play_resting; [exact HT|exact Hb|]. left. unfold resting. cbn [endv cur rmp acc dv]. repeat split.
    f_equal. unfold end_shifted, fits in *.
    assert (0 < eb T) by (clear -HT; cbn [instances In] in HT; repeat (destruct HT as [<- | HT]; [cbn; lia|]); destruct HT).
    destruct (es T); [apply swrap_small; assumption | unfold wrap; apply Z.mod_small; assumption].
Qed.
Example C95_same_ex : option_map (fun a => cur (play (uint16_on Arm) a 0 [1; 5; 200])) (animateTo (uint16_on Arm) (fresh 65535 true) 0 65535 100) = Some 65535.
Proof. reflexivity. Qed.

(* but end << 16 of a 32 bit value is cut to 32 bits: the value loses its upper half while it is "animated" to what it is *)
Theorem C95_32_bit_values_are_cut_refuted :
  exists a1, animateTo (uint32_on Arm) (fresh 100000 true) 0 100000 50 = Some a1 /\
    cur (play (uint32_on Arm) a1 0 [1]) = 34464 /\ cur (play (uint32_on Arm) a1 0 [1; 48]) = 34464 /\ cur (play (uint32_on Arm) a1 0 [1; 49]) = 100000.
Proof.
  destruct (animateTo (uint32_on Arm) (fresh 100000 true) 0 100000 50) as [a1|] eqn:E; [|discriminate].
  exists a1. split; [reflexivity|]. injection E as <-. vm_compute. auto.
Qed.
(* and end << 15 of a 16 bit value is cut to 16 bits on the AVR *)
Theorem C95_16_bit_values_are_cut_on_the_avr_refuted :
  exists a1, animateTo (uint16_on Avr) (fresh 1001 true) 0 1001 50 = Some a1 /\ cur (play (uint16_on Avr) a1 0 [1]) = 1.
Proof.
  destruct (animateTo (uint16_on Avr) (fresh 1001 true) 0 1001 50) as [a1|] eqn:E; [|discriminate].
  exists a1. split; [reflexivity|]. injection E as <-. vm_compute. auto.
Qed.

(* The handler always knows the value: whatever is called, its last call was with the current value, or it was not called and the value is the first one. *)
Theorem C95_the_handler_knows_the_value T v0 l a now :
  performs T (fresh v0 true) now l = Some a -> match calls a with [] => cur a = v0 | c :: _ => c = cur a end.
Proof.
  intro H. assert (H0 : told v0 (fresh v0 true)) by (split; reflexivity).
  exact (proj2 (performs_told T v0 l (fresh v0 true) now a H0 H)).
Qed.
Example C95_handler_ex : option_map (fun a => (calls a, cur a)) (performs (uint8_on Arm) (fresh 3 true) 0
  [(1, AnimateTo_ 6 4); (1, Update_); (0, Update_); (2, Update_); (0, Set_ 9); (7, Update_); (0, AnimateTo_ 0 2); (300, Update_)]) = Some ([0; 9; 5; 4], 0).
Proof. reflexivity. Qed.

Print Assumptions C95_an_animation_moves_to_its_end.
Print Assumptions C95_an_animation_follows_the_line.
Print Assumptions C95_bytes_follow_the_line_refuted.
Print Assumptions C95_slow_animations_do_not_stop_at_the_end.
Print Assumptions C95_fading_out_slowly_refuted.
Print Assumptions C95_multiples_of_65536_ms_undefined.
Print Assumptions C95_long_times_on_the_avr_refuted.
Print Assumptions C95_animating_to_the_same_value.
Print Assumptions C95_32_bit_values_are_cut_refuted.
Print Assumptions C95_16_bit_values_are_cut_on_the_avr_refuted.
Print Assumptions C95_the_handler_knows_the_value.
