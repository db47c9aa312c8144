(* C96: key frame animations. C97: the lengths of pulses, indicators and strobes. *)
From Verif Require Import Base AnimModel AnimSpec AnimProofs KeyModel KeySpec KeyProofs.

(* Whatever is called in whatever order and at whatever times, only frames of the array are read, nothing is divided by zero, and the counter stays in the array. *)
Theorem C96_only_frames_of_the_array_are_read T n f a l now :
  In T instances -> frames_for T (S n) f -> length a = S n ->
  Forall (fun x => match snd x with KSetKeyFrames g => frames_for T (S n) g | _ => True end) l ->
  exists k, kperforms T (knew f a) now l = Some k /\ 0 <= cf k <= zlen (frames k).
Proof.
  intros HT Hf Ha Hl.
  assert (HI : kinv T (S n) (knew f a)).
  { unfold kinv, knew. cbn [frames anims cf reversed mcycle]. pose proof (zlen_nonneg f). split; [exact Hf|]. split; [exact Ha|]. split; [lia|discriminate]. }
  destruct (kperforms_inv T n HT l (knew f a) now Hl HI) as (k & E & (_ & _ & Hc & _)). exists k. auto.
Qed.
Example C96_read_ex : option_map (fun k => (cf k, shown k, map cur (anims k))) (kperforms (uint8_on Avr)
  (knew [{| flen := 10; fval := [40] |}; {| flen := 0; fval := [9] |}] [fresh 0 true]) 0
  [(0, KUpdate); (0, KStart 0); (1, KUpdate); (5, KUpdate); (5, KSetMode Autoreverse); (1, KUpdate); (1, KUpdate); (0, KUpdate); (1, KStop); (3, KStart 1); (0, KUpdate);
   (0, KSetKeyFrames []); (1, KUpdate); (1, KStop)]) = Some (0, [0], [9]).
Proof. reflexivity. Qed.

(* In the mode Repeat the frames are shown in a cycle, repeat times (for ever with 0). *)
Theorem C96_frames_are_shown_in_a_cycle T n k r now gaps :
  In T instances -> frames_for T (S n) (frames k) -> frames k <> [] -> length (anims k) = S n -> mcycle k = true -> 0 <= r < 256 ->
  exists k1 m, kplay T (fst (kstart k r)) now gaps = Some k1 /\ shown k1 = down (cycling (zlen (frames k))) m /\
    (r = 0 -> kisAnimating k1 = true) /\
    (r > 0 -> Z.of_nat m <= zlen (frames k) * r /\ (kisAnimating k1 = true <-> Z.of_nat m < zlen (frames k) * r)).
Proof.
  intros HT Hf Hne Ha Hm Hr. destruct (started T n k r Hf Hne Ha) as (S1 & S2 & S3 & S4 & S5 & S6 & S7 & _).
  destruct (kplay_inv T n HT gaps _ now S1) as (k1 & E1 & _). exists k1.
  assert (HN : 0 < zlen (frames k) < 65536).
  { pose proof (proj2 Hf). destruct (frames k) as [|x l]; [congruence|]. rewrite zlen_cons in *. pose proof (zlen_nonneg l). lia. }
  set (N := zlen (frames k)) in *.
  assert (P0 : in_cycle N r (fst (kstart k r)) 0).
  { unfold in_cycle. rewrite S2, S3, S7. split; [reflexivity|]. split; [exact Hm|]. split; [reflexivity|]. exists 0, 0. left. rewrite S4, S5. 
    destruct (r =? 0) eqn:E; repeat split; lia. }
  destruct (kplay_P T (in_cycle N r) (fun k m now k1 H => in_cycle_step T N r k m now k1 HN ltac:(lia) H) gaps _ now 0%nat k1 P0 E1) as [m (M1 & M2 & M3 & q & j & M4)].
  exists m. split; [exact E1|]. split; [exact M3|]. unfold kisAnimating.
  destruct M4 as [(J1 & J2 & J3 & J4 & J5 & J6) | (J1 & J2 & J3)].
  - split; [lia|]. intro. assert (q + 1 <= r) by lia. assert ((q + 1) * N <= r * N) by (apply Z.mul_le_mono_nonneg_r; lia).
    assert (Hlt : Z.of_nat m < N * r) by (rewrite (Z.mul_comm N); lia). split; [lia|]. split; lia.
  - split; [lia|]. intros _. split; [lia|]. rewrite J3. change (0 >? 0) with false. split; [discriminate|lia].
Qed.
Example C96_cycle_ex : option_map (fun k => (shown k, kisAnimating k)) (kplay (uint8_on Arm)
  (fst (kstart (knew [{| flen := 3; fval := [40] |}; {| flen := 0; fval := [9] |}; {| flen := 1; fval := [10] |}] [fresh 0 true]) 2)) 0 (repeat 1 16)) = Some ([2; 1; 0; 2; 1; 0], false).
Proof. reflexivity. Qed.

(* In the mode Autoreverse two or more frames are shown forwards and backwards, the turning points once; repeat counts the ways there and back. *)
Theorem C96_frames_are_shown_forwards_and_backwards T n k r now gaps :
  In T instances -> frames_for T (S n) (frames k) -> 2 <= zlen (frames k) -> length (anims k) = S n -> mcycle k = false -> 0 <= r < 256 ->
  exists k1 m, kplay T (fst (kstart k r)) now gaps = Some k1 /\ shown k1 = down (swinging (zlen (frames k))) m /\
    (r = 0 -> kisAnimating k1 = true) /\
    (r > 0 -> Z.of_nat m <= (2 * zlen (frames k) - 2) * r + 1 /\ (kisAnimating k1 = true <-> Z.of_nat m < (2 * zlen (frames k) - 2) * r + 1)).
Proof.
  intros HT Hf Hne Ha Hm Hr. assert (Hne1 : frames k <> []) by (intro X; rewrite X in Hne; cbn in Hne; lia).
  destruct (started T n k r Hf Hne1 Ha) as (S1 & S2 & S3 & S4 & S5 & S6 & S7 & _).
  destruct (kplay_inv T n HT gaps _ now S1) as (k1 & E1 & _). exists k1.
  assert (HN : 1 < zlen (frames k) < 65536) by (pose proof (proj2 Hf); lia).
  set (N := zlen (frames k)) in *.
  assert (P0 : in_swing N r (fst (kstart k r)) 0).
  { unfold in_swing. rewrite S2, S3, S7. split; [reflexivity|]. split; [exact Hm|]. split; [reflexivity|]. exists 0, 0. left. rewrite S4, S5, S6. 
    repeat split; ifs. }
  destruct (kplay_P T (in_swing N r) (fun k m now k1 H => in_swing_step T N r k m now k1 HN ltac:(lia) H) gaps _ now 0%nat k1 P0 E1) as [m (M1 & M2 & M3 & q & j & M4)].
  exists m. split; [exact E1|]. split; [exact M3|]. unfold kisAnimating.
  destruct M4 as [(J1 & J2 & J3 & J4 & J5 & J6 & J7) | (J1 & J2 & J3)].
  - assert (Hc : 0 < cf k1) by (rewrite J4; ifs). split; [lia|]. intro.
    assert (Hlt : Z.of_nat m < (2 * N - 2) * r + 1).
    { rewrite (Z.mul_comm (2 * N - 2)). destruct J7 as [J7 | [J7 | [J7 J8]]]; [lia| |subst; lia].
      assert ((q + 1) * (2 * N - 2) <= r * (2 * N - 2)) by (apply Z.mul_le_mono_nonneg_r; lia). lia. }
    split; [lia|]. split; lia.
  - split; [lia|]. intros _. split; [lia|]. rewrite J3. change (0 >? 0) with false. split; [discriminate|lia].
Qed.
Example C96_swing_ex : option_map (fun k => (shown k, kisAnimating k)) (kplay (uint8_on Arm)
  (fst (kstart (setMode (knew [{| flen := 3; fval := [40] |}; {| flen := 0; fval := [9] |}; {| flen := 1; fval := [10] |}] [fresh 0 true]) Autoreverse) 2)) 0 (repeat 1 99))
  = Some ([0; 1; 2; 1; 0; 1; 2; 1; 0], false).
Proof. reflexivity. Qed.

(* but a single frame is shown only once *)
Theorem C96_autoreverse_of_one_frame_stops T n k r now :
  In T instances -> frames_for T (S n) (frames k) -> zlen (frames k) = 1 -> length (anims k) = S n -> mcycle k = false ->
  exists k1, kupdate T (fst (kstart k r)) now = Some k1 /\ kisAnimating k1 = false.
Proof.
  intros HT Hf H1 Ha Hm. assert (Hne1 : frames k <> []) by (intro X; rewrite X in H1; discriminate).
  destruct (started T n k r Hf Hne1 Ha) as (S1 & S2 & S3 & S4 & S5 & S6 & S7 & S8 & S9).
  destruct (kupdate_showing T n _ (now - 1) HT S1 (S9 _) ltac:(lia)) as (k1 & x & E1 & E2 & E3 & _).
  replace (now - 1 + 1) with now in E1 by lia. exists k1. split; [exact E1|].
  destruct (kupdate_counters T _ now k1 E1) as (_ & _ & [(_ & _ & go & D) | (D & _)]).
  - rewrite S2, S3, S4, S6, Hm, H1 in D. cbn in D. unfold kisAnimating. apply four_eq in D. destruct D as (D & _). rewrite <- D. reflexivity.
  - rewrite E2 in D. exfalso. apply (f_equal (@length Z)) in D. cbn [length] in D. lia.
Qed.
Example C96_one_ex : option_map (fun k => (shown k, kisAnimating k)) (kupdate (uint8_on Arm)
  (fst (kstart (setMode (knew [{| flen := 3; fval := [40] |}] [fresh 0 true]) Autoreverse) 0)) 0) = Some ([0], false).
Proof. reflexivity. Qed.

(* All animators run in step: whenever the first one stands, and so before the next frame starts, all have exactly the values of the last frame shown. *)
Theorem C96_every_frame_reaches_its_values T n k r now gaps k1 p s a0 :
  In T instances -> frames_for T (S n) (frames k) -> frames k <> [] -> length (anims k) = S n ->
  kplay T (fst (kstart k r)) now gaps = Some k1 -> shown k1 = p :: s -> znth (anims k1) 0 = Some a0 -> isAnimating a0 = false ->
  exists f, znth (frames k1) p = Some f /\ map cur (anims k1) = fval f.
Proof.
  intros HT Hf Hne Ha E Es E0 Ei. destruct (started T n k r Hf Hne Ha) as (S1 & _).
  exact (last_values_all k1 a0 p s (kplay_last T n HT gaps _ now k1 S1 (kstart_last k r Hne) E) Es E0 Ei).
Qed.
Example C96_values_ex : option_map (fun k => (shown k, map cur (anims k), map atime (anims k))) (kplay (uint8_on Arm)
  (fst (kstart (knew [{| flen := 30; fval := [40; 200; 7] |}; {| flen := 60; fval := [1; 2; 3] |}] [fresh 0 true; fresh 9 false; fresh 9 true]) 0)) 65530 [0; 7; 20; 4])
  = Some ([0], [40; 200; 7], [0; 0; 0]).
Proof. reflexivity. Qed.

(* With an update every ms each frame takes one ms more than its length: frame m is shown in the update after due m ms. *)
Theorem C96_frames_take_one_update_more T n k now m :
  In T instances -> frames_for T (S n) (frames k) -> frames k <> [] -> length (anims k) = S n -> mcycle k = true ->
  let N := zlen (frames k) in
  let t := due (length_of (frames k)) (cycling N) m in
  exists k1 k2, 0 <= t /\ kplay T (fst (kstart k 0)) now (repeat 1 (Z.to_nat t)) = Some k1 /\ shown k1 = down (cycling N) m /\
    kupdate T k1 (now + t + 1) = Some k2 /\ shown k2 = down (cycling N) (S m).
Proof.
  intros HT Hf Hne Ha Hm N t. destruct (started T n k 0 Hf Hne Ha) as (S1 & S2 & S3 & S4 & S5 & S6 & S7 & S8 & S9).
  assert (HN : 0 < N < 65536).
  { unfold N. pose proof (proj2 Hf). destruct (frames k) as [|x l]; [congruence|]. rewrite zlen_cons in *. pose proof (zlen_nonneg l). lia. }
  assert (P0 : in_cycle N 0 (fst (kstart k 0)) 0).
  { unfold in_cycle. rewrite S2, S3, S7. split; [reflexivity|]. split; [exact Hm|]. split; [reflexivity|]. exists 0, 0. left. rewrite S4, S5. cbn [Z.eqb]. repeat split; lia. }
  destruct (P_timing T n HT (in_cycle N 0) (cycling N) (fun k m now k1 H => in_cycle_step T N 0 k m now k1 HN ltac:(lia) H) ltac:(intros ? ? (_ & _ & H & _); exact H)) with
    (fr0 := frames k) (len := length_of (frames k)) (k := fst (kstart k 0)) (now := now) (m := m) as (k1 & D0 & K1 & K2 & _ & _ & _ & _ & k2 & K3 & K4).
  - intros k0 m0 (_ & _ & _ & q & j & [(J1 & J2 & J3 & J4 & _) | (J1 & _)]); [|lia]. unfold cycling.
    rewrite <- (Z.mod_unique (Z.of_nat m0) N q j) by lia. lia.
  - intros i x Hx. unfold length_of. now rewrite Hx.
  - exact P0.
  - exact S2.
  - exact S1.
  - apply S9.
  - exists k1, k2. auto.
Qed.
(* the pulse of one second with an update every ms: the third frame starts after 1002 ms *)
Example C96_more_ex : due (length_of [{| flen := 500; fval := [255] |}; {| flen := 500; fval := [0] |}]) (cycling 2) 2 = 1002.
Proof. reflexivity. Qed.

(* isAnimating is false from the start of the last frame on *)
Theorem C96_isAnimating_until_the_end_refuted :
  exists k a0, kplay (uint8_on Arm) (fst (kstart (knew [{| flen := 1000; fval := [255] |}] [fresh 0 true]) 1)) 0 [1; 100] = Some k /\
    znth (anims k) 0 = Some a0 /\ isAnimating a0 = true /\ cur a0 < 255 /\ kisAnimating k = false.
Proof.
  destruct (kplay (uint8_on Arm) (fst (kstart (knew [{| flen := 1000; fval := [255] |}] [fresh 0 true]) 1)) 0 [1; 100]) as [k|] eqn:E; [|vm_compute in E; discriminate].
  vm_compute in E. injection E as <-. eexists. eexists. split; [reflexivity|]. split; [reflexivity|]. vm_compute. auto.
Qed.
(* getMode returns neither of its values while the animation runs backwards *)
Theorem C96_getMode_returns_the_mode_refuted :
  exists k, kplay (uint8_on Arm) (fst (kstart (setMode (knew [{| flen := 1; fval := [255] |}; {| flen := 9; fval := [0] |}] [fresh 0 true]) Autoreverse) 0)) 0 [1; 1; 1] = Some k /\
    kisAnimating k = true /\ getMode k = 130 /\ getMode (setMode k Autoreverse) = 2.
Proof.
  destruct (kplay (uint8_on Arm) (fst (kstart (setMode (knew [{| flen := 1; fval := [255] |}; {| flen := 9; fval := [0] |}] [fresh 0 true]) Autoreverse) 0)) 0 [1; 1; 1]) as [k|] eqn:E;
    [|vm_compute in E; discriminate].
  vm_compute in E. injection E as <-. eexists. split; [reflexivity|]. vm_compute. auto.
Qed.

(* ---- C97 ---- *)
(* The two frames of a pulse take the period, the first its share of it. *)
Theorem C97_a_pulse_takes_its_period tw period duty :
  0 < tw -> 0 <= period < 2 ^ tw -> 0 <= duty < 256 -> period * 100 < 2 ^ 32 ->
  fst (pulse_setPeriod tw period duty) = period * Z.min duty 100 / 100 /\
  0 <= snd (pulse_setPeriod tw period duty) /\ fst (pulse_setPeriod tw period duty) + snd (pulse_setPeriod tw period duty) = period.
Proof.
  intros Htw Hp Hd Hv. unfold pulse_setPeriod. cbn [fst snd]. assert (Ed : (if duty >? 100 then 100 else duty) = Z.min duty 100) by (destruct (duty >? 100) eqn:E; lia).
  rewrite Ed. set (d := Z.min duty 100) in *. assert (Hd2 : 0 <= d <= 100) by lia. clearbody d.
  change (2 ^ 32) with 4294967296 in Hv.
  assert (H0 : 0 <= period * d) by (apply Z.mul_nonneg_nonneg; lia). assert (H1 : period * d <= period * 100) by (apply Z.mul_le_mono_nonneg_l; lia).
  assert (E1 : u32 (period * d) = period * d) by (unfold u32; apply Z.mod_small; lia). rewrite E1.
  assert (H2 : 0 <= period * d / 100 <= period).
  { split; [apply Z.div_pos; lia|]. apply Z.div_le_upper_bound; lia. }
  set (x := period * d / 100) in *. clearbody x.
  assert (E2 : wrap tw x = x) by (unfold wrap; apply Z.mod_small; lia). rewrite E2.
  assert (E3 : wrap tw (period - x) = period - x) by (unfold wrap; apply Z.mod_small; lia). rewrite E3. lia.
Qed.
Example C97_pulse_ex : pulse_setPeriod 16 65535 33 = (21626, 43909).
Proof. reflexivity. Qed.
(* half of 100000 s is not half of it *)
Theorem C97_long_pulses_have_their_share_refuted :
  exists period duty, 0 <= period < 2 ^ 32 /\ duty = 50 /\ fst (pulse_setPeriod 32 period duty) * 2 < period / 7.
Proof. exists 100000000, 50. vm_compute. repeat split; discriminate. Qed.

(* An indicator takes longer than its period: the fades are added to it. *)
Theorem C97_an_indicator_takes_its_period_and_the_fades tw iw f period duty :
  (tw = 16 \/ tw = 32) -> (iw = 16 \/ iw = 32) -> 0 <= period < 2 ^ tw -> 0 <= duty < 256 -> period * 100 < 2 ^ 32 ->
  0 <= f0 f -> 0 <= f2 f ->
  let g := indicator_setPeriod tw iw f period duty in
  f0 g = f0 f /\ f2 g = f2 f /\ 0 <= f1 g /\ 0 <= f3 g /\ f0 g + f1 g + f2 g + f3 g = period + f0 f + f2 f.
Proof.
  intros Htw Hiw Hp Hd Hv H0 H2 g. unfold g, indicator_setPeriod. cbn [f0 f1 f2 f3].
  set (d := if duty >? 100 then 100 else duty). assert (Hd2 : 0 <= d <= 100) by (unfold d; destruct (duty >? 100) eqn:E; lia). clearbody d.
  assert (Hx : 0 <= wrap tw (u32 (period * d) / 100) <= period).
  { change (2 ^ 32) with 4294967296 in Hv.
    assert (K0 : 0 <= period * d) by (apply Z.mul_nonneg_nonneg; lia). assert (K1 : period * d <= period * 100) by (apply Z.mul_le_mono_nonneg_l; lia).
    assert (E1 : u32 (period * d) = period * d) by (unfold u32; apply Z.mod_small; lia). rewrite E1.
    assert (K2 : 0 <= period * d / 100 <= period) by (split; [apply Z.div_pos; lia|apply Z.div_le_upper_bound; lia]).
    unfold wrap. rewrite Z.mod_small by lia. exact K2. }
  set (x := wrap tw (u32 (period * d) / 100)) in *. clearbody x.
  set (fade := u32 (tadd tw iw (f0 f) (f2 f))). assert (Hf : 0 <= fade) by (unfold fade, u32; apply Z.mod_pos_bound; lia). clearbody fade.
  assert (Hs : 0 <= shorten tw x fade <= x).
  { unfold shorten. destruct (x <? fade) eqn:E; [lia|]. unfold wrap. rewrite Z.mod_small by lia. lia. }
  set (y := shorten tw x fade) in *. clearbody y.
  assert (E : wrap tw (period - y) = period - y) by (unfold wrap; apply Z.mod_small; lia). rewrite E. lia.
Qed.
(* the default second becomes 1190 ms if set again *)
Example C97_indicator_ex : indicator_setPeriod 16 32 indicator_new 1000 50 = {| f0 := 75; f1 := 310; f2 := 115; f3 := 690 |}.
Proof. reflexivity. Qed.
Theorem C97_an_indicator_takes_its_period_refuted :
  exists period duty, 0 <= period < 2 ^ 16 /\ 0 <= duty <= 100 /\ let g := indicator_setPeriod 16 32 indicator_new period duty in f0 g + f1 g + f2 g + f3 g <> period.
Proof. exists 1000, 50. cbn. repeat split; try lia; discriminate. Qed.

(* New fade times leave the time of an indicator as it is if they fit into the time it is on, and else stretch it to the fades. *)
Theorem C97_fade_times_keep_the_time tw iw f on off :
  (tw = 16 \/ tw = 32) -> iw = 32 ->
  0 <= f0 f -> 0 <= f1 f -> 0 <= f2 f -> f0 f + f1 f + f2 f < 2 ^ tw -> 0 <= on -> 0 <= off -> on + off < 2 ^ tw ->
  let g := indicator_setFadeTimes tw iw f on off in
  f0 g = on /\ f2 g = off /\ f0 g + f1 g + f2 g = Z.max (on + off) (f0 f + f1 f + f2 f) /\ f3 g = f3 f.
Proof.
  intros Htw Hiw H0 H1 H2 Hs Hon Hoff Hs2 g. unfold g, indicator_setFadeTimes, tadd. cbn [f0 f1 f2 f3]. subst iw.
  replace (Z.max tw 32) with 32 by lia.
  assert (Ht : 2 ^ tw <= 4294967296) by (destruct Htw as [-> | ->]; cbn; lia).
  assert (E1 : wrap 32 (f0 f + f2 f) = f0 f + f2 f) by (unfold wrap; apply Z.mod_small; change (2 ^ 32) with 4294967296; lia).
  assert (E2 : wrap 32 (on + off) = on + off) by (unfold wrap; apply Z.mod_small; change (2 ^ 32) with 4294967296; lia).
  assert (E3 : u32 (on + off) = on + off) by (unfold u32; apply Z.mod_small; lia).
  rewrite E1, E2, E3. replace (f1 f + (f0 f + f2 f)) with (f0 f + f1 f + f2 f) by lia.
  assert (E4 : wrap tw (f0 f + f1 f + f2 f) = f0 f + f1 f + f2 f) by (unfold wrap; apply Z.mod_small; lia). rewrite E4.
  unfold shorten. destruct (f0 f + f1 f + f2 f <? on + off) eqn:E; [lia|].
  assert (E5 : wrap tw (f0 f + f1 f + f2 f - (on + off)) = f0 f + f1 f + f2 f - (on + off)) by (unfold wrap; apply Z.mod_small; lia). rewrite E5. lia.
Qed.
Example C97_fade_ex : indicator_setFadeTimes 16 32 indicator_new 200 300 = {| f0 := 200; f1 := 65; f2 := 300; f3 := 435 |}.
Proof. reflexivity. Qed.

Theorem C97_fade_times_of_a_strobe_keep_the_time tw s on off :
  (tw = 16 \/ tw = 32) -> 0 <= s0 s -> 0 <= s1 s -> 0 <= s2 s -> 0 <= s4 s -> 0 <= s5 s -> 0 <= s6 s ->
  s0 s + s1 s + s2 s < 2 ^ tw -> s4 s + s5 s + s6 s < 2 ^ tw -> 0 <= on -> 0 <= off -> on + off < 2 ^ tw ->
  let g := strobe_setFadeTimes tw 32 s on off in
  s0 g = on /\ s2 g = off /\ s4 g = on /\ s6 g = off /\ s3 g = s3 s /\ s7 g = s7 s /\
  s0 g + s1 g + s2 g = Z.max (on + off) (s0 s + s1 s + s2 s) /\ s4 g + s5 g + s6 g = Z.max (on + off) (s4 s + s5 s + s6 s).
Proof.
  intros Htw P0 P1 P2 P4 P5 P6 Hs Hs5 Hon Hoff Hs2 g. unfold g, strobe_setFadeTimes, tadd. cbn [s0 s1 s2 s3 s4 s5 s6 s7].
  replace (Z.max tw 32) with 32 by lia.
  assert (Ht : 2 ^ tw <= 4294967296) by (destruct Htw as [-> | ->]; cbn; lia).
  assert (W32 : forall x, 0 <= x < 2 ^ tw -> wrap 32 x = x) by (intros x Hx; unfold wrap; apply Z.mod_small; change (2 ^ 32) with 4294967296; lia).
  assert (E3 : u32 (on + off) = on + off) by (unfold u32; apply Z.mod_small; lia).
  rewrite (W32 (s0 s + s2 s)), (W32 (s4 s + s6 s)), (W32 (on + off)), E3 by lia.
  replace (s1 s + (s0 s + s2 s)) with (s0 s + s1 s + s2 s) by lia. replace (s5 s + (s4 s + s6 s)) with (s4 s + s5 s + s6 s) by lia.
  assert (W : forall x, 0 <= x < 2 ^ tw -> wrap tw x = x) by (intros x Hx; unfold wrap; apply Z.mod_small; lia).
  rewrite (W (s0 s + s1 s + s2 s)), (W (s4 s + s5 s + s6 s)) by lia. unfold shorten_le.
  repeat (split; [reflexivity|]). split.
  - destruct (s0 s + s1 s + s2 s <=? on + off) eqn:E; [lia|]. rewrite W by lia. lia.
  - destruct (s4 s + s5 s + s6 s <=? on + off) eqn:E; [lia|]. rewrite W by lia. lia.
Qed.
Example C97_strobe_fade_ex : strobe_setFadeTimes 16 32 strobe_new 20 200 = {| s0 := 20; s1 := 0; s2 := 200; s3 := 110; s4 := 20; s5 := 0; s6 := 200; s7 := 510 |}
  /\ s1 (strobe_setFadeTimes 16 32 strobe_new 20 30) = 140.
Proof. split; reflexivity. Qed.

(* A strobe takes longer than its period: the pause between the flashes is added to it. *)
Theorem C97_a_strobe_takes_its_period_and_the_pause tw s period d1 d2 d3 fade :
  (tw = 16 \/ tw = 32) -> 0 <= period < 2 ^ tw -> period * 100 < 2 ^ 32 -> 0 <= d1 -> 0 <= d2 -> 0 <= d3 -> d1 + d2 + d3 <= 100 ->
  0 <= s0 s -> 0 <= s2 s -> s0 s + s2 s = fade -> s4 s + s6 s = fade -> fade < period * d1 / 100 -> fade < period * d3 / 100 ->
  let g := fst (strobe_setPeriod tw 32 s period d1 d2 d3) in
  snd (strobe_setPeriod tw 32 s period d1 d2 d3) = true /\
  s0 g + s1 g + s2 g = period * d1 / 100 /\ s3 g = period * d2 / 100 /\ s4 g + s5 g + s6 g = period * d3 / 100 /\
  s0 g + s1 g + s2 g + s3 g + s4 g + s5 g + s6 g + s7 g = period + s3 g.
Proof.
  intros Htw Hp Hv D1 D2 D3 Hd P0 P2 Hf1 Hf2 L1 L3 g. unfold g, strobe_setPeriod.
  change (2 ^ 32) with 4294967296 in Hv.
  assert (Ht : 2 ^ tw <= 4294967296) by (destruct Htw as [-> | ->]; cbn; lia).
  assert (Q : forall d, 0 <= d <= 100 -> u32 (period * d) = period * d /\ 0 <= period * d / 100 <= period).
  { intros d Hdd. assert (K0 : 0 <= period * d) by (apply Z.mul_nonneg_nonneg; lia). assert (K1 : period * d <= period * 100) by (apply Z.mul_le_mono_nonneg_l; lia).
    split; [unfold u32; apply Z.mod_small; lia|]. split; [apply Z.div_pos; lia|apply Z.div_le_upper_bound; lia]. }
  destruct (Q d1 ltac:(lia)) as [Q1 R1]. destruct (Q d2 ltac:(lia)) as [Q2 R2]. destruct (Q d3 ltac:(lia)) as [Q3 R3].
  assert (HS : period * d1 / 100 + period * d3 / 100 <= period).
  { assert (Hm : period * (d1 + d3) <= period * 100) by (apply Z.mul_le_mono_nonneg_l; lia).
    pose proof (Z.mul_div_le (period * d1) 100 ltac:(lia)). pose proof (Z.mul_div_le (period * d3) 100 ltac:(lia)). rewrite Z.mul_add_distr_l in Hm. lia. }
  assert (E1 : d1 >? 100 = false) by lia. rewrite E1, Q1, Q2, Q3.
  assert (U1 : u8 (100 - d1) = 100 - d1) by (unfold u8; apply Z.mod_small; lia). rewrite U1.
  assert (U2 : u8 (100 - d1 - d2) = 100 - d1 - d2) by (unfold u8; apply Z.mod_small; lia). rewrite U2.
  assert (E2 : d2 >? 100 - d1 = false) by lia. rewrite E2. assert (E3 : d3 >? 100 - d1 - d2 = false) by lia. rewrite E3.
  unfold tadd. replace (Z.max tw 32) with 32 by lia. rewrite Hf1.
  set (x1 := period * d1 / 100) in *. set (x2 := period * d2 / 100) in *. set (x3 := period * d3 / 100) in *. clearbody x1 x2 x3.
  assert (W : forall x, 0 <= x <= period -> wrap tw x = x) by (intros x Hx; unfold wrap; apply Z.mod_small; lia).
  assert (V : forall x, 0 <= x <= period -> u32 x = x) by (intros x Hx; unfold u32; apply Z.mod_small; lia).
  assert (F : u32 (wrap 32 fade) = fade).
  { unfold wrap. change (2 ^ 32) with 4294967296. rewrite Z.mod_small by lia. apply V. lia. }
  rewrite F, (W x1), (W x2), (W x3) by lia. unfold shorten_le.
  assert (E4 : x1 <=? fade = false) by lia. assert (E5 : x3 <=? fade = false) by lia. rewrite E4, E5.
  rewrite (W (x1 - fade)), (W (x3 - fade)) by lia.
  assert (F2 : u32 (fade * 2) = fade * 2) by (apply V; lia). rewrite F2.
  rewrite (V (period - fade * 2 - (x1 - fade) - (x3 - fade))) by lia. rewrite (W (period - fade * 2 - (x1 - fade) - (x3 - fade))) by lia.
  cbn [fst snd s0 s1 s2 s3 s4 s5 s6 s7]. repeat split; lia.
Qed.
Example C97_strobe_ex : strobe_setPeriod 16 32 strobe_new 2000 10 20 10 = ({| s0 := 60; s1 := 50; s2 := 90; s3 := 400; s4 := 60; s5 := 50; s6 := 90; s7 := 1600 |}, true).
Proof. reflexivity. Qed.
(* if the second flash is too short for its fades it is the first that loses its light, and the second takes its share without the fades *)
Theorem C97_short_second_flashes_refuted :
  exists g, strobe_setPeriod 16 32 strobe_new 1000 40 10 14 = (g, true) /\ s1 g = 0 /\ s5 g = 140 /\
    s0 g + s1 g + s2 g <> 1000 * 40 / 100 /\ s4 g + s5 g + s6 g <> 1000 * 14 / 100.
Proof. eexists. split; [reflexivity|]. cbn. repeat split; discriminate. Qed.

Print Assumptions C96_only_frames_of_the_array_are_read.
Print Assumptions C96_frames_are_shown_in_a_cycle.
Print Assumptions C96_frames_are_shown_forwards_and_backwards.
Print Assumptions C96_autoreverse_of_one_frame_stops.
Print Assumptions C96_every_frame_reaches_its_values.
Print Assumptions C96_frames_take_one_update_more.
Print Assumptions C96_isAnimating_until_the_end_refuted.
Print Assumptions C96_getMode_returns_the_mode_refuted.
Print Assumptions C97_a_pulse_takes_its_period.
Print Assumptions C97_long_pulses_have_their_share_refuted.
Print Assumptions C97_an_indicator_takes_its_period_and_the_fades.
Print Assumptions C97_an_indicator_takes_its_period_refuted.
Print Assumptions C97_fade_times_keep_the_time.
Print Assumptions C97_a_strobe_takes_its_period_and_the_pause.
Print Assumptions C97_short_second_flashes_refuted.
Print Assumptions C97_fade_times_of_a_strobe_keep_the_time.
