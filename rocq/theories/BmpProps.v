(* Properties C106 and C107: the pressure sensors BMP085/BMP180 and BME280. *)
From Verif Require Import Base PrsModel PrsCrcProofs BmpModel BmpSpec BmpProofs.

(** *** C106: BMP085/BMP180 *)

(* the example of the data sheet: UT = 27898, UP = 23843 *)
Definition cal1 : cal085 := mkCal 408 (-72) (-14383) 32741 32757 23153 6190 4 (-32768) (-8711) 2868.
Definition rawA : list Z := [108; 250; 93; 35; 0].
Lemma cal1_ok : cal_ok cal1.
Proof. unfold cal_ok, int16, uint16, cal1. cbn. lia. Qed.
Lemma rawA_ok : raw5_ok rawA.
Proof. split; [reflexivity | unfold rawA, byte_ok; repeat constructor; lia]. Qed.

(* initialize stores the eleven words of the memory with their signs, and all of them are in range *)
Theorem C106_initialize bytes : length bytes = 22%nat -> Forall byte_ok bytes ->
  let w i := nth (2 * i) bytes 0 * 256 + nth (2 * i + 1) bytes 0 in
  initialize085 bytes = mkCal (sgn 16 (w 0%nat)) (sgn 16 (w 1%nat)) (sgn 16 (w 2%nat)) (w 3%nat) (w 4%nat) (w 5%nat)
                              (sgn 16 (w 6%nat)) (sgn 16 (w 7%nat)) (sgn 16 (w 8%nat)) (sgn 16 (w 9%nat)) (sgn 16 (w 10%nat))
  /\ cal_ok (initialize085 bytes).
Proof.
  intros L F w. assert (G : forall i, (i < 22)%nat -> byte_ok (nth i bytes 0)). { intros i H. rewrite Forall_forall in F. apply F. apply nth_In. lia. }
  assert (W : forall i, (i < 11)%nat -> promWord5611 (nth (2 * i) bytes 0) (nth (2 * i + 1) bytes 0) = w i /\ 0 <= w i < 65536).
  { intros i H. pose proof (G (2 * i)%nat ltac:(lia)) as A. pose proof (G (2 * i + 1)%nat ltac:(lia)) as B. unfold w. clear G F. unfold byte_ok in *.
    generalize dependent (nth (2 * i) bytes 0). generalize dependent (nth (2 * i + 1) bytes 0). intros y Y x X. rewrite word5611 by assumption. split; [reflexivity | lia]. }
  assert (E : initialize085 bytes = mkCal (sgn 16 (w 0%nat)) (sgn 16 (w 1%nat)) (sgn 16 (w 2%nat)) (w 3%nat) (w 4%nat) (w 5%nat)
                              (sgn 16 (w 6%nat)) (sgn 16 (w 7%nat)) (sgn 16 (w 8%nat)) (sgn 16 (w 9%nat)) (sgn 16 (w 10%nat))).
  { unfold initialize085. cbv zeta.
    rewrite (proj1 (W 0%nat ltac:(lia))), (proj1 (W 1%nat ltac:(lia))), (proj1 (W 2%nat ltac:(lia))), (proj1 (W 3%nat ltac:(lia))), (proj1 (W 4%nat ltac:(lia))),
      (proj1 (W 5%nat ltac:(lia))), (proj1 (W 6%nat ltac:(lia))), (proj1 (W 7%nat ltac:(lia))), (proj1 (W 8%nat ltac:(lia))), (proj1 (W 9%nat ltac:(lia))), (proj1 (W 10%nat ltac:(lia))).
    assert (Q : forall i, (i < 11)%nat -> s16 (w i) = sgn 16 (w i)) by (intros i H; apply swrap_sgn; [lia | exact (proj2 (W i H))]).
    rewrite (Q 0%nat), (Q 1%nat), (Q 2%nat), (Q 6%nat), (Q 7%nat), (Q 8%nat), (Q 9%nat), (Q 10%nat) by lia. reflexivity. }
  split; [exact E |]. rewrite E. unfold cal_ok. cbn [ac1 ac2 ac3 ac4 ac5 ac6 cb1 cb2 mb mc md].
  assert (Q : forall i, (i < 11)%nat -> int16 (sgn 16 (w i))).
  { intros i H. pose proof (proj2 (W i H)) as R. unfold int16, sgn. change (2 ^ (16 - 1)) with 32768. change (2 ^ 16) with 65536. clear - R. destruct (Z.ltb_spec (w i) 32768); lia. }
  repeat split; try (apply Q; lia); try (apply W; lia).
Qed.
Example C106_initialize_ex : initialize085 [1;152; 255;184; 199;209; 127;229; 127;245; 90;113; 24;46; 0;4; 128;0; 221;249; 11;52] = cal1.
Proof. vm_compute. reflexivity. Qed.
(* the temperature is the one of the data sheet *)
Theorem C106_temperature c r : cal_ok c -> raw5_ok r -> ac5 c < 32768 -> -32768 <= UT r - ac6 c < 32768 -> X1s c r + md c <> 0 -> -32768 <= Ts c r < 32768 ->
  temp085 c r = Some (Ts c r).
Proof. exact (temp_ok c r). Qed.
Example C106_temperature_ex : temp085 cal1 rawA = Some 150 /\ Ts cal1 rawA = 150.
Proof.
  split; [| vm_compute; reflexivity]. rewrite (C106_temperature cal1 rawA cal1_ok rawA_ok).
  - vm_compute. reflexivity.
  - cbn. lia.
  - vm_compute. split; [discriminate | reflexivity].
  - vm_compute. discriminate.
  - vm_compute. split; [discriminate | reflexivity].
Qed.
(* the pressure is the one of the data sheet, from -47.4 to 97.4 degrees and up to 2152 hPa *)
Theorem C106_pressure c oss r : cal_ok c -> raw5_ok r -> 0 <= oss <= 3 -> ac5 c < 32768 -> 2 <= ac4 c -> -32768 <= UT r - ac6 c < 32768 -> X1s c r + md c <> 0 ->
  -7585 <= B5s c r <= 15585 -> 0 <= B7s c oss (B5s c r) (UP oss r) < 4294967296 -> P0s (B4s c (B5s c r)) (B7s c oss (B5s c r) (UP oss r)) < 215296 ->
  press085 c oss r = Some (Ps (P0s (B4s c (B5s c r)) (B7s c oss (B5s c r) (UP oss r)))).
Proof. exact (press_ok c oss r). Qed.
Example C106_pressure_ex : press085 cal1 0 rawA = Some 69964.
Proof.
  rewrite (C106_pressure cal1 0 rawA cal1_ok rawA_ok).
  - vm_compute. reflexivity.
  - lia.
  - cbn. lia.
  - cbn. lia.
  - vm_compute. split; [discriminate | reflexivity].
  - vm_compute. discriminate.
  - vm_compute. split; discriminate.
  - vm_compute. split; [discriminate | reflexivity].
  - vm_compute. reflexivity.
Qed.
(* AC5 is unsigned and 32757 in the example of the data sheet; with 32768 the driver shows 29.7 instead of 15.0 degrees *)
Theorem C106_ac5_refuted : exists c r, cal_ok c /\ raw5_ok r /\ ac5 c = 32768 /\ Ts c r = 150 /\ temp085 c r = Some 297 /\ press085 c 0 r = Some 72286.
Proof.
  exists (mkCal 408 (-72) (-14383) 32741 32768 23153 6190 4 (-32768) (-8711) 2868), rawA. split; [unfold cal_ok, int16, uint16; cbn; lia |].
  split; [exact rawA_ok |]. split; [reflexivity |]. split; [vm_compute; reflexivity |]. split; vm_compute; reflexivity.
Qed.
(* for every AC5 from 32768 on the first term has the wrong sign and size: it is too small by the difference UT - AC6 times two *)
Theorem C106_ac5_wrong c r : cal_ok c -> raw5_ok r -> 32768 <= ac5 c -> -32768 <= UT r - ac6 c < 32768 -> x1_085 c r = X1s c r - 2 * (UT r - ac6 c).
Proof.
  intros (_ & _ & _ & _ & A5 & A6 & _) R L5 D. destruct (UT_ok r R) as [E U]. unfold x1_085, X1s. rewrite E. unfold uint16 in *.
  rewrite PrsProofs.i32_small by lia. assert (S5 : s16 (ac5 c) = ac5 c - 65536).
  { unfold s16. rewrite swrap_sgn by (try change (2 ^ 16) with 65536; lia). unfold sgn. change (2 ^ (16 - 1)) with 32768. change (2 ^ 16) with 65536.
    destruct (Z.ltb_spec (ac5 c) 32768); lia. }
  assert (M : muls (UT r - ac6 c) (ac5 c) = (UT r - ac6 c) * (ac5 c - 65536)).
  { unfold muls. rewrite S5. rewrite s16_small by exact D. apply PrsProofs.i32_small.
    pose proof (PrsProofs.mul_bound (UT r - ac6 c) (ac5 c - 65536) 32768 32768 ltac:(lia) ltac:(lia)). lia. }
  rewrite M. rewrite PrsProofs.shr by lia. change (2 ^ 15) with 32768.
  replace ((UT r - ac6 c) * (ac5 c - 65536)) with ((UT r - ac6 c) * ac5 c + - (2 * (UT r - ac6 c)) * 32768) by ring. rewrite Z.div_add by lia. ring.
Qed.
Example C106_ac5_wrong_ex : x1_085 (mkCal 408 (-72) (-14383) 32741 32768 23153 6190 4 (-32768) (-8711) 2868) rawA = -4745
  /\ X1s (mkCal 408 (-72) (-14383) 32741 32768 23153 6190 4 (-32768) (-8711) 2868) rawA = 4745.
Proof. split; vm_compute; reflexivity. Qed.
(* the difference UT - AC6 is cut to 16 bits: 204.9 degrees become -197.7 *)
Theorem C106_difference_refuted : exists c r, cal_ok c /\ raw5_ok r /\ ac5 c < 32768 /\ Ts c r = 2049 /\ temp085 c r = Some (-1977).
Proof.
  exists cal1, [220; 118; 93; 35; 0]. split; [exact cal1_ok |]. split; [split; [reflexivity | unfold byte_ok; repeat constructor; lia] |].
  split; [cbn; lia |]. split; vm_compute; reflexivity.
Qed.
(* a memory read as zeros is accepted and makes every calculation divide by zero *)
Theorem C106_zero_undefined oss r : temp085 (initialize085 (repeat 0 22)) r = None /\ press085 (initialize085 (repeat 0 22)) oss r = None.
Proof.
  assert (E : b5_085 (initialize085 (repeat 0 22)) r = None).
  { unfold b5_085, x1_085. assert (C : initialize085 (repeat 0 22) = mkCal 0 0 0 0 0 0 0 0 0 0 0) by (vm_compute; reflexivity). rewrite C.
    cbn [ac5 ac6 md mc]. unfold muls. change (s16 0) with 0. rewrite Z.mul_0_r. reflexivity. }
  unfold temp085, press085. rewrite E. split; reflexivity.
Qed.
Example C106_zero_undefined_ex : temp085 (mkCal 0 0 0 0 0 0 0 0 0 0 0) rawA = None.
Proof. vm_compute. reflexivity. Qed.

(* the data object with the formulas of the BMP085 *)
Definition fineB (c : cal085) (r : list Z) : Z := match b5_085 c r with Some x => x | None => 0 end.
Definition tvB (b5 : Z) : Z := s16 (Z.shiftr (i32 (b5 + 8)) 4).
Definition pvB (c : cal085) (oss b5 : Z) (r : list Z) : option Z := let (b4, b7) := b47_085 c oss (up085 oss r) b5 in last085 b4 b7.
Lemma fineB_temp c r r' : firstn 2 r = firstn 2 r' -> fineB c r = fineB c r'.
Proof.
  intros E. assert (N : nth 0 r 0 = nth 0 r' 0 /\ nth 1 r 0 = nth 1 r' 0).
  { destruct r as [| a [| b r]]; destruct r' as [| a' [| b' r']]; cbn in *; try discriminate; inversion E; subst; split; reflexivity. }
  destruct N as [N0 N1]. unfold fineB, b5_085, x1_085, ut085. rewrite N0, N1. reflexivity.
Qed.
Lemma temp_fine c r t : temp085 c r = Some t -> exists b5, b5_085 c r = Some b5 /\ tvB b5 = t.
Proof. unfold temp085, tvB. destruct (b5_085 c r) as [b5 |]; [| discriminate]. intros E. exists b5. split; [reflexivity | congruence]. Qed.
Lemma press_fine c oss r b5 p : b5_085 c r = Some b5 -> press085 c oss r = Some p -> pvB c oss b5 r = Some p.
Proof. intros B. unfold press085, pvB. rewrite B. exact (fun E => E). Qed.
(* after a readout with any calls between its halves, but none while a transaction runs, all answers are those of the new bytes *)
Theorem C106_cache c oss t0 t1 p0 p1 p2 l l2 d t p : length (b_raw d) = 5%nat ->
  temp085 c [t0; t1; p0; p1; p2] = Some t -> press085 c oss [t0; t1; p0; p1; p2] = Some p ->
  fst (gets true (fineB c) tvB (pvB c oss) l2 (readout085 (fineB c) tvB (pvB c oss) t0 t1 p0 p1 p2 [] l [] d)) = map (fun b : bool => if b then p else t) l2.
Proof.
  intros L T P. destruct (temp_fine c _ t T) as (b5 & B & TT). pose proof (press_fine c oss _ b5 p B P) as PP.
  assert (FB : fineB c [t0; t1; p0; p1; p2] = b5) by (unfold fineB; rewrite B; reflexivity). rewrite <- FB in PP, TT. clear FB B T P. revert TT PP.
  generalize (fineB_temp c). generalize (fineB c) as fine, tvB as tv, (pvB c oss) as pv. intros fine tv pv H TT PP. rewrite <- TT.
  exact (cache085 fine tv pv t0 t1 p0 p1 p2 l l2 d p H L PP).
Qed.
Definition dOld : bdata := mkB [100; 0; 80; 0; 0] false false 0 0 0.
Example C106_cache_ex :
  fst (gets true (fineB cal1) tvB (pvB cal1 0) [false; true; false] (readout085 (fineB cal1) tvB (pvB cal1 0) 108 250 93 35 0 [] [true; false] [] dOld)) = [150; 69964; 150].
Proof.
  assert (T : temp085 cal1 [108; 250; 93; 35; 0] = Some 150) by (vm_compute; reflexivity). assert (P : press085 cal1 0 [108; 250; 93; 35; 0] = Some 69964) by (vm_compute; reflexivity).
  etransitivity; [apply (C106_cache cal1 0 108 250 93 35 0 [true; false] [false; true; false] dOld 150 69964 eq_refl T P) | reflexivity].
Qed.
(* a call while a transaction runs makes the old value stay after the readout *)
Theorem C106_stale_refuted : exists d w1 w2,
  temp085 cal1 rawA = Some 150 /\ press085 cal1 0 rawA = Some 69964
  /\ fst (gets true (fineB cal1) tvB (pvB cal1 0) [false; false] (readout085 (fineB cal1) tvB (pvB cal1 0) 108 250 93 35 0 w1 [] [] d)) = [-57; -57]
  /\ fst (gets true (fineB cal1) tvB (pvB cal1 0) [true; true] (readout085 (fineB cal1) tvB (pvB cal1 0) 108 250 93 35 0 [] [] w2 d)) = [59925; 59925].
Proof. exists dOld, [false], [true]. split; [vm_compute; reflexivity |]. split; [vm_compute; reflexivity |]. split; vm_compute; reflexivity. Qed.

(** *** C107: BME280 *)

Definition rawB : list Z := [0; 0; 0; 126; 237; 0; 0; 0].
Lemma rawB_ok : raw8_ok rawB.
Proof. split; [reflexivity | unfold rawB, byte_ok; repeat constructor; lia]. Qed.
(* the temperature is the one of the data sheet, as long as none of its products overflows *)
Theorem C107_temperature T1 T2 T3 r : raw8_ok r -> uint16 T1 -> int16 T2 -> int16 T3 ->
  noflow (V1 T1 T2 r) -> -46340 <= ADC r / 16 - T1 <= 46340 -> noflow (V2 T1 T3 r) ->
  fine280 T1 T2 T3 r = FINE T1 T2 T3 r /\ temp280 (fine280 T1 T2 T3 r) = T280 (FINE T1 T2 T3 r).
Proof. exact (fine_ok T1 T2 T3 r). Qed.
Example C107_temperature_ex : fine280 27504 26435 (-1000) rawB = 128422 /\ temp280 (fine280 27504 26435 (-1000) rawB) = 2508.
Proof.
  destruct (C107_temperature 27504 26435 (-1000) rawB rawB_ok) as [A B].
  - unfold uint16. lia.
  - unfold int16. lia.
  - unfold int16. lia.
  - vm_compute. split; [discriminate | reflexivity].
  - vm_compute. split; discriminate.
  - vm_compute. split; [discriminate | reflexivity].
  - rewrite A in *. rewrite B. split; vm_compute; reflexivity.
Qed.
(* none does within 16384 steps of T1, whatever the calibration: that is what about 80 degrees are *)
Theorem C107_near_T1 T1 T2 T3 r : raw8_ok r -> uint16 T1 -> int16 T2 -> int16 T3 -> -16384 <= ADC r / 16 - T1 < 16384 ->
  temp280 (fine280 T1 T2 T3 r) = T280 (FINE T1 T2 T3 r).
Proof.
  intros R A B C D. apply (fine_ok T1 T2 T3 r R A B C).
  - unfold noflow, V1. assert (X : -32768 <= ADC r / 8 - T1 * 2 <= 32768) by (clear - D; lia). unfold int16 in B.
    pose proof (PrsProofs.mul_bound (ADC r / 8 - T1 * 2) T2 32768 32768 ltac:(lia) ltac:(lia)). lia.
  - lia.
  - unfold noflow, V2. set (e := ADC r / 16 - T1) in *. clearbody e. pose proof (PrsProofs.sq_bound e 16384 ltac:(lia)) as Q. unfold PrsSpec.sq in Q.
    assert (X : 0 <= e * e / 4096 <= 65536) by (clear - Q; set (x := e * e) in *; clearbody x; lia). set (y := e * e / 4096) in *. clearbody y. unfold int16 in C. clear - X C. nia.
Qed.
Example C107_near_T1_ex : temp280 (fine280 27504 26435 (-1000) rawB) = 2508.
Proof.
  rewrite (C107_near_T1 27504 26435 (-1000) rawB rawB_ok); [vm_compute; reflexivity | unfold uint16; lia | unfold int16; lia | unfold int16; lia |].
  vm_compute. split; [discriminate | reflexivity].
Qed.
Theorem C107_overflow_refuted : exists T1 T2 T3 r, raw8_ok r /\ uint16 T1 /\ int16 T2 /\ int16 T3
  /\ T280 (FINE T1 T2 T3 r) = 24737 /\ temp280 (fine280 T1 T2 T3 r) = -14973.
Proof.
  exists 15000, 26435, (-1000), [0; 0; 0; 255; 255; 255; 0; 0]. split; [split; [reflexivity | unfold byte_ok; repeat constructor; lia] |].
  unfold uint16, int16. split; [lia |]. split; [lia |]. split; [lia |]. split; vm_compute; reflexivity.
Qed.
(* the calibration of the humidity is decoded as the data sheet says if H4 and H5 are not negative, *)
Theorem C107_humidity b : length b = 7%nat -> Forall byte_ok b -> nth 3 b 0 < 128 -> nth 5 b 0 < 128 -> humidity280 b = H280 b.
Proof.
  intros L F A B. rewrite humidity_ok by assumption. assert (G : byte_ok (nth 4 b 0)) by (rewrite Forall_forall in F; apply F; apply nth_In; lia). unfold byte_ok in G.
  unfold H280u, H280. unfold sgn at 4 5. change (2 ^ (12 - 1)) with 2048.
  destruct (Z.ltb_spec (nth 3 b 0 * 16 + nth 4 b 0 mod 16) 2048) as [_ | X]; [| clear - X A; lia].
  destruct (Z.ltb_spec (nth 5 b 0 * 16 + nth 4 b 0 / 16) 2048) as [_ | X]; [| clear - X B G; lia]. reflexivity.
Qed.
(* the example in the comment of the driver *)
Example C107_humidity_ex : humidity280 [103; 1; 0; 20; 6; 0; 30] = [359; 0; 326; 0; 30].
Proof. rewrite C107_humidity; [vm_compute; reflexivity | reflexivity | unfold byte_ok; repeat constructor; lia | cbn; lia | cbn; lia]. Qed.
(* and 4096 too large if they are *)
Theorem C107_humidity_sign_wrong b : length b = 7%nat -> Forall byte_ok b ->
  (128 <= nth 3 b 0 -> nth 2 (humidity280 b) 0 = nth 2 (H280 b) 0 + 4096) /\ (128 <= nth 5 b 0 -> nth 3 (humidity280 b) 0 = nth 3 (H280 b) 0 + 4096).
Proof.
  intros L F. rewrite humidity_ok by assumption. assert (G : byte_ok (nth 4 b 0)) by (rewrite Forall_forall in F; apply F; apply nth_In; lia). unfold byte_ok in G.
  unfold H280u, H280. set (x3 := nth 3 b 0). set (x4 := nth 4 b 0) in *. set (x5 := nth 5 b 0). cbn [nth]. unfold sgn. change (2 ^ (12 - 1)) with 2048. change (2 ^ 12) with 4096.
  clearbody x3 x4 x5. split; intros H.
  - destruct (Z.ltb_spec (x3 * 16 + x4 mod 16) 2048) as [X | _]; [clear - X H; lia | ring].
  - destruct (Z.ltb_spec (x5 * 16 + x4 / 16) 2048) as [X | _]; [clear - X H G; lia | ring].
Qed.
Example C107_humidity_sign_wrong_ex : humidity280 [103; 1; 0; 20; 6; 255; 30] = [359; 0; 326; 4080; 30] /\ H280 [103; 1; 0; 20; 6; 255; 30] = [359; 0; 326; -16; 30].
Proof. split; vm_compute; reflexivity. Qed.
(* after a readout without calls while the transaction runs, all answers are those of the new bytes, whatever the formula of the pressure (or humidity) *)
Theorem C107_cache T1 T2 T3 pv bytes l d p : pv (fine280 T1 T2 T3 bytes) bytes = Some p ->
  fst (gets false (fine280 T1 T2 T3) temp280 pv l (readout280 (fine280 T1 T2 T3) temp280 pv bytes [] d))
  = map (fun b : bool => if b then p else temp280 (fine280 T1 T2 T3 bytes)) l.
Proof. exact (cache280 (fine280 T1 T2 T3) temp280 pv bytes l d p). Qed.
Example C107_cache_ex : fst (gets false (fine280 27504 26435 (-1000)) temp280 (fun f r => Some (f + nth 0 r 0)) [true; false]
  (readout280 (fine280 27504 26435 (-1000)) temp280 (fun f r => Some (f + nth 0 r 0)) rawB [] (mkB (repeat 0 8) true true 1 2 3))) = [128422; 2508].
Proof.
  etransitivity; [apply (C107_cache 27504 26435 (-1000) (fun f r => Some (f + nth 0 r 0)) rawB [true; false] (mkB (repeat 0 8) true true 1 2 3) 128422); vm_compute; reflexivity |].
  vm_compute. reflexivity.
Qed.
(* getTemperature while the transaction runs: afterwards the temperature is the old one, and the pressure is computed with it *)
Theorem C107_stale_wrong fine tv pv bytes d p : pv (fine (b_raw d)) bytes = Some p ->
  fst (gets false fine tv pv [false; true; false] (readout280 fine tv pv bytes [false] d)) = [tv (fine (b_raw d)); p; tv (fine (b_raw d))].
Proof.
  intros E. destruct d as [raw tc pc fi te pr]. unfold readout280, getT, getP, calcP. cbn in *. unfold getT, getP, calcP. cbn. rewrite E. cbn. reflexivity.
Qed.
Example C107_stale_wrong_ex : fst (gets false (fine280 27504 26435 (-1000)) temp280 (fun f r => Some (f + nth 0 r 0)) [false; true; false]
  (readout280 (fine280 27504 26435 (-1000)) temp280 (fun f r => Some (f + nth 0 r 0)) rawB [false] (mkB [0; 0; 0; 128; 0; 0; 0; 0] true true 1 2 3)))
  = [2646; 135479; 2646].
Proof. vm_compute. reflexivity. Qed.

Print Assumptions C106_initialize.
Print Assumptions C106_temperature.
Print Assumptions C106_pressure.
Print Assumptions C106_ac5_refuted.
Print Assumptions C106_ac5_wrong.
Print Assumptions C106_difference_refuted.
Print Assumptions C106_zero_undefined.
Print Assumptions C106_cache.
Print Assumptions C106_stale_refuted.
Print Assumptions C107_temperature.
Print Assumptions C107_near_T1.
Print Assumptions C107_overflow_refuted.
Print Assumptions C107_humidity.
Print Assumptions C107_humidity_sign_wrong.
Print Assumptions C107_cache.
Print Assumptions C107_stale_wrong.
