(* Properties C104 and C105: the pressure sensors MS5611 and MS5837. *)
From Verif Require Import Base CrcSpec CrcProofs PrsModel PrsSpec PrsCrcProofs PrsProofs.

(** *** Cases *)

(* sixteen bytes with the right check sum 13, and fourteen with the check sum 3 *)
Definition rom1 : list Z := [49; 12; 69; 83; 79; 243; 4; 210; 104; 110; 56; 231; 118; 26; 63; 13].
Definition rom2 : list Z := [49; 12; 69; 83; 79; 243; 4; 210; 104; 110; 56; 231; 118; 26].
Lemma rom1_ok : length rom1 = 16%nat /\ Forall byte rom1.
Proof. split; [reflexivity | unfold rom1, byte; repeat constructor; lia]. Qed.
Lemma rom2_ok : length rom2 = 14%nat /\ Forall byte rom2.
Proof. split; [reflexivity | unfold rom2, byte; repeat constructor; lia]. Qed.
(* the example of the data sheet of the MS5611 *)
Definition prom1 : list Z := [0; 40127; 36924; 23317; 23282; 33464; 28312; 0].
Definition raw1 : list Z := [138; 162; 26; 130; 193; 62].
Lemma prom1_ok : prom_ok prom1.
Proof. split; [reflexivity | unfold prom1, word; repeat constructor; lia]. Qed.
Lemma raw1_ok : raw_ok raw1.
Proof. split; [reflexivity | unfold raw1, byte; repeat constructor; lia]. Qed.

(** *** C104: the check sum of the calibration memory *)

(* calculateCrc is the remainder of the polynomial division by x^4 + x + 1, whatever the words *)
Theorem C104_crc_5611 p : prom_ok p -> crc_value 4 g4 0 (covered5611 p) (calculateCrc5611 p).
Proof. exact (crc_5611 p). Qed.
Example C104_crc_5611_ex : calculateCrc5611 [12556; 17747; 20467; 1234; 26734; 14567; 30234; 16141] = 13.
Proof. vm_compute. reflexivity. Qed.
Theorem C104_crc_5837 p : prom_ok p ->
  crc_value 4 g4 0 (covered5837 p) (fst (calculateCrc5837 p)) /\ snd (calculateCrc5837 p) = nth 0 p 0 mod 4096 :: firstn 6 (tl p) ++ [0].
Proof. exact (crc_5837 p). Qed.
Example C104_crc_5837_ex : calculateCrc5837 [12556; 17747; 20467; 1234; 26734; 14567; 30234; 999] = (3, [268; 17747; 20467; 1234; 26734; 14567; 30234; 0]).
Proof. vm_compute. reflexivity. Qed.
(* initialize of the MS5611 stores the words received, high byte first, and returns true exactly when the last four bits are the check sum *)
Theorem C104_initialize_5611 bytes : length bytes = 16%nat -> Forall byte bytes ->
  prom_ok (fst (initialize5611 bytes)) /\ bytes_of (fst (initialize5611 bytes)) = bytes
  /\ (snd (initialize5611 bytes) = true <-> crc_value 4 g4 0 (stream_msb (firstn 15 bytes)) (nth 15 bytes 0 mod 16)).
Proof. exact (init_5611 bytes). Qed.
Example C104_initialize_5611_ex : snd (initialize5611 rom1) = true /\ snd (initialize5611 (0 :: tl rom1)) = false.
Proof. split; vm_compute; reflexivity. Qed.
(* the same of the MS5837 with the first four bits, when all transactions succeed; the calibration words 1 to 6 are stored *)
Theorem C104_initialize_5837 bytes old : length bytes = 14%nat -> Forall byte bytes -> prom_ok old ->
  let r := initialize5837 true (map Some (pairs bytes)) old in
  firstn 6 (tl (fst r)) = map (fun x => fst x * 256 + snd x) (tl (pairs bytes))
  /\ (snd r = true <-> crc_value 4 g4 0 (stream_msb (nth 0 bytes 0 mod 16 :: tl bytes ++ [0])) (nth 0 bytes 0 / 16)).
Proof. exact (init_5837 bytes old). Qed.
Example C104_initialize_5837_ex :
  snd (initialize5837 true (map Some (pairs rom2)) prom1) = true /\ snd (initialize5837 true (map Some (pairs (0 :: tl rom2))) prom1) = false.
Proof. split; vm_compute; reflexivity. Qed.
(* changed bits: if a memory is accepted, no memory with the same check sum differing from it in up to four adjacent bits is *)
Theorem C104_detects_5611 a b pre d1 d2 post :
  length a = 16%nat -> Forall byte a -> length b = 16%nat -> Forall byte b ->
  stream_msb (firstn 15 a) = pre ++ d1 ++ post -> stream_msb (firstn 15 b) = pre ++ d2 ++ post -> zlen d1 = zlen d2 -> zlen d1 <= 4 -> d1 <> d2 ->
  nth 15 a 0 mod 16 = nth 15 b 0 mod 16 -> snd (initialize5611 a) = true -> snd (initialize5611 b) = false.
Proof.
  intros LA FA LB FB SA SB L L4 N E A. destruct (snd (initialize5611 b)) eqn:B; [| reflexivity]. exfalso. apply N.
  apply (init_5611 a LA FA) in A. apply (init_5611 b LB FB) in B. rewrite E in A. rewrite SA in A. rewrite SB in B. exact (burst4 pre d1 d2 post _ L L4 A B).
Qed.
Example C104_detects_5611_ex : snd (initialize5611 [49; 12; 69; 83; 79; 243; 4; 216; 104; 110; 56; 231; 118; 26; 63; 13]) = false.
Proof.
  refine (C104_detects_5611 rom1 _ (stream_msb (firstn 7 rom1) ++ [true; true; false; true]) [false; false; true; false] [true; false; false; false]
            (stream_msb (firstn 7 (skipn 8 rom1))) (proj1 rom1_ok) (proj2 rom1_ok) _ _ _ _ _ _ _ _ _).
  - reflexivity.
  - unfold byte. repeat constructor; lia.
  - vm_compute. reflexivity.
  - vm_compute. reflexivity.
  - reflexivity.
  - vm_compute. discriminate.
  - discriminate.
  - reflexivity.
  - vm_compute. reflexivity.
Qed.
Theorem C104_detects_5837 a b old pre d1 d2 post :
  length a = 14%nat -> Forall byte a -> length b = 14%nat -> Forall byte b -> prom_ok old ->
  stream_msb (nth 0 a 0 mod 16 :: tl a ++ [0]) = pre ++ d1 ++ post -> stream_msb (nth 0 b 0 mod 16 :: tl b ++ [0]) = pre ++ d2 ++ post ->
  zlen d1 = zlen d2 -> zlen d1 <= 4 -> d1 <> d2 -> nth 0 a 0 / 16 = nth 0 b 0 / 16 ->
  snd (initialize5837 true (map Some (pairs a)) old) = true -> snd (initialize5837 true (map Some (pairs b)) old) = false.
Proof.
  intros LA FA LB FB OO SA SB L L4 N E A. destruct (snd (initialize5837 true (map Some (pairs b)) old)) eqn:B; [| reflexivity]. exfalso. apply N.
  apply (init_5837 a old LA FA OO) in A. apply (init_5837 b old LB FB OO) in B. rewrite E in A. rewrite SA in A. rewrite SB in B. exact (burst4 pre d1 d2 post _ L L4 A B).
Qed.
Example C104_detects_5837_ex : snd (initialize5837 true (map Some (pairs [49; 12; 69; 83; 79; 243; 4; 216; 104; 110; 56; 231; 118; 26])) prom1) = false.
Proof.
  refine (C104_detects_5837 rom2 _ prom1 (stream_msb (1 :: firstn 6 (tl rom2)) ++ [true; true; false; true]) [false; false; true; false] [true; false; false; false]
            (stream_msb (firstn 6 (skipn 8 rom2) ++ [0])) (proj1 rom2_ok) (proj2 rom2_ok) _ _ prom1_ok _ _ _ _ _ _ _).
  - reflexivity.
  - unfold byte. repeat constructor; lia.
  - vm_compute. reflexivity.
  - vm_compute. reflexivity.
  - reflexivity.
  - vm_compute. discriminate.
  - discriminate.
  - reflexivity.
  - vm_compute. reflexivity.
Qed.
(* an MS5611 whose data line reads as 0, e.g. one that is not there, is accepted with all words 0 *)
Theorem C104_dead_5611_refuted : exists bytes, length bytes = 16%nat /\ Forall (fun b => b = 0) bytes /\ initialize5611 bytes = (repeat 0 8, true).
Proof. exists (repeat 0 16). split; [reflexivity |]. split; [repeat constructor | vm_compute; reflexivity]. Qed.
(* an MS5837 that fails every transaction after the reset is accepted with all words 0 *)
Theorem C104_failing_5837_wrong : forall old, initialize5837 true (repeat None 7) old = (repeat 0 8, true).
Proof. intros old. unfold initialize5837. cbn [negb repeat map readProm5837 app]. vm_compute. reflexivity. Qed.

(** *** C105: the compensation *)

(* for all calibration words and raw values with a first order temperature from -154.72 degree on: pressure and temperature are those of the
   data sheet up to an error of 1 + 1/512 of the last digit *)
Theorem C105_values_5611 p r : prom_ok p -> raw_ok r -> -15472 <= TEMP p r ->
  near (fst (values5611 p r)) (P44_5611 p r) (2 ^ 44) /\ near (snd (values5611 p r)) (T37_5611 p r) (2 ^ 37).
Proof. exact (values5611_ok p r). Qed.
Example C105_values_5611_ex : TEMP prom1 raw1 = 2007 /\ values5611 prom1 raw1 = (100009, 2007) /\ near 100009 (P44_5611 prom1 raw1) (2 ^ 44).
Proof.
  split; [vm_compute; reflexivity |]. split; [vm_compute; reflexivity |].
  refine (proj1 (C105_values_5611 prom1 raw1 prom1_ok raw1_ok _)). vm_compute. discriminate.
Qed.
Theorem C105_values_5837 p r : prom_ok p -> raw_ok r -> -18724 <= TEMP p r <= 48340 ->
  near (fst (values5837 p r)) (P42_5837 p r) (2 ^ 42) /\ near (snd (values5837 p r)) (T37_5837 p r) (2 ^ 37).
Proof. exact (values5837_ok p r). Qed.
Example C105_values_5837_ex : values5837 prom1 raw1 = (400036, 2007) /\ near 400036 (P42_5837 prom1 raw1) (2 ^ 42).
Proof.
  split; [vm_compute; reflexivity |]. refine (proj1 (C105_values_5837 prom1 raw1 prom1_ok raw1_ok _)). split; vm_compute; discriminate.
Qed.
(* beyond that the squares overflow *)
Theorem C105_cold_5611_refuted : exists p r, prom_ok p /\ raw_ok r /\ TEMP p r = -20278 /\ fst (values5611 p r) = 61184 /\ ~ near 61184 (P44_5611 p r) (2 ^ 44).
Proof.
  exists prom1, [138; 162; 26; 30; 0; 0]. split; [exact prom1_ok |]. split; [split; [reflexivity | unfold byte; repeat constructor; lia] |].
  split; [vm_compute; reflexivity |]. split; [vm_compute; reflexivity |]. unfold near. vm_compute. discriminate.
Qed.
Theorem C105_hot_5837_refuted : exists p r, prom_ok p /\ raw_ok r /\ TEMP p r = 65631 /\ fst (values5837 p r) = 609577 /\ ~ near 609577 (P42_5837 p r) (2 ^ 42).
Proof.
  exists [0; 40127; 36924; 23317; 23282; 33464; 65535; 0], [138; 162; 26; 255; 0; 0].
  split; [split; [reflexivity | unfold word; repeat constructor; lia] |]. split; [split; [reflexivity | unfold byte; repeat constructor; lia] |].
  split; [vm_compute; reflexivity |]. split; [vm_compute; reflexivity |]. unfold near. vm_compute. discriminate.
Qed.
(* the data object, after any sequence of readings and calls: getTemperature gives the temperature of the bytes in the object, and getPressure
   their pressure when it comes after getTemperature *)
Theorem C105_cache_5611 d : reach values5611 d ->
  fst (getTemperature values5611 d) = snd (values5611 (p_prom d) (p_raw d))
  /\ fst (getPressure values5611 (snd (getTemperature values5611 d))) = fst (values5611 (p_prom d) (p_raw d)).
Proof. exact (gets values5611 d temp_only5611). Qed.
Definition dA : pdata := mkP prom1 [138; 162; 26; 130; 100; 62] false false 0 0.
(* a reading during which the pressure is asked for *)
Definition dB : pdata := temperatureArrives 130 193 62 (snd (getPressure values5611 (pressureArrives 138 162 26 dA))).
Lemma reachB : reach values5611 dB.
Proof. unfold dB. apply r_temp, r_getp, r_press, r_new. reflexivity. Qed.
Example C105_cache_5611_ex : fst (getTemperature values5611 dB) = 2007 /\ fst (getPressure values5611 (snd (getTemperature values5611 dB))) = 100009.
Proof. destruct (C105_cache_5611 dB reachB) as [A B]. rewrite A, B. split; vm_compute; reflexivity. Qed.
Theorem C105_cache_5837 d : reach values5837 d ->
  fst (getTemperature values5837 d) = snd (values5837 (p_prom d) (p_raw d))
  /\ fst (getPressure values5837 (snd (getTemperature values5837 d))) = fst (values5837 (p_prom d) (p_raw d)).
Proof. exact (gets values5837 d temp_only5837). Qed.
Example C105_cache_5837_ex : let d := temperatureArrives 130 193 62 (pressureArrives 138 162 26 dA) in
  fst (getPressure values5837 (snd (getTemperature values5837 d))) = 400036.
Proof.
  cbv zeta. assert (R : reach values5837 (temperatureArrives 130 193 62 (pressureArrives 138 162 26 dA))) by (apply r_temp, r_press, r_new; reflexivity).
  destruct (C105_cache_5837 _ R) as [_ B]. rewrite B. vm_compute. reflexivity.
Qed.
(* but getPressure alone keeps the pressure compensated with the old temperature, and changes without new data when getTemperature is called *)
Theorem C105_stale_pressure_refuted : exists d, reach values5611 d /\ p_raw d = raw1 /\ p_prom d = prom1
  /\ fst (getPressure values5611 d) = 99854 /\ fst (values5611 prom1 raw1) = 100009
  /\ fst (getPressure values5611 (snd (getTemperature values5611 (snd (getPressure values5611 d))))) = 100009.
Proof.
  exists dB. split; [exact reachB |]. split; [reflexivity |]. split; [reflexivity |]. split; [vm_compute; reflexivity |]. split; vm_compute; reflexivity.
Qed.

Print Assumptions C104_crc_5611.
Print Assumptions C104_crc_5837.
Print Assumptions C104_initialize_5611.
Print Assumptions C104_initialize_5837.
Print Assumptions C104_detects_5611.
Print Assumptions C104_detects_5837.
Print Assumptions C104_dead_5611_refuted.
Print Assumptions C104_failing_5837_wrong.
Print Assumptions C105_values_5611.
Print Assumptions C105_values_5837.
Print Assumptions C105_cold_5611_refuted.
Print Assumptions C105_hot_5837_refuted.
Print Assumptions C105_cache_5611.
Print Assumptions C105_cache_5837.
Print Assumptions C105_stale_pressure_refuted.
