(* Property C108: the frames of the AD7280A. *)
From Verif Require Import Base CrcSpec CrcProofs BitsModel AdcModel AdcSpec AdcProofs.

(* the check sum is the remainder, for the 21 bits of a command as well as the 22 bits of a reply *)
Theorem C108_crc d : 0 <= d < 16777216 -> rem8 d (calculateCrc d) /\ forall r, rem8 d r -> r = calculateCrc d.
Proof.
  intros R. pose proof (calc_ok d R) as C. split; [exact C |]. intros r H. exact (rem8_unique d r _ H C).
Qed.
Example C108_crc_ex : calculateCrc 74565 = 174 /\ calculateCrc 4194303 = 150.
Proof. split; vm_compute; reflexivity. Qed.
(* write sends the command of the data sheet *)
Theorem C108_write d reg all value : 0 <= d < 32 -> 0 <= reg < 64 -> 0 <= value < 256 ->
  exists crc, rem8 (command d reg value all 0 / 2048) crc /\ write d reg all value = bytes4 (command d reg value all crc) /\ 0 <= command d reg value all crc < 4294967296.
Proof. exact (write_ok d reg all value). Qed.
(* the second is 0xF800030A, the command to read of the data sheet and in line 414 to 417 of the driver *)
Example C108_write_ex : write 3 13 true 165 = [193; 180; 176; 74] /\ write 31 0 false 0 = [248; 0; 3; 10].
Proof. split; vm_compute; reflexivity. Qed.
(* read returns the word received, and true exactly when its check sum is right *)
Theorem C108_read w : 0 <= w < 4294967296 ->
  exists ok, read (w / 16777216) (w / 65536 mod 256) (w / 256 mod 256) (w mod 256) = (w, ok) /\ (ok = true <-> rem8 (w / 1024) (w / 4 mod 256)).
Proof.
  intros R. destruct (read_ok w R) as [E I].
  destruct (read (w / 16777216) (w / 65536 mod 256) (w / 256 mod 256) (w mod 256)) as [v ok]. assert (EV : v = w) by congruence. subst v. clear E.
  exists ok. split; [reflexivity |]. cbn [snd] in I. rewrite I. unfold rem8. split; [| tauto]. intros H. split; [apply Z.mod_pos_bound; lia | exact H].
Qed.
Example C108_read_ex : read 193 180 184 92 = (3249846364, false) /\ read 193 180 164 92 = (3249841244, true).
Proof. split; vm_compute; reflexivity. Qed.
(* a register and a conversion sent by the chip arrive *)
Theorem C108_register d reg value ack crc b0 b1 b2 b3 : 0 <= d < 32 -> 0 <= reg < 64 -> 0 <= value < 256 -> rem8 (replyReg d reg value ack 0 / 1024) crc ->
  [b0; b1; b2; b3] = bytes4 (replyReg d reg value ack crc) -> readRegister b0 b1 b2 b3 = Some (d, reg, value, ack).
Proof.
  intros D G V C. remember (replyReg d reg value ack crc) as w eqn:EW. unfold bytes4. intros E.
  assert (b0 = w / 16777216) by congruence. assert (b1 = w / 65536 mod 256) by congruence. assert (b2 = w / 256 mod 256) by congruence. assert (b3 = w mod 256) by congruence. subst b0 b1 b2 b3.
  exact (readRegister_ok d reg value ack crc w D G V C EW).
Qed.
Example C108_register_ex : readRegister 193 180 164 92 = Some (3, 13, 165, true).
Proof.
  assert (C : rem8 (replyReg 3 13 165 true 0 / 1024) 23).
  { assert (E : calculateCrc (replyReg 3 13 165 true 0 / 1024) = 23) by (vm_compute; reflexivity). rewrite <- E. apply C108_crc. vm_compute. split; [discriminate | reflexivity]. }
  apply (C108_register 3 13 165 true 23); [lia | lia | lia | exact C | vm_compute; reflexivity].
Qed.
Theorem C108_conversion d ch value ack crc b0 b1 b2 b3 : 0 <= d < 32 -> 0 <= ch < 16 -> 0 <= value < 4096 -> rem8 (replyConv d ch value ack 0 / 1024) crc ->
  [b0; b1; b2; b3] = bytes4 (replyConv d ch value ack crc) -> readConversionResult b0 b1 b2 b3 = Some (d, ch, value, ack).
Proof.
  intros D G V C. remember (replyConv d ch value ack crc) as w eqn:EW. unfold bytes4. intros E.
  assert (b0 = w / 16777216) by congruence. assert (b1 = w / 65536 mod 256) by congruence. assert (b2 = w / 256 mod 256) by congruence. assert (b3 = w mod 256) by congruence. subst b0 b1 b2 b3.
  exact (readConv_ok d ch value ack crc w D G V C EW).
Qed.
Example C108_conversion_ex : readConversionResult 194 213 230 236 = Some (3, 5, 2748, true).
Proof.
  assert (C : rem8 (replyConv 3 5 2748 true 0 / 1024) 187).
  { assert (E : calculateCrc (replyConv 3 5 2748 true 0 / 1024) = 187) by (vm_compute; reflexivity). rewrite <- E. apply C108_crc. vm_compute. split; [discriminate | reflexivity]. }
  apply (C108_conversion 3 5 2748 true 187); [lia | lia | lia | exact C | vm_compute; reflexivity].
Qed.
(* of two words that differ within eight adjacent bits of the 30 bits that carry data or check sum, at most one is accepted *)
Theorem C108_detects w w' s m : 0 <= w < 4294967296 -> 0 <= w' < 4294967296 -> 2 <= s -> 0 < m < 256 -> Z.lxor w w' = Z.shiftl m s ->
  snd (read (w / 16777216) (w / 65536 mod 256) (w / 256 mod 256) (w mod 256)) = true ->
  snd (read (w' / 16777216) (w' / 65536 mod 256) (w' / 256 mod 256) (w' mod 256)) = false.
Proof.
  intros R R' S0 M E A. destruct (snd (read (w' / 16777216) (w' / 65536 mod 256) (w' / 256 mod 256) (w' mod 256))) eqn:B; [| reflexivity]. exfalso.
  apply (read_ok w R) in A. apply (read_ok w' R') in B.
  assert (G : forall v, v / 1024 = Z.shiftr (Z.shiftr v 2) 8 /\ v / 4 mod 256 = Z.land (Z.shiftr v 2) 255).
  { intros v. rewrite Z.shiftr_shiftr by lia. rewrite land255. rewrite !shrd by lia. split; reflexivity. }
  destruct (G w) as [G1 G2]. destruct (G w') as [G3 G4]. rewrite G1, G2 in A. rewrite G3, G4 in B. clear G G1 G2 G3 G4.
  apply (burst8 (Z.shiftr w 2) (Z.shiftr w' 2) (s - 2) m ltac:(lia) M); [| exact A | exact B].
  rewrite <- Z.shiftr_lxor. rewrite E. apply Z.shiftr_shiftl_l. lia.
Qed.
Example C108_detects_ex : snd (read 193 180 184 92) = false.
Proof. refine (C108_detects 3249841244 3249846364 10 7 _ _ _ _ _ _); try (vm_compute; reflexivity); vm_compute; repeat split; discriminate. Qed.
(* two bits eight apart are not noticed: here the acknowledge bit and the last bit of the check sum *)
Theorem C108_two_bits_refuted : exists b0 b1 b2 b3 c2 c3, readRegister b0 b1 b2 b3 = Some (3, 13, 165, true) /\ readRegister b0 b1 c2 c3 = Some (3, 13, 165, false)
  /\ Z.lxor b2 c2 = 4 /\ Z.lxor b3 c3 = 4.
Proof. exists 193, 180, 164, 92, 160, 88. split; [vm_compute; reflexivity |]. split; [vm_compute; reflexivity |]. split; reflexivity. Qed.

Print Assumptions C108_crc.
Print Assumptions C108_write.
Print Assumptions C108_read.
Print Assumptions C108_register.
Print Assumptions C108_conversion.
Print Assumptions C108_detects.
Print Assumptions C108_two_bits_refuted.
