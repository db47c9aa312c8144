(* C18, C19: cyclic redundancy checks *)
From Verif Require Import Base CrcModel CrcSpec CrcProofs.

(* C18. The remainder modulo a generator of degree n is unique, so [crc_value] below pins the result. *)
Theorem C18_crc_value_is_unique :
  forall n g init msg r1 r2, 0 <= n -> 2 ^ n <= g < 2 ^ (n + 1) ->
  crc_value n g init msg r1 -> crc_value n g init msg r2 -> r1 = r2.
Proof. exact crc_value_unique. Qed.
Print Assumptions C18_crc_value_is_unique.

(* C18. For every byte string, of any length and in any split (the start register is arbitrary), the routines compute
   the remainder of the polynomial division, bits least significant first. *)
Theorem C18_crc16_ccitt_is_polynomial_remainder :
  forall init data, 0 <= init < 65536 -> Forall byte data ->
  crc_value 16 0x11021 (reflect 16 init) (stream data) (reflect 16 (fold_left crc16_ccitt_update data init)).
Proof. exact crc16_ccitt_value. Qed.
Print Assumptions C18_crc16_ccitt_is_polynomial_remainder.
(* "123456789": the check value of CRC-16/MCRF4XX *)
Example C18_crc16_check :
  let msg := [0x31; 0x32; 0x33; 0x34; 0x35; 0x36; 0x37; 0x38; 0x39] in
  Forall byte msg /\ crc16_ccitt msg = 0x6F91 /\ crc32 msg = 0xCBF43926 /\
  fold_left sab2_crcUpdate msg 0 = 0xBB3D /\ fold_left sab_crcUpdate msg 0 = 0xA1.
Proof. cbv zeta. split; [bytes|vm_compute; auto]. Qed.

Theorem C18_crc32_is_polynomial_remainder :
  forall data, Forall byte data ->
  crc_value 32 0x104C11DB7 0xFFFFFFFF (stream data) (Z.lxor 0xFFFFFFFF (reflect 32 (crc32 data))).
Proof. exact crc32_value. Qed.
Print Assumptions C18_crc32_is_polynomial_remainder.

Theorem C18_sab_crc_is_polynomial_remainder :
  forall init data, byte init -> Forall byte data ->
  crc_value 8 0x131 (reflect 8 init) (stream data) (reflect 8 (fold_left sab_crcUpdate data init)).
Proof. exact sab_crc_value. Qed.
Print Assumptions C18_sab_crc_is_polynomial_remainder.

Theorem C18_sab2_rpr_crc_is_polynomial_remainder :
  forall init data, 0 <= init < 65536 -> Forall byte data ->
  crc_value 16 0x18005 (reflect 16 init) (stream data) (reflect 16 (fold_left sab2_crcUpdate data init)).
Proof. exact sab2_crc_value. Qed.
Print Assumptions C18_sab2_rpr_crc_is_polynomial_remainder.

(* a division written out: one zero byte through the SAB2 register preset to 0xFFFF *)
Example C18_division_example :
  crc_value 16 0x18005 0xFFFF (stream [0x00]) (reflect 16 0x40BF) /\ sab2_crcUpdate 0xFFFF 0 = 0x40BF.
Proof. split; [|vm_compute; reflexivity]. split; [vm_compute; split; congruence|]. exists 0xAA. vm_compute. split; congruence. Qed.

(* C18. A register fed with its own value, low byte first, becomes zero, and no other two bytes do that. This is what the
   receivers of SAB2 and RPR test. *)
Theorem C18_residue_zero_iff_appended_crc :
  forall r a b, 0 <= r < 65536 -> byte a -> byte b ->
  (sab2_crcUpdate (sab2_crcUpdate r a) b = 0 <-> a = r mod 256 /\ b = r / 256).
Proof. exact residue16. Qed.
Print Assumptions C18_residue_zero_iff_appended_crc.
Example C18_residue_example : sab2_crcUpdate (sab2_crcUpdate 0xBB3D 0x3D) 0xBB = 0 /\ sab2_crcUpdate (sab2_crcUpdate 0xBB3D 0xBB) 0x3D <> 0.
Proof. vm_compute. split; congruence. Qed.

(* C18 fails for the portable crc8_ccitt: it shifts before it tests bit 7, so it is not division by x^8+x^2+x+1 ... *)
Theorem C18_crc8_ccitt_refuted :
  exists data, Forall byte data /\ ~ crc_value 8 0x107 0xFF (stream_msb data) (crc8_ccitt data).
Proof.
  exists [0x31]. split; [bytes|]. intro H.
  assert (crc_value 8 0x107 0xFF (stream_msb [0x31]) 0x64) as H'.
  { split; [vm_compute; split; congruence|]. exists 0xcc. vm_compute. split; congruence. }
  pose proof (crc_value_unique 8 0x107 0xFF _ _ _ ltac:(lia) ltac:(lia) H H') as E. vm_compute in E. discriminate.
Qed.
Print Assumptions C18_crc8_ccitt_refuted.

(* C19 ... and C19 fails for it: flipping bit 7 of any byte of any message is invisible. *)
Theorem C19_crc8_ccitt_refuted :
  exists a b, Forall byte a /\ Forall byte b /\ a <> b /\
  hamming (stream a) (stream b) = 1%nat /\ crc8_ccitt a = crc8_ccitt b.
Proof.
  exists [0x01; 0x02], [0x01; 0x82]. split; [bytes|split; [bytes|]].
  split; [congruence|]. vm_compute. split; reflexivity.
Qed.
Print Assumptions C19_crc8_ccitt_refuted.
Theorem C19_crc8_ccitt_ignores_bit_7 :
  forall a b d, crc8_ccitt (a ++ Z.lxor d 0x80 :: b) = crc8_ccitt (a ++ d :: b).
Proof. exact crc8_blind. Qed.
Print Assumptions C19_crc8_ccitt_ignores_bit_7.
Example C19_ignores_example : crc8_ccitt [0x10; 0x8F; 0x33] = crc8_ccitt [0x10; 0x0F; 0x33] /\ crc8_ccitt [0x10; 0x0E; 0x33] <> crc8_ccitt [0x10; 0x0F; 0x33].
Proof. vm_compute. split; congruence. Qed.

(* C19. For messages of any length and any start value: every error burst no longer than the register, every odd number of
   flipped bits, and every pair of flipped bits closer than the period of the generator changes the checksum. *)
Theorem C19_crc16_ccitt_detection :
  forall init, 0 <= init < 65536 ->
  detects_bursts 16 (fun d => fold_left crc16_ccitt_update d init) /\
  detects_odd (fun d => fold_left crc16_ccitt_update d init) /\
  detects_double 32767 (fun d => fold_left crc16_ccitt_update d init).
Proof. exact ccitt_guarantees. Qed.
Print Assumptions C19_crc16_ccitt_detection.
Theorem C19_sab2_rpr_crc_detection :
  forall init, 0 <= init < 65536 ->
  detects_bursts 16 (fun d => fold_left sab2_crcUpdate d init) /\
  detects_odd (fun d => fold_left sab2_crcUpdate d init) /\
  detects_double 32767 (fun d => fold_left sab2_crcUpdate d init).
Proof. exact sab2_guarantees. Qed.
Print Assumptions C19_sab2_rpr_crc_detection.
Theorem C19_sab_crc_detection :
  forall init, byte init ->
  detects_bursts 8 (fun d => fold_left sab_crcUpdate d init) /\
  detects_odd (fun d => fold_left sab_crcUpdate d init) /\
  detects_double 127 (fun d => fold_left sab_crcUpdate d init).
Proof. exact sab_guarantees. Qed.
Print Assumptions C19_sab_crc_detection.
Theorem C19_crc32_bursts : detects_bursts 32 crc32.
Proof. exact crc32_bursts. Qed.
Print Assumptions C19_crc32_bursts.

(* a 7 bit burst across a byte boundary, three flipped bits, and two bits 16 apart, on a three byte message *)
Example C19_example :
  stream [0x12; 0x34; 0x56] = stream [0x12] ++ firstn 8 (stream [0x34; 0x56]) ++ stream [0x56] /\
  hamming (stream [0x12; 0x34; 0x56]) (stream [0x13; 0x35; 0x57]) = 3%nat /\
  crc16_ccitt [0x12; 0x34; 0x56] <> crc16_ccitt [0x12; 0x3B; 0x56] /\
  crc16_ccitt [0x12; 0x34; 0x56] <> crc16_ccitt [0x13; 0x35; 0x57] /\
  fold_left sab_crcUpdate [0x12; 0x34; 0x56] 0 <> fold_left sab_crcUpdate [0x13; 0x34; 0x57] 0.
Proof. vm_compute. repeat split; congruence. Qed.
(* the bound on double errors is sharp: x^127 = 1 modulo x^8+x^5+x^4+1 *)
Example C19_double_bound_sharp :
  fold_left sab_crcUpdate ([0x01] ++ repeat 0 14 ++ [0x80]) 0 = fold_left sab_crcUpdate (repeat 0 16) 0.
Proof. vm_compute. reflexivity. Qed.
