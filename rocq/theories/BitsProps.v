(* C20, C21: bit utilities and byte order *)
From Verif Require Import Base BitsModel BitsSpec BitsProofs.

(* C20. bitReverse reverses the order of the bits of every 8, 16 and 32 bit word. *)
Theorem C20_bitReverse :
  (forall n, 0 <= n < 2 ^ 8 -> is_reversal 8 n (bitReverse8 n)) /\
  (forall n, 0 <= n < 2 ^ 16 -> is_reversal 16 n (bitReverse16 n)) /\
  (forall n, 0 <= n < 2 ^ 32 -> is_reversal 32 n (bitReverse32 n)).
Proof. exact (conj bitReverse8_correct (conj bitReverse16_correct bitReverse32_correct)). Qed.
Print Assumptions C20_bitReverse.
Example C20_bitReverse_example :
  bitReverse8 0x74 = 0x2E /\ bitReverse16 0x1234 = 0x2C48 /\ bitReverse32 0x12345678 = 0x1E6A2C48.
Proof. vm_compute. auto. Qed.

(* C20. bitCount counts the set bits. *)
Theorem C20_bitCount :
  (forall n, 0 <= n < 2 ^ 8 -> bitCount8 n = popcount 8 n) /\
  (forall n, 0 <= n < 2 ^ 16 -> bitCount16 n = popcount 16 n) /\
  (forall n, 0 <= n < 2 ^ 32 -> bitCount32 n = popcount 32 n).
Proof. exact (conj bitCount8_correct (conj bitCount16_correct bitCount32_correct)). Qed.
Print Assumptions C20_bitCount.
Example C20_bitCount_example : bitCount8 0xFF = 8 /\ bitCount16 0x8421 = 4 /\ bitCount32 0xFFFFFFFF = 32 /\ popcount 32 0xF0000001 = 5.
Proof. vm_compute. auto. Qed.

(* C20. leftmostBit terminates and gives the index of the highest set bit, -1 for zero. *)
Theorem C20_leftmostBit :
  forall n, 0 <= n < 2 ^ 32 -> exists r, leftmostBit 33 n = Some r /\ is_leftmost n r.
Proof. exact leftmostBit_correct. Qed.
Print Assumptions C20_leftmostBit.
Example C20_leftmostBit_example : leftmostBit 33 0 = Some (-1) /\ leftmostBit 33 0x80000000 = Some 31 /\ leftmostBit 33 5 = Some 2.
Proof. vm_compute. auto. Qed.

(* C20. swap exchanges the nibbles of a byte and reverses the bytes of a word. *)
Theorem C20_swap :
  (forall n, 0 <= n < 2 ^ 8 -> digits 16 2 (swap8 n) = rev (digits 16 2 n) /\ 0 <= swap8 n < 2 ^ 8) /\
  (forall n, 0 <= n < 2 ^ 16 -> digits 256 2 (swap16 n) = rev (digits 256 2 n) /\ 0 <= swap16 n < 2 ^ 16) /\
  (forall n, 0 <= n < 2 ^ 32 -> digits 256 4 (swap32 n) = rev (digits 256 4 n) /\ 0 <= swap32 n < 2 ^ 32).
Proof. exact (conj swap8_digits (conj swap16_digits swap32_digits)). Qed.
Print Assumptions C20_swap.
Example C20_swap_example : swap8 0xAB = 0xBA /\ swap16 0xABCD = 0xCDAB /\ swap32 0x01234567 = 0x67452301.
Proof. vm_compute. auto. Qed.

(* C21. On either host the conversions are mutually inverse and the memory image is the stated byte order. *)
Theorem C21_endianness_16 : forall big v, 0 <= v < 65536 ->
  fromBigEndian16 big (toBigEndian16 big v) = v /\ toBigEndian16 big (fromBigEndian16 big v) = v /\
  fromLittleEndian16 big (toLittleEndian16 big v) = v /\ toLittleEndian16 big (fromLittleEndian16 big v) = v /\
  memory big 2 (toBigEndian16 big v) = rev (digits 256 2 v) /\ memory big 2 (toLittleEndian16 big v) = digits 256 2 v.
Proof. exact endian16. Qed.
Print Assumptions C21_endianness_16.
Theorem C21_endianness_32 : forall big v, 0 <= v < 2 ^ 32 ->
  fromBigEndian32 big (toBigEndian32 big v) = v /\ toBigEndian32 big (fromBigEndian32 big v) = v /\
  fromLittleEndian32 big (toLittleEndian32 big v) = v /\ toLittleEndian32 big (fromLittleEndian32 big v) = v /\
  memory big 4 (toBigEndian32 big v) = rev (digits 256 4 v) /\ memory big 4 (toLittleEndian32 big v) = digits 256 4 v.
Proof. exact endian32. Qed.
Print Assumptions C21_endianness_32.
(* C21. The signed overloads. *)
Theorem C21_endianness_signed : forall big v,
  (- 32768 <= v < 32768 ->
   signed_via 16 (fromBigEndian16 big) (signed_via 16 (toBigEndian16 big) v) = v /\
   signed_via 16 (fromLittleEndian16 big) (signed_via 16 (toLittleEndian16 big) v) = v /\
   memory big 2 (wrap 16 (signed_via 16 (toBigEndian16 big) v)) = rev (digits 256 2 (wrap 16 v))) /\
  (- 2 ^ 31 <= v < 2 ^ 31 ->
   signed_via 32 (fromBigEndian32 big) (signed_via 32 (toBigEndian32 big) v) = v /\
   signed_via 32 (fromLittleEndian32 big) (signed_via 32 (toLittleEndian32 big) v) = v /\
   memory big 4 (wrap 32 (signed_via 32 (toBigEndian32 big) v)) = rev (digits 256 4 (wrap 32 v))).
Proof. exact signed_endian. Qed.
Print Assumptions C21_endianness_signed.
Example C21_example :
  memory false 4 (toBigEndian32 false 0x11223344) = [0x11; 0x22; 0x33; 0x44] /\
  memory true 4 (toBigEndian32 true 0x11223344) = [0x11; 0x22; 0x33; 0x44] /\
  memory true 2 (toLittleEndian16 true 0x1122) = [0x22; 0x11] /\
  signed_via 16 (toBigEndian16 false) (-2) = -257 /\ signed_via 16 (fromBigEndian16 false) (-257) = -2.
Proof. vm_compute. auto 6. Qed.
