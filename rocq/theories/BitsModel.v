(* Model of the bit utilities and endianness conversions: the portable branches (the ARM/AVR branches are single
   machine instructions in inline assembly and are not modelled). Words are non-negative Z below 2^w. *)
From Verif Require Import Base.

(* /repo/src/modm/math/utils/bit_operation.hpp:37-52 (line 49) *)
Definition swap8 (n : Z) : Z := u8 (Z.lor (Z.shiftl n 4) (Z.shiftr n 4)).
(* bit_operation.hpp:70-101 (line 98; line 75 is the same expression) *)
Definition swap16 (n : Z) : Z := u16 (Z.lor (Z.shiftl n 8) (Z.shiftr n 8)).
(* bit_operation.hpp:110-136 (line 133; line 115 is the same expression); each shift is in uint32_t *)
Definition swap32 (n : Z) : Z :=
  Z.lor (Z.lor (Z.lor (u32 (Z.shiftl n 24)) (Z.land (u32 (Z.shiftl n 8)) 0xff0000)) (Z.land (Z.shiftr n 8) 0xff00)) (Z.shiftr n 24).

(* bit_operation.hpp:156-173 (lines 168-171) *)
Definition bitReverse8 (n : Z) : Z :=
  let n := u8 (Z.lor (Z.land (u8 (Z.shiftr n 1)) 0x55) (Z.land (u8 (Z.shiftl n 1)) 0xaa)) in
  let n := u8 (Z.lor (Z.land (u8 (Z.shiftr n 2)) 0x33) (Z.land (u8 (Z.shiftl n 2)) 0xcc)) in
  swap8 n.
(* bit_operation.hpp:176-195 (lines 189-193); the shifts are in int, the result converted to uint16_t *)
Definition bitReverse16 (n : Z) : Z :=
  let n := u16 (Z.lor (Z.land (Z.shiftr n 1) 0x5555) (Z.land (Z.shiftl n 1) 0xaaaa)) in
  let n := u16 (Z.lor (Z.land (Z.shiftr n 2) 0x3333) (Z.land (Z.shiftl n 2) 0xcccc)) in
  let n := u16 (Z.lor (Z.land (Z.shiftr n 4) 0x0f0f) (Z.land (Z.shiftl n 4) 0xf0f0)) in
  swap16 n.
(* bit_operation.hpp:198-226 (lines 218-224) *)
Definition bitReverse32 (n : Z) : Z :=
  let n := Z.lor (Z.land (Z.shiftr n 1) 0x55555555) (Z.land (u32 (Z.shiftl n 1)) 0xaaaaaaaa) in
  let n := Z.lor (Z.land (Z.shiftr n 2) 0x33333333) (Z.land (u32 (Z.shiftl n 2)) 0xcccccccc) in
  let n := Z.lor (Z.land (Z.shiftr n 4) 0x0f0f0f0f) (Z.land (u32 (Z.shiftl n 4)) 0xf0f0f0f0) in
  let n := Z.lor (Z.land (Z.shiftr n 8) 0x00ff00ff) (Z.land (u32 (Z.shiftl n 8)) 0xff00ff00) in
  Z.lor (Z.land (Z.shiftr n 16) 0x0000ffff) (Z.land (u32 (Z.shiftl n 16)) 0xffff0000).

(* bit_operation.hpp:229-233: the recursion; fuel bounds its depth, None = not enough *)
Fixpoint leftmostBitHelper (fuel : nat) (value : Z) : option Z :=
  match fuel with
  | O => None
  | S f => if value =? 0 then Some 0
           else do r <- leftmostBitHelper f (Z.shiftr value 1); Some (swrap 8 (1 + r))
  end.
(* bit_operation.hpp:239-243 *)
Definition leftmostBit (fuel : nat) (value : Z) : option Z :=
  do r <- leftmostBitHelper fuel value; Some (swrap 8 (r - 1)).

(* /repo/src/modm/math/utils/bit_operation.cpp:18-26 *)
Definition bitCount8 (n : Z) : Z :=
  let n := u8 (Z.land (u8 (Z.shiftr n 1)) 0x55 + Z.land n 0x55) in
  let n := u8 (Z.land (u8 (Z.shiftr n 2)) 0x33 + Z.land n 0x33) in
  u8 (Z.land (u8 (Z.shiftr n 4) + n) 0xf).
(* bit_operation.cpp:28-33 *)
Definition bitCount16 (n : Z) : Z := bitCount8 (u8 n) + bitCount8 (u8 (Z.shiftr n 8)).
(* bit_operation.cpp:35-43 *)
Definition bitCount32 (n : Z) : Z :=
  let n := u32 (Z.land (Z.shiftr n 1) 0x55555555 + Z.land n 0x55555555) in
  let n := u32 (Z.land (Z.shiftr n 2) 0x33333333 + Z.land n 0x33333333) in
  let n := u32 (Z.land (Z.shiftr n 4) 0x0f0f0f0f + Z.land n 0x0f0f0f0f) in
  n mod 255.

(* ---- /repo/src/modm/math/utils/endianness.hpp; [big] is MODM_IS_BIG_ENDIAN of the host ---- *)
(* endianness.hpp:41-49, 57-65, 106-114, 122-130 *)
Definition fromLittleEndian16 (big : bool) (v : Z) : Z := if big then swap16 v else v.
(* endianness.hpp:57-65 *)
Definition fromLittleEndian32 (big : bool) (v : Z) : Z := if big then swap32 v else v.
(* endianness.hpp:106-114 *)
Definition toLittleEndian16 (big : bool) (v : Z) : Z := if big then swap16 v else v.
(* endianness.hpp:122-130 *)
Definition toLittleEndian32 (big : bool) (v : Z) : Z := if big then swap32 v else v.
(* endianness.hpp:73-81, 89-97, 138-146, 154-162 *)
Definition fromBigEndian16 (big : bool) (v : Z) : Z := if big then v else swap16 v.
(* endianness.hpp:89-97 *)
Definition fromBigEndian32 (big : bool) (v : Z) : Z := if big then v else swap32 v.
(* endianness.hpp:138-146 *)
Definition toBigEndian16 (big : bool) (v : Z) : Z := if big then v else swap16 v.
(* endianness.hpp:154-162 *)
Definition toBigEndian32 (big : bool) (v : Z) : Z := if big then v else swap32 v.
(* the int16_t / int32_t overloads: endianness.hpp:51-55, 67-71, 83-87, 99-103, 116-120, 132-136, 148-152, 164-168 *)
Definition signed_via (w : Z) (f : Z -> Z) (v : Z) : Z := swrap w (f (wrap w v)).
(* endianness.hpp:170-178, 180-188: BigEndian<T>, LittleEndian<T>: raw member *)
Definition BigEndian_raw16 (big : bool) (v : Z) : Z := toBigEndian16 big v.
(* endianness.hpp:170-178 *)
Definition BigEndian_value16 (big : bool) (raw : Z) : Z := fromBigEndian16 big raw.
(* endianness.hpp:180-188 *)
Definition LittleEndian_raw16 (big : bool) (v : Z) : Z := toLittleEndian16 big v.
(* endianness.hpp:180-188 *)
Definition LittleEndian_value16 (big : bool) (raw : Z) : Z := fromLittleEndian16 big raw.
