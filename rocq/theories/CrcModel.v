(* Model of the CRC routines (the non-AVR branches; the AVR branches call avr-libc).
   Bytes and registers are non-negative Z; a conversion to uintN_t is a mask with 2^N-1. *)
From Verif Require Import Base.

(* /repo/src/modm/math/utils/crc.hpp:25-39 (lines 31-37), one loop iteration *)
Definition crc8_ccitt_step (data : Z) : Z :=
  let d := Z.land (Z.shiftl data 1) 0xFF in                       (* data <<= 1 (uint8_t) *)
  if negb (Z.land d 0x80 =? 0) then Z.lxor d 0x07 else d.         (* if (data & 0x80) data ^= 0x07 *)
(* crc.hpp:25-39 *)
Definition crc8_ccitt_update (crc data : Z) : Z :=
  Nat.iter 8 crc8_ccitt_step (Z.lxor data crc).

(* crc.hpp:41-51 (lines 47-49) *)
Definition crc16_ccitt_update (crc data : Z) : Z :=
  let d := Z.lxor data (Z.land crc 0xFF) in
  let d := Z.land (Z.lxor d (Z.shiftl d 4)) 0xFF in
  Z.land (Z.lxor (Z.lxor (Z.lor (Z.shiftl d 8) (Z.land (Z.shiftr crc 8) 0xFF)) (Z.land (Z.shiftr d 4) 0xFF))
                 (Z.shiftl d 3)) 0xFFFF.

(* crc.hpp:53-62: crc = (crc >> 1) ^ (-int32_t(crc & 1) & polynomial), all converted to uint32_t *)
Definition crc32_step (crc : Z) : Z :=
  Z.lxor (Z.shiftr crc 1) (Z.land (Z.land (- Z.land crc 1) 0xFFFFFFFF) 0xEDB88320).
(* crc.hpp:53-62 *)
Definition crc32_update (crc data : Z) : Z := Nat.iter 8 crc32_step (Z.lxor crc data).

(* crc.hpp:64-66 *)
Definition crc8_ccitt_init := 0xFF.
(* crc.hpp:65 *)
Definition crc16_ccitt_init := 0xFFFF.
(* crc.hpp:66 *)
Definition crc32_init := 0xFFFFFFFF.
(* crc.hpp:68-91: while (length--) crc = update(crc, *data++) *)
Definition crc8_ccitt (data : list Z) : Z := fold_left crc8_ccitt_update data crc8_ccitt_init.
(* crc.hpp:68-91 *)
Definition crc16_ccitt (data : list Z) : Z := fold_left crc16_ccitt_update data crc16_ccitt_init.
(* crc.hpp:68-91 *)
Definition crc32 (data : list Z) : Z := Z.land (Z.lnot (fold_left crc32_update data crc32_init)) 0xFFFFFFFF.

(* The loop body shared by
   /repo/src/modm/communication/sab/interface.cpp:25-33        (polynomial 0x8C)
   /repo/src/modm/communication/sab2/interface.cpp:29-37       (polynomial 0xA001)
   /repo/src/modm/communication/rpr/interface.cpp:24-33        (polynomial 0xA001)
   /repo/src/modm/platform/one_wire/bitbang/bitbang_master_impl.hpp.in:252-260 (polynomial 0x8C) *)
Definition refl_step (poly crc : Z) : Z :=
  if negb (Z.land crc 1 =? 0) then Z.lxor (Z.shiftr crc 1) poly else Z.shiftr crc 1.
(* sab/interface.cpp:18-36, sab2/interface.cpp:22-41, rpr/interface.cpp:18-37: crc ^= data, then eight steps *)
Definition refl_update (poly crc data : Z) : Z := Nat.iter 8 (refl_step poly) (Z.lxor crc data).

(* sab/interface.cpp:18-36; one_wire bitbang_master_impl.hpp.in:245-262 *)
Definition sab_crcUpdate : Z -> Z -> Z := refl_update 0x8C.
(* sab2/interface.cpp:22-41; rpr/interface.cpp:18-37 *)
Definition sab2_crcUpdate : Z -> Z -> Z := refl_update 0xA001.
