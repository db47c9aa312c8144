(* Model of the frames of the battery monitor AD7280A, /repo/src/modm/driver/adc/ad7280a_impl.hpp: the check sum, write(), read(), readRegister() and
   readConversionResult(). The SPI bus is a list of bytes each way; the other functions of the driver are sequences of these and are not modelled. *)
From Verif Require Import Base BitsModel.

(* ad7280a_impl.hpp:358-362: one turn of the loop, data is a uint8_t *)
Definition crcStep (data : Z) : Z :=
  let bit := Z.land data 128 in
  let data := u8 (Z.shiftl data 1) in
  if negb (bit =? 0) then Z.lxor data 47 else data.
(* ad7280a_impl.hpp:353-366 *)
Definition updateCrc (data : Z) : Z := Nat.iter 8 crcStep data.
(* ad7280a_impl.hpp:369-379 *)
Definition calculateCrc (data : Z) : Z :=
  let crc := updateCrc (Z.land (Z.shiftr data 16) 255) in
  let crc := updateCrc (u8 (Z.lxor crc (Z.land (Z.shiftr data 8) 255))) in
  u8 (Z.lxor crc (Z.land data 255)).
(* ad7280a_impl.hpp:388-392: t without the check sum *)
Definition writeHead (device reg : Z) (addressAll : bool) (value : Z) : Z :=
  let a := bitReverse8 device in
  Z.lor (Z.lor (Z.lor (u32 (Z.shiftl a 24)) (u32 (Z.shiftl reg 21))) (u32 (Z.shiftl value 13))) (Z.shiftl (Z.b2z addressAll) 12).
(* ad7280a_impl.hpp:394 *)
Definition writeCrc (t : Z) : Z := Z.lor t (Z.lor (Z.shiftl (calculateCrc (Z.shiftr t 11)) 3) 2).
(* ad7280a_impl.hpp:397-400 *)
Definition writeBytes (t : Z) : list Z := [Z.land (Z.shiftr t 24) 255; Z.land (Z.shiftr t 16) 255; Z.land (Z.shiftr t 8) 255; Z.land t 255].
(* ad7280a_impl.hpp:382-401: the bytes sent *)
Definition write (device reg : Z) (addressAll : bool) (value : Z) : list Z := writeBytes (writeCrc (writeHead device reg addressAll value)).
(* ad7280a_impl.hpp:408-430: the value from the bytes received, and the result *)
Definition read (b0 b1 b2 b3 : Z) : Z * bool :=
  let value := Z.lor (Z.lor (Z.lor (Z.shiftl b0 24) (Z.shiftl b1 16)) (Z.shiftl b2 8)) b3 in
  (value, calculateCrc (Z.shiftr value 10) =? Z.land (Z.shiftr value 2) 255).
(* ad7280a_impl.hpp:440-443: device, registerAddress, value, acknowledge *)
Definition registerFields (value : Z) : Z * Z * Z * bool :=
  (Z.land (bitReverse8 (u8 (Z.shiftr value 24))) 31, Z.land (Z.shiftr value 21) 63, Z.land (Z.shiftr value 13) 255, negb (Z.land value 1024 =? 0)).
(* ad7280a_impl.hpp:432-449; None is the result false *)
Definition readRegister (b0 b1 b2 b3 : Z) : option (Z * Z * Z * bool) :=
  let (value, ok) := read b0 b1 b2 b3 in if ok then Some (registerFields value) else None.
(* ad7280a_impl.hpp:459-462: device, channel, value, acknowledge *)
Definition conversionFields (value : Z) : Z * Z * Z * bool :=
  (Z.land (bitReverse8 (u8 (Z.shiftr value 24))) 31, Z.land (Z.shiftr value 23) 15, Z.land (Z.shiftr value 11) 4095, negb (Z.land value 1024 =? 0)).
(* ad7280a_impl.hpp:451-468 *)
Definition readConversionResult (b0 b1 b2 b3 : Z) : option (Z * Z * Z * bool) :=
  let (value, ok) := read b0 b1 b2 b3 in if ok then Some (conversionFields value) else None.
