(* Model of the drivers of two pressure sensors, /repo/src/modm/driver/pressure: ms5611_data.hpp, ms5611_data_impl.hpp, ms5611_impl.hpp (SPI) and
   ms5837_data.hpp, ms5837_data_impl.hpp, ms5837_impl.hpp (I2C). int has 32 bits and the machine is little-endian; signed arithmetic wraps around
   (modm compiles with -fwrapv) and shifts of negative numbers to the right are arithmetic (C++20). *)
From Verif Require Import Base.

(** *** The check sum of the calibration words *)

(* ms5611_data.hpp:52-62, the loop with bit = n; remainder is a uint16_t *)
Fixpoint crcBits5611 (n : nat) (remainder : Z) : Z :=
  match n with
  | O => remainder
  | S m => crcBits5611 m (if negb (Z.land remainder 32768 =? 0) then Z.lxor (u16 (Z.shiftl remainder 1)) 12288 else u16 (Z.shiftl remainder 1))
  end.
(* ms5611_data.hpp:41-63: the loop over the bytes from count on, n of them are left *)
Fixpoint crcBytes5611 (data : list Z) (n : nat) (count : Z) (remainder : Z) : Z :=
  match n with
  | O => remainder
  | S m =>
      let w := nth (Z.to_nat (Z.shiftr count 1)) data 0 in
      let r := if count mod 2 =? 1 then Z.lxor remainder (Z.land w 255) else Z.lxor remainder (Z.shiftr w 8) in
      crcBytes5611 data m (count + 1) (crcBits5611 8 r)
  end.
(* ms5611_data.hpp:35-67; data[7] is restored at the end *)
Definition calculateCrc5611 (data : list Z) : Z :=
  let masked := firstn 7 data ++ [Z.land 65280 (nth 7 data 0)] in
  let remainder := Z.land 15 (Z.shiftr (crcBytes5611 masked 16 0 0) 12) in
  Z.lxor remainder 0.
(* ms5837_data.hpp:47-51, n_rem is a uint32_t *)
Fixpoint crcBits5837 (n : nat) (n_rem : Z) : Z :=
  match n with
  | O => n_rem
  | S m => crcBits5837 m (if negb (Z.land n_rem 32768 =? 0) then Z.lxor (u32 (Z.shiftl n_rem 1)) 12288 else u32 (Z.shiftl n_rem 1))
  end.
(* ms5837_data.hpp:42-52 *)
Fixpoint crcBytes5837 (data : list Z) (n : nat) (cnt : Z) (n_rem : Z) : Z :=
  match n with
  | O => n_rem
  | S m =>
      let w := nth (Z.to_nat (Z.shiftr cnt 1)) data 0 in
      let r := if cnt mod 2 =? 1 then Z.lxor n_rem (Z.land w 255) else Z.lxor n_rem (Z.shiftr w 8) in
      crcBytes5837 data m (cnt + 1) (crcBits5837 8 r)
  end.
(* ms5837_data.hpp:36-55: the words with the check sum replaced by 0, which stay so *)
Definition masked5837 (data : list Z) : list Z :=
  match data with d0 :: t => Z.land d0 4095 :: firstn 6 t ++ [0] | [] => [] end.
(* ms5837_data.hpp:36-55: the check sum and the words left behind *)
Definition calculateCrc5837 (data : list Z) : Z * list Z :=
  (Z.land (Z.shiftr (crcBytes5837 (masked5837 data) 16 0 0) 12) 15, masked5837 data).

(* ms5611_impl.hpp:154-174 and modm::fromBigEndian in line 61: the bytes hi and lo, in the order received *)
Definition promWord5611 (b0 b1 : Z) : Z :=
  let v := u16 (Z.lor (Z.shiftl b1 8) b0) in
  u16 (Z.lor (Z.shiftl (Z.land v 255) 8) (Z.shiftr v 8)).
(* ms5611_impl.hpp:60-70: sixteen bytes were received; the words and the result of initialize() *)
Fixpoint promWords5611 (bytes : list Z) : list Z :=
  match bytes with b0 :: b1 :: t => promWord5611 b0 b1 :: promWords5611 t | _ => [] end.
(* ms5611_impl.hpp:60-70 *)
Definition initialize5611 (bytes : list Z) : list Z * bool :=
  let data := promWords5611 bytes in (data, calculateCrc5611 data =? Z.land (nth 7 data 0) 15).
(* ms5837_impl.hpp:122-140: None is a transaction that failed *)
Definition readProm5837 (r : option (Z * Z)) : Z :=
  match r with Some (b0, b1) => u16 (Z.lor (Z.shiftl b0 8) b1) | None => 0 end.
(* ms5837_impl.hpp:37-60: the outcome of the reset and of the seven reads; old7 is the old data[7] *)
Definition initialize5837 (reset : bool) (reads : list (option (Z * Z))) (old : list Z) : list Z * bool :=
  if negb reset then (old, false)
  else
    let data := map readProm5837 reads ++ [nth 7 old 0] in
    let factory_crc := Z.land (Z.shiftr (nth 0 data 0) 12) 15 in
    let (crc, data') := calculateCrc5837 data in
    (data', factory_crc =? crc).

(** *** The compensation *)

(* ms5611_data_impl.hpp:48 and ms5837_data_impl.hpp:49 *)
Definition raw24 (a b c : Z) : Z := u32 (Z.lor (Z.lor (Z.shiftl a 16) (Z.shiftl b 8)) c).
(* the arithmetic of int32_t and int64_t, ms5611_data_impl.hpp:52-80 *)
Definition i32 (x : Z) : Z := swrap 32 x.
(* the arithmetic of int64_t, ms5611_data_impl.hpp:53 *)
Definition i64 (x : Z) : Z := swrap 64 x.
(* ms5611_data_impl.hpp:44-85: pressure and temperature *)
Definition values5611 (prom raw : list Z) : Z * Z :=
  let c n := nth n prom 0 in
  let rawPres := raw24 (nth 0 raw 0) (nth 1 raw 0) (nth 2 raw 0) in
  let rawTemp := raw24 (nth 3 raw 0) (nth 4 raw 0) (nth 5 raw 0) in
  let dT := i32 (u32 (rawTemp - u32 (Z.shiftl (c 5%nat) 8))) in
  let off := i64 (i64 (Z.shiftl (c 2%nat) 16) + Z.shiftr (i64 (c 4%nat * dT)) 7) in
  let sens := i64 (i64 (Z.shiftl (c 1%nat) 15) + Z.shiftr (i64 (c 3%nat * dT)) 8) in
  let temp := i32 (i64 (2000 + Z.shiftr (i64 (dT * c 6%nat)) 23)) in
  let '(temp', off', sens') :=
    if temp <? 2000 then
      let temp2 := Z.shiftr (i64 (dT * dT)) 31 in
      let off2 := Z.shiftr (i32 (i32 (5 * i32 (temp - 2000)) * i32 (temp - 2000))) 1 in
      let sens2 := Z.shiftr off2 1 in
      let '(off2', sens2') :=
        if temp <? -1500 then
          (i64 (off2 + i32 (i32 (7 * i32 (temp + 1500)) * i32 (temp + 1500))),
           i64 (sens2 + Z.shiftr (i32 (i32 (11 * i32 (temp + 1500)) * i32 (temp + 1500))) 1))
        else (off2, sens2) in
      (i32 (i64 (temp - temp2)), i64 (off - off2'), i64 (sens - sens2'))
    else (temp, off, sens) in
  (i32 (Z.shiftr (i64 (Z.shiftr (i64 (sens' * rawPres)) 21 - off')) 15), temp').
(* ms5837_data_impl.hpp:45-97: pressure and temperature *)
Definition values5837 (prom raw : list Z) : Z * Z :=
  let c n := nth n prom 0 in
  let D1 := raw24 (nth 0 raw 0) (nth 1 raw 0) (nth 2 raw 0) in
  let D2 := raw24 (nth 3 raw 0) (nth 4 raw 0) (nth 5 raw 0) in
  let dT := i32 (u32 (D2 - u32 (Z.shiftl (c 5%nat) 8))) in
  let temp := i32 (i64 (2000 + Z.shiftr (i64 (dT * c 6%nat)) 23)) in
  let off := i64 (i64 (Z.shiftl (c 2%nat) 16) + Z.shiftr (i64 (c 4%nat * dT)) 7) in
  let sens := i64 (i64 (Z.shiftl (c 1%nat) 15) + Z.shiftr (i64 (c 3%nat * dT)) 8) in
  let '(temp_i, off_i, sens_i) :=
    if temp <? 2000 then
      let off_i := Z.shiftr (i32 (i32 (3 * i32 (temp - 2000)) * i32 (temp - 2000))) 1 in
      let sens_i := Z.shiftr (i32 (i32 (5 * i32 (temp - 2000)) * i32 (temp - 2000))) 3 in
      let '(off_i', sens_i') :=
        if temp <? -1500 then
          (i64 (off_i + i32 (i32 (7 * i32 (temp + 1500)) * i32 (temp + 1500))),
           i64 (sens_i + i32 (i32 (4 * i32 (temp + 1500)) * i32 (temp + 1500))))
        else (off_i, sens_i) in
      (Z.shiftr (i64 (3 * i64 (dT * dT))) 33, off_i', sens_i')
    else (Z.shiftr (i64 (2 * i64 (dT * dT))) 37, Z.shiftr (i32 (i32 (1 * i32 (temp - 2000)) * i32 (temp - 2000))) 4, 0) in
  let off_2 := i64 (off - off_i) in
  let sens_2 := i64 (sens - sens_i) in
  (i32 (Z.shiftr (i64 (Z.shiftr (i64 (sens_2 * D1)) 21 - off_2)) 13), i32 (i64 (temp - temp_i))).

(** *** The data object *)

(* ms5611_data.hpp:103-122, 165-167 and the same members in ms5837_data.hpp; the flags in meta are two booleans *)
Record pdata := mkP { p_prom : list Z; p_raw : list Z; p_pcalc : bool; p_tcalc : bool; p_press : Z; p_temp : Z }.
(* ms5611_data_impl.hpp:80-84, ms5837_data_impl.hpp:92-96 *)
Definition calculate (values : list Z -> list Z -> Z * Z) (d : pdata) : pdata :=
  let (p, t) := values (p_prom d) (p_raw d) in mkP (p_prom d) (p_raw d) true true p t.
(* ms5611_data_impl.hpp:24-32, ms5837_data_impl.hpp:25-33 *)
Definition getPressure (values : list Z -> list Z -> Z * Z) (d : pdata) : Z * pdata :=
  let d' := if p_pcalc d then d else calculate values d in (p_press d', d').
(* ms5611_data_impl.hpp:34-42, ms5837_data_impl.hpp:35-43 *)
Definition getTemperature (values : list Z -> list Z -> Z * Z) (d : pdata) : Z * pdata :=
  let d' := if p_tcalc d then d else calculate values d in (p_temp d', d').
(* ms5611_impl.hpp:104-113, ms5837_impl.hpp:82-91: the three bytes have arrived, then rawPressureTouched() *)
Definition pressureArrives (b0 b1 b2 : Z) (d : pdata) : pdata :=
  mkP (p_prom d) ([b0; b1; b2] ++ skipn 3 (p_raw d)) false (p_tcalc d) (p_press d) (p_temp d).
(* ms5611_impl.hpp:138-147, ms5837_impl.hpp:109-115: the three bytes have arrived, then rawTemperatureTouched() *)
Definition temperatureArrives (b0 b1 b2 : Z) (d : pdata) : pdata :=
  mkP (p_prom d) (firstn 3 (p_raw d) ++ [b0; b1; b2]) (p_pcalc d) false (p_press d) (p_temp d).
