(* Model of the drivers of the pressure sensors BMP085/BMP180 and BME280, /repo/src/modm/driver/pressure: bmp085_data.hpp, bmp085_data_impl_fp.hpp,
   bmp085_impl.hpp, bme280_data.hpp, bme280_data_impl_fp.hpp, bme280_impl.hpp. int has 32 bits and the machine is little-endian; signed arithmetic wraps
   around (modm compiles with -fwrapv), conversions to narrower types too, and shifts of negative numbers to the right are arithmetic (C++20). The
   variants with floating point numbers (bmp085_data_impl_double.hpp) are not modelled. *)
From Verif Require Import Base PrsModel.

(* int16_t, bmp085_data.hpp:44-57 *)
Definition s16 (x : Z) : Z := swrap 16 x.
(* bmp085_data.hpp:43-57 *)
Record cal085 := mkCal { ac1 : Z; ac2 : Z; ac3 : Z; ac4 : Z; ac5 : Z; ac6 : Z; cb1 : Z; cb2 : Z; mb : Z; mc : Z; md : Z }.
(* bmp085_impl.hpp:38-58: the 22 bytes received; fromBigEndian exchanges the bytes of each element as in ms5611_impl.hpp:61 *)
Definition initialize085 (bytes : list Z) : cal085 :=
  let w i := promWord5611 (nth (2 * i) bytes 0) (nth (2 * i + 1) bytes 0) in
  mkCal (s16 (w 0%nat)) (s16 (w 1%nat)) (s16 (w 2%nat)) (w 3%nat) (w 4%nat) (w 5%nat)
        (s16 (w 6%nat)) (s16 (w 7%nat)) (s16 (w 8%nat)) (s16 (w 9%nat)) (s16 (w 10%nat)).
(* operator_impl.hpp:25-29 with the conversion of both arguments *)
Definition muls (a b : Z) : Z := i32 (s16 a * s16 b).
(* operator_impl.hpp:19-23 with the conversion of both arguments *)
Definition mulu (a b : Z) : Z := u32 (u16 a * u16 b).
(* bmp085_data_impl_fp.hpp:37 *)
Definition ut085 (raw : list Z) : Z := u16 (Z.lor (Z.shiftl (nth 0 raw 0) 8) (nth 1 raw 0)).
(* bmp085_data_impl_fp.hpp:40 *)
Definition x1_085 (c : cal085) (raw : list Z) : Z := Z.shiftr (muls (i32 (ut085 raw - ac6 c)) (ac5 c)) 15.
(* bmp085_data_impl_fp.hpp:40-46: b5; None is a division by zero *)
Definition b5_085 (c : cal085) (raw : list Z) : option Z :=
  let x1 := x1_085 c raw in
  let d := i32 (x1 + md c) in
  if d =? 0 then None else Some (i32 (x1 + Z.quot (i32 (Z.shiftl (mc c) 11)) d)).
(* bmp085_data_impl_fp.hpp:49 *)
Definition temp085 (c : cal085) (raw : list Z) : option Z :=
  match b5_085 c raw with Some b5 => Some (s16 (Z.shiftr (i32 (b5 + 8)) 4)) | None => None end.
(* bmp085_data_impl_fp.hpp:65 *)
Definition up085 (oss : Z) (raw : list Z) : Z :=
  Z.shiftr (u32 (Z.lor (Z.lor (Z.shiftl (nth 2 raw 0) 16) (Z.shiftl (nth 3 raw 0) 8)) (nth 4 raw 0))) (8 - oss).
(* bmp085_data_impl_fp.hpp:66-76: b4 and b7 *)
Definition b47_085 (c : cal085) (oss up b5 : Z) : Z * Z :=
  let b6 := s16 (i32 (b5 - 4000)) in
  let x1 := Z.shiftr (muls (cb2 c) (Z.shiftr (muls b6 b6) 12)) 11 in
  let x2 := Z.shiftr (muls (ac2 c) b6) 11 in
  let x3 := i32 (x1 + x2) in
  let b3 := i32 (Z.shiftl (i32 (muls (ac1 c) 4 + x3)) oss) in
  let b3 := Z.shiftr (i32 (b3 + 2)) 2 in
  let x1 := Z.shiftr (muls (ac3 c) b6) 13 in
  let x2 := Z.shiftr (muls (cb1 c) (Z.shiftr (muls b6 b6) 12)) 16 in
  let x3 := Z.shiftr (i32 (i32 (x1 + x2) + 2)) 2 in
  (Z.shiftr (mulu (ac4 c) (i32 (x3 + 32768))) 15, u32 (u32 (up - b3) * Z.shiftr 50000 oss)).
(* bmp085_data_impl_fp.hpp:77-86, p as an int32_t; None is a division by zero *)
Definition last085 (b4 b7 : Z) : option Z :=
  if b4 =? 0 then None
  else
    let p := if b7 <? 2147483648 then i32 (u32 (Z.shiftl b7 1) / b4) else i32 (u32 (Z.shiftl (b7 / b4) 1)) in
    let x1 := i32 (mulu (Z.shiftr p 8) (Z.shiftr p 8)) in
    let x1 := Z.shiftr (i32 (x1 * 3038)) 16 in
    let x2 := Z.shiftr (i32 (-7357 * p)) 16 in
    Some (i32 (p + Z.shiftr (i32 (i32 (x1 + x2) + 3791)) 4)).
(* bmp085_data_impl_fp.hpp:55-88; oss are the bits 7 and 6 of meta *)
Definition press085 (c : cal085) (oss : Z) (raw : list Z) : option Z :=
  match b5_085 c raw with
  | Some b5 => let (b4, b7) := b47_085 c oss (up085 oss raw) b5 in last085 b4 b7
  | None => None
  end.

(** *** BME280 *)

(* bme280_data_impl_fp.hpp:43-44 *)
Definition adc280 (raw : list Z) : Z := Z.shiftr (i32 (Z.lor (Z.lor (Z.shiftl (nth 3 raw 0) 16) (Z.shiftl (nth 4 raw 0) 8)) (nth 5 raw 0))) 4.
(* bme280_data_impl_fp.hpp:48-61: t_fine *)
Definition fine280 (T1 T2 T3 : Z) (raw : list Z) : Z :=
  let adc := adc280 raw in
  let var1 := Z.shiftr (i32 (i32 (Z.shiftr adc 3 - i32 (Z.shiftl T1 1)) * T2)) 11 in
  let d := i32 (Z.shiftr adc 4 - T1) in
  let var2 := Z.shiftr (i32 (Z.shiftr (i32 (d * d)) 12 * T3)) 14 in
  i32 (var1 + var2).
(* bme280_data_impl_fp.hpp:63 *)
Definition temp280 (t_fine : Z) : Z := Z.shiftr (i32 (i32 (t_fine * 5) + 128)) 8.
(* bme280_impl.hpp:150-154 with the types of bme280_data.hpp:60-64: H2, H3, H4, H5, H6 from the seven bytes *)
Definition humidity280 (b : list Z) : list Z :=
  [ s16 (Z.lor (Z.shiftl (nth 1 b 0) 8) (nth 0 b 0)); nth 2 b 0;
    s16 (Z.lor (Z.shiftl (nth 3 b 0) 4) (Z.land (nth 4 b 0) 15)); s16 (Z.lor (Z.shiftl (nth 5 b 0) 4) (Z.shiftr (nth 4 b 0) 4));
    swrap 8 (nth 6 b 0) ].

(** *** The data objects. The formulas are parameters: for the BMP085 fine is b5 and tv the temperature from it; a pressure None is one not stored (the BMP085 always stores one) *)

(* bmp085_data.hpp:86-109, 165-171, bme280_data.hpp:104-126; meta as two flags. The humidity of the BME280 is kept in the same way as its pressure *)
Record bdata := mkB { b_raw : list Z; b_tcalc : bool; b_pcalc : bool; b_fine : Z; b_temp : Z; b_press : Z }.
(* bmp085_data_impl_fp.hpp:33-53, bme280_data_impl_fp.hpp:40-66 *)
Definition calcT (fine : list Z -> Z) (tv : Z -> Z) (d : bdata) : bdata :=
  mkB (b_raw d) true (b_pcalc d) (fine (b_raw d)) (tv (fine (b_raw d))) (b_press d).
(* bmp085_data_impl_fp.hpp:63-88 (always := true), bme280_data_impl_fp.hpp:68-109 and 111-141 (always := false) *)
Definition calcP (always : bool) (fine : list Z -> Z) (tv : Z -> Z) (pv : Z -> list Z -> option Z) (d : bdata) : bdata :=
  let d1 := if always || negb (b_tcalc d) then calcT fine tv d else d in
  match pv (b_fine d1) (b_raw d1) with
  | Some p => mkB (b_raw d1) (b_tcalc d1) true (b_fine d1) (b_temp d1) p
  | None => d1
  end.
(* bmp085_data_impl_fp.hpp:89-96, bme280_data_impl_fp.hpp:143-150 *)
Definition getT (fine : list Z -> Z) (tv : Z -> Z) (d : bdata) : Z * bdata :=
  let d' := if b_tcalc d then d else calcT fine tv d in (b_temp d', d').
(* bmp085_data_impl_fp.hpp:98-105, bme280_data_impl_fp.hpp:152-168 *)
Definition getP (always : bool) (fine : list Z -> Z) (tv : Z -> Z) (pv : Z -> list Z -> option Z) (d : bdata) : Z * bdata :=
  let d' := if b_pcalc d then d else calcP always fine tv pv d in (b_press d', d').
(* the calls of a program: true is getPressure, false getTemperature, bmp085_data.hpp:123-142; the answers and the object after them *)
Fixpoint gets (always : bool) (fine : list Z -> Z) (tv : Z -> Z) (pv : Z -> list Z -> option Z) (l : list bool) (d : bdata) : list Z * bdata :=
  match l with
  | [] => ([], d)
  | b :: t =>
      let (v, d1) := if b then getP always fine tv pv d else getT fine tv d in
      let (vs, d2) := gets always fine tv pv t d1 in (v :: vs, d2)
  end.
(* bmp085_data.hpp:79 *)
Definition touchT (d : bdata) : bdata := mkB (b_raw d) false (b_pcalc d) (b_fine d) (b_temp d) (b_press d).
(* bmp085_data.hpp:83 *)
Definition touchP (d : bdata) : bdata := mkB (b_raw d) (b_tcalc d) false (b_fine d) (b_temp d) (b_press d).
(* the bytes of a transaction arrive at once, bmp085_impl.hpp:84 and 109, bme280_impl.hpp:174 *)
Definition arrive (raw : list Z) (d : bdata) : bdata := mkB raw (b_tcalc d) (b_pcalc d) (b_fine d) (b_temp d) (b_press d).
(* bmp085_impl.hpp:63-115: both halves of readout() with calls of the program: w1 and w2 while the transactions run, that is after the flags have
   been cleared in lines 87 and 112, l before the second; the object at the end *)
Definition readout085 fine tv pv (t0 t1 p0 p1 p2 : Z) (w1 l w2 : list bool) (d : bdata) : bdata :=
  let d := arrive ([t0; t1] ++ skipn 2 (b_raw d)) (snd (gets true fine tv pv w1 (touchT d))) in
  let d := snd (gets true fine tv pv l d) in
  arrive (firstn 2 (b_raw d) ++ [p0; p1; p2]) (snd (gets true fine tv pv w2 (touchP d))).
(* bme280_impl.hpp:162-186: the flags are cleared in lines 181 to 183, before the transaction runs; w are the calls meanwhile *)
Definition readout280 fine tv pv (bytes : list Z) (w : list bool) (d : bdata) : bdata :=
  arrive bytes (snd (gets false fine tv pv w (touchP (touchT d)))).
