(* The check sum and the formulas of the data sheets of the MS5611 and the MS5837-30BA (and application note AN520), with exact numbers. *)
From Verif Require Import Base CrcSpec PrsModel.

(* the words of the calibration memory and its bytes, high byte first *)
Definition word (w : Z) : Prop := 0 <= w < 65536.
Definition bytes_of (words : list Z) : list Z := flat_map (fun w => [w / 256; w mod 256]) words.
Definition prom_ok (p : list Z) : Prop := length p = 8%nat /\ Forall word p.
Definition raw_ok (r : list Z) : Prop := length r = 6%nat /\ Forall byte r.
(* the polynomial x^4 + x + 1 *)
Definition g4 : Z := 19.
(* MS5611: the check sum is in the lowest four bits of the last word and covers the fifteen bytes before *)
Definition covered5611 (p : list Z) : list bool := stream_msb (firstn 15 (bytes_of p)).
(* MS5837: the check sum is in the highest four bits of the first of seven words; it covers the rest and one byte 0 *)
Definition covered5837 (p : list Z) : list bool := stream_msb (bytes_of (nth 0 p 0 mod 4096 :: firstn 6 (tl p)) ++ [0]).

(** *** Formulas *)

Definition D1_of (r : list Z) : Z := nth 0 r 0 * 65536 + nth 1 r 0 * 256 + nth 2 r 0.
Definition D2_of (r : list Z) : Z := nth 3 r 0 * 65536 + nth 4 r 0 * 256 + nth 5 r 0.
Definition dT_of (p r : list Z) : Z := D2_of r - nth 5 p 0 * 256.
(* the first order temperature in 0.01 degree, rounded down *)
Definition TEMP (p r : list Z) : Z := 2000 + dT_of p r * nth 6 p 0 / 8388608.

(* the exact numbers are fractions; these are 2^7 OFF, 2^8 SENS, 2^37 T and 2^44 P, or 2^42 P of the MS5837 *)
Definition OFF7 (p r : list Z) : Z := nth 2 p 0 * 8388608 + nth 4 p 0 * dT_of p r.
Definition SENS8 (p r : list Z) : Z := nth 1 p 0 * 8388608 + nth 3 p 0 * dT_of p r.
Definition sq (x : Z) : Z := x * x.
(* MS5611: OFF2 = 5 (TEMP - 2000)^2 / 2 and, below -15 degree, + 7 (TEMP + 1500)^2; SENS2 = 5 (TEMP - 2000)^2 / 4 and + 11 (TEMP + 1500)^2 / 2 *)
Definition OFF2_7_5611 (t : Z) : Z := if t <? 2000 then 320 * sq (t - 2000) + (if t <? -1500 then 896 * sq (t + 1500) else 0) else 0.
Definition SENS2_8_5611 (t : Z) : Z := if t <? 2000 then 320 * sq (t - 2000) + (if t <? -1500 then 1408 * sq (t + 1500) else 0) else 0.
(* T2 = dT^2 / 2^31 *)
Definition T37_5611 (p r : list Z) : Z :=
  2000 * 2 ^ 37 + 16384 * (dT_of p r * nth 6 p 0) - (if TEMP p r <? 2000 then 64 * sq (dT_of p r) else 0).
(* P = (D1 SENS / 2^21 - OFF) / 2^15 *)
Definition P44_5611 (p r : list Z) : Z :=
  D1_of r * (SENS8 p r - SENS2_8_5611 (TEMP p r)) - 2 ^ 22 * (OFF7 p r - OFF2_7_5611 (TEMP p r)).
(* MS5837: OFFi = 3 (TEMP - 2000)^2 / 2 and + 7 (TEMP + 1500)^2, above 20 degree (TEMP - 2000)^2 / 2^4; SENSi = 5 (TEMP - 2000)^2 / 2^3 and
   + 4 (TEMP + 1500)^2, above 20 degree 0 *)
Definition OFFi_7_5837 (t : Z) : Z :=
  if t <? 2000 then 192 * sq (t - 2000) + (if t <? -1500 then 896 * sq (t + 1500) else 0) else 8 * sq (t - 2000).
Definition SENSi_8_5837 (t : Z) : Z :=
  if t <? 2000 then 160 * sq (t - 2000) + (if t <? -1500 then 1024 * sq (t + 1500) else 0) else 0.
(* Ti = 3 dT^2 / 2^33, above 20 degree 2 dT^2 / 2^37 *)
Definition T37_5837 (p r : list Z) : Z :=
  2000 * 2 ^ 37 + 16384 * (dT_of p r * nth 6 p 0) - (if TEMP p r <? 2000 then 48 * sq (dT_of p r) else 2 * sq (dT_of p r)).
(* P = (D1 SENS / 2^21 - OFF) / 2^13 *)
Definition P42_5837 (p r : list Z) : Z :=
  D1_of r * (SENS8 p r - SENSi_8_5837 (TEMP p r)) - 2 ^ 22 * (OFF7 p r - OFFi_7_5837 (TEMP p r)).
(* v is x / d, up to an error of less than 1 + 1/512 *)
Definition near (v x d : Z) : Prop := Z.abs (d * v - x) * 512 < 513 * d.

(** *** What happens to a data object *)

Inductive reach (values : list Z -> list Z -> Z * Z) : pdata -> Prop :=
| r_new p r cp ct : length r = 6%nat -> reach values (mkP p r false false cp ct)
| r_press d b0 b1 b2 : reach values d -> reach values (pressureArrives b0 b1 b2 d)
| r_temp d b0 b1 b2 : reach values d -> reach values (temperatureArrives b0 b1 b2 d)
| r_getp d : reach values d -> reach values (snd (getPressure values d))
| r_gett d : reach values d -> reach values (snd (getTemperature values d)).
