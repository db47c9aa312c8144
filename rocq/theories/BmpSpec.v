(* What the pressure sensors BMP085/BMP180 and BME280 are to give: the algorithms of the data sheets in unbounded integers, / rounding down. *)
From Verif Require Import Base BmpModel.

Definition byte_ok (b : Z) : Prop := 0 <= b < 256.
Definition int16 (x : Z) : Prop := -32768 <= x < 32768.
Definition uint16 (x : Z) : Prop := 0 <= x < 65536.
(* two's complement of w bits *)
Definition sgn (w x : Z) : Z := if x <? 2 ^ (w - 1) then x else x - 2 ^ w.

(** *** BMP085 data sheet, calculation of pressure and temperature *)
Definition cal_ok (c : cal085) : Prop :=
  int16 (ac1 c) /\ int16 (ac2 c) /\ int16 (ac3 c) /\ uint16 (ac4 c) /\ uint16 (ac5 c) /\ uint16 (ac6 c)
  /\ int16 (cb1 c) /\ int16 (cb2 c) /\ int16 (mb c) /\ int16 (mc c) /\ int16 (md c).
Definition raw5_ok (r : list Z) : Prop := length r = 5%nat /\ Forall byte_ok r.
Definition UT (r : list Z) : Z := nth 0 r 0 * 256 + nth 1 r 0.
Definition UP (oss : Z) (r : list Z) : Z := (nth 2 r 0 * 65536 + nth 3 r 0 * 256 + nth 4 r 0) / 2 ^ (8 - oss).
Definition X1s (c : cal085) (r : list Z) : Z := (UT r - ac6 c) * ac5 c / 32768.
Definition B5s (c : cal085) (r : list Z) : Z := X1s c r + Z.quot (mc c * 2048) (X1s c r + md c).
Definition Ts (c : cal085) (r : list Z) : Z := (B5s c r + 8) / 16.
Definition B6s (b5 : Z) : Z := b5 - 4000.
Definition K6 (b5 : Z) : Z := B6s b5 * B6s b5 / 4096.
Definition B3s (c : cal085) (oss b5 : Z) : Z := ((ac1 c * 4 + (cb2 c * K6 b5 / 2048 + ac2 c * B6s b5 / 2048)) * 2 ^ oss + 2) / 4.
Definition B4s (c : cal085) (b5 : Z) : Z := ac4 c * ((ac3 c * B6s b5 / 8192 + cb1 c * K6 b5 / 65536 + 2) / 4 + 32768) / 32768.
Definition B7s (c : cal085) (oss b5 up : Z) : Z := (up - B3s c oss b5) * (50000 / 2 ^ oss).
Definition P0s (b4 b7 : Z) : Z := if b7 <? 2147483648 then b7 * 2 / b4 else b7 / b4 * 2.
Definition Ps (p0 : Z) : Z := p0 + ((p0 / 256) * (p0 / 256) * 3038 / 65536 + (-7357 * p0) / 65536 + 3791) / 16.

(** *** BME280 data sheet, 4.2.2 and 4.2.3 *)
Definition raw8_ok (r : list Z) : Prop := length r = 8%nat /\ Forall byte_ok r.
Definition ADC (r : list Z) : Z := (nth 3 r 0 * 65536 + nth 4 r 0 * 256 + nth 5 r 0) / 16.
Definition V1 (T1 T2 : Z) (r : list Z) : Z := (ADC r / 8 - T1 * 2) * T2.
Definition V2 (T1 T3 : Z) (r : list Z) : Z := (ADC r / 16 - T1) * (ADC r / 16 - T1) / 4096 * T3.
Definition FINE (T1 T2 T3 : Z) (r : list Z) : Z := V1 T1 T2 r / 2048 + V2 T1 T3 r / 16384.
Definition T280 (f : Z) : Z := (f * 5 + 128) / 256.
(* table 16: H2 to H6 from the registers 0xE1 to 0xE7 *)
Definition H280 (b : list Z) : list Z :=
  [ sgn 16 (nth 1 b 0 * 256 + nth 0 b 0); nth 2 b 0; sgn 12 (nth 3 b 0 * 16 + nth 4 b 0 mod 16); sgn 12 (nth 5 b 0 * 16 + nth 4 b 0 / 16);
    sgn 8 (nth 6 b 0) ].
