(** Model of the colour containers and their conversions:
    /repo/src/modm/ui/color/rgb.hpp, rgb_impl.hpp, hsv.hpp, hsv_impl.hpp,
    rgb565.hpp and brightness.hpp (the header tree copied by color.lb).

    Channels are Z; [T] and [U] are the bit widths of the template parameters
    (8 or 16).  Integer promotion: both types promote to the 32 bit int of the
    targets with a 32 bit core.  [float] is IEEE binary32, modelled with the
    executable specification Coq.Floats.SpecFloat (24 bit mantissa, emax 128,
    round to nearest even), every operation rounded to float
    (FLT_EVAL_METHOD = 0, no contraction). *)
From Coq Require Import ZArith List Bool Lia.
From Coq Require Import Floats.SpecFloat.
From Verif Require Import Base.
Import ListNotations.
Open Scope Z_scope.

(** rgb.hpp:49-55 — class RgbT: red, green, blue, default 0. *)
Record rgb := Rgb { red : Z; green : Z; blue : Z }.
(** hsv.hpp:44-50 — class HsvT: hue, saturation, value. *)
Record hsv := Hsv { hue : Z; sat : Z; val : Z }.

(** rgb_impl.hpp:26-48 — RgbT<T>::RgbT(const HsvT<U>&).  The switch has no
    default: other values of i leave the initialisers 0 of rgb.hpp:53-55. *)
Definition rgb_of_hsv (T : Z) (c : hsv) : rgb :=
  let vs := u16 (swrap 32 (val c * sat c)) in                (* :30 *)
  let h6 := u16 (6 * hue c) in                               (* :31 *)
  let p := wrap T (Z.shiftr (Z.shiftl (val c) 8 - vs) 8) in  (* :33 *)
  let i := wrap T (Z.shiftr h6 8) in                         (* :34 *)
  let f := u16 (Z.shiftl (Z.lor i 1) 8 - h6) in              (* :35 *)
  let f := if Z.land i 1 =? 0 then f else u16 (- f) in       (* :36 *)
  let u := wrap T (Z.shiftr
             (u32 (u32 (Z.shiftl (val c) 16) - u32 (vs * f))) 16) in (* :37 *)
  let v := wrap T (val c) in
  if i =? 0 then Rgb v u p                                   (* :41 *)
  else if i =? 1 then Rgb u v p                              (* :42 *)
  else if i =? 2 then Rgb p v u                              (* :43 *)
  else if i =? 3 then Rgb p u v                              (* :44 *)
  else if i =? 4 then Rgb u p v                              (* :45 *)
  else if i =? 5 then Rgb v p u                              (* :46 *)
  else Rgb 0 0 0.

(** rgb.hpp:66-70 — 8 bit to 16 bit. *)
Definition rgb_widen (c : rgb) : rgb :=
  Rgb (u16 (Z.shiftl (red c) 8)) (u16 (Z.shiftl (green c) 8))
      (u16 (Z.shiftl (blue c) 8)).
(** rgb.hpp:75-79 — 16 bit to 8 bit. *)
Definition rgb_narrow (c : rgb) : rgb :=
  Rgb (u8 (Z.shiftr (red c) 8)) (u8 (Z.shiftr (green c) 8))
      (u8 (Z.shiftr (blue c) 8)).
(** hsv.hpp:59-63 — 8 bit to 16 bit. *)
Definition hsv_widen (c : hsv) : hsv :=
  Hsv (u16 (Z.shiftl (hue c) 8)) (u16 (Z.shiftl (sat c) 8))
      (u16 (Z.shiftl (val c) 8)).
(** hsv.hpp:68-72 — 16 bit to 8 bit. *)
Definition hsv_narrow (c : hsv) : hsv :=
  Hsv (u8 (Z.shiftr (hue c) 8)) (u8 (Z.shiftr (sat c) 8))
      (u8 (Z.shiftr (val c) 8)).

(** rgb.hpp:105-109 — RgbT<T>(const Rgb565&). *)
Definition rgb_of_565 (T : Z) (color : Z) : rgb :=
  Rgb (wrap T (Z.land (Z.shiftr color 8) 248))
      (wrap T (Z.land (Z.shiftr color 3) 252))
      (wrap T (Z.shiftl color 3)).

(** rgb565.hpp:62-64 — Rgb565(uint8_t red, uint8_t green, uint8_t blue). *)
Definition rgb565 (r g b : Z) : Z :=
  u16 (Z.lor (Z.lor (Z.shiftl (u16 (Z.land r 248)) 8)
                    (Z.shiftl (u16 (Z.land g 252)) 3))
             (u16 (Z.shiftr b 3))).
(** rgb565.hpp:71-73 — Rgb565(const RgbT<U>&): the channels are converted to
    uint8_t by the call. *)
Definition rgb565_of_rgb (c : rgb) : Z :=
  rgb565 (u8 (red c)) (u8 (green c)) (u8 (blue c)).
(** rgb565.hpp:80-82 — Rgb565(const HsvT<U>&) via RgbT<uint8_t>. *)
Definition rgb565_of_hsv (c : hsv) : Z := rgb565_of_rgb (rgb_of_hsv 8 c).

(** std::clamp<int8_t> as used in rgb565.hpp:101-107 and 117-123. *)
Definition clamp8 (x lo hi : Z) : Z :=
  if x <? lo then lo else if hi <? x then hi else x.

(** rgb565.hpp:96-110 — operator+. *)
Definition add565 (a b : Z) : Z :=
  let red_raw := swrap 8 (Z.shiftr a 11 + Z.shiftr b 11) in
  let r := u16 (Z.shiftl (clamp8 red_raw 0 31) 11) in
  let green_raw := swrap 8 (Z.land (Z.shiftr a 5) 63 + Z.land (Z.shiftr b 5) 63) in
  let g := u16 (Z.shiftl (clamp8 green_raw 0 63) 5) in
  let blue_raw := swrap 8 (Z.land a 31 + Z.land b 31) in
  let bl := u16 (clamp8 blue_raw 0 31) in
  u16 (Z.lor (Z.lor r g) bl).

(** rgb565.hpp:112-126 — operator-. *)
Definition sub565 (a b : Z) : Z :=
  let red_raw := swrap 8 (Z.shiftr a 11 - Z.shiftr b 11) in
  let r := u16 (Z.shiftl (clamp8 red_raw 0 31) 11) in
  let green_raw := swrap 8 (Z.land (Z.shiftr a 5) 63 - Z.land (Z.shiftr b 5) 63) in
  let g := u16 (Z.shiftl (clamp8 green_raw 0 63) 5) in
  let blue_raw := swrap 8 (Z.land a 31 - Z.land b 31) in
  let bl := u16 (clamp8 blue_raw 0 31) in
  u16 (Z.lor (Z.lor r g) bl).

(** hsv.hpp:86-88 — HsvT(const BrightnessT<U>). *)
Definition hsv_of_brightness (v : Z) : hsv := Hsv 0 0 v.
(** brightness.hpp:87-89 — BrightnessT(HsvT<U>). *)
Definition brightness_of_hsv (c : hsv) : Z := val c.

(** ** Single precision arithmetic (the CalcType of hsv_impl.hpp:30) *)
(** Conversion of an integer to float, as in hsv_impl.hpp:31-34. *)
Definition fz (x : Z) : spec_float := binary_normalize 24 128 x 0 false.
(** float division, as in hsv_impl.hpp:32-34 (exact rounding of the quotient). *)
Definition fdiv : spec_float -> spec_float -> spec_float := SFdiv 24 128.
(** float multiplication, as in hsv_impl.hpp:46. *)
Definition fmul : spec_float -> spec_float -> spec_float := SFmul 24 128.
(** float addition, as in hsv_impl.hpp:49. *)
Definition fadd : spec_float -> spec_float -> spec_float := SFadd 24 128.
(** float subtraction, as in hsv_impl.hpp:37. *)
Definition fsub : spec_float -> spec_float -> spec_float := SFsub 24 128.
(** std::max (hsv_impl.hpp:35): a < b ? b : a. *)
Definition fmax (a b : spec_float) : spec_float := if SFltb a b then b else a.
(** std::min (hsv_impl.hpp:36): b < a ? b : a. *)
Definition fmin (a b : spec_float) : spec_float := if SFltb b a then b else a.
(** Conversion float to uint8_t (hsv_impl.hpp:46, 62, 64, 70): truncation towards
    zero; [None] when the truncated value does not fit (undefined in C++) or is
    not finite. *)
Definition trunc8 (x : spec_float) : option Z :=
  match x with
  | S754_zero _ => Some 0
  | S754_finite s m e =>
      let t := if 0 <=? e then Zpos m * 2 ^ e else Zpos m / 2 ^ (- e) in
      let t := if s then - t else t in
      if (0 <=? t) && (t <=? 255) then Some t else None
  | _ => None
  end.

(** hsv_impl.hpp:31-34 — the normalised channel. *)
Definition norm (x : Z) : spec_float := fdiv (fz x) (fz 255).

(** hsv_impl.hpp:26-71 — HsvT<uint8_t>::HsvT(const RgbT<uint8_t>&). *)
Definition hsv_of_rgb (c : rgb) : option hsv :=
  let max_value := fz 255 in
  let r := norm (red c) in
  let b := norm (blue c) in
  let g := norm (green c) in
  let mx := fmax r (fmax g b) in
  let mn := fmin r (fmin g b) in
  let diff := fsub mx mn in
  let '(hue_temp, value) :=
    if SFeqb mx mn then (fz 0, trunc8 (fmul mx max_value))           (* :42-46 *)
    else if SFeqb mx r then
      (fmul (fz 60) (fadd (fz 0) (fdiv (fsub g b) diff)), Some (red c))   (* :47-50 *)
    else if SFeqb mx g then
      (fmul (fz 60) (fadd (fz 2) (fdiv (fsub b r) diff)), Some (green c)) (* :51-54 *)
    else
      (fmul (fz 60) (fadd (fz 4) (fdiv (fsub r g) diff)), Some (blue c)) (* :55-59 *)
  in
  let scale := fdiv max_value (fz 360) in
  let h := if SFltb hue_temp (fz 0)
           then trunc8 (fmul (fadd hue_temp (fz 360)) scale)         (* :62 *)
           else trunc8 (fmul hue_temp scale) in                      (* :64 *)
  let s := if SFeqb mx (fz 0) then Some 0                            (* :67-68 *)
           else trunc8 (fmul (fdiv diff mx) max_value) in            (* :70 *)
  do value <- value;
  do h <- h;
  do s <- s;
  Some (Hsv h s value).
