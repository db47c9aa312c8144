(* Model of modm::Saturated<T>: /repo/src/modm/math/saturation/saturated.hpp, with the traits of
   /repo/src/modm/math/utils/integer_traits.hpp. Floating point operands and reference types T& are not modelled. *)
From Verif Require Import Base IntTypes.

(* the GCC builtins __builtin_{add,sub,mul}_overflow: the exact result is converted to the type of the destination, the
   flag tells whether it did not fit *)
(* as called in saturated.hpp:132, 144, 147 *)
Definition builtin (t : ity) (exact : Z) : Z * bool :=
  (conv t exact, negb ((tmin t <=? exact) && (exact <=? tmax t))).

(* std::numeric_limits<T>::digits, integer_traits.hpp:40-52 *)
Definition digits (t : ity) : Z := if sg t then wd t - 1 else wd t.
(* integer_traits.hpp:25-33: uint_t<Bits>::least; None = ill-formed *)
Definition least_uint (bits : Z) : option Z :=
  if bits <=? 8 then Some 8 else if bits <=? 16 then Some 16 else if bits <=? 32 then Some 32 else if bits <=? 64 then Some 64 else None.
(* integer_traits.hpp:56-66: fits_any<T, U>. Both alternatives of the std::conditional_t are instantiated, so one that is
   ill-formed (there is no 128 bit type) makes the whole trait ill-formed even when it is not selected. *)
Definition fits_any (t u : ity) : option ity :=
  let most_dig := Z.max (digits t) (digits u) in
  do wu <- least_uint most_dig;
  do ws <- least_uint (if Z.odd most_dig then most_dig else most_dig * 2);
  Some (if negb (sg t) && negb (sg u) then mkTy false wu else mkTy true ws).

(* saturated.hpp:56-59, 66-69, 88-92: value = std::clamp<F>(v, min, max), with v, min, max converted to F *)
Definition sat_convert (t u : ity) (v : Z) : option Z :=
  do f <- fits_any t u;
  let v' := conv f v in let lo := conv f (tmin t) in let hi := conv f (tmax t) in
  Some (conv t (if v' <? lo then lo else if hi <? v' then hi else v')).

(* saturated.hpp:95-107, 110-124 *)
Definition sat_inc (t : ity) (x : Z) : Z := if x <? tmax t then conv t (x + 1) else x.
(* saturated.hpp:110-124 *)
Definition sat_dec (t : ity) (x : Z) : Z := if tmin t <? x then conv t (x - 1) else x.

(* -other.value, computed in the promoted type (wraps: -fwrapv) *)
(* saturated.hpp:144 *)
Definition neg_val (u : ity) (y : Z) : Z := conv (promote u) (- y).
(* if (__builtin_..._overflow(..., &value)) value = limit; saturated.hpp:132-133, 144-148 *)
Definition overflow_to (r : Z * bool) (limit : Z) : Z := if snd r then limit else fst r.

(* saturated.hpp:127-152 (+=) and 240-269 (+) *)
Definition sat_add (t u : ity) (x y : Z) : Z :=
  if sg u && (y <? 0) then overflow_to (builtin t (x - neg_val u y)) (tmin t)
  else overflow_to (builtin t (x + y)) (tmax t).
(* saturated.hpp:154-179 (-=) and 271-300 (-) *)
Definition sat_sub (t u : ity) (x y : Z) : Z :=
  if sg u && (y <? 0) then overflow_to (builtin t (x + neg_val u y)) (tmax t)
  else overflow_to (builtin t (x - y)) (tmin t).
(* saturated.hpp:181-207 and 211-237 [multiply-assign by a Saturated<U> and by a plain U] *)
Definition sat_mul_assign (t u : ity) (x y : Z) : Z :=
  if sg u && (y <? 0) then
    let v := overflow_to (builtin t (x * neg_val u y)) (tmax t) in conv t (neg_val t v)
  else overflow_to (builtin t (x * y)) (tmax t).
(* saturated.hpp:302-311 *)
Definition sat_mul (t : ity) (x y : Z) : Z := overflow_to (builtin t (x * y)) (tmax t).
(* saturated.hpp:313-315, 43 and arithmetic_traits.hpp:105-116: TS = T if signed, else the signed type of twice the width *)
Definition sat_neg (t : ity) (x : Z) : Z :=
  if sg t then conv t (neg_val t x) else let ts := mkTy true (2 * wd t) in conv ts (neg_val ts (conv ts x)).
(* saturated.hpp:317-321, signed T only: abs in the promoted type, converted back *)
Definition sat_absolute (t : ity) (x : Z) : Z := conv t (conv (promote t) (Z.abs x)).
