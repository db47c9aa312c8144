(* Saturation: the exact result clamped to the range of the type. *)
From Verif Require Import Base IntTypes SaturatedModel.
Definition clamp (t : ity) (x : Z) : Z := Z.max (tmin t) (Z.min (tmax t) x).
(* y is the value whose negation does not exist in the promoted type *)
Definition unnegatable (u : ity) (y : Z) : Prop := sg u = true /\ 32 <= wd u /\ y = tmin u.
(* uint64_t, for which the library would need a 128 bit type *)
Definition is_uint64 (t : ity) : Prop := sg t = false /\ wd t = 64.
