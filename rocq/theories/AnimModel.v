(* Model of /repo/src/modm/ui/animation: interpolation.hpp (FastRamp for the integer types), base_impl.hpp (Animation), key_frame_impl.hpp (KeyFrameAnimation),
   indicator.hpp, pulse.hpp and strobe.hpp (the lengths of the frames). modm is compiled with -fwrapv. The floating point ramp (interpolation.hpp:60-93, used for
   float, 64 bit types, and 32 bit types on the AVR) is left out. A division by zero is None. *)
From Verif Require Import Base.

(* the integer widths the code depends on: int_fast16_t and uint_fast16_t, uint_fast8_t, int; interpolation.hpp:106-107, base_impl.hpp:96 *)
Record machine := { fast16 : Z; fast8 : Z; intw : Z }.
(* newlib on a Cortex-M; base_impl.hpp:96 *)
Definition Arm : machine := {| fast16 := 32; fast8 := 32; intw := 32 |}.
(* avr-libc; base_impl.hpp:96 *)
Definition Avr : machine := {| fast16 := 16; fast8 := 8; intw := 16 |}.
(* glibc on x86-64; base_impl.hpp:96 *)
Definition Hosted : machine := {| fast16 := 64; fast8 := 8; intw := 32 |}.

(* an instance of Animation<T>: vb, vs = bits of T, signed; fr = bits after the point; ab = bits of accumulatedValue and deltaValue; eb, es = bits of the promoted
   type of end << fr, signed; sb = bits of the signed type steps is converted to; tb = bits of StepType; db = bits of uint_fast8_t; interpolation.hpp:55-58,102-245 *)
Record ramptype := { vb : Z; vs : bool; fr : Z; ab : Z; eb : Z; es : bool; sb : Z; tb : Z; db : Z }.
(* uint8_t; interpolation.hpp:102-142 *)
Definition uint8_on (m : machine) : ramptype :=
  {| vb := 8; vs := false; fr := 7; ab := fast16 m; eb := intw m; es := true; sb := fast16 m; tb := 16; db := fast8 m |}.
(* int8_t; interpolation.hpp:102-142 *)
Definition int8_on (m : machine) : ramptype :=
  {| vb := 8; vs := true; fr := 7; ab := fast16 m; eb := intw m; es := true; sb := fast16 m; tb := 16; db := fast8 m |}.
(* uint16_t, which is promoted to int only if int is wider; interpolation.hpp:151-190 *)
Definition uint16_on (m : machine) : ramptype :=
  {| vb := 16; vs := false; fr := 15; ab := 32; eb := intw m; es := 16 <? intw m; sb := 32; tb := 32; db := fast8 m |}.
(* int16_t; interpolation.hpp:151-190 *)
Definition int16_on (m : machine) : ramptype :=
  {| vb := 16; vs := true; fr := 15; ab := 32; eb := intw m; es := true; sb := 32; tb := 32; db := fast8 m |}.
(* uint32_t, not on the AVR; interpolation.hpp:206-245 *)
Definition uint32_on (m : machine) : ramptype :=
  {| vb := 32; vs := false; fr := 16; ab := 64; eb := 32; es := false; sb := 32; tb := 32; db := fast8 m |}.
(* int32_t, not on the AVR; interpolation.hpp:206-245 *)
Definition int32_on (m : machine) : ramptype :=
  {| vb := 32; vs := true; fr := 16; ab := 64; eb := 32; es := true; sb := 32; tb := 32; db := fast8 m |}.
(* the instances with an integer ramp; interpolation.hpp:102-245 *)
Definition instances : list ramptype :=
  [uint8_on Arm; int8_on Arm; uint16_on Arm; int16_on Arm; uint32_on Arm; int32_on Arm;
   uint8_on Avr; int8_on Avr; uint16_on Avr; int16_on Avr;
   uint8_on Hosted; int8_on Hosted; uint16_on Hosted; int16_on Hosted; uint32_on Hosted; int32_on Hosted].

(* static_cast<T>; interpolation.hpp:140,188,243 *)
Definition toT (T : ramptype) (x : Z) : Z := if vs T then swrap (vb T) x else wrap (vb T) x.
(* end << fr in the promoted type; interpolation.hpp:127,175,230 *)
Definition end_shifted (T : ramptype) (x : Z) : Z := if es T then swrap (eb T) (x * 2 ^ fr T) else wrap (eb T) (x * 2 ^ fr T).
(* accumulatedValue and deltaValue; interpolation.hpp:106-107,154-155,209-210 *)
Record ramp := { acc : Z; dv : Z }.
(* interpolation.hpp:114-129,162-177,217-232 *)
Definition initialize (T : ramptype) (bgn fin steps : Z) : option ramp :=
  let delta := swrap (ab T) ((fin - bgn) * 2 ^ fr T) in
  if delta =? 0 then Some {| acc := wrap (ab T) (end_shifted T fin); dv := 0 |}
  else
    let s := swrap (sb T) steps in
    if s =? 0 then None
    else
      let d := swrap (ab T) (Z.quot delta s) in
      let d := if d =? 0 then (if delta >? 0 then 1 else -1) else d in
      Some {| acc := wrap (ab T) (wrap (ab T) (wrap (ab T) bgn * 2 ^ fr T) + Z.quot d 2); dv := d |}.
(* interpolation.hpp:131-135,179-183,234-238 *)
Definition step (T : ramptype) (r : ramp) : ramp := {| acc := wrap (ab T) (acc r + dv r); dv := dv r |}.
(* interpolation.hpp:137-141,185-189,240-244 *)
Definition get (T : ramptype) (r : ramp) : Z := toT T (acc r / 2 ^ fr T).
(* interpolation.hpp:283-288 *)
Definition halt (r : ramp) : ramp := {| acc := acc r; dv := 0 |}.

(* Animation: hnd = a handler is attached, cur = the animated value, calls = the values the handler was called with, last first; base.hpp:119-128 *)
Record anim := { hnd : bool; cur : Z; endv : Z; atime : Z; prev : Z; rmp : ramp; calls : list Z }.
(* if (handler) handler(value); base_impl.hpp:38,77,125 *)
Definition notify (a : anim) (v : Z) : list Z := if hnd a then v :: calls a else calls a.
(* base_impl.hpp:30-39 *)
Definition setValue (a : anim) (v : Z) : anim :=
  {| hnd := hnd a; cur := v; endv := v; atime := 0; prev := prev a; rmp := halt (rmp a); calls := notify a v |}.
(* base_impl.hpp:48-53 *)
Definition isAnimating (a : anim) : bool := atime a >? 0.
(* base_impl.hpp:55-60 *)
Definition stop (a : anim) : anim := setValue a (cur a).
(* animateTo at the clock time now; base_impl.hpp:62-78 *)
Definition animateTo (T : ramptype) (a : anim) (now v time : Z) : option anim :=
  if time =? 0 then Some (setValue a v)
  else
    let t := wrap (tb T) time in
    do r <- initialize T (cur a) v t;
    Some {| hnd := hnd a; cur := cur a; endv := v; atime := t; prev := u16 now; rmp := r;
            calls := if v =? cur a then notify a (cur a) else calls a |}.
(* while (delta--) step; base_impl.hpp:115 *)
Fixpoint steps (T : ramptype) (n : nat) (r : ramp) : ramp := match n with O => r | S m => steps T m (step T r) end.
(* update at the clock time now, and what it returns; base_impl.hpp:80-131 *)
Definition update (T : ramptype) (a : anim) (now : Z) : anim * bool :=
  if atime a >? 0 then
    let delta := wrap (db T) (u16 (u16 now - prev a)) in
    if negb (delta =? 0) then
      let a1 := {| hnd := hnd a; cur := cur a; endv := endv a; atime := atime a; prev := u16 now; rmp := rmp a; calls := calls a |} in
      if atime a <=? delta then (setValue a1 (endv a), true)
      else
        let r := steps T (Z.to_nat delta) (rmp a) in
        let v := get T r in
        if negb (cur a =? v) then
          ({| hnd := hnd a; cur := v; endv := endv a; atime := atime a - delta; prev := u16 now; rmp := r; calls := notify a v |}, true)
        else
          ({| hnd := hnd a; cur := cur a; endv := endv a; atime := atime a - delta; prev := u16 now; rmp := r; calls := calls a |}, false)
    else (a, false)
  else (a, false).
(* updates after the given numbers of milliseconds; base_impl.hpp:80-131 *)
Fixpoint play (T : ramptype) (a : anim) (now : Z) (gaps : list Z) : anim :=
  match gaps with
  | [] => a
  | g :: r => play T (fst (update T a (now + g))) (now + g) r
  end.

(* ---- what the program does with an animation: the public functions, each some milliseconds after the one before; base.hpp:84-117 ---- *)
Inductive op := Set_ (v : Z) | Stop_ | AnimateTo_ (v time : Z) | Update_.
(* base.hpp:84-117 *)
Definition perform (T : ramptype) (a : anim) (now : Z) (o : op) : option anim :=
  match o with
  | Set_ v => Some (setValue a v)
  | Stop_ => Some (stop a)
  | AnimateTo_ v time => animateTo T a now v time
  | Update_ => Some (fst (update T a now))
  end.
(* base.hpp:84-117 *)
Fixpoint performs (T : ramptype) (a : anim) (now : Z) (l : list (Z * op)) : option anim :=
  match l with
  | [] => Some a
  | (g, o) :: r => do a1 <- perform T a (now + g) o; performs T a1 (now + g) r
  end.
(* the constructor, for a variable that has the value v; base_impl.hpp:17-21, base.hpp:119-128 *)
Definition fresh (v : Z) (handler : bool) : anim :=
  {| hnd := handler; cur := v; endv := 0; atime := 0; prev := 0; rmp := {| acc := 0; dv := 0 |}; calls := [] |}.
