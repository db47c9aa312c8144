(* Debounced buttons. Source: src/modm/ui/button_group.hpp. T is an unsigned type of w bits. The locks are not modelled: every call is
   taken to be atomic *)
From Verif Require Import Base.

(* button_group.hpp:35-52, 215-224; repeatmask, timeout and interval are constant, and parameters below *)
Record bgroup := mkB { b_deb : Z; b_pressed : Z; b_released : Z; b_repeated : Z; b_ct0 : Z; b_ct1 : Z; b_counter : Z }.
(* button_group.hpp:36, 59-61 and 222-223 *)
Definition bg_init (timeout : Z) : bgroup := mkB 0 0 0 0 0 0 timeout.
(* button_group.hpp:188-213 *)
Definition bg_update (w repeatmask timeout interval : Z) (s : bgroup) (input : Z) : bgroup :=
  let i := wrap w (Z.lxor (b_deb s) (Z.lnot input)) in
  let ct0 := wrap w (Z.lnot (Z.land (b_ct0 s) i)) in
  let ct1 := Z.lxor ct0 (Z.land (b_ct1 s) i) in
  let i := Z.land i (Z.land ct0 ct1) in
  let deb := Z.lxor (b_deb s) i in
  let pressed := Z.lor (b_pressed s) (Z.land deb i) in
  let released := Z.lor (b_released s) (Z.land (wrap w (Z.lnot deb)) i) in
  let c := if Z.land deb repeatmask =? 0 then timeout else b_counter s in
  let c := u16 (c - 1) in
  if c =? 0 then mkB deb pressed released (Z.lor (b_repeated s) (Z.land deb repeatmask)) ct0 ct1 interval
  else mkB deb pressed released (b_repeated s) ct0 ct1 c.
(* button_group.hpp:38-40 and 64-68 *)
Definition bg_getState (s : bgroup) (mask : Z) : bool := negb (Z.land mask (b_deb s) =? 0).
(* button_group.hpp:42-46: the value afterwards and the result *)
Definition bg_read_and_clear (value mask : Z) : Z * bool := let mask := Z.land mask value in (Z.lxor value mask, negb (mask =? 0)).
(* button_group.hpp:85-89 *)
Definition bg_isPressed (s : bgroup) (mask : Z) : bgroup * bool :=
  let (v, r) := bg_read_and_clear (b_pressed s) mask in (mkB (b_deb s) v (b_released s) (b_repeated s) (b_ct0 s) (b_ct1 s) (b_counter s), r).
(* button_group.hpp:92-96 *)
Definition bg_isReleased (s : bgroup) (mask : Z) : bgroup * bool :=
  let (v, r) := bg_read_and_clear (b_released s) mask in (mkB (b_deb s) (b_pressed s) v (b_repeated s) (b_ct0 s) (b_ct1 s) (b_counter s), r).
(* button_group.hpp:121-125 *)
Definition bg_isRepeated (s : bgroup) (mask : Z) : bgroup * bool :=
  let (v, r) := bg_read_and_clear (b_repeated s) mask in (mkB (b_deb s) (b_pressed s) (b_released s) v (b_ct0 s) (b_ct1 s) (b_counter s), r).
(* button_group.hpp:149-160 *)
Definition bg_isPressedShort (w : Z) (s : bgroup) (mask : Z) : bgroup * bool :=
  let mask := Z.land (Z.land mask (b_pressed s)) (wrap w (Z.lnot (b_deb s))) in
  (mkB (b_deb s) (Z.lxor (b_pressed s) mask) (b_released s) (b_repeated s) (b_ct0 s) (b_ct1 s) (b_counter s), negb (mask =? 0)).
(* button_group.hpp:169-181 *)
Definition bg_isPressedLong (s : bgroup) (mask : Z) : bgroup * bool :=
  let mask := Z.land mask (b_repeated s) in
  let repeated := Z.lxor (b_repeated s) mask in
  let mask := Z.land mask (b_pressed s) in
  (mkB (b_deb s) (Z.lxor (b_pressed s) mask) (b_released s) repeated (b_ct0 s) (b_ct1 s) (b_counter s), negb (mask =? 0)).
