(* What an animation has to do, independently of the model. *)
From Verif Require Import Base.

(* x and y are on the way from a to b, x not after y *)
Definition on_the_way (a b x y : Z) : Prop := a <= x <= y /\ y <= b \/ b <= y <= x /\ x <= a.
Fixpoint zsum (l : list Z) : Z := match l with [] => 0 | x :: r => x + zsum r end.
(* values of a type of w bits *)
Definition fits (w : Z) (signed : bool) (x : Z) : Prop := if signed then - 2 ^ (w - 1) <= x < 2 ^ (w - 1) else 0 <= x < 2 ^ w.
(* the remainder of x that fits into w bits *)
Definition reduced (w : Z) (signed : bool) (x y : Z) : Prop := fits w signed y /\ exists k, y = x + k * 2 ^ w.
