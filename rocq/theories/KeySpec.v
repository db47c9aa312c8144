(* What key frame animations have to do, independently of the model. *)
From Verif Require Import Base AnimModel KeyModel.

(* 0, 1, ..., n-1, 0, 1, ... *)
Definition cycling (n k : Z) : Z := k mod n.
(* 0, 1, ..., n-1, n-2, ..., 1, 0, 1, ... for n >= 2 *)
Definition swinging (n k : Z) : Z := let m := k mod (2 * n - 2) in if m <? n then m else 2 * n - 2 - m.
(* the first k elements of a sequence, last first *)
Fixpoint down (f : Z -> Z) (k : nat) : list Z := match k with O => [] | S j => f (Z.of_nat j) :: down f j end.
(* how many ms the first k frames take if each takes one more than its length *)
Fixpoint due (len : Z -> Z) (f : Z -> Z) (k : nat) : Z := match k with O => 0 | S j => due len f j + 1 + len (f (Z.of_nat j)) end.
(* frames for n animators of the type T, with lengths of the type TimeType, and not more than an uint16_t can count *)
Definition frame_for (T : ramptype) (n : nat) (f : keyframe) : Prop := 0 <= flen f < 2 ^ tb T /\ length (fval f) = n.
Definition frames_for (T : ramptype) (n : nat) (l : list keyframe) : Prop := Forall (frame_for T n) l /\ zlen l < 65536.
(* the length of frame i *)
Definition length_of (l : list keyframe) (i : Z) : Z := match znth l i with Some f => flen f | None => 0 end.
