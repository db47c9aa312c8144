(* Bit reversal, population count, byte sequences. *)
From Verif Require Import Base.

(* r is n with the order of its w bits reversed *)
Definition is_reversal (w n r : Z) : Prop :=
  0 <= r < 2 ^ w /\ forall i, 0 <= i < w -> Z.testbit r i = Z.testbit n (w - 1 - i).
(* the number of set bits among the w lowest *)
Definition popcount (w : nat) (n : Z) : Z :=
  zlen (filter (fun i => Z.testbit n (Z.of_nat i)) (seq 0 w)).
(* the k digits of n in base b, least significant first *)
Fixpoint digits (b : Z) (k : nat) (n : Z) : list Z :=
  match k with O => [] | S k' => n mod b :: digits b k' (n / b) end.
(* memory image of a k byte word on a host *)
Definition memory (big : bool) (k : nat) (v : Z) : list Z :=
  if big then rev (digits 256 k v) else digits 256 k v.
(* position of the highest set bit, -1 for zero *)
Definition is_leftmost (n r : Z) : Prop := (n = 0 /\ r = -1) \/ (0 <= r /\ 2 ^ r <= n < 2 ^ (r + 1)).
