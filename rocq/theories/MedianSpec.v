(* The median of an odd number of values: the middle of the same values in ascending order. *)
From Coq Require Export Permutation Sorted.
From Verif Require Import Base MedianModel.
Definition is_median (l : list Z) (m : Z) : Prop :=
  exists s, Permutation s l /\ Sorted Z.le s /\ nth_error s (Nat.div2 (length l)) = Some m.
(* the samples appended by a program *)
Fixpoint samples (os : list m_op) : list Z :=
  match os with [] => [] | MAppend x :: r => x :: samples r | MUpdate :: r => samples r end.
