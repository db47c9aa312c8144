(* The last n samples of a history that is preceded by an unlimited supply of the initial value. *)
From Verif Require Import Base.
Definition last_n {A} (n : nat) (l : list A) : list A := skipn (length l - n) l.
Definition window {A} (n : nat) (init : A) (hist : list A) : list A := last_n n (repeat init n ++ hist).
