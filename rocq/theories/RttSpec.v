(** What is claimed about the RTT channels. *)
From Coq Require Import ZArith List Bool.
From Verif Require Import Base RttModel.
Import ListNotations.
Open Scope Z_scope.

(** The bytes which the finished calls report as written. *)
Fixpoint reported (l : list (list Z * Z)) : list Z :=
  match l with [] => [] | (a, n) :: l => firstn (Z.to_nat n) a ++ reported l end.
(** The host only. *)
Definition host (a : rxact) : Prop := match a with RCall _ | RStep => False | _ => True end.
