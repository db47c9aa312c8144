(* What the heap table and the fault storage promise. *)
From Verif Require Import Base HtabModel.

(* a table of memory sections that do not overlap *)
Definition table_ok (table : list entry) : Prop :=
  (forall t, In t table -> 0 < start t <= fin t /\ fin t < 2 ^ 32) /\
  (forall i j, 0 <= i < j -> forall t u, nth_error table (Z.to_nat i) = Some t -> nth_error table (Z.to_nat j) = Some u -> fin t <= start u \/ fin u <= start t).
Definition has_some (t : entry) (mask : Z) : Prop := exists i, 0 <= i /\ Z.testbit (traits t) i = true /\ Z.testbit mask i = true.
Definition has_all (t : entry) (mask : Z) : Prop := forall i, 0 <= i -> Z.testbit mask i = true -> Z.testbit (traits t) i = true.

(* memory from a to b made of sections that satisfy Q, each starting where the one before ends *)
Inductive joined (Q : entry -> Prop) (table : list entry) : Z -> Z -> Prop :=
| j_one t : In t table -> Q t -> joined Q table (start t) (fin t)
| j_more a b t : joined Q table a b -> In t table -> Q t -> start t = b -> joined Q table a (fin t).

(* The report occupies the bytes from the start of the first section: its data and a magic word. *)
Definition in_report (table : list entry) (len a : Z) : Prop := match table with [] => False | t :: _ => start t <= a < start t + len + 4 end.
Definition in_heap (table : list entry) (a : Z) : Prop := exists t, In t table /\ start t <= a < fin t.
(* the word that is mistaken for the address of the crash stack does not point into the report *)
Definition guard_ok (table : list entry) (sym len : Z) (s : fs) : Prop :=
  match table with [] => False | t :: _ => word s sym <= start t \/ start t + len + 4 < word s sym end.
Definition is_byte (b : Z) : Prop := 0 <= b < 256.
