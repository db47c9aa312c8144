(** Specification for semaphore and protothreads, in terms of the log of executed
    statements only. *)
From Coq Require Import ZArith List Bool Lia.
From Verif Require Import Base SemModel.
Import ListNotations.
Open Scope Z_scope.

Definition event := (Z * Z * bool)%type.
Definition who (e : event) : Z := fst (fst e).
Definition place (e : event) : Z := snd (fst e).
Definition held_true (e : event) : bool := snd e.

Definition stmt_of (progs : list (list stmt * Z)) (e : event) : option stmt :=
  do p <- znth progs (who e); znth (fst p) (place e).

(** Units taken and given back by thread [i]. *)
Definition takes (progs : list (list stmt * Z)) (i : Z) (e : event) : bool :=
  (who e =? i) && match stmt_of progs e with Some WaitAcquire => held_true e | _ => false end.
Definition gives (progs : list (list stmt * Z)) (i : Z) (e : event) : bool :=
  (who e =? i) && match stmt_of progs e with Some Release => true | _ => false end.
Definition holds progs (i : Z) (l : list event) : Z :=
  zlen (filter (takes progs i) l) - zlen (filter (gives progs i) l).
Fixpoint total (f : Z -> Z) (n : nat) : Z := match n with O => 0 | S n => total f n + f (Z.of_nat n) end.
Definition in_use progs (l : list event) : Z := total (fun i => holds progs i l) (length progs).
(** Threads that hold at least one unit. *)
Definition holders progs (l : list event) : Z := total (fun i => if 0 <? holds progs i l then 1 else 0) (length progs).

(** Nobody gives back what it does not hold. *)
Definition disciplined progs (l : list event) : Prop :=
  forall a e b i, l = a ++ e :: b -> gives progs i e = true -> 1 <= holds progs i a.

(** Control flow: [follows c k l k'] — the statements [l] are executed one after
    the other from position [k] and [k'] is due next ([None]: PT_EXIT). *)
Inductive follows (c : list stmt) : option Z -> list event -> option Z -> Prop :=
  | f_nil k : follows c k [] k
  | f_wait k e l k' : place e = k -> znth c k = Some WaitAcquire ->
      follows c (Some (if held_true e then k + 1 else k)) l k' -> follows c (Some k) (e :: l) k'
  | f_step k e l k' : place e = k -> (znth c k = Some Release \/ znth c k = Some PtYield) ->
      follows c (Some (k + 1)) l k' -> follows c (Some k) (e :: l) k'
  | f_goto k n e l k' : place e = k -> znth c k = Some (Goto n) ->
      follows c (Some n) l k' -> follows c (Some k) (e :: l) k'
  | f_restart k e l k' : place e = k -> znth c k = Some PtRestart ->
      follows c (Some 0) l k' -> follows c (Some k) (e :: l) k'
  | f_exit k e l k' : place e = k -> znth c k = Some PtExit ->
      follows c None l k' -> follows c (Some k) (e :: l) k'.

(** The source lines fit: no case label is 0 or the mark of a stopped thread. *)
Definition fits (p : list stmt * Z) : Prop := 1 <= snd p /\ snd p + zlen (fst p) <= 65535.
