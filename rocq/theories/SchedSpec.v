(** Specification of the scheduler, independent of its lists: which tasks are due
    at a tick and in which order they have to run. *)
From Coq Require Import ZArith List Bool Lia Sorting.Sorted.
From Verif Require Import Base SchedModel.
Import ListNotations.
Open Scope Z_scope.

(** A scheduled task: its number, period, priority and the ticks since it was
    scheduled. *)
Record job := Job { jtask : Z; jperiod : Z; jprio : Z; jage : Z }.

(** A period of 0 counts as 65536 (16 bit counter). *)
Definition every (p : Z) : Z := if p =? 0 then 65536 else p.
Definition older (j : job) : job := Job (jtask j) (jperiod j) (jprio j) (jage j + 1).
Definition due (j : job) : Prop := jage j mod every (jperiod j) = 0.

(** Job [a] runs before job [b] (numbers in the order of scheduling): higher
    priority first, of equal priorities the one scheduled later. *)
Definition before (jobs : list job) (a b : Z) : Prop :=
  exists ja jb, znth jobs a = Some ja /\ znth jobs b = Some jb /\
    (jprio ja > jprio jb \/ jprio ja = jprio jb /\ a > b).

(** [order] is the right sequence of runs when the jobs have reached the given
    ages. *)
Definition right_order (jobs : list job) (order : list Z) : Prop :=
  NoDup order /\
  (forall i, In i order <-> exists j, znth jobs i = Some j /\ due j) /\
  StronglySorted (before jobs) order.

Definition tasks_of (jobs : list job) (order : list Z) (names : list Z) : Prop :=
  Forall2 (fun i tk => exists j, znth jobs i = Some j /\ jtask j = tk) order names.

(** The jobs a history of calls has created, and the calls considered: 16 bit
    periods and 8 bit priorities other than 0. *)
Definition after_call (o : op) (jobs : list job) : list job :=
  match o with
  | Add tk p prio => jobs ++ [Job tk p prio 0]
  | Tick => map older jobs
  end.
Definition jobs_of (ops : list op) : list job := fold_left (fun js o => after_call o js) ops [].
Definition good (o : op) : Prop :=
  match o with Add _ p prio => 0 <= p < 65536 /\ 1 <= prio < 256 | Tick => True end.

