(** C14: modm::Scheduler.  Specification: SchedSpec.v. *)
From Coq Require Import ZArith List Bool Lia Sorting.Sorted.
From Verif Require Import Base SchedModel SchedSpec SchedProofs.
Import ListNotations.
Open Scope Z_scope.

(** After any sequence of scheduleTask and schedule calls (16 bit periods,
    priorities 1..255), the next tick ends and runs exactly the tasks whose
    period has just elapsed, each once, higher priorities first and of equal
    priorities the one scheduled last first.
    Missing from the full claim: ticks nested into the unlocked window, and
    priority 0 (both refuted below). *)
Theorem C14_tick_partial : forall fuel ops,
  Forall good ops -> (2 * length ops + 7 < fuel)%nat ->
  exists s s' order names,
    calls fuel ops scheduler = Done s /\ calls fuel (ops ++ [Tick]) scheduler = Done s' /\
    ran s' = ran s ++ names /\
    right_order (jobs_of (ops ++ [Tick])) order /\ tasks_of (jobs_of (ops ++ [Tick])) order names.
Proof. exact sched_tick. Qed.
(** Three tasks with periods 2, 3 and 1; the sixth tick runs all of them, the two
    of equal priority in the order last scheduled first. *)
Definition three : list op := [Add 101 2 20; Tick; Tick; Add 102 2 20; Add 103 1 7; Tick].
Example C14_tick_ex : Forall good three /\
  calls 100 three scheduler = Done (Sched
    [Item None None 101 2 1 20 WAITING; Item (Some 0) None 102 2 1 20 WAITING; Item (Some 1) None 103 1 1 7 WAITING]
    (Some 2) None 0 [101; 103]) /\
  match calls 100 (three ++ [Tick]) scheduler with Done s => ran s = [101; 103; 102; 101; 103] | _ => False end /\
  right_order (jobs_of (three ++ [Tick])) [1; 0; 2].
Proof.
  split; [repeat constructor; cbn; lia|]. split; [vm_compute; reflexivity|]. split; [vm_compute; reflexivity|].
  exact (order_right (jobs_of three)).
Qed.

(** Over a whole history with distinct tasks, a task has run exactly once per
    elapsed period (a period of 0 is 65536), and nothing else has run. *)
Theorem C14_runs_partial : forall fuel ops,
  Forall good ops -> (2 * length ops + 7 < fuel)%nat -> NoDup (map jtask (jobs_of ops)) ->
  exists s, calls fuel ops scheduler = Done s /\
    (forall tk, ~ In tk (map jtask (jobs_of ops)) -> count_occ Z.eq_dec (ran s) tk = 0%nat) /\
    forall i j, znth (jobs_of ops) i = Some j ->
      Z.of_nat (count_occ Z.eq_dec (ran s) (jtask j)) = jage j / every (jperiod j).
Proof. exact sched_count. Qed.
Example C14_runs_ex :
  let ops := three ++ repeat Tick 10 in
  Forall good ops /\ NoDup (map jtask (jobs_of ops)) /\
  jobs_of ops = [Job 101 2 20 13; Job 102 2 20 11; Job 103 1 7 11] /\
  match calls 200 ops scheduler with
  | Done s => map (count_occ Z.eq_dec (ran s)) [101; 102; 103] = [6%nat; 5%nat; 11%nat]
  | _ => False
  end.
Proof.
  cbv zeta. split; [repeat constructor; cbn; lia|]. split; [|split; [reflexivity|vm_compute; reflexivity]].
  repeat constructor; cbn; intuition lia.
Qed.

(** A task of priority 0 never runs, and after three periods the ready list is a
    loop: the tick does not end. *)
Theorem C14_priority0_hangs : forall tk p, 1 <= p < 65536 ->
  (forall fuel, (2 <= fuel)%nat ->
     exists s, calls fuel (Add tk p 0 :: repeat Tick (Z.to_nat (3 * p - 1))) scheduler = Done s /\ ran s = []) /\
  (forall fuel, calls fuel (Add tk p 0 :: repeat Tick (Z.to_nat (3 * p))) scheduler = OutOfFuel).
Proof. exact sched_zero. Qed.
Example C14_priority0_ex :
  match calls 50 [Add 9 1 0; Tick; Tick] scheduler with Done s => ran s = [] | _ => False end /\
  calls 50 [Add 9 1 0; Tick; Tick; Tick] scheduler = OutOfFuel.
Proof. split; vm_compute; reflexivity. Qed.

(** With an interrupt in the window of line 85 (a nested tick that runs a task of
    still higher priority), a task of lower priority runs before the higher one
    that became due at the same tick: the nested run sets currentPriority to 0. *)
Theorem C14_nested_order_refuted : exists fuel ops script s s' before_names after,
  Forall good ops /\ calls fuel ops scheduler = Done s /\ tick fuel script s = Done ([], s') /\
  (exists hi lo, znth (jobs_of (ops ++ [Tick])) 0 = Some hi /\ znth (jobs_of (ops ++ [Tick])) 1 = Some lo /\
     due hi /\ due lo /\ jprio lo < jprio hi /\
     ran s' = ran s ++ before_names ++ [jtask lo; jtask hi] ++ after).
Proof.
  exists 60%nat, [Add 20 2 20; Add 10 2 10; Add 30 3 30; Tick], [1%nat].
  eexists. eexists. exists [30], []. split; [repeat constructor; cbn; lia|]. split; [vm_compute; reflexivity|]. split; [vm_compute; reflexivity|].
  exists (Job 20 2 20 2), (Job 10 2 10 2). split; [reflexivity|]. split; [reflexivity|]. split; [reflexivity|]. split; [reflexivity|]. split; [reflexivity|reflexivity].
Qed.

(** One nested tick can also make the scheduler loop for ever: a task waiting in
    the ready list that becomes due again is inserted behind itself. *)
Theorem C14_nested_hang_refuted : exists ops, Forall good ops /\
  (exists s, calls 30 ops scheduler = Done s /\ forall fuel, tick fuel [1%nat] s = OutOfFuel).
Proof.
  exists [Add 20 1 20; Add 10 1 10]. split; [repeat constructor; cbn; lia|]. eexists. split; [vm_compute; reflexivity|].
  exact sched_hang.
Qed.

Print Assumptions C14_tick_partial.
Print Assumptions C14_runs_partial.
Print Assumptions C14_priority0_hangs.
Print Assumptions C14_nested_order_refuted.
Print Assumptions C14_nested_hang_refuted.
