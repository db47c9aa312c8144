(** Model of modm::Scheduler
    (/repo/src/modm/processing/scheduler/scheduler.hpp, scheduler.cpp,
    scheduler_impl.hpp).

    A TaskListItem is addressed by its index in the order of allocation; [None]
    is the null pointer.  Allocation succeeds.  A task's run() is an entry in the
    log and does not call the scheduler itself.  Interrupts can call
    scheduleInterupt again where line 85 unlocks them: the script gives the number
    of such nested calls for every execution of line 85 (none when it is used
    up).  Loops run on fuel: [OutOfFuel] for every fuel is a loop that never
    ends; [Stuck] is the use of a null pointer. *)
From Coq Require Import ZArith List Bool Lia.
From Verif Require Import Base.
Import ListNotations.
Open Scope Z_scope.

(** Outcome of running code of scheduler_impl.hpp:35-94. *)
Inductive res (A : Type) := Done (a : A) | Stuck | OutOfFuel.
Arguments Done {A} a. Arguments Stuck {A}. Arguments OutOfFuel {A}.
(** Sequencing of statements (scheduler_impl.hpp:35-94). *)
Definition rbind {A B} (r : res A) (f : A -> res B) : res B :=
  match r with Done a => f a | Stuck => Stuck | OutOfFuel => OutOfFuel end.
(** Dereferencing a pointer (scheduler_impl.hpp:46-92). *)
Definition deref {A} (o : option A) : res A := match o with Some a => Done a | None => Stuck end.

(** scheduler.hpp:92-97 — state. *)
Inductive tstate := RUNNING | READY | WAITING.
(** scheduler.hpp:74-99 — TaskListItem; [task] is the number of the task. *)
Record item := Item { nextTask : option Z; nextReady : option Z; task : Z;
                      period : Z; time : Z; priority : Z; state : tstate }.
(** scheduler.hpp:101-104, the allocated items and the log of run() calls. *)
Record sched := Sched { items : list item; taskList : option Z; readyList : option Z;
                        currentPriority : Z; ran : list Z }.

(** scheduler.cpp:16-19 — constructor. *)
Definition scheduler : sched := Sched [] None None 0 [].

(** scheduler.hpp:76-83 (constructor of the item) and scheduler.cpp:22-36. *)
Definition scheduleTask (tk p prio : Z) (s : sched) : sched :=
  let item := Item None None tk p p prio WAITING in
  let address := zlen (items s) in
  match taskList s with
  | None => Sched (items s ++ [item]) (Some address) (readyList s) (currentPriority s) (ran s)
  | Some _ =>
      Sched (items s ++ [Item (taskList s) None tk p p prio WAITING]) (Some address)
            (readyList s) (currentPriority s) (ran s)
  end.

(** Reading through a TaskListItem pointer (scheduler_impl.hpp:46-92). *)
Definition get (s : sched) (p : option Z) : res item :=
  match p with Some i => deref (znth (items s) i) | None => Stuck end.
(** Writing a whole TaskListItem (scheduler_impl.hpp:46-92). *)
Definition set (s : sched) (i : Z) (x : item) : res sched :=
  rbind (deref (zupd (items s) i x)) (fun l =>
  Done (Sched l (taskList s) (readyList s) (currentPriority s) (ran s))).
(** readyList = p (scheduler_impl.hpp:55 and 82). *)
Definition set_ready (s : sched) (p : option Z) : sched :=
  Sched (items s) (taskList s) p (currentPriority s) (ran s).
(** currentPriority = c (scheduler_impl.hpp:83 and 91). *)
Definition set_prio (s : sched) (c : Z) : sched :=
  Sched (items s) (taskList s) (readyList s) c (ran s).
(** item->nextReady = p (scheduler_impl.hpp:54, 65 and 66). *)
Definition with_next (x : item) (p : option Z) : item :=
  Item (nextTask x) p (task x) (period x) (time x) (priority x) (state x).
(** item->time = t (scheduler_impl.hpp:46 and 48). *)
Definition with_time (x : item) (t : Z) : item :=
  Item (nextTask x) (nextReady x) (task x) (period x) t (priority x) (state x).
(** item->state = st (scheduler_impl.hpp:72, 81 and 92). *)
Definition with_state (x : item) (st : tstate) : item :=
  Item (nextTask x) (nextReady x) (task x) (period x) (time x) (priority x) st.

(** scheduler_impl.hpp:58-70 — walking the ready list from [list]. *)
Fixpoint walk (fuel : nat) (i list : Z) (s : sched) : res sched :=
  match fuel with
  | O => OutOfFuel
  | S fuel =>
      rbind (get s (Some list)) (fun l =>
      rbind (get s (Some i)) (fun it =>
      let here :=
        rbind (set s i (with_next it (nextReady l))) (fun s =>
        rbind (get s (Some list)) (fun l =>
        set s list (with_next l (Some i)))) in
      match nextReady l with
      | None => here                                             (* :62 *)
      | Some n =>
          rbind (get s (Some n)) (fun nx =>
          if priority nx <? priority it then here                (* :63 *)
          else walk fuel i n s)                                  (* :69 *)
      end))
  end.

(** scheduler_impl.hpp:51-71 — adding item [i] to the ready list. *)
Definition make_ready (fuel : nat) (i : Z) (s : sched) : res sched :=
  rbind (get s (Some i)) (fun it =>
  let front :=
    rbind (set s i (with_next it (readyList s))) (fun s => Done (set_ready s (Some i))) in
  match readyList s with
  | None => front
  | Some r =>
      rbind (get s (Some r)) (fun rd =>
      if priority rd <? priority it then front else walk fuel i r s)
  end).

(** scheduler_impl.hpp:46-73 — the body of the update loop for item [i]. *)
Definition update_item (fuel : nat) (i : Z) (s : sched) : res sched :=
  rbind (get s (Some i)) (fun it =>
  rbind (set s i (with_time it (u16 (time it - 1)))) (fun s =>
  rbind (get s (Some i)) (fun it =>
  if time it =? 0 then
    rbind (set s i (with_time it (period it))) (fun s =>
    rbind (make_ready fuel i s) (fun s =>
    rbind (get s (Some i)) (fun it => set s i (with_state it READY))))
  else Done s))).

(** scheduler_impl.hpp:44-75 — the update loop from item [i]. *)
Fixpoint update (fuel : nat) (i : Z) (s : sched) : res sched :=
  match fuel with
  | O => OutOfFuel
  | S fuel' =>
      rbind (update_item fuel i s) (fun s =>
      rbind (get s (Some i)) (fun it =>
      match nextTask it with
      | None => Done s
      | Some n => update fuel' n s
      end))
  end.

(** scheduler_impl.hpp:35-94 — scheduleInterupt() ([tick]), its execution loop
    of lines 78-93 ([execute]) and the calls nested into line 85 ([nested]). *)
Fixpoint tick (fuel : nat) (script : list nat) (s : sched) : res (list nat * sched) :=
  match fuel with
  | O => OutOfFuel
  | S fuel =>
      match taskList s with
      | None => Done (script, s)
      | Some i => rbind (update fuel i s) (execute fuel script)
      end
  end
with execute (fuel : nat) (script : list nat) (s : sched) : res (list nat * sched) :=
  match fuel with
  | O => OutOfFuel
  | S fuel =>
      match readyList s with
      | None => Done (script, s)
      | Some i =>
          rbind (get s (Some i)) (fun it =>
          if currentPriority s <? priority it then
            rbind (set s i (with_state it RUNNING)) (fun s =>
            let s := set_prio (set_ready s (nextReady it)) (priority it) in
            let '(n, script) := match script with [] => (O, []) | n :: r => (n, r) end in
            rbind (nested fuel n script s) (fun '(script, s) =>
            let s := Sched (items s) (taskList s) (readyList s) (currentPriority s)
                           (ran s ++ [task it]) in
            let s := set_prio s 0 in
            rbind (get s (Some i)) (fun it =>
            rbind (set s i (with_state it WAITING)) (execute fuel script))))
          else Done (script, s))
      end
  end
with nested (fuel : nat) (n : nat) (script : list nat) (s : sched) : res (list nat * sched) :=
  match fuel with
  | O => OutOfFuel
  | S fuel =>
      match n with
      | O => Done (script, s)
      | S n => rbind (tick fuel script s) (fun '(script, s) => nested fuel n script s)
      end
  end.

(** scheduler.cpp:46-50 — schedule(), and scheduleTask, as one operation. *)
Inductive op := Add (tk p prio : Z) | Tick.
(** scheduler.cpp:22-50 — a call without nested interrupts. *)
Definition call (fuel : nat) (o : op) (s : sched) : res sched :=
  match o with
  | Add tk p prio => Done (scheduleTask tk p prio s)
  | Tick => rbind (tick fuel [] s) (fun '(_, s) => Done s)
  end.
(** scheduler.cpp:22-50 — a sequence of calls. *)
Fixpoint calls (fuel : nat) (ops : list op) (s : sched) : res sched :=
  match ops with
  | [] => Done s
  | o :: ops => rbind (call fuel o s) (calls fuel ops)
  end.
