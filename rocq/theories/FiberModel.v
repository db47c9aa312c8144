(** Model of the fiber scheduler
    (/repo/src/modm/processing/fiber/scheduler.hpp.in and task.hpp), one core.

    Tasks are addresses (Z); [None] is the null pointer and the result [None] of a
    definition the use of a null pointer.  A context is reduced to whether it
    starts the fiber from its beginning ([fresh]) or resumes it where it was
    saved.  The log records every fiber that gets the processor, with the
    kind of context it was given.  Task::next is uninitialised before the first
    start; destruction of running tasks, stacks and interrupts are not
    modelled. *)
From Coq Require Import ZArith List Bool Lia.
From Verif Require Import Base.
Import ListNotations.
Open Scope Z_scope.

(** scheduler.hpp.in:41-42 (last, current), task.hpp:56-58 (ctx, next,
    scheduler). *)
Record st := St { next : Z -> option Z; attached : Z -> bool; fresh : Z -> bool;
                  last : option Z; current : option Z; log : list (Z * bool) }.

(** Assignment to a member of one task (scheduler.hpp.in:47-134). *)
Definition fupd {A} (f : Z -> A) (a : Z) (v : A) : Z -> A := fun x => if x =? a then v else f x.
(** Comparison of pointers (scheduler.hpp.in:62, 85). *)
Definition same (a b : option Z) : bool :=
  match a, b with Some x, Some y => x =? y | None, None => true | _, _ => false end.

(** task.hpp:57-58 and scheduler.hpp.in:41-42 — before any task is started;
    [garbage] are the uninitialised next pointers. *)
Definition initial (garbage : Z -> option Z) : st :=
  St garbage (fun _ => false) (fun _ => true) None None [].

(** scheduler.hpp.in:51-57 — runLast(). *)
Definition runLast (task : Z) (s : st) : option st :=
  do l <- last s;
  let n1 := fupd (next s) task (next s l) in
  let n2 := fupd n1 l (Some task) in
  Some (St n2 (attached s) (fresh s) (Some task) (current s) (log s)).

(** scheduler.hpp.in:59-67 — removeCurrent(). *)
Definition removeCurrent (s : st) : option st :=
  do c <- current s;
  do s <- (if same (Some c) (last s)
           then Some (St (next s) (attached s) (fresh s) None (current s) (log s))
           else do l <- last s;
                Some (St (fupd (next s) l (next s c)) (attached s) (fresh s) (last s) (current s) (log s)));
  Some (St (fupd (next s) c None) (fupd (attached s) c false) (fresh s) (last s) (current s) (log s)).

(** scheduler.hpp.in:69-73 — empty(). *)
Definition empty (s : st) : bool := same (last s) None.

(** scheduler.hpp.in:75-81 — jump(): the context of the current task is saved,
    the one of the other continued. *)
Definition jump (other : option Z) (s : st) : option st :=
  do from <- current s;
  do o <- other;
  let f := fupd (fresh s) from false in
  Some (St (next s) (attached s) f (last s) (Some o) (log s ++ [(o, f o)])).

(** scheduler.hpp.in:83-91 — yield(); returning at once continues the caller. *)
Definition yield (s : st) : option st :=
  match current s with
  | None => Some s
  | Some c =>
      let n := next s c in
      if same n (Some c)
      then Some (St (next s) (attached s) (fresh s) (last s) (current s) (log s ++ [(c, false)]))
      else jump n (St (next s) (attached s) (fresh s) (current s) (current s) (log s))
  end.

(** scheduler.hpp.in:93-105 — unschedule(), called when the function of a fiber
    has returned (task.hpp:119-123 and 139-143); modm_context_end() goes back to
    the caller of start(). *)
Definition unschedule (s : st) : option st :=
  do c <- current s;
  let n := next s c in
  do s <- removeCurrent s;
  if empty s then Some (St (next s) (attached s) (fresh s) (last s) None (log s))
  else jump n s.

(** scheduler.hpp.in:107-118 — add(). *)
Definition add (task : Z) (s : st) : option st :=
  let s := St (next s) (fupd (attached s) task true) (fresh s) (last s) (current s) (log s) in
  match last s with
  | None => Some (St (fupd (next s) task (Some task)) (attached s) (fresh s) (Some task) (current s) (log s))
  | Some _ => runLast task s
  end.

(** scheduler.hpp.in:120-127 — start() of the scheduler, called by run(). *)
Definition start (s : st) : option (bool * st) :=
  if empty s then Some (false, s)
  else do l <- last s;
       do c <- next s l;
       Some (true, St (next s) (attached s) (fresh s) (last s) (Some c) (log s ++ [(c, fresh s c)])).

(** task.hpp:96-101 — isRunning(). *)
Definition isRunning (t : Z) (s : st) : bool := attached s t.

(** task.hpp:150-157 — Task::start(), also the end of the constructor with
    Start::Now (task.hpp:147). *)
Definition task_start (t : Z) (s : st) : option (bool * st) :=
  if isRunning t s then Some (false, s)
  else let s := St (next s) (attached s) (fupd (fresh s) t true) (last s) (current s) (log s) in
       do s <- add t s; Some (true, s).

(** What a fiber, or the program outside, can do (functions.hpp:40-44,
    task.hpp:119-157, scheduler.hpp.in:147-151). *)
Inductive op := Start (t : Z) | Yield | End | Run.
(** One operation (scheduler.hpp.in:83-151, task.hpp:150-157). *)
Definition exec1 (o : op) (s : st) : option st :=
  match o with
  | Start t => do r <- task_start t s; Some (snd r)
  | Yield => yield s
  | End => unschedule s
  | Run => do r <- start s; Some (snd r)
  end.
(** A history of operations (scheduler.hpp.in:83-151, task.hpp:150-157). *)
Fixpoint exec (ops : list op) (s : st) : option st :=
  match ops with
  | [] => Some s
  | o :: ops => do s <- exec1 o s; exec ops s
  end.
