(** Model of modm::pt::Semaphore and of protothreads using it
    (/repo/src/modm/processing/protothread/semaphore.hpp, protothread.hpp,
    macros.hpp).

    The run() function of a protothread is a list of statements; statement [k]
    stands in source line [base + k], which PT_YIELD and PT_WAIT_UNTIL store and
    use as case label.  One run() is executed with fuel ([None]: it does not
    return within the fuel).  Every executed statement is logged with the thread,
    its position and whether a condition held.  PT_SPAWN, PT_WAIT_THREAD and
    PT_CALL are not modelled, nor is a semaphore used from an interrupt. *)
From Coq Require Import ZArith List Bool Lia.
From Verif Require Import Base.
Import ListNotations.
Open Scope Z_scope.

(** Statements of run(): PT_WAIT_UNTIL(sem.acquire()) (macros.hpp:55-67),
    sem.release(), PT_YIELD() (macros.hpp:46-51), a jump of a loop, PT_EXIT()
    (macros.hpp:114-118) and PT_RESTART() (macros.hpp:106-110). *)
Inductive stmt := WaitAcquire | Release | PtYield | Goto (k : Z) | PtExit | PtRestart.
(** protothread.hpp:116-125 — ptState; the code of run() and its first line. *)
Record thread := Thread { code : list stmt; base : Z; ptState : Z }.
(** semaphore.hpp:117 — count; the threads and the log of executed statements. *)
Record st := St { count : Z; threads : list thread; log : list (Z * Z * bool) }.

(** protothread.hpp:119 — Invalid. *)
Definition Invalid : Z := 65535.
(** protothread.hpp:52-55 — a new protothread. *)
Definition new_thread (c : list stmt) (b : Z) : thread := Thread c b 0.
(** protothread.hpp:57-62 — restart(). *)
Definition restart (t : thread) : thread := Thread (code t) (base t) 0.
(** protothread.hpp:73-77 — stop(). *)
Definition stop (t : thread) : thread := Thread (code t) (base t) Invalid.
(** macros.hpp:48 and 57 — ptState = __LINE__ for statement [k]. *)
Definition set_line (t : thread) (k : Z) : thread := Thread (code t) (base t) (u16 (base t + k)).
(** protothread.hpp:85-89 — isRunning(). *)
Definition isRunning (t : thread) : bool := negb (ptState t =? Invalid).

(** semaphore.hpp:90-101 — acquire(). *)
Definition acquire (c : Z) : bool * Z := if 0 <? c then (true, u16 (c - 1)) else (false, c).
(** semaphore.hpp:110-114 — release(). *)
Definition release (c : Z) : Z := u16 (c + 1).

(** macros.hpp:28-30 and 38-42 — the switch: where run() starts; [None] is the
    default label. *)
Definition entry (t : thread) : option Z :=
  if ptState t =? 0 then Some 0
  else let k := ptState t - base t in
       match znth (code t) k with
       | Some WaitAcquire => Some k
       | Some PtYield => Some (k + 1)
       | _ => None
       end.

(** macros.hpp:38-118 — running thread [i] from statement [k]; result of run(),
    thread, count and log. *)
Fixpoint go (fuel : nat) (i k : Z) (t : thread) (c : Z) (l : list (Z * Z * bool))
  : option (bool * thread * Z * list (Z * Z * bool)) :=
  match fuel with
  | O => None
  | S fuel =>
      match znth (code t) k with
      | None => Some (false, stop t, c, l)                                    (* PT_END *)
      | Some WaitAcquire =>
          let t := set_line t k in
          let '(ok, c) := acquire c in
          if ok then go fuel i (k + 1) t c (l ++ [(i, k, true)])
          else Some (true, t, c, l ++ [(i, k, false)])
      | Some Release => go fuel i (k + 1) t (release c) (l ++ [(i, k, true)])
      | Some PtYield => Some (true, set_line t k, c, l ++ [(i, k, true)])
      | Some (Goto n) => go fuel i n t c (l ++ [(i, k, true)])
      | Some PtExit => Some (false, stop t, c, l ++ [(i, k, true)])
      | Some PtRestart => Some (true, restart t, c, l ++ [(i, k, true)])
      end
  end.

(** macros.hpp:28-42 — one call of run() of thread [i]. *)
Definition run (fuel : nat) (i : Z) (s : st) : option (bool * st) :=
  do t <- znth (threads s) i;
  match entry t with
  | None =>
      do ts <- zupd (threads s) i (stop t);
      Some (false, St (count s) ts (log s))
  | Some k =>
      do r <- go fuel i k t (count s) (log s);
      let '(b, t, c, l) := r in
      do ts <- zupd (threads s) i t;
      Some (b, St c ts l)
  end.

(** A main loop calling run() of the threads in any order (protothread.hpp:93-109). *)
Fixpoint polls (fuel : nat) (order : list Z) (s : st) : option st :=
  match order with
  | [] => Some s
  | i :: order => do r <- run fuel i s; polls fuel order (snd r)
  end.

(** semaphore.hpp:68-71 and protothread.hpp:52-55 — the start. *)
Definition initial (n : Z) (progs : list (list stmt * Z)) : st :=
  St n (map (fun p => new_thread (fst p) (snd p)) progs) [].
