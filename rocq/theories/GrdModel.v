(* Model of the one-time construction of function statics, /repo/ext/gcc/cxxabi.cpp.in:28-70 (with_threadsafe_statics), called by any number of
   contexts: threads, fibers and interrupt handlers. Each load, store and exchange of the guard is atomic (std::atomic_ref). *)
From Verif Require Import Base.

(* cxxabi.cpp.in:33-38 *)
Definition UNINITIALIZED : Z := 0.
(* cxxabi.cpp.in:36 *)
Definition INITIALIZED : Z := 1.
(* cxxabi.cpp.in:37 *)
Definition INITIALIZING : Z := 256.

(* Where a context is in a call of the function with the static: the compiler's test of the guard before __cxa_guard_acquire (cxxabi.cpp.in:54: it
   expects (guard & 1) == 1 afterwards), the load (:44), the exchange (:46), inside the constructor, before __cxa_guard_release (:55), before
   __cxa_guard_abort (:63), after the declaration with the object in use, stopped by the assertion (:48), left by an exception. *)
Inductive pc := Test | AtLoad | AtExchange | Constructing | AtRelease | AtAbort | Using | Stopped | Thrown.
(* the guard, the contexts, how often the constructor has ended normally; cxxabi.cpp.in:41 *)
Record st := St { guard : Z; at_ : nat -> pc; built : Z }.
(* one context moves, cxxabi.cpp.in:41-69 *)
Definition move (f : nat -> pc) (i : nat) (p : pc) : nat -> pc := fun j => if Nat.eqb j i then p else f j.
(* one step of context i; throws: the constructor ends with an exception (only with the option with_exceptions). A call ends and the next begins with
   Using or Thrown -> Test. The assertion abandons execution, cxxabi.cpp.in:41-69 *)
Definition step1 (i : nat) (throws : bool) (s : st) : option st :=
  match at_ s i with
  | Test => Some (St (guard s) (move (at_ s) i (if Z.testbit (guard s) 0 then Using else AtLoad)) (built s))
  | AtLoad => Some (St (guard s) (move (at_ s) i (if guard s =? INITIALIZED then Using else AtExchange)) (built s))
  | AtExchange => Some (St INITIALIZING (move (at_ s) i (if guard s =? INITIALIZING then Stopped else Constructing)) (built s))
  | Constructing => Some (if throws then St (guard s) (move (at_ s) i AtAbort) (built s) else St (guard s) (move (at_ s) i AtRelease) (built s + 1))
  | AtRelease => Some (St INITIALIZED (move (at_ s) i Using) (built s))
  | AtAbort => Some (St UNINITIALIZED (move (at_ s) i Thrown) (built s))
  | Using | Thrown => Some (St (guard s) (move (at_ s) i Test) (built s))
  | Stopped => None
  end.
(* the guard is zero-initialised, cxxabi.cpp.in:35 *)
Definition init : st := St UNINITIALIZED (fun _ => Test) 0.
