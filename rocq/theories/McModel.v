(* Model of the critical sections on the two cores of the RP2040: /repo/src/modm/platform/core/rp/multicore.hpp.in (called multicore.hpp) and
   /repo/src/modm/platform/core/cortex/atomic_lock_impl.hpp.in with the option with_multicore. All of them use the hardware spin lock 0.
   Interrupts come between any two instructions of a core whose PRIMASK is clear. *)
From Verif Require Import Base.

(* one read of the spin lock register, which takes the lock if it is free (multicore.hpp:96), its release (:103), reading PRIMASK, disabling interrupts,
   writing PRIMASK back (atomic_lock_impl.hpp.in:34,36,42; multicore.hpp:126,127,134); Work is any other instruction *)
Inductive instr := Take | Release | Save | Disable | Restore | Work.
(* Lock: a block with a modm::atomic::Lock (atomic_lock_impl.hpp.in:27-47); Guard: one with a SystemSpinLockGuard (multicore.hpp:155-168) *)
Inductive stmt := Other | Lock (body : list stmt) | Guard (body : list stmt).
(* The base class CoreLock of Lock (multicore.hpp:109-113) is constructed before its member cpsr and its body, and destroyed after the body of ~Lock;
   SpinLockBlocking (multicore.hpp:124-135) does it the other way round. *)
Fixpoint stmt_code (s : stmt) : list instr :=
  match s with
  | Other => [Work]
  | Lock body => [Take; Save; Disable] ++ flat_map stmt_code body ++ [Restore; Release]
  | Guard body => [Save; Disable; Take] ++ flat_map stmt_code body ++ [Release; Restore]
  end.
(* a program, atomic_lock_impl.hpp.in:27-47 *)
Definition prog_code (p : list stmt) : list instr := flat_map stmt_code p.

(* main program or handler: remaining instructions, saved PRIMASKs (atomic_lock_impl.hpp.in:46, multicore.hpp:160), how often it holds the spin lock *)
Record frame := Fr { code : list instr; saved : list bool; holds : nat }.
(* running handler first; atomic_lock_impl.hpp.in:34-42 *)
Record core := Core { mask : bool; frames : list frame }.
(* whether the spin lock is taken; the two cores; multicore.hpp:76-105 *)
Record st := St { taken : bool; core0 : core; core1 : core }.
(* multicore.hpp:204-210 *)
Definition get (c : bool) (s : st) : core := if c then core1 s else core0 s.
(* one core moves, multicore.hpp:204-210 *)
Definition put (c : bool) (x : core) (t : bool) (s : st) : st := if c then St t (core0 s) x else St t x (core1 s).
(* one instruction of the frame on top of core c; Take repeats itself while the lock is taken (multicore.hpp:96); atomic_lock_impl.hpp.in:33-43, multicore.hpp:93-136 *)
Definition exec (c : bool) (f : frame) (rest : list frame) (s : st) : option st :=
  let m := mask (get c s) in
  match code f with
  | [] => None
  | i :: k =>
    match i with
    | Take => if taken s then Some s else Some (put c (Core m (Fr k (saved f) (S (holds f)) :: rest)) true s)
    | Release => Some (put c (Core m (Fr k (saved f) (pred (holds f)) :: rest)) false s)
    | Save => Some (put c (Core m (Fr k (m :: saved f) (holds f) :: rest)) (taken s) s)
    | Disable => Some (put c (Core true (Fr k (saved f) (holds f) :: rest)) (taken s) s)
    | Restore => match saved f with [] => None | b :: l => Some (put c (Core b (Fr k l (holds f) :: rest)) (taken s) s) end
    | Work => Some (put c (Core m (Fr k (saved f) (holds f) :: rest)) (taken s) s)
    end
  end.
