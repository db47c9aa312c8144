(* Model of the critical sections of modm and of what is built on them, on a single Cortex-M core:
   /repo/src/modm/platform/core/cortex/atomic_lock_impl.hpp.in (without multicore), /repo/src/modm/architecture/driver/atomic/{container,flag}.hpp and
   /repo/ext/gcc/atomics_c11_cortex.cpp.in. The shared object consists of words of w bits, each read or written by one instruction;
   interrupts come between any two instructions. *)
From Verif Require Import Base.

(** *** The operations *)
(* the operators of atomic_fetch, atomics_c11_cortex.cpp.in:118 *)
Inductive alu := Add | Sub | And | Or | Xor | Nand.
(* the functions of atomics_c11_cortex.cpp.in: load :31-45, store :48-62, exchange :65-82, compare_exchange :85-114, fetch :117-127, op_fetch :128-135;
   Container::get, set, swap (container.hpp:81-93,120-129) are Load, Store, Exchange; Flag::testAndSet (flag.hpp:87-96) is Exchange *)
Inductive op := Load | Store (v : list Z) | Exchange (v : list Z) | CompareExchange (e d : list Z) | Fetch (k : alu) (v : list Z) | OpFetch (k : alu) (v : list Z).
(* nothing, a value, or success and *expected afterwards; atomics_c11_cortex.cpp.in:32,49,66,86 *)
Inductive answer := Done | Value (v : list Z) | Swapped (b : bool) (e : list Z).

Section Width.
  Variable w : Z.
  (* the number in the words, lowest first; the types of atomics_c11_cortex.cpp.in:25-28 *)
  Fixpoint join (l : list Z) : Z := match l with [] => 0 | x :: l => x + 2 ^ w * join l end.
  (* n words of a number, atomics_c11_cortex.cpp.in:25-28 *)
  Fixpoint split (n : nat) (x : Z) : list Z := match n with O => [] | S n => x mod 2 ^ w :: split n (x / 2 ^ w) end.
  (* {{prefix}}(previous {{op}} value) in the type of the object, atomics_c11_cortex.cpp.in:118-125,132 *)
  Definition calc (k : alu) (a b : list Z) : list Z :=
    let x := join a in let y := join b in
    split (length a) (match k with Add => x + y | Sub => x - y | And => Z.land x y | Or => Z.lor x y | Xor => Z.lxor x y | Nand => Z.lnot (Z.land x y) end).

  (* whether the object is read, atomics_c11_cortex.cpp.in:31-135 *)
  Definition reads (o : op) : bool := match o with Store _ => false | _ => true end.
  (* whether the object is written (compare_exchange decides later), atomics_c11_cortex.cpp.in:31-135 *)
  Definition writes (o : op) : bool := match o with Load => false | _ => true end.
  (* what is written after reading acc, atomics_c11_cortex.cpp.in:53,71,92-97,125,133 *)
  Definition newval (o : op) (acc : list Z) : option (list Z) :=
    match o with
    | Load => None
    | Store v | Exchange v => Some v
    | CompareExchange e d => if list_eq_dec Z.eq_dec acc e then Some d else None
    | Fetch k v | OpFetch k v => Some (calc k acc v)
    end.
  (* what is returned, atomics_c11_cortex.cpp.in:36,72,92-98,126,134 *)
  Definition result (o : op) (acc : list Z) : answer :=
    match o with
    | Load | Exchange _ | Fetch _ _ => Value acc
    | Store _ => Done
    | CompareExchange e _ => if list_eq_dec Z.eq_dec acc e then Swapped true e else Swapped false acc
    | OpFetch k v => Value (calc k acc v)
    end.

  (** *** Instructions *)
  (* reading PRIMASK in the constructor of Lock (true) or Unlock (false), setting it, and the destructor, atomic_lock_impl.hpp.in:27-66;
     reading and writing a word of the object; the last instruction of an operation before the destructor (no instruction of the machine) *)
  Inductive instr := Save (b : bool) | SetMask (b : bool) | Leave | Rd (i : nat) | Wr (o : op) (i : nat) | Commit (o : op).
  (* an operation on an object of n words: a Lock, the accesses, the destructor; atomics_c11_cortex.cpp.in:31-135, container.hpp:81-129, flag.hpp:87-96 *)
  Definition op_code (n : nat) (o : op) : list instr :=
    Save true :: SetMask true :: (if reads o then map Rd (seq 0 n) else []) ++ (if writes o then map (Wr o) (seq 0 n) else []) ++ [Commit o; Leave].
  (* programs: operations and blocks with a Lock or an Unlock, atomic_lock.hpp:26-69 *)
  Inductive stmt := Do (o : op) | Block (b : bool) (body : list stmt).
  (* atomic_lock_impl.hpp.in:27-66: a block starts with the constructor and ends with the destructor *)
  Fixpoint stmt_code (n : nat) (s : stmt) : list instr :=
    match s with
    | Do o => op_code n o
    | Block b body => Save b :: SetMask b :: flat_map (stmt_code n) body ++ [Leave]
    end.
  (* the same for a whole program, atomic_lock_impl.hpp.in:27-66 *)
  Definition prog_code (n : nat) (p : list stmt) : list instr := flat_map (stmt_code n) p.

  (** *** The core *)
  (* main program or interrupt handler: remaining instructions, words read by the current operation, the PRIMASK saved by each Lock (true) or
     Unlock (false) alive; atomic_lock_impl.hpp.in:46,65 *)
  Record frame := Fr { code : list instr; acc : list Z; scope : list (bool * bool) }.
  (* the object; PRIMASK; the running handler first, the main program last; operations done with their results.
     atomic_lock_impl.hpp.in:27-66 *)
  Record core := Core { mem : list Z; mask : bool; frames : list frame; log : list (op * answer) }.
  (* one instruction of the running handler, atomic_lock_impl.hpp.in:33-43,52-62 and the accesses of atomics_c11_cortex.cpp.in:31-135.
     None: an access outside the object. *)
  Definition exec (f : frame) (rest : list frame) (s : core) : option core :=
    match code f with
    | [] => None
    | i :: c =>
      match i with
      | Save b => Some (Core (mem s) (mask s) (Fr c (acc f) ((b, mask s) :: scope f) :: rest) (log s))
      | SetMask b => Some (Core (mem s) b (Fr c [] (scope f) :: rest) (log s))
      | Leave => match scope f with [] => None | (_, m) :: sc => Some (Core (mem s) m (Fr c [] sc :: rest) (log s)) end
      | Rd i => do x <- nth_error (mem s) i; Some (Core (mem s) (mask s) (Fr c (acc f ++ [x]) (scope f) :: rest) (log s))
      | Wr o i => match newval o (acc f) with
                  | None => Some (Core (mem s) (mask s) (Fr c (acc f) (scope f) :: rest) (log s))
                  | Some v => do x <- nth_error v i; do m <- zupd (mem s) (Z.of_nat i) x; Some (Core m (mask s) (Fr c (acc f) (scope f) :: rest) (log s))
                  end
      | Commit o => Some (Core (mem s) (mask s) (Fr c (acc f) (scope f) :: rest) (log s ++ [(o, result o (acc f))]))
      end
    end.
End Width.

(** *** Masking by priority *)
(* __set_BASEPRI_MAX: written only if it masks more; 0 is never written (reference manual of the core); atomic_lock_impl.hpp.in:82 *)
Definition set_basepri_max (old v : Z) : Z := if (negb (v =? 0)) && ((old =? 0) || (v <? old)) then v else old.
(* LockPriority, atomic_lock_impl.hpp.in:80-83; the register has eight bits *)
Definition lock_priority (prio_bits priority basepri : Z) : Z := set_basepri_max basepri (Z.land (u32 (Z.shiftl priority (8 - prio_bits))) 255).
