(** Model of modm::inplace_any (/repo/src/modm/utils/inplace_any.hpp).

    Memory is a map from addresses to inplace_any objects ([None]: no such object
    is alive there).  The contained objects have an identity, which is used by
    the ledger of constructor and destructor calls; a type is a number and also
    stands for the address of its handler function (line 79-83: one function per
    type).  [mf t v] is the value a move constructor of type [t] leaves in an
    object of value [v]; a copied or moved-to object has the source's value.
    Sizes are checked at compile time (static_asserts of lines 364-438) and not
    modelled.  Constructors do not throw.  [None] as a result: undefined
    behaviour, or a failed modm_assert. *)
From Coq Require Import ZArith List Bool Lia.
From Verif Require Import Base.
Import ListNotations.
Open Scope Z_scope.

(** An object living in the storage of inplace_any.hpp:210. *)
Record obj := Obj { oid : Z; oty : Z; oval : Z }.
(** inplace_any.hpp:209-211 — storage_ and handler_. *)
Record any := Any { storage : option obj; handler : option Z }.
(** Constructor and destructor calls (inplace_any.hpp:519 and 527). *)
Inductive event := Ctor (id : Z) | Dtor (id : Z).
(** The memory with all inplace_any objects (inplace_any.hpp:102-212), the next
    object identity and the ledger. *)
Record st := St { cells : Z -> option any; fresh : Z; log : list event }.

(** Writing one member of the object of inplace_any.hpp:209-211 at [i]. *)
Definition put (s : st) (i : Z) (a : option any) : st :=
  St (fun k => if k =? i then a else cells s k) (fresh s) (log s).

(** inplace_any.hpp:505-521, default case — the handler of type [t] with
    Action::Destruct: the destructor of [t] on the object in the storage of [i];
    the handler pointer is not touched. *)
Definition act_destruct (t i : Z) (s : st) : option st :=
  do a <- cells s i;
  do o <- storage a;
  if oty o =? t then
    Some (St (cells (put s i (Some (Any None (handler a))))) (fresh s)
             (log s ++ [Dtor (oid o)]))
  else None.

(** The assignment handler_ = nullptr (inplace_any.hpp:479, 537, 548). *)
Definition clear_handler (i : Z) (s : st) : option st :=
  do a <- cells s i;
  Some (put s i (Some (Any (storage a) None))).

(** inplace_any.hpp:523-529 — placement new and setting the handler.  An object
    already living in the storage would be overwritten. *)
Definition h_construct (t v i : Z) (s : st) : option st :=
  do _ <- cells s i;
  Some (St (cells (put s i (Some (Any (Some (Obj (fresh s) t v)) (Some t)))))
           (fresh s + 1) (log s ++ [Ctor (fresh s)])).

(** inplace_any.hpp:531-540 and 542-551, the common beginning: an object in the
    target is destroyed. *)
Definition drop_target (dst : Z) (s : st) : option st :=
  do d <- cells s dst;
  match handler d with
  | Some t' => do s <- act_destruct t' dst s; clear_handler dst s
  | None => Some s
  end.

(** inplace_any.hpp:542-551 — copy. *)
Definition act_copy (t src dst : Z) (s : st) : option st :=
  do s <- drop_target dst s;
  do a <- cells s src;
  do o <- storage a;
  if oty o =? t then h_construct t (oval o) dst s else None.

(** inplace_any.hpp:531-540 — move: the source object stays alive with the
    value its move constructor leaves. *)
Definition act_move (mf : Z -> Z -> Z) (t src dst : Z) (s : st) : option st :=
  do s <- drop_target dst s;
  do a <- cells s src;
  do o <- storage a;
  if oty o =? t then
    do s <- h_construct t (oval o) dst s;
    do a <- cells s src;
    Some (put s src (Some (Any (Some (Obj (oid o) t (mf t (oval o)))) (handler a))))
  else None.

(** inplace_any.hpp:473-481 — destruct(). *)
Definition destruct (i : Z) (s : st) : option st :=
  do a <- cells s i;
  match handler a with
  | Some t => do s <- act_destruct t i s; clear_handler i s
  | None => Some s
  end.

(** inplace_any.hpp:452-461 — copy_from. *)
Definition copy_from (i j : Z) (s : st) : option st :=
  do b <- cells s j;
  match handler b with Some t => act_copy t j i s | None => Some s end.

(** inplace_any.hpp:463-471 — move_from. *)
Definition move_from (mf : Z -> Z -> Z) (i j : Z) (s : st) : option st :=
  do b <- cells s j;
  match handler b with Some t => act_move mf t j i s | None => Some s end.

(** inplace_any.hpp:107 and 210-211 — the default constructor at the unused
    address [i]. *)
Definition create (i : Z) (s : st) : option st :=
  match cells s i with
  | None => Some (put s i (Some (Any None None)))
  | Some _ => None
  end.

(** inplace_any.hpp:327-331 and 360-366 — copy constructors. *)
Definition create_copy (i j : Z) (s : st) : option st :=
  do s <- create i s; copy_from i j s.
(** inplace_any.hpp:333-337 and 368-374 — move constructors. *)
Definition create_move (mf : Z -> Z -> Z) (i j : Z) (s : st) : option st :=
  do s <- create i s; move_from mf i j s.
(** inplace_any.hpp:403-419 — in-place and value constructors. *)
Definition create_value (i t v : Z) (s : st) : option st :=
  do s <- create i s; h_construct t v i s.
(** inplace_any.hpp:397-401 — destructor; the address is free afterwards. *)
Definition destroy (i : Z) (s : st) : option st :=
  do s <- destruct i s; Some (put s i None).

(** inplace_any.hpp:339-347 — copy assignment. *)
Definition copy_assign (i j : Z) (s : st) : option st :=
  if i =? j then (do _ <- cells s i; Some s)
  else do s <- destruct i s; copy_from i j s.
(** inplace_any.hpp:349-358 — move assignment. *)
Definition move_assign (mf : Z -> Z -> Z) (i j : Z) (s : st) : option st :=
  if i =? j then (do _ <- cells s i; Some s)
  else do s <- destruct i s; move_from mf i j s.
(** inplace_any.hpp:376-384 — copy assignment from another size (an object of
    another type, never [i] itself). *)
Definition copy_assign_other (i j : Z) (s : st) : option st :=
  do s <- destruct i s; copy_from i j s.
(** inplace_any.hpp:386-395 — move assignment from another size. *)
Definition move_assign_other (mf : Z -> Z -> Z) (i j : Z) (s : st) : option st :=
  do s <- destruct i s; move_from mf i j s.

(** inplace_any.hpp:421-431 (value assignment) and 433-441 (emplace) with
    arguments outside of the object. *)
Definition assign_value (i t v : Z) (s : st) : option st :=
  do s <- destruct i s; h_construct t v i s.

(** inplace_any.hpp:308-319 — any_cast<T&>: a failed cast stops in
    modm_assert. *)
Definition any_cast_ref (t j : Z) (s : st) : option Z :=
  do b <- cells s j;
  match handler b with Some t' => if t' =? t then Some j else None | None => None end.

(** inplace_any.hpp:421-431 and 433-441 with the argument any_cast<T&>(other)
    (inplace_any.hpp:308-319): the reference is read by the constructor, after
    destruct(). *)
Definition assign_from (i j t : Z) (s : st) : option st :=
  do r <- any_cast_ref t j s;
  do s <- destruct i s;
  do b <- cells s r;
  do o <- storage b;
  h_construct t (oval o) i s.

(** inplace_any.hpp:167-168 — reset(). *)
Definition reset (i : Z) (s : st) : option st := destruct i s.

(** inplace_any.hpp:483-500 — swap; [tmp] is the unused address of the local
    variable of line 491, destroyed at the end of its block. *)
Definition swap (mf : Z -> Z -> Z) (i j tmp : Z) (s : st) : option st :=
  if i =? j then (do _ <- cells s i; Some s)
  else
    do a <- cells s i;
    do b <- cells s j;
    match handler a, handler b with
    | Some _, Some _ =>
        do s <- create tmp s;
        do s <- move_from mf tmp j s;
        do s <- move_from mf j i s;
        do s <- move_from mf i tmp s;
        destroy tmp s
    | Some _, None => move_from mf j i s
    | None, _ => move_from mf i j s
    end.

(** inplace_any.hpp:170-177 — has_value(). *)
Definition has_value (i : Z) (s : st) : option bool :=
  do a <- cells s i;
  Some (match handler a with Some _ => true | None => false end).

(** inplace_any.hpp:271-293 — any_cast<T>(&any): [Some None] is a null pointer,
    [Some (Some o)] a pointer to the object [o]; undefined if the storage holds
    no object of that type. *)
Definition any_cast_ptr (t i : Z) (s : st) : option (option obj) :=
  do a <- cells s i;
  match handler a with
  | Some t' =>
      if t' =? t then
        do o <- storage a;
        if oty o =? t then Some (Some o) else None
      else Some None
  | None => Some None
  end.

(** The operations of inplace_any.hpp:105-179 as one step. *)
Inductive op :=
| OCreate (i : Z) | OCreateCopy (i j : Z) | OCreateMove (i j : Z) | OCreateValue (i t v : Z)
| ODestroy (i : Z)
| OCopy (i j : Z) | OMove (i j : Z) | OCopyOther (i j : Z) | OMoveOther (i j : Z)
| OValue (i t v : Z) | OFrom (i j t : Z) | OReset (i : Z) | OSwap (i j tmp : Z).

(** inplace_any.hpp:105-179 — dispatch to the member functions above. *)
Definition exec (mf : Z -> Z -> Z) (o : op) (s : st) : option st :=
  match o with
  | OCreate i => create i s
  | OCreateCopy i j => create_copy i j s
  | OCreateMove i j => create_move mf i j s
  | OCreateValue i t v => create_value i t v s
  | ODestroy i => destroy i s
  | OCopy i j => copy_assign i j s
  | OMove i j => move_assign mf i j s
  | OCopyOther i j => copy_assign_other i j s
  | OMoveOther i j => move_assign_other mf i j s
  | OValue i t v => assign_value i t v s
  | OFrom i j t => assign_from i j t s
  | OReset i => reset i s
  | OSwap i j tmp => swap mf i j tmp s
  end.

(** A sequence of such operations (inplace_any.hpp:105-179). *)
Fixpoint run (mf : Z -> Z -> Z) (ops : list op) (s : st) : option st :=
  match ops with
  | [] => Some s
  | o :: ops => do s <- exec mf o s; run mf ops s
  end.

(** Before the first inplace_any (inplace_any.hpp:107) exists. *)
Definition start : st := St (fun _ => None) 0 [].
