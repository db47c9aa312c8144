(* Model of modm::inplace_function, /repo/src/modm/utils/inplace_function.hpp. A callable type is a number that also stands for its vtable
   (lines 179-180: one per type). Objects have an identity for the ledger of constructor and destructor calls. A copied or moved-to
   callable has the value of the source. Sizes are checked at compile time (lines 107-113, 171-177) and not modelled, exceptions neither.
   None is undefined behaviour or a failed modm_assert. *)
From Verif Require Import Base.

(* a callable object in a storage, inplace_function.hpp:304 *)
Record obj := Obj { oid : Z; oty : Z; oval : Z }.
(* constructor and destructor calls, inplace_function.hpp:78,82,83,87,182 *)
Inductive event := Ctor (id : Z) | Dtor (id : Z).
(* inplace_function.hpp:303-304: at each address the vtable pointer of the inplace_function there, if there is one (None inside: the empty
   vtable), and the callable in its storage; the next identity and the ledger *)
Record st := St { vt : Z -> option (option Z); stor : Z -> option obj; next : Z; log : list event }.

(* writing vtable_ptr_, inplace_function.hpp:154,180,202,230,238; creating or removing an inplace_function *)
Definition set_vt (s : st) (i : Z) (x : option (option Z)) : st := St (fun k => if k =? i then x else vt s k) (stor s) (next s) (log s).
(* placement new, inplace_function.hpp:78,82,182; an object in the storage would be overwritten *)
Definition new_at (t v i : Z) (s : st) : st := St (vt s) (fun k => if k =? i then Some (Obj (next s) t v) else stor s k) (next s + 1) (log s ++ [Ctor (next s)]).
(* the destructor call, inplace_function.hpp:83,87 *)
Definition del_at (t i : Z) (s : st) : option st :=
  do o <- stor s i;
  if oty o =? t then Some (St (vt s) (fun k => if k =? i then None else stor s k) (next s) (log s ++ [Dtor (oid o)])) else None.

(* copy_ptr of a vtable, inplace_function.hpp:66,77-79 *)
Definition copy_ptr (w : option Z) (dst src : Z) (s : st) : option st :=
  match w with
  | None => Some s
  | Some t => do o <- stor s src; if oty o =? t then Some (new_at t (oval o) dst s) else None
  end.
(* relocate_ptr, inplace_function.hpp:67,80-85; the value left in the source does not matter, it is destroyed *)
Definition relocate_ptr (w : option Z) (dst src : Z) (s : st) : option st :=
  match w with
  | None => Some s
  | Some t => do o <- stor s src; if oty o =? t then del_at t src (new_at t (oval o) dst s) else None
  end.
(* destructor_ptr, inplace_function.hpp:68,86-88 *)
Definition destructor_ptr (w : option Z) (i : Z) (s : st) : option st := match w with None => Some s | Some t => del_at t i s end.
(* invoke_ptr, inplace_function.hpp:63-65,72-76: run t v arg is the result of the callable and its value afterwards *)
Definition invoke_ptr (run : Z -> Z -> Z -> Z * Z) (w : option Z) (i arg : Z) (s : st) : option (st * Z) :=
  match w with
  | None => None
  | Some t =>
      do o <- stor s i;
      if oty o =? t then
        let (r, v) := run t (oval o) arg in
        Some (St (vt s) (fun k => if k =? i then Some (Obj (oid o) t v) else stor s k) (next s) (log s), r)
      else None
  end.

(* inplace_function.hpp:153-155,205-207 *)
Definition create (i : Z) (s : st) : option st := Some (set_vt s i (Some None)).
(* inplace_function.hpp:165-183 *)
Definition create_closure (i t v : Z) (s : st) : option st := Some (new_at t v i (set_vt s i (Some (Some t)))).
(* inplace_function.hpp:209-216, and 185-192 with 306-313 *)
Definition create_copy (i j : Z) (s : st) : option st := do w <- vt s j; copy_ptr w i j (set_vt s i (Some w)).
(* inplace_function.hpp:218-225 *)
Definition create_move (i j : Z) (s : st) : option st := do w <- vt s j; relocate_ptr w i j (set_vt (set_vt s j (Some None)) i (Some w)).
(* inplace_function.hpp:194-203 with 306-313: from another capacity *)
Definition create_move_other (i j : Z) (s : st) : option st := do w <- vt s j; do s <- relocate_ptr w i j (set_vt s i (Some w)); Some (set_vt s j (Some None)).
(* inplace_function.hpp:227-232 *)
Definition assign_null (i : Z) (s : st) : option st := do w <- vt s i; do s <- destructor_ptr w i s; Some (set_vt s i (Some None)).
(* inplace_function.hpp:246-249 *)
Definition destroy (i : Z) (s : st) : option st := do w <- vt s i; do s <- destructor_ptr w i s; Some (set_vt s i None).
(* the body of the assignment from the parameter p, inplace_function.hpp:234-244 *)
Definition assign (i p : Z) (s : st) : option st :=
  do w <- vt s i;
  do s <- destructor_ptr w i s;
  do w <- vt s p;
  relocate_ptr w i p (set_vt (set_vt s p (Some None)) i (Some w)).
(* inplace_function.hpp:274-295; tmp is the address of the local storage *)
Definition swap (i j tmp : Z) (s : st) : option st :=
  if i =? j then Some s
  else
    do w <- vt s i;
    do w' <- vt s j;
    do s <- relocate_ptr w tmp i s;
    do s <- relocate_ptr w' i j s;
    do s <- relocate_ptr w j tmp s;
    Some (set_vt (set_vt s i (Some w')) j (Some w)).
(* inplace_function.hpp:251-257 *)
Definition call (run : Z -> Z -> Z -> Z * Z) (i arg : Z) (s : st) : option (st * Z) := do w <- vt s i; invoke_ptr run w i arg s.
(* inplace_function.hpp:259-272 *)
Definition to_bool (i : Z) (s : st) : option bool := do w <- vt s i; Some (match w with None => false | Some _ => true end).

(* The operations of inplace_function.hpp:149-300. The parameter of an assignment is an inplace_function at p, made from the argument by the
   constructor and destroyed afterwards. *)
Inductive op :=
| Create (i : Z) | Closure (i t v : Z) | Copy (i j : Z) | Move (i j : Z) | MoveOther (i j : Z) | Destroy (i : Z)
| AssignNull (i : Z) | AssignCopy (i j p : Z) | AssignMove (i j p : Z) | AssignMoveOther (i j p : Z) | AssignClosure (i t v p : Z)
| Swap (i j tmp : Z) | Call (i arg : Z).
(* inplace_function.hpp:149-300 *)
Definition exec (run : Z -> Z -> Z -> Z * Z) (o : op) (s : st) : option st :=
  match o with
  | Create i => create i s
  | Closure i t v => create_closure i t v s
  | Copy i j => create_copy i j s
  | Move i j => create_move i j s
  | MoveOther i j => create_move_other i j s
  | Destroy i => destroy i s
  | AssignNull i => assign_null i s
  | AssignCopy i j p => do s <- create_copy p j s; do s <- assign i p s; destroy p s
  | AssignMove i j p => do s <- create_move p j s; do s <- assign i p s; destroy p s
  | AssignMoveOther i j p => do s <- create_move_other p j s; do s <- assign i p s; destroy p s
  | AssignClosure i t v p => do s <- create_closure p t v s; do s <- assign i p s; destroy p s
  | Swap i j tmp => swap i j tmp s
  | Call i arg => do x <- call run i arg s; Some (fst x)
  end.
(* before the first inplace_function exists, inplace_function.hpp:153 *)
Definition start : st := St (fun _ => None) (fun _ => None) 0 [].
