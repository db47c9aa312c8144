(* What a program sees of inplace_function. *)
From Verif Require Import Base FnModel.

(* no inplace_function, an empty one, or one with a callable of type t and value v *)
Inductive content := Nothing | Empty | Holds (t v : Z).
Definition contents (s : st) (i : Z) : content :=
  match vt s i with
  | None => Nothing
  | Some _ => match stor s i with None => Empty | Some o => Holds (oty o) (oval o) end
  end.

(* an address where nothing is *)
Definition unused (s : st) (i : Z) : Prop := vt s i = None /\ stor s i = None.
Definition exists_at (s : st) (i : Z) : Prop := contents s i <> Nothing.

(* Existing objects are used and new ones and temporaries are made at unused addresses; only functions that are not empty are called. *)
Definition legal (s : st) (o : op) : Prop :=
  match o with
  | Create i | Closure i _ _ => unused s i
  | Copy i j | Move i j | MoveOther i j => unused s i /\ exists_at s j
  | Destroy i | AssignNull i => exists_at s i
  | AssignCopy i j p | AssignMove i j p => exists_at s i /\ exists_at s j /\ unused s p
  | AssignMoveOther i j p => exists_at s i /\ exists_at s j /\ unused s p /\ i <> j
  | AssignClosure i _ _ p => exists_at s i /\ unused s p
  | Swap i j tmp => exists_at s i /\ exists_at s j /\ unused s tmp
  | Call i _ => exists t v, contents s i = Holds t v
  end.

Definition upd (c : Z -> content) (i : Z) (x : content) : Z -> content := fun k => if k =? i then x else c k.

(* the intended effects *)
Definition effect (run : Z -> Z -> Z -> Z * Z) (o : op) (c : Z -> content) : Z -> content :=
  match o with
  | Create i => upd c i Empty
  | Closure i t v => upd c i (Holds t v)
  | Copy i j => upd c i (c j)
  | Move i j | MoveOther i j => upd (upd c j Empty) i (c j)
  | Destroy i => upd c i Nothing
  | AssignNull i => upd c i Empty
  | AssignCopy i j _ => upd c i (c j)
  | AssignMove i j _ | AssignMoveOther i j _ => upd (upd c j Empty) i (c j)
  | AssignClosure i t v _ => upd c i (Holds t v)
  | Swap i j _ => upd (upd c i (c j)) j (c i)
  | Call i arg => match c i with Holds t v => upd c i (Holds t (snd (run t v arg))) | _ => c end
  end.

Inductive reach (run : Z -> Z -> Z -> Z * Z) : st -> Prop :=
| r_start : reach run start
| r_step s o s' : reach run s -> legal s o -> exec run o s = Some s' -> reach run s'.

(* the callable with that identity is alive at i *)
Definition inside (s : st) (i id : Z) : Prop := exists o, stor s i = Some o /\ oid o = id.
