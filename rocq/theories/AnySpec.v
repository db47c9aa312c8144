(** Specification vocabulary for inplace_any: what the user can observe, what the
    operations should do to it, and when the ledger of constructor and destructor
    calls is sound. *)
From Coq Require Import ZArith List Bool Lia.
From Verif Require Import Base AnyModel.
Import ListNotations.
Open Scope Z_scope.

(** What is at an address: nothing, an empty inplace_any, or one holding a value
    [v] of type [t]. *)
Inductive content := Nothing | Empty | Holds (t v : Z).

Definition contents (s : st) (i : Z) : content :=
  match cells s i with
  | None => Nothing
  | Some a => match storage a with None => Empty | Some o => Holds (oty o) (oval o) end
  end.

Definition exists_at (c : Z -> content) (i : Z) : Prop := c i <> Nothing.

(** When an operation is allowed: it uses existing inplace_any objects and
    creates new ones at unused addresses; the source of a value assignment is not
    the target's own content; different sizes mean different objects. *)
Definition legal (c : Z -> content) (o : op) : Prop :=
  match o with
  | OCreate i => c i = Nothing
  | OCreateCopy i j | OCreateMove i j => c i = Nothing /\ exists_at c j
  | OCreateValue i _ _ => c i = Nothing
  | ODestroy i | OReset i | OValue i _ _ => exists_at c i
  | OCopy i j | OMove i j => exists_at c i /\ exists_at c j
  | OCopyOther i j | OMoveOther i j => exists_at c i /\ exists_at c j /\ i <> j
  | OFrom i j t => exists_at c i /\ i <> j /\ exists v, c j = Holds t v
  | OSwap i j tmp => exists_at c i /\ exists_at c j /\ c tmp = Nothing
  end.

Definition upd (c : Z -> content) (i : Z) (x : content) : Z -> content :=
  fun k => if k =? i then x else c k.

(** The content left behind by a move. *)
Definition moved (mf : Z -> Z -> Z) (x : content) : content :=
  match x with Holds t v => Holds t (mf t v) | _ => x end.

(** The intended effect of every operation on the contents. *)
Definition effect (mf : Z -> Z -> Z) (o : op) (c : Z -> content) : Z -> content :=
  match o with
  | OCreate i => upd c i Empty
  | OCreateCopy i j => upd c i (c j)
  | OCreateMove i j => upd (upd c j (moved mf (c j))) i (c j)
  | OCreateValue i t v => upd c i (Holds t v)
  | ODestroy i => upd c i Nothing
  | OCopy i j | OCopyOther i j => upd c i (c j)
  | OMove i j | OMoveOther i j =>
      if i =? j then c else upd (upd c j (moved mf (c j))) i (c j)
  | OValue i t v => upd c i (Holds t v)
  | OFrom i j _ => upd c i (c j)
  | OReset i => upd c i Empty
  | OSwap i j _ => upd (upd c i (c j)) j (c i)
  end.

(** Swapping a holding and an empty object is the case where the code does not
    do what a swap should. *)
Definition lopsided (c : Z -> content) (o : op) : Prop :=
  match o with
  | OSwap i j _ => (c i = Empty /\ exists t v, c j = Holds t v) \/ (c j = Empty /\ exists t v, c i = Holds t v)
  | _ => False
  end.

(** The states reachable by allowed operations. *)
Inductive reach (mf : Z -> Z -> Z) : st -> Prop :=
| reach_start : reach mf start
| reach_step s o s' : reach mf s -> legal (contents s) o -> exec mf o s = Some s' -> reach mf s'.

(** The object [id] is alive inside the inplace_any at [i]. *)
Definition inside (s : st) (i id : Z) : Prop :=
  exists a o, cells s i = Some a /\ storage a = Some o /\ oid o = id.

Definition calls (l : list event) (e : event) : nat :=
  count_occ (fun x y : event => ltac:(decide equality; apply Z.eq_dec) : {x = y} + {x <> y}) l e.

(** Addresses an operation writes to. *)
Definition writes (o : op) (k : Z) : Prop :=
  match o with
  | OCreate i | OCreateCopy i _ | OCreateValue i _ _ | ODestroy i | OCopy i _ | OCopyOther i _
  | OValue i _ _ | OFrom i _ _ | OReset i => k = i
  | OCreateMove i j | OMove i j | OMoveOther i j => k = i \/ k = j
  | OSwap i j _ => k = i \/ k = j
  end.

(** Every operation of the sequence is allowed when its turn comes. *)
Fixpoint legal_run (mf : Z -> Z -> Z) (ops : list op) (s : st) : Prop :=
  match ops with
  | [] => True
  | o :: ops => legal (contents s) o /\ forall s', exec mf o s = Some s' -> legal_run mf ops s'
  end.
