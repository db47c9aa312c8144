(** Specification of the fiber scheduler: a queue of started fibers whose head
    has the processor.  The flag of a fiber says whether it has not run since its
    last start. *)
From Coq Require Import ZArith List Bool Lia.
From Verif Require Import FiberModel.
Import ListNotations.
Open Scope Z_scope.

Record abs := Abs { queue : list (Z * bool); active : bool; runs : list (Z * bool) }.
Definition nothing : abs := Abs [] false [].
Definition started (a : abs) (t : Z) : bool := existsb (fun e => fst e =? t) (queue a).

(** The head of the queue gets the processor. *)
Definition dispatch (q : list (Z * bool)) (r : list (Z * bool)) : abs :=
  match q with [] => Abs [] false r | e :: _ => Abs q true (r ++ [e]) end.

Definition astep (o : op) (a : abs) : abs :=
  match o with
  | Start t => if started a t then a else Abs (queue a ++ [(t, true)]) (active a) (runs a)
  | Yield => if active a then dispatch (tl (queue a) ++ map (fun e => (fst e, false)) (firstn 1 (queue a))) (runs a) else a
  | End => dispatch (tl (queue a)) (runs a)
  | Run => dispatch (queue a) (runs a)
  end.
Definition asteps (ops : list op) (a : abs) : abs := fold_left (fun a o => astep o a) ops a.

(** End is done by a running fiber, Run is not called from one. *)
Definition allowed (o : op) (a : abs) : Prop :=
  match o with Start _ | Yield => True | End => active a = true | Run => active a = false end.
Fixpoint all_allowed (ops : list op) (a : abs) : Prop :=
  match ops with [] => True | o :: ops => allowed o a /\ all_allowed ops (astep o a) end.
