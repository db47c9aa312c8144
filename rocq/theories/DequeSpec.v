(* A sequence of at most N elements, front first. Independent of the ring buffer. *)
From Verif Require Import Base DequeModel.
Section Spec.
Context {A : Type}.
Variable N : Z.
(* None: removal from an empty sequence is not allowed (documented warning, deque.hpp:49-50) *)
Definition spec_step (l : list A) (o : @dop A) : option (list A * bool) :=
  match o with
  | DAppend v => if zlen l =? N then Some (l, false) else Some (l ++ [v], true)
  | DAppendOverwrite v => Some (if zlen l =? N then tl l ++ [v] else l ++ [v], true)
  | DPrepend v => if zlen l =? N then Some (l, false) else Some (v :: l, true)
  | DPrependOverwrite v => Some (if zlen l =? N then v :: removelast l else v :: l, true)
  | DRemoveFront => match l with [] => None | _ :: r => Some (r, true) end
  | DRemoveBack => match l with [] => None | _ => Some (removelast l, true) end
  | DClear => Some ([], true)
  end.
Fixpoint spec_run (l : list A) (os : list (@dop A)) : option (list A * list bool) :=
  match os with
  | [] => Some (l, [])
  | o :: r => do (l1, x) <- spec_step l o; do (l2, xs) <- spec_run l1 r; Some (l2, x :: xs)
  end.

(* FIFO: push at the end, pop at the front. LIFO: push and pop at the front. *)
Definition fifo_step (l : list A) (o : @aop A) : option (list A * @aobs A) :=
  match o with
  | APush v => if zlen l =? N then Some (l, BPushed false) else Some (l ++ [v], BPushed true)
  | APop => match l with [] => None | x :: r => Some (r, BPopped x) end
  end.
Definition lifo_step (l : list A) (o : @aop A) : option (list A * @aobs A) :=
  match o with
  | APush v => if zlen l =? N then Some (l, BPushed false) else Some (v :: l, BPushed true)
  | APop => match l with [] => None | x :: r => Some (r, BPopped x) end
  end.
Fixpoint spec_arun (step : list A -> @aop A -> option (list A * @aobs A)) (l : list A) (os : list (@aop A))
  : option (list A * list (@aobs A)) :=
  match os with
  | [] => Some (l, [])
  | o :: r => do (l1, x) <- step l o; do (l2, xs) <- spec_arun step l1 r; Some (l2, x :: xs)
  end.
End Spec.
