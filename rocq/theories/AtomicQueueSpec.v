(* Specification of a bounded FIFO shared by one producer and one consumer, independent of
   the ring buffer: it replays a trace of observations against a plain list. *)
From Verif Require Import Base AtomicQueueModel.

Section Spec.
Context {A : Type}.
Variable N : Z.

(* The values accepted and not yet popped, oldest first, and what was true at some moment
   since the pending push / isEmpty call began. *)
Record view := mkView { v_q : list A; v_wasFull : bool; v_wasEmpty : bool }.

Definition fullb (q : list A) : bool := zlen q =? N.
Definition emptyb (q : list A) : bool := zlen q =? 0.

(* The trace is legal and leads to the view. *)
Inductive legal : list (@event A) -> view -> Prop :=
| legal_nil : legal [] (mkView [] (fullb []) true)
| legal_pushcall tr w v : legal tr w ->
    legal (tr ++ [EPushCall v]) (mkView (v_q w) (fullb (v_q w)) (v_wasEmpty w))
| legal_accept tr w v : legal tr w ->
    zlen (v_q w) < N ->                              (* never more than N stored *)
    legal (tr ++ [EPushRet v true])
          (mkView (v_q w ++ [v]) (fullb (v_q w ++ [v])) (v_wasEmpty w))
| legal_refuse tr w v : legal tr w ->
    v_wasFull w = true ->                            (* refused only if N were stored during the call *)
    legal (tr ++ [EPushRet v false]) w
| legal_emptycall tr w : legal tr w ->
    legal (tr ++ [EEmptyCall]) (mkView (v_q w) (v_wasFull w) (emptyb (v_q w)))
| legal_isempty tr w : legal tr w ->
    v_wasEmpty w = true ->                           (* reported empty only if it was during the call *)
    legal (tr ++ [EEmptyRet true]) w
| legal_isnotempty tr w : legal tr w ->
    v_q w <> [] ->                                   (* reported non-empty: an element is there now *)
    legal (tr ++ [EEmptyRet false]) w
| legal_got tr w x r : legal tr w ->
    v_q w = x :: r ->                                (* get delivers the oldest one *)
    legal (tr ++ [EGot (Some x)]) w
| legal_pop tr w x r : legal tr w ->
    v_q w = x :: r ->                                (* pop removes the oldest one *)
    legal (tr ++ [EPopped]) (mkView r (v_wasFull w) (emptyb r || v_wasEmpty w)).

(* Sequential specification: a list of at most N elements. Popping an empty queue has no
   specified result (None). *)
Definition seq_spec_step (q : list A) (o : @qop A) : option (list A * qobs) :=
  match o with
  | QPush v => if zlen q =? N then Some (q, OPushed false) else Some (q ++ [v], OPushed true)
  | QPop => match q with [] => None | _ :: r => Some (r, OPopped) end
  end.
Fixpoint seq_spec (q : list A) (os : list (@qop A)) : option (list A * list qobs) :=
  match os with
  | [] => Some (q, [])
  | o :: r => do (q1, x) <- seq_spec_step q o; do (q2, xs) <- seq_spec q1 r; Some (q2, x :: xs)
  end.


End Spec.
Arguments mkView {A}. Arguments v_q {A}. Arguments v_wasFull {A}. Arguments v_wasEmpty {A}.

(* Direct reading of a trace, used to state the prefix property. *)
Section Reading.
Context {A : Type}.
(* values for which push returned true, in order *)
Fixpoint accepted (tr : list (@event A)) : list A :=
  match tr with
  | [] => []
  | EPushRet v true :: r => v :: accepted r
  | _ :: r => accepted r
  end.
(* values the consumer obtained: for each pop, the value get() last delivered before it
   (None if get was not called since the previous pop) *)
Fixpoint taken_aux (cur : option (option A)) (tr : list (@event A)) : list (option (option A)) :=
  match tr with
  | [] => []
  | EGot x :: r => taken_aux (Some x) r
  | EPopped :: r => cur :: taken_aux None r
  | _ :: r => taken_aux cur r
  end.
Definition taken := taken_aux None.
(* every get since the last pop *)
End Reading.
