(* What a list container is, independently of nodes and pointers: a sequence of elements, each with its value and its identity
   (what an iterator on it denotes). 0 is the identity of no element: the end iterator. *)
From Coq Require Import ZArith List.
Import ListNotations.
Local Open Scope Z_scope.

Section Spec.
Context {V : Type}.

(* calls; an adding call also tells the identity of the new element *)
Inductive call :=
| CPrepend (p : Z) (v : V) | CAppend (p : Z) (v : V) | CInsert (pos p : Z) (v : V)
| CRemoveFront | CRemoveBack | CRemove (pos : Z) | CRemoveAll
| CGetFront | CGetBack | CIsEmpty | CGetSize | CIterate
| CBegin | CInc (pos : Z) | CDec (pos : Z) | CDeref (pos : Z).
Inductive answer :=
| AVoid | ABool (b : bool) | AIter (p : Z) | AVal (v : V) | ASize (n : Z) | AValues (l : list V).

Definition ids (l : list (Z * V)) : list Z := map fst l.
Definition values (l : list (Z * V)) : list V := map snd l.
Definition fresh (p : Z) (l : list (Z * V)) : Prop := p <> 0 /\ ~ In p (ids l).
(* identity of the first and of the last element *)
Definition first (l : list (Z * V)) : Z := hd 0 (ids l).
Definition final (l : list (Z * V)) : Z := last (ids l) 0.

(* what both lists do: the sequence before, the call, its answer, the sequence after *)
Inductive common : list (Z * V) -> call -> answer -> list (Z * V) -> Prop :=
| c_prepend l p v : fresh p l -> common l (CPrepend p v) (ABool true) ((p, v) :: l)
| c_removeFront q w l : common ((q, w) :: l) CRemoveFront AVoid l
| c_getFront q w l : common ((q, w) :: l) CGetFront (AVal w) ((q, w) :: l)
| c_getBack q w l : common (l ++ [(q, w)]) CGetBack (AVal w) (l ++ [(q, w)])
| c_isEmpty_nil : common [] CIsEmpty (ABool true) []
| c_isEmpty_cons q w l : common ((q, w) :: l) CIsEmpty (ABool false) ((q, w) :: l)
| c_getSize l : common l CGetSize (ASize (Z.of_nat (length l))) l
| c_iterate l : common l CIterate (AValues (values l)) l
| c_begin l : common l CBegin (AIter (first l)) l
| c_inc l1 q w l2 : common (l1 ++ (q, w) :: l2) (CInc q) (AIter (first l2)) (l1 ++ (q, w) :: l2)
| c_deref l1 q w l2 : common (l1 ++ (q, w) :: l2) (CDeref q) (AVal w) (l1 ++ (q, w) :: l2)
(* removal at a position answers the position of the element that followed, the end iterator if there is none *)
| c_remove l1 q w l2 : common (l1 ++ (q, w) :: l2) (CRemove q) (AIter (first l2)) (l1 ++ l2).

(* singly linked list: insertion puts the new element behind the given position, at the back for the end iterator; removal of
   an iterator that denotes no element leaves the list alone *)
Inductive single : list (Z * V) -> call -> answer -> list (Z * V) -> Prop :=
| s_common l c a l' : common l c a l' -> single l c a l'
| s_append l p v : fresh p l -> single l (CAppend p v) (ABool true) (l ++ [(p, v)])
| s_insert_end l p v : fresh p l -> single l (CInsert 0 p v) (ABool true) (l ++ [(p, v)])
| s_insert l1 q w l2 p v : fresh p (l1 ++ (q, w) :: l2) ->
    single (l1 ++ (q, w) :: l2) (CInsert q p v) (ABool true) (l1 ++ (q, w) :: (p, v) :: l2)
| s_removeAll l : single l CRemoveAll AVoid []
| s_remove_none l pos : ~ In pos (ids l) -> single l (CRemove pos) (AIter (match l with [] => 0 | _ => pos end)) l.

(* doubly linked list *)
Inductive double : list (Z * V) -> call -> answer -> list (Z * V) -> Prop :=
| d_common l c a l' : common l c a l' -> double l c a l'
| d_append l p v : fresh p l -> double l (CAppend p v) AVoid (l ++ [(p, v)])
| d_removeBack q w l : double (l ++ [(q, w)]) CRemoveBack AVoid l
| d_dec l1 q w l2 : double (l1 ++ (q, w) :: l2) (CDec q) (AIter (final l1)) (l1 ++ (q, w) :: l2).

(* a sequence of calls *)
Inductive calls (step : list (Z * V) -> call -> answer -> list (Z * V) -> Prop) :
  list (Z * V) -> list call -> list answer -> list (Z * V) -> Prop :=
| calls_nil l : calls step l [] [] l
| calls_cons l c a l1 cs ans l2 : step l c a l1 -> calls step l1 cs ans l2 -> calls step l (c :: cs) (a :: ans) l2.

End Spec.
Arguments call : clear implicits.
Arguments answer : clear implicits.
