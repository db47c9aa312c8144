(* What growing arrays are, independently of memory: named sequences, each with a capacity. *)
From Coq Require Import ZArith List.
Import ListNotations.
Local Open Scope Z_scope.

Section Spec.
Context {V : Type}.
Variable eqb : V -> V -> bool.
Variable limit : Z.  (* an array that would need more elements than that is not possible *)

(* every variable that exists: its elements and its capacity *)
Definition arrays : Type := Z -> option (list V * Z).
Definition put (m : arrays) (x : Z) (o : option (list V * Z)) : arrays := fun y => if Z.eqb y x then o else m y.

Inductive acall :=
| ANew (x : Z) | ANewCapacity (x n : Z) | ANewFill (x n : Z) (v : V) | ANewList (x : Z) (vs : list V) | ACopy (x y : Z) | ADelete (x : Z)
| AAssign (x y : Z) | AReserve (x n : Z) | AClear (x : Z) | ARemoveAll (x : Z) | AAppend (x : Z) (v : V) | AAppendElement (x y i : Z)
| ARemoveBack (x : Z) | ASet (x i : Z) (v : V) | AGet (x i : Z) | AGetFront (x : Z) | AGetBack (x : Z) | AGetSize (x : Z)
| AGetCapacity (x : Z) | AIsEmpty (x : Z) | AFind (x : Z) (v : V) | AIterate (x : Z).
Inductive result := RVoid | RBool (b : bool) | RNumber (n : Z) | RValue (v : V) | RValues (l : list V).

Definition size (l : list V) : Z := Z.of_nat (length l).
Fixpoint replace_nth (n : nat) (v : V) (l : list V) : list V :=
  match l, n with
  | [], _ => []
  | _ :: t, O => v :: t
  | x :: t, S n => x :: replace_nth n v t
  end.
(* index of the first element equal to v, the size if there is none *)
Fixpoint index_of (v : V) (l : list V) : Z :=
  match l with
  | [] => 0
  | x :: t => if eqb x v then 0 else 1 + index_of v t
  end.
(* capacity after adding an element to n of them when the capacity is used up: half of them more, at least one *)
Definition grown (n : Z) : Z := Z.max 1 (n + (n + 1) / 2).

(* appending, as far as the limit allows *)
Definition added (m : arrays) (x : Z) (vs : list V) (c : Z) (v : V) : option (arrays * result) :=
  if Z.ltb (size vs) c then Some (put m x (Some (vs ++ [v], c)), RVoid)
  else if Z.leb (grown (size vs)) limit then Some (put m x (Some (vs ++ [v], grown (size vs))), RVoid) else None.

(* the effect and the answer of a call; None: not a sensible call *)
Definition arr_call (m : arrays) (c : acall) : option (arrays * result) :=
  match c with
  | ANew x => match m x with None => Some (put m x (Some ([], 0)), RVoid) | _ => None end
  | ANewCapacity x n =>
      match m x with None => if (Z.leb 0 n && Z.leb n limit)%bool then Some (put m x (Some ([], n)), RVoid) else None | _ => None end
  | ANewFill x n v =>
      match m x with None => if (Z.leb 0 n && Z.leb n limit)%bool then Some (put m x (Some (repeat v (Z.to_nat n), n)), RVoid) else None | _ => None end
  | ANewList x vs => match m x with None => if Z.leb (size vs) limit then Some (put m x (Some (vs, size vs)), RVoid) else None | _ => None end
  | ACopy x y => match m x, m y with None, Some a => Some (put m x (Some a), RVoid) | _, _ => None end
  | ADelete x => match m x with Some _ => Some (put m x None, RVoid) | None => None end
  | AAssign x y => match m x, m y with Some _, Some a => Some (put m x (Some a), RVoid) | _, _ => None end
  | AReserve x n =>
      match m x with
      | Some (vs, c) =>
          if (Z.leb 0 n && Z.leb (size vs + n) limit)%bool then Some (put m x (Some (vs, Z.max c (size vs + n))), RVoid) else None
      | None => None
      end
  | AClear x => match m x with Some _ => Some (put m x (Some ([], 0)), RVoid) | None => None end
  | ARemoveAll x => match m x with Some (vs, c) => Some (put m x (Some ([], c)), RVoid) | None => None end
  | AAppend x v => match m x with Some (vs, c) => added m x vs c v | None => None end
  | AAppendElement x y i =>
      match m x, m y with
      | Some (vs, c), Some (us, _) =>
          if Z.leb 0 i then match nth_error us (Z.to_nat i) with Some v => added m x vs c v | None => None end else None
      | _, _ => None
      end
  | ARemoveBack x => match m x with Some (v :: vs, c) => Some (put m x (Some (removelast (v :: vs), c)), RVoid) | _ => None end
  | ASet x i v =>
      match m x with
      | Some (vs, c) => if (Z.leb 0 i && Z.ltb i (size vs))%bool then Some (put m x (Some (replace_nth (Z.to_nat i) v vs, c)), RVoid) else None
      | None => None
      end
  | AGet x i =>
      match m x with
      | Some (vs, c) => if Z.leb 0 i then match nth_error vs (Z.to_nat i) with Some v => Some (m, RValue v) | None => None end else None
      | None => None
      end
  | AGetFront x => match m x with Some (v :: _, _) => Some (m, RValue v) | _ => None end
  | AGetBack x => match m x with Some (v :: vs, _) => Some (m, RValue (last vs v)) | _ => None end
  | AGetSize x => match m x with Some (vs, _) => Some (m, RNumber (size vs)) | None => None end
  | AGetCapacity x => match m x with Some (_, c) => Some (m, RNumber c) | None => None end
  | AIsEmpty x => match m x with Some (vs, _) => Some (m, RBool (match vs with [] => true | _ => false end)) | None => None end
  | AFind x v => match m x with Some (vs, _) => Some (m, RNumber (index_of v vs)) | None => None end
  | AIterate x => match m x with Some (vs, _) => Some (m, RValues vs) | None => None end
  end.

(* a sequence of calls *)
Fixpoint arr_calls (m : arrays) (cs : list acall) : option (arrays * list result) :=
  match cs with
  | [] => Some (m, [])
  | c :: cs =>
      match arr_call m c with
      | Some (m, r) => match arr_calls m cs with Some (m, rs) => Some (m, r :: rs) | None => None end
      | None => None
      end
  end.

(* the calls the code supports: no a = a with elements, no append of an element of the array itself when it has to grow *)
Definition supported (m : arrays) (c : acall) : Prop :=
  match c with
  | AAssign x y => x <> y \/ (exists c, m x = Some ([], c))
  | AAppendElement x y i => x <> y \/ (exists vs c, m x = Some (vs, c) /\ size vs < c)
  | _ => True
  end.
Fixpoint all_supported (m : arrays) (cs : list acall) : Prop :=
  match cs with
  | [] => True
  | c :: cs => supported m c /\ forall m' r, arr_call m c = Some (m', r) -> all_supported m' cs
  end.

End Spec.
Arguments acall : clear implicits.
Arguments arrays : clear implicits.
Arguments result : clear implicits.
