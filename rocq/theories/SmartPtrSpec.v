(* What shared handles are, independently of memory: every handle refers to an object, which lives as long as a handle refers
   to it. *)
From Coq Require Import ZArith List.
Import ListNotations.
Local Open Scope Z_scope.

(* handles in scope with the object each refers to; contents of the objects; number of objects created so far.
   A byte of an object is None until it is written. *)
Record shared := mkSh { sh_handles : list (Z * Z); sh_data : Z -> list (option Z); sh_next : Z }.

Fixpoint lookup (l : list (Z * Z)) (x : Z) : option Z :=
  match l with [] => None | (y, o) :: t => if Z.eqb y x then Some o else lookup t x end.
Fixpoint without (l : list (Z * Z)) (x : Z) : list (Z * Z) :=
  match l with [] => [] | (y, o) :: t => if Z.eqb y x then without t x else (y, o) :: without t x end.
(* number of handles of an object *)
Fixpoint handles (l : list (Z * Z)) (o : Z) : Z :=
  match l with [] => 0 | (_, q) :: t => (if Z.eqb q o then 1 else 0) + handles t o end.
Definition replaced (n : nat) (v : option Z) (l : list (option Z)) : list (option Z) := firstn n l ++ v :: skipn (S n) l.

Inductive pcall :=
| PNew (x : Z) | PNewSize (x n : Z) | PNewData (x : Z) (data : list Z) | PCopy (x y : Z) | PDelete (x : Z) | PAssign (x y : Z)
| PEqual (x y : Z) | PGetSize (x : Z) | PRead (x i : Z) | PWrite (x i v : Z) | PGet (x n : Z).
Inductive presult := PVoid | PBool (b : bool) | PNumber (n : Z) | PData (d : option (list (option Z))).

Section Spec.
Variable limit : Z.  (* largest object *)

Definition fresh_object (s : shared) (x : Z) (d : list (option Z)) : option (shared * presult) :=
  match lookup (sh_handles s) x with
  | Some _ => None
  | None => Some (mkSh ((x, sh_next s) :: sh_handles s) (fun o => if Z.eqb o (sh_next s) then d else sh_data s o) (sh_next s + 1), PVoid)
  end.
Definition on_object (s : shared) (x : Z) (f : Z -> option (shared * presult)) : option (shared * presult) :=
  match lookup (sh_handles s) x with Some o => f o | None => None end.
(* effect and answer of a call; None: not a sensible call *)
Definition shared_call (s : shared) (c : pcall) : option (shared * presult) :=
  match c with
  | PNew x => fresh_object s x []
  | PNewSize x n => if (Z.leb 0 n && Z.leb n limit)%bool then fresh_object s x (repeat None (Z.to_nat n)) else None
  | PNewData x d => if (Z.ltb 0 (Z.of_nat (length d)) && Z.leb (Z.of_nat (length d)) limit)%bool then fresh_object s x (map Some d) else None
  | PCopy x y => match lookup (sh_handles s) x with
                 | Some _ => None
                 | None => on_object s y (fun o => Some (mkSh ((x, o) :: sh_handles s) (sh_data s) (sh_next s), PVoid))
                 end
  | PDelete x => on_object s x (fun _ => Some (mkSh (without (sh_handles s) x) (sh_data s) (sh_next s), PVoid))
  | PAssign x y => on_object s x (fun _ => on_object s y (fun o => Some (mkSh ((x, o) :: without (sh_handles s) x) (sh_data s) (sh_next s), PVoid)))
  | PEqual x y => on_object s x (fun o => on_object s y (fun q => Some (s, PBool (Z.eqb o q))))
  | PGetSize x => on_object s x (fun o => Some (s, PNumber (Z.of_nat (length (sh_data s o)))))
  | PRead x i => on_object s x (fun o =>
      if Z.leb 0 i then match nth_error (sh_data s o) (Z.to_nat i) with Some (Some v) => Some (s, PNumber v) | _ => None end else None)
  | PWrite x i v => on_object s x (fun o =>
      if (Z.leb 0 i && Z.ltb i (Z.of_nat (length (sh_data s o))))%bool
      then Some (mkSh (sh_handles s) (fun q => if Z.eqb q o then replaced (Z.to_nat i) (Some v) (sh_data s o) else sh_data s q) (sh_next s), PVoid)
      else None)
  | PGet x n => on_object s x (fun o =>
      Some (s, PData (if Z.eqb n (Z.of_nat (length (sh_data s o))) then Some (sh_data s o) else None)))
  end.

(* the calls the code supports: an 8 bit count of handles, and assignment that lets go before it takes *)
Definition releasable (s : shared) (x : Z) : Prop :=
  forall o, lookup (sh_handles s) x = Some o -> handles (sh_handles s) o = 1 \/ handles (sh_handles s) o mod 256 <> 1.
Definition call_supported (s : shared) (c : pcall) : Prop :=
  match c with
  | PDelete x => releasable s x
  | PAssign x y => releasable s x /\ (x = y -> forall o, lookup (sh_handles s) x = Some o -> handles (sh_handles s) o <> 1)
  | _ => True
  end.

Fixpoint shared_calls (s : shared) (cs : list pcall) : option (shared * list presult) :=
  match cs with
  | [] => Some (s, [])
  | c :: cs => match shared_call s c with
               | Some (s, r) => match shared_calls s cs with Some (s, rs) => Some (s, r :: rs) | None => None end
               | None => None
               end
  end.
Fixpoint calls_supported (s : shared) (cs : list pcall) : Prop :=
  match cs with
  | [] => True
  | c :: cs => call_supported s c /\ forall s' r, shared_call s c = Some (s', r) -> calls_supported s' cs
  end.
Definition shared0 : shared := mkSh [] (fun _ => []) 0.
End Spec.
