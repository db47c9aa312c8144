From Verif Require Import Base ButtonModel.

(* the debounced level of a key for its samples, newest first: it changes when the last four samples differ from it *)
Fixpoint level (h : list bool) : bool :=
  match h with
  | [] => false
  | x :: r =>
      let d := level r in
      match h with
      | a :: b :: c :: e :: _ => if Bool.eqb a (negb d) && Bool.eqb b (negb d) && Bool.eqb c (negb d) && Bool.eqb e (negb d) then negb d else d
      | _ => d
      end
  end.
(* the samples of key j in a list of inputs (a pressed key reads 0), newest first *)
Definition samples (j : Z) (ins : list Z) : list bool := map (fun v => negb (Z.testbit v j)) (rev ins).

(* calls of a button group *)
Inductive bcall := CUpdate (input : Z) | CPressed (mask : Z) | CReleased (mask : Z).
Definition bg_call (w repeatmask timeout interval : Z) (s : bgroup) (c : bcall) : bgroup * bool :=
  match c with
  | CUpdate v => (bg_update w repeatmask timeout interval s v, false)
  | CPressed m => bg_isPressed s m
  | CReleased m => bg_isReleased s m
  end.
Fixpoint bg_run (w repeatmask timeout interval : Z) (s : bgroup) (l : list bcall) : bgroup * list bool :=
  match l with [] => (s, []) | c :: r => let (s, x) := bg_call w repeatmask timeout interval s c in let (s, l) := bg_run w repeatmask timeout interval s r in (s, x :: l) end.
(* the inputs of the updates *)
Definition inputs (l : list bcall) : list Z := flat_map (fun c => match c with CUpdate v => [v] | _ => [] end) l.
(* how often the level becomes true, for samples newest first, the oldest ones old being given *)
Fixpoint presses (h old : list bool) : Z := match h with [] => 0 | x :: r => presses r old + (if negb (level (r ++ old)) && level (x :: r ++ old) then 1 else 0) end.
(* how often a query for this key alone answered true *)
Definition reports (j : Z) (l : list bcall) (answers : list bool) : Z := zlen (filter (fun p : bcall * bool => match fst p with CPressed m => (m =? 2 ^ j) && snd p | _ => false end) (combine l answers)).
