(* Executions of contexts that call a function with a static object. *)
From Verif Require Import Base GrdModel.
(* any context moves at any time, until an assertion has failed *)
Inductive runs : st -> Prop :=
| r_init : runs init
| r_step s i t s' : runs s -> (forall j, at_ s j <> Stopped) -> step1 i t s = Some s' -> runs s'.
(* the same, but no context is interrupted by another one between its load and its exchange of the guard *)
Inductive runs_windowless : st -> Prop :=
| w_init : runs_windowless init
| w_step s i t s' : runs_windowless s -> (forall j, at_ s j <> Stopped) -> (forall j, at_ s j = AtExchange -> j = i) -> step1 i t s = Some s' -> runs_windowless s'.
Definition busy (p : pc) : Prop := p = Constructing \/ p = AtRelease \/ p = AtAbort.
(* A schedule in which contexts interrupt each other as handlers do: the running context is the last one that started and has not yet reached the
   use of the object. stack: interrupted contexts, running one first. *)
Fixpoint nested (l : list nat) (stack : list nat) (s : st) : bool :=
  match l with
  | [] => true
  | i :: l =>
    let resumes := match stack with j :: _ => Nat.eqb i j | [] => false end in
    let enters := negb (existsb (Nat.eqb i) stack) && (match at_ s i with Test => true | _ => false end) in
    (resumes || enters) &&
    match step1 i false s with
    | None => false
    | Some s' => nested l (let st := if resumes then tl stack else stack in match at_ s' i with Using => st | _ => i :: st end) s'
    end
  end.
