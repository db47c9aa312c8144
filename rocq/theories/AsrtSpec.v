(* The rules for assertions in /repo/src/modm/architecture/interface/assert.md. *)
From Verif Require Import Base AsrtModel.
(* which assertions resume if nobody decides *)
Definition resumes_by_default (m : macro) : Prop := m = ContinueIgnore \/ m = ContinueIgnoreDebug.
(* "at least one handler fails; otherwise any handler ignores; otherwise the type"; modm_assert always abandons *)
Definition abandons (m : macro) (answers : list abandonment) : Prop :=
  m = Assert \/ In Fail answers \/ (~ In Ignore answers /\ ~ resumes_by_default m).
Definition active (debug_build : bool) (m : macro) : Prop := debug_build = true \/ m = Assert \/ m = ContinueIgnore \/ m = ContinueFail.
