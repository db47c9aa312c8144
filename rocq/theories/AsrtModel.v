(* Model of assertions: the macros of /repo/src/modm/architecture/interface/assert.h.in (called assert.h below), the types of assert.hpp.in and
   modm_assert_report in /repo/src/modm/platform/core/cortex/assert.cpp.in (called assert.cpp). The description is left out (it is only passed on). *)
From Verif Require Import Base.

(* assert.hpp.in:27-34 *)
Inductive abandonment := DontCare | Ignore | Fail | Debug.
(* the values of the enumeration, assert.hpp.in:30-33 *)
Definition bit (a : abandonment) : Z := match a with DontCare => 1 | Ignore => 2 | Fail => 4 | Debug => 128 end.
(* AssertionInfo without description, assert.hpp.in:39-48 *)
Record info := Info { name : Z; context : Z; behavior : Z }.
(* handlers in the linker table, each with a number; the answer may depend on the failed assertion; assert.hpp.in:51 *)
Definition handler : Type := (nat * (info -> abandonment))%type.
(* what the five macros expand to with MODM_DEBUG_BUILD, assert.h:84-96 *)
Inductive macro := Assert | ContinueIgnore | ContinueFail | ContinueIgnoreDebug | ContinueFailDebug.
(* assert.h:85,87,89,94,96 *)
Definition macro_behavior (m : macro) : Z :=
  match m with Assert => 4 | ContinueIgnore => 2 | ContinueFail => 1 | ContinueIgnoreDebug => 130 | ContinueFailDebug => 129 end.
(* whether the macro is one of those that only exist in debug builds, assert.h:91-105 *)
Definition debug_only (m : macro) : bool := match m with ContinueIgnoreDebug | ContinueFailDebug => true | _ => false end.

(* what happens: a handler is called, modm_abandon is called (execution then stops: reset, endless loop or abort, assert.cpp:76-83) *)
Inductive event := Called (h : nat) (i : info) | Abandoned (i : info).
(* the loop over the handlers, assert.cpp:61-69 *)
Fixpoint ask (hs : list handler) (i : info) (b : Z) : Z * list event :=
  match hs with
  | [] => (b, [])
  | (n, h) :: hs => let '(b', t) := ask hs i (Z.lor b (bit (h i))) in (b', Called n i :: t)
  end.
(* modm_assert_report; true: it returns; assert.cpp:56-85 *)
Definition report (hs : list handler) (i : info) : bool * list event :=
  let '(b, t) := ask hs i (behavior i) in
  let i' := Info (name i) (context i) b in
  let b' := Z.land b (255 - bit Debug) in
  if (b' =? bit DontCare) || negb (Z.land b' (bit Fail) =? 0) then (false, t ++ [Abandoned i']) else (true, t).

(* the statement expression: None is reaching __builtin_unreachable, Some None stopping, Some (Some v) the value *)
Definition outcome : Type := option (option bool). (* assert.h:61,63 *)
(* the macros; cond is the condition with its side effects on a state; assert.h:53-105 *)
Definition assertion {S} (debug_build : bool) (hs : list handler) (m : macro) (cond : S -> bool * S) (nm ctx : Z) (s : S) : outcome * S * list event :=
  let '(v, s') := cond s in
  if debug_only m && negb debug_build then (Some (Some v), s', [])
  else if v then (Some (Some true), s', [])
  else let '(returns, t) := report hs (Info nm ctx (macro_behavior m)) in
       if returns then (if negb (Z.land (macro_behavior m) 4 =? 0) then None else Some (Some false), s', t) else (Some None, s', t).
