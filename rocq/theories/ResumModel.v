(** Model of modm::Resumable and modm::NestedResumable
    (/repo/src/modm/processing/resumable/resumable.hpp, nested_resumable.hpp.in,
    macros.hpp).

    A resumable function is a list of statements.  The condition of an
    RF_WAIT_WHILE or of a branch is decided by an arbitrary function of what was
    executed so far.  Every executed statement is logged: function, position and
    what a condition was.  Execution has fuel, because a function may loop for
    ever.  Results other than the state (macros.hpp:104, 133) are not modelled, nor
    are the fiber variants macros_fiber.hpp and resumable_fiber.hpp. *)
From Coq Require Import ZArith List Bool Lia.
From Verif Require Import Base.
Import ListNotations.
Open Scope Z_scope.

(** Statements of a resumable function: an ordinary one, RF_YIELD()
    (macros.hpp:74-75), RF_WAIT_WHILE() (macros.hpp:83-90), RF_CALL() of function
    [g] of the same object (macros.hpp:99-108), a conditional jump and RF_RETURN()
    (macros.hpp:172-177).  RF_RETURN_CALL() (macros.hpp:126-137) is RF_CALL()
    followed by RF_RETURN(). *)
Inductive stmt := Work | Yield | Wait | Call (g : Z) | Branch (k : Z) | Return.
(** macros.hpp:188 and 200 — the statements and rfCounter, the value of
    __COUNTER__ at the begin. *)
Record func := Func { body : list stmt; counter : Z }.
(** Function [f] of the object (macros.hpp:187-206). *)
Definition fn (P : list func) (f : Z) : func := match znth P f with Some x => x | None => Func [] 0 end.
(** The statement at position [k] (macros.hpp:187-206). *)
Definition stmt_at (P : list func) (f k : Z) : option stmt := znth (body (fn P f)) k.

(** What was executed: function, position, condition; or a forced stop of
    function [i] (resumable.hpp:129-137).  Not part of the code. *)
Inductive event := Ev (f k : Z) (b : bool) | Halt (i : Z).
(** resumable.hpp:269; nested_resumable.hpp.in:153-154 — rfStateArray, rfLevel
    ([rfLevel + 1] in the specialisation for one level,
    nested_resumable.hpp.in:242-243); and the log.  rfLevel counts from 0 to at
    most 255 and does not overflow. *)
Record st := St { level : Z; states : list Z; log : list event }.

(** resumable.hpp:29-41 — ResultState. *)
Definition rStop : Z := 0.
(** resumable.hpp:34 — NestingError. *)
Definition rNestingError : Z := 1.
(** resumable.hpp:37 — WrongState. *)
Definition rWrongState : Z := 127.
(** resumable.hpp:40 — Running. *)
Definition rRunning : Z := 255.
(** resumable.hpp:47 — Stopped. *)
Definition Stopped : Z := 0.

(** How a call ends: it returns a ResultState, it accesses memory outside
    rfStateArray (resumable.hpp:269, nested_resumable.hpp.in:154), or it has not
    returned within the fuel. *)
Inductive res := Done (r : Z) (s : st) | Undef | Fuel.

(** macros.hpp:153-156 — the case label of a counter value. *)
Definition number (c : Z) : Z := c mod 255 + 1.
(** macros.hpp:153-163 — the label of statement [k]: RF_BEGIN takes the counter
    values [counter] and [counter + 1]; here every statement takes one more, also
    those which have no label. *)
Definition label (P : list func) (f k : Z) : Z := number (counter (fn P f) + 2 + k).
(** macros.hpp:195-196 and 205-206 — the label set by RF_BEGIN. *)
Definition begin_label (P : list func) (f : Z) : Z := number (counter (fn P f) + 1).
(** macros.hpp:165-170 and 187-206 — the switch: the statement to continue with;
    [None] is the default label. *)
Definition entry (P : list func) (f x : Z) : option Z :=
  if x =? Stopped then Some 0
  else if x =? begin_label P f then Some 0
  else let k := (x - 1 - (counter (fn P f) + 2)) mod 255 in
       match stmt_at P f k with
       | Some Yield => Some (k + 1)
       | Some Wait | Some (Call _) => Some k
       | _ => None
       end.

(** Appending to the log; there is none in the code (macros.hpp:55-184). *)
Definition note (e : event) (s : st) : st := St (level s) (states s) (log s ++ [e]).
(** [rfStateArray[i] = x] (nested_resumable.hpp.in:107 and 115, resumable.hpp:226
    and 234); outside the array: undefined. *)
Definition put (i x : Z) (s : st) (k : st -> res) : res :=
  match zupd (states s) i x with Some l => k (St (level s) l (log s)) | None => Undef end.

(** *** modm::NestedResumable<L> *)
Section Nested.
(** nested_resumable.hpp.in:29 — Levels. *)
Variable L : Z.
(** nested_resumable.hpp.in:123 — the option check_nesting_depth. *)
Variable check : bool.
(** The conditions and the functions of the object (macros.hpp:83-90). *)
Variable cond : list event -> bool.
Variable P : list func.

(** nested_resumable.hpp.in:88-92; 188-193 for one level. *)
Definition pushRf (s : st) (k : Z -> st -> res) : res :=
  if L =? 1 then match znth (states s) 0 with Some x => k x (St 1 (states s) (log s)) | None => Undef end
  else match znth (states s) (level s) with Some x => k x (St (level s + 1) (states s) (log s)) | None => Undef end.
(** nested_resumable.hpp.in:96-100; 195-199 for one level. *)
Definition popRf (s : st) : st := St (if L =? 1 then 0 else level s - 1) (states s) (log s).
(** nested_resumable.hpp.in:112-116; 217-221 for one level. *)
Definition setRf (x : Z) (s : st) (k : st -> res) : res := put (if L =? 1 then 0 else level s - 1) x s k.
(** nested_resumable.hpp.in:104-108; 201-205 for one level. *)
Definition stopRf (s : st) (k : st -> res) : res := put (if L =? 1 then 0 else level s - 1) Stopped s k.
(** nested_resumable.hpp.in:120-129; 207-215 for one level: [rfLevel != 0]. *)
Definition nestingOkRf (s : st) : bool :=
  if check then (if L =? 1 then negb (level s - 1 =? 0) else level s <? L) else true.
(** nested_resumable.hpp.in:132-136; 223-227 for one level. *)
Definition isStoppedRf (s : st) : option bool :=
  do x <- znth (states s) (if L =? 1 then 0 else level s); Some (x =? Stopped).
(** nested_resumable.hpp.in:58-62 and 176-180. *)
Definition isResumableRunning (s : st) : option bool := do b <- isStoppedRf s; Some (negb b).
(** nested_resumable.hpp.in:65-69; 182-186 for one level. *)
Definition getResumableDepth (s : st) : Z := if L =? 1 then level s - 1 else swrap 8 (swrap 8 (level s) - 1).
(** nested_resumable.hpp.in:51-54 — the loop of stopResumable() from [i]. *)
Fixpoint stop_from (n : nat) (i : Z) (l : list Z) : option (list Z) :=
  match n with
  | O => Some l
  | S n => if i <? L then do l <- zupd l i Stopped; stop_from n (i + 1) l else Some l
  end.
(** nested_resumable.hpp.in:47-55; 170-174 for one level. *)
Definition stopResumable (s : st) : option st :=
  do l <- stop_from (Z.to_nat L) (if L =? 1 then 0 else level s) (states s);
  Some (St (level s) l (log s)).
(** nested_resumable.hpp.in:36-43; 164-167 for one level. *)
Definition nested_new : st := St 0 (repeat Stopped (Z.to_nat L)) [].

(** macros.hpp:187-196 and 165-170 — entering function [f]; [ex] executes it. *)
Definition enter (ex : Z -> Z -> st -> res) (f : Z) (s : st) : res :=
  if negb (nestingOkRf s) then Done rNestingError s
  else pushRf s (fun x s =>
    if x =? Stopped then setRf (begin_label P f) s (ex f 0)
    else match entry P f x with
         | Some k => ex f k s
         | None => Done rWrongState (popRf s)
         end).

(** macros.hpp:55-184 — executing function [f] from statement [k] on. *)
Fixpoint exec (fuel : nat) (f k : Z) (s : st) : res :=
  match fuel with
  | O => Fuel
  | S fuel =>
      match stmt_at P f k with
      | None | Some Return => stopRf (note (Ev f k true) s) (fun s => Done rStop (popRf s))
      | Some Work => exec fuel f (k + 1) (note (Ev f k true) s)
      | Some Yield => setRf (label P f k) (note (Ev f k true) s) (fun s => Done rRunning (popRf s))
      | Some Wait =>
          setRf (label P f k) s (fun s =>
            let b := cond (log s) in
            let s := note (Ev f k b) s in
            if b then Done rRunning (popRf s) else exec fuel f (k + 1) s)
      | Some (Branch j) =>
          let b := cond (log s) in
          exec fuel f (if b then j else k + 1) (note (Ev f k b) s)
      | Some (Call g) =>
          setRf (label P f k) (note (Ev f k true) s) (fun s =>
            match enter (exec fuel) g s with
            | Done r s => if rNestingError <? r then Done rRunning (popRf s) else exec fuel f (k + 1) s
            | Undef => Undef
            | Fuel => Fuel
            end)
      end
  end.

(** macros.hpp:187-196 — calling function [f] from outside. *)
Definition nested_run (fuel : nat) (f : Z) (s : st) : res := enter (exec fuel) f s.
End Nested.

(** What the user of a nested object does: calls one of its functions
    (macros.hpp:187-196) or stopResumable() (nested_resumable.hpp.in:47-55). *)
Inductive use := Run (f : Z) | StopIt.
(** A sequence of such uses, with the ResultStates of the calls
    (nested_resumable.hpp.in:47-55, macros.hpp:187-196). *)
Fixpoint nested_uses L check cond P (fuel : nat) (us : list use) (s : st) (rs : list Z) : option (st * list Z) :=
  match us with
  | [] => Some (s, rs)
  | Run f :: us =>
      match nested_run L check cond P fuel f s with
      | Done r s => nested_uses L check cond P fuel us s (rs ++ [r])
      | _ => None
      end
  | StopIt :: us => do s <- stopResumable L s; nested_uses L check cond P fuel us s rs
  end.

(** *** modm::Resumable<F>; the number of functions is the length of the array *)

(** resumable.hpp:119-126 and 111-114 — the constructor stops all functions. *)
Definition plain_new (F : Z) : st := St 0 (repeat Stopped (Z.to_nat F)) [].
(** resumable.hpp:119-126 — stopAllResumables(). *)
Definition stopAllResumables (s : st) : st :=
  St (level s) (map (fun _ => Stopped) (states s)) (log s ++ map (fun i => Halt (Z.of_nat i)) (seq 0 (length (states s)))).
(** resumable.hpp:129-137 — stopResumable(id). *)
Definition plain_stop (id : Z) (s : st) : option (bool * st) :=
  if id <? zlen (states s)
  then do l <- zupd (states s) id Stopped; Some (true, St (level s) l (log s ++ [Halt id]))
  else Some (false, s).
(** resumable.hpp:140-144 — isResumableRunning(id); the array is read only when
    the index is inside. *)
Definition plain_running (s : st) (id : Z) : option bool :=
  if id <? zlen (states s) then do x <- znth (states s) id; Some (negb (x =? Stopped)) else Some false.
(** resumable.hpp:147-155 — areAnyResumablesRunning(). *)
Definition areAny (s : st) : bool := existsb (fun x => negb (x =? Stopped)) (states s).
(** resumable.hpp:158-167 — areAnyResumablesRunning(ids). *)
Fixpoint areAnyOf (s : st) (ids : list Z) : option bool :=
  match ids with
  | [] => Some false
  | i :: ids => do b <- plain_running s i; if b : bool then Some true else areAnyOf s ids
  end.
(** resumable.hpp:170-180 — areAllResumablesRunning(ids). *)
Fixpoint areAllOf (s : st) (ids : list Z) : option bool :=
  match ids with
  | [] => Some true
  | i :: ids =>
      if zlen (states s) <=? i then Some false
      else do x <- znth (states s) i; if x =? Stopped then Some false else areAllOf s ids
  end.
(** resumable.hpp:184-188 — joinResumables(ids). *)
Definition join (s : st) (ids : list Z) : option bool := do b <- areAnyOf s ids; Some (negb b).

Section Plain.
(** The conditions and the functions of the object, function [f] using index [f]
    (macros.hpp:199-206). *)
Variable cond : list event -> bool.
Variable P : list func.

(** macros.hpp:199-206 and 165-170 — entering function [f]: pushRf()
    (resumable.hpp:209-213) reads its state. *)
Definition plain_enter (ex : Z -> Z -> st -> res) (f : Z) (s : st) : res :=
  match znth (states s) f with
  | None => Undef
  | Some x =>
      if x =? Stopped then put f (begin_label P f) s (ex f 0)
      else match entry P f x with
           | Some k => ex f k s
           | None => Done rWrongState s
           end
  end.

(** macros.hpp:55-184 with resumable.hpp:217-235 — executing function [f] from
    statement [k] on; a call is logged when it returns, with whether the called
    function goes on. *)
Fixpoint plain_exec (fuel : nat) (f k : Z) (s : st) : res :=
  match fuel with
  | O => Fuel
  | S fuel =>
      match stmt_at P f k with
      | None | Some Return => put f Stopped (note (Ev f k true) s) (fun s => Done rStop s)
      | Some Work => plain_exec fuel f (k + 1) (note (Ev f k true) s)
      | Some Yield => put f (label P f k) (note (Ev f k true) s) (fun s => Done rRunning s)
      | Some Wait =>
          put f (label P f k) s (fun s =>
            let b := cond (log s) in
            let s := note (Ev f k b) s in
            if b then Done rRunning s else plain_exec fuel f (k + 1) s)
      | Some (Branch j) =>
          let b := cond (log s) in
          plain_exec fuel f (if b then j else k + 1) (note (Ev f k b) s)
      | Some (Call g) =>
          put f (label P f k) s (fun s =>
            match plain_enter (plain_exec fuel) g s with
            | Done r s =>
                let b := rNestingError <? r in
                let s := note (Ev f k b) s in
                if b then Done rRunning s else plain_exec fuel f (k + 1) s
            | Undef => Undef
            | Fuel => Fuel
            end)
      end
  end.
(** macros.hpp:199-206 — calling function [f] from outside. *)
Definition plain_run (fuel : nat) (f : Z) (s : st) : res := plain_enter (plain_exec fuel) f s.
End Plain.

(** What the user of such an object does: calls function [f] (macros.hpp:199-206),
    stopResumable(i) (resumable.hpp:129-137) or stopAllResumables()
    (resumable.hpp:119-126). *)
Inductive puse := PRun (f : Z) | PStop (i : Z) | PStopAll.
(** A sequence of such uses (resumable.hpp:119-137, macros.hpp:199-206). *)
Fixpoint plain_uses cond P (fuel : nat) (us : list puse) (s : st) : option st :=
  match us with
  | [] => Some s
  | PRun f :: us => match plain_run cond P fuel f s with Done _ s => plain_uses cond P fuel us s | _ => None end
  | PStop i :: us => do r <- plain_stop i s; plain_uses cond P fuel us (snd r)
  | PStopAll :: us => plain_uses cond P fuel us (stopAllResumables s)
  end.
