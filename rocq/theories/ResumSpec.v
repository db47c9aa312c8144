(** Specification for resumable functions: a machine with a call stack which
    executes the functions as if they were ordinary ones, and may pause. *)
From Coq Require Import ZArith List Bool Lia.
From Verif Require Import Base ResumModel.
Import ListNotations.
Open Scope Z_scope.

(** The call stack, innermost function first: function and next statement; below
    the top, the statement is the call which has not returned yet. *)
Definition stack := list (Z * Z).

(** Returning to the caller. *)
Definition return_to (c : stack) : stack :=
  match c with [] => [] | (f, k) :: r => (f, k + 1) :: r end.

(** One statement that does not pause.  A call beyond [L] functions is skipped. *)
Inductive step (L : Z) (P : list func) : stack -> event -> stack -> Prop :=
  | s_work f k r : stmt_at P f k = Some Work -> step L P ((f, k) :: r) (Ev f k true) ((f, k + 1) :: r)
  | s_wait f k r : stmt_at P f k = Some Wait -> step L P ((f, k) :: r) (Ev f k false) ((f, k + 1) :: r)
  | s_branch f k j (b : bool) r : stmt_at P f k = Some (Branch j) ->
      step L P ((f, k) :: r) (Ev f k b) ((f, if b then j else k + 1) :: r)
  | s_call f k g r : stmt_at P f k = Some (Call g) -> zlen ((f, k) :: r) < L ->
      step L P ((f, k) :: r) (Ev f k true) ((g, 0) :: (f, k) :: r)
  | s_too_deep f k g r : stmt_at P f k = Some (Call g) -> zlen ((f, k) :: r) = L ->
      step L P ((f, k) :: r) (Ev f k true) ((f, k + 1) :: r)
  | s_end f k r : (stmt_at P f k = None \/ stmt_at P f k = Some Return) ->
      step L P ((f, k) :: r) (Ev f k true) (return_to r).

(** One statement that pauses. *)
Inductive pause (P : list func) : stack -> event -> stack -> Prop :=
  | p_yield f k r : stmt_at P f k = Some Yield -> pause P ((f, k) :: r) (Ev f k true) ((f, k + 1) :: r)
  | p_wait f k r : stmt_at P f k = Some Wait -> pause P ((f, k) :: r) (Ev f k true) ((f, k) :: r).

Inductive steps (L : Z) (P : list func) : stack -> list event -> stack -> Prop :=
  | ss_nil c : steps L P c [] c
  | ss_cons c e c1 es c2 : step L P c e c1 -> steps L P c1 es c2 -> steps L P c (e :: es) c2.

(** Executing until the outermost function ends or a statement pauses. *)
Inductive slice (L : Z) (P : list func) (c : stack) : list event -> stack -> Prop :=
  | sl_end es : steps L P c es [] -> slice L P c es []
  | sl_pause es c1 e c2 : steps L P c es c1 -> pause P c1 e c2 -> slice L P c (es ++ [e]) c2.

(** Resuming evaluates the pending calls again, from the outermost inwards. *)
Definition again (c : stack) : list event := rev (map (fun x => Ev (fst x) (snd x) true) (tl c)).

(** The function which was called from outside. *)
Definition outermost (c : stack) : option Z := match rev c with [] => None | x :: _ => Some (fst x) end.

(** One call of function [f] from outside: its result, what is executed and the
    new stack. *)
Inductive call (L : Z) (P : list func) (f : Z) : stack -> Z -> list event -> stack -> Prop :=
  | c_start es c' : slice L P [(f, 0)] es c' ->
      call L P f [] (match c' with [] => rStop | _ => rRunning end) es c'
  | c_resume c es c' : outermost c = Some f -> slice L P c es c' ->
      call L P f c (match c' with [] => rStop | _ => rRunning end) (again c ++ es) c'
  | c_busy g c : outermost c = Some g -> g <> f -> call L P f c rWrongState [] c.

(** A sequence of uses. *)
Inductive history (L : Z) (P : list func) : list use -> stack -> list Z -> list event -> stack -> Prop :=
  | h_nil c : history L P [] c [] [] c
  | h_run f us c r es c1 rs es1 c2 : call L P f c r es c1 -> history L P us c1 rs es1 c2 ->
      history L P (Run f :: us) c (r :: rs) (es ++ es1) c2
  | h_stop us c rs es c2 : history L P us [] rs es c2 -> history L P (StopIt :: us) c rs es c2.

(** The functions are small enough for the static_assert of macros.hpp:170. *)
Definition small (P : list func) : Prop := Forall (fun x => 0 <= counter x /\ zlen (body x) <= 253) P.
(** A statement with a case label. *)
Definition labelled (P : list func) (f k : Z) : Prop :=
  match stmt_at P f k with Some Yield | Some Wait | Some (Call _) => True | _ => False end.
(** The counters of labels of different functions differ modulo 255; the label of
    RF_BEGIN comes just before that of the first statement. *)
Definition no_clash (P : list func) : Prop :=
  forall f g k j, 0 <= f < zlen P -> 0 <= g < zlen P -> f <> g -> labelled P f k -> (j = -1 \/ labelled P g j) ->
    (counter (fn P f) + k - (counter (fn P g) + j)) mod 255 <> 0.
(** The user calls functions of the object. *)
Definition inside (P : list func) (us : list use) : Prop :=
  Forall (fun u => match u with Run f => 0 <= f < zlen P | StopIt => True end) us.

(** *** Independent functions *)
Definition about (f : Z) (e : event) : bool :=
  match e with Ev g _ _ => g =? f | Halt g => g =? f end.

(** The part of the log about function [f] is an execution of it: [None] is a
    function which is not running, [Some k] one which continues at [k].  A
    function which ends or is stopped starts from its beginning. *)
Inductive follows (P : list func) (f : Z) : option Z -> list event -> option Z -> Prop :=
  | f_nil k : follows P f k [] k
  | f_begin (es : list event) k' : es <> [] -> (forall es' : list event, es <> Halt f :: es') -> follows P f (Some 0) es k' -> follows P f None es k'
  | f_work k es k' : stmt_at P f k = Some Work \/ stmt_at P f k = Some Yield ->
      follows P f (Some (k + 1)) es k' -> follows P f (Some k) (Ev f k true :: es) k'
  | f_wait k (b : bool) es k' : stmt_at P f k = Some Wait \/ (exists g, stmt_at P f k = Some (Call g)) ->
      follows P f (Some (if b then k else k + 1)) es k' -> follows P f (Some k) (Ev f k b :: es) k'
  | f_branch k j (b : bool) es k' : stmt_at P f k = Some (Branch j) ->
      follows P f (Some (if b then j else k + 1)) es k' -> follows P f (Some k) (Ev f k b :: es) k'
  | f_end k es k' : stmt_at P f k = None \/ stmt_at P f k = Some Return ->
      follows P f None es k' -> follows P f (Some k) (Ev f k true :: es) k'
  | f_halt o es k' : follows P f None es k' -> follows P f o (Halt f :: es) k'.

(** Calls stay inside the object and are not recursive. *)
Definition proper (P : list func) (rank : Z -> nat) : Prop :=
  forall f k g, stmt_at P f k = Some (Call g) -> 0 <= g < zlen P /\ (rank g < rank f)%nat.
