(** What is claimed about the SysTick clocks. *)
From Coq Require Import ZArith List Bool.
From Verif Require Import Base AlgoModel TickModel.
Import ListNotations.
Open Scope Z_scope.

(** Units of the clock per second. *)
Definition per_second (k : clock) : Z := match k with Milli => 1000 | Micro => 1000000 end.

(** How the environment behaves at each step: time does not run backwards; a
    context makes one call after the other; the handler only runs after the timer wrapped around; and when a call ends (or the
    1 kHz millisecond counter is read) the handler has run for every wrap-around up
    to the access to the timer: neither interrupts are disabled nor does the
    caller have the priority to keep the handler from running. *)
Definition fair (freq P : Z) (a : act) (s : state) : Prop :=
  match a with
  | Pass d => 0 <= d
  | Tick => (ticks s + 1) * P <= t s
  | Begin i k => pc (calls s i) = 0 /\ (k = Milli -> freq = 1000 -> t s / P <= ticks s)
  | Do i => pc (calls s i) = 3 -> when (calls s i) / P <= ticks s
  end.
Fixpoint fair_run (freq : Z) (c : cfg) (l : list act) (s : state) : Prop :=
  match l with
  | [] => True
  | a :: l => fair freq (load c + 1) a s /\ fair_run freq c l (step freq c a s)
  end.
(** Time does not run backwards and the handler is not early, but it may be late. *)
Definition lazy (P : Z) (a : act) (s : state) : Prop :=
  match a with Pass d => 0 <= d | Tick => (ticks s + 1) * P <= t s | Begin i k => pc (calls s i) = 0 | Do i => True end.
Fixpoint lazy_run (freq : Z) (c : cfg) (l : list act) (s : state) : Prop :=
  match l with
  | [] => True
  | a :: l => lazy (load c + 1) a s /\ lazy_run freq c l (step freq c a s)
  end.

(** Only context 0 uses the clocks. *)
Definition alone (a : act) : Prop := match a with Begin i _ => i = 0 | Do i => i = 0 | _ => True end.

(** The time [w] (timer cycles) in units of the clock, rounded down: the timer
    makes F / d cycles per second. *)
Definition units (F d w : Z) (k : clock) : Z := w * d * per_second k / F.
