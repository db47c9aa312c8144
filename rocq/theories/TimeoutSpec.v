(* An ideal timeout on unbounded real time. *)
From Verif Require Import Base TimeoutModel.

(* Idle, or started at time T0 for a duration d. [fired]: execute() already reported this expiry.
   [seen]: a call already observed the expiry. *)
Inductive ideal := Idle | Running (T0 d : Z) (fired seen : bool).

Definition due (T0 d T : Z) : bool := T0 + d <=? T.

Definition ideal_interval (s : ideal) : Z := match s with Idle => 0 | Running _ d _ _ => d end.

Definition ideal_step (s : ideal) (T : Z) (o : top) : ideal * tobs :=
  match o, s with
  | TRestart d, _ => (if 0 <=? d then Running T d false false else Idle, TVoid)
  | TRestartSame, _ => (Running T (ideal_interval s) false false, TVoid)
  | TStop, _ => (Idle, TVoid)
  | TExecute, Idle => (Idle, TBool false)
  | TExecute, Running T0 d fired seen =>
      if due T0 d T && negb fired then (Running T0 d true true, TBool true)
      else (Running T0 d fired seen, TBool false)
  | TIsStopped, Idle => (s, TBool true)
  | TIsStopped, Running _ _ _ _ => (s, TBool false)
  | TIsArmed, Idle => (s, TBool false)
  | TIsArmed, Running T0 d fired seen => (Running T0 d fired (seen || due T0 d T), TBool (negb (due T0 d T)))
  | TIsExpired, Idle => (s, TBool false)
  | TIsExpired, Running T0 d fired seen => (Running T0 d fired (seen || due T0 d T), TBool (due T0 d T))
  | TInterval, _ => (s, TVal (ideal_interval s))
  end.
Fixpoint ideal_run (s : ideal) (os : list (Z * top)) : ideal * list tobs :=
  match os with
  | [] => (s, [])
  | (T, o) :: r => let (s1, x) := ideal_step s T o in let (s2, xs) := ideal_run s1 r in (s2, x :: xs)
  end.

(* Usage contract. Time never runs backwards; restarted durations fit the type; and once started,
   the timer is looked at within 2^w ticks (until its expiry has been seen). *)
Fixpoint contract (w : Z) (now : Z) (s : ideal) (os : list (Z * top)) : Prop :=
  match os with
  | [] => True
  | (T, o) :: r =>
      now <= T /\
      (match o with TRestart d => d < 2 ^ w | _ => True end) /\
      (match s with Running T0 _ _ false => T - T0 < 2 ^ w | _ => True end) /\
      contract w T (fst (ideal_step s T o)) r
  end.

(* Without the polling contract: what an expiry report still guarantees. [last] is the start time and
   duration set by the latest restart since the last stop; [fired]: reported since then. *)
Fixpoint never_early (w : Z) (last : option (Z * Z)) (fired : bool) (os : list (Z * top)) (out : list tobs) : Prop :=
  match os, out with
  | [], [] => True
  | (T, o) :: r, x :: xs =>
      match o with
      | TRestart d => never_early w (if 0 <=? d then Some (T, d) else None) false r xs
      | TRestartSame => never_early w (Some (T, match last with Some (_, d) => d | None => 0 end)) false r xs
      | TStop => never_early w None false r xs
      | TExecute =>
          (x = TBool true -> fired = false /\ exists T0 d, last = Some (T0, d) /\ T0 + d <= T) /\
          never_early w last (match x with TBool true => true | _ => fired end) r xs
      | TIsExpired =>
          (x = TBool true -> exists T0 d, last = Some (T0, d) /\ T0 + d <= T) /\
          never_early w last fired r xs
      | _ => never_early w last fired r xs
      end
  | _, _ => False
  end.
Fixpoint monotone (w now : Z) (os : list (Z * top)) : Prop :=
  match os with
  | [] => True
  | (T, o) :: r => now <= T /\ (match o with TRestart d => d < 2 ^ w | _ => True end) /\ monotone w T r
  end.

(* ---- periodic timer, on real time ---- *)
(* number of periods reported by one poll e ticks after the last activation *)
Definition ticks (p e : Z) : Z := e / p - (if (e mod p =? 0) && (2 <=? e / p) then 1 else 0).

(* polls at nondecreasing times, each within 2^w of the last activation, given as real-time history *)
Fixpoint poll_contract (w : Z) (fuel : nat) (p T0 now : Z) (polls : list (Z * Z)) : Prop :=
  match polls with
  | [] => True
  | (T1, T2) :: r => now <= T1 <= T2 /\ T2 - T0 < 2 ^ w /\ T2 - T0 < p * (Z.of_nat fuel + 1) /\
      poll_contract w fuel p (if T1 - T0 <? p then T0 else T0 + (T2 - T0) / p * p) T2 r
  end.
(* reading the ideal history *)
Definition zsum := fold_right Z.add 0.

(* a poll that comes exactly on a grid point two or more periods after the last activation *)
Fixpoint exact_late (p T0 : Z) (polls : list (Z * Z)) : Z :=
  match polls with
  | [] => 0
  | (T1, T2) :: r =>
      if T1 - T0 <? p then exact_late p T0 r
      else (if ((T2 - T0) mod p =? 0) && (2 <=? (T2 - T0) / p) then 1 else 0)
           + exact_late p (T0 + (T2 - T0) / p * p) r
  end.

