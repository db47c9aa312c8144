(* Model of modm::GenericTimeout and modm::GenericPeriodicTimer over a w bit clock.
   Source: /repo/src/modm/processing/timer/timeout.hpp, timeout_impl.hpp, periodic_timer.hpp. *)
From Verif Require Import Base.

Section Timeout.
Variable w : Z.    (* bits of duration::rep: 16 or 32 (timestamp.hpp:22-28) *)

(* timeout.hpp:118-126 *)
Definition STOPPED : Z := 1.
(* timeout.hpp:118-126 *)
Definition EXPIRED : Z := 2.
(* timeout.hpp:118-126 *)
Definition ARMED : Z := 4.
(* timeout.hpp:118-126 *)
Definition EXECUTED : Z := 8.
(* timeout.hpp:118-126 *)
Definition STATUS_MASK : Z := 7.

(* timeout.hpp:128-130 *)
Record timeout := mkTimeout { t_start : Z; t_interval : Z; t_state : Z }.
(* timeout.hpp:67, 128-130 *)
Definition t_default : timeout := mkTimeout 0 0 STOPPED.

(* Clock::now() cast to the timer's duration (timeout_impl.hpp:139-142): the hardware counter at
   real time T, i.e. T modulo 2^w. A 16 bit timer on the 32 bit clock truncates again, which is the
   same number. *)
Definition clock (T : Z) : Z := wrap w T.

(* timeout_impl.hpp:132-135; time_point subtraction is modulo 2^w *)
Definition checkExpiration (t : timeout) (T : Z) : bool :=
  negb (Z.land (t_state t) ARMED =? 0) && (t_interval t <=? wrap w (clock T - t_start t)).

(* timeout_impl.hpp:54-58 *)
Definition t_stop (t : timeout) : timeout := mkTimeout (t_start t) 0 STOPPED.

(* timeout_impl.hpp:33-50, for an interval given in the timer's own period. The debug assertions
   (modm_assert_continue_fail_debug) continue and have no other effect. *)
Definition t_restart (t : timeout) (d : Z) (T : Z) : timeout :=
  if 0 <=? d then mkTimeout (clock T) (wrap w d) ARMED else t_stop t.
(* timeout_impl.hpp:25-28 *)
Definition t_restart_same (t : timeout) (T : Z) : timeout := t_restart t (t_interval t) T.

(* timeout_impl.hpp:63-76 *)
Definition t_execute (t : timeout) (T : Z) : timeout * bool :=
  if negb (Z.land (t_state t) (Z.lor EXECUTED STOPPED) =? 0) then (t, false)
  else if (t_state t =? EXPIRED) || checkExpiration t T
       then (mkTimeout (t_start t) (t_interval t) (Z.lor EXPIRED EXECUTED), true)
       else (t, false).

(* timeout_impl.hpp:80-87; the sum is computed in a signed type of twice the width *)
Definition t_remaining (t : timeout) (T : Z) : Z :=
  if t_state t =? STOPPED then 0 else t_interval t + t_start t - clock T.

(* timeout_impl.hpp:99-104: _state is mutable, the query may change it *)
Definition t_query (t : timeout) (T : Z) : timeout * Z :=
  let t' := if checkExpiration t T
            then mkTimeout (t_start t) (t_interval t) (Z.lor (Z.land (t_state t) (Z.lnot ARMED)) EXPIRED)
            else t in
  (t', Z.land (t_state t') STATUS_MASK).

(* timeout_impl.hpp:108-127 *)
Definition t_isStopped (t : timeout) : bool := t_state t =? STOPPED.
(* timeout_impl.hpp:116-120 *)
Definition t_isArmed (t : timeout) (T : Z) : timeout * bool :=
  let (t', s) := t_query t T in (t', s =? ARMED).
(* timeout_impl.hpp:123-127 *)
Definition t_isExpired (t : timeout) (T : Z) : timeout * bool :=
  let (t', s) := t_query t T in (t', s =? EXPIRED).

(* ---- histories of calls at real times ---- *)
(* calls of timeout.hpp:74-113 *)
Inductive top := TRestart (d : Z) | TRestartSame | TStop | TExecute | TIsStopped | TIsArmed | TIsExpired
               | TInterval.
(* results of timeout.hpp:74-113 *)
Inductive tobs := TVoid | TBool (b : bool) | TVal (z : Z).
(* timeout.hpp:74-113 *)
Definition tstep (t : timeout) (T : Z) (o : top) : timeout * tobs :=
  match o with
  | TRestart d => (t_restart t d T, TVoid)
  | TRestartSame => (t_restart_same t T, TVoid)
  | TStop => (t_stop t, TVoid)
  | TExecute => let (t', b) := t_execute t T in (t', TBool b)
  | TIsStopped => (t, TBool (t_isStopped t))
  | TIsArmed => let (t', b) := t_isArmed t T in (t', TBool b)
  | TIsExpired => let (t', b) := t_isExpired t T in (t', TBool b)
  | TInterval => (t, TVal (t_interval t))       (* timeout_impl.hpp:91-94 *)
  end.
(* a sequence of calls of timeout.hpp:74-113 *)
Fixpoint trun (t : timeout) (os : list (Z * top)) : timeout * list tobs :=
  match os with
  | [] => (t, [])
  | (T, o) :: r => let (t1, x) := tstep t T o in let (t2, xs) := trun t1 r in (t2, x :: xs)
  end.

(* ---- GenericPeriodicTimer::execute: periodic_timer.hpp:50-75 ---- *)
(* the while loop, lines 59-65; None = fuel exhausted. Counts are size_t, never near overflow. *)
Fixpoint p_loop (fuel : nat) (start interval now count : Z) : option (Z * Z) :=
  match fuel with
  | O => None
  | S f =>
      let start' := wrap w (start + interval) in
      let diff := wrap w (now - start') in
      let count' := if diff =? interval then count else count + 1 in
      if diff <? interval then Some (start', count') else p_loop f start' interval now count'
  end.
(* T1: time of the clock reading in the base class execute; T2: of the one in line 58/68. *)
Definition p_execute (fuel : nat) (t : timeout) (T1 T2 : Z) : option (timeout * Z) :=
  let (t1, fired) := t_execute t T1 in
  if fired then
    if t_interval t1 =? 0 then Some (mkTimeout (clock T2) (t_interval t1) ARMED, 1)
    else do (s, c) <- p_loop fuel (t_start t1) (t_interval t1) (clock T2) 0;
         Some (mkTimeout s (t_interval t1) ARMED, c)
  else Some (t1, 0).
(* a sequence of calls of periodic_timer.hpp:50-75 *)
Fixpoint p_run (fuel : nat) (t : timeout) (polls : list (Z * Z)) : option (timeout * list Z) :=
  match polls with
  | [] => Some (t, [])
  | (T1, T2) :: r => do (t1, c) <- p_execute fuel t T1 T2; do (t2, cs) <- p_run fuel t1 r; Some (t2, c :: cs)
  end.
End Timeout.
