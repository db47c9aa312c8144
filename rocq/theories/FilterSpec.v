(* What the filters are meant to compute. *)
From Verif Require Import Base IntTypes WindowSpec FilterModel.

Fixpoint sum_list (l : list Z) : Z := match l with [] => 0 | x :: r => x + sum_list r end.
Fixpoint dot (c x : list Z) : Z := match c, x with a :: c', b :: x' => a * b + dot c' x' | _, _ => 0 end.

(* Debounce: the thresholds make sense *)
Definition d_valid (maxValue lower upper : Z) : Prop := 0 <= lower < upper /\ upper <= maxValue.

(* MovingAverage: the samples since the last reset and the value of that reset *)
Fixpoint a_window (init : Z) (hist : list Z) (os : list a_op) : Z * list Z :=
  match os with [] => (init, hist) | AUpdate x :: r => a_window init (hist ++ [x]) r | AReset v :: r => a_window v [] r end.
Definition a_last (n : nat) (init : Z) (os : list a_op) : list Z := let '(v, h) := a_window init [] os in window n v h.

(* Ramp: the position after k updates *)
Definition ramp_after (r : ramp) (k : Z) : Z :=
  if r_value r <? r_target r then Z.min (r_target r) (r_value r + k * r_inc r) else Z.max (r_target r) (r_value r - k * r_dec r).
(* all quantities are values of T, the steps are positive *)
Definition r_wf (t : ity) (r : ramp) : Prop :=
  in_type t (r_target r) /\ in_type t (r_value r) /\ 0 < r_inc r <= tmax t /\ 0 < r_dec r <= tmax t.
(* the distance is a value of T *)
Definition r_near (t : ity) (r : ramp) : Prop := Z.abs (r_target r - r_value r) <= tmax t.
Definition no_reset (o : r_op) : Prop := match o with RReset _ => False | _ => True end.
Definition target_ok (t : ity) (o : r_op) : Prop := match o with RTarget x => in_type t x | RReset x => in_type t x | RUpdate => True end.

(* Pid: limits that are values of the signed type T and not negative *)
Definition limits_ok (t : ity) (q : pid_par) : Prop := 0 <= maxErrorSum q <= tmax t /\ 0 <= maxOutput q <= tmax t.
Definition clamp_to (m x : Z) : Z := Z.max (- m) (Z.min m x).
(* the textbook controller: (kp e + ki S + kd (e - e')) / scale with S the limited sum *)
Definition pid_sum (p : pid) (e : Z) : Z := clamp_to (maxErrorSum (p_par p)) (p_errorSum p + e).
Definition pid_formula (p : pid) (scale e : Z) : Z :=
  Z.quot (kp (p_par p) * e + ki (p_par p) * pid_sum p e + kd (p_par p) * (e - p_lastError p)) scale.

(* the signed types with a wide type *)
Definition pid_type (t : ity) : Prop := t = mkTy true 8 \/ t = mkTy true 16 \/ t = mkTy true 32.
Definition pid_total (p : pid) (e s : Z) : Z := kp (p_par p) * e + ki (p_par p) * s + kd (p_par p) * (e - p_lastError p).
(* everything that is computed is representable *)
Definition pid_fits (t : ity) (p : pid) (e : Z) : Prop :=
  in_type t (kp (p_par p)) /\ in_type t (ki (p_par p)) /\ in_type t (kd (p_par p)) /\ in_type t e /\ in_type t (p_lastError p) /\
  in_type t (p_errorSum p + e) /\ in_type t (e - p_lastError p) /\
  in_type (wide t) (kp (p_par p) * e + ki (p_par p) * pid_sum p e) /\
  in_type (wide t) (pid_total p e (pid_sum p e)).
(* when is the final division right: int32_t, or a ScaleFactor of 1, or a non-negative total *)
Definition division_ok (t : ity) (scale total : Z) : Prop := wd t = 32 \/ scale = 1 \/ 0 <= total.

(* Fir: the samples since the last reset *)
Fixpoint f_hist (hist : list Z) (os : list f_op) : list Z :=
  match os with [] => hist | FAppend x :: r => f_hist (hist ++ [x]) r | FUpdate :: r => f_hist hist r | FReset :: r => f_hist [] r end.
(* sum of coefficient k times the sample k steps back *)
Definition convolution (n : nat) (coef : list Z) (os : list f_op) : Z := dot coef (rev (window n 0 (f_hist [] os))).
