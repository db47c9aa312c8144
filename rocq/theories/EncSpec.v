From Verif Require Import Base EncModel.

(* the two lines at a position of the encoder: the Gray code of the position modulo 4, first line in bit 0 *)
Definition gray (p : Z) : Z := match p mod 4 with 0 => 0 | 1 => 1 | 2 => 3 | _ => 2 end.
(* what happens to the input driver: a sample after the encoder has moved by dx, or a query of the count *)
Inductive ecall := Sample (dx : Z) | Query.
(* the driver run from position p; the answers, the position at the end and the final state *)
Fixpoint ei_run (d k : Z) (s : einput) (p : Z) (l : list ecall) : einput * Z * list Z :=
  match l with
  | [] => (s, p, [])
  | Sample dx :: l => ei_run d k (ei_update d s (gray (p + dx))) (p + dx) l
  | Query :: l => let (s, x) := ei_getDelta k s in let '(s, p, r) := ei_run d k s p l in (s, p, x :: r)
  end.
(* the encoder moves by at most one step between samples *)
Definition sampled (l : list ecall) : Prop := Forall (fun c => match c with Sample dx => -1 <= dx <= 1 | Query => True end) l.
(* the steps since the last query (m so far) never exceed n in either direction *)
Fixpoint calm (n m : Z) (l : list ecall) : Prop :=
  match l with
  | [] => True
  | Sample dx :: l => - n <= m + dx <= n /\ calm n (m + dx) l
  | Query :: l => calm n 0 l
  end.
Definition zsum (l : list Z) : Z := fold_right Z.add 0 l.
Definition travelled (l : list ecall) : Z := zsum (map (fun c => match c with Sample dx => dx | Query => 0 end) l).

(* the lines of the output driver as the input driver reads them, line A in bit 0 *)
Definition lines (s : eoutput) : Z := (if eo_a s then 1 else 0) + (if eo_b s then 2 else 0).
(* calls of the output driver; the setpoint never lies behind the position when the timer is due *)
Inductive ocall := OSet (v : Z) | OUpdate (due : bool).
Definition eo_call (s : eoutput) (c : ocall) : eoutput := match c with OSet v => eo_setPosition s v | OUpdate due => eo_update s due end.
Fixpoint forward (s : eoutput) (l : list ocall) : Prop :=
  match l with
  | [] => True
  | c :: l => (match c with OUpdate true => eo_actual s <= eo_setpoint s | _ => True end) /\ forward (eo_call s c) l
  end.
