(* What C29 - C32 mean, without reference to the functions of AlgoModel. *)
From Verif Require Import Base IntTypes.
From Coq Require Import Sorted.

(* a table with increasing abscissae *)
Definition increasing (table : list (Z * Z)) : Prop := StronglySorted (fun p q => fst p < fst q) table.
Definition between (a b x : Z) : Prop := (a <= x <= b) \/ (b <= x <= a).
(* p and q are neighbours in the table *)
Definition neighbours (table : list (Z * Z)) (p q : Z * Z) : Prop := exists a b, table = a ++ p :: q :: b.

(* the sequence start, start + step, ... while before stop *)
Definition before (step x stop : Z) : Prop := if 0 <? step then x < stop else stop < x.
Definition arithmetic (start stop step : Z) (l : list Z) : Prop :=
  (forall i, 0 <= i < zlen l -> znth l i = Some (start + i * step)) /\
  (forall i, 0 <= i -> (before step (start + i * step) stop <-> i < zlen l)).

(* sorted from low to high without repetition *)
Definition ascending (l : list Z) : Prop := StronglySorted Z.lt l.
(* x lies in the half open interval from start to stop, in the direction of step *)
Definition rg_inside (start stop step x : Z) : Prop := if 0 <? step then start <= x < stop else stop < x <= start.
(* the result is in the list at its index *)
Definition admissible (l : list Z) (index x : Z) : Prop := znth l index = Some x.
(* the frequency input / p, an integer number of Hz, is at least as close to df as input / q *)
Definition closer_hz (inp df p q : Z) : Prop := Z.abs (inp / p - df) <= Z.abs (inp / q - df).
(* the real quotient input / p is at least as close to df as input / q:
   |input/p - df| <= |input/q - df|, multiplied with p * q > 0 *)
Definition closer_real (inp df p q : Z) : Prop := q * Z.abs (inp - p * df) <= p * Z.abs (inp - q * df).
(* the divider d is at least as close to the ratio input / df as e: |input/df - d| <= |input/df - e|, multiplied with df > 0 *)
Definition closer_ratio (inp df d e : Z) : Prop := Z.abs (inp - d * df) <= Z.abs (inp - e * df).

(* when the machine arithmetic of one segment is exact: [s] is the signed type of the width of the output type, [r] the type
   in which the interpolation is computed *)
Definition lin_types (tin tout r : ity) : Prop :=
  c_type tin /\ (wd tout = 8 \/ wd tout = 16 \/ wd tout = 32) /\ sg r = true.
Definition lin_fits (tin tout r : ity) (p q : Z * Z) : Prop :=
  let s := mkTy true (wd tout) in
  in_type tin (fst p) /\ in_type tin (fst q) /\ fst q - fst p <= tmax tin /\
  in_type s (snd p) /\ in_type tout (snd p) /\ in_type s (snd q) /\ in_type tout (snd q) /\
  in_type (promote s) (snd q - snd p) /\ in_type r (Z.abs ((fst q - fst p) * (snd q - snd p))).
