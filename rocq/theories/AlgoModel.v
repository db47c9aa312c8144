(* Model of linear interpolation, the prescaler selection and modm::range:
   /repo/src/modm/math/interpolation/linear_impl.hpp, /repo/src/modm/math/algorithm/prescaler.hpp, prescaler_counter.hpp and
   range.hpp. *)
From Verif Require Import Base IntTypes FilterModel.

(* ---------------------------------------------------------------- interpolation::Linear<Pair<InputType, OutputType>> *)
(* linear.hpp:44: modm::SignedType<OutputType> *)
Definition signed_of (t : ity) : ity := mkTy true (wd t).
(* linear.hpp:45: modm::WideType<OutputSignedType> *)
Definition lin_wide (tout : ity) : ity := wide (signed_of tout).
(* linear_impl.hpp:47-58; integral InputType and OutputType of at most 32 bits *)
Definition lin_segment (tin tout : ity) (p1 p2 : Z * Z) (value : Z) : Z :=
  let w := lin_wide tout in
  let s := signed_of tout in
  let a := conv tin (arith Z.sub tin tin value (fst p1)) in
  let b := conv w (arith Z.sub s s (conv s (snd p2)) (conv s (snd p1))) in
  let c := conv tin (arith Z.sub tin tin (fst p2) (fst p1)) in
  let r := usual tin w in
  conv tout (arith Z.add (usual r tin) tout (arith Z.quot r tin (arith Z.mul tin w a b) c) (snd p1)).
(* linear_impl.hpp:41-64: the loop; [last] and the remaining points *)
Fixpoint lin_loop (tin tout : ity) (last : Z * Z) (points : list (Z * Z)) (value : Z) : Z :=
  match points with
  | [] => snd last
  | current :: r => if value <=? fst current then lin_segment tin tout last current value else lin_loop tin tout current r value
  end.
(* linear_impl.hpp:28-65; numberOfPoints is the length of the table (at most 255, so the loop counter does not wrap);
   None = supportingPoints[0] of an empty table *)
Definition lin_interpolate (tin tout : ity) (table : list (Z * Z)) (value : Z) : option Z :=
  match table with
  | [] => None
  | current :: r => Some (if value <=? fst current then snd current else lin_loop tin tout current r value)
  end.

(* ---------------------------------------------------------------- modm::range *)
(* range.hpp:74-87 *)
Definition rg_validate (start stop step : Z) : bool :=
  negb (step =? 0) && negb (((stop <? start) && (0 <? step)) || ((start <? stop) && (step <? 0))).
(* range.hpp:56-61: iterator != end *)
Definition rg_more (start stop step value : Z) : bool :=
  if 0 <? step then (value <? stop) && (start <=? value) else (stop <? value) && (value <=? start).
(* for (auto v : range): range.hpp:47, 56-61; None = more than [fuel] values *)
Fixpoint rg_loop (fuel : nat) (t : ity) (start stop step value : Z) : option (list Z) :=
  match fuel with
  | O => None
  | S f => if rg_more start stop step value then do r <- rg_loop f t start stop step (conv t (value + step)); Some (value :: r)
           else Some []
  end.
(* range.hpp:30-34, 70-71 and the functions at 103-135 *)
Definition rg_values (fuel : nat) (t : ity) (start stop step : Z) : option (list Z) :=
  let ok := rg_validate start stop step in
  let stop := if ok then stop else start in
  let step := if ok then step else 1 in
  rg_loop fuel t start stop step start.

(* ---------------------------------------------------------------- GenericPrescaler<uint64_t> *)
(* prescaler.hpp:35-57 without the float member error *)
Record presc := mkPresc { ps_index : Z; ps_prescaler : Z; ps_frequency : Z }.
(* prescaler.hpp:37-44 *)
Definition ps_result (inp index prescaler : Z) : presc := mkPresc index prescaler (inp / prescaler).
(* Throughout, the double desired = input / desired_frequency is the exact quotient: a comparison with an integer p is made
   exactly, desired <= p iff input <= p * desired_frequency. IEEE division is monotone and exact results are representable, so
   this is what the code computes for input frequencies below 2^51 Hz. *)
(* prescaler.hpp:74-80 *)
Fixpoint ps_loop (inp df flo cei iif iic : Z) (l : list Z) : Z * Z * Z * Z :=
  match l with
  | [] => (flo, cei, iif, iic)
  | p :: r =>
      let iic := iic + 1 in
      if (flo * df <=? inp) && (inp <? p * df) then (flo, p, iif, iic) else ps_loop inp df p p (iif + 1) iic r
  end.
(* prescaler.hpp:62-88; 93-97 (from_list) is the same. None = empty range or division by zero *)
Definition ps_from_range (inp df : Z) (prescalers : list Z) : option presc :=
  match prescalers with
  | [] => None
  | p0 :: rest =>
      if (inp <=? p0 * df) || (zlen prescalers =? 1) then Some (ps_result inp 0 p0)
      else
        let '(flo, cei, iif, iic) := ps_loop inp df p0 p0 0 0 prescalers in
        let lower := inp / cei in
        let upper := inp / flo in
        if 2 * df <=? upper + lower then Some (ps_result inp (iic - 1) cei) else Some (ps_result inp (iif - 1) flo)
  end.
(* prescaler.hpp:141-153; for desired < 2^32 - 1 *)
Definition ps_from_linear (inp df bgn nd : Z) : presc :=
  let d := inp / df in
  let flo := Z.max d bgn in
  let cei := Z.min (d + 1) nd in
  if 2 * df <=? inp / flo + inp / cei then ps_result inp (cei - bgn) cei else ps_result inp (flo - bgn) flo.
(* prescaler.hpp:163-165: the loop; None = fuel exhausted *)
Fixpoint ps_power_loop (fuel : nat) (inp df nd ii power : Z) : option (Z * Z) :=
  match fuel with
  | O => None
  | S f => if power <? nd then
             if 3 * inp <=? 4 * power * df then Some (ii, power) else ps_power_loop f inp df nd (ii + 1) (u32 (power * 2))
           else Some (ii, power)
  end.
(* prescaler.hpp:159-167 *)
Definition ps_from_power (fuel : nat) (inp df bgn nd : Z) : option presc :=
  do (ii, power) <- ps_power_loop fuel inp df nd 0 bgn; Some (ps_result inp ii power).

(* ---------------------------------------------------------------- GenericPrescalerCounter<uint64_t> *)
(* prescaler_counter.hpp:34-58 without the float member error *)
Record prescc := mkPc { pc_index : Z; pc_prescaler : Z; pc_counter : Z }.
(* prescaler_counter.hpp:67, std::ranges::minmax_element: position and value of the first smallest element *)
Fixpoint min_pos (l : list Z) (i bi b : Z) : Z * Z :=
  match l with [] => (bi, b) | x :: r => if x <? b then min_pos r (i + 1) i x else min_pos r (i + 1) bi b end.
(* prescaler_counter.hpp:67: position and value of the last largest element *)
Fixpoint max_pos (l : list Z) (i bi b : Z) : Z * Z :=
  match l with [] => (bi, b) | x :: r => if b <=? x then max_pos r (i + 1) i x else max_pos r (i + 1) bi b end.
(* prescaler_counter.hpp:81-82: the best candidate so far with its error; None = infinity *)
Definition pc_best := option (prescc * Z).
(* prescaler_counter.hpp:83-92; errors are multiplied with desired_frequency *)
Definition pc_compare (inp df : Z) (best : pc_best) (idx pre cnt : Z) : pc_best :=
  let err := Z.abs (inp - u32 (pre * cnt) * df) in
  match best with
  | Some (_, e) => if err <? e then Some (mkPc idx pre cnt, err) else best
  | None => Some (mkPc idx pre cnt, err)
  end.
(* prescaler_counter.hpp:93-100 *)
Fixpoint pc_loop (inp df maxc : Z) (idx : Z) (l : list Z) (best : pc_best) : pc_best :=
  match l with
  | [] => best
  | p :: r =>
      if u32 (maxc * p) * df <? inp then pc_loop inp df maxc (idx + 1) r best
      else
        let cnt := Z.max 1 (inp / (df * p)) in
        let best := pc_compare inp df best idx p cnt in
        if maxc - 1 <? cnt then pc_loop inp df maxc (idx + 1) r best
        else pc_loop inp df maxc (idx + 1) r (pc_compare inp df best idx p (cnt + 1))
  end.
(* prescaler_counter.hpp:62-102; 105-110 (from_list) is the same. None = empty range *)
Definition pc_from_range (inp df maxc : Z) (prescalers : list Z) : option prescc :=
  match prescalers with
  | [] => None
  | p0 :: rest =>
      let '(mini, minv) := min_pos rest 1 0 p0 in
      let '(maxi, maxv) := max_pos rest 1 0 p0 in
      if inp <? minv * df then Some (mkPc mini minv 1)
      else if u32 (maxv * maxc) * df <? inp then Some (mkPc maxi maxv maxc)
      else match pc_loop inp df maxc 0 prescalers None with Some (r, _) => Some r | None => Some (mkPc 0 0 0) end
  end.
(* prescaler_counter.hpp:119-153: the values of linear_range, ascending or (reversed) descending; [n] values from [b] *)
Fixpoint upto (b : Z) (n : nat) : list Z := match n with O => [] | S m => b :: upto (b + 1) m end.
(* prescaler_counter.hpp:114-155 *)
Definition pc_range (f : Z -> Z) (bgn nd : Z) : list Z :=
  if nd <? bgn then map f (rev (upto nd (Z.to_nat (bgn - nd + 1)))) else map f (upto bgn (Z.to_nat (nd - bgn + 1))).
(* prescaler_counter.hpp:159-165 *)
Definition pc_from_linear (inp df maxc bgn nd : Z) : option prescc := pc_from_range inp df maxc (pc_range (fun i => i) bgn nd).
(* std::bit_width, as used in prescaler_counter.hpp:176 *)
Definition bit_width (x : Z) : Z := if x =? 0 then 0 else Z.log2 x + 1.
(* prescaler_counter.hpp:171-178; 1ul has 32 bits or more *)
Definition pc_from_power (inp df maxc bgn nd : Z) : option prescc :=
  pc_from_range inp df maxc (pc_range (fun i => Z.shiftl 1 i) (bit_width (bgn - 1)) (bit_width (nd - 1))).
