(* Model of the filters Debounce, MovingAverage, Ramp, Fir and of the Pid controller for integer types:
   /repo/src/modm/math/filter/. Floating point instantiations are not modelled. *)
From Verif Require Import Base IntTypes.

(* ---------------------------------------------------------------- Debounce<T>, debounce_impl.hpp (T any integer type) *)
(* debounce.hpp:54-59 *)
Record debounce := mkDeb { d_max : Z; d_sum : Z; d_lower : Z; d_upper : Z; d_state : bool }.
(* debounce_impl.hpp:20-27 *)
Definition d_init (maxValue lower upper : Z) : debounce :=
  mkDeb maxValue (Z.quot maxValue 2) lower (if negb (upper =? 0) then upper else maxValue) false.
(* debounce_impl.hpp:29-46; sum++ and sum-- cannot leave the type because of the guards *)
Definition d_update (d : debounce) (input : bool) : debounce :=
  let sum := if input && (d_sum d <? d_max d) then d_sum d + 1
             else if negb input && (0 <? d_sum d) then d_sum d - 1 else d_sum d in
  let state := if d_state d && (sum <=? d_lower d) then false
               else if negb (d_state d) && (d_upper d <=? sum) then true else d_state d in
  mkDeb (d_max d) sum (d_lower d) (d_upper d) state.
(* debounce_impl.hpp:55-67 *)
Definition d_reset (d : debounce) (state : bool) : debounce :=
  if state then mkDeb (d_max d) (d_max d) (d_lower d) (d_upper d) true
  else mkDeb (d_max d) 0 (d_lower d) (d_upper d) false.
(* calls of debounce.hpp:44-51 *)
Inductive d_op := DUpdate (input : bool) | DReset (state : bool).
(* debounce.hpp:44-51 *)
Definition d_step (d : debounce) (o : d_op) : debounce :=
  match o with DUpdate b => d_update d b | DReset b => d_reset d b end.

(* ---------------------------------------------------------------- MovingAverage<T, N>, moving_average.hpp (integral T) *)
(* moving_average.hpp:105-107 *)
Record movavg := mkMA { a_index : Z; a_buffer : list Z; a_sum : Z }.
(* moving_average.hpp:74-78; N * input is computed modulo the width of size_t or wider, then converted to T *)
Definition a_reset (t : ity) (n : nat) (m : movavg) (input : Z) : movavg :=
  mkMA (a_index m) (repeat input n) (conv t (Z.of_nat n * input)).
(* moving_average.hpp:67-70, 105 *)
Definition a_init (t : ity) (n : nat) (v : Z) : movavg := a_reset t n (mkMA 0 (repeat 0 n) 0) v.
(* moving_average.hpp:81-95, integral branch; the index type holds N, so ++index does not wrap *)
Definition a_update (t : ity) (n : nat) (m : movavg) (input : Z) : option movavg :=
  do old <- znth (a_buffer m) (a_index m);
  let sum := conv t (a_sum m - old) in
  let sum := conv t (sum + input) in
  do b <- zupd (a_buffer m) (a_index m) input;
  let index := a_index m + 1 in
  Some (mkMA (if index =? Z.of_nat n then 0 else index) b sum).
(* moving_average.hpp:98-102: sum / static_cast<T>(N) *)
Definition a_getValue (t : ity) (n : nat) (m : movavg) : Z := conv t (Z.quot (a_sum m) (conv t (Z.of_nat n))).
(* calls of moving_average.hpp:74, 82 *)
Inductive a_op := AUpdate (x : Z) | AReset (x : Z).
(* moving_average.hpp:74, 82 *)
Definition a_step (t : ity) (n : nat) (m : movavg) (o : a_op) : option movavg :=
  match o with AUpdate x => a_update t n m x | AReset x => Some (a_reset t n m x) end.
(* a sequence of calls of moving_average.hpp:74, 82 *)
Fixpoint a_run (t : ity) (n : nat) (m : movavg) (os : list a_op) : option movavg :=
  match os with [] => Some m | o :: r => do m' <- a_step t n m o; a_run t n m' r end.

(* ---------------------------------------------------------------- Ramp<T>, ramp_impl.hpp (integral T) *)
(* ramp.hpp:73-78 *)
Record ramp := mkRamp { r_target : Z; r_value : Z; r_reached : bool; r_inc : Z; r_dec : Z }.
(* ramp_impl.hpp:19-27 *)
Definition r_init (inc dec v : Z) : ramp := mkRamp v v true inc dec.
(* ramp_impl.hpp:30-36 *)
Definition r_setTarget (r : ramp) (target : Z) : ramp := mkRamp target (r_value r) false (r_inc r) (r_dec r).
(* ramp_impl.hpp:39-65; the difference is converted to T *)
Definition r_update (t : ity) (r : ramp) : ramp :=
  if r_value r <? r_target r then
    let variation := conv t (r_target r - r_value r) in
    if r_inc r <? variation then mkRamp (r_target r) (conv t (r_value r + r_inc r)) (r_reached r) (r_inc r) (r_dec r)
    else mkRamp (r_target r) (r_target r) true (r_inc r) (r_dec r)
  else
    let variation := conv t (r_value r - r_target r) in
    if r_dec r <? variation then mkRamp (r_target r) (conv t (r_value r - r_dec r)) (r_reached r) (r_inc r) (r_dec r)
    else mkRamp (r_target r) (r_target r) true (r_inc r) (r_dec r).
(* ramp_impl.hpp:68-73 *)
Definition r_reset (r : ramp) (v : Z) : ramp := mkRamp (r_target r) v (r_reached r) (r_inc r) (r_dec r).
(* calls of ramp.hpp:57-64 *)
Inductive r_op := RTarget (x : Z) | RUpdate | RReset (x : Z).
(* ramp.hpp:57-64 *)
Definition r_step (t : ity) (r : ramp) (o : r_op) : ramp :=
  match o with RTarget x => r_setTarget r x | RUpdate => r_update t r | RReset x => r_reset r x end.

(* ---------------------------------------------------------------- Pid<T, ScaleFactor>, pid_impl.hpp (signed integral T) *)
(* the parameters as stored, pid.hpp:94-99; their computation from float (pid_impl.hpp:19-28) is not modelled *)
(* pid.hpp:94-99, the gains already multiplied with ScaleFactor and converted to T *)
Record pid_par := mkPar { kp : Z; ki : Z; kd : Z; maxErrorSum : Z; maxOutput : Z }.
(* pid.hpp:181-185 *)
Record pid := mkPid { p_par : pid_par; p_errorSum : Z; p_lastError : Z; p_output : Z }.
(* pid_impl.hpp:40-56 *)
Definition p_init (p : pid_par) : pid := mkPid p 0 0 0.
(* modm::WideType<T> on a target where int and long have 32 bits (arithmetic_traits.hpp:34-116) *)
Definition wide (t : ity) : ity := mkTy (sg t) (2 * wd t).
(* the type of x op y for x of type t and y of type u: C++ [expr.arith.conv] *)
(* the arithmetic conversions applied in pid_impl.hpp:65-107 and fir_impl.hpp:114-130 *)
Definition usual (t u : ity) : ity :=
  let t := promote t in let u := promote u in
  if wd t =? wd u then mkTy (sg t && sg u) (wd t) else if wd t <? wd u then u else t.
Definition uint_t : ity := mkTy false 32.     (* unsigned int, the type of ScaleFactor: pid.hpp:55 *)
(* arithmetic is computed in the usual type; x / y truncates *)
(* an operator of pid_impl.hpp:65-107 or fir_impl.hpp:114-130 *)
Definition arith (f : Z -> Z -> Z) (t u : ity) (x y : Z) : Z :=
  let r := usual t u in conv r (f (conv r x) (conv r y)).
(* pid_impl.hpp:71-77 *)
Definition p_tempErrorSum (t : ity) (p : pid) (input : Z) : Z :=
  let e := conv t (arith Z.add t t (p_errorSum p) input) in
  let m := maxErrorSum (p_par p) in
  let neg := conv (promote t) (- m) in
  if m <? e then m else if e <? neg then conv t neg else e.
(* pid_impl.hpp:79-84 *)
Definition p_raw (t : ity) (scale : Z) (p : pid) (input tempErrorSum : Z) : Z :=
  let w := wide t in
  let acc tmp x := conv w (arith Z.add w (usual w t) tmp x) in
  let tmp := acc 0 (arith Z.mul w t (conv w (kp (p_par p))) input) in
  let tmp := acc tmp (arith Z.mul w t (conv w (ki (p_par p))) tempErrorSum) in
  let tmp := conv w (arith Z.add w (usual w (usual t t)) tmp
                       (arith Z.mul w (usual t t) (conv w (kd (p_par p))) (arith Z.sub t t input (p_lastError p)))) in
  conv w (arith Z.quot w uint_t tmp scale).
(* pid_impl.hpp:65-107; the limits are compared in the usual type of WideType and T, which is signed *)
Definition p_update (t : ity) (scale : Z) (p : pid) (input : Z) (externalLimitation : bool) : pid :=
  let temp := p_tempErrorSum t p input in
  let tmp := p_raw t scale p input temp in
  let m := maxOutput (p_par p) in
  let neg := conv (promote t) (- m) in
  let '(out, limitation) :=
    if m <? tmp then (m, true) else if tmp <? neg then (conv t neg, true) else (conv t tmp, externalLimitation) in
  let errorSum := if negb limitation || (Z.abs temp <? Z.abs (p_errorSum p)) then temp else p_errorSum p in
  mkPid (p_par p) errorSum input out.
(* pid_impl.hpp:58-63 *)
Definition p_setParameter (p : pid) (q : pid_par) : pid := mkPid q (p_errorSum p) (p_lastError p) (p_output p).
(* calls of pid.hpp:125-142 *)
Inductive p_op := PUpdate (input : Z) (ext : bool) | PReset | PSet (q : pid_par).
(* pid.hpp:125-142; reset is pid_impl.hpp:40-56 *)
Definition p_step (t : ity) (scale : Z) (p : pid) (o : p_op) : pid :=
  match o with PUpdate x e => p_update t scale p x e | PReset => p_init (p_par p) | PSet q => p_setParameter p q end.

(* ---------------------------------------------------------------- Fir<T, N, BLOCK_SIZE, ScaleFactor>, fir_impl.hpp (integral T) *)
(* fir.hpp:81-84 *)
Record fir := mkFir { f_output : Z; f_taps : list Z; f_coef : list Z; f_index : Z }.
(* fir_impl.hpp:56-65 *)
Definition f_reset (n b : nat) (f : fir) : fir := mkFir (f_output f) (repeat 0 (n + b)) (f_coef f) (Z.of_nat b).
(* fir_impl.hpp:84-85: for (i = N+B-1; i > B; i--) taps[i] = taps[i-B-1]; [k] counts the remaining iterations, i = B + k *)
Fixpoint f_shift (b : Z) (k : nat) (taps : list Z) : option (list Z) :=
  match k with
  | O => Some taps
  | S k' => let i := b + Z.of_nat k in
      do x <- znth taps (i - b - 1);
      do taps' <- zupd taps i x;
      f_shift b k' taps'
  end.
(* fir_impl.hpp:68-97 *)
Definition f_append (n b : nat) (f : fir) (input : Z) : option fir :=
  do (taps, index) <- (if 0 <? f_index f then Some (f_taps f, f_index f - 1)
                        else do taps <- f_shift (Z.of_nat b) (n - 1) (f_taps f); Some (taps, Z.of_nat b));
  do taps <- zupd taps index input;
  Some (mkFir (f_output f) taps (f_coef f) index).
(* sum += tap[i]*coefficients[i], tap = taps + taps_index; products and sums in the promoted type, the sum converted to T *)
(* fir_impl.hpp:114-127 *)
Definition f_mac (t : ity) (f : fir) (sum i : Z) : option Z :=
  do x <- znth (f_taps f) (f_index f + i);
  do c <- znth (f_coef f) i;
  Some (conv t (arith Z.add t (promote t) sum (arith Z.mul t t x c))).
(* fir_impl.hpp:114-123: four steps per iteration; [k] iterations remain *)
Fixpoint f_unrolled (t : ity) (f : fir) (k : nat) (sum i : Z) : option Z :=
  match k with
  | O => Some sum
  | S k' =>
      do sum <- f_mac t f sum i;
      do sum <- f_mac t f sum (i + 1);
      do sum <- f_mac t f sum (i + 2);
      do sum <- f_mac t f sum (i + 3);
      f_unrolled t f k' sum (i + 4)
  end.
(* fir_impl.hpp:124-127 *)
Fixpoint f_rest (t : ity) (f : fir) (k : nat) (sum i : Z) : option Z :=
  match k with O => Some sum | S k' => do sum <- f_mac t f sum i; f_rest t f k' sum (i + 1) end.
(* fir_impl.hpp:100-132; the loop at 114 runs while i < N - N%4, i.e. N/4 times *)
Definition f_update (t : ity) (n : nat) (scale : Z) (f : fir) : option fir :=
  do sum <- f_unrolled t f (n / 4) 0 0;
  do sum <- f_rest t f (n mod 4) sum (Z.of_nat (n - n mod 4));
  Some (mkFir (conv t (arith Z.quot t (mkTy true 32) sum scale)) (f_taps f) (f_coef f) (f_index f)).
(* fir_impl.hpp:38-43, with the coefficients already converted to T (line 51, from float, is not modelled) *)
Definition f_init (n b : nat) (coef : list Z) (undefined_output : Z) : fir := f_reset n b (mkFir undefined_output [] coef 0).
(* calls of fir.hpp:56-69 *)
Inductive f_op := FAppend (x : Z) | FUpdate | FReset.
(* fir.hpp:56-69 *)
Definition f_step (t : ity) (n b : nat) (scale : Z) (f : fir) (o : f_op) : option fir :=
  match o with FAppend x => f_append n b f x | FUpdate => f_update t n scale f | FReset => Some (f_reset n b f) end.
(* a sequence of calls of fir.hpp:56-69 *)
Fixpoint f_run (t : ity) (n b : nat) (scale : Z) (f : fir) (os : list f_op) : option fir :=
  match os with [] => Some f | o :: r => do f' <- f_step t n b scale f o; f_run t n b scale f' r end.
