(** Model of the clocks on the Cortex-M SysTick timer:
    src/modm/platform/clock/systick/systick_timer.hpp.in and systick_timer.cpp.in,
    one core, without FreeRTOS (which sets the timer up itself). *)
From Coq Require Import ZArith List Bool.
From Verif Require Import Base AlgoModel.
Import ListNotations.
Open Scope Z_scope.

(** *** Configuration *)

(** systick_timer.hpp.in:87 and 96 — Ncycles. *)
Definition Ncycles (freq : Z) : Z := if freq =? 1000 then 20 else 32.
(** systick_timer.cpp.in:22 — systick_step, computed by the generator. *)
Definition step_ms (freq : Z) : Z := 1000 / freq.
(** systick_timer.hpp.in:88, 98 and systick_timer.cpp.in:60-66 — what initialize()
    leaves behind: the register LOAD, the two factors, and by what the processor
    clock is divided before it reaches the timer (1 with CLKSOURCE set). *)
Record cfg := Cfg { load : Z; us_per : Z; ms_per : Z; div : Z }.
(** systick_timer.hpp.in:38-69 — initialize() with the default tolerance of 0%
    (peripheral.hpp:87-93, tolerance.hpp:23-26: the two integers must be equal) for
    a processor clock of [F] Hz, [ref] = ref_clk and [freq] = systick_frequency.
    None: one of the static_asserts fails.  The factors are stored in an uint32_t. *)
Definition initialize (ref freq F : Z) : option cfg :=
  if F <? 2 ^ 24 * ref * freq then
    let d := if (ref =? 1) || (F <? ref * 1000000) then 1 else ref in
    let p := ps_from_linear (F / d) freq 1 (2 ^ 24 - 1) in
    if ps_frequency p =? freq then
      Some (Cfg (ps_index p) (u32 (2 ^ Ncycles freq * (d * 1000000) / F)) (u32 (2 ^ Ncycles freq * (d * 1000) / F)) d)
    else None
  else None.

(** *** Execution *)

(** The two clocks (systick_timer.cpp.in:80-106 and 108-135). *)
Inductive clock := Milli | Micro.
(** One call of now(): where it is (0: not called, 1: flag cleared, 2: VAL read,
    3: milli_time or micro_time read) and its local variables val and ms or us
    (systick_timer.cpp.in:86, 111).  [when] is no variable of the code: the time at
    which VAL was read. *)
Record call := Call { pc : Z; which : clock; val : Z; sum : Z; when : Z }.
(** A value returned (systick_timer.cpp.in:83, 105, 134): by whom, which clock, when. *)
Record entry := Entry { e_ctx : Z; e_clock : clock; e_when : Z; e_result : Z }.
(** milli_time, micro_time (systick_timer.cpp.in:23-24), the flag
    (systick_timer.cpp.in:28), the calls in progress, one per context [i], and
    three things which are not in the code: the number [t] of timer cycles since
    the timer was started, the number of handler runs [ticks], and the log of the
    values returned. *)
Record state := State { t : Z; ticks : Z; milli_time : Z; micro_time : Z; interrupt : bool; calls : Z -> call; log : list entry }.
(** systick_timer.cpp.in:23-28 — nothing has happened. *)
Definition start : state := State 0 0 0 0 false (fun _ => Call 0 Milli 0 0 0) [].

(** SysTick->VAL: it counts LOAD, LOAD-1, ..., 0, LOAD, ...
    (systick_timer.cpp.in:60-66; the write of VAL in line 61 restarts it).
    The interrupt becomes pending when VAL gets 0; as the processor needs at least
    12 of its cycles to enter a handler, not fewer than the (at most 8) which VAL
    stays 0, the handler runs after the reload. *)
Definition VAL (c : cfg) (t : Z) : Z := load c - t mod (load c + 1).

(** systick_timer.cpp.in:89-104 and 116-133 — the end of now(). *)
Definition finish (freq : Z) (c : cfg) (k : clock) (val sum : Z) : Z :=
  let diff := u32 (load c - val) in
  match k with
  | Milli => u32 (sum + Z.shiftr (diff * ms_per c) (Ncycles freq))
  | Micro =>
      if freq =? 1000 then u32 (sum + Z.shiftr (u32 (diff * us_per c)) (Ncycles freq))
      else u32 (sum + Z.shiftr (diff * us_per c) (Ncycles freq))
  end.

(** What happens: timer cycles pass, the handler runs (systick_timer.cpp.in:31-47),
    context [i] calls now() of one of the clocks (80-135), context [i] goes on by one
    access. *)
Inductive act := Pass (d : Z) | Tick | Begin (i : Z) (k : clock) | Do (i : Z).

(** The local variables of context [i] (systick_timer.cpp.in:86, 111). *)
Definition set_call (s : state) (i : Z) (x : call) : Z -> call := fun j => if j =? i then x else calls s j.

(** - [Tick]: systick_timer.cpp.in:31-47, SysTick_Handler.
    - [Begin]: line 83 (returning milli_time at once) for the milli_clock at 1000
      Hz, lines 93 and 118 otherwise.
    - [Do]: lines 94/119, then 95/120, then 97/122 with 89-104/116-133.
    Every access to the volatile variables is one step. *)
Definition step (freq : Z) (c : cfg) (a : act) (s : state) : state :=
  match a with
  | Pass d => State (t s + d) (ticks s) (milli_time s) (micro_time s) (interrupt s) (calls s) (log s)
  | Tick => State (t s) (ticks s + 1) (u32 (milli_time s + step_ms freq)) (u32 (micro_time s + step_ms freq * 1000)) true (calls s) (log s)
  | Begin i k =>
      match k, freq =? 1000 with
      | Milli, true => State (t s) (ticks s) (milli_time s) (micro_time s) (interrupt s) (calls s) (log s ++ [Entry i k (t s) (milli_time s)])
      | _, _ => State (t s) (ticks s) (milli_time s) (micro_time s) false (set_call s i (Call 1 k 0 0 0)) (log s)
      end
  | Do i =>
      let x := calls s i in
      if pc x =? 1 then
        State (t s) (ticks s) (milli_time s) (micro_time s) (interrupt s) (set_call s i (Call 2 (which x) (VAL c (t s)) (sum x) (t s))) (log s)
      else if pc x =? 2 then
        State (t s) (ticks s) (milli_time s) (micro_time s) (interrupt s)
          (set_call s i (Call 3 (which x) (val x) (match which x with Milli => milli_time s | Micro => micro_time s end) (when x))) (log s)
      else if pc x =? 3 then
        if interrupt s then State (t s) (ticks s) (milli_time s) (micro_time s) false (set_call s i (Call 1 (which x) (val x) (sum x) (when x))) (log s)
        else State (t s) (ticks s) (milli_time s) (micro_time s) (interrupt s) (set_call s i (Call 0 (which x) (val x) (sum x) (when x)))
               (log s ++ [Entry i (which x) (when x) (finish freq c (which x) (val x) (sum x))])
      else s
  end.
(** A sequence of them (systick_timer.cpp.in:31-135). *)
Definition run (freq : Z) (c : cfg) (l : list act) (s : state) : state := fold_left (fun s a => step freq c a s) l s.

(** *** The FreeRTOS option *)
(** ext/aws/module.lb:71-80 — what validate_frequency and the range let pass. *)
Definition freertos_frequency_ok (freq : Z) : bool := (4 <=? freq) && (freq <=? 1000) && negb (1 <? 1000 mod freq).
