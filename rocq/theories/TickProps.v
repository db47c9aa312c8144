(** C67 — the clocks on the SysTick timer. *)
From Coq Require Import ZArith List Bool Lia Sorted.
From Verif Require Import Base AlgoModel TickModel TickSpec TickProofs.
Import ListNotations.
Open Scope Z_scope.

(** Whatever the handler and the caller do in between, every value returned is the
    time at which the timer was read, in units of the clock, rounded down or one
    less, modulo 2^32: for every clock that is a multiple of the tick rate and
    faster than 1 MHz at the timer. *)
Theorem C67_reading ref freq F c l :
  1 <= ref <= 8 -> 1 <= freq <= 1000 -> 1000 mod freq = 0 -> 1 <= F -> initialize ref freq F = Some c ->
  F mod (freq * div c) = 0 -> (if freq =? 1000 then F <= 2 ^ 20 * 1000 * div c else div c * 1000000 < F) ->
  Forall alone l -> fair_run freq c l start ->
  forall e, In e (log (run freq c l start)) ->
    exists d, 0 <= d <= 1 /\ e_result e = (units F (div c) (e_when e) (e_clock e) - d) mod 2 ^ 32.
Proof.
  intros R Q DV FP IN EX EN AL FR e I.
  destruct (run_good ref freq F c R Q FP IN l start (good_start freq c) (Forall_nil _) AL FR) as [_ L].
  unfold log_ok in L. rewrite Forall_forall in L. destruct (L e I) as (_ & W & RD). rewrite RD, reading_full.
  destruct (Z.eq_dec freq 1000) as [E|E].
  - destruct (e_clock e) eqn:K.
    + rewrite (full_exact_1000 ref freq F c R Q FP IN DV (e_when e) (conj EX EN) W E). exists 0. split; [lia|]. rewrite Z.sub_0_r. reflexivity.
    + destruct (full_exact ref freq F c R Q FP IN DV Micro (e_when e) (conj EX EN) W (or_intror eq_refl)) as (d & D1 & D2). exists d. split; [exact D1|]. rewrite D2. reflexivity.
  - destruct (full_exact ref freq F c R Q FP IN DV (e_clock e) (e_when e) (conj EX EN) W (or_introl E)) as (d & D1 & D2). exists d. split; [exact D1|]. rewrite D2. reflexivity.
Qed.

(** The values returned one after the other never go back, and each period adds
    what it should, for every configuration which compiles. *)
Theorem C67_monotone ref freq F c l :
  1 <= ref <= 8 -> 1 <= freq <= 1000 -> 1000 mod freq = 0 -> 1 <= F -> initialize ref freq F = Some c ->
  Forall alone l -> fair_run freq c l start ->
  forall i j e1 e2, (i < j)%nat -> nth_error (log (run freq c l start)) i = Some e1 -> nth_error (log (run freq c l start)) j = Some e2 ->
    e_when e1 <= e_when e2 /\
    (e_clock e1 = e_clock e2 -> e_when e2 - e_when e1 < 1000 * freq * (load c + 1) -> 0 <= (e_result e2 - e_result e1) mod 2 ^ 32 < 2 ^ 31).
Proof.
  intros R Q DV FP IN AL FR i j e1 e2 IJ N1 N2.
  destruct (run_good ref freq F c R Q FP IN l start (good_start freq c) (Forall_nil _) AL FR) as [_ L].
  destruct (run_order freq c l start (order_start c) AL FR) as [S _].
  assert (W : e_when e1 <= e_when e2).
  { revert i j IJ N1 N2. induction S as [|x l1 S1 IH S2]; intros i j IJ N1 N2; [destruct i; discriminate|].
    destruct i as [|i]; (destruct j as [|j]; [lia|]).
    - cbn in N1, N2. injection N1 as <-. apply nth_error_In in N2. rewrite Forall_forall in S2. exact (S2 e2 N2).
    - cbn in N1, N2. unfold log_ok in L. apply (IH (Forall_inv_tail L) i j); [lia|exact N1|exact N2]. }
  split; [exact W|]. intros K NEAR. apply nth_error_In in N1, N2. unfold log_ok in L. rewrite Forall_forall in L.
  destruct (L e1 N1) as (_ & W1 & RD1). destruct (L e2 N2) as (_ & W2 & RD2). rewrite RD1, RD2, K, !reading_full.
  pose proof (full_mono ref freq F c R Q FP IN DV (e_clock e2) (e_when e1) (e_when e2) (conj W1 W)) as M.
  pose proof (full_diff ref freq F c R Q FP IN DV (e_clock e2) (e_when e1) (e_when e2) (1000 * freq) (conj W1 W) NEAR) as D.
  pose proof (step_per freq c Q DV (e_clock e2)) as SP. pose proof (step_pos freq c Q DV (e_clock e2)) as SQ.
  assert (DB : full freq c (e_clock e2) (e_when e2) - full freq c (e_clock e2) (e_when e1) < 2 ^ 31).
  { assert (per_second (e_clock e2) <= 1000000) by (destruct (e_clock e2); cbn; lia). change (2 ^ 31) with 2147483648. clear - D SP SQ H. nia. }
  unfold u32. change (2 ^ 32) with 4294967296. rewrite <- Zminus_mod. rewrite Z.mod_small; [split; [apply Z.le_0_sub; exact M|exact DB]|]. split; [apply Z.le_0_sub; exact M|]. change (2 ^ 31) with 2147483648 in DB. clear - DB. lia.
Qed.

(** A processor clock that is no multiple of the tick rate is accepted, too; then a
    period of the timer is shorter than 1/freq seconds by less than one timer cycle:
    [n] periods are counted as n/freq seconds. *)
Theorem C67_rate ref freq F c l :
  1 <= ref <= 8 -> 1 <= freq <= 1000 -> 1000 mod freq = 0 -> 1 <= F -> initialize ref freq F = Some c ->
  Forall alone l -> fair_run freq c l start ->
  (load c + 1) * div c * freq <= F < (load c + 2) * div c * freq /\
  forall e n, In e (log (run freq c l start)) -> e_when e = n * (load c + 1) -> e_result e = (n * per_second (e_clock e) / freq) mod 2 ^ 32.
Proof.
  intros R Q DV FP IN AL FR. destruct (init_inv ref freq F c R ltac:(lia) FP IN) as (D & _ & U & M & L0 & LF & LG). split.
  - pose proof (Z.div_mod F (div c) ltac:(lia)) as E. pose proof (Z.mod_pos_bound F (div c) ltac:(lia)) as B. clear - E B LF LG D. nia.
  - intros e n I W. destruct (run_good ref freq F c R Q FP IN l start (good_start freq c) (Forall_nil _) AL FR) as [_ L].
    unfold log_ok in L. rewrite Forall_forall in L. destruct (L e I) as (_ & W1 & RD). rewrite RD, reading_full. unfold full. rewrite W, Z.div_mul, Z.mod_mul by lia.
    replace (part freq c (e_clock e) 0) with 0 by (unfold part; destruct (e_clock e); [destruct (freq =? 1000); reflexivity|reflexivity]).
    rewrite <- (step_per freq c Q DV (e_clock e)). rewrite (Z.mul_assoc n), Z.div_mul by lia. unfold u32. f_equal. lia.
Qed.

(** At 72 MHz divided by 8, 4 Hz: two calls of each clock, the second one of the
    microsecond clock being interrupted twice. *)
Definition ex_cfg : cfg := Cfg 2249999 477218588 477218 8.
Definition ex_run : list act :=
  [Pass 900000; Begin 0 Micro; Do 0; Do 0; Do 0; Begin 0 Milli; Do 0; Pass 7; Do 0; Do 0; Pass 1349090; Begin 0 Micro; Do 0; Pass 1000; Tick;
   Do 0; Do 0; Pass 2; Do 0; Pass 2249998; Do 0; Tick; Do 0; Do 0; Do 0; Do 0; Begin 0 Milli; Do 0; Do 0; Do 0].
Example C67_ex_init : initialize 8 4 72000000 = Some ex_cfg /\ 72000000 mod (4 * div ex_cfg) = 0 /\ div ex_cfg * 1000000 < 72000000.
Proof. vm_compute. repeat split. Qed.
Example C67_ex_run : Forall alone ex_run /\ fair_run 4 ex_cfg ex_run start /\
  log (run 4 ex_cfg ex_run start) = [Entry 0 Micro 900000 99999; Entry 0 Milli 900000 99; Entry 0 Micro 4500097 500010; Entry 0 Milli 4500097 500] /\
  map (fun e => units 72000000 8 (e_when e) (e_clock e)) (log (run 4 ex_cfg ex_run start)) = [100000; 100; 500010; 500].
Proof.
  split; [repeat constructor|]. split; [|vm_compute; split; reflexivity].
  unfold ex_run. cbn [fair_run]. vm_compute. repeat split; try discriminate; intros; try discriminate.
Qed.
(** A Cortex-M0 at 48 MHz, 1000 Hz. *)
Definition ex_m0 : list act := [Pass 6003; Tick; Begin 0 Milli; Begin 0 Micro; Do 0; Do 0; Do 0].
Example C67_ex_m0 : exists c, initialize 8 1000 48000000 = Some c /\ 48000000 mod (1000 * div c) = 0 /\ 48000000 <= 2 ^ 20 * 1000 * div c /\
  Forall alone ex_m0 /\ fair_run 1000 c ex_m0 start /\
  log (run 1000 c ex_m0 start) = [Entry 0 Milli 6003 1; Entry 0 Micro 6003 1000].
Proof.
  eexists. split; [vm_compute; reflexivity|]. split; [reflexivity|]. split; [vm_compute; discriminate|]. split; [repeat constructor|]. split; [|vm_compute; reflexivity].
  unfold ex_m0. cbn [fair_run]. vm_compute. repeat split; try discriminate; intros; try discriminate.
Qed.
(** 16 MHz + 1 Hz is accepted. *)
Example C67_ex_rate : option_map (fun c => (load c + 1, div c)) (initialize 8 4 16000001) = Some (500000, 8).
Proof. vm_compute. reflexivity. Qed.

(** A call ends: without the handler running, six accesses after any point of the
    loop it has returned, and it has returned exactly one value. *)
Theorem C67_returns freq c s i : 1 <= pc (calls s i) <= 3 ->
  exists n, (n <= 6)%nat /\ pc (calls (run freq c (repeat (Do i) n) s) i) = 0 /\
    exists w r, log (run freq c (repeat (Do i) n) s) = log s ++ [Entry i (which (calls s i)) w r].
Proof.
  assert (D1 : forall s, pc (calls s i) = 1 -> let s' := step freq c (Do i) s in pc (calls s' i) = 2 /\ which (calls s' i) = which (calls s i) /\ interrupt s' = interrupt s /\ log s' = log s).
  { intros z H. cbn [step]. rewrite H. cbn. unfold set_call. rewrite Z.eqb_refl. auto. }
  assert (D2 : forall s, pc (calls s i) = 2 -> let s' := step freq c (Do i) s in pc (calls s' i) = 3 /\ which (calls s' i) = which (calls s i) /\ interrupt s' = interrupt s /\ log s' = log s).
  { intros z H. cbn [step]. rewrite H. cbn. unfold set_call. rewrite Z.eqb_refl. auto. }
  assert (D3 : forall s, pc (calls s i) = 3 -> interrupt s = true -> let s' := step freq c (Do i) s in pc (calls s' i) = 1 /\ which (calls s' i) = which (calls s i) /\ interrupt s' = false /\ log s' = log s).
  { intros z H T. cbn [step]. rewrite H, T. cbn. unfold set_call. rewrite Z.eqb_refl. auto. }
  assert (D4 : forall s, pc (calls s i) = 3 -> interrupt s = false -> let s' := step freq c (Do i) s in pc (calls s' i) = 0 /\ exists w r, log s' = log s ++ [Entry i (which (calls s i)) w r]).
  { intros z H T. cbn [step]. rewrite H, T. cbn. unfold set_call. rewrite Z.eqb_refl. split; [reflexivity|]. eexists _, _. reflexivity. }
  assert (G3 : forall z, pc (calls z i) = 3 -> interrupt z = false -> exists n, (n <= 1)%nat /\ pc (calls (run freq c (repeat (Do i) n) z) i) = 0 /\ exists w r, log (run freq c (repeat (Do i) n) z) = log z ++ [Entry i (which (calls z i)) w r]).
  { intros z H T. exists 1%nat. split; [lia|]. exact (D4 z H T). }
  assert (G1 : forall z, pc (calls z i) = 1 -> interrupt z = false -> exists n, (n <= 3)%nat /\ pc (calls (run freq c (repeat (Do i) n) z) i) = 0 /\ exists w r, log (run freq c (repeat (Do i) n) z) = log z ++ [Entry i (which (calls z i)) w r]).
  { intros z H T. destruct (D1 z H) as (A1 & A2 & A3 & A4). destruct (D2 _ A1) as (B1 & B2 & B3 & B4). destruct (G3 _ B1) as (n & N & X & w & r & Y); [congruence|].
    exists (2 + n)%nat. split; [lia|]. cbn [Nat.add repeat]. unfold run in *. cbn [fold_left]. split; [exact X|]. exists w, r. rewrite Y. congruence. }
  assert (G0 : forall z, pc (calls z i) = 3 -> exists n, (n <= 4)%nat /\ pc (calls (run freq c (repeat (Do i) n) z) i) = 0 /\ exists w r, log (run freq c (repeat (Do i) n) z) = log z ++ [Entry i (which (calls z i)) w r]).
  { intros z H. destruct (interrupt z) eqn:T.
    - destruct (D3 z H T) as (A1 & A2 & A3 & A4). destruct (G1 _ A1 A3) as (n & N & X & w & r & Y). exists (1 + n)%nat. split; [lia|]. cbn [Nat.add repeat]. unfold run in *. cbn [fold_left]. split; [exact X|]. exists w, r. rewrite Y. congruence.
    - destruct (G3 z H T) as (n & N & X). exists n. split; [lia|exact X]. }
  assert (G2 : forall z, pc (calls z i) = 2 -> exists n, (n <= 5)%nat /\ pc (calls (run freq c (repeat (Do i) n) z) i) = 0 /\ exists w r, log (run freq c (repeat (Do i) n) z) = log z ++ [Entry i (which (calls z i)) w r]).
  { intros z H. destruct (D2 z H) as (A1 & A2 & A3 & A4). destruct (G0 _ A1) as (n & N & X & w & r & Y). exists (1 + n)%nat. split; [lia|]. cbn [Nat.add repeat]. unfold run in *. cbn [fold_left]. split; [exact X|]. exists w, r. rewrite Y. congruence. }
  intro H. assert (pc (calls s i) = 1 \/ pc (calls s i) = 2 \/ pc (calls s i) = 3) as [E|[E|E]] by lia.
  - destruct (D1 s E) as (A1 & A2 & A3 & A4). destruct (G2 _ A1) as (n & N & X & w & r & Y). exists (1 + n)%nat. split; [lia|]. cbn [Nat.add repeat]. unfold run in *. cbn [fold_left]. split; [exact X|]. exists w, r. rewrite Y. congruence.
  - destruct (G2 s E) as (n & N & X). exists n. split; [lia|exact X].
  - destruct (G0 s E) as (n & N & X). exists n. split; [lia|exact X].
Qed.
Example C67_ex_returns :
  let s := run 4 ex_cfg [Begin 0 Micro; Pass 2250000; Tick] start in
  pc (calls s 0) = 1 /\ interrupt s = true /\ log (run 4 ex_cfg (repeat (Do 0) 5) s) = [] /\ log (run 4 ex_cfg (repeat (Do 0) 6) s) = [Entry 0 Micro 2250000 250000].
Proof. vm_compute. repeat split. Qed.

(** At exactly 8 MHz with the divider 8 (and at 1 MHz without) the factor does not
    fit into its 32 bits and is 0: the microsecond clock stands still between two
    ticks. *)
Theorem C67_stands_8MHz ref freq F c l :
  1 <= ref <= 8 -> 1 <= freq < 1000 -> 1 <= F -> initialize ref freq F = Some c -> F = div c * 1000000 ->
  Forall alone l -> fair_run freq c l start ->
  forall e, In e (log (run freq c l start)) -> e_clock e = Micro -> e_result e = (e_when e / (load c + 1) * (1000 / freq * 1000)) mod 2 ^ 32.
Proof.
  intros R Q FP IN FE AL FR e I K.
  assert (Q' : 1 <= freq <= 1000) by lia.
  destruct (run_good ref freq F c R Q' FP IN l start (good_start freq c) (Forall_nil _) AL FR) as [_ L].
  unfold log_ok in L. rewrite Forall_forall in L. destruct (L e I) as (_ & W & RD). rewrite RD, K.
  destruct (init_inv ref freq F c R ltac:(lia) FP IN) as (D & _ & U & _).
  assert (U0 : us_per c = 0). { rewrite U, FE. unfold Ncycles. replace (freq =? 1000) with false by lia. rewrite Z.div_mul by lia. reflexivity. }
  unfold reading, step_ms. rewrite U0, Z.mul_0_r, Z.div_0_l, Z.add_0_r by (pose proof (N_pos freq); lia). unfold u32. f_equal. ring.
Qed.
Definition ex_8MHz : list act := [Begin 0 Micro; Do 0; Do 0; Do 0; Pass 249999; Begin 0 Micro; Do 0; Do 0; Do 0].
Example C67_ex_8MHz : exists c, initialize 8 4 8000000 = Some c /\ 8000000 = div c * 1000000 /\ Forall alone ex_8MHz /\ fair_run 4 c ex_8MHz start /\
  log (run 4 c ex_8MHz start) = [Entry 0 Micro 0 0; Entry 0 Micro 249999 0] /\ units 8000000 (div c) 249999 Micro = 249999.
Proof.
  eexists. split; [vm_compute; reflexivity|]. split; [reflexivity|]. split; [repeat constructor|]. split; [|vm_compute; split; reflexivity].
  unfold ex_8MHz. cbn [fair_run]. vm_compute. repeat split; try discriminate; intros; try discriminate.
Qed.
Example C67_ex_1MHz : option_map us_per (initialize 8 4 1000000) = Some 0 /\ option_map us_per (initialize 8 4 400000) = Some 2147483648.
Proof. split; vm_compute; reflexivity. Qed.

(** When the handler is kept from running — interrupts disabled, or now() called by
    an interrupt, all of which have a higher priority — the time goes back. *)
Theorem C67_late_tick_refuted : exists c l e1 e2,
  initialize 8 4 72000000 = Some c /\ Forall alone l /\ lazy_run 4 c l start /\
  log (run 4 c l start) = [e1; e2] /\ e_clock e1 = Micro /\ e_clock e2 = Micro /\ e_when e1 < e_when e2 /\ e_result e2 < e_result e1 - 240000.
Proof.
  exists ex_cfg, [Pass 2249990; Begin 0 Micro; Do 0; Do 0; Do 0; Pass 20; Begin 0 Micro; Do 0; Do 0; Do 0].
  eexists _, _. split; [vm_compute; reflexivity|]. split; [repeat constructor|]. split; [cbn [lazy_run]; vm_compute; repeat split; discriminate|].
  split; [vm_compute; reflexivity|]. vm_compute. repeat split.
Qed.

(** The flag is shared: when an interrupt which comes right after the handler also
    calls now(), the interrupted call does not notice the tick and returns a time
    which lies a whole period ahead; nothing is late here. *)
Theorem C67_nested_call_refuted : exists c l e1 e2,
  initialize 8 4 72000000 = Some c /\ fair_run 4 c l start /\
  log (run 4 c l start) = [e1; e2] /\ e_clock e1 = Micro /\ e_clock e2 = Micro /\
  e_result e1 = units 72000000 8 (e_when e1) Micro /\ e_when e2 < e_when e1 /\ e_result e2 > units 72000000 8 (e_when e2) Micro + 249990.
Proof.
  exists ex_cfg, [Pass 2249990; Begin 0 Micro; Do 0; Pass 20; Tick; Begin 1 Micro; Do 1; Do 1; Do 1; Do 0; Do 0].
  eexists _, _. split; [vm_compute; reflexivity|]. split; [cbn [fair_run]; vm_compute; repeat split; try discriminate; intros; try discriminate|].
  split; [vm_compute; reflexivity|]. vm_compute. repeat split.
Qed.

(** With FreeRTOS the tick rate can be chosen.  The check accepts the divisors of
    999 as well, with which one second is counted as 999 milliseconds. *)
Theorem C67_freertos_second freq c s : freertos_frequency_ok freq = true ->
  milli_time (run freq c (repeat Tick (Z.to_nat freq)) s) = (milli_time s + (1000 - 1000 mod freq)) mod 2 ^ 32 /\ 0 <= 1000 mod freq <= 1.
Proof.
  unfold freertos_frequency_ok. intro H. apply andb_prop in H. destruct H as [H H3]. apply andb_prop in H. destruct H as [H1 H2].
  assert (T : forall n s, milli_time (run freq c (repeat Tick (S n)) s) = u32 (milli_time s + step_ms freq * Z.of_nat (S n))).
  { induction n as [|n IH]; intro z; [cbn; f_equal; lia|]. change (repeat Tick (S (S n))) with (Tick :: repeat Tick (S n)). unfold run. cbn [fold_left]. change (fold_left _ ?l ?x) with (run freq c l x). rewrite IH. cbn [step milli_time].
    unfold u32. rewrite Zplus_mod_idemp_l. f_equal. lia. }
  pose proof (Z.mod_pos_bound 1000 freq ltac:(lia)) as B. split; [|lia].
  destruct (Z.to_nat freq) as [|n] eqn:E; [lia|]. rewrite T. unfold u32. change (2 ^ 32) with 4294967296. f_equal. f_equal.
  replace (Z.of_nat (S n)) with freq by lia. unfold step_ms. pose proof (Z.div_mod 1000 freq ltac:(lia)). lia.
Qed.
Theorem C67_freertos_frequency_refuted : exists freq c, freertos_frequency_ok freq = true /\ milli_time (run freq c (repeat Tick (Z.to_nat freq)) start) = 999.
Proof. exists 333, ex_cfg. vm_compute. split; reflexivity. Qed.
Example C67_ex_freertos : freertos_frequency_ok 250 = true /\ milli_time (run 250 ex_cfg (repeat Tick 250) start) = 1000 /\ freertos_frequency_ok 300 = false.
Proof. vm_compute. repeat split. Qed.

Print Assumptions C67_reading.
Print Assumptions C67_monotone.
Print Assumptions C67_rate.
Print Assumptions C67_returns.
Print Assumptions C67_stands_8MHz.
Print Assumptions C67_late_tick_refuted.
Print Assumptions C67_nested_call_refuted.
Print Assumptions C67_freertos_second.
Print Assumptions C67_freertos_frequency_refuted.
