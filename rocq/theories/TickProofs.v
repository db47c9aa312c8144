From Coq Require Import ZArith List Bool Lia Sorted.
From Verif Require Import Base AlgoModel TickModel TickSpec.
Import ListNotations.
Open Scope Z_scope.

(** *** initialize() *)
Lemma init_inv ref freq F c : 1 <= ref <= 8 -> 1 <= freq -> 1 <= F -> initialize ref freq F = Some c ->
  1 <= div c /\ div c = (if (ref =? 1) || (F <? ref * 1000000) then 1 else ref) /\
  us_per c = u32 (2 ^ Ncycles freq * (div c * 1000000) / F) /\ ms_per c = u32 (2 ^ Ncycles freq * (div c * 1000) / F) /\
  0 <= load c < 2 ^ 24 - 1 /\ (load c + 1) * freq <= F / div c /\ F / div c < (load c + 2) * freq.
Proof.
  intros R Q P. unfold initialize. destruct (F <? _) eqn:S; [|discriminate].
  set (d := if (ref =? 1) || (F <? ref * 1000000) then 1 else ref). set (p := ps_from_linear _ _ _ _).
  destruct (ps_frequency p =? freq) eqn:E; [|discriminate]. intro H. injection H as <-. cbn [div us_per ms_per load].
  assert (D : 1 <= d /\ F < 2 ^ 24 * d * freq).
  { unfold d. destruct ((ref =? 1) || (F <? ref * 1000000)) eqn:W; [|lia]. split; [lia|]. apply orb_prop in W. nia. }
  split; [lia|]. split; [reflexivity|]. split; [reflexivity|]. split; [reflexivity|].
  revert E. subst p. unfold ps_from_linear. set (G := F / d). set (q := G / freq).
  assert (G0 : 0 <= G) by (unfold G; apply Z.div_pos; lia).
  assert (q0 : 0 <= q) by (unfold q; apply Z.div_pos; lia).
  assert (B : q <= 2 ^ 24 - 1).
  { assert (G < 2 ^ 24 * freq) by (unfold G; apply Z.div_lt_upper_bound; nia).
    unfold q. assert (G / freq < 2 ^ 24) by (apply Z.div_lt_upper_bound; nia). lia. }
  assert (q1 : q * freq <= G < (q + 1) * freq). { unfold q. pose proof (Z.div_mod G freq ltac:(lia)). pose proof (Z.mod_pos_bound G freq ltac:(lia)). nia. }
  clearbody q G. clear S D. clearbody d.
  assert (K : forall n, (n = Z.max q 1 \/ n = Z.min (q + 1) (2 ^ 24 - 1)) -> (G / n =? freq) = true -> 0 <= n - 1 < 2 ^ 24 - 1 /\ (n - 1 + 1) * freq <= G /\ G < (n - 1 + 2) * freq).
  { intros n N E. apply Z.eqb_eq in E. assert (NB : 1 <= n <= 2 ^ 24 - 1) by lia.
    pose proof (Z.mul_div_le G n ltac:(lia)) as M. rewrite E in M. assert (n <= q) by nia. assert (n = q) by lia. subst n. clear N E. split; [lia|]. split; [nia|]. nia. }
  destruct (2 * freq <=? _); cbn [ps_result ps_frequency ps_index]; apply K; [right|left]; reflexivity.
Qed.

(** Arithmetic. *)
Lemma exact_period F d f P : 1 <= d -> 1 <= f -> F mod (f * d) = 0 -> P * f <= F / d -> F / d < (P + 1) * f -> F = P * f * d.
Proof.
  intros D Q EX L1 L2. assert (FD : f * d <> 0) by (clear - D Q; nia). pose proof (Z.div_mod F (f * d) FD) as E. rewrite EX in E. revert E. generalize (F / (f * d)). clear EX. intros q E.
  assert (F2 : F = q * f * d) by (clear - E; lia). assert (G : F / d = q * f) by (rewrite F2; apply Z.div_mul; clear - D; lia). rewrite G in L1, L2. clear G E.
  assert (P = q) by (clear - L1 L2 Q; nia). subst. reflexivity.
Qed.
Lemma scale_bound x a f n m d F P : 1 <= d -> 0 <= a -> 0 <= x <= P -> 1 <= f -> a * F <= n * (d * m) -> P * f * d <= F -> x * a * f <= n * m.
Proof.
  intros D A X Q B PF. assert (FD : 0 <= f * d) by (clear - D Q; nia). pose proof (Z.mul_le_mono_nonneg_r x P (f * d) FD (proj2 X)) as A2.
  assert (A3 : x * f * d <= F) by lia. pose proof (Z.mul_le_mono_nonneg_r (x * f * d) F a A A3) as A4.
  assert (A5 : (x * a * f) * d <= (n * m) * d) by lia. clear - A5 D. nia.
Qed.
Lemma u32_small_factor n d m F : 1 <= d -> 1 <= F -> 0 <= m <= 1000000 -> (n = 2 ^ 20 /\ 1000 * d <= F \/ n = 2 ^ 32 /\ d * 1000000 < F) -> 0 <= n * (d * m) / F < 4294967296.
Proof.
  intros D FP M H. assert (DM : 0 <= d * m <= d * 1000000) by (clear - D M; nia). split.
  - apply Z.div_pos; [destruct H as [[-> _]|[-> _]]; clear - DM; lia|lia].
  - apply Z.div_lt_upper_bound; [lia|]. destruct H as [[-> B]|[-> B]]; [change (2 ^ 20) with 1048576|change (2 ^ 32) with 4294967296]; clear - DM B D; lia.
Qed.

(** *** The invariant *)
Section Run.
Variables (ref freq F : Z) (c : cfg).
Hypothesis R : 1 <= ref <= 8.
Hypothesis Q : 1 <= freq <= 1000.
Hypothesis FP : 1 <= F.
Hypothesis IN : initialize ref freq F = Some c.
Let P := load c + 1.

(** What now() is to return for the time [w]. *)
Definition reading (k : clock) (w : Z) : Z :=
  u32 (step_ms freq * (match k with Milli => 1 | Micro => 1000 end) * (w / P) +
       (match k with Milli => if freq =? 1000 then 0 else (w mod P * ms_per c) / 2 ^ Ncycles freq | Micro => (w mod P * us_per c) / 2 ^ Ncycles freq end)).

Definition good_call (s : state) (x : call) : Prop :=
  (pc x = 2 \/ pc x = 3 -> 0 <= when x <= t s /\ val x = VAL c (when x) /\ (interrupt s = false -> ticks s <= when x / P)) /\
  (pc x = 3 -> interrupt s = false -> sum x = match which x with Milli => milli_time s | Micro => micro_time s end) /\
  (freq = 1000 -> 1 <= pc x <= 3 -> which x = Micro).
Definition good (s : state) : Prop :=
  0 <= ticks s /\ ticks s * P <= t s /\ 0 <= t s /\
  milli_time s = u32 (step_ms freq * ticks s) /\ micro_time s = u32 (step_ms freq * 1000 * ticks s) /\
  good_call s (calls s 0).
Definition log_ok (l : list entry) : Prop := Forall (fun e => e_ctx e = 0 /\ 0 <= e_when e /\ e_result e = reading (e_clock e) (e_when e)) l.

Lemma P_pos : 0 < P.
Proof. destruct (init_inv ref freq F c R ltac:(lia) FP IN) as (_ & _ & _ & _ & H & _). unfold P. lia. Qed.

Lemma load_small : 0 <= load c < 2 ^ 24.
Proof. destruct (init_inv ref freq F c R ltac:(lia) FP IN) as (_ & _ & _ & _ & H & _). lia. Qed.

Lemma u32_id x : 0 <= x < 4294967296 -> u32 x = x.
Proof. intro H. unfold u32. apply Z.mod_small. exact H. Qed.
Lemma u32_le x : 0 <= x -> 0 <= u32 x <= x.
Proof. intro H. unfold u32. split; [apply Z.mod_pos_bound; lia|apply Z.mod_le; lia]. Qed.

Lemma N_pos : 0 < 2 ^ Ncycles freq.
Proof. unfold Ncycles. destruct (freq =? 1000); reflexivity. Qed.

(** A part of a period never counts more than a whole one. *)
Lemma factor_bound m x a : 0 <= m -> 0 <= x <= P -> 0 <= a -> a <= 2 ^ Ncycles freq * (div c * m) / F -> x * a * freq <= 2 ^ Ncycles freq * m.
Proof.
  intros M X A B. destruct (init_inv ref freq F c R ltac:(lia) FP IN) as (D & _ & _ & _ & L & LF & _). fold P in LF.
  pose proof N_pos as N. set (n := 2 ^ Ncycles freq) in *.
  apply (scale_bound x a freq n m (div c) F P); [exact D|exact A|exact X|lia| |].
  - pose proof (Z.mul_div_le (n * (div c * m)) F ltac:(lia)) as E. eapply Z.le_trans; [|exact E]. rewrite (Z.mul_comm F). apply Z.mul_le_mono_nonneg_r; [lia|exact B].
  - pose proof (Z.mul_div_le F (div c) ltac:(lia)) as E. rewrite (Z.mul_comm (div c)) in E. eapply Z.le_trans; [|exact E]. apply Z.mul_le_mono_nonneg_r; [lia|exact LF].
Qed.

Lemma us_ok : 0 <= us_per c <= 2 ^ Ncycles freq * (div c * 1000000) / F.
Proof.
  destruct (init_inv ref freq F c R ltac:(lia) FP IN) as (D & _ & U & _). rewrite U. apply u32_le. apply Z.div_pos; [|lia]. pose proof N_pos. nia.
Qed.
Lemma ms_ok : 0 <= ms_per c <= 2 ^ Ncycles freq * (div c * 1000) / F.
Proof.
  destruct (init_inv ref freq F c R ltac:(lia) FP IN) as (D & _ & _ & U & _). rewrite U. apply u32_le. apply Z.div_pos; [|lia]. pose proof N_pos. nia.
Qed.

Lemma VAL_diff w : u32 (load c - VAL c w) = w mod P.
Proof.
  unfold VAL. fold P. replace (load c - (load c - w mod P)) with (w mod P) by lia. pose proof P_pos. pose proof (Z.mod_pos_bound w P ltac:(lia)).
  pose proof load_small as H1. apply u32_id. unfold P in *. lia.
Qed.

Lemma finish_reading k w sum : (freq = 1000 -> k = Micro) ->
  sum = u32 (step_ms freq * (match k with Milli => 1 | Micro => 1000 end) * (w / P)) ->
  finish freq c k (VAL c w) sum = reading k w.
Proof.
  intros KM ->. unfold finish, reading. rewrite VAL_diff. pose proof N_pos as NP.
  assert (N0 : 0 <= Ncycles freq) by (unfold Ncycles; destruct (freq =? 1000); lia).
  pose proof P_pos as PP. pose proof (Z.mod_pos_bound w P PP) as MB.
  assert (E : forall a b, u32 (u32 a + b) = u32 (a + b)). { intros a b. unfold u32. apply Z.add_mod_idemp_l. lia. }
  destruct k.
  - replace (freq =? 1000) with false by (symmetry; apply Z.eqb_neq; intro Z1; specialize (KM Z1); discriminate). rewrite Z.shiftr_div_pow2 by exact N0. apply E.
  - destruct (freq =? 1000) eqn:F1.
    + apply Z.eqb_eq in F1. pose proof us_ok as U. pose proof (factor_bound 1000000 (w mod P) (us_per c) ltac:(lia) ltac:(lia) ltac:(lia) (proj2 U)) as B.
      rewrite (u32_id (w mod P * us_per c)).
      * rewrite Z.shiftr_div_pow2 by exact N0. apply E.
      * unfold Ncycles in B. rewrite F1 in B. change (1000 =? 1000) with true in B. cbv iota in B. change (2 ^ 20) with 1048576 in B. nia.
    + rewrite Z.shiftr_div_pow2 by exact N0. apply E.
Qed.

Lemma reading_milli_1000 w : freq = 1000 -> reading Milli w = u32 (step_ms freq * (w / P)).
Proof. intro E. unfold reading. rewrite E. change (1000 =? 1000) with true. cbv iota. f_equal. lia. Qed.

Lemma step_good a s : good s -> alone a -> fair freq P a s -> log_ok (log s) -> good (step freq c a s) /\ log_ok (log (step freq c a s)).
Proof.
  intros (T0 & TP & TT & MI & MU & C1 & C2 & C3) AL FA LO. pose proof P_pos as PP. destruct a as [d| |i k|i]; cbn [alone fair] in AL, FA.
  - cbn [step log]. split; [|exact LO]. unfold good, good_call. cbn [step t ticks milli_time micro_time calls interrupt]. split; [lia|]. split; [lia|]. split; [lia|]. split; [exact MI|]. split; [exact MU|].
    split; [|split; [exact C2|exact C3]]. intro H. destruct (C1 H) as (A & B & D). split; [lia|]. split; assumption.
  - cbn [step log]. split; [|exact LO]. unfold good, good_call. cbn [step t ticks milli_time micro_time calls interrupt]. split; [lia|]. split; [lia|]. split; [lia|].
    split; [rewrite MI; unfold u32; rewrite Z.add_mod_idemp_l by lia; f_equal; lia|]. split; [rewrite MU; unfold u32; rewrite Z.add_mod_idemp_l by lia; f_equal; lia|].
    split; [|split; [intros _ H; discriminate|exact C3]]. intro H. destruct (C1 H) as (A & B & D). split; [exact A|]. split; [exact B|]. intro; discriminate.
  - subst i. destruct ((freq =? 1000) && match k with Milli => true | Micro => false end) eqn:W.
    + apply andb_prop in W. destruct W as [W1 W2]. destruct k; [|discriminate]. cbn [step]. rewrite W1. split; [|].
      * unfold good, good_call. cbn [t ticks milli_time micro_time calls interrupt]. auto 10.
      * cbn [log]. apply Forall_app. split; [exact LO|]. constructor; [|constructor]. cbn [e_ctx e_when e_result e_clock]. split; [reflexivity|]. split; [exact TT|].
        apply Z.eqb_eq in W1. rewrite reading_milli_1000 by exact W1. rewrite MI. f_equal. f_equal. destruct FA as [_ FA]. specialize (FA eq_refl W1). assert (ticks s <= t s / P) by (apply Z.div_le_lower_bound; lia). lia.
    + assert (KM : freq = 1000 -> k = Micro). { intro E. rewrite E in W. destruct k; [discriminate|reflexivity]. }
      assert (ST : step freq c (Begin 0 k) s = State (t s) (ticks s) (milli_time s) (micro_time s) false (set_call s 0 (Call 1 k 0 0 0)) (log s)).
      { cbn [step]. destruct k; [|destruct (freq =? 1000); reflexivity]. destruct (freq =? 1000) eqn:E; [|reflexivity]. apply Z.eqb_eq in E. specialize (KM E). discriminate. }
      rewrite ST. split; [|exact LO]. unfold good, good_call, set_call. cbn [t ticks milli_time micro_time calls interrupt]. change (0 =? 0) with true. cbv iota. cbn [pc which].
      split; [lia|]. split; [lia|]. split; [lia|]. split; [exact MI|]. split; [exact MU|]. split; [lia|]. split; [lia|]. intros E _. exact (KM E).
  - subst i. cbn [step]. set (x := calls s 0) in *. cbv zeta. destruct (pc x =? 1) eqn:P1; [|destruct (pc x =? 2) eqn:P2; [|destruct (pc x =? 3) eqn:P3]].
    + apply Z.eqb_eq in P1. split; [|exact LO]. unfold good, good_call, set_call. cbn [t ticks milli_time micro_time calls interrupt]. change (0 =? 0) with true. cbv iota. cbn [pc which val sum when].
      split; [lia|]. split; [lia|]. split; [lia|]. split; [exact MI|]. split; [exact MU|]. split; [|split; [lia|]].
      * intros _. split; [lia|]. split; [reflexivity|]. intros _. apply Z.div_le_lower_bound; lia.
      * intros E _. apply C3; [exact E|lia].
    + apply Z.eqb_eq in P2. destruct (C1 (or_introl P2)) as (A & B & D). split; [|exact LO]. unfold good, good_call, set_call. cbn [t ticks milli_time micro_time calls interrupt]. change (0 =? 0) with true. cbv iota. cbn [pc which val sum when].
      split; [lia|]. split; [lia|]. split; [lia|]. split; [exact MI|]. split; [exact MU|]. split; [|split].
      * intros _. split; [exact A|]. split; assumption.
      * reflexivity.
      * intros E _. apply C3; [exact E|lia].
    + apply Z.eqb_eq in P3. destruct (C1 (or_intror P3)) as (A & B & D). specialize (FA P3). destruct (interrupt s) eqn:IT.
      * split; [|exact LO]. unfold good, good_call, set_call. cbn [t ticks milli_time micro_time calls interrupt]. change (0 =? 0) with true. cbv iota. cbn [pc which val sum when].
        split; [lia|]. split; [lia|]. split; [lia|]. split; [exact MI|]. split; [exact MU|]. split; [lia|]. split; [lia|]. intros E _. apply C3; [exact E|lia].
      * split.
        -- unfold good, good_call, set_call. cbn [t ticks milli_time micro_time calls interrupt]. change (0 =? 0) with true. cbv iota. cbn [pc which val sum when].
           split; [lia|]. split; [lia|]. split; [lia|]. split; [exact MI|]. split; [exact MU|]. split; [lia|]. split; lia.
        -- cbn [log]. apply Forall_app. split; [exact LO|]. constructor; [|constructor]. cbn [e_ctx e_when e_result e_clock]. split; [reflexivity|]. split; [lia|].
           specialize (D eq_refl). specialize (C2 P3 eq_refl). assert (TK : ticks s = when x / P) by lia. rewrite B. apply finish_reading.
           ++ intro E. apply C3; [exact E|lia].
           ++ rewrite C2, <- TK. destruct (which x); [rewrite MI|rewrite MU]; f_equal; lia.
    + split; [|exact LO]. unfold good. split; [lia|]. split; [lia|]. split; [lia|]. split; [exact MI|]. split; [exact MU|]. split; [exact C1|]. split; assumption.
Qed.

Lemma good_start : good start.
Proof. unfold good, good_call, start. cbn [t ticks milli_time micro_time calls interrupt pc]. rewrite !Z.mul_0_r. split; [lia|]. split; [lia|]. split; [lia|]. split; [reflexivity|]. split; [reflexivity|]. split; [lia|]. split; lia. Qed.

Lemma run_good l : forall s, good s -> log_ok (log s) -> Forall alone l -> fair_run freq c l s -> good (run freq c l s) /\ log_ok (log (run freq c l s)).
Proof.
  induction l as [|a l IH]; intros s G L A FR; [split; assumption|]. cbn [run fold_left]. destruct FR as [F1 F2].
  destruct (step_good a s G (Forall_inv A) F1 L) as [G1 L1]. exact (IH _ G1 L1 (Forall_inv_tail A) F2).
Qed.

(** The entries are in the order of their times. *)
Definition later (e1 e2 : entry) : Prop := e_when e1 <= e_when e2.
Definition in_order (s : state) : Prop :=
  StronglySorted later (log s) /\ Forall (fun e => e_when e <= t s) (log s) /\
  (pc (calls s 0) = 2 \/ pc (calls s 0) = 3 -> when (calls s 0) <= t s /\ Forall (fun e => e_when e <= when (calls s 0)) (log s)).
Lemma sorted_snoc l e : StronglySorted later l -> Forall (fun x => e_when x <= e_when e) l -> StronglySorted later (l ++ [e]).
Proof.
  induction l as [|x l IH]; intros H A; cbn [app]; [repeat constructor|]. apply StronglySorted_inv in H. destruct H as [H1 H2]. constructor; [apply IH; [exact H1|exact (Forall_inv_tail A)]|].
  apply Forall_app. split; [exact H2|]. constructor; [exact (Forall_inv A)|constructor].
Qed.
Lemma step_order a s : in_order s -> alone a -> fair freq P a s -> in_order (step freq c a s).
Proof.
  intros (S1 & S2 & S3) AL FA. destruct a as [d| |i k|i]; cbn [alone fair] in AL, FA.
  - unfold in_order. cbn [step t calls log]. split; [exact S1|]. split; [eapply Forall_impl; [|exact S2]; cbn beta; intros e H; lia|].
    intro H. destruct (S3 H) as [A B]. split; [lia|exact B].
  - unfold in_order. cbn [step t calls log]. split; [exact S1|]. split; [exact S2|]. exact S3.
  - subst i. assert (A : step freq c (Begin 0 k) s = State (t s) (ticks s) (milli_time s) (micro_time s) false (set_call s 0 (Call 1 k 0 0 0)) (log s) \/
      step freq c (Begin 0 k) s = State (t s) (ticks s) (milli_time s) (micro_time s) (interrupt s) (calls s) (log s ++ [Entry 0 k (t s) (milli_time s)]) /\ k = Milli) by (cbn [step]; destruct k, (freq =? 1000); auto).
    destruct A as [-> | [-> ->]]; unfold in_order, set_call; cbn [t calls log].
    + split; [exact S1|]. split; [exact S2|]. change (0 =? 0) with true. cbn [pc]. lia.
    + split; [apply sorted_snoc; assumption|]. split; [apply Forall_app; split; [exact S2|constructor; [cbn; lia|constructor]]|]. destruct FA as [FA _]. lia.
  - subst i. unfold in_order. cbn [step]. set (x := calls s 0) in *. cbv zeta. destruct (pc x =? 1) eqn:P1; [|destruct (pc x =? 2) eqn:P2; [|destruct (pc x =? 3) eqn:P3; [destruct (interrupt s) eqn:IT|]]];
      unfold set_call; cbn [t calls log]; change (0 =? 0) with true; cbv iota; cbn [pc when].
    + split; [exact S1|]. split; [exact S2|]. intros _. split; [lia|exact S2].
    + apply Z.eqb_eq in P2. split; [exact S1|]. split; [exact S2|]. intros _. apply S3. left. exact P2.
    + split; [exact S1|]. split; [exact S2|]. lia.
    + apply Z.eqb_eq in P3. destruct (S3 (or_intror P3)) as [A B]. split; [apply sorted_snoc; [exact S1|exact B]|]. split; [apply Forall_app; split; [exact S2|constructor; [cbn; lia|constructor]]|]. lia.
    + split; [exact S1|]. split; [exact S2|exact S3].
Qed.
Lemma run_order l : forall s, in_order s -> Forall alone l -> fair_run freq c l s -> in_order (run freq c l s).
Proof.
  induction l as [|a l IH]; intros s O A FR; [assumption|]. cbn [run fold_left]. destruct FR as [F1 F2].
  exact (IH _ (step_order a s O (Forall_inv A) F1) (Forall_inv_tail A) F2).
Qed.
Lemma order_start : in_order start.
Proof. unfold in_order, start. cbn. split; [constructor|]. split; [constructor|]. lia. Qed.

(** *** The readings *)
Section Reading.
Hypothesis DV : 1000 mod freq = 0.

Definition mult (k : clock) : Z := match k with Milli => 1 | Micro => 1000 end.
(** The reading without the wrap-around. *)
Definition part (k : clock) (x : Z) : Z :=
  match k with Milli => if freq =? 1000 then 0 else (x * ms_per c) / 2 ^ Ncycles freq | Micro => (x * us_per c) / 2 ^ Ncycles freq end.
Definition full (k : clock) (w : Z) : Z := step_ms freq * mult k * (w / P) + part k (w mod P).
Lemma reading_full k w : reading k w = u32 (full k w).
Proof. unfold reading, full, part, mult. destruct k; reflexivity. Qed.

Lemma step_freq : step_ms freq * freq = 1000.
Proof. unfold step_ms. pose proof (Z.div_mod 1000 freq ltac:(lia)). lia. Qed.
Lemma step_per k : step_ms freq * mult k * freq = per_second k.
Proof. pose proof step_freq. unfold mult, per_second. destruct k; nia. Qed.
Lemma step_pos k : 0 < step_ms freq * mult k <= 1000000.
Proof. pose proof step_freq. unfold mult. assert (0 < step_ms freq) by nia. assert (step_ms freq <= 1000) by nia. destruct k; nia. Qed.

Lemma part_nonneg k x : 0 <= x -> 0 <= part k x.
Proof.
  intro X. pose proof (proj1 us_ok) as U. pose proof (proj1 ms_ok) as M. pose proof N_pos as N. unfold part. destruct k; [destruct (freq =? 1000); [lia|]|]; (apply Z.div_pos; [apply Z.mul_nonneg_nonneg; assumption|exact N]).
Qed.
Lemma part_mono k x y : 0 <= x <= y -> part k x <= part k y.
Proof.
  intros [X Y]. pose proof (proj1 us_ok) as U. pose proof (proj1 ms_ok) as M. pose proof N_pos as N. unfold part. destruct k; [destruct (freq =? 1000); [lia|]|]; (apply Z.div_le_mono; [exact N|apply Z.mul_le_mono_nonneg_r; assumption]).
Qed.
Lemma part_bound k x : 0 <= x <= P -> part k x <= step_ms freq * mult k.
Proof.
  intro X. pose proof us_ok as U. pose proof ms_ok as M. pose proof N_pos as N. pose proof (step_per k) as S. pose proof (step_pos k) as SP.
  assert (K : forall a m, 0 <= a -> a <= 2 ^ Ncycles freq * (div c * m) / F -> step_ms freq * mult k * freq = m -> x * a / 2 ^ Ncycles freq <= step_ms freq * mult k).
  { intros a m A B E. assert (M0 : 0 <= m) by (rewrite <- E; clear - SP Q; nia). pose proof (factor_bound m x a M0 X A B) as FB. rewrite <- E in FB. apply Z.div_le_upper_bound; [exact N|]. clear - FB Q. nia. }
  unfold part. destruct k; [destruct (freq =? 1000); [lia|]|].
  - apply (K (ms_per c) 1000); [lia|lia|exact S].
  - apply (K (us_per c) 1000000); [lia|lia|exact S].
Qed.

Lemma full_mono k v w : 0 <= v <= w -> full k v <= full k w.
Proof.
  intro H. pose proof P_pos as PP. unfold full. pose proof (step_pos k) as SP. set (g := step_ms freq * mult k) in *.
  pose proof (Z.mod_pos_bound v P PP). pose proof (Z.mod_pos_bound w P PP). pose proof (Z.div_mod v P ltac:(lia)) as DVV. pose proof (Z.div_mod w P ltac:(lia)) as DWW.
  assert (DL : v / P <= w / P) by (apply Z.div_le_mono; lia).
  destruct (Z.eq_dec (v / P) (w / P)) as [E|E].
  - rewrite E in *. assert (v mod P <= w mod P) by lia. pose proof (part_mono k (v mod P) (w mod P)). lia.
  - pose proof (part_bound k (v mod P) ltac:(lia)) as B. fold g in B. pose proof (part_nonneg k (w mod P)). nia.
Qed.
Lemma full_diff k v w n : 0 <= v <= w -> w - v < n * P -> full k w - full k v <= step_ms freq * mult k * (n + 1).
Proof.
  intros H L. pose proof P_pos as PP. unfold full. pose proof (step_pos k) as SP.
  pose proof (part_bound k (w mod P) ltac:(pose proof (Z.mod_pos_bound w P PP); lia)) as B. pose proof (part_nonneg k (v mod P) ltac:(pose proof (Z.mod_pos_bound v P PP); lia)) as B2.
  set (g := step_ms freq * mult k) in *.
  assert (w / P <= v / P + n). { replace (v / P + n) with ((v + n * P) / P) by (apply Z.div_add; lia). apply Z.div_le_mono; lia. }
  nia.
Qed.

(** The factor rounded down costs at most one unit. *)
Lemma factor_exact a m n x : 0 < n -> 0 <= x <= n -> 0 <= m -> a = n * m / F -> exists e, 0 <= e <= 1 /\ x * a / n = x * m / F - e.
Proof.
  intros N X M ->. set (a := n * m / F). pose proof (Z.div_mod (n * m) F ltac:(lia)) as E1. fold a in E1. pose proof (Z.mod_pos_bound (n * m) F ltac:(lia)) as E2. set (r := (n * m) mod F) in *.
  pose proof (Z.div_mod (x * m) F ltac:(lia)) as E3. pose proof (Z.mod_pos_bound (x * m) F ltac:(lia)) as E4. set (u := x * m / F) in *. set (r2 := (x * m) mod F) in *.
  assert (UP : x * a / n <= u). 
  { apply Z.lt_succ_r. apply Z.div_lt_upper_bound; [exact N|]. assert (x * m * n < F * (u + 1) * n) by nia. assert (x * a * F <= x * m * n) by nia. nia. }
  assert (LO : u - 1 <= x * a / n).
  { apply Z.div_le_lower_bound; [exact N|]. assert (F * u * n <= x * m * n) by nia. assert (x * m * n <= x * (a * F + F)) by nia. nia. }
  exists (u - x * a / n). lia.
Qed.

Definition exact_enough : Prop :=
  F mod (freq * div c) = 0 /\ (if freq =? 1000 then F <= 2 ^ 20 * 1000 * div c else div c * 1000000 < F).
Lemma full_exact k w : exact_enough -> 0 <= w -> freq <> 1000 \/ k = Micro -> exists e, 0 <= e <= 1 /\ full k w = units F (div c) w k - e.
Proof.
  intros [EX EN] W KF. pose proof P_pos as PP. destruct (init_inv ref freq F c R ltac:(lia) FP IN) as (D & _ & U & M & L & LF & LG). fold P in LF. replace (load c + 2) with (P + 1) in LG by (unfold P; lia).
  pose proof (exact_period F (div c) freq P D ltac:(lia) EX LF LG) as FE.
  pose proof (Z.mod_pos_bound w P PP) as MB. pose proof (Z.div_mod w P ltac:(lia)) as DW. pose proof (step_per k) as SP. pose proof N_pos as NP.
  set (x := w mod P) in *. set (n := w / P) in *.
  assert (UN : units F (div c) w k = step_ms freq * mult k * n + x * (div c * per_second k) / F).
  { unfold units. rewrite DW. replace ((P * n + x) * div c * per_second k) with (x * (div c * per_second k) + step_ms freq * mult k * n * F) by (rewrite <- SP, FE; ring). rewrite Z.div_add by lia. lia. }
  assert (PN : x <= 2 ^ Ncycles freq).
  { unfold Ncycles. destruct (freq =? 1000) eqn:E; [|unfold P in MB; clear - MB L; lia]. apply Z.eqb_eq in E. rewrite E in FE. assert (PB : P <= 2 ^ 20) by (apply (Z.mul_le_mono_pos_r _ _ (1000 * div c)); [clear - D; lia|clear - FE EN; lia]). clear - PB MB. lia. }
  assert (FA : exists a, part k x = x * a / 2 ^ Ncycles freq /\ a = 2 ^ Ncycles freq * (div c * per_second k) / F).
  { assert (Y : forall m, 0 <= m <= 1000000 -> u32 (2 ^ Ncycles freq * (div c * m) / F) = 2 ^ Ncycles freq * (div c * m) / F).
    { intros m MM. apply u32_id. apply u32_small_factor; [exact D|exact FP|exact MM|]. unfold Ncycles. destruct (freq =? 1000) eqn:E; [left|right]; (split; [reflexivity|]).
      - apply Z.eqb_eq in E. rewrite E in FE. clear - FE PP D. nia.
      - exact EN. }
    unfold part, per_second. destruct k.
    - exists (ms_per c). destruct (freq =? 1000) eqn:E; [apply Z.eqb_eq in E; destruct KF; [contradiction|discriminate]|]. split; [reflexivity|]. rewrite M. apply Y. lia.
    - exists (us_per c). split; [reflexivity|]. rewrite U. apply Y. lia. }
  destruct FA as (a & PA & EA). assert (DM : 0 <= div c * per_second k) by (clear - D; unfold per_second; destruct k; lia). destruct (factor_exact a (div c * per_second k) (2 ^ Ncycles freq) x NP (conj (proj1 MB) PN) DM EA) as (e & E1 & E2).
  exists e. split; [exact E1|]. unfold full. fold x n. rewrite PA, E2, UN. clear. lia.
Qed.
Lemma full_exact_1000 w : exact_enough -> 0 <= w -> freq = 1000 -> full Milli w = units F (div c) w Milli.
Proof.
  intros [EX EN] W E. pose proof P_pos as PP. destruct (init_inv ref freq F c R ltac:(lia) FP IN) as (D & _ & U & M & L & LF & LG). fold P in LF. replace (load c + 2) with (P + 1) in LG by (unfold P; lia).
  pose proof (exact_period F (div c) freq P D ltac:(lia) EX LF LG) as FE.
  unfold full, part, units, per_second, mult. pose proof step_freq as SF. rewrite E in *. change (1000 =? 1000) with true. cbv iota.
  replace (w * div c * 1000) with (w * (1000 * div c)) by ring. rewrite FE. replace (P * 1000 * div c) with (P * (1000 * div c)) by ring. rewrite Z.div_mul_cancel_r by nia.
  change (step_ms 1000) with 1. clear. lia.
Qed.
End Reading.
End Run.
