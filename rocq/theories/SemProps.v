(** C16: protothread semaphore.  Specification: SemSpec.v. *)
From Coq Require Import ZArith List Bool Lia.
From Verif Require Import Base SemModel SemSpec SemProofs.
Import ListNotations.
Open Scope Z_scope.

(** Any number of protothreads with any code, polled in any order: as long as no
    thread releases what it does not hold, at every moment of the execution at
    most [n] units are in use, hence at most [n] threads hold the semaphore, and
    the counter is what is left. *)
Theorem C16_admission : forall n progs fuel order s,
  0 <= n <= 65535 -> Forall fits progs -> polls fuel order (initial n progs) = Some s ->
  disciplined progs (log s) ->
  count s = n - in_use progs (log s) /\
  forall past rest, log s = past ++ rest ->
    0 <= in_use progs past <= n /\ holders progs past <= n.
Proof.
  intros n progs fuel order s N F P D. pose proof (polls_ok n progs fuel order _ _ F (inv_initial n progs) P) as I.
  pose proof (inv_replay _ _ _ I) as R. split; [apply (replay_count progs n (log s) (count s) N R D)|].
  intros past rest E. rewrite E in D. apply disciplined_prefix in D. destruct (replay_prefix _ _ _ _ R past rest E) as [c' R'].
  destruct (replay_count progs n past c' N R' D) as [_ U]. split; [exact U|]. apply Z.le_trans with (in_use progs past); [|apply U].
  apply total_le. intros i _. pose proof (holds_nonneg progs past i D). destruct (0 <? holds progs i past) eqn:E0; lia.
Qed.
(** Three threads using two units for ever, with a yield inside. *)
Definition user : list stmt := [WaitAcquire; PtYield; Release; PtYield; Goto 0].
Definition three : list (list stmt * Z) := [(user, 10); (user, 30); (user, 100)].
(** A checker for [disciplined]. *)
Fixpoint disciplinedb (progs : list (list stmt * Z)) (past rest : list event) : bool :=
  match rest with
  | [] => true
  | e :: rest => (if gives progs (who e) e then 1 <=? holds progs (who e) past else true) && disciplinedb progs (past ++ [e]) rest
  end.
Lemma disciplinedb_ok progs rest : forall past, disciplinedb progs past rest = true ->
  forall a e b i, rest = a ++ e :: b -> gives progs i e = true -> 1 <= holds progs i (past ++ a).
Proof.
  induction rest as [|x rest IH]; intros past H a e b i E G; [destruct a; discriminate|]. cbn [disciplinedb] in H. apply andb_prop in H. destruct H as [H1 H2].
  destruct a as [|y a]; cbn [app] in E; injection E as <- E.
  - rewrite app_nil_r. assert (who x = i) by (unfold gives in G; apply andb_prop in G; lia). subst i. rewrite G in H1. lia.
  - specialize (IH (past ++ [x]) H2 a e b i E G). rewrite <- app_assoc in IH. exact IH.
Qed.
Definition order7 : list Z := [0; 1; 2; 0; 2; 1; 0].
Definition log7 : list event :=
  [(0, 0, true); (0, 1, true); (1, 0, true); (1, 1, true); (2, 0, false); (0, 2, true); (0, 3, true);
   (2, 0, true); (2, 1, true); (1, 2, true); (1, 3, true); (0, 4, true); (0, 0, true); (0, 1, true)].
Definition state7 : st := St 0 [Thread user 10 11; Thread user 30 33; Thread user 100 101] log7.
Example C16_admission_ex : Forall fits three /\ polls 20 order7 (initial 2 three) = Some state7 /\
  disciplined three log7 /\ in_use three log7 = 2 /\ holders three log7 = 2.
Proof.
  split; [repeat constructor; vm_compute; discriminate|]. split; [vm_compute; reflexivity|]. split; [|split; vm_compute; reflexivity].
  intros a e b i E G. apply (disciplinedb_ok three log7 [] ltac:(vm_compute; reflexivity) a e b i E G).
Qed.

(** A waiting thread, when polled, gets the semaphore exactly when a unit is
    available, and otherwise nothing changes but the failed attempt. *)
Theorem C16_wakes : forall n progs fuel order s fuel' i k a b r s',
  0 <= n <= 65535 -> Forall fits progs -> polls fuel order (initial n progs) = Some s ->
  log s = a ++ (i, k, false) :: b -> Forall (fun e => who e <> i) b ->
  stmt_of progs (i, k, false) = Some WaitAcquire ->
  run fuel' i s = Some (r, s') ->
  exists more, log s' = log s ++ (i, k, 0 <? count s) :: more /\
    (count s <= 0 -> more = [] /\ r = true /\ count s' = count s).
Proof.
  intros n progs fuel order s fuel' i k a b r s' N F P L NB W R. pose proof (polls_ok n progs fuel order _ _ F (inv_initial n progs) P) as I.
  destruct (run_ok n progs fuel' i s r s' F I R) as [_ (p & t & t' & k' & Pi & T & T' & B & FO & C & BA & AT & ev & E1 & E2 & E3 & E4)].
  assert (MB : mine i b = []) by (clear - NB; induction NB as [|e b H _ IH]; [reflexivity|]; cbn; destruct (Z.eqb_spec (who e) i); [contradiction|exact IH]).
  assert (WP : znth (fst p) k = Some WaitAcquire) by (unfold stmt_of, who, place in W; cbn [fst snd] in W; rewrite Pi in W; exact W).
  assert (KK : k' = Some k).
  { rewrite L, mine_app in FO. assert (MM : mine i ((i, k, false) :: b) = [(i, k, false)]) by (change ((i, k, false) :: b) with ([(i, k, false)] ++ b); rewrite mine_app, MB, app_nil_r; apply mine_all; repeat constructor). rewrite MM in FO. exact (follows_last _ _ _ _ _ FO eq_refl WP). }
  assert (RN : isRunning t = true).
  { unfold isRunning. destruct (Z.eqb_spec (ptState t) Invalid) as [SI|]; [|reflexivity]. exfalso. destruct (E3 ltac:(unfold isRunning; rewrite SI; reflexivity)) as [_ _].
    assert (FP : fits p) by (rewrite Forall_forall in F; apply F; unfold znth in Pi; destruct (i <? 0); [discriminate|]; apply nth_error_In in Pi; exact Pi).
    assert (FT : fitst t) by (unfold fitst; rewrite C, BA; exact FP).
    destruct (entry_at t k' FT AT) as [[_ H]|(_ & _ & [H|(k0 & H1 & H2)])]; [contradiction|congruence|]. rewrite KK in H1. injection H1 as <-. rewrite C in H2. congruence. }
  destruct (E4 k RN KK WP) as (more & M1 & M2). exists more. rewrite E1, M1. split; [reflexivity|exact M2].
Qed.
(** Thread 2 waits after the fifth statement; it is polled once in vain and once
    after thread 0 has released. *)
Example C16_wakes_ex : exists s s1 s2 s3,
  polls 20 [0; 1; 2] (initial 2 three) = Some s /\ count s = 0 /\
  log s = firstn 4 log7 ++ [(2, 0, false)] /\ stmt_of three (2, 0, false) = Some WaitAcquire /\
  run 20 2 s = Some (true, s1) /\ log s1 = log s ++ [(2, 0, false)] /\
  polls 20 [0] s = Some s2 /\ run 20 2 s2 = Some (true, s3) /\ log s3 = log s2 ++ [(2, 0, true); (2, 1, true)].
Proof. do 4 eexists. split; [vm_compute; reflexivity|]. split; [reflexivity|]. split; [reflexivity|]. split; [reflexivity|]. split; [vm_compute; reflexivity|]. split; [reflexivity|]. split; [vm_compute; reflexivity|]. split; [vm_compute; reflexivity|]. vm_compute. reflexivity. Qed.

(** Protothreads: every thread executes its statements in the order of its code,
    resuming after a yield and repeating only a failed wait; it is reported
    running exactly until it has left its code; then run() does nothing. *)
Theorem C16_control_flow : forall n progs fuel order s i p,
  Forall fits progs -> polls fuel order (initial n progs) = Some s -> znth progs i = Some p ->
  exists t due, znth (threads s) i = Some t /\
    follows (fst p) (Some 0) (mine i (log s)) due /\
    (isRunning t = false -> due = None \/ exists k, due = Some k /\ znth (fst p) k = None).
Proof.
  intros n progs fuel order s i p F P Pi. pose proof (polls_ok n progs fuel order _ _ F (inv_initial n progs) P) as I.
  destruct (inv_thread _ _ _ I i p Pi) as (t & k' & T & C & BA & FO & AT). exists t, k'. split; [exact T|]. split; [exact FO|].
  assert (FP : fits p) by (rewrite Forall_forall in F; apply F; unfold znth in Pi; destruct (i <? 0); [discriminate|]; apply nth_error_In in Pi; exact Pi).
  assert (FT : fitst t) by (unfold fitst; rewrite C, BA; exact FP).
  intro R. unfold isRunning in R. destruct (entry_at t k' FT AT) as [[_ H]|(_ & _ & [H|(k0 & H1 & H2)])].
  - destruct (Z.eqb_spec (ptState t) Invalid); [contradiction|discriminate].
  - left. exact H.
  - right. exists k0. rewrite <- C. auto.
Qed.
Example C16_control_flow_ex : mine 0 log7 = [(0, 0, true); (0, 1, true); (0, 2, true); (0, 3, true); (0, 4, true); (0, 0, true); (0, 1, true)] /\
  follows user (Some 0) (mine 0 log7) (Some 2).
Proof.
  split; [vm_compute; reflexivity|]. vm_compute mine. 
  eapply f_wait; [reflexivity|reflexivity|]. eapply f_step; [reflexivity|right; reflexivity|]. eapply f_step; [reflexivity|left; reflexivity|]. eapply f_step; [reflexivity|right; reflexivity|].
  eapply f_goto; [reflexivity|reflexivity|]. eapply f_wait; [reflexivity|reflexivity|]. eapply f_step; [reflexivity|right; reflexivity|]. constructor.
Qed.

(** What run() returns is isRunning(), and a finished thread executes nothing. *)
Theorem C16_finished : forall n progs fuel order s fuel' i t r s',
  Forall fits progs -> polls fuel order (initial n progs) = Some s -> znth (threads s) i = Some t ->
  run fuel' i s = Some (r, s') ->
  (exists t', znth (threads s') i = Some t' /\ r = isRunning t') /\
  (isRunning t = false -> r = false /\ log s' = log s /\ count s' = count s).
Proof.
  intros n progs fuel order s fuel' i t r s' F P T R. pose proof (polls_ok n progs fuel order _ _ F (inv_initial n progs) P) as I.
  destruct (run_ok n progs fuel' i s r s' F I R) as [_ (p & t0 & t' & k' & Pi & T0 & T' & B & FO & C & BA & AT & ev & E1 & E2 & E3 & E4)].
  rewrite T in T0. injection T0 as <-. split; [exists t'; auto|]. intro H. destruct (E3 H) as (-> & H2 & H3). rewrite app_nil_r in E1. auto.
Qed.
Example C16_finished_ex : exists s s1, polls 20 [0; 0] (initial 1 [([WaitAcquire; PtYield; Release; PtExit], 5)]) = Some s /\
  log s = [(0, 0, true); (0, 1, true); (0, 2, true); (0, 3, true)] /\ count s = 1 /\
  run 20 0 s = Some (false, s1) /\ log s1 = log s.
Proof. do 2 eexists. split; [vm_compute; reflexivity|]. split; [reflexivity|]. split; [reflexivity|]. split; [vm_compute; reflexivity|]. reflexivity. Qed.

(** Releasing more than 65535 units loses all of them: a thread waits although the
    semaphore was never acquired. *)
Theorem C16_release_wrap_refuted : exists n progs s,
  0 <= n <= 65535 /\ Forall fits progs /\ polls 10 [0; 0] (initial n progs) = Some s /\
  in_use progs (log s) = -1 /\ count s = 0 /\ log s = [(0, 0, true); (0, 1, false); (0, 1, false)].
Proof.
  exists 65535, [([Release; WaitAcquire], 1)], (St 0 [Thread [Release; WaitAcquire] 1 2] [(0, 0, true); (0, 1, false); (0, 1, false)]).
  split; [lia|]. split; [repeat constructor; vm_compute; discriminate|]. split; [vm_compute; reflexivity|]. split; [vm_compute; reflexivity|]. split; reflexivity.
Qed.

(** A wait in source line 65535 is the mark of a stopped thread: the thread counts
    as not running, and after its end run() executes its last part again.  One in
    line 65536 restarts the thread. *)
Theorem C16_long_file_refuted : exists progs s s' t,
  run 10 0 (initial 1 progs) = Some (true, s) /\ znth (threads s) 0 = Some t /\ isRunning t = false /\
  polls 10 [0; 0; 1; 1] s = Some s' /\
  log s' = [(0, 0, true); (0, 1, true); (0, 1, true); (1, 0, true); (1, 0, true)].
Proof.
  exists [([PtYield; Release], 65535); ([PtYield; Release], 65536)]. do 3 eexists. split; [vm_compute; reflexivity|]. split; [reflexivity|]. split; [reflexivity|]. split; [vm_compute; reflexivity|]. reflexivity.
Qed.

Print Assumptions C16_admission.
Print Assumptions C16_wakes.
Print Assumptions C16_control_flow.
Print Assumptions C16_finished.
Print Assumptions C16_release_wrap_refuted.
Print Assumptions C16_long_file_refuted.
