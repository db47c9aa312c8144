From Coq Require Import ZArith List Bool Lia.
From Verif Require Import Base SliceLemmas SemModel SemSpec.
Import ListNotations.
Open Scope Z_scope.

(** *** Counting *)
Definition effect progs (e : event) (c : Z) : option Z :=
  match stmt_of progs e with
  | Some WaitAcquire => if 0 <? c then (if held_true e then Some (u16 (c - 1)) else None)
                        else (if held_true e then None else Some c)
  | Some Release => Some (u16 (c + 1))
  | _ => Some c
  end.
Inductive replays progs (n : Z) : list event -> Z -> Prop :=
  | r_nil : replays progs n [] n
  | r_snoc l e c c' : replays progs n l c -> effect progs e c = Some c' -> 0 <= who e < zlen progs -> replays progs n (l ++ [e]) c'.

Lemma zlen_app' {A} (a b : list A) : zlen (a ++ b) = zlen a + zlen b.
Proof. unfold zlen. rewrite app_length. lia. Qed.

Lemma holds_snoc progs i l e : holds progs i (l ++ [e]) = holds progs i l + (if takes progs i e then 1 else 0) - (if gives progs i e then 1 else 0).
Proof.
  unfold holds. rewrite !filter_app, !zlen_app'. cbn [filter]. destruct (takes progs i e), (gives progs i e); cbn; lia.
Qed.

Lemma total_ext f g n : (forall i, 0 <= i < Z.of_nat n -> f i = g i) -> total f n = total g n.
Proof. induction n as [|n IH]; intro H; [reflexivity|]. cbn [total]. rewrite IH, (H (Z.of_nat n)) by (intros; try apply H; lia). reflexivity. Qed.
Lemma total_add f g n : total (fun i => f i + g i) n = total f n + total g n.
Proof. induction n as [|n IH]; cbn [total]; lia. Qed.
Lemma total_single j d n : 0 <= j < Z.of_nat n -> total (fun i => if j =? i then d else 0) n = d.
Proof.
  induction n as [|n IH]; intro H; [lia|]. cbn [total]. destruct (j =? Z.of_nat n) eqn:E.
  - rewrite (total_ext _ (fun _ => 0)) by (intros i Hi; replace (j =? i) with false by lia; reflexivity). replace (total (fun _ => 0) n) with 0; [lia|]. clear. induction n; cbn [total]; lia.
  - rewrite IH by lia. lia.
Qed.
Lemma total_nonneg f n : (forall i, 0 <= i < Z.of_nat n -> 0 <= f i) -> 0 <= total f n.
Proof. induction n as [|n IH]; intro H; cbn [total]; [lia|]. pose proof (H (Z.of_nat n)). assert (0 <= total f n) by (apply IH; intros; apply H; lia). lia. Qed.
Lemma total_le f g n : (forall i, 0 <= i < Z.of_nat n -> f i <= g i) -> total f n <= total g n.
Proof. induction n as [|n IH]; intro H; cbn [total]; [lia|]. pose proof (H (Z.of_nat n)). assert (total f n <= total g n) by (apply IH; intros; apply H; lia). lia. Qed.
Lemma total_ge f n j : (forall i, 0 <= i < Z.of_nat n -> 0 <= f i) -> 0 <= j < Z.of_nat n -> f j <= total f n.
Proof.
  induction n as [|n IH]; intros H J; [lia|]. cbn [total]. destruct (Z.eq_dec j (Z.of_nat n)) as [->|N].
  - assert (0 <= total f n) by (apply total_nonneg; intros; apply H; lia). lia.
  - assert (f j <= total f n) by (apply IH; [intros; apply H; lia|lia]). pose proof (H (Z.of_nat n)). lia.
Qed.

Definition delta progs (e : event) : Z :=
  match stmt_of progs e with Some WaitAcquire => if held_true e then 1 else 0 | Some Release => -1 | _ => 0 end.
Lemma in_use_snoc progs l e : 0 <= who e < zlen progs -> in_use progs (l ++ [e]) = in_use progs l + delta progs e.
Proof.
  intro W. unfold in_use. rewrite (total_ext _ (fun i => holds progs i l + (if who e =? i then delta progs e else 0))).
  - rewrite total_add, total_single; [reflexivity|exact W].
  - intros i _. rewrite holds_snoc. unfold takes, gives, delta. destruct (who e =? i); cbn [andb]; [|lia]. destruct (stmt_of progs e) as [[]|]; try lia; try (destruct (held_true e); lia).
Qed.

Lemma disciplined_prefix progs a b : disciplined progs (a ++ b) -> disciplined progs a.
Proof. intros D x e y i E G. apply (D x e (y ++ b) i); [rewrite E, <- app_assoc; reflexivity|exact G]. Qed.

Lemma holds_nonneg progs l i : disciplined progs l -> 0 <= holds progs i l.
Proof.
  induction l as [|e l IH] using rev_ind; intro D; [cbn; lia|]. rewrite holds_snoc. pose proof (IH (disciplined_prefix _ _ _ D)) as H.
  destruct (gives progs i e) eqn:G; [pose proof (D l e [] i eq_refl G)|]; destruct (takes progs i e); lia.
Qed.

Lemma replay_count progs n l c : 0 <= n <= 65535 -> replays progs n l c -> disciplined progs l -> c = n - in_use progs l /\ 0 <= in_use progs l <= n.
Proof.
  intros N R. induction R as [|l e c c' R IH E W]; intro D.
  - assert (Z0 : in_use progs [] = 0); [|lia]. unfold in_use. rewrite (total_ext _ (fun _ => 0)) by reflexivity. generalize (length progs). intro k. induction k; cbn [total]; lia.
  - destruct (IH (disciplined_prefix _ _ _ D)) as [C U]. rewrite (in_use_snoc _ _ _ W). unfold effect in E. unfold delta.
    assert (G : stmt_of progs e = Some Release -> 1 <= in_use progs l).
    { intro S. assert (GV : gives progs (who e) e = true) by (unfold gives; rewrite Z.eqb_refl, S; reflexivity). pose proof (D l e [] (who e) eq_refl GV) as H.
      pose proof (total_ge (fun i => holds progs i l) (length progs) (who e) (fun i _ => holds_nonneg progs l i (disciplined_prefix _ _ _ D)) W) as T. unfold in_use. cbv beta in T. lia. }
    destruct (stmt_of progs e) as [[]|]; try (injection E as <-; lia).
    + destruct (0 <? c) eqn:P; destruct (held_true e); try discriminate; injection E as <-; [|lia]. unfold u16. rewrite Z.mod_small by lia. lia.
    + specialize (G eq_refl). injection E as <-. unfold u16. rewrite Z.mod_small by lia. lia.
Qed.

Lemma replay_prefix progs n l c : replays progs n l c -> forall a b, l = a ++ b -> exists c', replays progs n a c'.
Proof.
  induction 1 as [|l e c c' R IH E W]; intros a b L.
  - symmetry in L. apply app_eq_nil in L. destruct L as [-> _]. eexists. constructor.
  - destruct b as [|x b] using rev_ind; [rewrite app_nil_r in L; subst a; eexists; econstructor; eassumption|]. rewrite app_assoc in L. apply app_inj_tail in L. destruct L as [L _]. apply (IH a b L).
Qed.

(** *** Control flow *)
Definition at_ (t : thread) (k' : option Z) : Prop :=
  (ptState t = 0 /\ k' = Some 0) \/
  (exists j, ptState t = base t + j /\ znth (code t) j = Some WaitAcquire /\ k' = Some j) \/
  (exists j, ptState t = base t + j /\ znth (code t) j = Some PtYield /\ k' = Some (j + 1)) \/
  (ptState t = Invalid /\ (k' = None \/ exists k, k' = Some k /\ znth (code t) k = None)).

Definition mine (i : Z) (l : list event) : list event := filter (fun e => who e =? i) l.

Lemma follows_app c k l k1 l2 k2 : follows c k l k1 -> follows c k1 l2 k2 -> follows c k (l ++ l2) k2.
Proof.
  induction 1; intro F; cbn [app]; [exact F| | | | |].
  - eapply f_wait; eauto.
  - eapply f_step; eauto.
  - eapply f_goto; eauto.
  - eapply f_restart; eauto.
  - eapply f_exit; eauto.
Qed.

Lemma znth_Some_range {A} (l : list A) i x : znth l i = Some x -> 0 <= i < zlen l.
Proof.
  unfold znth, zlen. destruct (i <? 0) eqn:E; [discriminate|]. intro H.
  assert (nth_error l (Z.to_nat i) <> None) by congruence. apply nth_error_Some in H0. lia.
Qed.

Definition fitst (t : thread) : Prop := 1 <= base t /\ base t + zlen (code t) <= 65535.
Lemma set_line_state t k x : fitst t -> znth (code t) k = Some x -> ptState (set_line t k) = base t + k /\ 1 <= base t + k < 65535.
Proof. intros [F1 F2] H. apply znth_Some_range in H. cbn. unfold u16. rewrite Z.mod_small by lia. lia. Qed.

Lemma go_ok progs n i p : znth progs i = Some p -> forall fuel k t c l b t' c' l', code t = fst p -> base t = snd p -> fits p ->
  go fuel i k t c l = Some (b, t', c', l') -> replays progs n l c ->
  code t' = code t /\ base t' = base t /\ replays progs n l' c' /\ b = isRunning t' /\
  exists ev k', l' = l ++ ev /\ Forall (fun e => who e = i) ev /\ follows (fst p) (Some k) ev k' /\ at_ t' k' /\
   (znth (fst p) k <> None -> ev <> []) /\
   (znth (fst p) k = Some WaitAcquire -> exists more, ev = (i, k, 0 <? c) :: more /\ (c <= 0 -> more = [] /\ b = true /\ c' = c)).
Proof.
  intros P. pose proof (znth_Some_range _ _ _ P) as IR. induction fuel as [|fuel IH]; intros k t c l b t' c' l' C B F G R; [discriminate|].
  assert (FT : fitst t) by (unfold fitst; rewrite C, B; exact F).
  assert (SN : forall x c1 h, znth (fst p) k = Some x -> effect progs (i, k, h) c = Some c1 -> replays progs n (l ++ [(i, k, h)]) c1).
  { intros x c1 h X E. eapply r_snoc; [exact R|exact E|exact IR]. }
  assert (SO : forall h, stmt_of progs (i, k, h) = znth (fst p) k) by (intro h; unfold stmt_of, who, place; cbn [fst snd]; rewrite P; reflexivity).
  assert (RUN0 : forall tt, ptState tt <> Invalid -> true = isRunning tt) by (intros tt H; unfold isRunning; destruct (Z.eqb_spec (ptState tt) Invalid); [contradiction|reflexivity]).
  cbn [go] in G. rewrite C in G. destruct (znth (fst p) k) as [x|] eqn:X.
  - destruct x as [| | |g| |].
    + unfold acquire in G. destruct (0 <? c) eqn:PC.
      * apply IH in G; [|exact C|exact B|exact F|apply (SN WaitAcquire); [reflexivity|unfold effect; rewrite SO, PC; reflexivity]].
        destruct G as (G1 & G2 & G3 & G4 & ev & k' & E1 & E2 & E3 & E4 & _ & _). split; [exact G1|]. split; [exact G2|]. split; [exact G3|]. split; [exact G4|].
        exists ((i, k, true) :: ev), k'. split; [rewrite E1, <- app_assoc; reflexivity|]. split; [constructor; [reflexivity|exact E2]|]. split; [eapply f_wait; [reflexivity|exact X|exact E3]|]. split; [exact E4|]. split; [discriminate|]. intros _. exists ev. split; [reflexivity|lia].
      * injection G as <- <- <- <-. assert (X' : znth (code t) k = Some WaitAcquire) by (rewrite C; exact X). destruct (set_line_state t k _ FT X') as [S1 S2].
        split; [reflexivity|]. split; [reflexivity|]. split; [apply (SN WaitAcquire); [reflexivity|unfold effect; rewrite SO, PC; reflexivity]|]. split; [apply RUN0; rewrite S1; unfold Invalid; lia|].
        exists [(i, k, false)], (Some k). split; [reflexivity|]. split; [repeat constructor|]. split; [eapply f_wait; [reflexivity|exact X|constructor]|]. split; [right; left; exists k; auto|]. split; [discriminate|]. intros _. exists []. auto.
    + apply IH in G; [|exact C|exact B|exact F|apply (SN Release); [reflexivity|unfold effect; rewrite SO; reflexivity]].
      destruct G as (G1 & G2 & G3 & G4 & ev & k' & E1 & E2 & E3 & E4 & _ & _). split; [exact G1|]. split; [exact G2|]. split; [exact G3|]. split; [exact G4|].
      exists ((i, k, true) :: ev), k'. split; [rewrite E1, <- app_assoc; reflexivity|]. split; [constructor; [reflexivity|exact E2]|]. split; [eapply f_step; [reflexivity|left; exact X|exact E3]|]. split; [exact E4|]. split; [discriminate|discriminate].
    + injection G as <- <- <- <-. assert (X' : znth (code t) k = Some PtYield) by (rewrite C; exact X). destruct (set_line_state t k _ FT X') as [S1 S2].
      split; [reflexivity|]. split; [reflexivity|]. split; [apply (SN PtYield); [reflexivity|unfold effect; rewrite SO; reflexivity]|]. split; [apply RUN0; rewrite S1; unfold Invalid; lia|].
      exists [(i, k, true)], (Some (k + 1)). split; [reflexivity|]. split; [repeat constructor|]. split; [eapply f_step; [reflexivity|right; exact X|constructor]|]. split; [right; right; left; exists k; auto|]. split; [discriminate|discriminate].
    + apply IH in G; [|exact C|exact B|exact F|apply (SN (Goto g)); [reflexivity|unfold effect; rewrite SO; reflexivity]].
      destruct G as (G1 & G2 & G3 & G4 & ev & k' & E1 & E2 & E3 & E4 & _ & _). split; [exact G1|]. split; [exact G2|]. split; [exact G3|]. split; [exact G4|].
      exists ((i, k, true) :: ev), k'. split; [rewrite E1, <- app_assoc; reflexivity|]. split; [constructor; [reflexivity|exact E2]|]. split; [eapply f_goto; [reflexivity|exact X|exact E3]|]. split; [exact E4|]. split; [discriminate|discriminate].
    + injection G as <- <- <- <-. split; [reflexivity|]. split; [reflexivity|]. split; [apply (SN PtExit); [reflexivity|unfold effect; rewrite SO; reflexivity]|]. split; [reflexivity|].
      exists [(i, k, true)], None. split; [reflexivity|]. split; [repeat constructor|]. split; [eapply f_exit; [reflexivity|exact X|constructor]|]. split; [right; right; right; split; [reflexivity|left; reflexivity]|]. split; [discriminate|discriminate].
    + injection G as <- <- <- <-. split; [reflexivity|]. split; [reflexivity|]. split; [apply (SN PtRestart); [reflexivity|unfold effect; rewrite SO; reflexivity]|]. split; [reflexivity|].
      exists [(i, k, true)], (Some 0). split; [reflexivity|]. split; [repeat constructor|]. split; [eapply f_restart; [reflexivity|exact X|constructor]|]. split; [left; split; reflexivity|]. split; [discriminate|discriminate].
  - injection G as <- <- <- <-. split; [reflexivity|]. split; [reflexivity|]. split; [exact R|]. split; [reflexivity|].
    exists [], (Some k). split; [rewrite app_nil_r; reflexivity|]. split; [constructor|]. split; [constructor|]. split; [right; right; right; split; [reflexivity|right; exists k; split; [reflexivity|cbn; rewrite C; exact X]]|]. split; [congruence|discriminate].
Qed.

Record inv (n : Z) (progs : list (list stmt * Z)) (s : st) : Prop := {
  inv_len : zlen (threads s) = zlen progs;
  inv_replay : replays progs n (log s) (count s);
  inv_thread : forall i p, znth progs i = Some p -> exists t k', znth (threads s) i = Some t /\ code t = fst p /\ base t = snd p /\
      follows (fst p) (Some 0) (mine i (log s)) k' /\ at_ t k' }.

Lemma mine_app i a b : mine i (a ++ b) = mine i a ++ mine i b.
Proof. apply filter_app. Qed.
Lemma mine_all i l : Forall (fun e => who e = i) l -> mine i l = l.
Proof. induction 1 as [|e l E _ IH]; [reflexivity|]. cbn. rewrite E, Z.eqb_refl. unfold mine in IH. rewrite IH. reflexivity. Qed.
Lemma mine_none i j l : i <> j -> Forall (fun e => who e = i) l -> mine j l = [].
Proof. intro N. induction 1 as [|e l E _ IH]; [reflexivity|]. cbn. rewrite E. replace (i =? j) with false by lia. exact IH. Qed.

Lemma entry_at t k' : fitst t -> at_ t k' -> (entry t = k' /\ ptState t <> Invalid) \/ (entry t = None /\ ptState t = Invalid /\ (k' = None \/ exists k, k' = Some k /\ znth (code t) k = None)).
Proof.
  intros [F1 F2] A. destruct A as [[A1 A2]|[(j & A1 & A2 & A3)|[(j & A1 & A2 & A3)|[A1 A2]]]]; unfold entry.
  - rewrite A1. left. split; [symmetry; exact A2|unfold Invalid; lia].
  - pose proof (znth_Some_range _ _ _ A2). rewrite A1. replace (base t + j =? 0) with false by lia. replace (base t + j - base t) with j by lia. rewrite A2. left. split; [symmetry; exact A3|unfold Invalid; lia].
  - pose proof (znth_Some_range _ _ _ A2). rewrite A1. replace (base t + j =? 0) with false by lia. replace (base t + j - base t) with j by lia. rewrite A2. left. split; [symmetry; exact A3|unfold Invalid; lia].
  - right. split; [|split; [exact A1|exact A2]]. rewrite A1. unfold Invalid. cbn [Z.eqb]. destruct (znth (code t) (65535 - base t)) eqn:E; [|reflexivity]. apply znth_Some_range in E. lia.
Qed.

Lemma inv_initial n progs : inv n progs (initial n progs).
Proof.
  constructor; cbn [initial threads log count].
  - unfold zlen. rewrite map_length. reflexivity.
  - constructor.
  - intros i p P. exists (new_thread (fst p) (snd p)), (Some 0). split; [|split; [reflexivity|split; [reflexivity|split; [constructor|left; split; reflexivity]]]].
    unfold znth in *. destruct (i <? 0); [discriminate|]. rewrite nth_error_map, P. reflexivity.
Qed.

Lemma znth_in_range {A} (l : list A) i : 0 <= i < zlen l -> exists x, znth l i = Some x.
Proof. intro H. unfold znth, zlen in *. replace (i <? 0) with false by lia. destruct (nth_error l (Z.to_nat i)) eqn:E; [eauto|]. apply nth_error_None in E. lia. Qed.

Lemma run_ok n progs fuel i s b s' : Forall fits progs -> inv n progs s -> run fuel i s = Some (b, s') ->
  inv n progs s' /\ exists p t t' k', znth progs i = Some p /\ znth (threads s) i = Some t /\ znth (threads s') i = Some t' /\ b = isRunning t' /\
    follows (fst p) (Some 0) (mine i (log s)) k' /\ code t = fst p /\ base t = snd p /\ at_ t k' /\
    exists ev, log s' = log s ++ ev /\ Forall (fun e => who e = i) ev /\ (isRunning t = false -> ev = [] /\ b = false /\ count s' = count s) /\
    (forall k, isRunning t = true -> k' = Some k -> znth (fst p) k = Some WaitAcquire -> exists more, ev = (i, k, 0 <? count s) :: more /\ (count s <= 0 -> more = [] /\ b = true /\ count s' = count s)).
Proof.
  intros FA I G. unfold run in G. destruct (znth (threads s) i) as [t|] eqn:T; [|discriminate]. cbn [obind] in G.
  pose proof (znth_Some_range _ _ _ T) as RT. rewrite (inv_len _ _ _ I) in RT. destruct (znth_in_range progs i RT) as [p P].
  assert (F : fits p). { rewrite Forall_forall in FA. apply FA. unfold znth in P. destruct (i <? 0); [discriminate|]. apply nth_error_In in P. exact P. }
  destruct (inv_thread _ _ _ I i p P) as (t0 & k' & T0 & C & B & FO & AT). rewrite T in T0. injection T0 as <-.
  assert (FT : fitst t) by (unfold fitst; rewrite C, B; exact F).
  destruct (entry_at t k' FT AT) as [[E NE]|(E & SI & KN)].
  - destruct k' as [k|]; [|].
    + rewrite E in G. destruct (go fuel i k t (count s) (log s)) as [[[[b0 t'] c'] l']|] eqn:GO; [|discriminate]. cbn [obind] in G.
      destruct (go_ok progs n i p P fuel k t (count s) (log s) b0 t' c' l' C B F GO (inv_replay _ _ _ I)) as (G1 & G2 & G3 & G4 & ev & k2 & E1 & E2 & E3 & E4 & E5 & E6).
      assert (RT2 : 0 <= i < zlen (threads s)) by (rewrite (inv_len _ _ _ I); exact RT).
      destruct (zupd_in_range (threads s) i t' RT2) as (ts & U & UL & UG). rewrite U in G. cbn [obind] in G. injection G as <- <-. cbn [threads log count]. split.
      * constructor; cbn [threads log count]; [rewrite UL; apply (inv_len _ _ _ I)|exact G3|]. intros j q Q. destruct (Z.eq_dec j i) as [->|N].
        -- rewrite P in Q. injection Q as <-. exists t', k2. rewrite UG, Z.eqb_refl. split; [reflexivity|]. split; [congruence|]. split; [congruence|]. split; [|exact E4].
           rewrite E1, mine_app, (mine_all i ev E2). eapply follows_app; eassumption.
        -- destruct (inv_thread _ _ _ I j q Q) as (tj & kj & H1 & H2 & H3 & H4 & H5). exists tj, kj. rewrite UG. replace (j =? i) with false by lia. split; [exact H1|]. split; [exact H2|]. split; [exact H3|]. split; [|exact H5].
           rewrite E1, mine_app, (mine_none i j ev ltac:(lia) E2), app_nil_r. exact H4.
      * exists p, t, t', (Some k). rewrite UG, Z.eqb_refl. split; [exact P|]. split; [reflexivity|]. split; [reflexivity|]. split; [exact G4|]. split; [exact FO|]. split; [exact C|]. split; [exact B|]. split; [exact AT|].
        exists ev. split; [exact E1|]. split; [exact E2|]. split; [intro H; exfalso; unfold isRunning in H; destruct (Z.eqb_spec (ptState t) Invalid); [contradiction|discriminate]|].
        intros k0 _ K0 W. injection K0 as <-. exact (E6 W).
    + exfalso. destruct AT as [[_ H]|[(j & _ & _ & H)|[(j & _ & _ & H)|[H _]]]]; [discriminate|discriminate|discriminate|contradiction].
  - rewrite E in G. assert (RT2 : 0 <= i < zlen (threads s)) by (rewrite (inv_len _ _ _ I); exact RT).
    destruct (zupd_in_range (threads s) i (stop t) RT2) as (ts & U & UL & UG). rewrite U in G. cbn [obind] in G. injection G as <- <-. cbn [threads log count]. split.
    + constructor; cbn [threads log count]; [rewrite UL; apply (inv_len _ _ _ I)|apply (inv_replay _ _ _ I)|]. intros j q Q. destruct (Z.eq_dec j i) as [->|N].
      * rewrite P in Q. injection Q as <-. exists (stop t), k'. rewrite UG, Z.eqb_refl. split; [reflexivity|]. split; [exact C|]. split; [exact B|]. split; [exact FO|]. right. right. right. split; [reflexivity|exact KN].
      * destruct (inv_thread _ _ _ I j q Q) as (tj & kj & H1 & H). exists tj, kj. rewrite UG. replace (j =? i) with false by lia. split; [exact H1|exact H].
    + exists p, t, (stop t), k'. rewrite UG, Z.eqb_refl. split; [exact P|]. split; [reflexivity|]. split; [reflexivity|]. split; [reflexivity|]. split; [exact FO|]. split; [exact C|]. split; [exact B|]. split; [exact AT|].
      exists []. rewrite app_nil_r. split; [reflexivity|]. split; [constructor|]. split; [auto|]. intros k H. unfold isRunning in H. rewrite SI in H. discriminate.
Qed.

Lemma polls_ok n progs fuel order : forall s s', Forall fits progs -> inv n progs s -> polls fuel order s = Some s' -> inv n progs s'.
Proof.
  induction order as [|i order IH]; intros s s' F I P; cbn [polls] in P; [injection P as <-; exact I|].
  destruct (run fuel i s) as [[b s1]|] eqn:R; [|discriminate]. cbn [obind snd] in P. destruct (run_ok n progs fuel i s b s1 F I R) as [I1 _]. exact (IH s1 s' F I1 P).
Qed.

Lemma follows_last c k a e k' : follows c k (a ++ [e]) k' -> held_true e = false -> znth c (place e) = Some WaitAcquire -> k' = Some (place e).
Proof.
  revert k. induction a as [|x a IH]; intros k F H W; cbn [app] in F.
  - inversion F as [|? ? ? ? PE CW F2|? ? ? ? PE CW F2|? ? ? ? ? PE CW F2|? ? ? ? PE CW F2|? ? ? ? PE CW F2]; subst; try (rewrite CW in W; discriminate); try (destruct CW as [CW|CW]; rewrite CW in W; discriminate).
    rewrite H in F2. inversion F2. reflexivity.
  - inversion F; subst; eapply IH; eassumption.
Qed.
