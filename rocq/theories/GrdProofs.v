(* Proofs about the one-time construction. *)
From Verif Require Import Base GrdModel GrdSpec.

Lemma move_same f i p : move f i p i = p. Proof. unfold move. now rewrite Nat.eqb_refl. Qed.
Lemma move_other f i p j : j <> i -> move f i p j = f j. Proof. intros N. unfold move. now destruct (Nat.eqb_spec j i). Qed.
Lemma move_case f i p j q : move f i p j = q -> (j = i /\ p = q) \/ (j <> i /\ f j = q).
Proof. unfold move. destruct (Nat.eqb_spec j i); auto. Qed.

Definition busyb (p : pc) : bool := match p with Constructing | AtRelease | AtAbort => true | _ => false end.
Lemma busy_b p : busy p <-> busyb p = true.
Proof. unfold busy. destruct p; cbn; intuition discriminate. Qed.

(* always *)
Record inv (s : st) : Prop := {
  v_g : guard s = 0 \/ guard s = 1 \/ guard s = 256;
  v_one : forall i j, busyb (at_ s i) = true -> busyb (at_ s j) = true -> i = j;
  v_busy : forall i, busyb (at_ s i) = true -> guard s = 256;
  v_ing : guard s = 256 -> exists i, busyb (at_ s i) = true }.
Lemma inv_init : inv init.
Proof. split; cbn; try discriminate; auto. Qed.
Ltac mc := repeat match goal with H : _ = true |- _ => progress (rewrite ?move_same in H) end.
Lemma inv_step1 s i t s' : inv s -> step1 i t s = Some s' -> inv s'.
Proof.
  intros [G O B N] E. unfold step1 in E.
  assert (K : forall g p b, (g = 0 \/ g = 1 \/ g = 256) ->
    (forall j, j <> i -> busyb (at_ s j) = true -> busyb p = false /\ g = 256) -> (busyb p = true -> g = 256) ->
    (g = 256 -> busyb p = true \/ exists j, j <> i /\ busyb (at_ s j) = true) -> inv (St g (move (at_ s) i p) b)).
  { intros g p b G' OT BU NN. split; cbn [guard at_].
    - exact G'.
    - intros a c. unfold move. destruct (Nat.eqb_spec a i) as [->|NA], (Nat.eqb_spec c i) as [->|NC]; intros X Y; auto.
      + destruct (OT c NC Y); congruence.
      + destruct (OT a NA X); congruence.
    - intros a. unfold move. destruct (Nat.eqb_spec a i) as [->|NA]; intros X; [now apply BU|now apply (OT a)].
    - intros X. destruct (NN X) as [Y|(j & NJ & Y)].
      + exists i. now rewrite move_same.
      + exists j. now rewrite move_other. }
  assert (Q : busyb (at_ s i) = false -> guard s = 256 -> exists j, j <> i /\ busyb (at_ s j) = true).
  { intros X Y. destruct (N Y) as [j J]. exists j. split; [|exact J]. intros ->. congruence. }
  destruct (at_ s i) eqn:A; try discriminate; injection E as <-.
  - destruct (Z.odd (guard s)); apply K; try exact G; try (intros j NJ Y; split; [reflexivity|now apply (B j)]); intros X; solve [discriminate X | right; now apply Q].
  - destruct (guard s =? INITIALIZED); apply K; try exact G; try (intros j NJ Y; split; [reflexivity|now apply (B j)]); intros X; solve [discriminate X | right; now apply Q].
  - apply K; auto; unfold INITIALIZING; [intros j NJ Y|].
    + rewrite (B j Y). cbn. auto.
    + intros _. destruct (Z.eqb_spec (guard s) 256) as [X|X]; cbn; auto.
  - assert (forall j, j <> i -> busyb (at_ s j) = true -> False) as NO by (intros j NJ Y; apply NJ, O; [exact Y|now rewrite A]).
    assert (guard s = 256) as X by (apply (B i); now rewrite A).
    destruct t; apply K; auto; try (intros j NJ Y; now destruct (NO j NJ Y)).
  - assert (forall j, j <> i -> busyb (at_ s j) = true -> False) as NO by (intros j NJ Y; apply NJ, O; [exact Y|now rewrite A]).
    apply K; unfold INITIALIZED; auto; try discriminate; intros j NJ Y; now destruct (NO j NJ Y).
  - assert (forall j, j <> i -> busyb (at_ s j) = true -> False) as NO by (intros j NJ Y; apply NJ, O; [exact Y|now rewrite A]).
    apply K; unfold UNINITIALIZED; auto; try discriminate; intros j NJ Y; now destruct (NO j NJ Y).
  - apply K; auto; [intros j NJ Y; split; auto; now apply (B j)|discriminate].
  - apply K; auto; [intros j NJ Y; split; auto; now apply (B j)|discriminate].
Qed.
Lemma runs_inv s : runs s -> inv s.
Proof. induction 1; [apply inv_init|eapply inv_step1; eassumption]. Qed.

(* without a step between load and exchange *)
Record winv (s : st) : Prop := {
  u_inv : inv s;
  u_0 : guard s = 0 -> built s = 0;
  u_1 : guard s = 1 -> built s = 1 /\ forall i, at_ s i <> AtExchange;
  u_2 : forall i, at_ s i = AtRelease -> built s = 1;
  u_3 : forall i, at_ s i = Constructing \/ at_ s i = AtAbort -> built s = 0;
  u_use : forall i, at_ s i = Using -> guard s = 1;
  u_stop : forall i, at_ s i = Stopped -> guard s = 256 }.
Lemma winv_init : winv init.
Proof. split; cbn; auto; try discriminate; try apply inv_init. Qed.
Lemma winv_step s i t s' : winv s -> (forall j, at_ s j <> Stopped) -> (forall j, at_ s j = AtExchange -> j = i) -> step1 i t s = Some s' -> winv s'.
Proof.
  intros [I U0 U1 U2 U3 UU US] NS NW E. pose proof (inv_step1 s i t s' I E) as I'. destruct I as [G O B N]. unfold step1 in E.
  assert (NX : at_ s i <> AtExchange -> forall j, at_ s j <> AtExchange) by (intros X j Y; apply X; rewrite <- (NW j Y); exact Y).
  assert (OB : busyb (at_ s i) = true -> forall j, j <> i -> busyb (at_ s j) = true -> False) by (intros X j NJ Y; now apply NJ, O).
  destruct (at_ s i) eqn:A; try discriminate; injection E as <-; (split; [exact I'|..]); cbn [guard at_ built] in *;
    try (assert (guard s = 256) as G2 by (apply (B i); now rewrite A)).
  (* Test *)
  - exact U0.
  - intros X. destruct (U1 X) as [Y Z]. split; [exact Y|]. intros j. unfold move. rewrite X. cbn. destruct (Nat.eqb j i); [discriminate|apply Z].
  - intros j X. apply move_case in X as [[-> X]|[NJ X]]; [destruct (Z.odd (guard s)); discriminate|now apply (U2 j)].
  - intros j X. apply (U3 j). destruct X as [X|X]; apply move_case in X as [[-> X]|[NJ X]]; auto; destruct (Z.odd (guard s)); discriminate.
  - intros j X. apply move_case in X as [[-> X]|[NJ X]]; [|now apply (UU j)]. destruct G as [Y|[Y|Y]]; rewrite Y in *; cbn in X; (reflexivity || discriminate X).
  - intros j X. apply move_case in X as [[-> X]|[NJ X]]; [destruct (Z.odd (guard s)); discriminate|now apply (US j)].
  (* AtLoad *)
  - exact U0.
  - intros X. destruct (U1 X) as [Y Z]. split; [exact Y|]. intros j. unfold move. rewrite X. cbn. destruct (Nat.eqb j i); [discriminate|apply Z].
  - intros j X. apply move_case in X as [[-> X]|[NJ X]]; [destruct (guard s =? INITIALIZED); discriminate|now apply (U2 j)].
  - intros j X. apply (U3 j). destruct X as [X|X]; apply move_case in X as [[-> X]|[NJ X]]; auto; destruct (guard s =? INITIALIZED); discriminate.
  - intros j X. apply move_case in X as [[-> X]|[NJ X]]; [|now apply (UU j)]. destruct (Z.eqb_spec (guard s) INITIALIZED) as [Y|Y]; [exact Y|discriminate].
  - intros j X. apply move_case in X as [[-> X]|[NJ X]]; [destruct (guard s =? INITIALIZED); discriminate|now apply (US j)].
  (* AtExchange *)
  - discriminate.
  - discriminate.
  - intros j X. apply move_case in X as [[-> X]|[NJ X]]; [destruct (guard s =? INITIALIZING); discriminate|now apply (U2 j)].
  - assert (guard s <> 1) as NG by (intros Y; now apply (proj2 (U1 Y) i)).
    intros j X. destruct X as [X|X]; apply move_case in X as [[-> X]|[NJ X]]; try (apply (U3 j); now auto).
    + destruct (Z.eqb_spec (guard s) INITIALIZING) as [Y|Y]; [discriminate|]. unfold INITIALIZING in Y. apply U0. tauto.
    + destruct (Z.eqb_spec (guard s) INITIALIZING) as [Y|Y]; discriminate.
  - intros j X. apply move_case in X as [[-> X]|[NJ X]]; [destruct (guard s =? INITIALIZING); discriminate|]. exfalso. now apply (proj2 (U1 (UU j X)) i).
  - reflexivity.
  (* Constructing *)
  - destruct t; cbn [guard]; lia.
  - destruct t; cbn [guard]; lia.
  - intros j X. destruct t; cbn [built at_] in *; apply move_case in X as [[-> X]|[NJ X]]; try discriminate.
    + now apply (U2 j).
    + rewrite (U3 i) by auto. reflexivity.
    + exfalso. apply (OB eq_refl j NJ). now rewrite X.
  - intros j X. destruct t; cbn [built at_] in *; destruct X as [X|X]; apply move_case in X as [[-> X]|[NJ X]]; try discriminate; try (apply (U3 j); now auto);
      try (apply (U3 i); now auto); exfalso; apply (OB eq_refl j NJ); now rewrite X.
  - intros j X. exfalso. destruct t; cbn [built at_] in *; (apply move_case in X as [[-> X]|[NJ X]]; [discriminate|]); pose proof (UU j X); lia.
  - intros j X. destruct t; cbn [guard at_] in *; (apply move_case in X as [[-> X]|[NJ X]]; [discriminate|exact G2]).
  (* AtRelease *)
  - discriminate.
  - intros _. split; [now apply (U2 i)|]. intros j X. apply move_case in X as [[-> X]|[NJ X]]; [discriminate|]. apply NJ. now apply NW.
  - intros j X. apply move_case in X as [[-> X]|[NJ X]]; [discriminate|now apply (U2 j)].
  - intros j X. exfalso. destruct X as [X|X]; (apply move_case in X as [[-> X]|[NJ X]]; [discriminate|]); apply (OB eq_refl j NJ); now rewrite X.
  - reflexivity.
  - intros j X. apply move_case in X as [[-> X]|[NJ X]]; [discriminate|]. now destruct (NS j).
  (* AtAbort *)
  - intros _. apply (U3 i). now right.
  - discriminate.
  - intros j X. apply move_case in X as [[-> X]|[NJ X]]; [discriminate|now apply (U2 j)].
  - intros j X. apply (U3 j). destruct X as [X|X]; apply move_case in X as [[-> X]|[NJ X]]; try discriminate; auto.
  - intros j X. apply move_case in X as [[-> X]|[NJ X]]; [discriminate|]. pose proof (UU j X). lia.
  - intros j X. apply move_case in X as [[-> X]|[NJ X]]; [discriminate|]. now destruct (NS j).
  (* Using, Thrown *)
  - exact U0.
  - intros X. destruct (U1 X) as [Y Z]. split; [exact Y|]. intros j. unfold move. destruct (Nat.eqb j i); [discriminate|apply Z].
  - intros j X. apply move_case in X as [[-> X]|[NJ X]]; [discriminate|now apply (U2 j)].
  - intros j X. apply (U3 j). destruct X as [X|X]; apply move_case in X as [[-> X]|[NJ X]]; try discriminate; auto.
  - intros j X. apply move_case in X as [[-> X]|[NJ X]]; [discriminate|now apply (UU j)].
  - intros j X. apply move_case in X as [[-> X]|[NJ X]]; [discriminate|now apply (US j)].
  - exact U0.
  - intros X. destruct (U1 X) as [Y Z]. split; [exact Y|]. intros j. unfold move. destruct (Nat.eqb j i); [discriminate|apply Z].
  - intros j X. apply move_case in X as [[-> X]|[NJ X]]; [discriminate|now apply (U2 j)].
  - intros j X. apply (U3 j). destruct X as [X|X]; apply move_case in X as [[-> X]|[NJ X]]; try discriminate; auto.
  - intros j X. apply move_case in X as [[-> X]|[NJ X]]; [discriminate|now apply (UU j)].
  - intros j X. apply move_case in X as [[-> X]|[NJ X]]; [discriminate|now apply (US j)].
Qed.
Lemma windowless_winv s : runs_windowless s -> winv s.
Proof. induction 1; [apply winv_init|eapply winv_step; eassumption]. Qed.
Lemma runs_stop s i : runs s -> at_ s i = Stopped -> guard s = 256.
Proof.
  intros R. destruct R as [|s k t s' R NS E]; [discriminate|]. unfold step1 in E. intros X.
  destruct (at_ s k) eqn:A; try discriminate; injection E as <-; cbn [guard at_] in *;
    try (apply move_case in X as [[-> X]|[NJ X]]; [try discriminate X|now destruct (NS i)]).
  - destruct (Z.odd (guard s)); discriminate X.
  - destruct (guard s =? INITIALIZED); discriminate X.
  - reflexivity.
  - destruct t; cbn in X; (apply move_case in X as [[-> X]|[NJ X]]; [discriminate X|now destruct (NS i)]).
Qed.
(* executions of contexts 0..2, checked by computation *)
Definition free (win : bool) (i : nat) (s : st) : bool :=
  forallb (fun j => match at_ s j with Stopped => false | AtExchange => negb win || Nat.eqb j i | _ => true end) [0; 1; 2]%nat.
Fixpoint play (win : bool) (l : list (nat * bool)) (s : st) : option st :=
  match l with [] => Some s | (i, t) :: l => if Nat.ltb i 3 && free win i s then do s' <- step1 i t s; play win l s' else None end.
Lemma step1_other i t s s' j : step1 i t s = Some s' -> j <> i -> at_ s' j = at_ s j.
Proof.
  intros E N. unfold step1 in E. destruct (at_ s i); try discriminate; try (injection E as <-; cbn [at_]; now rewrite move_other).
  destruct t; injection E as <-; cbn [at_]; now rewrite move_other.
Qed.
Lemma free_ok win i s : free win i s = true -> (forall j, (3 <= j)%nat -> at_ s j = Test) ->
  (forall j, at_ s j <> Stopped) /\ (win = true -> forall j, at_ s j = AtExchange -> j = i).
Proof.
  intros F T. unfold free in F. rewrite forallb_forall in F.
  assert (forall j, (j < 3)%nat -> In j [0; 1; 2]%nat) as IN by (intros j L; cbn; lia).
  split; [intros j|intros W j X]; destruct (Nat.lt_ge_cases j 3) as [L|L].
  - specialize (F j (IN j L)). destruct (at_ s j); discriminate.
  - rewrite (T j L). discriminate.
  - specialize (F j (IN j L)). rewrite X, W in F. cbn in F. now apply Nat.eqb_eq.
  - rewrite (T j L) in X. discriminate.
Qed.
Lemma play_runs l : forall s s', runs s -> (forall j, (3 <= j)%nat -> at_ s j = Test) -> play false l s = Some s' -> runs s'.
Proof.
  induction l as [|[i t] l IH]; intros s s' R T E; cbn [play] in E; [now injection E as <-|].
  destruct (Nat.ltb_spec i 3) as [L|L]; [|discriminate]. destruct (free false i s) eqn:F; [|discriminate]. cbn [andb] in E.
  destruct (step1 i t s) as [s1|] eqn:E1; [|discriminate]. cbn [obind] in E. destruct (free_ok false i s F T) as [NS _].
  apply (IH s1); [|intros j J; rewrite (step1_other i t s s1 j E1) by lia; now apply T|exact E]. now apply (r_step s i t).
Qed.
Lemma play_windowless l : forall s s', runs_windowless s -> (forall j, (3 <= j)%nat -> at_ s j = Test) -> play true l s = Some s' -> runs_windowless s'.
Proof.
  induction l as [|[i t] l IH]; intros s s' R T E; cbn [play] in E; [now injection E as <-|].
  destruct (Nat.ltb_spec i 3) as [L|L]; [|discriminate]. destruct (free true i s) eqn:F; [|discriminate]. cbn [andb] in E.
  destruct (step1 i t s) as [s1|] eqn:E1; [|discriminate]. cbn [obind] in E. destruct (free_ok true i s F T) as [NS NW].
  apply (IH s1); [|intros j J; rewrite (step1_other i t s s1 j E1) by lia; now apply T|exact E]. apply (w_step s i t); auto.
Qed.
Definition view (s : st) : Z * list pc * Z := (guard s, map (at_ s) [0; 1; 2]%nat, built s).
Lemma witness l v : option_map view (play false l init) = Some v -> exists s, runs s /\ view s = v.
Proof.
  intros E. destruct (play false l init) as [s|] eqn:P; [|discriminate]. exists s. split; [|cbn in E; congruence].
  now apply (play_runs l init s r_init (fun _ _ => eq_refl)).
Qed.
Lemma witness_windowless l v : option_map view (play true l init) = Some v -> exists s, runs_windowless s /\ view s = v.
Proof.
  intros E. destruct (play true l init) as [s|] eqn:P; [|discriminate]. exists s. split; [|cbn in E; congruence].
  now apply (play_windowless l init s w_init (fun _ _ => eq_refl)).
Qed.
