(* Theorems about the one-time construction of function statics (C88). *)
From Verif Require Import Base GrdModel GrdSpec GrdProofs.

(* At most one context is constructing the object, whatever the interleaving of any number of contexts; and the assertion about a recursive
   initialization stops a context only while some context is constructing. *)
Theorem C88_exclusive : forall s, runs s ->
  (forall i j, busy (at_ s i) -> busy (at_ s j) -> i = j) /\
  (forall i, at_ s i = Stopped -> exists j, j <> i /\ busy (at_ s j)).
Proof.
  intros s R. pose proof (runs_inv s R) as [G O B N]. split.
  - intros i j X Y. apply busy_b in X, Y. now apply O.
  - intros i X. destruct (N (runs_stop s i R X)) as [j J]. exists j. split; [intros ->; rewrite X in J; discriminate|now apply busy_b].
Qed.
(* context 1 asks for the object from inside its construction by context 0 *)
Example C88_exclusive_ex : exists s, runs s /\ at_ s 0%nat = Constructing /\ at_ s 1%nat = Stopped.
Proof.
  destruct (witness [(0, false); (0, false); (0, false); (1, false); (1, false); (1, false)]%nat (256, [Constructing; Stopped; Test], 0) eq_refl) as (s & R & E).
  exists s. unfold view in E. injection E as _ E0 E1 _ _. auto.
Qed.

(* If no context is interrupted between its load and its exchange of the guard, the object is constructed once: a context goes on to use it only when it
   is complete and nobody is constructing it, and the assertion fails only before it is complete. *)
Theorem C88_once_partial : forall s, runs_windowless s ->
  0 <= built s <= 1 /\
  (forall i, at_ s i = Using -> built s = 1 /\ forall j, ~ busy (at_ s j)) /\
  (forall i, at_ s i = Stopped -> exists j, j <> i /\ busy (at_ s j)).
Proof.
  intros s R. pose proof (windowless_winv s R) as [I U0 U1 U2 U3 UU US]. pose proof I as [G O B N]. split; [|split].
  - destruct G as [E|[E|E]]; [rewrite (U0 E); lia|destruct (U1 E); lia|]. destruct (N E) as [i X]. destruct (at_ s i) eqn:A; try discriminate.
    + rewrite (U3 i) by auto. lia.
    + rewrite (U2 i) by auto. lia.
    + rewrite (U3 i) by auto. lia.
  - intros i X. pose proof (UU i X) as E. split; [apply (U1 E)|]. intros j Y. apply busy_b in Y. rewrite (B j Y) in E. discriminate.
  - intros i X. destruct (N (US i X)) as [j J]. exists j. split; [intros ->; rewrite X in J; discriminate|now apply busy_b].
Qed.
(* the first construction throws, the second one succeeds, another context then uses the object *)
Example C88_once_ex : exists s, runs_windowless s /\ at_ s 0%nat = Thrown /\ at_ s 1%nat = Using /\ at_ s 2%nat = Using /\ built s = 1.
Proof.
  destruct (witness_windowless [(0, false); (0, false); (0, false); (0, true); (0, false); (1, false); (1, false); (1, false); (1, false); (2, false); (1, false); (2, false)]%nat
    (1, [Thrown; Using; Using], 1) eq_refl) as (s & R & E).
  exists s. unfold view in E. injection E as _ E0 E1 E2 E3. auto.
Qed.

(* Without that restriction it is not: a context is interrupted between load and exchange by one that constructs the object and uses it; the first
   context then constructs it again, over the object in use, and while it does, the assertion fails in the context that uses it. *)
Definition twice : list nat := [0; 0; 1; 1; 1; 1; 1; 0; 0]%nat.
Theorem C88_twice_refuted : exists l s, nested l [] init = true /\ runs s /\
  play false (map (fun i => (i, false)) l) init = Some s /\ built s = 2 /\ at_ s 1%nat = Using.
Proof.
  destruct (play false (map (fun i => (i, false)) twice) init) as [s|] eqn:E; [|discriminate]. exists twice, s.
  split; [vm_compute; reflexivity|]. split; [now apply (play_runs _ init s r_init (fun _ _ => eq_refl) E)|]. split; [exact E|].
  assert (option_map view (Some s) = Some (256, [AtRelease; Using; Test], 2)) as V by (rewrite <- E; vm_compute; reflexivity).
  cbn in V. unfold view in V. injection V as _ _ E1 _ E3. auto.
Qed.
(* the same with the failing assertion *)
Theorem C88_spurious_refuted : exists s s', runs s /\ at_ s 1%nat = Using /\ built s = 1 /\ runs s' /\ at_ s' 1%nat = Stopped /\ built s' = 1.
Proof.
  destruct (witness [(0, false); (0, false); (1, false); (1, false); (1, false); (1, false); (1, false); (0, false)]%nat (256, [Constructing; Using; Test], 1) eq_refl) as (s & R & E).
  destruct (witness [(0, false); (0, false); (1, false); (1, false); (1, false); (1, false); (1, false); (0, false); (1, false); (1, false); (1, false); (1, false)]%nat
    (256, [Constructing; Stopped; Test], 1) eq_refl) as (s' & R' & E').
  exists s, s'. unfold view in E, E'. injection E as _ E0 E1 _ E3. injection E' as _ E0' E1' _ E3'. auto 10.
Qed.

Print Assumptions C88_exclusive.
Print Assumptions C88_once_partial.
Print Assumptions C88_twice_refuted.
Print Assumptions C88_spurious_refuted.
