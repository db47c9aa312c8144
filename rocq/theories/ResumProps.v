(** C17 — resumable functions. *)
From Coq Require Import ZArith List Bool Lia.
From Verif Require Import Base ResumModel ResumSpec ResumProofs.
Import ListNotations.
Open Scope Z_scope.

(** Every sequence of calls of functions of a nested object and of
    stopResumable() behaves as the machine with a call stack: a call starts the
    function when nothing is running, resumes the suspended functions when it is
    the one started before (evaluating the pending calls again), and is refused
    with WrongState, changing nothing, when another one was started.  It returns
    Running exactly when something stays suspended, and isResumableRunning() tells
    the same.  A call deeper than the declared levels is refused without any other
    effect. *)
Theorem C17_nested L cond P fuel us s rs :
  1 <= L <= 255 -> small P -> no_clash P -> inside P us ->
  nested_uses L true cond P fuel us (nested_new L) [] = Some (s, rs) ->
  exists c, history L P us [] rs (log s) c /\
    isResumableRunning L s = Some (match c with [] => false | _ => true end) /\ getResumableDepth L s = -1.
Proof.
  intros R SM NC IN U. destruct (uses_history L cond P fuel ltac:(lia) SM NC us (nested_new L) [] [] s rs IN (idle_new L P ltac:(lia)) U) as (rs1 & es & c & H1 & H2 & H3 & H4).
  cbn [app] in H2. subst rs1. exists c. cbn [nested_new log app] in H3. rewrite H3. split; [exact H1|]. split; [apply (idle_running L P s c); [lia|exact H4]|].
  unfold getResumableDepth. rewrite (proj1 H4). destruct (L =? 1); reflexivity.
Qed.

(** In every state that can be reached this way nothing outside rfStateArray is
    accessed by any further use. *)
Theorem C17_nested_safe L cond P fuel us s rs :
  1 <= L <= 255 -> small P -> no_clash P -> inside P us ->
  nested_uses L true cond P fuel us (nested_new L) [] = Some (s, rs) ->
  (forall n f, 0 <= f < zlen P -> nested_run L true cond P n f s <> Undef) /\
  isResumableRunning L s <> None /\ stopResumable L s <> None.
Proof.
  intros R SM NC IN U. destruct (uses_history L cond P fuel ltac:(lia) SM NC us (nested_new L) [] [] s rs IN (idle_new L P ltac:(lia)) U) as (rs1 & es & c & H1 & H2 & H3 & H4).
  split; [|split].
  - intros n f F E. pose proof (run_call L cond P n f s c ltac:(lia) SM NC F H4) as G. rewrite E in G. exact G.
  - rewrite (idle_running L P s c ltac:(lia) H4). discriminate.
  - destruct (idle_stop L P s c ltac:(lia) H4) as (s' & -> & _). discriminate.
Qed.

(** Three functions calling each other in a circle, on two and on three levels; in
    the third call the fourth function is called while the first is suspended. *)
Definition ex_prog : list func :=
  [Func [Work; Call 1; Wait; Work] 0; Func [Yield; Call 2; Work] 10; Func [Yield; Call 0] 20; Func [Work] 30].
Definition ex_cond (l : list event) : bool := Nat.eqb (length l) 10.
Definition ex_uses : list use := [Run 0; Run 0; Run 3; Run 0; Run 0; StopIt; Run 3].
Ltac cmp E := match type of E with _ <= _ < ?z => let v := eval vm_compute in z in change z with v in E end.
Example C17_ex_hyps : small ex_prog /\ no_clash ex_prog /\ inside ex_prog ex_uses.
Proof.
  split; [repeat constructor; cbn; lia|]. split; [|repeat constructor; cbn; lia].
  intros f g k j F G N LB J. change (zlen ex_prog) with 4 in F, G.
  assert (K : 0 <= k < 4).
  { unfold labelled, stmt_at in LB. destruct (znth _ k) eqn:E; [|contradiction]. apply znth_range in E. assert (f = 0 \/ f = 1 \/ f = 2 \/ f = 3) as [->|[->|[->| ->]]] by lia; cmp E; lia. }
  assert (JJ : -1 <= j < 4).
  { destruct J as [->|J]; [lia|]. unfold labelled, stmt_at in J. destruct (znth _ j) eqn:E; [|contradiction]. apply znth_range in E. assert (g = 0 \/ g = 1 \/ g = 2 \/ g = 3) as [->|[->|[->| ->]]] by lia; cmp E; lia. }
  assert (f = 0 \/ f = 1 \/ f = 2 \/ f = 3) as Hf by lia. assert (g = 0 \/ g = 1 \/ g = 2 \/ g = 3) as Hg by lia.
  destruct Hf as [->|[->|[->| ->]]]; destruct Hg as [->|[->|[->| ->]]]; try (exfalso; apply N; reflexivity);
    change (counter (fn ex_prog 0)) with 0; change (counter (fn ex_prog 1)) with 10; change (counter (fn ex_prog 2)) with 20; change (counter (fn ex_prog 3)) with 30; lia.
Qed.
Example C17_ex_3 : option_map (fun x => (log (fst x), states (fst x), snd x)) (nested_uses 3 true ex_cond ex_prog 50 ex_uses (nested_new 3) []) =
  Some ([Ev 0 0 true; Ev 0 1 true; Ev 1 0 true; 
         Ev 0 1 true; Ev 1 1 true; Ev 2 0 true;
         Ev 0 1 true; Ev 1 1 true; Ev 2 1 true; Ev 2 2 true; Ev 1 2 true; Ev 1 3 true; Ev 0 2 false; Ev 0 3 true; Ev 0 4 true;
         Ev 0 0 true; Ev 0 1 true; Ev 1 0 true;
         Ev 3 0 true; Ev 3 1 true], [0; 0; 0], [255; 255; 127; 0; 255; 0]).
Proof. vm_compute. reflexivity. Qed.
Example C17_ex_1 : option_map (fun x => (log (fst x), states (fst x), snd x)) (nested_uses 1 true ex_cond ex_prog 50 [Run 0; Run 2] (nested_new 1) []) =
  Some ([Ev 0 0 true; Ev 0 1 true; Ev 0 2 false; Ev 0 3 true; Ev 0 4 true; Ev 2 0 true], [23], [0; 255]).
Proof. vm_compute. reflexivity. Qed.

(** stopResumable(), also when called by a function: the levels below the current
    one keep their states, the others are stopped. *)
Theorem C17_stop_levels L s :
  2 <= L -> zlen (states s) = L -> 0 <= level s <= L ->
  exists s', stopResumable L s = Some s' /\ level s' = level s /\ zlen (states s') = L /\
    forall i, 0 <= i < L -> znth (states s') i = if i <? level s then znth (states s) i else Some Stopped.
Proof.
  intros L2 Q V. set (n := Z.to_nat (level s)). assert (NL : (n <= length (states s))%nat) by (unfold zlen in Q; lia).
  assert (PL : zlen (firstn n (states s)) = level s) by (unfold zlen; rewrite firstn_length; lia).
  eexists. split; [apply (stop_levels L s (firstn n (states s)) (skipn n (states s))); [lia|symmetry; apply firstn_skipn|exact Q|symmetry; exact PL|lia]|].
  cbn [level states]. split; [reflexivity|]. split; [rewrite zlen_app', PL; unfold zlen; rewrite repeat_length, skipn_length; unfold zlen in Q; lia|].
  intros i I. destruct (Z.ltb_spec i (level s)) as [A|A].
  - unfold znth. replace (i <? 0) with false by lia. rewrite nth_error_app1 by (rewrite firstn_length; lia).
    rewrite <- (firstn_skipn n (states s)) at 2. rewrite nth_error_app1 by (rewrite firstn_length; lia). reflexivity.
  - unfold znth. replace (i <? 0) with false by lia. rewrite nth_error_app2 by (rewrite firstn_length; lia).
    rewrite firstn_length, Nat.min_l by lia. rewrite nth_error_repeat; [reflexivity|]. rewrite skipn_length. unfold zlen in Q. lia.
Qed.
Example C17_ex_stop : stopResumable 4 (St 2 [5; 6; 7; 8] []) = Some (St 2 [5; 6; 0; 0] []).
Proof. reflexivity. Qed.

(** getResumableDepth() is right for the documented depths. *)
Theorem C17_depth L s : 1 <= L <= 127 -> 0 <= level s <= L -> getResumableDepth L s = level s - 1.
Proof. intros R V. unfold getResumableDepth. destruct (L =? 1); [reflexivity|]. rewrite (swrap_small 8 (level s)) by (cbn; lia). apply swrap_small; cbn; lia. Qed.
Theorem C17_depth_refuted : exists L s, 1 <= L <= 255 /\ 0 <= level s <= L /\ zlen (states s) = L /\ getResumableDepth L s < -1.
Proof. exists 200, (St 150 (repeat 1 200) []). vm_compute. repeat split; congruence. Qed.
Example C17_ex_depth : getResumableDepth 3 (St 2 [7; 9; 0] []) = 1.
Proof. reflexivity. Qed.

(** The deepest function asking whether something runs above it reads behind the
    array: for every object with two or more levels. *)
Theorem C17_deepest_query_undefined L s : 2 <= L -> zlen (states s) = L -> level s = L -> isResumableRunning L s = None.
Proof. intros L2 Q V. unfold isResumableRunning, isStoppedRf. replace (L =? 1) with false by lia. rewrite V, <- Q, znth_past. reflexivity. Qed.
Example C17_ex_query : isResumableRunning 2 (St 2 [3; 13] []) = None /\ isResumableRunning 3 (St 2 [3; 13; 0] []) = Some false.
Proof. split; reflexivity. Qed.

(** Without check_nesting_depth the depth is not respected: memory outside the
    array is accessed where the checked version skips the call. *)
Theorem C17_unchecked_refuted : exists L P cond n f,
  small P /\ no_clash P /\ nested_run L false cond P n f (nested_new L) = Undef /\
  exists r s, nested_run L true cond P n f (nested_new L) = Done r s /\ r = rStop.
Proof.
  exists 2, [Func [Call 0] 0], (fun _ => false), 20%nat, 0. split; [repeat constructor; cbn; lia|]. split.
  - intros f g k j F G N. change (zlen _) with 1 in F, G. exfalso. lia.
  - split; [vm_compute; reflexivity|]. exists rStop, (St 0 [0; 0] [Ev 0 0 true; Ev 0 0 true; Ev 0 1 true; Ev 0 1 true]). split; [vm_compute; reflexivity|reflexivity].
Qed.

(** Case labels are only unique modulo 255: with the counters of two functions
    255 apart a call of the second function, while the first is suspended, is not
    refused but continues in the middle of the second. *)
Theorem C17_clash_refuted : exists L P cond n s1 s2 r,
  small P /\ nested_run L true cond P n 0 (nested_new L) = Done rRunning s1 /\
  nested_run L true cond P n 1 s1 = Done r s2 /\ r <> rWrongState /\
  In (Ev 1 1 true) (log s2) /\ ~ In (Ev 1 0 true) (log s2).
Proof.
  exists 2, [Func [Yield; Work] 0; Func [Yield; Work] 255], (fun _ => false), 20%nat,
    (St 0 [3; 0] [Ev 0 0 true]), (St 0 [0; 0] [Ev 0 0 true; Ev 1 1 true; Ev 1 2 true]), rStop.
  split; [repeat constructor; cbn; lia|]. split; [vm_compute; reflexivity|]. split; [vm_compute; reflexivity|]. split; [discriminate|]. split; [cbn; auto|].
  cbn. intros [H|[H|[H|[]]]]; discriminate.
Qed.

(** Independent functions: for every sequence of calls and stops, what function
    [f] executed follows its code — from its beginning after an end or a stop, and
    from where it was otherwise — and isResumableRunning(f) tells whether it is
    somewhere inside. *)
Theorem C17_plain cond P rank fuel us s :
  small P -> proper P rank -> pinside P us ->
  plain_uses cond P fuel us (plain_new (zlen P)) = Some s ->
  forall f, 0 <= f ->
    (zlen P <= f -> plain_running s f = Some false) /\
    (f < zlen P -> exists k, follows P f None (filter (about f) (log s)) k /\
       plain_running s f = Some (match k with None => false | Some _ => true end)).
Proof.
  intros SM PR IN U f F0. pose proof (plain_uses_sound cond P rank SM PR fuel us _ s IN (sound_new P) U) as S. split.
  - intro F. unfold plain_running. rewrite (proj1 S). replace (f <? zlen P) with false by lia. reflexivity.
  - intro F. apply (sound_running P SM s f S). lia.
Qed.

(** The result of a call tells the same, it is never WrongState, and nothing
    outside the array is accessed. *)
Theorem C17_plain_result cond P rank fuel us s n f :
  small P -> proper P rank -> pinside P us ->
  plain_uses cond P fuel us (plain_new (zlen P)) = Some s -> 0 <= f < zlen P ->
  match plain_run cond P n f s with
  | Undef => False
  | Fuel => True
  | Done r s' => (r = rStop /\ plain_running s' f = Some false) \/ (r = rRunning /\ plain_running s' f = Some true)
  end.
Proof.
  intros SM PR IN U F. pose proof (plain_uses_sound cond P rank SM PR fuel us _ s IN (sound_new P) U) as S.
  pose proof (sound_run cond P rank SM PR n f s F S) as G. destruct (plain_run cond P n f s) as [r s'| |]; [|exact G|exact G].
  destruct G as (_ & v & V & H). rewrite plain_running_some by lia. rewrite V. destruct H as [[-> ->]|[-> N]]; [left; split; reflexivity|right; split; [reflexivity|]]. replace (v =? 0) with false by lia. reflexivity.
Qed.
Definition ex_plain : list func := [Func [Work; Call 1; Wait] 0; Func [Yield; Call 2] 0; Func [Yield] 0].
Example C17_ex_plain :
  small ex_plain /\ proper ex_plain (fun f => Z.to_nat (10 - f)) /\
  option_map (fun s => (log s, states s)) (plain_uses (fun _ => false) ex_plain 50 [PRun 0; PRun 0; PRun 2; PStop 1; PRun 0; PStop 9] (plain_new 3)) =
  Some ([Ev 0 0 true; Ev 1 0 true; Ev 0 1 true; Ev 2 0 true; Ev 1 1 true; Ev 0 1 true; Ev 2 1 true; Halt 1; Ev 1 0 true; Ev 0 1 true], [4; 3; 0]).
Proof.
  split; [repeat constructor; cbn; lia|]. split; [|vm_compute; reflexivity].
  intros f k g H. unfold stmt_at, fn in H. destruct (znth ex_plain f) as [x|] eqn:E; [|cbn in H; apply znth_range in H; cbn in H; lia].
  pose proof (znth_range _ _ _ E) as F. change (zlen ex_plain) with 3 in *. pose proof (znth_range _ _ _ H) as K.
  assert (f = 0 \/ f = 1 \/ f = 2) as [->|[->| ->]] by lia; cbn in E; injection E as <-; cbn in K;
  assert (k = 0 \/ k = 1 \/ k = 2) as [->|[->| ->]] by lia; cbn in H; try discriminate; injection H as <-; lia.
Qed.

(** stopResumable(id) stops that function and no other one, tells whether there is
    such a function, and accesses nothing outside the array. *)
Theorem C17_plain_stop s id : 0 <= id ->
  exists b s', plain_stop id s = Some (b, s') /\ (b = true <-> id < zlen (states s)) /\ zlen (states s') = zlen (states s) /\
    plain_running s' id = Some false /\ forall i, 0 <= i -> i <> id -> plain_running s' i = plain_running s i.
Proof.
  intro I0. unfold plain_stop. destruct (Z.ltb_spec id (zlen (states s))) as [A|A].
  - destruct (zupd_in_range (states s) id Stopped) as (l & E & Q & G); [lia|]. rewrite E. cbn [obind]. eexists _, _. split; [reflexivity|].
    split; [split; [intros _; exact A|reflexivity]|]. split; [exact Q|]. split.
    + rewrite plain_running_some by exact I0. cbn [states]. rewrite G, Z.eqb_refl. reflexivity.
    + intros i J N. rewrite !plain_running_some by exact J. cbn [states]. rewrite G. replace (i =? id) with false by lia. reflexivity.
  - eexists _, _. split; [reflexivity|]. split; [split; [discriminate|lia]|]. split; [reflexivity|]. split; [|reflexivity].
    unfold plain_running. replace (id <? zlen (states s)) with false by lia. reflexivity.
Qed.
Example C17_ex_plain_stop : plain_stop 1 (St 0 [4; 5; 6] []) = Some (true, St 0 [4; 0; 6] [Halt 1]) /\ plain_stop 3 (St 0 [4; 5; 6] []) = Some (false, St 0 [4; 5; 6] []).
Proof. split; reflexivity. Qed.

(** The queries over several functions. *)
Theorem C17_plain_queries s ids : (forall i, In i ids -> 0 <= i) ->
  (areAnyOf s ids = Some true <-> exists i, In i ids /\ plain_running s i = Some true) /\
  (areAllOf s ids = Some true <-> forall i, In i ids -> plain_running s i = Some true) /\
  (join s ids = Some true <-> forall i, In i ids -> plain_running s i = Some false) /\
  (areAny s = true <-> exists i, plain_running s i = Some true) /\
  areAnyOf s ids <> None /\ areAllOf s ids <> None.
Proof.
  intro P0.
  assert (A : areAnyOf s ids = Some (existsb (fun i => match znth (states s) i with Some x => negb (x =? 0) | None => false end) ids)).
  { clear -P0. induction ids as [|i ids IH]; [reflexivity|]. cbn [areAnyOf existsb]. rewrite plain_running_some by (apply P0; left; reflexivity). cbn [obind]. destruct (match znth (states s) i with Some x => _ | None => false end); [reflexivity|]. apply IH. intros j J. apply P0. right. exact J. }
  assert (B : areAllOf s ids = Some (forallb (fun i => match znth (states s) i with Some x => negb (x =? 0) | None => false end) ids)).
  { clear -P0. induction ids as [|i ids IH]; [reflexivity|]. cbn [areAllOf forallb]. assert (I0 : 0 <= i) by (apply P0; left; reflexivity). destruct (znth (states s) i) as [x|] eqn:X.
    - pose proof (znth_range _ _ _ X). replace (zlen (states s) <=? i) with false by lia. cbn [obind]. unfold Stopped. destruct (x =? 0); [reflexivity|]. apply IH. intros j J. apply P0. right. exact J.
    - replace (zlen (states s) <=? i) with true; [reflexivity|]. unfold znth, zlen in *. destruct (i <? 0) eqn:N; [lia|]. apply nth_error_None in X. lia. }
  split; [|split; [|split; [|split; [|split; [rewrite A; discriminate|rewrite B; discriminate]]]]].
  - rewrite A. split; intro H.
    + injection H as H. apply existsb_exists in H. destruct H as (i & I & X). exists i. split; [exact I|]. rewrite plain_running_some by (apply P0; exact I). rewrite X. reflexivity.
    + destruct H as (i & I & X). rewrite plain_running_some in X by (apply P0; exact I). f_equal. apply existsb_exists. exists i. split; [exact I|]. injection X as X. exact X.
  - rewrite B. split; intro H.
    + injection H as H. rewrite forallb_forall in H. intros i I. rewrite plain_running_some by (apply P0; exact I). rewrite (H i I). reflexivity.
    + f_equal. apply forallb_forall. intros i I. specialize (H i I). rewrite plain_running_some in H by (apply P0; exact I). injection H as H. exact H.
  - unfold join. rewrite A. cbn [obind]. split; intro H.
    + injection H as H. intros i I. rewrite plain_running_some by (apply P0; exact I). f_equal. destruct (match znth (states s) i with Some x => _ | None => false end) eqn:X; [|reflexivity].
      replace (existsb _ ids) with true in H; [discriminate|]. symmetry. apply existsb_exists. exists i. split; [exact I|exact X].
    + f_equal. apply negb_true_iff. match goal with |- ?e = false => destruct e eqn:X end; [|reflexivity]. apply existsb_exists in X. destruct X as (i & I & X). specialize (H i I). rewrite plain_running_some in H by (apply P0; exact I). congruence.
  - unfold areAny. rewrite existsb_exists. split.
    + intros (x & I & X). apply In_nth_error in I. destruct I as [n I]. exists (Z.of_nat n). rewrite plain_running_some by lia. unfold znth. replace (Z.of_nat n <? 0) with false by lia. rewrite Nat2Z.id, I. f_equal. exact X.
    + intros (i & X). unfold plain_running in X. destruct (i <? zlen (states s)); [|discriminate]. destruct (znth (states s) i) as [x|] eqn:E; [|discriminate]. cbn [obind] in X. exists x. split; [|injection X as X; exact X].
      unfold znth in E. destruct (i <? 0); [discriminate|]. apply nth_error_In in E. exact E.
Qed.
Example C17_ex_queries : let s := St 0 [0; 5; 7] [] in
  areAnyOf s [0; 9; 2] = Some true /\ areAllOf s [1; 2] = Some true /\ areAllOf s [1; 9] = Some false /\ join s [0; 200] = Some true /\ areAny s = true.
Proof. vm_compute. repeat split; reflexivity. Qed.

Print Assumptions C17_nested.
Print Assumptions C17_nested_safe.
Print Assumptions C17_stop_levels.
Print Assumptions C17_depth.
Print Assumptions C17_depth_refuted.
Print Assumptions C17_deepest_query_undefined.
Print Assumptions C17_unchecked_refuted.
Print Assumptions C17_clash_refuted.
Print Assumptions C17_plain.
Print Assumptions C17_plain_result.
Print Assumptions C17_plain_stop.
Print Assumptions C17_plain_queries.
