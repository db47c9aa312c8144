(** C15: the fiber scheduler.  Specification: FiberSpec.v. *)
From Coq Require Import ZArith List Bool Lia.
From Verif Require Import Base FiberModel FiberSpec FiberProofs.
Import ListNotations.
Open Scope Z_scope.

(** Whatever fibers are started, yield and end, the ring of pointers behaves as a
    queue: nothing undefined happens, the fibers get the processor in the order of
    the queue, each from its beginning after a start and where it yielded
    otherwise; a task is reported running exactly while it is in the queue, and a
    fiber has the processor exactly while the scheduler is active. *)
Theorem C15_queue : forall garbage ops, all_allowed ops nothing ->
  exists s, exec ops (initial garbage) = Some s /\ log s = runs (asteps ops nothing) /\
    (forall t, isRunning t s = started (asteps ops nothing) t) /\
    current s = (if active (asteps ops nothing) then option_map fst (hd_error (queue (asteps ops nothing))) else None).
Proof.
  intros g ops A. destruct (exec_ok ops _ _ (rep_init g) A) as (s & E & R). exists s. split; [exact E|]. split; [apply (rep_log s _ R)|]. split; [apply (rep_att s _ R)|].
  rewrite (rep_cur s _ R). destruct (active _); [|reflexivity]. destruct (queue _); reflexivity.
Qed.
(** Three fibers, one restarted by another while the scheduler runs. *)
Definition demo : list op := [Start 1; Start 2; Start 3; Run; Yield; End; Yield; Start 2; Start 3; Yield].
Example C15_queue_ex : all_allowed demo nothing /\
  queue (asteps demo nothing) = [(3, false); (2, true); (1, false)] /\
  match exec demo (initial (fun t => Some (t + 7))) with
  | Some s => log s = [(1, true); (2, true); (3, true); (1, false); (3, false)] /\ current s = Some 3 /\ last s = Some 1
  | None => False
  end.
Proof. vm_compute. repeat split; reflexivity. Qed.

(** Task::start() adds a fiber exactly when it is not already scheduled. *)
Theorem C15_start : forall garbage ops t s, all_allowed ops nothing -> exec ops (initial garbage) = Some s ->
  exists s', task_start t s = Some (negb (started (asteps ops nothing) t), s') /\ isRunning t s' = true.
Proof.
  intros g ops t s A E. destruct (exec_ok ops _ _ (rep_init g) A) as (s0 & E0 & R). rewrite E in E0. injection E0 as <-.
  destruct (start_ok t s _ R) as (s' & _ & R' & TS). exists s'. split; [exact TS|]. unfold isRunning. rewrite (rep_att s' _ R' t). cbn [astep].
  destruct (started (asteps ops nothing) t) eqn:S; [exact S|]. unfold started. cbn [queue]. rewrite existsb_app. cbn. rewrite Z.eqb_refl. apply orb_true_r.
Qed.
Example C15_start_ex : all_allowed demo nothing /\ started (asteps demo nothing) 2 = true /\ started (asteps demo nothing) 9 = false.
Proof. vm_compute. repeat split; reflexivity. Qed.

(** Round robin: when the running fiber [x] yields, then until it runs again the
    processor goes exactly to the fibers that were waiting at that moment, each
    once and in their order, whatever they start, yield or end; and [x]
    continues where it yielded. *)
Theorem C15_round_robin : forall garbage before ops x xb waiting s s' between b,
  all_allowed (before ++ Yield :: ops) nothing ->
  asteps before nothing = Abs ((x, xb) :: waiting) true (log s) ->
  exec before (initial garbage) = Some s -> exec (Yield :: ops) s = Some s' ->
  log s' = log s ++ between ++ [(x, b)] -> ~ In x (map fst between) ->
  between = waiting /\ b = false.
Proof.
  intros g before ops x xb w s s' tr b A Q E E' L N. apply allowed_app in A. destruct A as [A1 A2].
  destruct (exec_ok before _ _ (rep_init g) A1) as (s0 & E0 & R). rewrite E in E0. injection E0 as <-.
  destruct (exec_ok (Yield :: ops) _ _ R A2) as (s1 & E1 & R1). rewrite E' in E1. injection E1 as <-.
  pose proof (rep_nodup s _ R) as ND. rewrite (rep_log s' _ R1) in L. rewrite Q in *. exact (round_robin ops x xb w (log s) tr b ND A2 L N).
Qed.
(** Fiber 1 yields to 2 and 3; 2 ends, 3 starts 2 and 4 again. *)
Example C15_round_robin_ex :
  let before := [Start 1; Start 2; Start 3; Run] in
  let ops := [End; Start 2; Start 4; Yield] in
  all_allowed (before ++ Yield :: ops) nothing /\
  asteps before nothing = Abs [(1, true); (2, true); (3, true)] true [(1, true)] /\
  match exec before (initial (fun _ => None)) with
  | Some s => log s = [(1, true)] /\
      match exec (Yield :: ops) s with Some s' => log s' = log s ++ [(2, true); (3, true)] ++ [(1, false)] | None => False end
  | None => False
  end.
Proof. vm_compute. repeat split; reflexivity. Qed.

(** A fiber that has ended does not run again until it is started again. *)
Theorem C15_no_run_after_end : forall garbage before ops x xb waiting s s',
  all_allowed (before ++ End :: ops) nothing ->
  asteps before nothing = Abs ((x, xb) :: waiting) true (log s) ->
  exec before (initial garbage) = Some s -> exec (End :: ops) s = Some s' -> ~ In (Start x) ops ->
  isRunning x s' = false /\ exists more, log s' = log s ++ more /\ ~ In x (map fst more).
Proof.
  intros g before ops x xb w s s' A Q E E' N. apply allowed_app in A. destruct A as [A1 A2].
  destruct (exec_ok before _ _ (rep_init g) A1) as (s0 & E0 & R). rewrite E in E0. injection E0 as <-.
  destruct (exec_ok (End :: ops) _ _ R A2) as (s1 & E1 & R1). rewrite E' in E1. injection E1 as <-.
  pose proof (rep_nodup s _ R) as ND. rewrite Q in *. cbn [queue map fst] in ND. inversion ND as [|? ? N1 N2]; subst.
  change (asteps (End :: ops) ?a) with (asteps ops (astep End a)) in R1. 
  assert (NQ : ~ In x (map fst (queue (astep End (Abs ((x, xb) :: w) true (log s)))))) by (destruct w; exact N1).
  destruct (absent_steps x ops _ NQ N) as [M1 (more & M2 & M3)]. split.
  - unfold isRunning. rewrite (rep_att s' _ R1 x). destruct (started _ x) eqn:S; [|reflexivity]. apply started_In in S. contradiction.
  - rewrite (rep_log s' _ R1), M2. cbn [astep queue tl runs]. destruct w as [|e w]; cbn [dispatch runs]; [exists more; split; [reflexivity|exact M3]|].
    exists (e :: more). rewrite <- app_assoc. split; [reflexivity|]. intros [H|H]; [apply N1; left; exact H|contradiction].
Qed.
Example C15_no_run_after_end_ex :
  let before := [Start 1; Start 2; Start 3; Run] in
  all_allowed (before ++ End :: [Yield; Start 5; Yield; Yield]) nothing /\
  match exec before (initial (fun _ => None)) with
  | Some s => match exec (End :: [Yield; Start 5; Yield; Yield]) s with
              | Some s' => log s' = log s ++ [(2, true); (3, true); (2, false); (5, true)] | None => False end
  | None => False
  end.
Proof. vm_compute. repeat split; reflexivity. Qed.

(** The scheduler gives the processor back to the caller of run() exactly when
    the fiber that ends was the last one. *)
Theorem C15_terminates : forall garbage ops s s', all_allowed (ops ++ [End]) nothing ->
  exec ops (initial garbage) = Some s -> exec1 End s = Some s' ->
  (current s' = None <-> forall t, isRunning t s' = false).
Proof.
  intros g ops s s' A E E'. apply allowed_app in A. destruct A as [A1 [A2 _]].
  destruct (exec_ok ops _ _ (rep_init g) A1) as (s0 & E0 & R). rewrite E in E0. injection E0 as <-.
  destruct (exec1_ok End s _ R A2) as (s1 & E1 & R1). rewrite E' in E1. injection E1 as <-.
  rewrite (rep_cur s' _ R1). unfold isRunning. split.
  - intros H t. rewrite (rep_att s' _ R1 t). cbn [astep] in *. destruct (tl (queue (asteps ops nothing))); [reflexivity|]. cbn in H. discriminate.
  - intro H. cbn [astep] in *. destruct (tl (queue (asteps ops nothing))) as [|e q] eqn:Q; [reflexivity|]. exfalso. specialize (H (fst e)). rewrite (rep_att s' _ R1) in H. unfold started in H. cbn in H. rewrite Z.eqb_refl in H. discriminate.
Qed.
Example C15_terminates_ex : all_allowed [Start 1; Start 2; Run; End; End] nothing /\
  match exec [Start 1; Start 2; Run; End] (initial (fun _ => None)), exec [Start 1; Start 2; Run; End; End] (initial (fun _ => None)) with
  | Some s, Some s' => current s = Some 2 /\ current s' = None
  | _, _ => False
  end.
Proof. vm_compute. repeat split; reflexivity. Qed.

Print Assumptions C15_queue.
Print Assumptions C15_start.
Print Assumptions C15_round_robin.
Print Assumptions C15_no_run_after_end.
Print Assumptions C15_terminates.
