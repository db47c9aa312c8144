(* Theorems about critical sections on two cores (C90). *)
From Verif Require Import Base McModel McSpec McProofs.

(* executions by computation: a core makes k steps, takes an interrupt, returns *)
Inductive ev := R (c : bool) (k : nat) | Irq (c : bool) (p : list stmt) | Ret (c : bool).
Fixpoint run (c : bool) (k : nat) (s : st) : option st :=
  match k with O => Some s | S k => match frames (get c s) with f :: rest => do s' <- exec c f rest s; run c k s' | [] => None end end.
Fixpoint play (l : list ev) (s : st) : option st :=
  match l with
  | [] => Some s
  | R c k :: l => do s' <- run c k s; play l s'
  | Irq c p :: l => if mask (get c s) then None else play l (put c (Core (mask (get c s)) (Fr (prog_code p) [] 0 :: frames (get c s))) (taken s) s)
  | Ret c :: l => match frames (get c s) with f :: g :: rest => match code f with [] => play l (put c (Core (mask (get c s)) (g :: rest)) (taken s) s) | _ => None end | _ => None end
  end.
Lemma run_steps H s0 c k : forall s s', steps H s0 s -> run c k s = Some s' -> steps H s0 s'.
Proof.
  induction k as [|k IH]; intros s s' S0 E; cbn [run] in E; [now injection E as <-|].
  destruct (frames (get c s)) as [|f rest] eqn:F; [discriminate|]. destruct (exec c f rest s) as [s1|] eqn:X; [|discriminate]. cbn [obind] in E.
  apply (IH s1); [|exact E]. eapply t_step; [exact S0|]. now apply (s_exec H c s f rest).
Qed.
Lemma play_steps (H : list stmt -> Prop) s0 l : forall s s', (forall c p, In (Irq c p) l -> H p) -> steps H s0 s -> play l s = Some s' -> steps H s0 s'.
Proof.
  induction l as [|e l IH]; intros s s' V S0 E; cbn [play] in E; [now injection E as <-|].
  assert (forall c p, In (Irq c p) l -> H p) as V' by (intros; apply (V c); now right).
  destruct e as [c k|c p|c].
  - destruct (run c k s) as [s1|] eqn:X; [|discriminate]. cbn [obind] in E. apply (IH s1); auto. now apply (run_steps H s0 c k s).
  - destruct (mask (get c s)) eqn:M; [discriminate|]. rewrite <- M in E. apply (IH _ _ V') in E; auto.
    eapply t_step; [exact S0|]. apply s_irq; [exact M|]. apply (V c). now left.
  - destruct (frames (get c s)) as [|f [|g rest]] eqn:F; [discriminate..|]. destruct (code f) eqn:C; [|discriminate].
    apply (IH _ _ V') in E; auto. eapply t_step; [exact S0|]. apply (s_return H c s f (g :: rest)); congruence.
Qed.
Lemma witness {A} (view : st -> A) (H : list stmt -> Prop) a b l v : Forall (fun e => match e with Irq _ p => H p | _ => True end) l ->
  option_map view (play l (boot a b)) = Some v -> exists s, reach H a b s /\ view s = v.
Proof.
  intros V E. destruct (play l (boot a b)) as [s|] eqn:P; [|discriminate]. exists s. split; [|cbn in E; congruence].
  apply (play_steps H _ l (boot a b) s); [|apply t_refl|exact P]. intros c p IN. rewrite Forall_forall in V. exact (V _ IN).
Qed.

(* Never are two programs inside blocks with the spin lock, neither on one core nor on two, whatever programs and handlers are run. *)
Theorem C90_exclusive : forall handler main0 main1 s c c' l f r l' f' r', reach handler main0 main1 s ->
  frames (get c s) = l ++ f :: r -> frames (get c' s) = l' ++ f' :: r' -> inside f -> inside f' -> c = c' /\ length l = length l'.
Proof.
  intros handler a b s c c' l f r l' f' r' RE F F' IN IN'. pose proof (inv_reach handler a b s RE) as I.
  apply (inside_holds s c f I) in IN; [|rewrite F; apply in_or_app; right; now left].
  apply (inside_holds s c' f' I) in IN'; [|rewrite F'; apply in_or_app; right; now left].
  destruct (one_holder s c c' l f r l' f' r' I F F' IN IN') as (X & Y & _). auto.
Qed.
(* core 1 waits while core 0 is in its block *)
Example C90_exclusive_ex : exists s f f', reach (fun _ => False) [Lock [Other]] [Guard [Other]] s /\ frames (core0 s) = [f] /\ frames (core1 s) = [f'] /\
  inside f /\ spinning true s /\ ~ inside f'.
Proof.
  destruct (witness (fun s => (taken s, frames (core0 s), frames (core1 s))) (fun _ => False) [Lock [Other]] [Guard [Other]] [R false 3; R true 4]
    (true, [Fr [Work; Restore; Release] [false] 1], [Fr [Take; Work; Release; Restore] [false] 0])) as (s & RE & E).
  - repeat (apply Forall_cons; [exact I|]). constructor.
  - vm_compute. reflexivity.
  - injection E as E0 E1 E2. eexists s, _, _. split; [exact RE|]. split; [exact E1|]. split; [exact E2|].
    split; [vm_compute; reflexivity|]. split; [exists (Fr [Take; Work; Release; Restore] [false] 0), [], [Work; Release; Restore]; auto|vm_compute; discriminate].
Qed.

(* With SystemSpinLockGuard, in programs and handlers of both cores, not one inside another, nothing blocks: until both programs have ended some core can
   go on. *)
Theorem C90_guards_go_on : forall main0 main1 s, Forall only_guards main0 -> Forall only_guards main1 ->
  reach (fun p => Forall only_guards p) main0 main1 s -> (forall c, finished c s) \/ exists c, can_go_on c s.
Proof. intros a b s A B RE. destruct (pinv_reach true a b s A B RE) as [I P]. now apply (progress true). Qed.
Example C90_guards_go_on_ex : exists s, reach (fun p => Forall only_guards p) [Guard [Other]] [Guard [Other]; Other] s /\ spinning true s /\ can_go_on false s.
Proof.
  destruct (witness (fun s => (taken s, mask (core0 s), frames (core0 s), frames (core1 s))) (fun p => Forall only_guards p) [Guard [Other]] [Guard [Other]; Other]
    [Irq false [Guard [Other]]; R false 3; R true 5]
    (true, true, [Fr [Work; Release; Restore] [false] 1; Fr [Save; Disable; Take; Work; Release; Restore] [] 0], [Fr [Take; Work; Release; Restore; Work] [false] 0])) as (s & RE & E).
  - assert (only_guards (Guard [Other])) as G by (repeat constructor).
    apply Forall_cons; [constructor; [exact G|constructor]|]. repeat (apply Forall_cons; [exact I|]). constructor.
  - vm_compute. reflexivity.
  - injection E as E0 E1 E2 E3. exists s. split; [exact RE|]. split; [eexists; eexists; eexists; split; [exact E3|]; split; [reflexivity|exact E0]|].
    eexists; eexists. split; [exact E2|]. right. split; [discriminate|]. split; [|unfold exec; cbn [code]; eexists; reflexivity].
    intros (f & r & k & F & C & _). cbn [get] in F. rewrite E2 in F. injection F as <- <-. discriminate C.
Qed.

(* With atomic::Lock the same holds if handlers use no lock at all. *)
Theorem C90_locks_go_on_partial : forall main0 main1 s, Forall flat main0 -> Forall flat main1 ->
  reach (fun p => Forall (fun x => x = Other) p) main0 main1 s -> (forall c, finished c s) \/ exists c, can_go_on c s.
Proof. intros a b s A B RE. destruct (pinv_reach false a b s A B RE) as [I P]. now apply (progress false). Qed.
Example C90_locks_go_on_ex : exists s, reach (fun p => Forall (fun x => x = Other) p) [Lock [Other]] [Lock []] s /\ spinning true s /\ length (frames (core0 s)) = 2%nat.
Proof.
  destruct (witness (fun s => (taken s, length (frames (core0 s)), frames (core1 s))) (fun p => Forall (fun x => x = Other) p) [Lock [Other]] [Lock []]
    [R false 1; Irq false [Other; Other]; R true 3; R false 1] (true, 2%nat, [Fr [Take; Save; Disable; Restore; Release] [] 0])) as (s & RE & E).
  - apply Forall_cons; [exact I|]. apply Forall_cons; [repeat constructor|]. repeat (apply Forall_cons; [exact I|]). constructor.
  - vm_compute. reflexivity.
  - injection E as E0 E1 E2. exists s. split; [exact RE|]. split; [|exact E1]. eexists; eexists; eexists; split; [exact E2|]; split; [reflexivity|exact E0].
Qed.

(* A handler that wants the lock while the program it interrupted is inside waits forever, and the lock is never free again. *)
Theorem C90_interrupted_lock_hangs : forall handler main0 main1 s c f g rest k s', reach handler main0 main1 s ->
  frames (get c s) = f :: g :: rest -> code f = Take :: k -> inside g -> steps handler s s' ->
  taken s' = true /\ exists l, frames (get c s') = l ++ f :: g :: rest.
Proof.
  intros handler a b s c f g rest k s' RE F C IN ST. pose proof (inv_reach handler a b s RE) as I.
  apply (stuck handler c f g rest s s' I F); [now exists k| |exact ST]. apply (inside_holds s c g I); [|exact IN]. rewrite F. right. now left.
Qed.
(* a Lock inside a Lock, or inside a SystemSpinLockGuard, waits forever *)
Theorem C90_nested_lock_hangs : forall handler main0 main1 s c f rest k s', reach handler main0 main1 s ->
  frames (get c s) = f :: rest -> code f = Take :: k -> inside f -> steps handler s s' ->
  taken s' = true /\ exists l, frames (get c s') = l ++ f :: rest.
Proof.
  intros handler a b s c f rest k s' RE F C IN ST. pose proof (inv_reach handler a b s RE) as I.
  apply (nested_stuck handler c f rest s s' I F); [now exists k| |exact ST]. apply (inside_holds s c f I); [|exact IN]. rewrite F. now left.
Qed.
Example C90_nested_lock_ex : exists s f k, reach (fun _ => False) [Lock [Lock []]] [] s /\ frames (core0 s) = [f] /\ code f = Take :: k /\ inside f /\ mask (core0 s) = true.
Proof.
  destruct (witness (fun s => (mask (core0 s), frames (core0 s))) (fun _ => False) [Lock [Lock []]] [] [R false 3]
    (true, [Fr [Take; Save; Disable; Restore; Release; Restore; Release] [false] 1])) as (s & RE & E).
  - repeat (apply Forall_cons; [exact I|]). constructor.
  - vm_compute. reflexivity.
  - injection E as E0 E1. exists s. eexists; eexists. split; [exact RE|]. split; [exact E1|]. split; [reflexivity|]. split; [vm_compute; reflexivity|exact E0].
Qed.

(* So atomic::Lock in a program and in a handler of the same core deadlocks, without nesting: the interrupt may come after the constructor took the spin lock and
   before it disabled interrupts, or after the destructor enabled interrupts and before it released the spin lock. *)
Theorem C90_lock_deadlock_refuted : exists main0 main1 isr s, Forall flat main0 /\ Forall flat main1 /\ Forall flat isr /\
  reach (fun p => p = isr) main0 main1 s /\
  forall s', steps (fun p => p = isr) s s' -> ~ finished false s' /\ taken s' = true.
Proof.
  exists [Lock [Other]], [Other], [Lock [Other]].
  destruct (witness (fun s => (frames (core0 s))) (fun p => p = [Lock [Other]]) [Lock [Other]] [Other] [R false 1; Irq false [Lock [Other]]]
    [Fr [Take; Save; Disable; Work; Restore; Release] [] 0; Fr [Save; Disable; Work; Restore; Release] [] 1]) as (s & RE & E).
  - apply Forall_cons; [exact I|]. apply Forall_cons; [reflexivity|]. constructor.
  - vm_compute. reflexivity.
  - exists s. assert (Forall flat [Lock [Other]]) as FL by repeat constructor.
    split; [exact FL|]. split; [repeat constructor|]. split; [exact FL|]. split; [exact RE|]. intros s' ST.
    destruct (C90_interrupted_lock_hangs _ _ _ s false _ _ _ _ s' RE E eq_refl) as (T & l & F); [vm_compute; reflexivity|exact ST|].
    split; [|exact T]. intros (f & FF & _). rewrite F in FF. apply (f_equal (@length _)) in FF. rewrite app_length in FF. cbn in FF. lia.
Qed.
Example C90_lock_deadlock_exit_ex : exists s f g k, reach (fun p => p = [Lock [Other]]) [Lock [Other]] [Other] s /\
  frames (core0 s) = [f; g] /\ code f = Take :: k /\ code g = [Release] /\ inside g.
Proof.
  destruct (witness (fun s => (frames (core0 s))) (fun p => p = [Lock [Other]]) [Lock [Other]] [Other] [R false 5; Irq false [Lock [Other]]]
    [Fr [Take; Save; Disable; Work; Restore; Release] [] 0; Fr [Release] [] 1]) as (s & RE & E).
  - apply Forall_cons; [exact I|]. apply Forall_cons; [reflexivity|]. constructor.
  - vm_compute. reflexivity.
  - exists s. eexists; eexists; eexists. split; [exact RE|]. split; [exact E|]. split; [reflexivity|]. split; [reflexivity|]. vm_compute; reflexivity.
Qed.

Print Assumptions C90_exclusive.
Print Assumptions C90_guards_go_on.
Print Assumptions C90_locks_go_on_partial.
Print Assumptions C90_interrupted_lock_hangs.
Print Assumptions C90_nested_lock_hangs.
Print Assumptions C90_lock_deadlock_refuted.
