(* Theorems about critical sections and atomic operations (C87). *)
From Verif Require Import Base SliceLemmas AtomModel AtomSpec AtomProofs.

(* runs: r executes instructions, i takes an interrupt, e returns from it *)
Inductive ev := R (k : nat) | Irq (p : list stmt) | Ret.
Fixpoint run (w : Z) (k : nat) (s : core) : option core :=
  match k with O => Some s | S k => match frames s with f :: rest => do s' <- exec w f rest s; run w k s' | [] => None end end.
Fixpoint play (w : Z) (n : nat) (l : list ev) (s : core) : option core :=
  match l with
  | [] => Some s
  | R k :: l => do s' <- run w k s; play w n l s'
  | Irq p :: l => if mask s then None else play w n l (Core (mem s) (mask s) (Fr (prog_code n p) [] [] :: frames s) (log s))
  | Ret :: l => match frames s with f :: g :: rest => match code f with [] => play w n l (Core (mem s) (mask s) (g :: rest) (log s)) | _ => None end | _ => None end
  end.
Lemma run_reach w n m main k : forall s s', reach w n m main s -> run w k s = Some s' -> reach w n m main s'.
Proof.
  induction k as [|k IH]; intros s s' H E; cbn [run] in E; [now injection E as <-|].
  destruct (frames s) as [|f rest] eqn:F; [discriminate|]. destruct (exec w f rest s) as [s1|] eqn:X; [|discriminate]. cbn [obind] in E.
  apply (IH s1); [|exact E]. eapply r_step; [exact H|]. now apply (s_exec _ _ _ f rest).
Qed.
Lemma play_reach w n m main l : forall s s', (forall p, In (Irq p) l -> Forall (valid_stmt w n) p) -> reach w n m main s -> play w n l s = Some s' -> reach w n m main s'.
Proof.
  induction l as [|e l IH]; intros s s' V H E; cbn [play] in E; [now injection E as <-|].
  assert (forall p, In (Irq p) l -> Forall (valid_stmt w n) p) as V' by (intros; apply V; now right).
  destruct e as [k|p|].
  - destruct (run w k s) as [s1|] eqn:X; [|discriminate]. cbn [obind] in E. apply (IH s1); auto. eapply run_reach; eassumption.
  - destruct (mask s) eqn:M; [discriminate|]. rewrite <- M in E. apply (IH _ _ V') in E; auto.
    eapply r_step; [exact H|]. apply s_irq; [exact M|]. apply V. now left.
  - destruct (frames s) as [|f [|g rest]] eqn:F; [discriminate..|]. destruct (code f) eqn:C; [|discriminate].
    apply (IH _ _ V') in E; auto. eapply r_step; [exact H|]. apply (s_return _ _ _ f (g :: rest)); congruence.
Qed.

Definition irqs_ok (w : Z) (n : nat) (l : list ev) : Prop := Forall (fun e => match e with Irq p => Forall (valid_stmt w n) p | _ => True end) l.
Lemma witness {A} (view : core -> A) w n m main l v : irqs_ok w n l -> option_map view (play w n l (boot n m main)) = Some v ->
  exists s, reach w n m main s /\ view s = v.
Proof.
  intros V E. destruct (play w n l (boot n m main)) as [s|] eqn:P; [|discriminate]. exists s. split; [|cbn in E; congruence].
  apply (play_reach w n m main l (boot n m main) s); [|apply r_boot|exact P].
  intros p IN. unfold irqs_ok in V. rewrite Forall_forall in V. exact (V _ IN).
Qed.

(* a 64-bit counter of two words, at 2^32 - 1; the main program adds 1, and an interrupt that comes just before PRIMASK is set adds 2 and reads *)
Definition m0 : list Z := [4294967295; 0].
Definition main0 : list stmt := [Do (Fetch Add [1; 0]); Block true [Do (OpFetch Nand [5; 0]); Block false [Do (CompareExchange [1; 2] [0; 0])]]].
Definition isr0 : list stmt := [Do (OpFetch Add [2; 0]); Do Load].
Definition isr1 : list stmt := [Do (Exchange [1; 2])].
Lemma main0_valid : Forall (valid_stmt 32 2) main0.
Proof.
  assert (forall a b, 0 <= a < 2 ^ 32 -> 0 <= b < 2 ^ 32 -> words 32 2 [a; b]) as W by (intros; split; [reflexivity|repeat (apply Forall_cons; [assumption|]); constructor]).
  assert (forall b body, Forall (valid_stmt 32 2) body -> valid_stmt 32 2 (Block b body)) as B by (intros; now constructor).
  assert (forall o, valid_op 32 2 o -> valid_stmt 32 2 (Do o)) as D by (intros; now constructor).
  unfold main0. repeat (apply Forall_cons || apply Forall_nil || apply B || apply D); cbn [valid_op]; try split; apply W; lia.
Qed.
Lemma isr_valid : Forall (valid_stmt 32 2) isr0 /\ Forall (valid_stmt 32 2) isr1.
Proof.
  assert (forall a b, 0 <= a < 2 ^ 32 -> 0 <= b < 2 ^ 32 -> words 32 2 [a; b]) as W by (intros; split; [reflexivity|repeat (apply Forall_cons; [assumption|]); constructor]).
  assert (forall o, valid_op 32 2 o -> valid_stmt 32 2 (Do o)) as D by (intros; now constructor).
  split; repeat (apply Forall_cons || apply Forall_nil || apply D); cbn [valid_op]; try apply W; trivial; lia.
Qed.
Lemma m0_words : words 32 2 m0. Proof. split; [reflexivity|]. repeat (apply Forall_cons; [lia|]). constructor. Qed.
Definition events0 : list ev := [R 1; Irq isr0; R 14; Ret; R 7; R 2; R 8; R 2; Irq isr1; R 8; Ret].

(* The operations take effect one after the other, in the order in which they end, whatever interrupts come in between: each returns what it would
   return on the number alone, and whenever interrupts are enabled the object holds the number left by the operations so far. *)
Theorem C87_linearizable : forall w n m main s, 0 < w -> words w n m -> Forall (valid_stmt w n) main -> reach w n m main s ->
  map (fun p => reply_of w (snd p)) (log s) = snd (sequence w (w * Z.of_nat n) (map fst (log s)) (join w m)) /\
  (mask s = false -> words w n (mem s) /\ join w (mem s) = fst (sequence w (w * Z.of_nat n) (map fst (log s)) (join w m))).
Proof. intros w n m main s P W V H. apply (inv_consistent w n (join w m) s). now apply (inv_reach w P n m main). Qed.
(* The counter crosses 2^32 in the handler; then add 1, nand with 5 inside a Lock, and a handler that comes in the Unlock inside the Lock. *)
Example C87_linearizable_ex :
  words 32 2 m0 /\ Forall (valid_stmt 32 2) main0 /\
  exists s, reach 32 2 m0 main0 s /\ mask s = false /\ length (frames s) = 1%nat /\
    log s = [(OpFetch Add [2; 0], Value [1; 1]); (Load, Value [1; 1]); (Fetch Add [1; 0], Value [1; 1]);
             (OpFetch Nand [5; 0], Value [4294967295; 4294967295]); (Exchange [1; 2], Value [4294967295; 4294967295])] /\ mem s = [1; 2].
Proof.
  split; [exact m0_words|]. split; [exact main0_valid|].
  destruct (witness (fun s => (mask s, length (frames s), log s, mem s)) 32 2 m0 main0 events0
    (false, 1%nat, [(OpFetch Add [2; 0], Value [1; 1]); (Load, Value [1; 1]); (Fetch Add [1; 0], Value [1; 1]);
             (OpFetch Nand [5; 0], Value [4294967295; 4294967295]); (Exchange [1; 2], Value [4294967295; 4294967295])], [1; 2])) as (s & H & E).
  - repeat (apply Forall_cons; [try exact I; apply isr_valid|]). constructor.
  - vm_compute. reflexivity.
  - exists s. injection E as E1 E2 E3 E4. auto.
Qed.

(* A program or handler that has ended left the interrupts enabled, as it found them. *)
Theorem C87_mask_restored : forall w n m main s f rest, 0 < w -> words w n m -> Forall (valid_stmt w n) main -> reach w n m main s ->
  frames s = f :: rest -> code f = [] -> mask s = false.
Proof. intros w n m main s f rest P W V H F. apply (inv_masks w n (join w m) s f rest); [now apply (inv_reach w P n m main)|exact F]. Qed.
Example C87_mask_restored_ex : exists s f, reach 32 2 m0 main0 s /\ frames s = [f] /\ code f = [] /\ length (log s) = 3%nat.
Proof.
  destruct (witness (fun s => (frames s, length (log s))) 32 2 m0 main0 [R 8; R 2; R 8; R 2; R 9; R 1] ([Fr [] [] []], 3%nat)) as (s & H & E).
  - repeat (apply Forall_cons; [exact I|]). constructor.
  - vm_compute. reflexivity.
  - exists s, (Fr [] [] []). injection E as E1 E2. auto.
Qed.

(* In a block with a Lock the interrupts are disabled, in one with an Unlock they are enabled, however blocks are nested; and no handler ever runs
   while an interrupted program is in a block with a Lock. (The instruction between reading and writing PRIMASK belongs to neither.) *)
Theorem C87_blocks : forall w n m main s f rest, 0 < w -> words w n m -> Forall (valid_stmt w n) main -> reach w n m main s -> frames s = f :: rest ->
  (forall b old outer, scope f = (b, old) :: outer -> (forall x c, code f <> SetMask x :: c) -> mask s = b) /\
  (scope f = [] -> mask s = false) /\
  (forall g old outer, In g rest -> scope g = (true, old) :: outer -> exists x c, code g = SetMask x :: c).
Proof.
  intros w n m main s f rest P W V H F.
  destruct (inv_masks w n (join w m) s f rest (inv_reach w P n m main s W V H) F) as (_ & A & B).
  pose proof (inv_reach w P n m main s W V H) as [_ T]. rewrite F in T. destruct T as (_ & _ & (_ & AG) & _).
  split; [|split].
  - intros b old outer SC NS. rewrite A, SC; [reflexivity|]. destruct (code f) as [|[] c]; cbn; try reflexivity. now destruct (NS b0 c).
  - intros SC. rewrite SC in A, AG. apply A. destruct (code f) as [|[] c]; cbn; try reflexivity. destruct AG; discriminate.
  - intros g old outer IN SC. rewrite Forall_forall in B. specialize (B g IN). rewrite SC in B. cbn in B.
    destruct (code g) as [|[] c]; cbn in B; try (specialize (B eq_refl); discriminate). eexists; eexists; reflexivity.
Qed.
Example C87_blocks_ex : exists s f g, reach 32 2 m0 main0 s /\ frames s = [f; g] /\ map fst (scope g) = [false; true] /\ map fst (scope f) = [true] /\ mask s = true.
Proof.
  destruct (witness (fun s => (map (fun f => map fst (scope f)) (frames s), mask s)) 32 2 m0 main0 [R 8; R 2; R 8; R 2; Irq isr1; R 2] ([[true]; [false; true]], true)) as (s & H & E).
  - repeat (apply Forall_cons; [try exact I; apply isr_valid|]). constructor.
  - vm_compute. reflexivity.
  - injection E as E1 E2. destruct (frames s) as [|f [|g [|]]] eqn:F; try discriminate. injection E1 as E1 E3. exists s, f, g. auto.
Qed.

(* Every instruction can be executed: no access is outside the object, no destructor lacks its constructor. *)
Theorem C87_defined : forall w n m main s f rest, 0 < w -> words w n m -> Forall (valid_stmt w n) main -> reach w n m main s ->
  frames s = f :: rest -> code f <> [] -> exists s', exec w f rest s = Some s'.
Proof.
  intros w n m main s f rest P W V H F C. destruct (exec_ok w P n (join w m) s f rest (inv_reach w P n m main s W V H) F C) as (s' & E & _). eauto.
Qed.
Example C87_defined_ex : exists f, frames (boot 2 m0 main0) = [f] /\ length (code f) = 30%nat.
Proof. eexists. split; reflexivity. Qed.

(* LockPriority(p) masks every interrupt of priority p and below, unmasks none, and changes nothing for those above p that were enabled. *)
Theorem C87_priority : forall pb p b q, 1 <= pb <= 8 -> 1 <= p < 2 ^ pb -> 0 <= b < 256 -> 0 <= q < 2 ^ pb ->
  (masked_at pb (lock_priority pb p b) q <-> masked_at pb b q \/ p <= q).
Proof.
  intros pb p b q B P Bb Q. rewrite lock_priority_spec by assumption. unfold masked_at.
  assert (0 < 2 ^ (8 - pb)) as K by (apply Z.pow_pos_nonneg; lia). remember (2 ^ (8 - pb)) as k. clear Heqk B.
  destruct (Z.eqb_spec b 0) as [E|E]; cbn [orb].
  - split; [intros [_ X]; right; nia|intros [[X _]|X]; [lia|split; nia]].
  - destruct (Z.ltb_spec (p * k) b) as [L|L].
    + split; [intros [_ X]; right; nia|intros [[_ X]|X]; split; nia].
    + split; [intros X; now left|intros [X|X]; [exact X|split; nia]].
Qed.
Example C87_priority_ex : lock_priority 4 5 0 = 80 /\ lock_priority 4 5 48 = 48 /\ masked_at 4 80 5 /\ ~ masked_at 4 80 4.
Proof. unfold masked_at. repeat split; try reflexivity; try discriminate; intros; cbn in *; lia. Qed.

(* LockPriority(0), for the most urgent interrupts, masks none at all. *)
Theorem C87_priority_zero_refuted : exists pb q, 1 <= pb <= 8 /\ 0 <= q < 2 ^ pb /\ ~ masked_at pb (lock_priority pb 0 0) q.
Proof. exists 4, 15. unfold masked_at. cbn. lia. Qed.
Example C87_priority_zero_ex : forall pb q, 1 <= pb <= 8 -> ~ masked_at pb (lock_priority pb 0 0) q.
Proof. intros pb q _. unfold masked_at, lock_priority. rewrite Z.shiftl_0_l. cbn. lia. Qed.

Print Assumptions C87_linearizable.
Print Assumptions C87_mask_restored.
Print Assumptions C87_blocks.
Print Assumptions C87_defined.
Print Assumptions C87_priority.
Print Assumptions C87_priority_zero_refuted.
