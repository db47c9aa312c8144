(* C48: the block allocator *)
From Verif Require Import Base BlockAllocModel BlockAllocSpec BlockAllocProofs.

(* A heap as initialize gets it: pointers of pw bits (and unsigned int as wide), slots of BS words, alignment al; start is the aligned
   start and size the number of slots. At least one slot has to fit and at most 32767 (see C48_clamped_heap). *)
Definition heap (pw BS al heapStart heapEnd start size : Z) (junk : list Z) : Prop :=
  16 <= pw /\ 2 <= BS /\ (al = 4 \/ al = 8) /\ 0 <= heapStart /\ heapStart + 8 <= 2 ^ pw /\ heapEnd < 2 ^ pw /\
  alignPointer pw al heapStart = Some start /\ start + 2 + 2 * BS <= heapEnd /\
  size = (heapEnd - start - 2) / (2 * BS) /\ size <= 32767 /\ zlen junk = (heapEnd - start) / 2.

(* C48. For every legal history of calls the allocator answers exactly as first fit over slots does, starting from initialize, whatever
   the memory contained and whatever the user writes into the blocks; and getAvailableSize is the space not taken. *)
Theorem C48_first_fit :
  forall pw BS al heapStart heapEnd start size junk, heap pw BS al heapStart heapEnd start size junk ->
  forall events answers live, user_run BS start size [] events answers live ->
  Forall (fun e => match e with UAlloc r => r + 4 + 2 * BS <= 2 ^ pw | _ => True end) events ->
  exists s0 s, ba_initialize pw BS al heapStart heapEnd junk = Some s0 /\
    ba_run pw pw BS s0 (map to_model events) = Some (s, answers) /\
    ba_getAvailableSize pw pw BS s = Some (2 * BS * (size - taken live)).
Proof.
  intros pw BS al hs he start size junk (H1 & H2 & H3 & H4 & H5 & H6 & H7 & H8 & H9 & H10 & H11) es xs live U F. subst size.
  destruct (initialize_rep pw BS al hs he junk H1 H2 H3 H4 H5 ltac:(lia) start H7 H8 H10 H11) as (s0 & E & A2 & T & S1 & S2 & R).
  destruct (run_rep pw BS start _ _ H1 H2 A2 (conj S1 H10) S2 T [] es xs live U s0 R F) as (s & E2 & (bl & W & P)).
  exists s0, s. split; [exact E|]. split; [exact E2|]. rewrite (taken_perm _ _ P).
  exact (available_spec pw BS start _ _ H1 H2 A2 (conj S1 H10) S2 T s bl W).
Qed.
Print Assumptions C48_first_fit.

(* At every point of a legal history every request has an answer: the lowest free run that is large enough, or null if there is none. *)
Theorem C48_every_request_answered :
  forall pw BS al heapStart heapEnd start size junk, heap pw BS al heapStart heapEnd start size junk ->
  forall events answers live, user_run BS start size [] events answers live ->
  Forall (fun e => match e with UAlloc r => r + 4 + 2 * BS <= 2 ^ pw | _ => True end) events ->
  forall r, 0 <= r -> r + 4 + 2 * BS <= 2 ^ pw -> exists answer live', user_step BS start size live (UAlloc r) answer live'.
Proof.
  intros pw BS al hs he start size junk (H1 & H2 & H3 & H4 & H5 & H6 & H7 & H8 & H9 & H10 & H11) es xs live U F r Hr Hr2. subst size.
  destruct (initialize_rep pw BS al hs he junk H1 H2 H3 H4 H5 ltac:(lia) start H7 H8 H10 H11) as (s0 & E & A2 & T & S1 & S2 & R).
  destruct (run_rep pw BS start _ _ H1 H2 A2 (conj S1 H10) S2 T [] es xs live U s0 R F) as (s & E2 & R2).
  exact (alloc_answer pw BS start _ _ H1 H2 A2 (conj S1 H10) S2 T s live r R2 Hr Hr2).
Qed.
Print Assumptions C48_every_request_answered.

(* In every legal history the live blocks are pairwise disjoint and inside the heap, their payloads aligned. *)
Theorem C48_blocks_disjoint :
  forall pw BS al heapStart heapEnd start size junk, heap pw BS al heapStart heapEnd start size junk ->
  forall events answers live, user_run BS start size [] events answers live ->
  blocks_ok size live /\
  forall s k, In (s, k) live ->
    heapStart < payload_at BS start s /\ payload_at BS start s <= payload_end BS start s k /\ payload_end BS start s k + 2 < heapEnd /\
    ((2 * BS) mod al = 0 -> payload_at BS start s mod al = 0).
Proof.
  intros pw BS al hs he start size junk (H1 & H2 & H3 & H4 & H5 & H6 & H7 & H8 & H9 & H10 & H11) es xs live U.
  assert (blocks_ok size live) as B by (apply (live_invariant _ _ _ _ _ _ _ H2 U); split; [intros ? ? []|constructor]).
  split; [exact B|]. intros s k I. destruct (proj1 B s k I) as (B1 & B2 & B3).
  destruct (align_spec pw al hs ltac:(lia) H3 H4 H5) as (st & Ea & R & Z0). rewrite H7 in Ea. injection Ea as <-.
  assert (2 * BS * size <= he - start - 2) by (subst size; apply Z.mul_div_le; lia).
  assert (0 <= BS * s /\ BS * (s + k) <= BS * size /\ 2 <= BS * k) as (X1 & X2 & X3) by (clear - H2 B1 B2 B3; nia).
  clear H5 H6 H9 H10 H11 B B2 B3.
  unfold payload_at, payload_end. split; [lia|]. split; [lia|]. split; [lia|]. intro D.
  replace (start + 2 * BS * s + 2) with (start + 2 + s * (2 * BS)) by lia.
  clear - D Z0 H3. assert (al <> 0) by lia. rewrite <- Zplus_mod_idemp_r, <- Zmult_mod_idemp_r, D, Z.mul_0_r, Z.mod_0_l, Z.add_0_r by assumption. exact Z0.
Qed.
Print Assumptions C48_blocks_disjoint.

(* A block handed out holds the request. *)
Theorem C48_block_large_enough :
  forall BS start size live r answer live', 2 <= BS -> 0 <= r -> user_step BS start size live (UAlloc r) answer live' -> 0 < start ->
  (answer = 0 /\ live' = live) \/
  (exists s k, live' = (s, k) :: live /\ answer = payload_at BS start s /\ 0 <= s /\ payload_end BS start s k - answer >= r).
Proof.
  intros BS start size live r x live' HB Hr U Hs.
  inversion U as [r' k s Hr' Sl Pl| | | |]; subst; [|left; auto].
  right. exists s, k. destruct Sl as [S1 S2]. destruct Pl as [(P1 & _) _]. unfold payload_at, payload_end. split; [reflexivity|]. split; [reflexivity|]. lia.
Qed.
Print Assumptions C48_block_large_enough.

(* Once everything has been freed the whole heap is one free block: a request for all of it succeeds. *)
Theorem C48_all_freed :
  forall pw BS al heapStart heapEnd start size junk, heap pw BS al heapStart heapEnd start size junk ->
  heapEnd + 2 * BS <= 2 ^ pw ->
  forall events answers, user_run BS start size [] events answers [] ->
  Forall (fun e => match e with UAlloc r => r + 4 + 2 * BS <= 2 ^ pw | _ => True end) events ->
  exists s0 s s', ba_initialize pw BS al heapStart heapEnd junk = Some s0 /\
    ba_run pw pw BS s0 (map to_model events) = Some (s, answers) /\
    ba_getAvailableSize pw pw BS s = Some (2 * BS * size) /\
    ba_allocate pw pw BS s (2 * BS * size - 4) = Some (s', start + 2).
Proof.
  intros pw BS al hs he start size junk (H1 & H2 & H3 & H4 & H5 & H6 & H7 & H8 & H9 & H10 & H11) H12 es xs U F. subst size.
  destruct (initialize_rep pw BS al hs he junk H1 H2 H3 H4 H5 ltac:(lia) start H7 H8 H10 H11) as (s0 & E & A2 & T & S1 & S2 & R).
  set (size := (he - start - 2) / (2 * BS)) in *. assert (2 * BS * size <= he - start - 2) by (apply Z.mul_div_le; lia). clearbody size.
  destruct (run_rep pw BS start _ _ H1 H2 A2 (conj S1 H10) S2 T [] es xs [] U s0 R F) as (s & E2 & R2).
  assert (user_step BS start size [] (UAlloc (2 * BS * size - 4)) (payload_at BS start 0) [(0, size)]) as St.
  { apply step_alloc; [nia|unfold slots_for; nia|]. split; [|intros s' L (X & _); lia]. split; [lia|]. split; [lia|intros ? ? []]. }
  assert (reasonable pw BS (UAlloc (2 * BS * size - 4))) as Rs by (cbn [reasonable]; lia).
  destruct (step_rep pw BS start _ _ H1 H2 A2 (conj S1 H10) S2 T s [] _ _ _ R2 Rs St) as (s' & E3 & _).
  destruct R2 as (bl & W & P). exists s0, s, s'. split; [exact E|]. split; [exact E2|]. split.
  - rewrite (available_spec pw BS start _ _ H1 H2 A2 (conj S1 H10) S2 T s bl W), <- (taken_perm _ _ P). unfold taken. cbn [fold_right]. f_equal. lia.
  - cbn [to_model ba_step] in E3. rewrite E3. unfold payload_at. do 2 f_equal. lia.
Qed.
Print Assumptions C48_all_freed.

(* What the user writes into a live block stays there through all other calls until the block is freed or the word written again. *)
Theorem C48_contents_survive :
  forall pw BS al heapStart heapEnd start size junk, heap pw BS al heapStart heapEnd start size junk ->
  forall events1 answers1 live1 address value events2 answers2 live2 s k,
  user_run BS start size [] events1 answers1 live1 ->
  In (s, k) live1 -> payload_at BS start s <= address -> address + 2 <= payload_end BS start s k -> Z.Even (address - start) ->
  user_run BS start size live1 events2 answers2 live2 ->
  ~ In (UFree (payload_at BS start s)) events2 -> (forall v, ~ In (UWrite address v) events2) ->
  Forall (fun e => match e with UAlloc r => r + 4 + 2 * BS <= 2 ^ pw | _ => True end) (events1 ++ events2) ->
  exists s0 s, ba_initialize pw BS al heapStart heapEnd junk = Some s0 /\
    ba_run pw pw BS s0 (map to_model (events1 ++ UWrite address value :: events2)) = Some (s, answers1 ++ 0 :: answers2) /\
    b_read s address = Some (value mod 65536).
Proof.
  intros pw BS al hs he start size junk (H1 & H2 & H3 & H4 & H5 & H6 & H7 & H8 & H9 & H10 & H11) es1 xs1 live1 a v es2 xs2 live2 t k U1 I Ha1 Ha2 Ev U2 NF NW F. subst size.
  destruct (initialize_rep pw BS al hs he junk H1 H2 H3 H4 H5 ltac:(lia) start H7 H8 H10 H11) as (s0 & E & A2 & T & S1 & S2 & R).
  apply Forall_app in F. destruct F as [F1 F2].
  destruct (run_rep pw BS start _ _ H1 H2 A2 (conj S1 H10) S2 T [] es1 xs1 live1 U1 s0 R F1) as (s1 & E1 & R1).
  pose proof (step_write BS start ((he - start - 2) / (2 * BS)) live1 a v t k I Ha1 Ha2 Ev) as St.
  destruct (step_rep pw BS start _ _ H1 H2 A2 (conj S1 H10) S2 T s1 live1 (UWrite a v) 0 live1 R1 Logic.I St) as (s2 & E2 & R2 & _).
  pose proof Ev as [j Ej]. assert (a = start + 2 * j) as -> by lia. unfold payload_at, payload_end in Ha1, Ha2.
  destruct (run_keeps pw BS start _ _ H1 H2 A2 (conj S1 H10) S2 T live1 es2 xs2 live2 U2 s2 R2 F2 t k j I NF ltac:(lia) NW) as (s3 & E3 & R3 & K).
  exists s0, s3. split; [exact E|]. split.
  - rewrite map_app. cbn [map]. rewrite run_app, E1. cbn [obind ba_run]. rewrite E2. cbn [obind]. rewrite E3. reflexivity.
  - destruct R3 as (bl & (W & _) & _). rewrite (at_read BS start s3 j W), K. cbn [to_model ba_step] in E2.
    destruct R1 as (bl1 & (W1 & _) & _). unfold b_write in E2. rewrite W1 in E2. replace (start + 2 * j - start) with (j * 2) in E2 by lia.
    rewrite Z.odd_mul, andb_false_r, Z.div_mul in E2 by lia. destruct (zupd (b_mem s1) j (u16 v)) as [m|] eqn:Eu; [|discriminate]. cbn [obind] in E2.
    injection E2 as <-. cbn [b_mem]. apply zupd_Some in Eu. destruct Eu as (_ & _ & G). rewrite G, Z.eqb_refl. reflexivity.
Qed.
Print Assumptions C48_contents_survive.

(* the heap of the comment in block_allocator_impl.hpp:41-58: 64 bytes, slots of 16, three blocks, holes, coalescing *)
Example C48_heap_example : heap 32 8 4 0 64 2 3 (repeat 7 31).
Proof. unfold heap. repeat split; try lia; auto. Qed.
Example C48_history_example :
  user_run 8 2 3 [] [UAlloc 1; UAlloc 12; UAlloc 3; UAlloc 0; UFree 20; UFree 4; UAlloc 28] [4; 20; 36; 0; 0; 0; 4] [(0, 2); (2, 1)] /\
  (do s0 <- ba_initialize 32 8 4 0 64 (repeat 7 31);
   do (_, xs) <- ba_run 32 32 8 s0 (map to_model [UAlloc 1; UAlloc 12; UAlloc 3; UAlloc 0; UFree 20; UFree 4; UAlloc 28]); Some xs)
  = Some [4; 20; 36; 0; 0; 0; 4].
Proof.
  split; [|vm_compute; reflexivity].
  assert (forall live k s, fits 3 live k s -> 0 <= s /\ s + k <= 3) as Q by (intros live k s (X & Y & _); lia).
  eapply run_cons; [apply (step_alloc 8 2 3 [] 1 1 0); [lia|unfold slots_for; lia|split; [split; [lia|split; [lia|intros ? ? []]]|intros s' L X; apply Q in X; lia]]|].
  eapply run_cons; [apply (step_alloc 8 2 3 _ 12 1 1); [lia|unfold slots_for; lia|split; [split; [lia|split; [lia|intros ? ? [X|[]]; injection X as <- <-; lia]]|]]|].
  { intros s' L (X & Y & W). destruct (W 0 1); [left; reflexivity|lia|lia]. }
  eapply run_cons; [apply (step_alloc 8 2 3 _ 3 1 2); [lia|unfold slots_for; lia|split; [split; [lia|split; [lia|intros ? ? [X|[X|[]]]; injection X as <- <-; lia]]|]]|].
  { intros s' L (X & Y & W). destruct (W 0 1); [right; left; reflexivity|lia|]. destruct (W 1 1); [left; reflexivity|lia|lia]. }
  eapply run_cons; [apply (step_full 8 2 3 _ 0 1); [lia|unfold slots_for; lia|]|].
  { intros s' (X & Y & W). destruct (W 0 1); [right; right; left; reflexivity|lia|]. destruct (W 1 1); [right; left; reflexivity|lia|]. destruct (W 2 1); [left; reflexivity|lia|lia]. }
  eapply run_cons; [apply (step_free 8 2 3 _ [(2, 1)] [(0, 1)] 1 1); reflexivity|].
  eapply run_cons; [apply (step_free 8 2 3 _ [(2, 1)] [] 0 1); reflexivity|].
  eapply run_cons; [apply (step_alloc 8 2 3 _ 28 2 0); [lia|unfold slots_for; lia|split; [split; [lia|split; [lia|intros ? ? [X|[]]; injection X as <- <-; lia]]|]]|].
  { intros s' L (X & _). lia. }
  apply run_nil.
Qed.

(* The clamp in front of initialize (heap_block.cpp) keeps the number of slots below 2^15. *)
Theorem C48_clamped_heap :
  forall chunk heapStart heapEnd start, 1 <= chunk -> heapStart <= start ->
  (clamp_heap chunk heapStart heapEnd - start - 2) / (2 * chunk) <= 32767.
Proof.
  intros c hs he st Hc H. unfold clamp_heap. cbv zeta. destruct (65536 * c <? he - hs) eqn:E.
  - apply Z.lt_succ_r. apply Z.div_lt_upper_bound; lia.
  - apply Z.lt_succ_r. apply Z.div_lt_upper_bound; lia.
Qed.
Print Assumptions C48_clamped_heap.
Example C48_clamp_example : clamp_heap 8 0x20000000 0x20100000 = 0x20080000 /\ (clamp_heap 8 0x20000000 0x20100000 - 0x20000002 - 2) / 16 = 32767.
Proof. vm_compute. auto. Qed.

(* The bounds are needed. A request of SIZE_MAX - 3 or more wraps around to zero slots: the marker of a block of no words is written in
   front of the heap. *)
Theorem C48_huge_request_refuted :
  exists junk s0 r, heap 32 8 4 0 64 2 3 junk /\ ba_initialize 32 8 4 0 64 junk = Some s0 /\ 0 <= r < 2 ^ 32 /\ ba_allocate 32 32 8 s0 r = None.
Proof.
  exists (repeat 7 31). eexists. exists (2 ^ 32 - 4). split; [exact C48_heap_example|]. split; [vm_compute; reflexivity|]. split; [lia|vm_compute; reflexivity].
Qed.
Print Assumptions C48_huge_request_refuted.
(* Where a pointer is wider than unsigned int, joining with the free block below moves the pointer far up instead of down. *)
Theorem C48_wide_pointer_refuted :
  exists junk s0 s, ba_initialize 64 8 8 0 128 junk = Some s0 /\
    ba_run 32 64 8 s0 [EAlloc 1; EAlloc 1; EFree 8] = Some (s, [8; 24; 0]) /\ ba_run 32 64 8 s [EFree 24] = None.
Proof.
  exists (repeat 7 61). do 2 eexists. split; [vm_compute; reflexivity|]. split; [vm_compute; reflexivity|].
  cbn [ba_run ba_step]. match goal with |- context [ba_free ?i ?p ?b ?s ?x] => assert (ba_free i p b s x = None) as -> end; [|reflexivity].
  cbv -[b_write]. match goal with |- context [b_write ?s ?p ?v] => rewrite (write_far s p v); [reflexivity|] end. vm_compute. discriminate.
Qed.
Print Assumptions C48_wide_pointer_refuted.
(* A heap too small for one slot: the end marker is written in front of the heap. *)
Theorem C48_tiny_heap_refuted :
  exists junk, zlen junk = (12 - 2) / 2 /\ alignPointer 32 4 0 = Some 2 /\ ba_initialize 32 8 4 0 12 junk = None.
Proof. exists (repeat 7 5). vm_compute. auto. Qed.
Print Assumptions C48_tiny_heap_refuted.
