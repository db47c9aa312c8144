(* C09: SmartPointer keeps a block as long as a handle refers to it and releases it with the last one. *)
From Verif Require Import Base PtrHeap SmartPtrSpec SmartPtrModel SmartPtrProofs.

(* the addresses operator new may return *)
Definition new_contract (alloc : Z -> list Z -> Z) : Prop := forall k live, alloc k live <> 0 /\ ~ In (alloc k live) live.
Definition next_free (k : Z) (live : list Z) : Z := 1 + fold_right Z.max 0 live.
Lemma next_free_contract : new_contract next_free.
Proof.
  intros k live. unfold next_free.
  assert (forall x, In x live -> x <= fold_right Z.max 0 live) as H.
  { induction live as [|y t IH]; [intros x []|]. intros x [->|I]; cbn; [lia|]. specialize (IH x I). lia. }
  assert (0 <= fold_right Z.max 0 live) by (clear; induction live; cbn; lia).
  split; [lia|]. intro I. specialize (H _ I). lia.
Qed.

(* Every supported history of sensible calls runs without undefined behaviour and answers like shared objects. *)
Theorem C09_sequence w alloc cs m rs : new_contract alloc ->
  shared_calls (Z.min 65535 (2 ^ w - 5)) shared0 cs = Some (m, rs) -> calls_supported (Z.min 65535 (2 ^ w - 5)) shared0 cs ->
  exists s, sp_calls w alloc sworld0 cs = Some (s, rs).
Proof. intros Ha E U. destruct (calls_ok w alloc Ha cs sworld0 _ _ _ (prep0 alloc) E U) as (s & H & _). eauto. Qed.
Print Assumptions C09_sequence.
Definition demo : list pcall :=
  [PNewData 1 [7; 8; 9]; PCopy 2 1; PNewSize 3 2; PDelete 1; PRead 2 1; PWrite 2 1 5; PCopy 4 2; PGet 4 3; PGet 4 2; PAssign 3 4; PEqual 2 3;
   PDelete 2; PAssign 3 3; PGetSize 3; PNew 9; PEqual 3 9; PDelete 4; PRead 3 1; PDelete 3].
Ltac run_supported :=
  repeat match goal with
  | |- _ /\ _ => split
  | |- True => exact I
  | |- calls_supported _ _ _ => progress cbn [calls_supported call_supported]
  | |- releasable _ _ => let o := fresh in let H := fresh in intros o H; vm_compute in H; injection H as <-; vm_compute; auto; right; discriminate
  | |- _ = _ -> forall o, _ => let E := fresh in intro E; try discriminate E; let o := fresh in let H := fresh in intros o H; vm_compute in H; injection H as <-; vm_compute; discriminate
  | |- forall m' r, shared_call ?l ?m ?c = Some (m', r) -> _ =>
      let v := eval vm_compute in (shared_call l m c) in
      let H := fresh in
      intros m' r H; change (v = Some (m', r)) in H; injection H as <- <-
  end.
Example C09_sequence_case :
  (exists m, shared_calls (Z.min 65535 (2 ^ 32 - 5)) shared0 demo = Some (m,
    [PVoid; PVoid; PVoid; PVoid; PNumber 8; PVoid; PVoid; PData (Some [Some 7; Some 5; Some 9]); PData None; PVoid; PBool true;
     PVoid; PVoid; PNumber 3; PVoid; PBool false; PVoid; PNumber 5; PVoid])) /\
  calls_supported (Z.min 65535 (2 ^ 32 - 5)) shared0 demo /\ new_contract next_free.
Proof.
  split; [eexists; vm_compute; reflexivity|]. split; [|exact next_free_contract].
  change (Z.min 65535 (2 ^ 32 - 5)) with 65535. unfold demo, shared0. run_supported.
Qed.

(* The blocks that exist are exactly those a handle refers to, handles refer to the same block exactly if they refer to the same
   object, and the size and contents stored in the block are those of the object. *)
Theorem C09_lifetime w alloc cs m rs s : new_contract alloc ->
  shared_calls (Z.min 65535 (2 ^ w - 5)) shared0 cs = Some (m, rs) -> calls_supported (Z.min 65535 (2 ^ w - 5)) shared0 cs ->
  sp_calls w alloc sworld0 cs = Some (s, rs) ->
  (forall p, In p (map fst (sw_heap s)) <-> exists x, lookup (sw_vars s) x = Some p) /\
  NoDup (map fst (sw_heap s)) /\
  (forall x y p q o r, lookup (sw_vars s) x = Some p -> lookup (sw_vars s) y = Some q ->
     lookup (sh_handles m) x = Some o -> lookup (sh_handles m) y = Some r -> (p = q <-> o = r)) /\
  (forall x o, lookup (sh_handles m) x = Some o -> exists p b, lookup (sw_vars s) x = Some p /\ hget (sw_heap s) p = Some b /\
     firstn (length (sh_data m o)) (skipn 4 b) = sh_data m o).
Proof.
  intros Ha E U D. destruct (calls_ok w alloc Ha cs sworld0 _ _ _ (prep0 alloc) E U) as (s' & H & f & (O & B & I & K) & Ev & ND & N).
  rewrite D in H. injection H as <-. rewrite Ev. unfold tr.
  assert (forall x, lookup (map (fun a => (fst a, f (snd a))) (sh_handles m)) x = option_map f (lookup (sh_handles m) x)) as LM by (intro; apply lookup_map).
  split; [|split; [|split]].
  - intro p. split.
    + intro Hp. destruct (K p Hp) as (o & Ho & <-). destruct (handles_ex _ _ Ho) as [x Hx]. exists x. rewrite LM.
      assert (lookup (sh_handles m) x = Some o) as ->; [|reflexivity].
      clear - Hx ND. induction (sh_handles m) as [|[y q] t IH]; [destruct Hx|]. cbn in *. inversion ND as [|? ? N1 N2]; subst.
      destruct Hx as [Hx|Hx]; [injection Hx as -> ->; rewrite Z.eqb_refl; reflexivity|].
      destruct (y =? x) eqn:Q; [|auto]. exfalso. apply N1. apply in_map_iff. exists (x, o). split; [cbn; lia|exact Hx].
    + intros [x Hx]. rewrite LM in Hx. destruct (lookup (sh_handles m) x) as [o|] eqn:Ex; [|discriminate]. injection Hx as <-.
      destruct (B o (handles_In _ _ _ (lookup_In _ _ _ Ex))) as (_ & c1 & pad & G). exact (hget_In _ _ _ G).
  - apply O.
  - intros x y p q o r Hp Hq Ho Hr. rewrite LM, Ho in Hp. rewrite LM, Hr in Hq. injection Hp as <-. injection Hq as <-.
    split; [|congruence]. apply I; eapply handles_In, lookup_In; eassumption.
  - intros x o Hx. rewrite LM, Hx. destruct (B o (handles_In _ _ _ (lookup_In _ _ _ Hx))) as (_ & c1 & pad & G).
    exists (f o). eexists. split; [reflexivity|]. split; [exact G|]. cbn [skipn]. rewrite firstn_app, firstn_all, Nat.sub_diag. apply app_nil_r.
Qed.
Print Assumptions C09_lifetime.
Example C09_lifetime_case : exists m s,
  shared_calls (Z.min 65535 (2 ^ 32 - 5)) shared0 [PNewData 1 [7; 8]; PCopy 2 1; PDelete 1] = Some (m, [PVoid; PVoid; PVoid]) /\
  sp_calls 32 next_free sworld0 [PNewData 1 [7; 8]; PCopy 2 1; PDelete 1] = Some (s, [PVoid; PVoid; PVoid]) /\
  lookup (sw_vars s) 2 = Some 1 /\ sw_heap s = [(1, [Some 1; None; Some 2; Some 0; Some 7; Some 8])].
Proof. do 2 eexists. split; [vm_compute; reflexivity|]. split; [vm_compute; reflexivity|]. split; vm_compute; reflexivity. Qed.

(* The count wraps around: as soon as a block has 257 (or 513, ...) handles, deleting one of them releases the block although the
   others still refer to it, and the next use of any of those is undefined. *)
Theorem C09_early_release w alloc cs m rs x y o : new_contract alloc ->
  shared_calls (Z.min 65535 (2 ^ w - 5)) shared0 cs = Some (m, rs) -> calls_supported (Z.min 65535 (2 ^ w - 5)) shared0 cs ->
  lookup (sh_handles m) x = Some o -> lookup (sh_handles m) y = Some o -> x <> y -> handles (sh_handles m) o mod 256 = 1 ->
  exists s s' p, sp_calls w alloc sworld0 cs = Some (s, rs) /\ lookup (sw_vars s) y = Some p /\
    sp_call w alloc s (PDelete x) = Some (s', PVoid) /\ lookup (sw_vars s') y = Some p /\ ~ In p (map fst (sw_heap s')) /\
    sp_call w alloc s' (PDelete y) = None /\ sp_call w alloc s' (PGetSize y) = None.
Proof.
  intros Ha E U Hx Hy Nxy Hc. destruct (calls_ok w alloc Ha cs sworld0 _ _ _ (prep0 alloc) E U) as (s & H & f & HR & Ev & ND & N).
  pose proof (handles_In _ _ _ (lookup_In _ _ _ Hx)) as Lo.
  destruct (release_early f _ _ _ o HR Lo Hc) as (h' & Er & Np).
  assert (lookup (without (sw_vars s) x) y = Some (f o)) as Ly.
  { rewrite Ev. unfold tr. rewrite without_map, lookup_map. clear - Hy Nxy.
    assert (lookup (without (sh_handles m) x) y = Some o) as ->; [|reflexivity].
    induction (sh_handles m) as [|[z q] t IH]; [discriminate|]. cbn in *. destruct (z =? x) eqn:Q.
    - destruct (z =? y) eqn:Q1; [lia|auto].
    - cbn. destruct (z =? y); auto. }
  exists s, (mkSW h' (without (sw_vars s) x) (sw_time s)), (f o). split; [exact H|].
  split; [rewrite Ev; unfold tr; rewrite lookup_map, Hy; reflexivity|]. split; [|split; [exact Ly|split; [exact Np|]]].
  - cbn [sp_call]. unfold with_ptr. rewrite Ev. unfold tr at 1. rewrite lookup_map, Hx. cbn [option_map obind]. unfold sp_delete. rewrite Er. reflexivity.
  - cbn [sp_call]. unfold with_ptr. cbn [sw_vars sw_heap]. rewrite Ly. cbn [obind]. unfold sp_delete, sp_getSize, s_read.
    rewrite (proj1 (release_absent h' (f o) Np)). rewrite (hget_None h' _ Np). split; reflexivity.
Qed.
Print Assumptions C09_early_release.
(* copies 2 .. n+1 of handle 1 *)
Definition copies (n : nat) : list pcall := PNewData 1 [42] :: map (fun k => PCopy (Z.of_nat k + 2) 1) (seq 0 n).
Example C09_early_release_case : exists m, shared_calls (Z.min 65535 (2 ^ 32 - 5)) shared0 (copies 256) = Some (m, repeat PVoid 257) /\
  handles (sh_handles m) 0 = 257 /\ lookup (sh_handles m) 1 = Some 0 /\ lookup (sh_handles m) 2 = Some 0.
Proof. eexists. split; [vm_compute; reflexivity|]. split; [vm_compute; reflexivity|]. split; vm_compute; reflexivity. Qed.
Theorem C09_any_number_of_handles_refuted : exists cs m rs,
  shared_calls (Z.min 65535 (2 ^ 32 - 5)) shared0 cs = Some (m, rs) /\ sp_calls 32 next_free sworld0 cs = None.
Proof. exists (copies 256 ++ [PDelete 2; PRead 1 0]). do 2 eexists. split; vm_compute; reflexivity. Qed.
Print Assumptions C09_any_number_of_handles_refuted.

(* Assigning the only handle of a block to itself releases the block and then uses it. *)
Theorem C09_self_assignment_undefined w alloc cs m rs x o : new_contract alloc ->
  shared_calls (Z.min 65535 (2 ^ w - 5)) shared0 cs = Some (m, rs) -> calls_supported (Z.min 65535 (2 ^ w - 5)) shared0 cs ->
  lookup (sh_handles m) x = Some o -> handles (sh_handles m) o = 1 ->
  exists s, sp_calls w alloc sworld0 cs = Some (s, rs) /\ sp_call w alloc s (PAssign x x) = None.
Proof.
  intros Ha E U Hx Hc. destruct (calls_ok w alloc Ha cs sworld0 _ _ _ (prep0 alloc) E U) as (s & H & f & HR & Ev & ND & N).
  exists s. split; [exact H|].
  destruct (release_early f _ _ _ o HR) as (h' & Er & Np); [lia|rewrite Hc; reflexivity|].
  cbn [sp_call]. unfold with_ptr. rewrite Ev. unfold tr at 1 2. rewrite lookup_map, Hx. cbn [option_map obind]. unfold sp_assign. rewrite Er. cbn [obind].
  rewrite (proj2 (release_absent h' (f o) Np)). reflexivity.
Qed.
Print Assumptions C09_self_assignment_undefined.
Example C09_self_assignment_case :
  (exists m, shared_calls (Z.min 65535 (2 ^ 32 - 5)) shared0 [PNew 1] = Some (m, [PVoid]) /\ lookup (sh_handles m) 1 = Some 0 /\ handles (sh_handles m) 0 = 1) /\
  sp_calls 32 next_free sworld0 [PNew 1; PAssign 1 1] = None.
Proof. split; [eexists; split; [vm_compute; reflexivity|]; split; vm_compute; reflexivity|vm_compute; reflexivity]. Qed.
Theorem C09_self_assignment_refuted : exists cs m rs,
  shared_calls (Z.min 65535 (2 ^ 32 - 5)) shared0 cs = Some (m, rs) /\ sp_calls 32 next_free sworld0 cs = None.
Proof. exists [PNew 1; PAssign 1 1]. do 2 eexists. split; vm_compute; reflexivity. Qed.
Print Assumptions C09_self_assignment_refuted.

(* Printing shows the contents of blocks of up to 251 bytes and never ends for longer ones. *)
Theorem C09_print h p c d : blk h p c d ->
  (zlen d <= 251 -> forall fuel, (length d < fuel)%nat -> sp_print fuel h p = Some d) /\
  (252 <= zlen d -> forall fuel, sp_print fuel h p = None).
Proof.
  intro B. split; intros L fuel; [intro Hf; exact (print_ok next_free h p c d fuel B L Hf)|exact (print_endless next_free h p c d fuel B L)].
Qed.
Print Assumptions C09_print.
Example C09_print_case : blk [(8, [Some 1; None; Some 2; Some 0; Some 65; Some 66])] 8 1 [Some 65; Some 66] /\
  blk [(8, [Some 1; None; Some 252; Some 0] ++ repeat (Some 65) 252)] 8 1 (repeat (Some 65) 252) /\
  sp_print 3 [(8, [Some 1; None; Some 2; Some 0; Some 65; Some 66])] 8 = Some [Some 65; Some 66].
Proof.
  split; [split; [vm_compute; discriminate|exists None, []; vm_compute; reflexivity]|].
  split; [split; [vm_compute; discriminate|exists None, []; vm_compute; reflexivity]|vm_compute; reflexivity].
Qed.
