(* Properties of the driver for the bxCAN peripheral of the STM32. *)
From Coq Require Import Permutation.
From Verif Require Import Base BitsProofs BitLemmas CanModel BxModel BxSpec BxProofs BxTxProofs BxRxProofs.

Definition msg (e : bool) (id : Z) (r : bool) (n : Z) (d : list Z) : can_msg := mkCan id false false r e n n d.
Definition m_ext : can_msg := msg true 305419896 false 5 [1; 2; 3; 4; 255; 0; 0; 0].
Lemma m_ext_valid : valid_msg 8 m_ext.
Proof. unfold valid_msg. cbn. repeat (split; try lia). repeat constructor; lia. Qed.

(** *** Mailboxes *)

(* C82: the frame sent from the mailbox is the message *)
Theorem C82_send_frame capacity m : 8 <= capacity -> valid_msg capacity m ->
  exists b, sendMailbox m = Some b /\ Z.testbit (tir b) 0 = true /\
    on_bus b = Frame (c_ext m) (c_id m) (c_rtr m) (c_len m) (if c_rtr m then [] else firstn (Z.to_nat (c_len m)) (c_data m)) /\ valid_frame (on_bus b).
Proof.
  intros C (I & L & D & N & F & _). destruct (send_ok m ltac:(lia) F I) as (lo & hi & E & B). eexists. split; [exact E|]. split.
  - cbn [tir]. rewrite Z.bit0_odd.
    assert (Q : exists y, c_id m * 2 ^ (if c_ext m then 3 else 21) + bit (c_ext m) 4 + bit (c_rtr m) 2 + 1 = 1 + 2 * y).
    { unfold bit. destruct (c_ext m); [exists (c_id m * 4 + 2 + if c_rtr m then 1 else 0); change (2 ^ 3) with 8|exists (c_id m * 1048576 + if c_rtr m then 1 else 0); change (2 ^ 21) with 2097152]; destruct (c_rtr m); lia. }
    destruct Q as [y ->]. rewrite Z.odd_add_mul_2. reflexivity.
  - rewrite (on_bus_ok m lo hi I ltac:(lia) B), D. split; [reflexivity|]. unfold valid_frame. cbn [f_ext f_id f_rtr f_dlc f_data]. split; [exact I|]. split; [lia|]. split.
    + destruct (c_rtr m); [constructor|]. apply Forall_forall. intros x X. rewrite Forall_forall in F. apply F. rewrite <- (firstn_skipn (Z.to_nat (c_len m)) (c_data m)). apply in_or_app. left. exact X.
    + destruct (c_rtr m); [reflexivity|]. unfold zlen in *. rewrite firstn_length. lia.
Qed.
Example C82_send_case : option_map on_bus (sendMailbox m_ext) = Some (Frame true 305419896 false 5 [1; 2; 3; 4; 255]).
Proof. vm_compute. reflexivity. Qed.
Example C82_send_case_2 : exists b, sendMailbox m_ext = Some b /\ Z.testbit (tir b) 0 = true /\ valid_frame (on_bus b).
Proof. destruct (C82_send_frame 8 m_ext ltac:(lia) m_ext_valid) as (b & E & T & _ & V). eauto. Qed.

(* C82: whatever the previous contents of the message, the frame in the FIFO and its filter index are returned; capacity: bytes in a message *)
Theorem C82_receive_partial capacity m0 f fmi rir rdtr lo hi : 8 <= capacity -> zlen (c_data m0) = capacity -> valid_frame f ->
  capacity = 8 \/ f_dlc f <= 8 -> in_fifo f fmi rir rdtr lo hi ->
  exists d, readMailbox capacity m0 rir rdtr lo hi =
      Some (mkCan (f_id f) (c_fd m0) (c_brs m0) (f_rtr f) (f_ext f) (Z.min (f_dlc f) 8) (Z.min (f_dlc f) 8) d, fmi) /\
    zlen d = capacity /\ firstn (length (f_data f)) d = f_data f.
Proof. intros C L V O I. destruct (read_ok capacity m0 f fmi rir rdtr lo hi C L V O I) as (d & E & Z1 & _ & F). eauto. Qed.
Definition f_std : frame := Frame false 1638 false 3 [7; 8; 9].
Lemma f_std_valid : valid_frame f_std.
Proof. unfold valid_frame. cbn. repeat (split; try lia). repeat constructor; lia. Qed.
Lemma f_std_fifo : in_fifo f_std 21 (1638 * 2 ^ 21) (3 + 256 * 21 + 65536 * 999) (7 + 256 * 8 + 65536 * 9 + 16777216 * 170) 3735928559.
Proof. unfold in_fifo. vm_compute. intuition discriminate. Qed.
Example C82_receive_case : option_map fst (readMailbox 8 m_ext (1638 * 2 ^ 21) (3 + 256 * 21 + 65536 * 999) (7 + 256 * 8 + 65536 * 9 + 16777216 * 170) 3735928559) =
  Some (msg false 1638 false 3 [7; 8; 9; 170; 239; 190; 173; 222]).
Proof. vm_compute. reflexivity. Qed.
Example C82_receive_case_2 : exists d, readMailbox 8 m_ext (1638 * 2 ^ 21) (3 + 256 * 21 + 65536 * 999) (7 + 256 * 8 + 65536 * 9 + 16777216 * 170) 3735928559 =
  Some (msg false 1638 false 3 d, 21) /\ firstn 3 d = [7; 8; 9].
Proof.
  destruct (C82_receive_partial 8 m_ext f_std 21 _ _ _ _ ltac:(lia) ltac:(reflexivity) ltac:(unfold valid_frame; cbn; repeat (split; try lia); repeat constructor; lia) (or_introl eq_refl) f_std_fifo) as (d & E & _ & F).
  exists d. split; [exact E|exact F].
Qed.

(* C82: a message sent by one node and received by another one, whose unused data bytes are junk *)
Theorem C82_round_trip capacity m m0 rir rdtr lo hi fmi : 8 <= capacity -> valid_msg capacity m -> zlen (c_data m0) = capacity ->
  (forall b, sendMailbox m = Some b -> in_fifo (on_bus b) fmi rir rdtr lo hi) ->
  exists m', readMailbox capacity m0 rir rdtr lo hi = Some (m', fmi) /\ c_id m' = c_id m /\ c_ext m' = c_ext m /\ c_rtr m' = c_rtr m /\ c_len m' = c_len m /\ c_dlc m' = c_dlc m /\
    (c_rtr m = false -> firstn (Z.to_nat (c_len m)) (c_data m') = firstn (Z.to_nat (c_len m)) (c_data m)).
Proof.
  intros C V L H. destruct (C82_send_frame capacity m C V) as (b & E & _ & OB & VF). specialize (H b E). destruct V as (I & LN & D & N & F & _).
  assert (O : capacity = 8 \/ f_dlc (on_bus b) <= 8) by (right; rewrite OB; cbn; lia).
  destruct (C82_receive_partial capacity m0 (on_bus b) fmi rir rdtr lo hi C L VF O H) as (d & R & ZD & FD). rewrite OB in R, FD. cbn [f_id f_rtr f_ext f_dlc f_data] in R, FD.
  eexists. split; [exact R|]. cbn. replace (Z.min (c_len m) 8) with (c_len m) by lia. repeat (split; [congruence|]). intro RT. rewrite RT in FD. rewrite firstn_length in FD.
  replace (Nat.min (Z.to_nat (c_len m)) (length (c_data m))) with (Z.to_nat (c_len m)) in FD by (unfold zlen in N; lia). exact FD.
Qed.
Example C82_round_trip_case : exists m', readMailbox 8 (msg false 3 true 8 [9; 9; 9; 9; 9; 9; 9; 9]) (305419896 * 8 + 4) 5 (1 + 256 * 2 + 65536 * 3 + 16777216 * 4) (255 + 256 * 77) = Some (m', 0) /\
  c_id m' = 305419896 /\ c_len m' = 5 /\ firstn 5 (c_data m') = [1; 2; 3; 4; 255].
Proof.
  destruct (C82_round_trip 8 m_ext (msg false 3 true 8 [9; 9; 9; 9; 9; 9; 9; 9]) (305419896 * 8 + 4) 5 (1 + 256 * 2 + 65536 * 3 + 16777216 * 4) (255 + 256 * 77) 0 ltac:(lia) m_ext_valid ltac:(reflexivity)) as (m' & E & A & _ & _ & B & _ & F).
  - intros b E. assert (Q : option_map on_bus (sendMailbox m_ext) = Some (Frame true 305419896 false 5 [1; 2; 3; 4; 255])) by (vm_compute; reflexivity). rewrite E in Q. cbn [option_map] in Q. assert (Q' : on_bus b = Frame true 305419896 false 5 [1; 2; 3; 4; 255]) by congruence. rewrite Q'. unfold in_fifo. vm_compute. intuition discriminate.
  - exists m'. split; [exact E|]. split; [exact A|]. split; [exact B|]. exact (F eq_refl).
Qed.

(* C82: with 64 byte messages a classic frame with a data length code above 8 (8 bytes on the bus) is reported as up to 64 bytes long *)
Theorem C82_receive_refuted : exists f rir rdtr lo hi m, valid_frame f /\ f_rtr f = false /\ zlen (f_data f) = 8 /\ in_fifo f 0 rir rdtr lo hi /\
  option_map fst (readMailbox 64 (msg false 1 false 0 (repeat 0 64)) rir rdtr lo hi) = Some m /\ c_len m = 64.
Proof.
  exists (Frame false 5 false 15 [1; 2; 3; 4; 5; 6; 7; 8]), (5 * 2 ^ 21), 15, (1 + 256 * 2 + 65536 * 3 + 16777216 * 4), (5 + 256 * 6 + 65536 * 7 + 16777216 * 8). eexists.
  split; [unfold valid_frame; cbn; repeat (split; try lia); repeat constructor; lia|]. split; [reflexivity|]. split; [reflexivity|]. split; [unfold in_fifo; vm_compute; intuition discriminate|]. split; [vm_compute; reflexivity|reflexivity].
Qed.

(** *** Filters *)
Definition regs0 : fregs := Fr 5 4 4 1 (fun k => if k =? 2 then 100 else 0) (fun _ => 0).
Lemma regs0_wf : wf_regs regs0.
Proof. unfold wf_regs. cbn. lia. Qed.

(* C83: setting or disabling a filter does not change what the others do *)
Theorem C83_other_banks bank flags f1 f2 r : wf_regs r -> 0 <= bank < 32 ->
  exists r', setFilterBase bank flags f1 f2 r = Some r' /\ wf_regs r' /\ forall k to1 f, 0 <= k -> k <> bank -> passes r' k to1 f <-> passes r k to1 f.
Proof.
  intros W B. destruct (base_ok bank flags f1 f2 r W B) as (r' & E & W' & _). exists r'. split; [exact E|]. split; [exact W'|]. intros k to1 f K N. exact (other_bank bank flags f1 f2 r r' k to1 f W B E K N).
Qed.
Definition f100 : frame := Frame false 0 true 0 [].
Example C83_other_banks_case : exists r', setFilterBase 0 7 8 8 regs0 = Some r' /\ ~ passes r' 2 true f_std /\ ~ passes regs0 2 true f_std /\ Z.testbit (fa r') 2 = true.
Proof.
  destruct (C83_other_banks 0 7 8 8 regs0 regs0_wf ltac:(lia)) as (r' & E & _ & O). exists r'. split; [exact E|].
  assert (N : ~ passes regs0 2 true f_std) by (intros (_ & Q & _); discriminate). split; [rewrite (O 2 true f_std ltac:(lia) ltac:(lia)); exact N|]. split; [exact N|].
  assert (Q : option_map (fun r => Z.testbit (fa r) 2) (setFilterBase 0 7 8 8 regs0) = Some true) by (vm_compute; reflexivity). rewrite E in Q. injection Q as Q. exact Q.
Qed.
Theorem C83_disable bank r : wf_regs r -> 0 <= bank < 32 ->
  exists r', disableFilter bank r = Some r' /\ wf_regs r' /\ (forall to1 f, ~ passes r' bank to1 f) /\ forall k to1 f, 0 <= k -> k <> bank -> passes r' k to1 f <-> passes r k to1 f.
Proof.
  intros (A & M & S' & F) B. unfold disableFilter. replace (bank <? 32) with true by lia. eexists. split; [reflexivity|]. split; [|split].
  - unfold wf_regs. cbn [fa fm fs ffa]. pose proof (set_bit_range false (fa r) bank A B). auto.
  - intros to1 f (P & _). cbn [fa] in P. rewrite set_bit_test, Z.eqb_refl in P by lia. discriminate.
  - intros k to1 f K N. unfold passes. cbn [fa fm fs ffa fr1 fr2]. rewrite set_bit_test by lia. replace (k =? bank) with false by lia. tauto.
Qed.
Example C83_disable_case : exists r', disableFilter 2 regs0 = Some r' /\ ~ passes r' 2 false f_std /\ (passes r' 0 true f_std <-> passes regs0 0 true f_std).
Proof. destruct (C83_disable 2 regs0 regs0_wf ltac:(lia)) as (r' & E & _ & N & O). exists r'. split; [exact E|]. split; [apply N|]. apply O; lia. Qed.

Lemma fifo_swap fifo (to1 : bool) (P Q : Prop) : (P <-> Q) -> fifo_is fifo to1 /\ P <-> fifo = (if to1 then 1 else 0) /\ Q.
Proof. unfold fifo_is. tauto. Qed.
Lemma base_exact bank fifo l s f1 f2 r r' (to1 : bool) f : wf_regs r -> 0 <= bank < 32 -> fifo = 0 \/ fifo = 1 -> l = 0 \/ l = 2 -> s = 0 \/ s = 4 ->
  setFilterBase bank (Z.lor (Z.lor fifo l) s) f1 f2 r = Some r' ->
  (passes r' bank to1 f <-> fifo_is fifo to1 /\
    if s =? 4 then if l =? 2 then frame32 f = f1 \/ frame32 f = f2 else masked (frame32 f) f1 f2
    else if l =? 2 then frame16 f = f1 mod 2 ^ 16 \/ frame16 f = f1 / 2 ^ 16 \/ frame16 f = f2 mod 2 ^ 16 \/ frame16 f = f2 / 2 ^ 16
    else masked (frame16 f) (f1 mod 2 ^ 16) (f1 / 2 ^ 16) \/ masked (frame16 f) (f2 mod 2 ^ 16) (f2 / 2 ^ 16)).
Proof. intros W B F L S' E. destruct (base_passes bank fifo l s f1 f2 r to1 f W B F L S') as (r2 & E2 & _ & P). rewrite E in E2. injection E2 as <-. exact P. Qed.

(* C83: an extended identifier and mask let through exactly the matching extended frames, to the given FIFO *)
Theorem C83_extended_mask bank fifo id mask rtr mrtr r : wf_regs r -> 0 <= bank < 32 -> fifo = 0 \/ fifo = 1 -> 0 <= id < 2 ^ 29 -> 0 <= mask < 2 ^ 29 ->
  exists r', setFilter bank fifo (ExtendedIdentifier id rtr) (ExtendedFilterMask mask mrtr) r = Some r' /\
    forall to1 f, valid_frame f -> passes r' bank to1 f <-> fifo = (if to1 then 1 else 0) /\ wants_ext id mask mrtr rtr f.
Proof.
  intros W B F I M. destruct (base_ok bank (Z.lor (Z.lor fifo 0) 4) (ExtendedIdentifier id rtr) (ExtendedFilterMask mask mrtr) r W B) as (r' & E & _). exists r'. split; [exact E|].
  intros to1 f V. rewrite (base_exact bank fifo 0 4 _ _ r r' to1 f W B F (or_introl eq_refl) (or_intror eq_refl) E). cbn [Z.eqb Pos.eqb]. apply fifo_swap. exact (ext_mask_match id mask rtr mrtr f I M V).
Qed.
Example C83_extended_case : exists r', setFilter 3 1 (ExtendedIdentifier 4660 false) (ExtendedFilterMask 4080 true) regs0 = Some r' /\
  passes r' 3 true (Frame true 536543807 false 0 []) /\ ~ passes r' 3 true (Frame true 4660 true 0 []).
Proof.
  destruct (C83_extended_mask 3 1 4660 4080 false true regs0 regs0_wf ltac:(lia) ltac:(lia) ltac:(lia) ltac:(lia)) as (r' & E & P). exists r'. split; [exact E|]. split.
  - apply P; [unfold valid_frame; cbn; repeat (split; try lia); constructor|]. split; [reflexivity|]. split; [reflexivity|]. split; [|intros _; reflexivity]. unfold masked. cbn [f_id]. intros i Hi T.
    destruct (Z.le_gt_cases i 12) as [L|L]; [|rewrite (testbit_high 4080 12 i ltac:(lia) ltac:(lia)) in T; discriminate].
    assert (Q : i = 0 \/ i = 1 \/ i = 2 \/ i = 3 \/ i = 4 \/ i = 5 \/ i = 6 \/ i = 7 \/ i = 8 \/ i = 9 \/ i = 10 \/ i = 11 \/ i = 12) by lia. revert T. repeat destruct Q as [Q|Q]; subst i; vm_compute; congruence.
  - rewrite P; [|unfold valid_frame; cbn; repeat (split; try lia); constructor]. intros (_ & _ & _ & Q). specialize (Q eq_refl). discriminate.
Qed.

(* C83: of the standard frames, a standard identifier and mask let through exactly the matching ones *)
Theorem C83_standard_mask_partial bank fifo id mask rtr mrtr r : wf_regs r -> 0 <= bank < 32 -> fifo = 0 \/ fifo = 1 -> 0 <= id < 2 ^ 11 -> 0 <= mask < 2 ^ 11 ->
  exists r', setFilter bank fifo (StandardIdentifier id rtr) (StandardFilterMask mask mrtr) r = Some r' /\
    forall to1 f, valid_frame f -> f_ext f = false -> passes r' bank to1 f <-> fifo = (if to1 then 1 else 0) /\ wants_std id mask mrtr rtr f.
Proof.
  intros W B F I M. destruct (base_ok bank (Z.lor (Z.lor fifo 0) 4) (StandardIdentifier id rtr) (StandardFilterMask mask mrtr) r W B) as (r' & E & _). exists r'. split; [exact E|].
  intros to1 f V X. rewrite (base_exact bank fifo 0 4 _ _ r r' to1 f W B F (or_introl eq_refl) (or_intror eq_refl) E). cbn [Z.eqb Pos.eqb]. apply fifo_swap. exact (std_mask_match id mask rtr mrtr f I M V X).
Qed.
Example C83_standard_case : exists r', setFilter 3 0 (StandardIdentifier 1638 false) (StandardFilterMask 2047 true) regs0 = Some r' /\ passes r' 3 false f_std /\ ~ passes r' 3 true f_std.
Proof.
  destruct (C83_standard_mask_partial 3 0 1638 2047 false true regs0 regs0_wf ltac:(lia) ltac:(lia) ltac:(lia) ltac:(lia)) as (r' & E & P). exists r'. split; [exact E|].
  assert (V : valid_frame f_std) by (unfold valid_frame; cbn; repeat (split; try lia); repeat constructor; lia). split; rewrite (P _ f_std V eq_refl).
  - split; [reflexivity|]. split; [reflexivity|]. split; [|intros _; reflexivity]. intros i _ _. reflexivity.
  - intros (Q & _). discriminate.
Qed.
(* C83: but StandardFilterMask leaves IDE open: extended frames with these upper eleven bits pass *)
Theorem C83_standard_mask_refuted : exists r' f, setFilter 3 0 (StandardIdentifier 1638 false) (StandardFilterMask 2047 true) regs0 = Some r' /\
  valid_frame f /\ passes r' 3 false f /\ ~ wants_std 1638 2047 true false f.
Proof.
  destruct (base_ok 3 4 (StandardIdentifier 1638 false) (StandardFilterMask 2047 true) regs0 regs0_wf ltac:(lia)) as (r' & E & _). exists r', (Frame true (1638 * 2 ^ 18 + 77777) false 0 []). split; [exact E|].
  split; [unfold valid_frame; cbn; repeat (split; try lia); constructor|]. split; [|intros (Q & _); discriminate].
  rewrite (base_exact 3 0 0 4 _ _ regs0 r' false _ regs0_wf ltac:(lia) (or_introl eq_refl) (or_introl eq_refl) (or_intror eq_refl) E). split; [reflexivity|]. cbn [Z.eqb Pos.eqb]. intros i Hi T.
  change (StandardFilterMask 2047 true) with (2047 * 2 ^ 21 + bit false 4 + bit true 2) in T. change (StandardIdentifier 1638 false) with (1638 * 2 ^ 21 + bit false 4 + bit false 2).
  change (frame32 (Frame true (1638 * 2 ^ 18 + 77777) false 0 [])) with (1638 * 2 ^ 21 + 622220).
  rewrite (tb_word 2047 21) in T by lia. rewrite (tb_word 1638 21), (tb_join 1638 622220 21) by lia. destruct (Z.leb_spec 21 i) as [L|L].
  - replace (i <? 21) with false by lia. reflexivity.
  - replace (i <? 21) with true by lia. destruct (Z.eqb_spec i 2) as [->|]; [discriminate|]. destruct (Z.eqb_spec i 1) as [->|]; [reflexivity|discriminate].
Qed.

(* C83: a list filter lets through exactly the frames with one of the two identifiers *)
Theorem C83_list bank fifo i j r : wf_regs r -> 0 <= bank < 32 -> fifo = 0 \/ fifo = 1 -> valid_ident i -> valid_ident j ->
  exists r', setIdentifierFilter bank fifo (enc32 i) (enc32 j) r = Some r' /\
    forall to1 f, valid_frame f -> passes r' bank to1 f <-> fifo = (if to1 then 1 else 0) /\ (is_ident i f \/ is_ident j f).
Proof.
  intros W B F I J. destruct (base_ok bank (Z.lor (Z.lor fifo 2) 4) (enc32 i) (enc32 j) r W B) as (r' & E & _). exists r'. split; [exact E|].
  intros to1 f V. rewrite (base_exact bank fifo 2 4 _ _ r r' to1 f W B F (or_intror eq_refl) (or_intror eq_refl) E). cbn [Z.eqb Pos.eqb]. apply fifo_swap. rewrite (list_match i f I V), (list_match j f J V). tauto.
Qed.
Example C83_list_case : exists r', setIdentifierFilter 3 0 (enc32 (Ident false 1638 false)) (enc32 (Ident true 77777 true)) regs0 = Some r' /\
  passes r' 3 false f_std /\ passes r' 3 false (Frame true 77777 true 8 []) /\ ~ passes r' 3 false (Frame true 77776 true 8 []).
Proof.
  destruct (C83_list 3 0 (Ident false 1638 false) (Ident true 77777 true) regs0 regs0_wf ltac:(lia) ltac:(lia) ltac:(unfold valid_ident; cbn; lia) ltac:(unfold valid_ident; cbn; lia)) as (r' & E & P). exists r'. split; [exact E|].
  assert (V : forall k, k = 77777 \/ k = 77776 -> valid_frame (Frame true k true 8 [])) by (intros k K; unfold valid_frame; cbn; repeat (split; try lia); constructor).
  split; [|split]; rewrite P by (exact f_std_valid || (apply V; lia)).
  - split; [reflexivity|]. left. repeat split.
  - split; [reflexivity|]. right. repeat split.
  - intros (_ & [(Q & _)|(_ & Q & _)]); discriminate.
Qed.

(* C83: the same for the four identifiers of the 16-bit lists, if the extended ones are clean *)
Theorem C83_short_list_partial bank fifo i j k l r : wf_regs r -> 0 <= bank < 32 -> fifo = 0 \/ fifo = 1 ->
  Forall (fun i => valid_ident i /\ (i_ext i = true -> clean (i_id i) (i_rtr i))) [i; j; k; l] ->
  exists r', setIdentifierFilterShort bank fifo (enc16 i) (enc16 j) (enc16 k) (enc16 l) r = Some r' /\
    forall to1 f, valid_frame f -> passes r' bank to1 f <-> fifo = (if to1 then 1 else 0) /\ Exists (fun i => is_ident_short i f) [i; j; k; l].
Proof.
  intros W B F V. apply Forall_cons_iff in V. destruct V as [[Vi Ci] V]. apply Forall_cons_iff in V. destruct V as [[Vj Cj] V]. apply Forall_cons_iff in V. destruct V as [[Vk Ck] V]. apply Forall_cons_iff in V. destruct V as [[Vl Cl] _].
  unfold setIdentifierFilterShort. set (a := Z.lor (enc16 i) (u32 (Z.shiftl (enc16 j) 16))). set (b := Z.lor (enc16 k) (u32 (Z.shiftl (enc16 l) 16))).
  destruct (pair16 _ _ (enc16_range i) (enc16_range j)) as [A1 A2]. destruct (pair16 _ _ (enc16_range k) (enc16_range l)) as [B1 B2]. cbn zeta in *. fold a in A1, A2. fold b in B1, B2.
  destruct (base_ok bank (Z.lor (Z.lor fifo 2) 0) a b r W B) as (r' & E & _). exists r'. split; [exact E|].
  intros to1 f VF. rewrite (base_exact bank fifo 2 0 a b r r' to1 f W B F (or_intror eq_refl) (or_introl eq_refl) E). cbn [Z.eqb Pos.eqb]. apply fifo_swap.
  rewrite A1, A2, B1, B2, (list_short_match i f Vi Ci VF), (list_short_match j f Vj Cj VF), (list_short_match k f Vk Ck VF), (list_short_match l f Vl Cl VF). rewrite !Exists_cons, Exists_nil. tauto.
Qed.
Definition id0 : ident := Ident false 1638 false.
Definition id1 : ident := Ident true (77 * 2 ^ 22 + 2 ^ 18 + 5) false.
Example C83_short_list_case : exists r', setIdentifierFilterShort 3 0 (enc16 id0) (enc16 id1) (enc16 id0) (enc16 id0) regs0 = Some r' /\
  passes r' 3 false f_std /\ passes r' 3 false (Frame true (77 * 2 ^ 22 + 2 ^ 18 + 6) false 0 []) /\ ~ passes r' 3 false (Frame true (77 * 2 ^ 22 + 6) false 0 []).
Proof.
  assert (V0 : valid_ident id0 /\ (i_ext id0 = true -> clean (i_id id0) (i_rtr id0))) by (split; [unfold valid_ident; cbn; lia|discriminate]).
  assert (V1 : valid_ident id1 /\ (i_ext id1 = true -> clean (i_id id1) (i_rtr id1))) by (split; [unfold valid_ident; cbn; lia|intros _; unfold clean; vm_compute; intuition congruence]).
  destruct (C83_short_list_partial 3 0 id0 id1 id0 id0 regs0 regs0_wf ltac:(lia) ltac:(lia)) as (r' & E & P); [repeat (apply Forall_cons; [assumption|]); constructor|]. exists r'. split; [exact E|].
  assert (VF : forall k, 0 <= k < 2 ^ 29 -> valid_frame (Frame true k false 0 [])) by (intros k K; unfold valid_frame; cbn [f_ext f_id f_rtr f_dlc f_data]; repeat (split; try lia); constructor).
  split; [|split]; rewrite P by (exact f_std_valid || (apply VF; lia)).
  - split; [reflexivity|]. apply Exists_cons_hd. repeat split.
  - split; [reflexivity|]. apply Exists_cons_tl, Exists_cons_hd. repeat split.
  - intros (_ & Q). rewrite !Exists_cons, Exists_nil in Q. unfold is_ident_short in Q. vm_compute in Q. intuition discriminate.
Qed.
(* C83: two 16-bit identifiers and masks let through exactly the matching frames, except that extended ones may slip through a standard filter *)
Theorem C83_short_mask_partial bank fifo s t r : wf_regs r -> 0 <= bank < 32 -> fifo = 0 \/ fifo = 1 ->
  Forall (fun s => valid_short s /\ (s_ext s = true -> clean (s_id s) (s_rtr s) /\ clean (s_mask s) (s_match s))) [s; t] ->
  exists r', setFilterShort bank fifo (short_id s) (short_mask s) (short_id t) (short_mask t) r = Some r' /\
    forall to1 f, valid_frame f -> (f_ext f = true -> s_ext s = true /\ s_ext t = true) -> passes r' bank to1 f <-> fifo = (if to1 then 1 else 0) /\ (wants_short s f \/ wants_short t f).
Proof.
  intros W B F V. apply Forall_cons_iff in V. destruct V as [[Vs Cs] V]. apply Forall_cons_iff in V. destruct V as [[Vt Ct] _].
  unfold setFilterShort. set (a := Z.lor (short_id s) (u32 (Z.shiftl (short_mask s) 16))). set (b := Z.lor (short_id t) (u32 (Z.shiftl (short_mask t) 16))).
  destruct (short_range s) as [S1 S2]. destruct (short_range t) as [T1 T2].
  destruct (pair16 _ _ S1 S2) as [A1 A2]. destruct (pair16 _ _ T1 T2) as [B1 B2]. cbn zeta in *. fold a in A1, A2. fold b in B1, B2.
  destruct (base_ok bank (Z.lor (Z.lor fifo 0) 0) a b r W B) as (r' & E & _). exists r'. split; [exact E|].
  intros to1 f VF X. rewrite (base_exact bank fifo 0 0 a b r r' to1 f W B F (or_introl eq_refl) (or_introl eq_refl) E). cbn [Z.eqb Pos.eqb]. apply fifo_swap.
  rewrite A1, A2, B1, B2, (short_match s f Vs Cs VF (fun H => proj1 (X H))), (short_match t f Vt Ct VF (fun H => proj2 (X H))). tauto.
Qed.
Definition sh0 : short := Short false 1638 false 2047 true.
Definition sh1 : short := Short true (5 * 2 ^ 24) true (31 * 2 ^ 24) true.
Example C83_short_mask_case : exists r', setFilterShort 3 0 (short_id sh0) (short_mask sh0) (short_id sh1) (short_mask sh1) regs0 = Some r' /\
  passes r' 3 false f_std /\ ~ passes r' 3 false (Frame false 1639 false 0 []).
Proof.
  assert (V0 : valid_short sh0 /\ (s_ext sh0 = true -> clean (s_id sh0) (s_rtr sh0) /\ clean (s_mask sh0) (s_match sh0))) by (split; [unfold valid_short; cbn; lia|discriminate]).
  assert (V1 : valid_short sh1 /\ (s_ext sh1 = true -> clean (s_id sh1) (s_rtr sh1) /\ clean (s_mask sh1) (s_match sh1))) by (split; [unfold valid_short; cbn; lia|intros _; unfold clean; vm_compute; intuition congruence]).
  destruct (C83_short_mask_partial 3 0 sh0 sh1 regs0 regs0_wf ltac:(lia) ltac:(lia)) as (r' & E & P); [repeat (apply Forall_cons; [assumption|]); constructor|]. exists r'. split; [exact E|].
  split; rewrite P by (exact f_std_valid || discriminate || (unfold valid_frame; cbn; repeat (split; try lia); constructor)).
  - split; [reflexivity|]. left. split; [reflexivity|]. split; [cbn [s_ext sh0]; intros i _ _; reflexivity|intros _; reflexivity].
  - intros (_ & [(_ & Q & _)|(Q & _)]); [|discriminate]. specialize (Q 0 ltac:(lia) eq_refl). discriminate.
Qed.
(* C83: ExtendedIdentifierShort also sets RTR from bit 19 of the identifier (it masks with 0x7f instead of 7): a list filter for the data
   frames of such an identifier rejects them all and accepts its remote frames *)
Theorem C83_short_list_refuted : exists i r', valid_ident i /\ i_rtr i = false /\ setIdentifierFilterShort 3 0 (enc16 i) (enc16 i) (enc16 i) (enc16 i) regs0 = Some r' /\
  (forall f to1, valid_frame f -> is_ident_short i f -> ~ passes r' 3 to1 f) /\ exists f, valid_frame f /\ f_rtr f = true /\ passes r' 3 false f.
Proof.
  set (i := Ident true (2 ^ 19) false). destruct (base_ok 3 2 (Z.lor (enc16 i) (u32 (Z.shiftl (enc16 i) 16))) (Z.lor (enc16 i) (u32 (Z.shiftl (enc16 i) 16))) regs0 regs0_wf ltac:(lia)) as (r' & E & _).
  exists i, r'. split; [unfold valid_ident; cbn; lia|]. split; [reflexivity|]. split; [exact E|].
  pose proof (fun to1 f => base_exact 3 0 2 0 _ _ regs0 r' to1 f regs0_wf ltac:(lia) (or_introl eq_refl) (or_intror eq_refl) (or_introl eq_refl) E) as P. cbn [Z.eqb Pos.eqb] in P.
  change (Z.lor (enc16 i) (u32 (Z.shiftl (enc16 i) 16))) with 5767256 in P. change (5767256 mod 2 ^ 16) with 88 in P. change (5767256 / 2 ^ 16) with 88 in P. split.
  - intros f to1 V (X & I & R). rewrite P. cbn [i_ext i_id i_rtr i] in *. change (2 ^ 19 / 2 ^ 15) with 16 in I. rewrite frame16_value, X, R, I. unfold std_id. rewrite X. replace (f_id f / 2 ^ 18) with 2; [vm_compute; intuition discriminate|].
    change (2 ^ 18) with (2 ^ 15 * 8). rewrite <- Z.div_div, I by lia. reflexivity.
  - exists (Frame true (2 ^ 19) true 0 []). split; [unfold valid_frame; cbn; repeat (split; try lia); constructor|]. split; [reflexivity|]. rewrite P. split; [reflexivity|]. left. reflexivity.
Qed.

(** *** Transmission *)
Inductive move := Hw (k : Z) | Isr | Check (m : can_msg) | Push | Code (k : Z) | PutIt.
Definition moveb (cap : Z) (masking : bool) (o : move) (s : tx) : option tx :=
  let free := negb (pend s) || masking in
  match o with
  | Hw k => match order s with
            | j :: r => if j =? k then match box s k with
                | Some m => Some (Tx (queue s) (fun j => if j =? k then None else box s j) (fun j => if j =? k then true else rqcp s j) r true (prog s) (sent s ++ [m]) (accepted s))
                | None => None end else None
            | [] => None end
  | Isr => if pend s then Some (tx_isr s) else None
  | Check m => if free then match prog s with Idle => Some (check m s) | _ => None end else None
  | Push => if free then match prog s with Full m => Some (push cap m s) | _ => None end else None
  | Code k => if free && ((0 <=? k) && (k <? 3)) then match prog s, box s k with Free m, None => Some (code m k s) | _, _ => None end else None
  | PutIt => if free then match prog s with Put m k => Some (put m k s) | _ => None end else None
  end.
Lemma moveb_ok cap masking o s s' : moveb cap masking o s = Some s' -> (forall k, o = Hw k -> not_between s) -> tx_step cap masking not_between s s'.
Proof.
  assert (FR : negb (pend s) || masking = true -> pend s = false \/ masking = true) by (destruct (pend s), masking; auto).
  destruct o as [k| |m| |k|]; cbn [moveb]; intros E A; try (destruct (negb (pend s) || masking) eqn:FE; [|discriminate]; specialize (FR eq_refl)).
  - destruct (order s) as [|j r] eqn:O; [discriminate|]. destruct (Z.eqb_spec j k) as [->|]; [|discriminate]. destruct (box s k) as [m|] eqn:B; [|discriminate]. injection E as <-. exact (t_hw cap masking not_between s k r m O B (A k eq_refl)).
  - destruct (pend s) eqn:P; [|discriminate]. injection E as <-. apply t_isr. exact P.
  - destruct (prog s) eqn:P; try discriminate. injection E as <-. apply t_check; assumption.
  - destruct (prog s) as [|m|m|m k] eqn:P; try discriminate. injection E as <-. apply t_push; assumption.
  - cbn [andb] in E. destruct ((0 <=? k) && (k <? 3)) eqn:K; [|discriminate]. destruct (prog s) as [|m|m|m k'] eqn:P; try discriminate. destruct (box s k) eqn:B; [discriminate|]. injection E as <-. apply t_code; try assumption. lia.
  - destruct (prog s) as [|m|m|m k] eqn:P; try discriminate. injection E as <-. apply t_put; assumption.
Qed.
Lemma step_any cap masking (P : tx -> Prop) s s' : tx_step cap masking P s s' -> tx_step cap masking any s s'.
Proof. intro T. destruct T; [eapply t_hw; eauto; exact I|apply t_isr|apply t_check|apply t_push|apply t_code|apply t_put]; assumption. Qed.
Lemma moveb_any cap masking o s s' : moveb cap masking o s = Some s' -> tx_step cap masking any s s'.
Proof.
  destruct (match o with Hw _ => true | _ => false end) eqn:H.
  - destruct o as [k| | | | |]; try discriminate. cbn [moveb]. intro E. destruct (order s) as [|j r] eqn:O; [discriminate|]. destruct (Z.eqb_spec j k) as [->|]; [|discriminate]. destruct (box s k) as [m|] eqn:B; [|discriminate]. injection E as <-. exact (t_hw cap masking any s k r m O B I).
  - intro E. apply (step_any cap masking not_between). apply (moveb_ok cap masking o s s' E). intros k ->. discriminate.
Qed.
Definition safe_hw (o : move) (s : tx) : bool := match o, prog s with Hw _, Full _ => false | _, _ => true end.
Fixpoint tplay (safe : bool) (cap : Z) (masking : bool) (l : list move) (s : tx) : option tx :=
  match l with [] => Some s | o :: l => if negb safe || safe_hw o s then do s <- moveb cap masking o s; tplay safe cap masking l s else None end.
Lemma tplay_any cap masking l : forall s s', tx_reach cap masking any s -> tplay false cap masking l s = Some s' -> tx_reach cap masking any s'.
Proof.
  induction l as [|o l IH]; cbn [tplay]; intros s s' R E; [injection E as <-; exact R|]. cbn [negb orb] in E. destruct (moveb cap masking o s) as [s1|] eqn:M; [|discriminate]. cbn [obind] in E.
  exact (IH s1 s' (tr_step _ _ _ s s1 R (moveb_any _ _ _ _ _ M)) E).
Qed.
Lemma tplay_safe cap masking l : forall s s', tx_reach cap masking not_between s -> tplay true cap masking l s = Some s' -> tx_reach cap masking not_between s'.
Proof.
  induction l as [|o l IH]; cbn [tplay]; intros s s' R E; [injection E as <-; exact R|]. cbn [negb orb] in E. destruct (safe_hw o s) eqn:SH; [|discriminate]. destruct (moveb cap masking o s) as [s1|] eqn:M; [|discriminate]. cbn [obind] in E.
  refine (IH s1 s' (tr_step _ _ _ s s1 R (moveb_ok _ _ _ _ _ M _)) E). intros k -> m P. cbn [safe_hw] in SH. rewrite P in SH. discriminate.
Qed.
Lemma opt_is {S A} (x : option S) (f : S -> A) y : option_map f x = Some y -> exists s', x = Some s' /\ f s' = y.
Proof. destruct x as [s'|]; [|discriminate]. intro H. injection H as H. exists s'. auto. Qed.
Definition mm (i : Z) : can_msg := msg false i false 1 [i; 0; 0; 0; 0; 0; 0; 0].
Definition send_now (i k : Z) : list move := [Check (mm i); Code k; PutIt].
Definition three : list move := send_now 1 0 ++ send_now 2 1 ++ send_now 3 2.
(* everything visible *)
Definition view (s : tx) := (map c_id (accepted s), map c_id (sent s), map c_id (in_boxes s), map c_id (queue s), pend s).

(* C84: as long as interrupts are not masked while the program runs, every accepted message is sent once or waits in a mailbox or the queue *)
Theorem C84_nothing_lost cap allowed s : tx_reach cap false allowed s -> Permutation (accepted s) (sent s ++ in_boxes s ++ queue s).
Proof. exact (perm_reach cap allowed s). Qed.
Example C84_nothing_lost_case : exists s, tx_reach 4 false any s /\ view s = ([1; 2; 3; 4; 5], [1; 2], [3; 4; 5], [], false) /\ Permutation (accepted s) (sent s ++ in_boxes s ++ queue s).
Proof.
  destruct (opt_is (tplay false 4 false (three ++ [Check (mm 4); Push; Hw 0; Isr; Check (mm 5); Push; Hw 1; Isr]) tx_start) view ([1; 2; 3; 4; 5], [1; 2], [3; 4; 5], [], false)) as (s & E & V); [vm_compute; reflexivity|].
  pose proof (tplay_any _ _ _ _ _ (tr_start _ _ _) E) as R. exists s. split; [exact R|]. split; [exact V|]. exact (C84_nothing_lost 4 any s R).
Qed.

(* C84: messages are sent in the order of the calls and the queue drains by itself, provided that no transmission completes between
   the test of the mailboxes and the push into the queue *)
Theorem C84_in_order_partial cap s : tx_reach cap false not_between s ->
  accepted s = sent s ++ in_boxes s ++ queue s /\ (queue s <> [] -> pend s = true \/ in_boxes s <> []).
Proof.
  intro R. pose proof (base_reach _ _ _ R) as B. pose proof (ord_reach _ _ R) as O. split; [exact (o_seq s O)|]. intro Q. destruct (o_full s O Q 0 ltac:(lia)) as [N|N].
  - right. assert (K : In 0 (order s)) by (apply (b_order s B); exact N). apply in_split in K. destruct K as (a & b & E). unfold in_boxes. rewrite E, flat_map_app. cbn [flat_map]. destruct (box s 0) as [m|]; [|contradiction].
    intro H. apply app_eq_nil in H. destruct H as [_ H]. discriminate.
  - left. rewrite (b_pend s B). unfold anyrq. rewrite N. reflexivity.
Qed.
Example C84_in_order_case : exists s, tx_reach 4 false not_between s /\ view s = ([1; 2; 3; 4; 5], [1; 2], [3; 4], [5], true).
Proof.
  destruct (opt_is (tplay true 4 false (three ++ [Check (mm 4); Push; Check (mm 5); Push; Hw 0; Isr; Hw 1]) tx_start) view ([1; 2; 3; 4; 5], [1; 2], [3; 4], [5], true)) as (s & E & V); [vm_compute; reflexivity|].
  exists s. split; [exact (tplay_safe _ _ _ _ _ (tr_start _ _ _) E)|exact V].
Qed.

(* C84: otherwise a message remains in the queue although all mailboxes are free and no interrupt is pending, *)
Theorem C84_stuck_refuted : exists s, tx_reach 4 false any s /\ prog s = Idle /\ queue s <> [] /\ pend s = false /\ order s = [].
Proof.
  destruct (opt_is (tplay false 4 false (three ++ [Check (mm 4); Hw 0; Isr; Hw 1; Isr; Hw 2; Isr; Push]) tx_start) (fun s => (view s, order s, prog s)) ([1; 2; 3; 4], [1; 2; 3], [], [4], false, [], Idle)) as (s & E & V); [vm_compute; reflexivity|].
  exists s. split; [exact (tplay_any _ _ _ _ _ (tr_start _ _ _) E)|]. injection V as V1 V2 V3 V4 V5 V6 V7. repeat (split; [assumption|]). split; [|auto]. intro Q. rewrite Q in V4. discriminate.
Qed.
(* until the next message is sent, which overtakes it *)
Theorem C84_order_refuted : exists s, tx_reach 4 false any s /\ queue s = [] /\ map c_id (accepted s) = [1; 2; 3; 4; 5] /\ map c_id (sent s) = [1; 2; 3; 5; 4].
Proof.
  destruct (opt_is (tplay false 4 false (three ++ [Check (mm 4); Hw 0; Isr; Hw 1; Isr; Hw 2; Isr; Push] ++ send_now 5 0 ++ [Hw 0; Isr; Hw 0; Isr]) tx_start) view ([1; 2; 3; 4; 5], [1; 2; 3; 5; 4], [], [], false)) as (s & E & V); [vm_compute; reflexivity|].
  exists s. split; [exact (tplay_any _ _ _ _ _ (tr_start _ _ _) E)|]. injection V as V1 V2 V3 V4 V5. split; [|auto]. destruct (queue s); [reflexivity|discriminate].
Qed.
(* C84: if interrupts are masked while sendMessage runs, a message is lost: sendMessage uses the mailbox that has just become free, which clears
   RQCP; the interrupt then takes mailbox 0 to be free *)
Theorem C84_masked_refuted : exists s, tx_reach 4 true any s /\ prog s = Idle /\ map c_id (accepted s) = [1; 2; 3; 4; 5] /\ map c_id (sent s ++ in_boxes s ++ queue s) = [1; 2; 3; 5].
Proof.
  destruct (opt_is (tplay false 4 true (three ++ [Check (mm 4); Push; Hw 0] ++ send_now 5 0 ++ [Isr]) tx_start) (fun s => (map c_id (accepted s), map c_id (sent s ++ in_boxes s ++ queue s), prog s)) ([1; 2; 3; 4; 5], [1; 2; 3; 5], Idle)) as (s & E & V); [vm_compute; reflexivity|].
  exists s. split; [exact (tplay_any _ _ _ _ _ (tr_start _ _ _) E)|]. injection V as V1 V2 V3. auto.
Qed.

(** *** Reception *)
Inductive rmove := Rv (f : bool) (m : Z) | RIsr (f : bool) | Get.
Definition rmoveb (cap : Z) (locked tight : bool) (o : rmove) (s : rx Z) : option (rx Z) :=
  match o with
  | Rv f m => if negb tight || (zlen (fifo s f) <? 3) then Some (receive locked f m s) else None
  | RIsr f => if (negb (zlen (fifo s f) =? 0) || fovr s f) && (negb tight || (zlen (rxq s) <? cap)) then rx_isr cap f s else None
  | Get => Some (getMessage s)
  end.
Fixpoint rplay (cap : Z) (locked tight : bool) (l : list rmove) (s : rx Z) : option (rx Z) :=
  match l with [] => Some s | o :: l => do s <- rmoveb cap locked tight o s; rplay cap locked tight l s end.
Lemma enabled (s : rx Z) f : negb (zlen (fifo s f) =? 0) || fovr s f = true -> fifo s f <> [] \/ fovr s f = true.
Proof. destruct (fovr s f); [auto|]. rewrite orb_false_r. intro H. left. intro E. rewrite E in H. discriminate. Qed.
Lemma rplay_tight cap locked l : forall s s', rx_reach cap locked fifo_room (queue_room cap) s -> rplay cap locked true l s = Some s' -> rx_reach cap locked fifo_room (queue_room cap) s'.
Proof.
  induction l as [|o l IH]; cbn [rplay]; intros s s' R E; [injection E as <-; exact R|]. destruct (rmoveb cap locked true o s) as [s1|] eqn:M; [|discriminate]. refine (IH s1 s' (xr_step _ _ _ _ s s1 R _) E).
  destruct o as [f m|f|]; cbn [rmoveb negb orb] in M.
  - destruct (Z.ltb_spec (zlen (fifo s f)) 3); [|discriminate]. injection M as <-. apply x_recv. assumption.
  - destruct (negb (zlen (fifo s f) =? 0) || fovr s f) eqn:EN; [|discriminate]. destruct (Z.ltb_spec (zlen (rxq s)) cap); [|discriminate]. apply (x_isr _ _ _ _ s f s1 (enabled s f EN)); assumption.
  - injection M as <-. apply x_get.
Qed.
Lemma rplay_any cap locked l : forall s s', rx_reach cap locked always always s -> rplay cap locked false l s = Some s' -> rx_reach cap locked always always s'.
Proof.
  induction l as [|o l IH]; cbn [rplay]; intros s s' R E; [injection E as <-; exact R|]. destruct (rmoveb cap locked false o s) as [s1|] eqn:M; [|discriminate]. refine (IH s1 s' (xr_step _ _ _ _ s s1 R _) E).
  destruct o as [f m|f|]; cbn [rmoveb negb orb] in M.
  - injection M as <-. apply x_recv. exact I.
  - rewrite andb_true_r in M. destruct (negb (zlen (fifo s f) =? 0) || fovr s f) eqn:EN; [|discriminate]. apply (x_isr _ _ _ _ s f s1 (enabled s f EN)); [exact I|assumption].
  - injection M as <-. apply x_get.
Qed.
Definition rview (s : rx Z) := (got s, rxq s, fifo s false, fifo s true).

(* C85: an interrupt always finds a message to read *)
Theorem C85_interrupt_defined {A} cap locked may can (s : rx A) f : rx_reach cap locked may can s -> fifo s f <> [] \/ fovr s f = true -> exists s', rx_isr cap f s = Some s'.
Proof. intros R. exact (isr_defined cap f s (rxi_reach cap locked may can s R)). Qed.
Example C85_interrupt_case : exists s : rx Z, rx_reach 2 true always always s /\ fovr s true = true /\ option_map rview (rx_isr 2 true s) = Some ([], [(true, 6)], [], [7]).
Proof.
  destruct (opt_is (rplay 2 true false [Rv true 5; Rv true 6; Rv true 7; Rv true 8] rx_start) (fun s => (fovr s true, option_map rview (rx_isr 2 true s))) (true, Some ([], [(true, 6)], [], [7]))) as (s & E & V); [vm_compute; reflexivity|].
  exists s. split; [exact (rplay_any _ _ _ _ _ (xr_start _ _ _ _) E)|]. injection V as V1 V2. auto.
Qed.
(* C85: nothing is invented, duplicated or, within a FIFO, reordered *)
Theorem C85_no_invention {A} cap locked may can (s : rx A) f : rx_reach cap locked may can s -> sublist (of f (got s ++ rxq s) ++ fifo s f) (of f (recv s)).
Proof. intros R. exact (x_sub s (rxi_reach cap locked may can s R) f). Qed.
Example C85_no_invention_case : exists s : rx Z, rx_reach 2 false always always s /\ rview s = ([(true, 6)], [(true, 8)], [1], []) /\ of true (recv s) = [5; 6; 7; 8].
Proof.
  destruct (opt_is (rplay 2 false false [Rv true 5; Rv true 6; Rv true 7; Rv false 1; Rv true 8; RIsr true; RIsr true; Get] rx_start) (fun s => (rview s, of true (recv s))) ([(true, 6)], [(true, 8)], [1], [], [5; 6; 7; 8])) as (s & E & V); [vm_compute; reflexivity|].
  exists s. split; [exact (rplay_any _ _ _ _ _ (xr_start _ _ _ _) E)|]. split; [|congruence]. unfold rview in *. congruence.
Qed.
(* C85: a message in the queue is not displaced by later ones, also if the queue is full *)
Theorem C85_queue_kept {A} cap locked may can (s s' : rx A) : rx_step cap locked may can s s' -> exists l, got s' ++ rxq s' = (got s ++ rxq s) ++ l /\ zlen l <= 1.
Proof.
  intro T. destruct T as [s f m _|s f s' _ _ E|s].
  - exists []. split; [symmetry; apply app_nil_r|cbn; lia].
  - unfold rx_isr in E. destruct (if fovr s f then tl (fifo s f) else fifo s f) as [|m r]; [discriminate|]. injection E as <-. cbn [got rxq]. destruct (zlen (rxq s) <? cap).
    + exists [(f, m)]. split; [apply app_assoc|cbn; lia].
    + exists []. split; [symmetry; apply app_nil_r|cbn; lia].
  - exists []. rewrite app_nil_r. split; [|cbn; lia]. unfold getMessage. destruct (rxq s) as [|x q] eqn:E; [rewrite E; reflexivity|]. cbn [got rxq]. rewrite <- app_assoc. reflexivity.
Qed.
Example C85_queue_kept_case : exists s : rx Z, rx_reach 1 false always always s /\ rview s = ([], [(true, 5)], [], [7]) /\ option_map rview (rx_isr 1 true s) = Some ([], [(true, 5)], [], []).
Proof.
  destruct (opt_is (rplay 1 false false [Rv true 5; RIsr true; Rv true 6; RIsr true; Rv true 7] rx_start) (fun s => (rview s, option_map rview (rx_isr 1 true s))) ([], [(true, 5)], [], [7], Some ([], [(true, 5)], [], []))) as (s & E & V); [vm_compute; reflexivity|].
  exists s. split; [exact (rplay_any _ _ _ _ _ (xr_start _ _ _ _) E)|]. unfold rview in *. split; congruence.
Qed.
(* C85: if no message arrives while its FIFO is full and no interrupt runs while the queue is full, all are delivered *)
Theorem C85_all_delivered {A} cap locked (s : rx A) f : rx_reach cap locked fifo_room (queue_room cap) s -> of f (recv s) = of f (got s ++ rxq s) ++ fifo s f.
Proof. intro R. exact (proj2 (all_reach cap locked s R) f). Qed.
Example C85_all_delivered_case : exists s : rx Z, rx_reach 2 true fifo_room (queue_room 2) s /\ rview s = ([(true, 5)], [(true, 6); (false, 1)], [], [7; 8]) /\ of true (recv s) = [5; 6; 7; 8].
Proof.
  destruct (opt_is (rplay 2 true true [Rv true 5; Rv true 6; Rv true 7; RIsr true; Rv false 1; Rv true 8; RIsr true; Get; RIsr false] rx_start) (fun s => (rview s, of true (recv s))) ([(true, 5)], [(true, 6); (false, 1)], [], [7; 8], [5; 6; 7; 8])) as (s & E & V); [vm_compute; reflexivity|].
  exists s. split; [exact (rplay_tight _ _ _ _ _ (xr_start _ _ _ _) E)|]. split; [|congruence]. unfold rview in *. congruence.
Qed.
(* C85: one message too many costs two: on an overrun the interrupt releases the oldest message without having read it, *)
Theorem C85_overrun_refuted : exists s : rx Z, rx_reach 8 true always always s /\ recv s = [(true, 5); (true, 6); (true, 7); (true, 8)] /\ got s = [(true, 6); (true, 7)] /\ rxq s = [] /\ fifo s true = [] /\ fovr s true = false.
Proof.
  destruct (opt_is (rplay 8 true false [Rv true 5; Rv true 6; Rv true 7; Rv true 8; RIsr true; RIsr true; Get; Get] rx_start) (fun s => (recv s, got s, rxq s, fifo s true, fovr s true)) ([(true, 5); (true, 6); (true, 7); (true, 8)], [(true, 6); (true, 7)], [], [], false)) as (s & E & V); [vm_compute; reflexivity|].
  exists s. split; [exact (rplay_any _ _ _ _ _ (xr_start _ _ _ _) E)|]. repeat split; congruence.
Qed.
(* and messages of different FIFOs may be delivered in another order *)
Theorem C85_order_refuted : exists s : rx Z, rx_reach 8 true fifo_room (queue_room 8) s /\ recv s = [(false, 5); (true, 6)] /\ got s = [(true, 6); (false, 5)].
Proof.
  destruct (opt_is (rplay 8 true true [Rv false 5; Rv true 6; RIsr true; RIsr false; Get; Get] rx_start) (fun s => (recv s, got s)) ([(false, 5); (true, 6)], [(true, 6); (false, 5)])) as (s & E & V); [vm_compute; reflexivity|].
  exists s. split; [exact (rplay_tight _ _ _ _ _ (xr_start _ _ _ _) E)|]. split; congruence.
Qed.

(** *** Initialization *)
Definition at_read (n : Z) (i : nat) : bool := n <=? Z.of_nat i.
Definition never (i : nat) : bool := false.

(* C86: initialize always returns, *)
Theorem C86_returns enter leave : exists b, initialize enter leave = Some b.
Proof.
  unfold initialize. destruct (wait_some enter 10000 ltac:(lia) 0 (Z.to_nat 10002) ltac:(lia)) as (d & -> & _). cbn [obind]. destruct (d =? 0); [eauto|].
  destruct (wait_some leave 10000 ltac:(lia) 0 (Z.to_nat 10002) ltac:(lia)) as (d' & -> & _). cbn [obind]. eauto.
Qed.
(* and true if both modes are acknowledged within 10000 reads *)
Theorem C86_acknowledged enter leave (n k : nat) : Z.of_nat n < 10000 -> Z.of_nat k < 10000 ->
  (forall j, (j < n)%nat -> enter j = false) -> enter n = true -> (forall j, (j < k)%nat -> leave j = false) -> leave k = true -> initialize enter leave = Some true.
Proof.
  intros N K EB E LB L. unfold initialize. rewrite (wait_ack enter n (Z.to_nat 10002) 0 10000 ltac:(lia) ltac:(lia)) by (try exact E; intros j J; apply EB; lia). cbn [obind].
  replace (10000 - Z.of_nat n =? 0) with false by lia. rewrite (wait_ack leave k (Z.to_nat 10002) 0 10000 ltac:(lia) ltac:(lia)) by (try exact L; intros j J; apply LB; lia). cbn [obind]. f_equal. lia.
Qed.
Example C86_acknowledged_case : initialize (at_read 3) (at_read 7) = Some true.
Proof. apply (C86_acknowledged (at_read 3) (at_read 7) 3 7); try reflexivity; try lia; intros j J; unfold at_read; lia. Qed.
(* false if the initialization mode is not left *)
Theorem C86_not_left enter leave : (forall j, Z.of_nat j <= 10000 -> leave j = false) -> initialize enter leave = Some false.
Proof.
  intro L. unfold initialize. destruct (wait_some enter 10000 ltac:(lia) 0 (Z.to_nat 10002) ltac:(lia)) as (d & -> & _). cbn [obind]. destruct (d =? 0); [reflexivity|].
  pose proof (wait_never leave (Z.to_nat 10000) (Z.to_nat 10002) 0 ltac:(lia)) as W. rewrite Z2Nat.id in W by lia. rewrite W; [reflexivity|]. intros j J. apply L. lia.
Qed.
Example C86_not_left_case : initialize (at_read 3) (at_read 10001) = Some false.
Proof. apply C86_not_left. intros j J. unfold at_read. lia. Qed.
(* C86: but if it is never entered, so that it does not have to be left, the result is true: the counter ends at -1 and is compared with 0 *)
Theorem C86_not_entered_undetected enter leave : (forall j, Z.of_nat j <= 10000 -> enter j = false) -> leave O = true -> initialize enter leave = Some true.
Proof.
  intros E L. unfold initialize. pose proof (wait_never enter (Z.to_nat 10000) (Z.to_nat 10002) 0 ltac:(lia)) as W. rewrite Z2Nat.id in W by lia. rewrite W by (intros j J; apply E; lia). cbn [obind Z.eqb].
  rewrite (wait_ack leave 0 (Z.to_nat 10002) 0 10000 ltac:(lia) ltac:(lia)) by (try exact L; intros j J; lia). reflexivity.
Qed.
Theorem C86_not_entered_refuted : exists enter leave, (forall j, enter j = false) /\ initialize enter leave = Some true.
Proof. exists never, (at_read 0). split; [reflexivity|]. apply C86_not_entered_undetected; reflexivity. Qed.

Print Assumptions C82_send_frame.
Print Assumptions C82_receive_partial.
Print Assumptions C82_round_trip.
Print Assumptions C82_receive_refuted.
Print Assumptions C83_other_banks.
Print Assumptions C83_disable.
Print Assumptions C83_extended_mask.
Print Assumptions C83_standard_mask_partial.
Print Assumptions C83_standard_mask_refuted.
Print Assumptions C83_list.
Print Assumptions C83_short_list_partial.
Print Assumptions C83_short_mask_partial.
Print Assumptions C83_short_list_refuted.
Print Assumptions C84_nothing_lost.
Print Assumptions C84_in_order_partial.
Print Assumptions C84_stuck_refuted.
Print Assumptions C84_order_refuted.
Print Assumptions C84_masked_refuted.
Print Assumptions C85_interrupt_defined.
Print Assumptions C85_no_invention.
Print Assumptions C85_queue_kept.
Print Assumptions C85_all_delivered.
Print Assumptions C85_overrun_refuted.
Print Assumptions C85_order_refuted.
Print Assumptions C86_returns.
Print Assumptions C86_acknowledged.
Print Assumptions C86_not_left.
Print Assumptions C86_not_entered_undetected.
Print Assumptions C86_not_entered_refuted.
