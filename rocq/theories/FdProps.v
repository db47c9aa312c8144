(* C101: message RAM of the FDCAN driver; C102: its queues and interrupts. *)
From Coq Require Import Permutation.
From Verif Require Import Base CanModel CanSpec RegModel BxModel FdModel FdSpec FdProofs FdFilterProofs FdConcProofs.

(** *** C101 *)
(* the addresses the driver computes are the ones of the manual *)
Theorem C101_addresses base inst i (k : bool) :
  standardFilter base inst i = element base inst StdFilter i /\ extendedFilter base inst i = element base inst ExtFilter i /\
  rxElement base inst (if k then 1 else 0) i = element base inst (if k then Rx1 else Rx0) i /\ txFifoElement base inst i = element base inst TxBuffer i.
Proof. split; [apply std_addr|]. split; [apply ext_addr|]. split; [apply rx_addr|apply tx_addr]. Qed.
(* the second buffer of FDCAN3 on the STM32G4, whose message RAM starts at 0x4000A400 *)
Example C101_addresses_example : txFifoElement 1073783808 2 1 = 1073783808 + 2 * 848 + 632 + 72.
Proof. reflexivity. Qed.

(* two different elements of any instances do not overlap, and the elements of n instances fit into 848 n bytes *)
Theorem C101_elements_disjoint base inst k i inst' k' i' : 0 <= i < count k -> 0 <= i' < count k' -> (inst, k, i) <> (inst', k', i') ->
  element base inst k i + bytes k <= element base inst' k' i' \/ element base inst' k' i' + bytes k' <= element base inst k i.
Proof. apply disjoint. Qed.
Theorem C101_elements_inside base inst n k i : 0 <= inst < n -> 0 <= i < count k ->
  base <= element base inst k i /\ element base inst k i + bytes k <= base + 848 * n.
Proof. apply inside. Qed.
Example C101_elements_example : element 1000 0 TxBuffer 2 + bytes TxBuffer = element 1000 1 StdFilter 0 /\ element 1000 2 TxBuffer 2 + bytes TxBuffer = 1000 + 848 * 3.
Proof. split; reflexivity. Qed.

(* sending: for every valid message, the buffer then holds exactly the frame of the message, and no other word of the RAM has changed *)
Theorem C101_send base inst k m capacity r : valid_msg capacity m ->
  exists r', sendMsg_ram base inst k m r = Some r' /\ frame_at r' (element base inst TxBuffer k) = frame_of m /\
    forall x, (forall j, 0 <= j < 18 -> x <> element base inst TxBuffer k + 4 * j) -> r' x = r x.
Proof. apply send_ram. Qed.
Definition ex_fd : can_msg := mkCan 291 true true false false 9 12 [1; 2; 3; 4; 5; 6; 7; 8; 9; 10; 11; 12; 13; 14; 15; 16; 17; 18; 19; 20; 21; 22; 23; 24; 25; 26; 27; 28; 29; 30; 31; 32;
  33; 34; 35; 36; 37; 38; 39; 40; 41; 42; 43; 44; 45; 46; 47; 48; 49; 50; 51; 52; 53; 54; 55; 56; 57; 58; 59; 60; 61; 62; 63; 64].
Lemma ex_fd_valid : valid_msg 64 ex_fd.
Proof.
  split; [cbn; lia|]. split; [split; [reflexivity|split; [cbn; lia|reflexivity]]|]. split; [cbn; lia|]. split; [|split; [cbn; lia|split; [reflexivity|discriminate]]].
  unfold ex_fd. cbn [c_data]. repeat (constructor; [lia|]). constructor.
Qed.
Example C101_send_example : valid_msg 64 ex_fd /\
  option_map (fun r => (r 632, r 636, r 640, r 644, r 648, r 652)) (sendMsg_ram 0 0 0 ex_fd (fun _ => 7)) = Some (291 * 2 ^ 18, 2 ^ 21 + 2 ^ 20 + 9 * 2 ^ 16, 67305985, 134678021, 202050057, 7).
Proof. split; [apply ex_fd_valid|vm_compute; reflexivity]. Qed.

(* receiving, in general: every element gives a consistent message with the frame's identifier, format, remote flag and as many of the data bytes as the
   length code says and the message can hold; the FD flag only follows the length and is never cleared, the bit rate flag is not touched.
   r is the RAM when the headers are read, r1 when the data are read. *)
Theorem C101_receive base inst (k : bool) g capacity m r r1 : can_capacity capacity -> zlen (c_data m) = capacity ->
  let e := element base inst (if k then Rx1 else Rx0) g in let f := frame_at r e in
  exists m' l, readMsg base inst capacity m (if k then 1 else 0) g r r1 = Some (m', filter_at r e, stamp_at r e) /\
    consistent capacity m' /\ znth can_lengths (f_dlc f) = Some l /\ c_len m' = Z.min l capacity /\
    c_ext m' = f_ext f /\ c_id m' = f_id f /\ c_rtr m' = f_rtr f /\ c_brs m' = c_brs m /\ c_fd m' = (c_fd m || (8 <? c_len m')) /\
    firstn (Z.to_nat (c_len m')) (c_data m') = firstn (Z.to_nat (c_len m')) (ram_bytes r1 (e + 8) 16) /\
    forall i, c_len m' + 4 <= i -> znth (c_data m') i = znth (c_data m) i.
Proof. apply read_ok. Qed.
(* a RAM with given words from an address on *)
Definition ex_ram (a : Z) (ws : list Z) : ram := fun x => nth (Z.to_nat ((x - a) / 4)) ws 0.
Definition ex_new : can_msg := mkCan 0 false false false true 0 0 (repeat 0 64).
Example C101_receive_example :
  let r := ex_ram 464 [2 ^ 30 + 305419896; 2 ^ 31 + 5 * 2 ^ 24 + 3 * 2 ^ 16 + 4660; 67305985] in
  frame_at r (element 0 0 Rx1 1) = Frame true 305419896 false false false 3 [1; 2; 3] /\
  option_map (fun x => match x with (m, f, t) => (frame_of m, f, t) end) (readMsg 0 0 64 ex_new 1 1 r r) = Some (Frame true 305419896 false false false 3 [1; 2; 3], 5, 4660).
Proof. split; vm_compute; reflexivity. Qed.

(* the frame arrives unchanged if it fits the message, is no remote frame, is an FD frame exactly if it is longer than 8 bytes, does not switch the bit rate,
   and the message had no FD flag before *)
Theorem C101_receive_frame_partial base inst (k : bool) g capacity m r : can_capacity capacity -> zlen (c_data m) = capacity -> c_fd m = false -> c_brs m = false ->
  let e := element base inst (if k then Rx1 else Rx0) g in let f := frame_at r e in
  f_rtr f = false -> f_brs f = false -> f_fd f = (8 <? f_dlc f) -> zlen (f_data f) <= capacity ->
  exists m', readMsg base inst capacity m (if k then 1 else 0) g r r = Some (m', filter_at r e, stamp_at r e) /\ frame_of m' = f.
Proof.
  intros C D FD BR. cbn zeta. set (e := element base inst (if k then Rx1 else Rx0) g). intros RT BS FF LF.
  destruct (read_ok base inst k g capacity m r r C D) as (m' & l & R & (K1 & K2 & K3) & T & L & E1 & E2 & E3 & E4 & E5 & E6 & _). fold e in R, T, E1, E2, E3, E6.
  exists m'. split; [exact R|]. destruct (lengths_bound _ _ T) as (LB & DB & L8 & LN).
  assert (FL : frame_len (f_fd (frame_at r e)) (f_rtr (frame_at r e)) (f_dlc (frame_at r e)) = l).
  { unfold frame_len. rewrite RT, FF. destruct (Z.ltb_spec 8 (f_dlc (frame_at r e))); [exact LN|]. rewrite L8 by lia. lia. }
  assert (ZL : zlen (f_data (frame_at r e)) = l).
  { change (f_data (frame_at r e)) with (firstn (Z.to_nat (frame_len (f_fd (frame_at r e)) (f_rtr (frame_at r e)) (f_dlc (frame_at r e)))) (ram_bytes r (e + 8) 16)).
    rewrite FL. unfold zlen. rewrite firstn_length, ram_bytes_length. lia. }
  assert (LM : c_len m' = l) by lia. clear LF.
  assert (DL : c_dlc m' = f_dlc (frame_at r e)).
  { destruct (lengths_bound _ _ K1) as (_ & DB' & _ & _). rewrite LM in K1. clear - K1 T DB DB'. set (a := c_dlc m') in *. set (b := f_dlc (frame_at r e)) in *. clearbody a b.
    assert (W : forallb (fun a => forallb (fun b => negb (match znth can_lengths a, znth can_lengths b with Some x, Some y => x =? y | _, _ => true end) || (a =? b)) (map Z.of_nat (seq 0 16))) (map Z.of_nat (seq 0 16)) = true) by (vm_compute; reflexivity).
    rewrite forallb_forall in W. specialize (W a). rewrite forallb_forall in W. assert (IN : forall x, 0 <= x <= 15 -> In x (map Z.of_nat (seq 0 16))) by (intros x X; apply in_map_iff; exists (Z.to_nat x); split; [lia|apply in_seq; lia]).
    specialize (W (IN a DB') b (IN b DB)). rewrite K1, T, Z.eqb_refl in W. cbn in W. lia. }
  unfold frame_of. rewrite E1, E2, E3, E4, RT, BR, DL, andb_false_r. rewrite <- E6 || idtac.
  assert (FDE : c_fd m' = f_fd (frame_at r e)).
  { rewrite E5, FD, FF, LM. cbn [orb]. destruct (Z.le_gt_cases (f_dlc (frame_at r e)) 8) as [G|G].
    - rewrite L8 by exact G. reflexivity.
    - assert (8 < l) by (clear - LN G DB; set (d := f_dlc (frame_at r e)) in *; clearbody d; assert (Q : d = 9 \/ d = 10 \/ d = 11 \/ d = 12 \/ d = 13 \/ d = 14 \/ d = 15) by lia; repeat destruct Q as [Q|Q]; subst d l; reflexivity).
      replace (8 <? l) with true by lia. replace (8 <? f_dlc (frame_at r e)) with true by lia. reflexivity. }
  rewrite FDE, E6. rewrite LM.
  transitivity (Frame (f_ext (frame_at r e)) (f_id (frame_at r e)) (f_rtr (frame_at r e)) (f_fd (frame_at r e)) (f_brs (frame_at r e)) (f_dlc (frame_at r e)) (f_data (frame_at r e))); [|reflexivity].
  rewrite RT, BS. f_equal. change (f_data (frame_at r e)) with (firstn (Z.to_nat (frame_len (f_fd (frame_at r e)) (f_rtr (frame_at r e)) (f_dlc (frame_at r e)))) (ram_bytes r (e + 8) 16)).
  rewrite FL. reflexivity.
Qed.
Example C101_receive_frame_partial_example :
  let r := ex_ram 176 [2047 * 2 ^ 18; 2 ^ 21 + 9 * 2 ^ 16; 67305985; 134678021; 202050057] in
  let f := frame_at r (element 0 0 Rx0 0) in f = Frame false 2047 false true false 9 [1; 2; 3; 4; 5; 6; 7; 8; 9; 10; 11; 12] /\ f_fd f = (8 <? f_dlc f) /\
  option_map (fun x => frame_of (fst (fst x))) (readMsg 0 0 64 ex_new 0 0 r r) = Some f.
Proof. split; [vm_compute; reflexivity|]. split; vm_compute; reflexivity. Qed.

(* an FD frame of at most 8 bytes is reported as a classic frame *)
Theorem C101_receive_short_fd_wrong base inst (k : bool) g capacity m r r1 : can_capacity capacity -> zlen (c_data m) = capacity -> c_fd m = false ->
  let f := frame_at r (element base inst (if k then Rx1 else Rx0) g) in f_fd f = true -> f_dlc f <= 8 ->
  exists m' fi ts, readMsg base inst capacity m (if k then 1 else 0) g r r1 = Some (m', fi, ts) /\ c_fd m' = false /\ frame_of m' <> f.
Proof.
  intros C D FD f F8 L8'. destruct (read_ok base inst k g capacity m r r1 C D) as (m' & l & R & _ & T & L & _ & _ & _ & _ & E5 & _). fold f in T.
  do 3 eexists. split; [exact R|]. destruct (lengths_bound _ _ T) as (LB & DB & L8 & LN). rewrite (L8 L8') in L.
  assert (E : c_fd m' = false) by (rewrite E5, FD; cbn [orb]; lia). split; [exact E|]. intro Q. rewrite <- Q in F8. cbn [f_fd frame_of] in F8. congruence.
Qed.
Example C101_receive_short_fd_wrong_example :
  let r := ex_ram 176 [0; 2 ^ 21 + 2 * 2 ^ 16; 513] in f_fd (frame_at r (element 0 0 Rx0 0)) = true /\ f_dlc (frame_at r (element 0 0 Rx0 0)) = 2 /\
  option_map (fun x => c_fd (fst (fst x))) (readMsg 0 0 64 ex_new 0 0 r r) = Some false.
Proof. split; [vm_compute; reflexivity|]. split; vm_compute; reflexivity. Qed.

(* a classic frame with a length code above 8 has 8 data bytes, but is reported as a longer FD message, with whatever the RAM held *)
Theorem C101_receive_long_classic_wrong base inst (k : bool) g capacity m r r1 : can_capacity capacity -> 8 < capacity -> zlen (c_data m) = capacity ->
  let f := frame_at r (element base inst (if k then Rx1 else Rx0) g) in f_fd f = false -> 8 < f_dlc f ->
  zlen (f_data f) <= 8 /\
  exists m' fi ts, readMsg base inst capacity m (if k then 1 else 0) g r r1 = Some (m', fi, ts) /\ c_fd m' = true /\ 8 < c_len m'.
Proof.
  intros C C8 D f F8 L8'. destruct (read_ok base inst k g capacity m r r1 C D) as (m' & l & R & _ & T & L & _ & _ & _ & _ & E5 & _). fold f in T.
  destruct (lengths_bound _ _ T) as (LB & DB & L8 & LN). split.
  - unfold f, frame_at. cbn [f_data]. unfold f, frame_at in F8. cbn [f_fd] in F8. rewrite F8. unfold zlen. rewrite firstn_length. unfold frame_len. destruct (Z.testbit (r _) 29); lia.
  - do 3 eexists. split; [exact R|]. assert (8 < l) by (clear - LN L8' DB; set (d := f_dlc f) in *; clearbody d; assert (Q : d = 9 \/ d = 10 \/ d = 11 \/ d = 12 \/ d = 13 \/ d = 14 \/ d = 15) by lia; repeat destruct Q as [Q|Q]; subst d l; reflexivity).
    assert (G : 8 < c_len m') by lia. split; [|exact G]. rewrite E5. replace (8 <? c_len m') with true by lia. apply orb_true_r.
Qed.
Example C101_receive_long_classic_wrong_example :
  let r := ex_ram 176 [0; 15 * 2 ^ 16; 1; 2; 99; 99] in zlen (f_data (frame_at r (element 0 0 Rx0 0))) = 8 /\
  option_map (fun x => (c_fd (fst (fst x)), c_len (fst (fst x)), znth (c_data (fst (fst x))) 8)) (readMsg 0 0 64 ex_new 0 0 r r) = Some (true, 64, Some 99).
Proof. split; vm_compute; reflexivity. Qed.

(* one message object is reused for all frames an interrupt reads: a classic frame after a long FD frame is reported as an FD frame *)
Theorem C101_receive_stale_fd_refuted : exists r m1 m2 x1 x2 t1 t2,
  readMsg 0 0 64 ex_new 0 0 r r = Some (m1, x1, t1) /\ readMsg 0 0 64 m1 0 1 r r = Some (m2, x2, t2) /\
  frame_at r (element 0 0 Rx0 1) = Frame false 5 false false false 1 [42] /\ frame_of m2 = Frame false 5 false true false 1 [42].
Proof.
  exists (ex_ram 176 ([0; 2 ^ 21 + 9 * 2 ^ 16] ++ repeat 0 16 ++ [5 * 2 ^ 18; 2 ^ 16; 42])). do 6 eexists. split; [vm_compute; reflexivity|]. split; [vm_compute; reflexivity|]. split; vm_compute; reflexivity.
Qed.

(* filters: after clearing, the calls of the filter functions make the peripheral treat every identifier as asked for: the filter with the lowest index
   that is not disabled and matches decides, with the last call for each index; calls with a bad index are ignored; nothing else in the RAM changes *)
Theorem C101_standard_filters base inst calls r : Forall (valid_call 11) calls ->
  let r' := fold_left (fun r c => do_std base inst c r) calls (clearStandardFilters base inst r) in
  (forall f action, std_decides r' base inst f action <-> wanted 28 calls f action) /\
  forall x, (forall i, 0 <= i < 28 -> x <> element base inst StdFilter i) -> r' x = r x.
Proof.
  intro F. cbn zeta. split; [|intros x X; apply std_outside; assumption].
  intros f action. apply (decides_wanted 28 calls (std_action _ base inst) (fun i => std_matches _ base inst i f)). intros i I. apply std_read; assumption.
Qed.
Theorem C101_extended_filters base inst calls r : Forall (valid_call 29) calls ->
  let r' := fold_left (fun r c => do_ext base inst c r) calls (clearExtendedFilters base inst r) in
  (forall f action, ext_decides r' base inst f action <-> wanted 8 calls f action) /\
  forall x, (forall i, 0 <= i < 8 -> x <> element base inst ExtFilter i /\ x <> element base inst ExtFilter i + 4) -> r' x = r x.
Proof.
  intro F. cbn zeta. split; [|intros x X; apply ext_outside; assumption].
  intros f action. apply (decides_wanted 8 calls (ext_action _ base inst) (fun i => ext_matches _ base inst i f)). intros i I. apply ext_read; assumption.
Qed.
(* identifiers 0x100 to 0x10F are rejected, all other identifiers below 0x400 go to FIFO 1; the identifier 0x105 meets the first filter, 0x305 the second one *)
Definition ex_calls : list call := [Call 4 2 2 0 1024; Call 1 0 3 256 271; Call 28 0 1 0 2047].
Example C101_filters_example : Forall (valid_call 11) ex_calls /\ Forall (valid_call 29) ex_calls /\ wanted 28 ex_calls 261 3 /\ wanted 28 ex_calls 773 2 /\ wanted 8 ex_calls 773 2 /\
  let r := fold_left (fun r c => do_std 0 0 c r) ex_calls (clearStandardFilters 0 0 (fun _ => 1)) in (r 0, r 4, r 16, r 112) = (0, 3 * 2 ^ 27 + 256 * 2 ^ 16 + 271, 2 ^ 31 + 2 ^ 28 + 1024, 1).
Proof.
  assert (V : forall b, 11 <= b -> Forall (valid_call b) ex_calls).
  { intros b B. assert (2 ^ 11 <= 2 ^ b) by (apply Z.pow_le_mono_r; lia). change (2 ^ 11) with 2048 in H.
    unfold ex_calls. repeat (constructor; [unfold valid_call; cbn [k_index k_type k_action k_id1 k_id2 In]; lia|]). constructor. }
  split; [apply V; lia|]. split; [apply V; lia|].
  assert (M : masked 773 0 1024) by (intros i I T; destruct (Z.eq_dec i 10) as [-> |N]; [reflexivity|]; change 1024 with (2 ^ 10) in T; rewrite Z.pow2_bits_false in T by lia; discriminate).
  assert (W : forall n, 8 <= n -> wanted n ex_calls 773 2).
  { intros n N. exists 4, (Call 4 2 2 0 1024). split; [lia|]. split; [reflexivity|]. split; [reflexivity|]. split; [lia|]. split; [right; right; split; [reflexivity|exact M]|].
    intros j d J E. assert (Q : j = 0 \/ j = 1 \/ j = 2 \/ j = 3) by lia. destruct Q as [-> | [-> | [-> | ->]]]; try discriminate E. injection E as <-. right. cbn [k_type k_id1 k_id2]. intros [[_ H] | [[H _] | [H _]]]; lia. }
  split; [|split; [apply W; lia|split; [apply W; lia|vm_compute; reflexivity]]].
  exists 1, (Call 1 0 3 256 271). split; [lia|]. split; [reflexivity|]. split; [reflexivity|]. split; [lia|]. split; [left; cbn; lia|].
  intros j d J E. assert (Q : j = 0) by lia. subst j. discriminate E.
Qed.
(* a bad index is reported *)
Theorem C101_filter_index base inst i t c a b r :
  fst (setStandardFilter base inst i t c a b r) = (i <? 28) /\ fst (setExtendedFilter base inst i t c a b r) = (i <? 8) /\
  (28 <= i -> snd (setStandardFilter base inst i t c a b r) = r) /\ (8 <= i -> snd (setExtendedFilter base inst i t c a b r) = r).
Proof.
  unfold setStandardFilter, setExtendedFilter. split; [destruct (Z.leb_spec 28 i); cbn [fst]; lia|]. split; [destruct (Z.leb_spec 8 i); cbn [fst]; lia|].
  split; intro H; [replace (28 <=? i) with true by lia|replace (8 <=? i) with true by lia]; reflexivity.
Qed.
Example C101_filter_index_example : fst (setStandardFilter 0 0 27 Classic (FilterConfig 1) 1 2 (fun _ => 0)) = true /\ fst (setExtendedFilter 0 0 8 Dual (FilterConfig 1) 1 2 (fun _ => 0)) = false.
Proof. split; reflexivity. Qed.

(** *** C102 *)
(* transmission: in every state, every accepted message has been sent once, or is pending in exactly one of the three buffers, or waits in the queue
   (a message the interrupt has handed over is still at its front until pop); no buffer is used for two messages *)
Theorem C102_transmission {A} cap (s : txs A) : 0 <= cap -> treach cap s ->
  Permutation (accepted s) (sent s ++ map snd (boxes s) ++ match ip s with IPop => tl (queue s) | _ => queue s end) /\
  NoDup (map fst (boxes s)) /\ Forall (fun x => 0 <= fst x < 3) (boxes s) /\ zlen (queue s) <= cap.
Proof. intros C R. destruct (treach_inv A cap s C R) as (N & K & Q & P & _). split; [exact P|]. auto. Qed.
(* when neither sendMessage nor the interrupt is active and messages wait, a buffer is pending or the interrupt is; line 0 is enabled *)
Theorem C102_no_stall {A} cap (s : txs A) : 0 <= cap -> treach cap s -> tp s = TIdle -> ip s = INone ->
  ile0 s = true /\ (queue s <> [] -> boxes s <> [] \/ tc s = true).
Proof. intros C R T I. destruct (treach_inv A cap s C R) as (_ & _ & _ & _ & O & P). rewrite T in P. rewrite I in O. split; [exact P|exact O]. Qed.
(* and the hardware and the interrupt alone can bring everything out that has been accepted *)
Theorem C102_drains {A} cap (s : txs A) : 0 <= cap -> treach cap s -> tp s = TIdle -> ip s = INone ->
  exists s', back cap s s' /\ queue s' = [] /\ boxes s' = [] /\ Permutation (accepted s) (sent s').
Proof. apply drain. Qed.

(* sendMessage while a buffer is free, and while none is *)
Lemma direct {A} cap q b t (m : A) k s a : treach cap (Tx q b t true TIdle INone s a) -> full b = false -> free k b -> treach cap (Tx q ((k, m) :: b) t true TIdle INone s (a ++ [m])).
Proof.
  intros R F K. eapply tr_step; [|apply send_unlock]. eapply tr_step; [|apply send_put]. eapply tr_step; [|apply send_index; eassumption].
  eapply tr_step; [|pose proof (send_check A cap q b t false m true s a) as X; rewrite F in X; exact X]. eapply tr_step; [|apply send_lock]. eapply tr_step; [exact R|apply send_begin].
Qed.
Lemma queued {A} cap q b t (m : A) s a : treach cap (Tx q b t true TIdle INone s a) -> full b = true -> zlen q < cap -> treach cap (Tx (q ++ [m]) b t true TIdle INone s (a ++ [m])).
Proof.
  intros R F K. eapply tr_step; [|apply send_unlock]. eapply tr_step; [|apply send_push; exact K].
  eapply tr_step; [|pose proof (send_check A cap q b t false m true s a) as X; rewrite F in X; exact X]. eapply tr_step; [|apply send_lock]. eapply tr_step; [exact R|apply send_begin].
Qed.
Lemma handler {A} cap q b (m : A) k s a : treach cap (Tx (m :: q) b true true TIdle INone s a) -> full b = false -> free k b -> treach cap (Tx q ((k, m) :: b) false true TIdle INone s a).
Proof.
  intros R F K. eapply tr_step; [|exact (isr_pop A cap (m :: q) ((k, m) :: b) false true TIdle s a)]. eapply tr_step; [|apply isr_put]. eapply tr_step; [|apply isr_index; eassumption].
  eapply tr_step; [|exact (isr_check A cap (m :: q) b false true TIdle s a)]. eapply tr_step; [|apply isr_clear]. eapply tr_step; [exact R|apply isr_enter].
Qed.
Lemma ex_queue : treach 4 (Tx [4; 5] [(2, 3); (1, 2); (0, 1)] false true TIdle INone [] [1; 2; 3; 4; 5]).
Proof.
  apply (queued 4 [4] _ _ 5 [] [1; 2; 3; 4]); [|reflexivity|unfold zlen; cbn; lia]. apply (queued 4 [] _ _ 4 [] [1; 2; 3]); [|reflexivity|unfold zlen; cbn; lia].
  apply (direct 4 [] [(1, 2); (0, 1)] _ 3 2 [] [1; 2]); [|reflexivity|split; [lia|cbn; lia]]. apply (direct 4 [] [(0, 1)] _ 2 1 [] [1]); [|reflexivity|split; [lia|cbn; lia]].
  apply (direct 4 [] [] _ 1 0 [] []); [|reflexivity|split; [lia|cbn; tauto]]. constructor.
Qed.
Example C102_transmission_example : exists s : txs Z, treach 4 s /\ queue s = [4; 5] /\ zlen (boxes s) = 3 /\ accepted s = [1; 2; 3; 4; 5] /\ tp s = TIdle /\ ip s = INone.
Proof. eexists. split; [exact ex_queue|]. repeat split. Qed.

(* the order is not kept: two buffers complete before the interrupt runs, it refills one of them, and a new message takes the other although one waits *)
Theorem C102_order_refuted : exists s : txs Z, treach 4 s /\ accepted s = [1; 2; 3; 4; 5; 6] /\ sent s = [1; 2; 6] /\ queue s = [5].
Proof.
  exists (Tx [5] [(0, 4); (2, 3)] true true TIdle INone [1; 2; 6] [1; 2; 3; 4; 5; 6]). split; [|repeat split].
  eapply tr_step; [|exact (hw_sent Z 4 [5] [] 1 6 [(0, 4); (2, 3)] false true TIdle INone [1; 2] [1; 2; 3; 4; 5; 6])].
  apply (direct 4 [5] [(0, 4); (2, 3)] false 6 1 [1; 2] [1; 2; 3; 4; 5]); [|reflexivity|split; [lia|cbn; lia]].
  apply (handler 4 [5] [(2, 3)] 4 0 [1; 2] [1; 2; 3; 4; 5]); [|reflexivity|split; [lia|cbn; lia]].
  eapply tr_step; [|exact (hw_sent Z 4 [4; 5] [(2, 3)] 1 2 [] true true TIdle INone [1] [1; 2; 3; 4; 5])].
  eapply tr_step; [|exact (hw_sent Z 4 [4; 5] [(2, 3); (1, 2)] 0 1 [] false true TIdle INone [] [1; 2; 3; 4; 5])].
  exact ex_queue.
Qed.

(* reception: the frames each FIFO stored are, in this order, those the application got, those in the queue, the one the interrupt holds and those still in the
   FIFO; the queue never refuses a message *)
Theorem C102_reception {A} cap (s : rxs A) : 0 <= cap -> rreach cap s ->
  (forall k, stored s k = from k (delivered s ++ rq s) ++ match rp s with RPush j _ x => if Bool.eqb j k then [x] else [] | _ => [] end ++ fifo s k) /\
  dropped s = [] /\ zlen (rq s) <= cap.
Proof. intros C R. destruct (rreach_inv A cap s C R) as (_ & D & Q & S & _). split; [exact S|]. auto. Qed.
(* outside of getMessage and sendMessage, line 1 is off only while the queue is full and a reception flag is set: reading a message starts the interrupt again *)
Theorem C102_reception_resumes {A} cap (s : rxs A) : 0 <= cap -> rreach cap s -> mp s = MIdle -> ile1 s = false -> zlen (rq s) = cap /\ rf s = true /\ rp s = RIdle.
Proof.
  intros C R M L. destruct (rreach_inv A cap s C R) as (_ & _ & _ & _ & P & Q). rewrite M in Q. cbn [mp_ok] in Q. destruct (Q L) as [Q1 Q2]. split; [exact Q2|]. split; [exact Q1|].
  rewrite L in P. assert (N : false <> true) by discriminate. destruct (rp s); cbn [rp_ok] in P; [reflexivity|tauto|tauto|tauto|tauto].
Qed.
Lemma ex_rx cap : 0 < cap -> rreach cap (Rx (upd (fun _ => []) true [7]) true true [] (RLoop false cap) MIdle [] (upd (fun _ => []) true [7]) []).
Proof.
  intro C. eapply rr_step; [|replace cap with (cap - zlen (@nil (bool * Z))) at 2 by (unfold zlen; cbn; lia); apply irq].
  eapply rr_step; [constructor|]. exact (hw_recv Z cap (fun _ => []) false true [] RIdle MIdle [] (fun _ => []) [] true 7 ltac:(unfold zlen; cbn; lia)).
Qed.
Lemma ex_loop cap : 0 < cap -> rreach cap (Rx (upd (upd (fun _ => []) true [7]) true []) true true [(true, 7)] (RLoop true (cap - 1)) MIdle [] (upd (fun _ => []) true [7]) []).
Proof.
  intro C. eapply rr_step; [|exact (loop_push Z cap _ true true [] true cap 7 MIdle [] _ [] ltac:(unfold zlen; cbn; lia))].
  eapply rr_step; [|exact (loop_ack Z cap (upd (fun _ => []) true [7]) true true [] true cap 7 MIdle [] _ [])].
  eapply rr_step; [|exact (loop_read Z cap (upd (fun _ => []) true [7]) true true [] true cap 7 [] MIdle [] _ [] eq_refl C)].
  eapply rr_step; [|exact (loop_end Z cap (upd (fun _ => []) true [7]) true true [] false cap MIdle [] _ [] (or_introl eq_refl))].
  apply ex_rx. exact C.
Qed.
Example C102_reception_example : exists s : rxs Z, rreach 1 s /\ rq s = [(true, 7)] /\ ile1 s = false /\ mp s = MIdle /\ stored s true = [7].
Proof.
  set (f := upd (upd (fun _ : bool => @nil Z) true [7]) true []). exists (Rx f true false [(true, 7)] RIdle MIdle [] (upd (fun _ => []) true [7]) []). split.
  - eapply rr_step; [|exact (end_full Z 1 f true true [(true, 7)] MIdle [] _ [] ltac:(unfold zlen; cbn; lia))].
    eapply rr_step; [|exact (loop_end Z 1 f true true [(true, 7)] true (1 - 1) MIdle [] _ [] (or_introl eq_refl))]. apply ex_loop. lia.
  - repeat split.
Qed.

(* but a frame that arrives after the loops have ended and before the flags are acknowledged is left in its FIFO: the queue is empty, both lines are on, no flag is
   set, and until another frame arrives nothing will ever read it *)
Theorem C102_reception_lost_wakeup_refuted : exists s : rxs Z, rreach 2 s /\ fifo s true = [8] /\ rq s = [] /\ rp s = RIdle /\ mp s = MIdle /\ ile1 s = true /\
  delivered s = [(true, 7)] /\ forall s', rstep 2 s s' -> (forall k, stored s' k = stored s k) -> rp s' = RIdle /\ rq s' = [] /\ rf s' = false /\ fifo s' true = [8].
Proof.
  set (f := upd (upd (upd (fun _ : bool => @nil Z) true [7]) true []) true [8]). set (st := upd (upd (fun _ : bool => @nil Z) true [7]) true [7; 8]).
  exists (Rx f false true [] RIdle MIdle [(true, 7)] st []). split; [|do 6 (split; [reflexivity|])].
  - eapply rr_step; [|apply get_ile]. eapply rr_step; [|exact (get_pop Z 2 f false true (true, 7) [] [] st [])].
    eapply rr_step; [|apply end_ack; unfold zlen; cbn; lia].
    eapply rr_step; [|exact (hw_recv Z 2 (upd (upd (fun _ => []) true [7]) true []) true true [(true, 7)] REnd MIdle [] (upd (fun _ => []) true [7]) [] true 8 ltac:(unfold zlen; cbn; lia))].
    eapply rr_step; [|exact (loop_end Z 2 _ true true [(true, 7)] true (2 - 1) MIdle [] _ [] (or_introl eq_refl))]. apply ex_loop. lia.
  - intros s' H. inversion H; subst; cbn [stored rp rq rf fifo]; intro E; try (repeat split; fail).
    exfalso. specialize (E k). unfold upd at 1 in E. rewrite Bool.eqb_reflx in E. apply (f_equal (@length Z)) in E. rewrite app_length in E. cbn in E. lia.
Qed.

(* and with overwriteOnOverrun, which is the default, the peripheral replaces the oldest element of a full FIFO while the driver may be reading it: the message is
   then a mixture of two frames, neither of them *)
Theorem C102_overwrite_torn_refuted : exists r r1 m' x t, let e := element 0 0 Rx0 0 in
  (forall a, (a < e \/ e + bytes Rx0 <= a) -> r1 a = r a) /\ readMsg 0 0 64 ex_new 0 0 r r1 = Some (m', x, t) /\
  frame_at r e = Frame false 1 false false false 2 [1; 1] /\ frame_at r1 e = Frame false 2 false false false 2 [2; 2] /\ frame_of m' = Frame false 1 false false false 2 [2; 2].
Proof.
  exists (fun a => if a =? 176 then 2 ^ 18 else if a =? 180 then 2 ^ 17 else if a =? 184 then 257 else 0), (fun a => if a =? 176 then 2 ^ 19 else if a =? 180 then 2 ^ 17 else if a =? 184 then 514 else 0).
  do 3 eexists. cbn zeta. change (element 0 0 Rx0 0) with 176. change (bytes Rx0) with 72. split.
  - intros a H. replace (a =? 176) with false by lia. replace (a =? 180) with false by lia. replace (a =? 184) with false by lia. reflexivity.
  - split; [vm_compute; reflexivity|]. split; [vm_compute; reflexivity|]. split; vm_compute; reflexivity.
Qed.

Print Assumptions C101_addresses.
Print Assumptions C101_elements_disjoint.
Print Assumptions C101_elements_inside.
Print Assumptions C101_send.
Print Assumptions C101_receive.
Print Assumptions C101_receive_frame_partial.
Print Assumptions C101_receive_short_fd_wrong.
Print Assumptions C101_receive_long_classic_wrong.
Print Assumptions C101_receive_stale_fd_refuted.
Print Assumptions C101_standard_filters.
Print Assumptions C101_extended_filters.
Print Assumptions C101_filter_index.
Print Assumptions C102_transmission.
Print Assumptions C102_no_stall.
Print Assumptions C102_drains.
Print Assumptions C102_order_refuted.
Print Assumptions C102_reception.
Print Assumptions C102_reception_resumes.
Print Assumptions C102_reception_lost_wakeup_refuted.
Print Assumptions C102_overwrite_torn_refuted.
