(** C68 — the buffered STM32 UART (src/modm/platform/uart/stm32/uart.cpp.in): for all
    interleavings of the main program, the interrupt and the hardware. *)
From Coq Require Import ZArith List Bool Lia.
From Verif Require Import Base AtomicQueueModel AtomicQueueSpec AtomicQueueProofs UartModel UartSpec UartProofs.
Import ListNotations.
Open Scope Z_scope.

(** A main program which sends with write() only: what left the shift register, what is
    in the shift and data registers and at most NT waiting bytes are together exactly
    the bytes for which write() returned (or is just about to return) true, in order. *)
Theorem C68_transmit NT NR ext l : 1 <= NT <= 65535 -> 0 <= NR <= 65535 -> Forall gentle l ->
  exists s rest, run NT NR ext l (start NT NR) = Some s /\ zlen rest <= NT /\
    (line s ++ opt (sh s) ++ opt (dr s) ++ rest = acc s \/
     exists b, mp s = WEnable b /\ line s ++ opt (sh s) ++ opt (dr s) ++ rest = acc s ++ [b]).
Proof.
  intros HT HR G. destruct (inv_run NT NR ext HT HR l _ (inv_start NT NR ext HT HR) G) as (s & E & [[q T] _]).
  exists s, q. split; [exact E|]. destruct T as (R & EQ & _). split; [apply (ring_bound NT _ _ R)|].
  unfold pend in EQ. destruct (mp s); try (left; rewrite app_nil_r in EQ; exact EQ). right. exists b. split; [reflexivity|exact EQ].
Qed.
(** The interrupt runs between the push and the enabling of the interrupt; the second
    byte is already in the data register when write() returns true. *)
Example C68_transmit_ex : match run 2 2 true [ACall (Write 7); AMain; AMain; AMain; AShift; ACall (Write 8); AMain; AMain; AMain; ACall (Write 9); AMain; AMain; AMain; AMain; AMain; ASend; AShift; AMain; AIrq; AIsr; AIsr; AIsr; AIsr] (start 2 2) with
  | Some s => (line s, sh s, dr s, acc s, mp s) = ([7], Some 8, Some 9, [7; 8; 9], Idle) | None => False end.
Proof. vm_compute. reflexivity. Qed.

(** write() returns false only when NT bytes are waiting, all of them accepted before. *)
Theorem C68_refused NT NR ext l s t : 1 <= NT <= 65535 -> 0 <= NR <= 65535 -> Forall gentle l -> run NT NR ext l (start NT NR) = Some s ->
  forall b, mp s = PCheck b -> step NT NR ext AMain s = Some t -> mp t = Idle ->
    ret t = 0 /\ acc t = acc s /\ exists rest, zlen rest = NT /\ acc s = line s ++ opt (sh s) ++ opt (dr s) ++ rest.
Proof.
  intros HT HR G E b M ST MI. destruct (inv_run NT NR ext HT HR l _ (inv_start NT NR ext HT HR) G) as (s1 & E1 & [[q T] _]).
  rewrite E in E1. injection E1 as <-. destruct T as (R & EQ & _). cbn [step] in ST. destruct (ip s) eqn:IP; try (injection ST as <-; congruence).
  unfold main_step in ST. rewrite M in ST. rewrite (ring_full NT (HT0 NT HT) _ _ R) in ST. destruct (zlen q =? NT) eqn:F; injection ST as <-; [|discriminate MI].
  split; [reflexivity|]. split; [cbn; apply app_nil_r|]. exists q. split; [lia|]. rewrite M in EQ. cbn in EQ. rewrite app_nil_r in EQ. symmetry. exact EQ.
Qed.
Example C68_refused_ex : match run 1 0 true [ACall (Write 7); AMain; AMain; AMain; ACall (Write 8); AMain; AMain; AMain; AMain; AMain; AMain; ACall (Write 9); AMain] (start 1 0) with
  | Some s => mp s = PCheck 9 /\ match step 1 0 true AMain s with Some t => mp t = Idle /\ ret t = 0 /\ acc t = [7; 8] | None => False end | None => False end.
Proof. vm_compute. repeat constructor. Qed.

(** When isWriteFinished() returns true, everything accepted has left the data register
    (but see C68_finished_refuted). *)
Theorem C68_finished NT NR ext l s t : 1 <= NT <= 65535 -> 0 <= NR <= 65535 -> Forall gentle l -> run NT NR ext l (start NT NR) = Some s ->
  mp s = FTxe -> step NT NR ext AMain s = Some t -> mp t = Idle -> ret t = 1 -> acc t = line t ++ opt (sh t).
Proof.
  intros HT HR G E M ST MI RT. destruct (inv_run NT NR ext HT HR l _ (inv_start NT NR ext HT HR) G) as (s1 & E1 & [[q T] _]).
  rewrite E in E1. injection E1 as <-. destruct T as (R & EQ & P & _). cbn [step] in ST. destruct (ip s) eqn:IP; try (injection ST as <-; congruence).
  unfold main_step in ST. rewrite M in ST. injection ST as <-. unfold tx_pc in P. rewrite M in *. subst q. cbn in *. destruct (dr s); [discriminate|]. cbn in EQ. rewrite !app_nil_r in *. symmetry. exact EQ.
Qed.
Example C68_finished_ex : match run 1 0 true [ACall (Write 7); AMain; AMain; AMain; AShift; ACall IsWriteFinished; AMain] (start 1 0) with
  | Some s => mp s = FTxe /\ match step 1 0 true AMain s with Some t => mp t = Idle /\ ret t = 1 | None => False end | None => False end.
Proof. vm_compute. repeat constructor. Qed.

(** architecture/interface/uart.hpp:102-104 documents "true if the buffer is empty and
    the last byte has been sent"; not a single bit of it may have been sent. *)
Theorem C68_finished_refuted : exists l s t, Forall gentle l /\ run 1 0 true l (start 1 0) = Some s /\ mp s = FTxe /\
  step 1 0 true AMain s = Some t /\ mp t = Idle /\ ret t = 1 /\ acc t = [7] /\ line t = [].
Proof.
  exists [ACall (Write 7); AMain; AMain; AMain; AShift; ACall IsWriteFinished; AMain].
  eexists. eexists. split; [repeat constructor|]. split; [vm_compute; reflexivity|]. split; [reflexivity|]. split; [reflexivity|]. repeat split.
Qed.

(** Once write() has returned, the interrupt and the hardware alone send everything: at
    most 9 steps per byte not yet sent and 20 more, in any order, and when nothing is
    left to do for them, everything was sent. *)
Theorem C68_drains NT NR ext l s : 1 <= NT <= 65535 -> 0 <= NR <= 65535 -> Forall gentle l -> run NT NR ext l (start NT NR) = Some s -> mp s = Idle ->
  forall l' s', works NT NR ext s l' s' ->
    zlen l' <= 9 * (zlen (acc s) - zlen (line s)) + 20 /\ (quiet NT NR ext s' -> line s' = acc s).
Proof.
  intros HT HR G E M l' s' W. destruct (inv_run NT NR ext HT HR l _ (inv_start NT NR ext HT HR) G) as (s1 & E1 & [[q T] [k X]]).
  rewrite E in E1. injection E1 as <-. destruct (works_bound NT NR ext HT HR s l' s' W q k T X M) as ((q' & k' & T' & X') & M' & A' & L). split.
  - pose proof (measure_bound NT NR ext s q k T X) as B. destruct T as (R & EQ & _). rewrite M in EQ. cbn [pend] in EQ. rewrite app_nil_r in EQ.
    rewrite <- EQ, !zlen_app. pose proof (zlen_nonneg (opt (sh s))). pose proof (zlen_nonneg (opt (dr s))). lia.
  - intro Q. rewrite <- A'. exact (quiet_done NT NR ext s' q' T' M' Q).
Qed.
Example C68_drains_ex : match run 2 2 false [ACall (Write 7); AMain; AMain; AMain; ACall (Write 8); AMain; AMain; AMain; AMain; AMain; AMain] (start 2 2) with
  | Some s => mp s = Idle /\ acc s = [7; 8] /\ line s = [] /\
      match run 2 2 false [AShift; AIrq; AIsr; AIsr; AIsr; AIsr; ASend; AShift; AIrq; AIsr; AIsr; AIsr; AIsr; ASend] s with
      | Some t => line t = [7; 8] /\ txeie t = false | None => False end | None => False end.
Proof. vm_compute. repeat constructor. Qed.

(** Reception, whatever the main program does: what read() returned, followed by at most
    NR + 1 bytes still in the buffer and the data register, are received bytes in the
    order of reception, none twice. *)
Theorem C68_receive NT NR ext l s : 1 <= NT <= 65535 -> 0 <= NR <= 65535 -> run NT NR ext l (start NT NR) = Some s ->
  exists rest, subseq (got s ++ rest) (recvd s) /\ zlen rest <= NR + 1 /\
    (ext = true -> zlen (got s) + zlen rest + drops s = zlen (recvd s)).
Proof.
  intros HT HR E. destruct (inv_start NT NR ext HT HR) as [_ [k X]]. destruct (rx_run NT NR ext HR l _ k X s E) as [k' (R & S' & _ & _ & _ & C)].
  exists (k' ++ in_rdr s). split; [exact S'|]. pose proof (ring_bound NR _ _ R). split.
  - rewrite zlen_app. unfold in_rdr. destruct (_ || _); rewrite ?zlen_cons, ?zlen_nil; lia.
  - intro X1. specialize (C X1). rewrite !zlen_app in *. lia.
Qed.
Example C68_receive_ex : match run 1 2 true [ARecv 1; AIrq; AIsr; AIsr; AIsr; AIsr; AIsr; ARecv 2; AIrq; AIsr; AIsr; ARecv 3; ARecv 4; ACall Read; AIsr; AIsr; AIsr; ACall Read; AMain; AMain; AMain] (start 1 2) with
  | Some s => (got s, recvd s, drops s, rxne s, rdr s) = ([1], [1; 2; 3; 4], 1, true, 3) | None => False end.
Proof. vm_compute. reflexivity. Qed.

(** With RDR and ICR (extended driver) a byte is dropped only when it arrives before the
    last one was fetched from the data register, or when the buffer holds NR bytes. *)
Theorem C68_dropped NT NR l s a t : 1 <= NT <= 65535 -> 0 <= NR <= 65535 -> run NT NR true l (start NT NR) = Some s ->
  step NT NR true a s = Some t -> drops t <> drops s ->
  (exists b, a = ARecv b /\ rxne s = true) \/ (a = AIsr /\ ip s = IRead /\ zlen (recvd s) - drops s - zlen (got s) = NR + 1).
Proof.
  intros HT HR E ST D. destruct (inv_start NT NR true HT HR) as [_ [k X]]. destruct (rx_run NT NR true HR l _ k X s E) as [k' (R & _ & P & IR & IZ & C)].
  specialize (C eq_refl). destruct a as [o| | | | | |b]; cbn [step] in ST.
  - exfalso. apply D. destruct (mp s), (ip s); injection ST as <-; reflexivity.
  - exfalso. apply D. destruct (ip s); try (injection ST as <-; reflexivity). unfold main_step in ST. destruct (mp s); try (injection ST as <-; reflexivity).
    + destruct (_ =? _); injection ST as <-; reflexivity.
    + destruct (zupd _ _ _); cbn [obind] in ST; [injection ST as <-; reflexivity|discriminate].
    + destruct (dr s); injection ST as <-; reflexivity.
    + destruct (_ =? _); injection ST as <-; reflexivity.
    + destruct (_ =? _); injection ST as <-; reflexivity.
    + destruct (_ =? _); injection ST as <-; reflexivity.
    + destruct (q_get (rxq s)) as [[x|]|]; cbn [obind] in ST; try discriminate. injection ST as <-; reflexivity.
    + destruct (rxne s); injection ST as <-; reflexivity.
  - exfalso. apply D. destruct (ip s); injection ST as <-; try reflexivity. destruct (pending NR s); reflexivity.
  - right. unfold isr_step in ST. destruct (ip s) eqn:IP; try (exfalso; apply D; injection ST as <-; reflexivity).
    + destruct (q_push_ring NR HR (rxq s) k' (rdr s) R) as (q & EQ & _). rewrite EQ in ST. cbn [obind] in ST. destruct (zlen k' =? NR) eqn:F; cbn [negb] in ST; [|exfalso; apply D; injection ST as <-; reflexivity].
      split; [reflexivity|]. split; [reflexivity|]. unfold in_rdr in C. rewrite (IR eq_refl) in C. cbn [orb] in C. rewrite !zlen_app, zlen_cons, zlen_nil in C. lia.
    + exfalso. apply D. destruct (q_isEmpty (txq s)); [injection ST as <-; reflexivity|]. destruct (q_get (txq s)) as [[x|]|]; cbn [obind] in ST; try discriminate. injection ST as <-; reflexivity.
  - exfalso. apply D. destruct (dr s), (sh s); injection ST as <-; reflexivity.
  - exfalso. apply D. destruct (sh s); injection ST as <-; reflexivity.
  - left. exists b. split; [reflexivity|]. destruct (rxne s); [reflexivity|]. exfalso. apply D. injection ST as <-. reflexivity.
Qed.
Example C68_dropped_ex : match run 1 1 true [ARecv 1; AIrq; AIsr; AIsr; AIsr; AIsr; AIsr; ARecv 2; AIrq; AIsr] (start 1 1) with
  | Some s => ip s = IRead /\ match step 1 1 true AIsr s with Some t => drops s = 0 /\ drops t = 1 | None => False end | None => False end.
Proof. vm_compute. repeat constructor. Qed.

(** Without RDR and ICR the interrupt acknowledges the overrun by reading SR and DR: a
    byte which arrives while the interrupt runs is lost although the buffer is empty and
    the data register was free. *)
Theorem C68_acknowledge_refuted : exists l s, run 1 8 false l (start 1 8) = Some s /\ Forall gentle l /\
  recvd s = [1; 2] /\ got s = [1] /\ drops s = 0 /\ mp s = Idle /\ ip s = INone /\ rxne s = false /\ q_isEmpty (rxq s) = true.
Proof.
  exists [ARecv 1; AIrq; AIsr; AIsr; ARecv 2; AIsr; AIsr; AIsr; ACall Read; AMain; AMain; AMain].
  eexists. split; [vm_compute; reflexivity|]. split; [repeat constructor|]. repeat split.
Qed.
(** Without receive buffer: every transmit interrupt throws a received byte away. *)
Theorem C68_unbuffered_receive_refuted : exists l s, run 1 0 false l (start 1 0) = Some s /\ Forall gentle l /\
  recvd s = [5] /\ got s = [] /\ drops s = 0 /\ mp s = Idle /\ ip s = INone /\ rxne s = false.
Proof.
  exists [ACall (Write 7); AMain; AMain; AMain; ACall (Write 8); AMain; AMain; AMain; AMain; AMain; AMain; ARecv 5; AShift; AIrq; AIsr; AIsr; AIsr; ACall Read; AMain].
  eexists. split; [vm_compute; reflexivity|]. split; [repeat constructor|]. repeat split.
Qed.

(** writeBlocking() after write(): the interrupt fills the data register between the
    test of TXE and the write; the byte 2 is never sent. *)
Theorem C68_blocking_refuted : exists l s, run 2 0 true l (start 2 0) = Some s /\
  acc s = [1; 2; 3] /\ line s = [1; 3] /\ sh s = None /\ dr s = None /\ q_isEmpty (txq s) = true /\ quiet 2 0 true s.
Proof.
  exists [ACall (Write 1); AMain; AMain; AMain; ACall (Write 2); AMain; AMain; AMain; AMain; AMain; AMain; AShift;
          ACall (WriteBlocking 3); AMain; AIrq; AIsr; AIsr; AIsr; AMain; ASend; AShift; ASend; AIrq; AIsr; AIsr; AIsr].
  eexists. split; [vm_compute; reflexivity|]. repeat (split; [reflexivity|]). intros a B. destruct a; cbn in B; try contradiction; vm_compute; reflexivity.
Qed.
(** And it overtakes the bytes waiting in the buffer. *)
Theorem C68_blocking_order_refuted : exists l s, run 2 0 true l (start 2 0) = Some s /\
  acc s = [1; 2; 3] /\ line s = [1; 3; 2] /\ quiet 2 0 true s.
Proof.
  exists [ACall (Write 1); AMain; AMain; AMain; ACall (Write 2); AMain; AMain; AMain; AMain; AMain; AMain; AShift;
          ACall (WriteBlocking 3); AMain; AMain; ASend; AShift; ASend; AIrq; AIsr; AIsr; AIsr; AShift; ASend; AIrq; AIsr; AIsr; AIsr].
  eexists. split; [vm_compute; reflexivity|]. repeat (split; [reflexivity|]). intros a B. destruct a; cbn in B; try contradiction; vm_compute; reflexivity.
Qed.

(** discardTransmitBuffer() disables the transmit interrupt only; a receive interrupt
    takes a byte out of the buffer meanwhile.  The tail passes the head: the call
    returns NT + 2 although two bytes were waiting, and one of these was sent. *)
Theorem C68_discard_refuted : exists l s, run 2 1 true l (start 2 1) = Some s /\
  acc s = [1; 2; 3] /\ mp s = Idle /\ ret s = 4 /\ dr s = Some 3.
Proof.
  eexists [ACall (Write 1); AMain; AMain; AMain; ACall (Write 2); AMain; AMain; AMain; AMain; AMain; AMain; ACall (Write 3); AMain; AMain; AMain; AMain; AMain; AShift;
          ACall Discard; AMain; AMain; AMain; AMain; AMain; ARecv 9; AIrq; AIsr; AIsr; AIsr; AIsr; AIsr; AMain; AMain; AMain; AMain; AMain; AMain; AMain; AMain; AMain; AMain; AMain].
  eexists. vm_compute. repeat (split; [reflexivity|]). reflexivity.
Qed.

Print Assumptions C68_transmit.
Print Assumptions C68_refused.
Print Assumptions C68_finished.
Print Assumptions C68_finished_refuted.
Print Assumptions C68_drains.
Print Assumptions C68_receive.
Print Assumptions C68_dropped.
Print Assumptions C68_acknowledge_refuted.
Print Assumptions C68_unbuffered_receive_refuted.
Print Assumptions C68_blocking_refuted.
Print Assumptions C68_blocking_order_refuted.
Print Assumptions C68_discard_refuted.
