(** C71: the SPI master in software. *)
From Coq Require Import ZArith List Bool Lia.
From Verif Require Import Base SpiModel SpiSpec SpiProofs.
Import ListNotations.
Open Scope Z_scope.

(** In every mode and bit order a transfer exchanges one byte with a slave of that mode:
    the slave receives the bits of the byte, the master returns the byte sent by the
    slave, all set-up, hold and output times of half a period are kept, and the bus is
    left ready for the next byte. *)
Theorem C71_transfer (op data y : Z) (s : bus) (rest : list bool) :
  0 <= data < 256 -> 0 <= y < 256 -> idle (on op 2) (on op 1) s -> out s = bits (on op 4) y ++ rest ->
  exists s', transfer bus (put_sck (on op 2) (on op 1)) put_mosi get_miso wait op data s = Some (y, s') /\
    idle (on op 2) (on op 1) s' /\ out s' = rest /\ inp s' = inp s ++ bits (on op 4) data.
Proof. apply transfer_ok. Qed.
Example C71_transfer_ex :
  let s := Bus true false (bits true 0x5A ++ [true]) [] Hidden false false false in
  idle (on 7 2) (on 7 1) s /\
  transfer bus (put_sck (on 7 2) (on 7 1)) put_mosi get_miso wait 7 0xC1 s =
    Some (0x5A, Bus true true [true] [true; false; false; false; false; false; true; true] Hidden false true false).
Proof. cbn zeta. split; [split; reflexivity|vm_compute; reflexivity]. Qed.

(** Arrays: every byte of the transmit buffer (0xff without one) reaches the slave, its
    answers are stored in the receive buffer and nothing else is changed, also if both
    are the same buffer or the receive buffer begins before the transmit buffer. *)
Theorem C71_array (op : Z) (tx rx : option Z) (ys mem : list Z) (s : bus) (rest : list bool) :
  (forall p, tx = Some p \/ rx = Some p -> 0 <= p /\ p + zlen ys <= zlen mem) ->
  (forall p q, tx = Some p -> rx = Some q -> q <= p \/ p + zlen ys <= q) ->
  Forall (fun b => 0 <= b < 256) mem -> Forall (fun b => 0 <= b < 256) ys ->
  idle (on op 2) (on op 1) s -> out s = flat_map (bits (on op 4)) ys ++ rest ->
  exists mem' s', transfer_array bus (put_sck (on op 2) (on op 1)) put_mosi get_miso wait op tx rx (length ys) mem s = Some (mem', s') /\
    idle (on op 2) (on op 1) s' /\ out s' = rest /\
    inp s' = inp s ++ flat_map (bits (on op 4)) (match tx with Some p => region mem p (length ys) | None => repeat 0xff (length ys) end) /\
    zlen mem' = zlen mem /\
    forall j, 0 <= j -> znth mem' j =
      match rx with Some q => if (q <=? j) && (j <? q + zlen ys) then znth ys (j - q) else znth mem j | None => znth mem j end.
Proof.
  intros HM HA BM BY I0 O.
  destruct (loop_ok op tx rx ys 0 0xff mem s rest) as [mem' [s' [E [I1 [O1 [P1 [M1 M2]]]]]]]; try assumption.
  - destruct tx as [p|]; [|exact Logic.I]. specialize (HM p (or_introl eq_refl)). unfold in_mem, zlen in *. lia.
  - destruct rx as [p|]; [|exact Logic.I]. specialize (HM p (or_intror eq_refl)). unfold in_mem, zlen in *. lia.
  - destruct tx as [p|], rx as [q|]; try exact Logic.I. specialize (HA p q eq_refl eq_refl). unfold apart, zlen in *. lia.
  - destruct tx as [p|]; cbn [sent].
    + unfold region. apply Forall_forall. intros x Hx. rewrite Forall_forall in BM. apply BM.
      rewrite <- (firstn_skipn (Z.to_nat (p + 0)) mem). apply in_or_app. right.
      rewrite <- (firstn_skipn (length ys) (skipn (Z.to_nat (p + 0)) mem)). apply in_or_app. left. exact Hx.
    + apply Forall_forall. intros x Hx. apply repeat_spec in Hx. lia.
  - exists mem', s'. split; [exact E|]. split; [exact I1|]. split; [exact O1|]. split.
    + rewrite P1. destruct tx as [p|]; cbn [sent]; [rewrite Z.add_0_r|]; reflexivity.
    + split; [exact M1|]. intros j J. rewrite (M2 j J). destruct rx as [q|]; [rewrite Z.add_0_r|]; reflexivity.
Qed.
Example C71_array_ex :
  let s := Bus false false (bits false 0x11 ++ bits false 0x22) [] Settling true true true in
  option_map (fun r => (fst r, inp (snd r))) (transfer_array bus (put_sck false false) put_mosi get_miso wait 0 (Some 1) (Some 1) 2 [9; 0xA0; 0xB0; 9] s) =
  Some ([9; 0x11; 0x22; 9], bits false 0xA0 ++ bits false 0xB0).
Proof. vm_compute. reflexivity. Qed.

(** setDataMode and setDataOrder: each changes only its own setting, and the clock is put
    to the idle level of the mode. *)
Theorem C71_mode (op m : Z) (ck mo : bool) : 0 <= op < 256 -> 0 <= m < 4 ->
  exists op', setDataMode (bool * bool) (fun b w => Some (b, snd w)) op m (ck, mo) = Some (op', (Z.testbit m 1, mo)) /\ 0 <= op' < 256 /\
    on op' 2 = Z.testbit m 1 /\ on op' 1 = Z.testbit m 0 /\ on op' 4 = on op 4.
Proof.
  intros O M. unfold setDataMode. cbn [obind snd].
  pose proof (mode_sweep (fun op m => let op' := Z.lor (Z.land op (u8 (Z.lnot 3))) m in
    (0 <=? op') && (op' <? 256) && Bool.eqb (on op' 2) (Z.testbit m 1) && Bool.eqb (on op' 1) (Z.testbit m 0) && Bool.eqb (on op' 4) (on op 4))
    ltac:(vm_compute; reflexivity) op m O M) as H.
  cbn beta zeta in H. rewrite !andb_true_iff, !eqb_true_iff in H. destruct H as [[[[H1 H2] H3] H4] H5].
  eexists. rewrite H3. split; [reflexivity|]. split; [lia|]. split; [exact H3|]. split; [exact H4|exact H5].
Qed.
Example C71_mode_ex : setDataMode (bool * bool) (fun b w => Some (b, snd w)) 5 2 (false, true) = Some (6, (true, true)) /\ Z.testbit 2 1 = true.
Proof. split; vm_compute; reflexivity. Qed.
Theorem C71_order (op : Z) (lsb : bool) : 0 <= op < 256 ->
  let op' := setDataOrder op lsb in 0 <= op' < 256 /\ on op' 4 = lsb /\ on op' 2 = on op 2 /\ on op' 1 = on op 1.
Proof.
  intro O. cbn zeta.
  pose proof (mode_sweep (fun op _ => forallb (fun lsb => let op' := setDataOrder op lsb in
    (0 <=? op') && (op' <? 256) && Bool.eqb (on op' 4) lsb && Bool.eqb (on op' 2) (on op 2) && Bool.eqb (on op' 1) (on op 1)) [true; false])
    ltac:(vm_compute; reflexivity) op 0 O ltac:(lia)) as H.
  cbn beta in H. rewrite forallb_forall in H. specialize (H lsb ltac:(destruct lsb; cbn; tauto)). cbn zeta in H.
  rewrite !andb_true_iff, !eqb_true_iff in H. destruct H as [[[[H1 H2] H3] H4] H5]. repeat split; try assumption; lia.
Qed.
Example C71_order_ex : setDataOrder 7 false = 3 /\ setDataOrder 3 true = 7.
Proof. split; reflexivity. Qed.

(** initialize() keeps the mode but puts the clock to the low level: after it, in the
    modes with the inverted clock, the slave misses the first bit of the next byte. *)
Theorem C71_initialize_refuted : exists w s', setDataMode (bool * bool) (fun b w => Some (b, snd w)) 0 2 (false, false) = Some (2, w) /\
  initialize (bool * bool) (fun b w => Some (b, snd w)) (fun b w => Some (fst w, b)) w = Some (false, false) /\
  transfer bus (put_sck true false) put_mosi get_miso wait 2 0x81 (Bus false false (bits false 0x42) [] Settling true true true) = Some (0x42, s') /\
  inp s' = [false; false; false; false; false; false; true].
Proof.
  eexists. eexists. split; [reflexivity|]. split; [reflexivity|]. split; [vm_compute; reflexivity|]. vm_compute. reflexivity.
Qed.

(** The delay of initialize(): half a period rounded down to a nanosecond. *)
Theorem C71_rate (b : Z) : 7630 <= b <= 500000000 ->
  0 < delayTime b /\ delayTime b * (2 * b) <= 1000000000 < (delayTime b + 1) * (2 * b).
Proof.
  intro R. unfold delayTime. assert (1 <= 500000000 / b <= 65535) as Q.
  { split; [apply Z.div_le_lower_bound; lia|]. apply Z.div_le_upper_bound; lia. }
  assert (u16 (500000000 / b) = 500000000 / b) as -> by (unfold u16, wrap; apply Z.mod_small; change (2 ^ 16) with 65536; lia).
  destruct (500000000 / b =? 0) eqn:E; [lia|]. pose proof (Z.div_mod 500000000 b ltac:(lia)). pose proof (Z.mod_pos_bound 500000000 b ltac:(lia)). split; [lia|]. nia.
Qed.
Example C71_rate_ex : delayTime 300000 = 1666 /\ delayTime 7630 = 65530.
Proof. split; vm_compute; reflexivity. Qed.
(** Below 7630 Hz the delay is cut to 16 bits: 7600 Hz become 1.9 MHz. *)
Theorem C71_rate_refuted : exists b, 0 < b /\ 250 * b * (2 * delayTime b) <= 1000000000.
Proof. exists 7600. split; [lia|]. vm_compute. discriminate. Qed.

Print Assumptions C71_transfer.
Print Assumptions C71_array.
Print Assumptions C71_mode.
Print Assumptions C71_order.
Print Assumptions C71_initialize_refuted.
Print Assumptions C71_rate.
Print Assumptions C71_rate_refuted.
