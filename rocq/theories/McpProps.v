(* Properties C98 to C100: the driver for the CAN controller MCP2515. *)
From Coq Require Import Permutation.
From Verif Require Import Base CanModel McpModel McpSpec McpProofs McpCfgProofs.

(** *** Cases *)

Definition zeros : list Z := repeat 0 13.
(* an idle chip in normal mode *)
Definition chip0 : chip := Chip Idle (fun _ => Txb false zeros) (fun _ => Rxb false false zeros) 0 (fun _ => 0) [] [].
Lemma usage0 : usage chip0 [] [].
Proof.
  apply a_init; try reflexivity. split; [reflexivity |]. intros n. split; [reflexivity |]. repeat constructor; lia.
Qed.
Definition msg (ext : bool) (id len : Z) (data : list Z) : can_msg := mkCan id false false false ext 8 len data.
Definition mA := msg true 305419896 3 [1; 2; 3; 4; 5; 6; 7; 8].
Definition mB := msg false 1365 8 [11; 12; 13; 14; 15; 16; 17; 18].
Definition mC := msg false 7 0 [0; 0; 0; 0; 0; 0; 0; 0].
Lemma ok_msgs : msg_ok mA /\ msg_ok mB /\ msg_ok mC.
Proof. unfold msg_ok, byte, zlen; cbn. split; [| split]; (split; [lia |]; split; [lia |]; split; [lia |]; repeat constructor; lia). Qed.
(* one, two and three messages given to the driver *)
Definition c1m := after (sendMessage mA) chip0.
Definition c2m := after (sendMessage mB) c1m.
Definition c3m := after (sendMessage mC) c2m.
Lemma send_step c acc del m : usage c acc del -> msg_ok m -> res (sendMessage m) c = Some true -> usage (after (sendMessage m) c) (acc ++ [msg_frame m]) del.
Proof. intros U Hm H. exact (a_send c acc del m _ true U Hm (after_run _ _ _ H)). Qed.
Lemma usage3 : usage c3m [msg_frame mA; msg_frame mB; msg_frame mC] [].
Proof.
  assert (U1 : usage c1m [msg_frame mA] []) by (refine (send_step chip0 [] [] mA usage0 _ _); [apply ok_msgs | vm_compute; reflexivity]).
  assert (U2 : usage c2m [msg_frame mA; msg_frame mB] []) by (refine (send_step c1m [msg_frame mA] [] mB U1 _ _); [apply ok_msgs | vm_compute; reflexivity]).
  refine (send_step c2m [msg_frame mA; msg_frame mB] [] mC U2 _ _); [apply ok_msgs | vm_compute; reflexivity].
Qed.
(* the chip receives: buffer contents with an extended and a standard identifier *)
Definition rx_bytes (d : Z) : list Z := [145; 171; 86; 120; 2; d; d; 0; 0; 0; 0; 0; 0].
Definition arrives (c : chip) (n : Z) (b : list Z) : chip :=
  Chip (ph c) (tx c) (fupd (rx c) n (Rxb true false b)) (mode c) (cfg c) (sent c) (recv c ++ [rx_frame b false]).
Lemma usage_arrives c acc del n b : usage c acc del -> 0 <= n <= 1 -> r_full (rx c n) = false -> length b = 13%nat -> Forall byte b ->
  usage (arrives c n b) acc del.
Proof. intros U H1 H2 H3 H4. eapply a_event; [exact U |]. apply ev_rx; assumption. Qed.
Lemma rx_bytes_ok d : 0 <= d < 256 -> length (rx_bytes d) = 13%nat /\ Forall byte (rx_bytes d).
Proof. intros H. split; [reflexivity |]. unfold rx_bytes, byte. repeat constructor; lia. Qed.
Definition r1 := arrives chip0 0 (rx_bytes 1).
Definition r2 := arrives r1 1 (rx_bytes 2).
Definition r3 := after (getMessage mC) r2.
Definition r4 := arrives r3 0 (rx_bytes 3).
Definition r5 := after (getMessage mC) r4.
Definition r6 := after (getMessage mC) r5.
Lemma usage_r2 : usage r2 [] [].
Proof.
  apply usage_arrives; [| lia | reflexivity | apply rx_bytes_ok; lia | apply rx_bytes_ok; lia].
  apply usage_arrives; [exact usage0 | lia | reflexivity | apply rx_bytes_ok; lia | apply rx_bytes_ok; lia].
Qed.
Definition fr (d : Z) : frame := rx_frame (rx_bytes d) false.
Lemma get_step c del m f : usage c [] del ->
  match res (getMessage m) c with Some (true, m1) => Some (msg_frame m1) | _ => None end = Some f -> usage (after (getMessage m) c) [] (del ++ [f]).
Proof.
  intros U H. destruct (res (getMessage m) c) as [[[] m1] |] eqn:E; try discriminate. injection H as <-.
  exact (a_get c [] del m _ true m1 U (after_run _ _ _ E)).
Qed.
Lemma usage_r5 : usage r5 [] [fr 1; fr 3].
Proof.
  assert (U3 : usage r3 [] [fr 1]) by (refine (get_step r2 [] mC (fr 1) usage_r2 _); vm_compute; reflexivity).
  assert (U4 : usage r4 [] [fr 1]) by (apply usage_arrives; [exact U3 | lia | vm_compute; reflexivity | apply rx_bytes_ok; lia | apply rx_bytes_ok; lia]).
  refine (get_step r4 [fr 1] mC (fr 3) U4 _); vm_compute; reflexivity.
Qed.
Lemma usage_r6 : usage r6 [] [fr 1; fr 3; fr 2].
Proof. refine (get_step r5 [fr 1; fr 3] mC (fr 2) usage_r5 _); vm_compute; reflexivity. Qed.

(** *** C98: messages *)

(* every message that sendMessage accepted is sent once, as the frame it stands for, or still waits in the chip; nothing else is sent *)
Theorem C98_sent_once c acc del : usage c acc del -> Permutation acc (sent c ++ pending c).
Proof. intros U. destruct (usage_inv _ _ _ U) as (_ & del' & (_ & P & _) & _). exact P. Qed.
Example C98_sent_once_case : usage c3m [msg_frame mA; msg_frame mB; msg_frame mC] [] /\
  sent c3m ++ pending c3m = [Fra true 305419896 false 3 [1; 2; 3]; Fra false 1365 false 8 [11; 12; 13; 14; 15; 16; 17; 18]; Fra false 7 false 0 []].
Proof. split; [exact usage3 | vm_compute; reflexivity]. Qed.

(* every frame the chip stored is given to the application once or still waits in the chip; nothing else is given to it *)
Theorem C98_received_once c acc del : usage c acc del -> Forall (fun f => f_dlc f <= 8) (recv c) -> Permutation (recv c) (del ++ waiting c).
Proof. intros U F. destruct (usage_inv _ _ _ U) as (_ & del' & (_ & _ & P) & E). rewrite (E F) in P. exact P. Qed.
Example C98_received_once_case : usage r5 [] [fr 1; fr 3] /\ Forall (fun f => f_dlc f <= 8) (recv r5) /\ recv r5 = [fr 1; fr 2; fr 3] /\ waiting r5 = [fr 2] /\
  fr 2 = Fra true 305616504 false 2 [2; 2].
Proof.
  split; [| split; [| split; [| split]]]; try (vm_compute; reflexivity).
  - exact usage_r5.
  - vm_compute. repeat constructor; discriminate.
Qed.

(* sendMessage always comes back and refuses a message only if all three buffers were waiting when it was called; so does isReadyToSend *)
Theorem C98_send_refuses c acc del m c1 o : usage c acc del -> msg_ok m -> run (sendMessage m) c c1 o ->
  exists b, o = Some b /\ (b = false -> forall n, 0 <= n <= 2 -> t_req (tx c n) = true).
Proof.
  intros U Hm H. destruct (usage_inv _ _ _ U) as (Hi & del' & HA & _). destruct (send_run acc del' m c c1 o Hi HA Hm H) as (_ & [(-> & _) | (-> & _ & K)]).
  - exists true. split; [reflexivity | discriminate].
  - exists false. auto.
Qed.
Example C98_send_refuses_case : run (sendMessage mB) c3m (after (sendMessage mB) c3m) (Some false) /\ length (pending c3m) = 3%nat /\
  run (sendMessage mB) c2m (after (sendMessage mB) c2m) (Some true).
Proof. split; [apply after_run; vm_compute; reflexivity |]. split; [vm_compute; reflexivity | apply after_run; vm_compute; reflexivity]. Qed.
Theorem C98_ready_to_send c acc del c1 o : usage c acc del -> run isReadyToSend c c1 o ->
  exists b, o = Some b /\ (b = false -> forall n, 0 <= n <= 2 -> t_req (tx c n) = true).
Proof. intros U H. destruct (usage_inv _ _ _ U) as (Hi & _). exact (ready_run c c1 o Hi H). Qed.
Example C98_ready_to_send_case : run isReadyToSend c3m (after isReadyToSend c3m) (Some false) /\ run isReadyToSend c2m (after isReadyToSend c2m) (Some true).
Proof. split; apply after_run; vm_compute; reflexivity. Qed.

(* getMessage with an object for eight bytes comes back if no frame with a code above eight was received; it returns false only if no message was
   waiting when it was called, and then leaves the object alone *)
Theorem C98_get_refuses c acc del m c1 o : usage c acc del -> 8 <= zlen (c_data m) -> run (getMessage m) c c1 o -> Forall (fun f => f_dlc f <= 8) (recv c1) ->
  exists b m1, o = Some (b, m1) /\ (b = false -> m1 = m /\ waiting c = []).
Proof.
  intros U Hl H F. destruct (usage_inv _ _ _ U) as (Hi & del' & HA & _). destruct o as [[b m1] |].
  - exists b, m1. split; [reflexivity |]. intros ->.
    destruct (get_run acc del' m c c1 _ Hi HA H) as [(E & _ & _ & K) | (n & R & _ & _ & _ & _ & [(_ & E) | (_ & m2 & E & _)])]; [| discriminate | discriminate].
    split; [congruence |]. unfold waiting. cbn [map concat]. rewrite (K 0), (K 1) by lia. reflexivity.
  - destruct (get_none acc del' m c c1 Hi HA H) as (f & Hf & Hd). rewrite Forall_forall in F. specialize (F f Hf). cbv beta in F. lia.
Qed.
Example C98_get_refuses_case : usage r6 [] [fr 1; fr 3; fr 2] /\ run (getMessage mB) r6 (after (getMessage mB) r6) (Some (false, mB)) /\
  Forall (fun f => f_dlc f <= 8) (recv (after (getMessage mB) r6)).
Proof. split; [exact usage_r6 |]. split; [apply after_run; vm_compute; reflexivity |]. vm_compute. repeat constructor; discriminate. Qed.

(* messages are not sent in the order in which they were accepted: the chip prefers the highest buffer *)
Theorem C98_send_order_refuted : exists c acc c1, usage c acc [] /\ sent c = [] /\ length acc = 3%nat /\ NoDup acc /\ sends_highest c c1 /\ sent c1 = rev acc.
Proof.
  exists c3m, [msg_frame mA; msg_frame mB; msg_frame mC]. eexists. split; [exact usage3 |]. split; [vm_compute; reflexivity |]. split; [reflexivity |].
  split; [repeat constructor; cbn; intuition discriminate |]. split.
  - apply sh_tx with (n := 2); [lia | vm_compute; reflexivity | lia |].
    apply sh_tx with (n := 1); [lia | vm_compute; reflexivity | intros k Hk; replace k with 2 by lia; vm_compute; reflexivity |].
    apply sh_tx with (n := 0); [lia | vm_compute; reflexivity | intros k Hk; assert (k = 1 \/ k = 2) as [-> | -> ] by lia; vm_compute; reflexivity |].
    apply sh_none. vm_compute. reflexivity.
  - vm_compute. reflexivity.
Qed.
(* and not received in the order in which they arrived: buffer 0 is read before an older message in buffer 1 *)
Theorem C98_receive_order_refuted : exists c del, usage c [] del /\ waiting c = [] /\ Forall (fun f => f_dlc f <= 8) (recv c) /\ del <> recv c.
Proof.
  exists r6, [fr 1; fr 3; fr 2]. split; [exact usage_r6 |]. split; [vm_compute; reflexivity |]. split; [vm_compute; repeat constructor; discriminate |].
  vm_compute. discriminate.
Qed.

(* more than eight bytes: the driver writes past the buffer of the chip or past the data of the message *)
Theorem C98_send_long_undefined c acc del m c1 o : usage c acc del -> c_rtr m = false -> 8 < c_len m -> run (sendMessage m) c c1 o ->
  o = None \/ (o = Some false /\ forall n, 0 <= n <= 2 -> t_req (tx c n) = true).
Proof. intros U Hr Hl H. destruct (usage_inv _ _ _ U) as (Hi & del' & HA & _). exact (send_long acc del' m c c1 o Hi HA Hr Hl H). Qed.
Example C98_send_long_undefined_case : let m := msg false 5 12 (repeat 7 64) in c_rtr m = false /\ 8 < c_len m /\ res (sendMessage m) c1m = None /\
  exists c1 o, run (sendMessage m) c1m c1 o.
Proof. cbv zeta. split; [reflexivity |]. split; [reflexivity |]. split; [vm_compute; reflexivity | apply run_total]. Qed.

(* a frame with a code from 9 to 15 (allowed by CAN 2.0, eight bytes of data) overruns a message object of eight bytes *)
Theorem C98_get_long_undefined c acc del m c1 o : usage c acc del -> r_full (rx c 0) = true -> zlen (c_data m) < bt (r_b (rx c 0)) 4 mod 16 ->
  run (getMessage m) c c1 o -> o = None.
Proof.
  intros U Hf Hl H. destruct (usage_inv _ _ _ U) as (Hi & del' & HA & _).
  destruct (get_run acc del' m c c1 _ Hi HA H) as [(_ & _ & _ & K) | (n & R & Hn & HR & E & N & K)]; [rewrite K in Hf by lia; discriminate |].
  assert (n = 0) by (destruct (Z.eq_dec n 1) as [-> |]; [rewrite N in Hf by reflexivity; discriminate | lia]). subst n.
  rewrite (E Hf) in Hl. destruct K as [(_ & K) | (K & _)]; [exact K | lia].
Qed.
Definition long_bytes : list Z := [0; 32; 0; 0; 9; 1; 2; 3; 4; 5; 6; 7; 8].
Example C98_get_long_undefined_case : usage (arrives chip0 0 long_bytes) [] [] /\ r_full (rx (arrives chip0 0 long_bytes) 0) = true /\
  zlen (c_data mB) < bt (r_b (rx (arrives chip0 0 long_bytes) 0)) 4 mod 16 /\ exists c1 o, run (getMessage mB) (arrives chip0 0 long_bytes) c1 o.
Proof.
  split; [apply usage_arrives; [exact usage0 | lia | reflexivity | reflexivity | unfold long_bytes, byte; repeat constructor; lia] |].
  split; [reflexivity |]. split; [vm_compute; reflexivity | apply run_total].
Qed.

(* the data length code of the message object is not set; only its length is *)
Theorem C98_get_keeps_dlc c acc del m c1 m1 : usage c acc del -> run (getMessage m) c c1 (Some (true, m1)) -> c_dlc m1 = c_dlc m /\ c_fd m1 = c_fd m.
Proof.
  intros U H. destruct (usage_inv _ _ _ U) as (Hi & del' & HA & _).
  destruct (get_run acc del' m c c1 _ Hi HA H) as [(E & _) | (n & R & _ & _ & _ & _ & [(_ & E) | (_ & m2 & E & (_ & _ & _ & _ & D & F & _) & _)])];
    [discriminate | discriminate |]. injection E as ->. auto.
Qed.
Theorem C98_get_dlc_refuted : exists c m c1 m1, usage c [] [] /\ run (getMessage m) c c1 (Some (true, m1)) /\ c_len m1 = 2 /\ c_dlc m1 = 8.
Proof.
  exists r2, mC, (after (getMessage mC) r2), (mkCan 305616504 false false false true 8 2 [1; 1; 0; 0; 0; 0; 0; 0]). split; [exact usage_r2 |].
  split; [apply after_run; vm_compute; reflexivity |]. split; reflexivity.
Qed.

(** *** C99: filters and modes *)

(* setFilter with a table made by the macros: once it comes back, the buffers accept the frames of the right kind whose identifiers agree with one of
   their filters in the bits of the mask, with the lower identifier bits of the macros' arguments; a message for buffer 0 may go to buffer 1 *)
Theorem C99_filter_accepts n c c' o e0 e1 i0 i1 i2 i3 i4 i5 m0 m1 :
  0 <= i0 -> 0 <= i1 -> 0 <= i2 -> 0 <= i3 -> 0 <= i4 -> 0 <= i5 -> 0 <= m0 -> 0 <= m1 ->
  ph c = Idle -> 0 <= mode c < 8 -> 0 <= cfg c 15 < 256 -> run (setFilter n (filter_table e0 e1 i0 i1 i2 i3 i4 i5 m0 m1)) c c' o ->
  o = Some None \/
  (o = Some (Some tt) /\ ph c' = Idle /\ cfg c' 96 = 4 /\ cfg c' 112 = 0 /\ forall f, frame_ok f ->
    accepts0 c' f = wants e0 i0 m0 f || wants e0 i1 m0 f /\
    accepts1 c' f = wants e1 i2 m1 f || wants e1 i3 m1 f || wants e1 i4 m1 f || wants e1 i5 m1 f).
Proof.
  intros H0 H1 H2 H3 H4 H5 H6 H7 Hi Hm Hg H.
  set (t := filter_table e0 e1 i0 i1 i2 i3 i4 i5 m0 m1) in *.
  assert (Ht : zlen t = 32) by (unfold t, filter_table, mk_filter, mk_mask, zlen; destruct e0, e1; reflexivity).
  destruct (setFilter_run n t c c' o Hi (conj Hm Hg) Ht H) as [-> | (-> & Hi' & _ & Hc)]; [left; reflexivity | right].
  split; [reflexivity |]. split; [exact Hi' |].
  assert (L : zlen (firstn 12 (skipn 0 t)) = 12 /\ zlen (firstn 12 (skipn 12 t)) = 12 /\ zlen (firstn 8 (skipn 24 t)) = 8).
  { unfold zlen in *. rewrite !firstn_length, !skipn_length. lia. }
  destruct L as (L1 & L2 & L3).
  split; [rewrite Hc by lia; unfold filtered; rewrite !wr_out by lia; vm_compute; reflexivity |].
  split; [rewrite Hc by lia; unfold filtered; rewrite !wr_out by lia; vm_compute; reflexivity |].
  intros f Hf. exact (table_accepts c c' e0 e1 i0 i1 i2 i3 i4 i5 m0 m1 f H0 H1 H2 H3 H4 H5 H6 H7 Hc Hf).
Qed.
Definition tableE : list Z := filter_table true false 305419896 5 1365 1366 1367 7 536870911 2046.
Example C99_filter_accepts_case : res (setFilter 2 tableE) chip0 = Some (Some tt) /\
  (let c := after (setFilter 2 tableE) chip0 in
   accepts0 c (Fra true 305419896 false 0 []) = true /\ accepts0 c (Fra true 305419897 false 0 []) = false /\ accepts0 c (Fra false 5 false 0 []) = false /\
   accepts1 c (Fra false 1364 false 2 [9; 9]) = true /\ accepts1 c (Fra false 1362 false 2 [9; 9]) = false).
Proof. split; [| split; [| split; [| split; [| split]]]]; vm_compute; reflexivity. Qed.

(* any 32 bytes end up in the registers of the filters and masks, whatever the chip does meanwhile *)
Theorem C99_filter_registers n t c c' o : ph c = Idle -> 0 <= mode c < 8 -> 0 <= cfg c 15 < 256 -> zlen t = 32 -> run (setFilter n t) c c' o ->
  o = Some None \/ (o = Some (Some tt) /\
    map (cfg c') [0; 1; 2; 3; 4; 5; 6; 7; 8; 9; 10; 11; 16; 17; 18; 19; 20; 21; 22; 23; 24; 25; 26; 27; 32; 33; 34; 35; 36; 37; 38; 39] = t).
Proof.
  intros Hi Hm Hg Ht H. destruct (setFilter_run n t c c' o Hi (conj Hm Hg) Ht H) as [-> | (-> & _ & _ & Hc)]; [left; reflexivity | right].
  split; [reflexivity |]. cbn [map]. rewrite !Hc by lia. rewrite !(wr_table (cfg c) t) by (exact Ht || lia).
  unfold zlen in Ht. do 32 (destruct t as [| ?x t]; [cbn in Ht; lia |]). destruct t; [reflexivity | cbn in Ht; lia].
Qed.
Example C99_filter_registers_case : res (setFilter 1 (map Z.of_nat (seq 100 32))) chip0 = Some (Some tt) /\ ph chip0 = Idle /\
  map (cfg (after (setFilter 1 (map Z.of_nat (seq 100 32))) chip0)) [0; 11; 16; 39] = [100; 111; 112; 131].
Proof. split; [| split]; vm_compute; reflexivity. Qed.

(* setFilter does not come back to the mode in use before: it always asks for the normal mode *)
Theorem C99_filter_forgets_mode n t c c' : ph c = Idle -> 0 <= mode c < 8 -> 0 <= cfg c 15 < 256 -> zlen t = 32 -> run (setFilter n t) c c' (Some (Some tt)) ->
  cfg c' 15 / 32 = 0.
Proof.
  intros Hi Hm Hg Ht H. destruct (setFilter_run n t c c' _ Hi (conj Hm Hg) Ht H) as [E | (_ & _ & K & _)]; [discriminate | exact K].
Qed.
Definition listening : chip := after (setMode 2 MListenOnly) chip0.
Example C99_filter_forgets_mode_case : mode listening = 3 /\ ph listening = Idle /\ 0 <= cfg listening 15 < 256 /\
  run (setFilter 2 tableE) listening (after (setFilter 2 tableE) listening) (Some (Some tt)) /\
  res (pbind (setFilter 2 tableE) (fun _ => readRegister 14)) listening = Some 0.
Proof.
  split; [vm_compute; reflexivity |]. split; [vm_compute; reflexivity |]. split; [vm_compute; split; [discriminate | reflexivity] |].
  split; [apply after_run; vm_compute; reflexivity | vm_compute; reflexivity].
Qed.

(* setMode comes back only in the mode asked for; it does not fail *)
Theorem C99_set_mode n md c c' o : ph c = Idle -> 0 <= mode c < 8 -> 0 <= cfg c 15 < 256 -> md <> MListenOnlyLoopBack -> run (setMode n md) c c' o ->
  o = Some None \/ (o = Some (Some tt) /\ ph c' = Idle /\ mode c' = match md with MListenOnly => 3 | MLoopBack => 2 | _ => 0 end).
Proof. intros Hi Hm Hg _ H. destruct (setMode_run n md c c' o Hi (conj Hm Hg) H) as [-> | (-> & K1 & K2 & _)]; auto. Qed.
Example C99_set_mode_case : run (setMode 1 MLoopBack) listening (after (setMode 1 MLoopBack) listening) (Some (Some tt)) /\ mode (after (setMode 1 MLoopBack) listening) = 2.
Proof. split; [apply after_run; vm_compute; reflexivity | vm_compute; reflexivity]. Qed.
(* for the combination of listening and loop back, which the chip does not have, it returns normally, and the chip takes part in the bus *)
Theorem C99_listen_loopback_undetected n c c' o : ph c = Idle -> 0 <= mode c < 8 -> 0 <= cfg c 15 < 256 -> run (setMode n MListenOnlyLoopBack) c c' o ->
  o = Some None \/ (o = Some (Some tt) /\ mode c' = 0).
Proof. intros Hi Hm Hg H. destruct (setMode_run n _ c c' o Hi (conj Hm Hg) H) as [-> | (-> & _ & K2 & _)]; auto. Qed.
Example C99_listen_loopback_undetected_case : mode listening = 3 /\
  run (setMode 1 MListenOnlyLoopBack) listening (after (setMode 1 MListenOnlyLoopBack) listening) (Some (Some tt)).
Proof. split; [vm_compute; reflexivity | apply after_run; vm_compute; reflexivity]. Qed.

(** *** C100: initialization and bit timing *)

(* initialize never fails on a chip that keeps its registers; once it comes back, the chip is in normal mode with both receive interrupts enabled and,
   unless the clock is 20 MHz with less than 1 Mbit/s or the prescaler is odd, has the bit rate asked for *)
Theorem C100_initialize n clk br t c c' o : ph c = Idle -> bestConfig clk br = Some t -> run (initializeWithPrescaler n t) c c' o ->
  o = Some None \/
  (o = Some (Some true) /\ ph c' = Idle /\ mode c' = 0 /\ cfg c' 43 = 3 /\
   (~ (clk = 20000000 /\ br <> 1000000) -> bt_prescaler t mod 2 = 0 -> clk / bit_clocks (cfg c' 42) (cfg c' 41) (cfg c' 40) = br)).
Proof.
  intros Hi Ht H. destruct (init_run n t c c' o Hi H) as [-> | (-> & K1 & K2 & K3 & K4 & _)]; [left; reflexivity | right].
  split; [reflexivity |]. split; [exact K1 |]. split; [exact K2 |]. split; [exact K4 |]. intros N E. rewrite <- (rate_exact _ _ _ Ht N E).
  unfold cnf in K3. injection K3 as E1 E2 E3. unfold cnf. cbn [nth]. rewrite E1, E2, E3. reflexivity.
Qed.
Example C100_initialize_case : exists t, bestConfig 16000000 125000 = Some t /\ bt_prescaler t = 8 /\
  run (initializeWithPrescaler 3 t) c3m (after (initializeWithPrescaler 3 t) c3m) (Some (Some true)) /\
  cnf t = [3; 186; 3] /\ bit_clocks 3 186 3 = 128.
Proof.
  eexists. split; [vm_compute; reflexivity |]. split; [reflexivity |]. split; [apply after_run; vm_compute; reflexivity |]. split; vm_compute; reflexivity.
Qed.

(* an odd prescaler p is rounded down to p - 1: the bit rate is p / (p - 1) times the one asked for, or more *)
Theorem C100_odd_prescaler_wrong clk br t n c c' : ph c = Idle -> bestConfig clk br = Some t -> bt_prescaler t mod 2 = 1 ->
  run (initializeWithPrescaler n t) c c' (Some (Some true)) ->
  let p := bt_prescaler t in 0 < p - 1 /\ br * bit_clocks (cfg c' 42) (cfg c' 41) (cfg c' 40) * p <= (p - 1) * clk.
Proof.
  intros Hi Ht Ho H. destruct (init_run n t c c' _ Hi H) as [E | (_ & _ & _ & K3 & _)]; [discriminate |]. cbv zeta.
  destruct (rate_odd _ _ _ Ht Ho) as (R1 & R2). split; [exact R1 |]. revert R2. unfold cnf in K3. injection K3 as E1 E2 E3. unfold cnf. cbn [nth]. rewrite E1, E2, E3. auto.
Qed.
Example C100_odd_prescaler_wrong_case : exists t, bestConfig 16000000 200000 = Some t /\ bt_prescaler t = 5 /\
  run (initializeWithPrescaler 3 t) chip0 (after (initializeWithPrescaler 3 t) chip0) (Some (Some true)) /\
  (let c := after (initializeWithPrescaler 3 t) chip0 in 16000000 / bit_clocks (cfg c 42) (cfg c 41) (cfg c 40) = 250000).
Proof.
  eexists. split; [vm_compute; reflexivity |]. split; [reflexivity |]. split; [apply after_run; vm_compute; reflexivity |]. vm_compute; reflexivity.
Qed.

(* with a clock of 20 MHz every bit rate other than 1 Mbit/s is at least a ninth too fast: the jump width is counted as part of the bit *)
Theorem C100_20MHz_wrong br t n c c' : ph c = Idle -> bestConfig 20000000 br = Some t -> br <> 1000000 ->
  run (initializeWithPrescaler n t) c c' (Some (Some true)) ->
  0 < br /\ 10 * br * bit_clocks (cfg c' 42) (cfg c' 41) (cfg c' 40) <= 9 * 20000000.
Proof.
  intros Hi Ht Ho H. destruct (init_run n t c c' _ Hi H) as [E | (_ & _ & _ & K3 & _)]; [discriminate |].
  destruct (rate_20 _ _ Ht Ho) as (R1 & R2). split; [exact R2 |]. revert R1. unfold cnf in K3. injection K3 as E1 E2 E3. unfold cnf. cbn [nth]. rewrite E1, E2, E3.
  intros R1. rewrite <- Z.mul_assoc, Z.mul_comm. exact R1.
Qed.
Example C100_20MHz_wrong_case : exists t, bestConfig 20000000 125000 = Some t /\
  run (initializeWithPrescaler 3 t) chip0 (after (initializeWithPrescaler 3 t) chip0) (Some (Some true)) /\
  (let c := after (initializeWithPrescaler 3 t) chip0 in 20000000 / bit_clocks (cfg c 42) (cfg c 41) (cfg c 40) = 138888).
Proof.
  eexists. split; [vm_compute; reflexivity |]. split; [apply after_run; vm_compute; reflexivity |]. vm_compute; reflexivity.
Qed.

(* the chip needs at least two time quanta in the second phase segment; the configuration for 8 MHz and 1 Mbit/s, which compiles, has one *)
Theorem C100_phase_segment_refuted : exists clk br t c c', bestConfig clk br = Some t /\ ph c = Idle /\
  run (initializeWithPrescaler 3 t) c c' (Some (Some true)) /\ clk / bit_clocks (cfg c' 42) (cfg c' 41) (cfg c' 40) = br /\ ps2_tq (cfg c' 40) < 2.
Proof.
  exists 8000000, 1000000, (Bt 1 1 1 1 2), chip0, (after (initializeWithPrescaler 3 (Bt 1 1 1 1 2)) chip0).
  split; [vm_compute; reflexivity |]. split; [reflexivity |].
  split; [apply after_run; vm_compute; reflexivity |]. split; vm_compute; reflexivity.
Qed.

Print Assumptions C98_sent_once. Print Assumptions C98_received_once. Print Assumptions C98_send_refuses. Print Assumptions C98_ready_to_send.
Print Assumptions C98_get_refuses. Print Assumptions C98_send_order_refuted. Print Assumptions C98_receive_order_refuted.
Print Assumptions C98_send_long_undefined. Print Assumptions C98_get_long_undefined. Print Assumptions C98_get_keeps_dlc. Print Assumptions C98_get_dlc_refuted.
Print Assumptions C99_filter_accepts. Print Assumptions C99_filter_registers. Print Assumptions C99_filter_forgets_mode. Print Assumptions C99_set_mode.
Print Assumptions C99_listen_loopback_undetected. Print Assumptions C100_initialize. Print Assumptions C100_odd_prescaler_wrong.
Print Assumptions C100_20MHz_wrong. Print Assumptions C100_phase_segment_refuted.
