(* C44, C45, C46: XPCC over CAN *)
From Coq Require Import Permutation.
From Verif Require Import Base SliceLemmas CrcSpec SabProofs XpccModel XpccSpec XpccProofs.

Definition ex_h : xheader := mkH XNegative true 0x12 0xfe 0x80.

(* ------------------------------------------------------------------------------------------------------------------------- *)
(* C44 *)
Theorem C44_identifier h fragment : header_ok h -> convertToIdentifier h fragment = identifier h fragment /\ 0 <= convertToIdentifier h fragment < 2 ^ 29.
Proof. intro H. rewrite convert_ok by exact H. split; [reflexivity|apply identifier_range; exact H]. Qed.
Theorem C44_round_trip h fragment : header_ok h -> convertToHeader (convertToIdentifier h fragment) = (h, fragment).
Proof.
  intro H. rewrite convert_ok by exact H. rewrite header_conv by (apply identifier_range; exact H). destruct (head_identifier h fragment H) as [-> ->]. reflexivity.
Qed.
Theorem C44_injective h h' fragment fragment' : header_ok h -> header_ok h' -> convertToIdentifier h fragment = convertToIdentifier h' fragment' -> h = h' /\ fragment = fragment'.
Proof. intros H H' E. rewrite !convert_ok in E by assumption. apply identifier_inj; assumption. Qed.
(* every identifier without the counter bit is the identifier of a header *)
Theorem C44_onto i : 0 <= i < 2 ^ 29 -> (i / 2 ^ 25) mod 2 = 0 -> let (h, f) := convertToHeader i in header_ok h /\ convertToIdentifier h f = i.
Proof. intros R B. rewrite header_conv by lia. split; [apply head_of_ok|]. rewrite convert_ok by apply head_of_ok. apply identifier_head; assumption. Qed.
Example C44_example : header_ok ex_h /\ convertToIdentifier ex_h true = 0x1512fe80 /\ convertToHeader 0x1512fe80 = (ex_h, true).
Proof. split; [unfold header_ok, byte, ex_h; cbn; lia|]. split; reflexivity. Qed.
Print Assumptions C44_identifier.
Print Assumptions C44_round_trip.
Print Assumptions C44_injective.
Print Assumptions C44_onto.

(* ------------------------------------------------------------------------------------------------------------------------- *)
(* C45, sending: with the bus connected, the calls of update() send the frames of the queued packets, in order, one per call that the
   driver accepts; packets of more than 8 bytes as their fragments. *)
Theorem C45_send s answers : Forall sending (x_list s) -> counter_ok (x_counter s) -> Forall (fun a => fst a = true) answers ->
  exists s' sent, xp_send_run s answers = Some (s', sent) /\ queue_frames (x_counter s) (x_list s) = sent ++ queue_frames (x_counter s') (x_list s') /\
    zlen sent = Z.min (zlen (filter (fun a : bool * bool => snd a) answers)) (zlen (queue_frames (x_counter s) (x_list s))).
Proof. intros Q C A. destruct (send_run answers s Q C A) as (s' & sent & E & F & L & _). exists s', sent. split; [exact E|]. split; [exact F|exact L]. Qed.
Definition ex_p : list Z := map Z.of_nat (seq 100 20).
Definition ex_out : xout := fst (xp_sendPacket true true (mkXO [] 0x30) ex_h ex_p).
Example C45_send_example : Forall sending (x_list ex_out) /\
  option_map snd (xp_send_run ex_out [(true, true); (true, false); (true, true); (true, true); (true, true); (true, true)]) = Some (fragments (identifier ex_h true) 0x30 ex_p) /\
  length (fragments (identifier ex_h true) 0x30 ex_p) = 4%nat.
Proof. split; [apply Forall_cons; [|apply Forall_nil]; split; cbv; congruence || (split; [congruence|reflexivity])|]. split; vm_compute; reflexivity. Qed.
Print Assumptions C45_send.

(* C45, receiving: a connector that has received any frames whatsoever (frames pre, packets agreeing on their sizes), and holds no
   unfinished packet with the header and the counter, receives frames fs. If the well-formed fragments among them with that header and
   counter are those of a payload of 1 to 48 bytes in any order, exactly one packet from such fragments is delivered, with the payload. *)
Theorem C45_any_order size pre fs s h c p :
  Forall frame_ok (pre ++ fs) -> agree size (pre ++ fs) -> xp_receive xp_init pre = Some s ->
  header_ok h -> counter_ok c -> Forall byte p -> 0 < zlen p <= 48 -> not_pending s h c ->
  Permutation (filter (of_key h c) fs) (fragments (identifier h true) c p) ->
  exists s' x, xp_receive s fs = Some s' /\ filter (from_key h c) (x_received s') = filter (from_key h c) (x_received s) ++ [x] /\
    i_header x = h /\ i_payload x = map Some p /\ not_pending s' h c.
Proof.
  intros Fok Ag E0 H C B L Np Pm.
  assert (xinv size [] xp_init) as I0 by (split; apply Forall_nil).
  destruct (receive_inv size pre [] xp_init I0) as (s0 & E1 & I1).
  { apply Forall_app in Fok. apply Fok. } { intros f h' c' i z b If. apply Ag. apply in_or_app. left. exact If. }
  rewrite E0 in E1. injection E1 as <-. cbn [app] in I1. destruct (receive_inv size fs pre s I1 Fok Ag) as (s' & E & _).
  destruct (run_any h c p H C B L fs s s' [] (seq 0 (pieces p))) as (Hd & Er).
  - apply Forall_app in Fok. apply Fok.
  - exact E.
  - apply (mt_no h c p). apply Forall_forall. exact Np.
  - unfold pieces. intro K. apply (f_equal (@length nat)) in K. rewrite seq_length in K. cbn in K. lia.
  - exact Pm.
  - intro k. rewrite app_nil_r, in_seq. lia.
  - rewrite app_nil_r. apply seq_NoDup.
  - exists s', (delivered_item h c p). split; [exact E|]. split; [exact Er|]. split; [reflexivity|]. split; [reflexivity|].
    unfold have in Hd. apply (mt_no h c p) in Hd. rewrite Forall_forall in Hd. exact Hd.
Qed.
Definition ex_q : list Z := map Z.of_nat (seq 0 9).
Definition ex_h2 : xheader := mkH XRequest false 1 2 3.
Definition ex_f (i : nat) : xframe := fragment (identifier ex_h true) 0x30 ex_p i.
Definition ex_g (i : nat) : xframe := fragment (identifier ex_h2 true) 0x30 ex_q i.
Example C45_any_order_example :
  let fs := [ex_f 3; ex_g 1; ex_f 0; mkF (identifier ex_h false) [1; 2]; ex_f 2; ex_g 0; ex_f 1] in
  Permutation (filter (of_key ex_h 0x30) fs) (fragments (identifier ex_h true) 0x30 ex_p) /\ not_pending xp_init ex_h 0x30 /\
  option_map (fun s => map (fun x => (i_header x, i_payload x)) (x_received s)) (xp_receive xp_init fs) =
    Some [(ex_h, [Some 1; Some 2]); (ex_h2, map Some ex_q); (ex_h, map Some ex_p)].
Proof.
  cbv zeta. split; [|split; [intros x []|vm_compute; reflexivity]].
  change (Permutation ([ex_f 3; ex_f 0; ex_f 2; ex_f 1]) (map ex_f [0; 1; 2; 3]%nat)). cbn [map].
  eapply Permutation_trans; [apply perm_swap|]. apply perm_skip. eapply Permutation_trans; [|apply (Permutation_cons_append [ex_f 1; ex_f 2] (ex_f 3))]. apply perm_skip. apply perm_swap.
Qed.
Print Assumptions C45_any_order.

(* Both together: a packet of 9 to 48 bytes given to sendPacket of an idle connector is delivered by every receiver, in whatever order the frames arrive. *)
Theorem C45_round_trip size pre s h p c answers perm : let out := fst (xp_sendPacket true true (mkXO [] c) h p) in
  header_ok h -> counter_ok c -> Forall byte p -> 9 <= zlen p <= 48 -> Forall (fun a => fst a = true) answers -> zlen p <= zlen (filter (fun a : bool * bool => snd a) answers) ->
  exists s1 sent, xp_send_run out answers = Some (s1, sent) /\ (Permutation sent perm ->
    Forall frame_ok (pre ++ perm) -> agree size (pre ++ perm) -> xp_receive xp_init pre = Some s -> not_pending s h c ->
    exists s' x, xp_receive s perm = Some s' /\ filter (from_key h c) (x_received s') = filter (from_key h c) (x_received s) ++ [x] /\
      i_header x = h /\ i_payload x = map Some p).
Proof.
  cbv zeta. intros H C B L Con En. unfold xp_sendPacket. assert ((8 <? zlen p) = true) as -> by lia. cbn [negb andb fst x_list x_counter app].
  assert (Forall sending [mkSI (convertToIdentifier h true) p 0]) as Q.
  { apply Forall_cons; [|apply Forall_nil]. unfold sending. cbn [s_payload s_index]. split; [lia|]. assert ((zlen p <=? 8) = false) as -> by lia. unfold pieces. lia. }
  destruct (C45_send (mkXO [mkSI (convertToIdentifier h true) p 0] c) answers Q C Con) as (s1 & sent & E & F & Lz). exists s1, sent. split; [exact E|].
  intros Pm Fok Ag E0 Np. cbn [x_list x_counter queue_frames s_payload s_index s_id] in F, Lz. assert ((zlen p <=? 8) = false) as K by lia. rewrite K in F, Lz. cbn [Z.to_nat skipn] in F, Lz. rewrite app_nil_r in F, Lz.
  assert (zlen (fragments (convertToIdentifier h true) c p) <= zlen p) as Lf. { unfold fragments, zlen, pieces. rewrite map_length, seq_length. unfold zlen in *. lia. }
  assert (sent = fragments (convertToIdentifier h true) c p) as Es.
  { assert (zlen (queue_frames (x_counter s1) (x_list s1)) = 0) as Z0. { apply (f_equal zlen) in F. rewrite zlen_app in F. lia. }
    rewrite F. destruct (queue_frames (x_counter s1) (x_list s1)) as [|y l]; [symmetry; apply app_nil_r|rewrite zlen_cons in Z0; pose proof (zlen_nonneg l); lia]. }
  rewrite Es, convert_ok in Pm by exact H.
  destruct (C45_any_order size pre perm s h c p Fok Ag E0 H C B ltac:(lia) Np) as (s' & x & E' & R & Eh & Ep & _); [|exists s', x; split; [exact E'|]; split; [exact R|]; split; assumption].
  apply Permutation_sym. eapply Permutation_trans; [exact Pm|]. assert (filter (of_key h c) perm = perm) as ->; [|apply Permutation_refl].
  assert (forall f, In f perm -> of_key h c f = true) as Al.
  { intros f If. apply (Permutation_in _ (Permutation_sym Pm)) in If. unfold fragments in If. apply in_map_iff in If. destruct If as (i & <- & Ii). apply in_seq in Ii.
    destruct (frag_ok h c p H C B ltac:(lia) i ltac:(lia)) as [_ Sy]. unfold of_key. unfold says in Sy. rewrite Sy, !Z.eqb_refl. reflexivity. }
  clear - Al. induction perm as [|f l IH]; cbn [filter]; [reflexivity|]. rewrite (Al f) by (left; reflexivity). f_equal. apply IH. intros g G. apply Al. right. exact G.
Qed.
Example C45_round_trip_example : exists s1 sent s', xp_send_run ex_out (repeat (true, true) 20) = Some (s1, sent) /\ xp_receive xp_init (rev sent) = Some s' /\ map i_payload (x_received s') = [map Some ex_p].
Proof. do 3 eexists. split; [vm_compute; reflexivity|]. split; [vm_compute; reflexivity|]. reflexivity. Qed.
Print Assumptions C45_round_trip.

(* Payloads of up to 8 bytes: one frame, sent at once or by the next update(), and delivered by every receiver in whatever state. *)
Theorem C45_short ready ok c h p t : header_ok h -> Forall byte p -> zlen p <= 8 ->
  exists f, (xp_sendPacket ready ok (mkXO [] c) h p = (mkXO [] c, [f]) \/
             exists m, xp_sendPacket ready ok (mkXO [] c) h p = (mkXO [m] c, []) /\ xp_sendWaiting true true (mkXO [m] c) = Some (mkXO [] c, [f])) /\
    exists x, xp_retrieve t f = Some (mkXI (x_pending t) (x_received t ++ [x]), true) /\ i_header x = h /\ i_payload x = map Some p.
Proof.
  intros H B L. exists (mkF (identifier h false) p). split.
  - unfold xp_sendPacket. assert ((8 <? zlen p) = false) as -> by lia. rewrite convert_ok by exact H. cbn [negb andb]. destruct (ready && ok); [left; reflexivity|right].
    eexists. split; [reflexivity|]. unfold xp_sendWaiting. cbn [x_list x_counter negb s_payload s_index s_id]. pose proof (zlen_nonneg p). assert (u8 (zlen p) = zlen p) as -> by (unfold u8; apply Z.mod_small; lia).
    assert ((8 <? zlen p) = false) as -> by lia. rewrite zsub_all. reflexivity.
  - pose proof (identifier_range h false H). destruct (head_identifier h false H) as [E1 E2]. rewrite retrieve_ok.
    + cbn [f_id f_data]. rewrite E1, E2. eexists. split; [reflexivity|]. split; reflexivity.
    + split; [cbn [f_id]; lia|]. split; [exact L|exact B].
Qed.
Example C45_short_example : header_ok ex_h /\ Forall byte [1; 2] /\ xp_sendPacket true true (mkXO [] 0) ex_h [1; 2] = (mkXO [] 0, [mkF 0x1412fe80 [1; 2]]).
Proof. split; [unfold header_ok, byte, ex_h; cbn; lia|]. split; [unfold byte; apply Forall_cons; [lia|]; apply Forall_cons; [lia|]; apply Forall_nil|reflexivity]. Qed.
Print Assumptions C45_short.

(* Payloads of 49 bytes and more are accepted by sendPacket, but no receiver accepts any of their fragments. *)
Theorem C45_long_payload_lost id p i c r ok s1 sent f t : frag_of id = true -> 0 <= id < 2 ^ 32 -> 49 <= zlen p <= 255 -> 0 <= 6 * i < zlen p -> 0 <= c < 256 ->
  Forall byte p -> xp_sendWaiting true ok (mkXO (mkSI id p i :: r) c) = Some (s1, sent) -> In f sent -> xp_retrieve t f = Some (t, false).
Proof.
  intros G Id L I C B E If. unfold xp_sendWaiting in E. cbn [x_list x_counter negb s_payload s_index s_id] in E. assert (u8 (zlen p) = zlen p) as Eu by (unfold u8; apply Z.mod_small; lia). rewrite Eu in E.
  assert ((8 <? zlen p) = true) as K by lia. rewrite K in E. destruct (zsub p _ _) as [ch|] eqn:Ch; [|discriminate]. cbn [obind] in E. destruct ok; [|injection E as _ <-; destruct If].
  injection E as _ <-. destruct If as [<-|[]]. unfold xp_retrieve. cbn [f_id f_data app]. rewrite header_conv by lia. rewrite G. cbn [negb]. assert ((48 <? zlen p) = true) as -> by lia. rewrite orb_true_r. reflexivity.
Qed.
Example C45_long_payload_example : exists s1 f, xp_sendWaiting true true (mkXO [mkSI (identifier ex_h true) (repeat 7 49) 0] 0) = Some (s1, [f]) /\ xp_retrieve xp_init f = Some (xp_init, false).
Proof. exists (mkXO [mkSI (identifier ex_h true) (repeat 7 49) 1] 0), (mkF (identifier ex_h true) (0 :: 49 :: repeat 7 6)). split; vm_compute; reflexivity. Qed.
Print Assumptions C45_long_payload_lost.
(* And of 300 bytes the first 44 are delivered as a complete packet. *)
Theorem C45_truncated_refuted : exists h p s1 sent s' x, header_ok h /\ zlen p = 300 /\
  xp_send_run (fst (xp_sendPacket true true (mkXO [] 0) h p)) (repeat (true, true) 8) = Some (s1, sent) /\ x_list s1 = [] /\
  xp_receive xp_init sent = Some s' /\ x_received s' = [x] /\ zlen (i_payload x) = 44.
Proof.
  exists ex_h, (repeat 7 300). do 4 eexists. split; [unfold header_ok, byte, ex_h; cbn; lia|]. split; [reflexivity|]. split; [vm_compute; reflexivity|]. split; [reflexivity|]. split; [vm_compute; reflexivity|]. split; reflexivity.
Qed.
Print Assumptions C45_truncated_refuted.

(* ------------------------------------------------------------------------------------------------------------------------- *)
(* C46: as long as the fragments of a packet (same header and counter) agree on its size, whatever frames arrive, nothing is written
   outside the buffers, and every byte of every delivered packet was received in a fragment of that packet. *)
Theorem C46_safe_partial size fs : Forall frame_ok fs -> agree size fs ->
  exists s, xp_receive xp_init fs = Some s /\
    forall x, In x (x_received s) ->
      (exists f, In f fs /\ frag_of (f_id f) = false /\ i_header x = head_of (f_id f) /\ i_payload x = map Some (f_data f)) \/ accounted fs x.
Proof.
  intros Fok Ag. assert (xinv size [] xp_init) as I0 by (split; apply Forall_nil).
  destruct (receive_inv size fs [] xp_init I0 Fok Ag) as (s & E & _ & R). exists s. split; [exact E|]. intros x X. rewrite Forall_forall in R. destruct (R x X) as [(_ & K)|(_ & K)]; [left|right]; exact K.
Qed.
Example C46_safe_example : let fs := [ex_f 3; ex_f 3; mkF (identifier ex_h true) [0x30; 99; 1]; ex_g 1; ex_f 0; ex_f 2] in
  Forall frame_ok fs /\ agree (fun h _ => if header_eqb h ex_h then 20 else 9) fs /\ exists s, xp_receive xp_init fs = Some s /\ length (x_pending s) = 2%nat.
Proof.
  cbv zeta. split; [|split; [|eexists; split; [vm_compute; reflexivity|reflexivity]]].
  - assert (forall f, (0 <=? f_id f) && (f_id f <? 2 ^ 32) && (zlen (f_data f) <=? 8) && forallb (fun x => (0 <=? x) && (x <? 256)) (f_data f) = true -> frame_ok f) as K.
    { intros f H. apply andb_prop in H. destruct H as [H H4]. split; [lia|]. split; [lia|]. apply Forall_forall. intros y Y. rewrite forallb_forall in H4. specialize (H4 y Y). unfold byte. lia. }
    apply Forall_forall. intros f If. apply K. revert f If. apply Forall_forall. repeat (apply Forall_cons; [vm_compute; reflexivity|]). apply Forall_nil.
  - intros f h c i z b If. unfold says. cbn [In] in If. destruct If as [<-|[<-|[<-|[<-|[<-|[<-|[]]]]]]]; intro H; vm_compute in H; try discriminate; injection H as <- <- <- <- <-; reflexivity.
Qed.
Print Assumptions C46_safe_partial.

(* If they do not agree, memory behind the buffer is overwritten: for every unfinished packet, every further fragment that claims a larger size and reaches beyond the buffer. *)
Theorem C46_overflow_undefined s f h c i z b x a r : frame_ok f -> says f h c i z b -> xp_find (x_pending s) h c = Some (a, x, r) -> zlen (i_payload x) < 6 * i + zlen b -> xp_retrieve s f = None.
Proof.
  intros Fok Sy Fd L. rewrite retrieve_ok by exact Fok. destruct (fragment_facts _ _ _ _ _ _ Fok Sy) as (-> & _ & I & Iz & _ & Lb & _). unfold says in Sy. rewrite Sy. unfold place. rewrite Fd.
  assert (zwrite (i_payload x) (6 * i) (map Some b) = None) as ->; [|reflexivity].
  assert (forall vs l k, 0 <= k -> 0 < zlen vs -> zlen l < k + zlen vs -> @zwrite (option Z) l k vs = None) as W.
  { induction vs as [|v vs IH]; intros l k K P Q; [rewrite zlen_nil in P; lia|]. cbn [zwrite]. rewrite zlen_cons in *. destruct (zupd l k v) as [l'|] eqn:U; [|reflexivity]. cbn [obind].
    destruct (zupd_Some _ _ _ _ U) as (R & Ll & _). destruct vs as [|w vs]; [rewrite zlen_nil in *; lia|]. apply IH; [lia|rewrite zlen_cons; pose proof (zlen_nonneg vs); lia|lia]. }
  apply W; [lia|rewrite zlen_map; lia|rewrite zlen_map; exact L].
Qed.
Theorem C46_refuted : exists fs, Forall frame_ok fs /\ xp_receive xp_init fs = None.
Proof.
  exists [mkF (identifier ex_h2 true) [0; 7; 1; 2; 3; 4; 5; 6]; mkF (identifier ex_h2 true) [7; 48; 1; 2; 3; 4; 5; 6]]. split; [|vm_compute; reflexivity].
  unfold frame_ok, byte. repeat (apply Forall_cons; [cbn [f_id f_data]; split; [vm_compute; split; congruence|]; split; [vm_compute; congruence|]; repeat (apply Forall_cons; [lia|]); apply Forall_nil|]). apply Forall_nil.
Qed.
(* Or a packet is delivered of which most bytes were never received. *)
Theorem C46_incomplete_refuted : exists fs s x, Forall frame_ok fs /\ xp_receive xp_init fs = Some s /\ x_received s = [x] /\ zlen (i_payload x) = 48 /\ znth (i_payload x) 40 = Some None.
Proof.
  exists [mkF (identifier ex_h2 true) [0; 48; 1; 2; 3; 4; 5; 6]; mkF (identifier ex_h2 true) [1; 7; 1]]. do 2 eexists. split.
  - unfold frame_ok, byte. repeat (apply Forall_cons; [cbn [f_id f_data]; split; [vm_compute; split; congruence|]; split; [vm_compute; congruence|]; repeat (apply Forall_cons; [lia|]); apply Forall_nil|]). apply Forall_nil.
  - split; [vm_compute; reflexivity|]. split; [reflexivity|]. split; reflexivity.
Qed.
(* Even with correct senders: if the first fragment of a packet is lost, the first fragment of the packet sent 16 packets later (same header, same counter) completes it, and a mixture of both is delivered. *)
Theorem C46_mixture_refuted : exists h c p q fs s x, zlen p = zlen q /\ fs = tl (fragments (identifier h true) c p) ++ fragments (identifier h true) c q /\
  xp_receive xp_init fs = Some s /\ x_received s = [x] /\ i_payload x <> map Some p /\ i_payload x <> map Some q.
Proof.
  exists ex_h2, 0x30, ex_q, (repeat 77 9). do 3 eexists. split; [reflexivity|]. split; [reflexivity|]. split; [vm_compute; reflexivity|]. split; [reflexivity|]. split; discriminate.
Qed.
Example C46_overflow_example : exists s a x r b, xp_receive xp_init [mkF (identifier ex_h2 true) [0; 7; 1; 2; 3; 4; 5; 6]] = Some s /\ xp_find (x_pending s) ex_h2 0 = Some (a, x, r) /\
  says (mkF (identifier ex_h2 true) [7; 48; 1; 2; 3; 4; 5; 6]) ex_h2 0 7 48 b.
Proof. do 5 eexists. split; [vm_compute; reflexivity|]. split; vm_compute; reflexivity. Qed.
Print Assumptions C46_overflow_undefined.
Print Assumptions C46_refuted.
Print Assumptions C46_incomplete_refuted.
Print Assumptions C46_mixture_refuted.
