(* C36, C37: the framing of the second sensor actor bus *)
From Verif Require Import Base SliceLemmas CrcModel CrcSpec Sab2Model Sab2Spec Sab2Proofs.

(* the payload capacities for which the buffer size still fits in the index type *)
Definition supported (N : Z) : Prop := 0 <= N <= 251 \/ 255 <= N <= 65531.
Lemma supported_w N : supported N -> 0 <= N /\ N + 4 < 2 ^ sab2_w N.
Proof. intro H. unfold sab2_w. destruct (255 <=? N) eqn:E; cbn; unfold supported in H; lia. Qed.

(* C36. sendMessage writes the frame of the message ... *)
Theorem C36_sent_bytes_are_a_frame :
  forall N fast address response acknowledge command payload,
  supported N -> 0 <= address < 64 -> (acknowledge = true -> response = true) -> byte command -> Forall byte payload ->
  zlen payload <= N -> zlen payload < 2 ^ fast ->
  exists out, sab2_send N fast address (sab2_flags response acknowledge) command payload = Some out /\
    sab2_frame (sab2_header address response acknowledge) command payload out.
Proof. intros N fast a r k c p S Ha H Hc Fp L Lf. destruct (supported_w N S). apply z_send; try assumption; lia. Qed.
Print Assumptions C36_sent_bytes_are_a_frame.
(* a payload of control bytes *)
Example C36_frame_example :
  sab2_send 10 8 5 (sab2_flags true false) 0x7d [0x7e; 0x7d; 0x5e] = Some [0x7e; 0x85; 0x7d; 0x5d; 0x7d; 0x5e; 0x7d; 0x5d; 0x5e; 49; 2; 0x7e].
Proof. vm_compute. reflexivity. Qed.

(* ... and the frames of any messages, back to back, in any chunks, after any garbage (itself read in any chunks), are delivered
   in order, each once, with the contents sent. The garbage ends no later than the first boundary of the first frame, so at most one
   message in front comes from it, and none if nothing or a complete frame came before. *)
Theorem C36_round_trip :
  forall N garbage before messages frames chunks,
  supported N -> Forall (Forall byte) garbage -> Forall (sab2_msg N) messages -> Forall2 sab2_msg_frame messages frames ->
  Forall (Forall byte) chunks -> concat chunks = concat frames ->
  forall s, sab2_serve_chunks N (sab2_init N) garbage = Some (s, before) ->
  exists s' extra, sab2_serve_chunks N s chunks = Some (s', extra ++ messages) /\
    (length extra <= 1)%nat /\ (concat garbage = [] \/ last (concat garbage) 0 = 0x7e -> extra = []).
Proof.
  intros N garbage before messages frames chunks S Fg Fm Ff Fc Ec s G. destruct (supported_w N S) as [HN HW].
  rewrite (serve_chunks_poll N HN) in G; [|apply z_wf_init; exact HN|reflexivity|exact Fg].
  assert (Forall byte (concat garbage)) as Fg' by (apply Forall_concat; exact Fg).
  destruct (poll_wf N HN (concat garbage) (sab2_init N) (z_wf_init N HN) eq_refl Fg') as (s1 & m1 & P1 & W1 & A1).
  rewrite G in P1. injection P1 as <- <-.
  destruct (frames_poll N HN messages frames Ff Fm HW s W1 A1) as (s' & g & P & _ & _ & L & Fr).
  exists s', g. rewrite (serve_chunks_poll N HN) by assumption. rewrite Ec. split; [exact P|]. split; [exact L|].
  intro Q. apply Fr. revert G Q. generalize (concat garbage) as l, Fg'. intros l Fl G Q.
  destruct Q as [->|Q]; [cbn [poll] in G; injection G as <- _; repeat split|].
  destruct l as [|x l _] using rev_ind; [discriminate Q|]. rewrite last_last in Q. subst x. apply Forall_app in Fl. destruct Fl as [Fl _].
  rewrite poll_app in G. destruct (poll_wf N HN l (sab2_init N) (z_wf_init N HN) eq_refl Fl) as (s2 & m2 & P2 & W2 & A2).
  rewrite P2 in G. cbn [obind] in G. destruct (boundary N HN s2 W2 A2) as (s3 & B & _ & F3).
  destruct B as [B|[m B]]; rewrite B in G; cbn [obind] in G; injection G as <- _; exact F3.
Qed.
Print Assumptions C36_round_trip.
(* half a frame, then two frames in odd chunks *)
Example C36_round_trip_example :
  exists f1 f2 s s', sab2_send 4 8 5 (sab2_flags false false) 0x7d [0x7e; 0x7d; 0x5e] = Some f1 /\
    sab2_send 4 8 63 (sab2_flags true true) 1 [] = Some f2 /\
    sab2_serve_chunks 4 (sab2_init 4) [firstn 5 f1] = Some (s, []) /\
    sab2_serve_chunks 4 s [firstn 6 f1; skipn 6 f1 ++ firstn 1 f2; skipn 1 f2] =
      Some (s', [(5, false, false, 0x7d, [0x7e; 0x7d; 0x5e]); (63, true, true, 1, [])]).
Proof. do 4 eexists. do 3 (split; [vm_compute; reflexivity|]). vm_compute. reflexivity. Qed.

(* the capacities left out fail: with 252 payload bytes the 8 bit length wraps and the frame is lost *)
Theorem C36_capacity_252_refuted :
  exists payload out s, zlen payload = 252 /\ sab2_send 252 8 1 SAB2_REQUEST 2 payload = Some out /\
    sab2_frame (sab2_header 1 false false) 2 payload out /\
    sab2_serve_chunks 252 (sab2_init 252) [out] = Some (s, []).
Proof.
  exists (repeat 3 252).
  assert (match sab2_send 252 8 1 SAB2_REQUEST 2 (repeat 3 252) with
          | Some out => option_map snd (sab2_serve_chunks 252 (sab2_init 252) [out]) | None => None end = Some []) as V by (vm_compute; reflexivity).
  assert (zlen (repeat 3 252) = 252) as L by (vm_compute; reflexivity).
  assert (Forall byte (repeat 3 252)) as Fp by (apply Forall_forall; intros x I; apply repeat_spec in I; subst; unfold byte; lia).
  revert V L Fp. generalize (repeat 3 252) as p. intros p V L Fp.
  destruct (z_send 252 8 1 false false 2 p ltac:(lia) ltac:(discriminate) ltac:(unfold byte; lia) Fp) as (out & S & F); [rewrite L; reflexivity|rewrite L; reflexivity|].
  change (sab2_flags false false) with SAB2_REQUEST in S. rewrite S in V. exists out. revert V.
  generalize (sab2_serve_chunks 252 (sab2_init 252) [out]) as r. intros [[s ms]|] V; [|discriminate V]. cbn [option_map snd] in V. injection V as ->.
  exists s. split; [exact L|]. split; [exact S|]. split; [exact F|]. reflexivity.
Qed.
Print Assumptions C36_capacity_252_refuted.
(* where uint_fast8_t has 8 bits, sending 256 payload bytes never ends *)
Theorem C36_long_payload_refuted :
  exists N payload, supported N /\ zlen payload <= N /\ sab2_send N 8 1 SAB2_REQUEST 2 payload = None.
Proof. exists 300, (repeat 3 256). split; [unfold supported; lia|]. split; [vm_compute; congruence|vm_compute; reflexivity]. Qed.
Print Assumptions C36_long_payload_refuted.

(* C37. The receiver never leaves its buffer, whatever arrives in whatever chunks, for every capacity. *)
Theorem C37_never_out_of_bounds :
  forall N chunks, 0 <= N -> Forall (Forall byte) chunks -> exists s ms, sab2_serve_chunks N (sab2_init N) chunks = Some (s, ms).
Proof.
  intros N chunks HN F. rewrite (serve_chunks_poll N HN) by (try apply z_wf_init; try assumption; reflexivity).
  destruct (poll_wf N HN (concat chunks) (sab2_init N) (z_wf_init N HN) eq_refl) as (s & ms & P & _); [apply Forall_concat; exact F|]. eauto.
Qed.
Print Assumptions C37_never_out_of_bounds.
Theorem C37_update_stays_in_bounds :
  forall N s bytes, 0 <= N -> zlen (z_buf s) = N + 4 -> Forall byte (z_buf s) -> 0 <= z_len s <= N + 4 -> z_len s < 2 ^ sab2_w N ->
  z_avail s = 0 -> Forall byte bytes ->
  exists s' rest, sab2_update N s bytes = Some (s', rest) /\ zlen (z_buf s') = N + 4 /\ 0 <= z_len s' <= N + 4 /\
    (sab2_isMessageAvailable s' = true -> 4 <= z_avail s' <= N + 4 /\ 0 <= sab2_getPayloadLength N s' <= N) /\
    (sab2_isMessageAvailable s' = false -> rest = []).
Proof.
  intros N s bytes HN L F R R2 A Fb.
  assert (z_wf N s) as W by (unfold z_wf; rewrite A; pose proof (w_pos N); repeat split; try assumption; try lia).
  destruct (update_wf N HN bytes s W Fb) as (s' & rest & U & (W1 & W2 & W3 & W4 & W5 & W6) & _).
  exists s', rest. split; [exact U|]. split; [exact W1|]. split; [exact W3|]. unfold sab2_isMessageAvailable. split.
  - intro V. assert (4 <= z_avail s' <= N + 4) as V1 by lia. split; [exact V1|]. unfold sab2_getPayloadLength, wrap. rewrite Z.mod_small; lia.
  - intro V. assert (z_avail s' = 0) as V0 by lia. clear -U V0. revert s U. induction bytes as [|b r IH]; intros s U; cbn [sab2_update] in U.
    + destruct (z_avail s =? 0); congruence.
    + destruct (z_avail s =? 0) eqn:E; [|exfalso; assert (s = s') by congruence; subst; lia].
      destruct (sab2_byte N s b) as [s1|]; [|discriminate]. exact (IH s1 U).
Qed.
Print Assumptions C37_update_stays_in_bounds.
Example C37_bounds_example :
  option_map (fun r => (z_len (fst r), snd r)) (sab2_serve_chunks 1 (sab2_init 1) [repeat 7 5; [1]; repeat 9 4; [0x7e]; [0x7d; 2]]) = Some (1, []).
Proof. vm_compute. reflexivity. Qed.

(* An available message stays as it is, and later bytes stay in the device, until it is dropped. *)
Theorem C37_message_kept_until_dropped :
  forall N s bytes, sab2_isMessageAvailable s = true -> sab2_update N s bytes = Some (s, bytes).
Proof. intros N s bytes H. apply update_stops. unfold sab2_isMessageAvailable in H. lia. Qed.
Print Assumptions C37_message_kept_until_dropped.
Example C37_kept_example :
  exists s, sab2_update 2 (sab2_init 2) [0x7e; 1; 2; 129; 225; 0x7e; 0x7e; 4] = Some (s, [0x7e; 4]) /\ sab2_isMessageAvailable s = true.
Proof. eexists. split; vm_compute; reflexivity. Qed.

(* Every stream of bytes is a sequence of stretches each ended by a boundary, and a rest. What is delivered is, in order, the content
   of exactly those stretches that decode to a content with a matching checksum. Missing for the full claim: contents of more than
   N + 4 bytes, see below. *)
Theorem C37_delivers_exactly_partial :
  forall N chunks, supported N -> Forall (Forall byte) chunks ->
  exists stretches tail s messages,
    concat chunks = flat_map (fun g => g ++ [0x7e]) stretches ++ tail /\ ~ In 0x7e tail /\ Forall (fun g => ~ In 0x7e g) stretches /\
    sab2_serve_chunks N (sab2_init N) chunks =
      Some (s, map (fun m => match m with (h, c, p) => (Z.land h 0x3f, Z.testbit h 7, Z.testbit h 6, c, p) end) messages) /\
    sab2_reports N stretches messages.
Proof.
  intros N chunks S F. destruct (supported_w N S) as [HN HW]. rewrite (serve_chunks_poll N HN) by (try apply z_wf_init; try assumption; reflexivity).
  destruct (segs_exist (concat chunks)) as (segs & tail & E & F1 & N1 & N2 & F2); [apply Forall_concat; exact F|].
  destruct (stream_reports N HN segs (sab2_init N) (z_wf_init N HN) ltac:(repeat split) HW F1 N1) as (s1 & ms & P & W & Fr & R).
  destruct (run_quiet N HN tail s1 W ltac:(apply Fr) F2 N2) as (s2 & P2 & _).
  exists segs, tail, s2, ms. split; [exact E|]. split; [exact N2|]. split; [exact N1|]. split; [|exact R].
  rewrite E, poll_app, P. cbn [obind]. rewrite P2. cbn [obind]. rewrite app_nil_r. do 2 f_equal. apply map_ext. intros [[h c] p]. reflexivity.
Qed.
Print Assumptions C37_delivers_exactly_partial.
(* a valid stretch, one with a wrong checksum, one that ends within an escape sequence, an empty one, another valid one *)
Example C37_exactly_example :
  option_map snd (sab2_serve_chunks 2 (sab2_init 2) [[1; 2; 129; 225; 0x7e]; [1; 2; 129; 224; 0x7e]; [1; 2; 129; 225; 0x7d]; [0x7e; 0x7e; 1]; [2; 129; 225; 0x7e; 3]])
    = Some [(1, false, false, 2, []); (1, false, false, 2, [])].
Proof. vm_compute. reflexivity. Qed.

(* Over-long contents are not always discarded: the length is reset but not the checksum register, so the end of a long content can
   be delivered as a message although its own checksum is wrong. *)
Theorem C37_overlong_refuted :
  exists N content s h c p, supported N /\ Forall byte content /\ ~ In 0x7e content /\ N + 4 < zlen content /\
    sab2_serve_chunks N (sab2_init N) [[0x7e] ++ content ++ [0x7e]] = Some (s, [(h, false, false, c, p)]) /\
    exists k, content = firstn k content ++ h :: c :: p ++ [0xba; 0xdd] /\ ~ sab2_content h c p (h :: c :: p ++ [0xba; 0xdd]).
Proof.
  exists 0, ([1; 2; 3; 4; 9] ++ [5; 6; 0xba; 0xdd]). do 4 eexists.
  split; [unfold supported; lia|]. split; [repeat (apply Forall_cons; [unfold byte; lia|]); apply Forall_nil|].
  split; [cbn; lia|]. split; [reflexivity|]. split; [vm_compute; reflexivity|]. exists 5%nat. split; [reflexivity|].
  intro V. assert (Forall byte [5; 6; 0xba; 0xdd]) as F by (repeat (apply Forall_cons; [unfold byte; lia|]); apply Forall_nil).
  destruct (proj1 (content_valid _ F)) as [_ K]; [eauto|]. vm_compute in K. discriminate.
Qed.
Print Assumptions C37_overlong_refuted.
