(* C33, C34, C35, C62: the sensor actor bus *)
From Verif Require Import Base SliceLemmas CrcModel CrcSpec TimeoutModel SabModel SabSpec SabProofs.

Local Ltac checksum := apply sab_checksum_iff;
  [repeat (apply Forall_cons; [vm_compute; split; congruence|]); apply Forall_nil|vm_compute; split; congruence|vm_compute; reflexivity].

(* C33. What sendMessage writes is a frame of the wire format ... *)
Theorem C33_sent_bytes_are_a_frame :
  forall address response acknowledge command payload,
  0 <= address < 64 -> (acknowledge = true -> response = true) -> zlen payload < 256 -> byte command -> Forall byte payload ->
  exists out, sab_send address (flags_of response acknowledge) command payload (zlen payload) = Some out /\
    sab_frame (sab_header address response acknowledge) command payload out.
Proof. exact send_frame. Qed.
Print Assumptions C33_sent_bytes_are_a_frame.

(* ... and a receiver in SYNC state, whatever else its state, makes exactly that message available. *)
Theorem C33_round_trip :
  forall s address response acknowledge command payload out,
  s_state s = SYNC -> zlen (s_buf s) = 35 ->
  0 <= address < 64 -> (acknowledge = true -> response = true) -> zlen payload <= 32 -> byte command -> Forall byte payload ->
  sab_send address (flags_of response acknowledge) command payload (zlen payload) = Some out ->
  exists s', sab_update s out = Some s' /\ s_state s' = SYNC /\ sab_isMessageAvailable s' = true /\
    sab_getPayloadLength s' = zlen payload /\
    sab_getAddress s' = Some address /\ sab_isResponse s' = Some response /\ sab_isAcknowledge s' = Some acknowledge /\
    sab_getCommand s' = Some command /\ sab_getPayload s' (zlen payload) = Some payload.
Proof.
  intros s a r k c p out E L Ha H Hp Hc Fp S.
  destruct (send_frame a r k c p Ha H ltac:(lia) Hc Fp) as (out' & S' & F). rewrite S in S'. injection S' as <-.
  destruct (frame_received s [] a r k c p out (conj E L) Ha Hc Fp Hp ltac:(intros []) F) as (s' & U & I & A & G & _ & D & _).
  exists s'. split; [exact U|]. split; [apply I|]. split; [exact A|]. split; [exact G|].
  destruct (accessors s' _ c p D) as (-> & -> & -> & -> & ->). destruct (header_fields a r k Ha) as (-> & -> & ->). tauto.
Qed.
Print Assumptions C33_round_trip.
(* a payload that contains the sync byte *)
Example C33_example :
  exists out, sab_send 5 ACK 0x41 [0x54; 0x20; 0x54] 3 = Some out /\ out = [0x54; 3; 0xc5; 0x41; 0x54; 0x20; 0x54; 88] /\
    option_map sab_read (sab_update sab_init out) = Some (Some (5, true, true, 0x41, [0x54; 0x20; 0x54])).
Proof. eexists. split; [vm_compute; reflexivity|]. split; vm_compute; reflexivity. Qed.

(* C33 needs both bounds: address 64 arrives as address 0 with the acknowledge flag set, and a payload of 33 bytes is sent but
   never received. *)
Theorem C33_large_address_refuted :
  exists address command payload out s', byte address /\ sab_send address REQUEST command payload (zlen payload) = Some out /\
    sab_update sab_init out = Some s' /\ sab_isMessageAvailable s' = true /\ sab_getAddress s' <> Some address.
Proof. exists 64, 1, [2]. do 2 eexists. split; [unfold byte; lia|]. split; [vm_compute; reflexivity|]. split; [vm_compute; reflexivity|]. split; vm_compute; congruence. Qed.
Print Assumptions C33_large_address_refuted.
Theorem C33_large_payload_refuted :
  exists payload out s', zlen payload = 33 /\ sab_send 1 REQUEST 1 payload (zlen payload) = Some out /\
    sab_update sab_init out = Some s' /\ sab_isMessageAvailable s' = false.
Proof. exists (repeat 0 33). do 2 eexists. split; [reflexivity|]. split; [vm_compute; reflexivity|]. split; vm_compute; reflexivity. Qed.
Print Assumptions C33_large_payload_refuted.

(* C34. Whatever bytes arrive in whatever chunks, and wherever the user drops messages, the receiver never leaves its buffer. *)
Theorem C34_never_out_of_bounds :
  forall chunks, Forall (fun c => Forall byte (fst c)) chunks -> exists s', sab_session sab_init chunks = Some s'.
Proof. intros chunks F. destruct (session_wf chunks sab_init sab_wf_init F) as (s' & E & _). eauto. Qed.
Print Assumptions C34_never_out_of_bounds.
(* the longest frame fills the buffer to the last cell *)
Example C34_full_buffer_example :
  option_map (fun s => (zlen (s_buf s), s_pos s)) (sab_session sab_init [([0x54; 32] ++ repeat 255 35, true); ([0x54; 33], false)]) = Some (35, 35).
Proof. vm_compute. reflexivity. Qed.

(* C34. The state after a stream does not depend on how it was divided into update() calls. *)
Theorem C34_chunking_is_irrelevant :
  forall s chunks1 chunks2, Forall (fun c => snd c = false) chunks1 -> Forall (fun c => snd c = false) chunks2 ->
  concat (map fst chunks1) = concat (map fst chunks2) -> sab_session s chunks1 = sab_session s chunks2.
Proof. intros s c1 c2 F1 F2 E. rewrite !session_concat by assumption. rewrite E. reflexivity. Qed.
Print Assumptions C34_chunking_is_irrelevant.
Example C34_chunking_example :
  option_map sab_read (sab_session sab_init [([0x54; 0], false); ([], false); ([1; 2], false); ([120], false)]) = Some (Some (1, false, false, 2, [])).
Proof. vm_compute. reflexivity. Qed.

(* C34. A user who looks after every byte sees exactly the frames with correct checksum into which the stream divides, in
   order, and nothing else. The division is unique and covers all but an unfinished frame at the end. *)
Theorem C34_reports_exactly_the_valid_frames :
  forall bytes, Forall byte bytes ->
  exists complete tail ms s', bytes = complete ++ tail /\ sab_parse complete ms /\ sab_incomplete tail /\
    (forall ms', sab_parse complete ms' -> ms' = ms) /\
    sab_poll sab_init bytes = Some (s', map (fun m => (Z.land (fst (fst m)) 0x3f, Z.testbit (fst (fst m)) 7, Z.testbit (fst (fst m)) 6,
                                                       snd (fst m), snd m)) ms).
Proof.
  intros bytes F. destruct (poll_total sab_init bytes (conj eq_refl eq_refl) eq_refl F) as (a & t & ms & s' & E & P & T & R).
  exists a, t, ms, s'. split; [exact E|]. split; [exact P|]. split; [exact T|]. split; [|exact R].
  intros ms' P'. symmetry. exact (parse_det a ms P ms' P').
Qed.
Print Assumptions C34_reports_exactly_the_valid_frames.
(* garbage, a frame with a wrong checksum, an impossible length, a good frame and the start of another *)
Example C34_example :
  option_map snd (sab_poll sab_init ([1; 2] ++ [0x54; 1; 5; 6; 7; 0] ++ [0x54; 200] ++ [0x54; 3; 0xc5; 0x41; 0x54; 0x20; 0x54; 88] ++ [0x54; 2; 9]))
  = Some [(5, true, true, 0x41, [0x54; 0x20; 0x54])].
Proof. vm_compute. reflexivity. Qed.

(* C34. An intact frame after garbage without a sync byte is received. *)
Theorem C34_intact_frame_after_garbage :
  forall s garbage address response acknowledge command payload frame,
  s_state s = SYNC -> zlen (s_buf s) = 35 -> ~ In 0x54 garbage ->
  0 <= address < 64 -> byte command -> Forall byte payload -> zlen payload <= 32 ->
  sab_frame (sab_header address response acknowledge) command payload frame ->
  exists s', sab_update s (garbage ++ frame) = Some s' /\ sab_isMessageAvailable s' = true /\
    sab_read s' = Some (address, response, acknowledge, command, payload).
Proof.
  intros s g a r k c p f E L N Ha Hc Fp Hp F.
  destruct (frame_received s g a r k c p f (conj E L) Ha Hc Fp Hp N F) as (s' & U & _ & A & _ & _ & _ & R). eauto.
Qed.
Print Assumptions C34_intact_frame_after_garbage.
Example C34_garbage_example :
  ~ In 0x54 [0xff; 0x00; 0x53] /\
  option_map sab_read (sab_update sab_init ([0xff; 0x00; 0x53] ++ [0x54; 1; 0x02; 0x10; 0x99; fold_left sab_crcUpdate [1; 0x02; 0x10; 0x99] 0]))
   = Some (Some (2, false, false, 0x10, [0x99])).
Proof. split; [cbn; lia|vm_compute; reflexivity]. Qed.

(* C34. From any reachable state, 36 bytes that are not the sync byte bring the receiver back, so the next frame is received. *)
Theorem C34_recovers_after_36_other_bytes :
  forall chunks s quiet address response acknowledge command payload frame,
  Forall (fun c => Forall byte (fst c)) chunks -> sab_session sab_init chunks = Some s ->
  36 <= zlen quiet -> ~ In 0x54 quiet -> Forall byte quiet ->
  0 <= address < 64 -> byte command -> Forall byte payload -> zlen payload <= 32 ->
  sab_frame (sab_header address response acknowledge) command payload frame ->
  exists s', sab_update s (quiet ++ frame) = Some s' /\ sab_isMessageAvailable s' = true /\
    sab_read s' = Some (address, response, acknowledge, command, payload).
Proof.
  intros chunks s q a r k c p f Fc S Q N Fq Ha Hc Fp Hp F.
  destruct (session_wf chunks sab_init sab_wf_init Fc) as (s0 & S0 & W). rewrite S in S0. injection S0 as <-.
  destruct (silence_resync q s W Q N Fq) as (s1 & U1 & I1).
  destruct (frame_received s1 [] a r k c p f I1 Ha Hc Fp Hp ltac:(intros []) F) as (s' & U & _ & A & _ & _ & _ & R).
  exists s'. split; [rewrite sab_update_app, U1; exact U|]. tauto.
Qed.
Print Assumptions C34_recovers_after_36_other_bytes.
(* 35 are not enough: the receiver expects 35 more bytes after [0x54; 32], the length byte being the first of the 36 *)
Example C34_recovery_example :
  option_map s_state (sab_session sab_init [([0x54], false); (32 :: repeat 0 34, false)]) = Some DATA /\
  option_map s_state (sab_session sab_init [([0x54], false); (32 :: repeat 0 35, false)]) = Some SYNC.
Proof. split; vm_compute; reflexivity. Qed.

(* C34, part of "keeps a reported message unchanged until dropped": true as long as no sync byte arrives. *)
Theorem C34_message_kept_until_next_sync_partial :
  forall s bytes, s_state s = SYNC -> ~ In 0x54 bytes -> sab_update s bytes = Some s.
Proof. intros s bytes E N. exact (sab_garbage bytes s E N). Qed.
Print Assumptions C34_message_kept_until_next_sync_partial.
Example C34_kept_example : forall s, sab_update sab_init [0x54; 0; 1; 2; fold_left sab_crcUpdate [0; 1; 2] 0] = Some s ->
  s_state s = SYNC /\ sab_update s [0; 255; 3] = Some s /\ sab_read s = Some (1, false, false, 2, []).
Proof. intros s H. vm_compute in H. injection H as <-. repeat split. Qed.

(* C34 as stated is false: the bytes of the next frame overwrite a message that was not dropped yet. *)
Theorem C34_message_kept_until_dropped_refuted :
  exists frame more s s', Forall byte frame /\ Forall byte more /\ sab_update sab_init frame = Some s /\ sab_isMessageAvailable s = true /\
    sab_update s more = Some s' /\ sab_isMessageAvailable s' = true /\ sab_read s <> sab_read s'.
Proof.
  exists [0x54; 0; 1; 2; 120], [0x54; 5; 9]. do 2 eexists. split; [bytes|]. split; [bytes|].
  split; [vm_compute; reflexivity|]. split; [reflexivity|]. split; [vm_compute; reflexivity|]. split; [reflexivity|]. vm_compute. discriminate.
Qed.
Print Assumptions C34_message_kept_until_dropped_refuted.

(* A consequence: when one update() call sees a valid frame and the beginning of another, a slave executes the command in the
   unchecked beginning. Here only command 2 was ever requested with a valid checksum, but the callback of command 3 runs. *)
Theorem C34_unchecked_command_executed_refuted :
  exists bytes acts s out, Forall byte bytes /\
    (forall complete tail ms h c p, bytes = complete ++ tail -> sab_parse complete ms -> In (h, c, p) ms -> c <> 3) /\
    acts = [mkAction 2 0 (fun _ => [RSend [20]]); mkAction 3 0 (fun _ => [RSend [30]])] /\
    slave_update 1 acts sab_init bytes = Some (s, out) /\ sab_reply_frame 1 3 (Answer [30]) out.
Proof.
  exists [0x54; 0; 1; 2; 120; 0x54; 5; 1; 3]. do 3 eexists. split; [bytes|]. split.
  { intros complete tail ms h c p E P.
    destruct P as [|b r ms Hb P|n r ms Hn P|h' c' p' k r ms Hp K P|h' c' p' k r ms Hp K P]; cbn [app] in E.
    - intros [].
    - injection E as <- _. lia.
    - injection E as <- _. lia.
    - injection E as L <- <- E. destruct p' as [|x p']; [|rewrite zlen_cons in L; pose proof (zlen_nonneg p'); lia].
      cbn [app] in E. injection E as <- E. intros [X|X]; [injection X as <- <- <-; lia|].
      destruct P as [|b r ms Hb P|n r ms Hn P|h1 c1 p1 k r ms Hp1 K1 P|h1 c1 p1 k r ms Hp1 K1 P]; cbn [app] in E.
      + destruct X.
      + injection E as <- _. lia.
      + injection E as <- _. lia.
      + injection E as L1 _ _ E. apply (f_equal (@zlen Z)) in E. rewrite !zlen_app, !zlen_nil, zlen_cons in E.
        pose proof (zlen_nonneg p1). pose proof (zlen_nonneg (r ++ tail)). rewrite zlen_app in *. pose proof (zlen_nonneg r). pose proof (zlen_nonneg tail). lia.
      + injection E as L1 _ _ E. apply (f_equal (@zlen Z)) in E. rewrite !zlen_app, !zlen_nil, zlen_cons in E.
        pose proof (zlen_nonneg p1). pose proof (zlen_nonneg r). pose proof (zlen_nonneg tail). lia.
    - injection E as L <- <- E. destruct p' as [|x p']; [|rewrite zlen_cons in L; pose proof (zlen_nonneg p'); lia].
      cbn [app] in E. injection E as <- E. exfalso. apply K. checksum. }
  split; [reflexivity|]. split; [vm_compute; reflexivity|].
  eexists. split; [vm_compute; reflexivity|]. checksum.
Qed.
Print Assumptions C34_unchecked_command_executed_refuted.

(* C35. A request for this slave (after garbage without sync byte) is answered by exactly one frame, the one the action table
   demands: the callback's answer, or the error of an unknown command (1), a wrong payload length (2), a missing response (3). *)
Theorem C35_request_answered_exactly_once :
  forall own acts s garbage acknowledge command payload request outcome,
  s_state s = SYNC -> zlen (s_buf s) = 35 -> 0 <= own < 64 -> byte command -> Forall byte payload -> zlen payload <= 32 ->
  ~ In 0x54 garbage -> sab_frame (sab_header own false acknowledge) command payload request ->
  sab_expected a_command a_payloadLength react acts command payload outcome -> outcome_ok outcome ->
  exists s' out, slave_update own acts s (garbage ++ request) = Some (s', out) /\ sab_reply_frame own command outcome out /\
    s_state s' = SYNC /\ s_avail s' = 0.
Proof.
  intros own acts s g k c p req o E L Ho Hc Fp Hp N F X K.
  destruct (slave_answers own acts s g k c p req o (conj E L) Ho Hc Fp Hp N F X K) as (s' & out & U & G & I & A).
  exists s', out. split; [exact U|]. split; [exact G|]. split; [apply I|exact A].
Qed.
Print Assumptions C35_request_answered_exactly_once.

(* C35. The table always demands something when callbacks answer at most once. *)
Theorem C35_some_outcome_always_expected :
  forall acts command payload, (forall a q, In a acts -> (length (a_call a q) <= 1)%nat) ->
  exists o, sab_expected a_command a_payloadLength react acts command payload o.
Proof. exact expected_total. Qed.
Print Assumptions C35_some_outcome_always_expected.
Example C35_outcome_example : sab_expected a_command a_payloadLength react [mkAction 7 1 (fun p => [RSend p])] 7 [4] (Answer [4]).
Proof. apply (exp_answer _ _ _ _ _ _ [] (mkAction 7 1 (fun p => [RSend p])) []); try reflexivity. intros x []. Qed.

(* the four kinds of answer *)
Example C35_example :
  let acts := [mkAction 7 1 (fun p => [RSend (p ++ p)]); mkAction 8 0 (fun _ => []); mkAction 9 0 (fun _ => [RError 0x55]); mkAction 7 2 (fun _ => [RSend []])] in
  let ask c p := do r <- sab_send 3 REQUEST c p (zlen p); do (_, out) <- slave_update 3 acts sab_init r; do s <- sab_update sab_init out; sab_read s in
  ask 7 [0x54] = Some (3, true, true, 7, [0x54; 0x54]) /\ ask 8 [] = Some (3, true, false, 8, [ERROR_NO_RESPONSE]) /\
  ask 9 [] = Some (3, true, false, 9, [0x55]) /\ ask 7 [1; 2] = Some (3, true, false, 7, [ERROR_WRONG_PAYLOAD_LENGTH]) /\
  ask 10 [] = Some (3, true, false, 10, [ERROR_NO_ACTION]).
Proof. vm_compute. repeat split. Qed.

(* C35. Frames for other addresses and responses are ignored silently. *)
Theorem C35_others_ignored :
  forall own acts s garbage address response acknowledge command payload frame,
  s_state s = SYNC -> zlen (s_buf s) = 35 -> 0 <= address < 64 -> byte command -> Forall byte payload -> zlen payload <= 32 ->
  ~ In 0x54 garbage -> sab_frame (sab_header address response acknowledge) command payload frame ->
  address <> own \/ response = true ->
  exists s', slave_update own acts s (garbage ++ frame) = Some (s', []) /\ s_state s' = SYNC /\ s_avail s' = 0.
Proof.
  intros own acts s g a r k c p f E L Ha Hc Fp Hp N F X.
  destruct (slave_ignores own acts s g a r k c p f (conj E L) Ha Hc Fp Hp N F X) as (s' & U & I & A). exists s'. split; [exact U|]. split; [apply I|exact A].
Qed.
Print Assumptions C35_others_ignored.
Example C35_ignored_example :
  let acts := [mkAction 7 0 (fun p => [RSend []])] in
  let ask a f := do r <- sab_send a f 7 [] 0; do (_, out) <- slave_update 3 acts sab_init r; Some out in
  ask 4 REQUEST = Some [] /\ ask 3 ACK = Some [] /\ ask 3 REQUEST <> Some [].
Proof. vm_compute. repeat split. discriminate. Qed.

(* C35. Whatever bytes arrive, one update() sends nothing or one reply frame, and consumes the message. *)
Theorem C35_at_most_one_reply_per_update :
  forall own acts chunks s bytes,
  Forall (fun c => Forall byte (fst c)) chunks -> sab_session sab_init chunks = Some s ->
  Forall byte bytes -> 0 <= own < 64 ->
  (forall a p, In a acts -> (length (a_call a p) <= 1)%nat) ->
  (forall a p o, In a acts -> Forall byte p -> In o (react a p) -> outcome_ok o) ->
  exists s' out, slave_update own acts s bytes = Some (s', out) /\ s_avail s' = 0 /\
    (out = [] \/ exists command outcome, sab_reply_frame own command outcome out).
Proof.
  intros own acts chunks s bytes Fc S F Ho One Ok. pose proof (session_bytes chunks sab_init s buf_bytes_init Fc S) as B.
  destruct (session_wf chunks sab_init sab_wf_init Fc) as (s0 & S0 & W). rewrite S in S0. injection S0 as <-.
  destruct (slave_at_most_one own acts s bytes W B F Ho One Ok) as (s' & out & U & _ & _ & A & R). eauto 6.
Qed.
Print Assumptions C35_at_most_one_reply_per_update.
(* three requests and half of a fourth in one call give one reply *)
Example C35_at_most_one_example :
  let r := [0x54; 0; 1; 2; 120] in
  option_map snd (slave_update 1 [mkAction 2 0 (fun _ => [RSend [9]])] sab_init (r ++ r ++ r ++ [0x54; 0])) =
  sab_send 1 ACK 2 [9] 1.
Proof. vm_compute. reflexivity. Qed.

(* C35 as stated is false when two requests are read by one update(): the first is never answered. *)
Theorem C35_two_requests_in_one_update_refuted :
  exists acts r1 r2 s out,
    sab_frame (sab_header 1 false false) 2 [] r1 /\ sab_frame (sab_header 1 false false) 3 [] r2 /\
    acts = [mkAction 2 0 (fun _ => [RSend []]); mkAction 3 0 (fun _ => [RSend []])] /\
    slave_update 1 acts sab_init (r1 ++ r2) = Some (s, out) /\ sab_reply_frame 1 3 (Answer []) out.
Proof.
  eexists. exists [0x54; 0; 1; 2; 120], [0x54; 0; 1; 3; fold_left sab_crcUpdate [0; 1; 3] 0]. do 2 eexists.
  split; [eexists; split; [reflexivity|]; checksum|].
  split; [eexists; split; [reflexivity|]; checksum|].
  split; [reflexivity|]. split; [vm_compute; reflexivity|].
  eexists. split; [vm_compute; reflexivity|]. checksum.
Qed.
Print Assumptions C35_two_requests_in_one_update_refuted.

(* C62. A query and its answer: the master ends in the state and with the data the slave's action table demands, no matter
   whether it first receives its own request (a half duplex bus echoes it). *)
Theorem C62_query_reaches_slave_and_back :
  forall m slave T T1 T2 own acts command payload responseLength outcome,
  s_state (m_if m) = SYNC -> zlen (s_buf (m_if m)) = 35 -> s_state slave = SYNC -> zlen (s_buf slave) = 35 ->
  0 <= own < 64 -> byte command -> Forall byte payload -> zlen payload <= 32 ->
  sab_expected a_command a_payloadLength react acts command payload outcome -> outcome_ok outcome -> outcome_short outcome ->
  exists m1 request slave' response m2 m3 m4,
    master_query m T own command payload responseLength = Some (m1, request) /\
    slave_update own acts slave request = Some (slave', response) /\
    master_update m1 T1 response = Some m2 /\ outcome_status responseLength outcome (m_status m2) /\ outcome_data m2 outcome /\
    master_update m1 T1 request = Some m3 /\ m_status m3 = IN_PROGRESS /\
    master_update m3 T2 response = Some m4 /\ outcome_status responseLength outcome (m_status m4) /\ outcome_data m4 outcome.
Proof. intros m sl T T1 T2 own acts c p n o E1 L1 E2 L2. exact (transaction m sl T T1 T2 own acts c p n o (conj E1 L1) (conj E2 L2)). Qed.
Print Assumptions C62_query_reaches_slave_and_back.
Example C62_example :
  let acts := [mkAction 7 1 (fun p => [RSend (p ++ p)])] in
  let m := mkMaster sab_init ERROR_TIMEOUT 0 t_default in
  (do (m1, req) <- master_query m 100 3 7 [0xaa] 2; do (_, resp) <- slave_update 3 acts sab_init req;
   do m2 <- master_update m1 103 (req ++ resp); do p <- master_getResponse m2 2; Some (master_isSuccess m2, p)) = Some (true, [0xaa; 0xaa]).
Proof. vm_compute. reflexivity. Qed.

(* C62. Without a response the query fails after 10 ms and not earlier (polled within the range of the 16 bit timer). *)
Theorem C62_no_response_times_out :
  forall m T0 T address command payload responseLength m1 request garbage,
  s_state (m_if m) = SYNC -> zlen (s_buf (m_if m)) = 35 -> 0 <= address < 64 -> byte command -> Forall byte payload -> zlen payload < 256 ->
  master_query m T0 address command payload responseLength = Some (m1, request) -> ~ In 0x54 garbage -> 0 <= T - T0 < 65536 ->
  exists m2, master_update m1 T garbage = Some m2 /\ m_status m2 = (if 10 <=? T - T0 then ERROR_TIMEOUT else IN_PROGRESS).
Proof.
  intros m T0 T a c p n m1 req g E L Ha Hc Fp Hp Q N H.
  destruct (query_spec m T0 a c p n Ha Hc Fp Hp) as (m1' & req' & Q' & _ & S & _ & I & R). rewrite Q in Q'. injection Q' as <- <-.
  apply (master_silence m1 T0 T g); try assumption; [rewrite I; split; assumption|rewrite I; reflexivity|eauto].
Qed.
Print Assumptions C62_no_response_times_out.
Example C62_timeout_example :
  let m := mkMaster sab_init SUCCESS 0 t_default in
  (do (m1, _) <- master_query m 65530 3 7 [] 0; do m2 <- master_update m1 65539 [1]; do m3 <- master_update m2 65540 []; Some (m_status m2, m_status m3))
  = Some (IN_PROGRESS, ERROR_TIMEOUT).
Proof. vm_compute. reflexivity. Qed.

(* C62: the response is not matched to the query: an acknowledge of another slave to another command completes it. *)
Theorem C62_foreign_response_accepted_refuted :
  exists m1 request frame m2, master_query (mkMaster sab_init ERROR_TIMEOUT 0 t_default) 0 3 7 [] 1 = Some (m1, request) /\
    sab_frame (sab_header 9 true true) 8 [42] frame /\ master_update m1 1 frame = Some m2 /\ master_isSuccess m2 = true /\ master_getResponse m2 1 = Some [42].
Proof.
  do 2 eexists. exists [0x54; 1; 0xc9; 8; 42; fold_left sab_crcUpdate [1; 0xc9; 8; 42] 0]. eexists. split; [vm_compute; reflexivity|].
  split; [eexists; split; [reflexivity|]; checksum|].
  split; [vm_compute; reflexivity|]. split; vm_compute; reflexivity.
Qed.
Print Assumptions C62_foreign_response_accepted_refuted.
