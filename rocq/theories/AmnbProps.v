(* C38-C41: AMNB, the asynchronous multi-node bus *)
From Verif Require Import Base SliceLemmas PtrHeap CrcModel CrcSpec AmnbModel AmnbSpec AmnbProofs AmnbNodeProofs.

(* an allocator, contents of fresh blocks and a node for the examples *)
Definition ex_alloc (h : amnb_heap) (_ : Z) : Z :=
  let p := 4096 + 300 * Z.of_nat (length h) in
  if (p <? 2 ^ 32) && forallb (fun k => negb (k =? p)) (keys h) then p else 0.
Definition ex_fill (n : Z) : list Z := repeat 0xEE (Z.to_nat n).
Definition ex_node : node := mkNode [] (repeat 0 32) (repeat 0 32) false false [] [].
Example ex_alloc_ok : amnb_allocator ex_alloc.
Proof.
  intros h n. unfold ex_alloc. set (p := 4096 + 300 * Z.of_nat (length h)).
  destruct (p <? 2 ^ 32) eqn:E; cbn [andb]; [|split; [lia|congruence]].
  destruct (forallb (fun k => negb (k =? p)) (keys h)) eqn:F; [|split; [lia|congruence]]. split; [lia|]. intros _ I.
  rewrite forallb_forall in F. specialize (F p I). lia.
Qed.
Example ex_fill_ok : amnb_content ex_fill.
Proof.
  intros n N. unfold ex_fill. split; [unfold zlen; rewrite repeat_length; lia|]. apply Forall_forall. intros x I. apply repeat_spec in I. subst. unfold byte. lia.
Qed.
Example ex_zero_object : object (repeat 0 32).
Proof. split; [reflexivity|]. apply Forall_forall. intros x I. apply repeat_spec in I. subst. unfold byte. lia. Qed.
Example ex_node_owned : owned ex_node /\ no_leftover (n_rx ex_node).
Proof.
  assert (forall p, ~ holds (repeat 0 32) p) as H by (intros p (L & _); discriminate L).
  split; [|intros _; reflexivity]. unfold owned, own, ex_node. cbn [n_heap n_rx n_req keys map].
  split; [exact ex_zero_object|]. split; [exact ex_zero_object|]. split; [constructor|].
  split; [intro p; split; [intros []|intros [X|X]; destruct (H _ X)]|].
  split; [intros p [X _]; exact (H _ X)|]. split; intros p X; destruct (H _ X).
Qed.

(* ------------------------------------------------------------------------------------------------------------------------- *)
(* C38 for payloads up to 255 bytes, with a receiver whose message object holds no leftover pointer: transmit puts the frame of
   the message on the wire, and from it receiveHeader and receiveData restore type, address, command and payload, leaving what
   follows unread. The full claim, payloads up to 8192 bytes, is false: see C38_round_trip_refuted. *)
Theorem C38_round_trip_partial MaxHeap alloc1 alloc2 fill1 fill2 h1 h2 junk rx a c t p :
  amnb_allocator alloc1 -> amnb_allocator alloc2 -> amnb_content fill1 -> amnb_content fill2 ->
  amnb_type t -> byte a -> byte c -> Forall byte p -> zlen p < 256 ->
  zlen junk = 20 -> Forall byte junk -> object rx -> m_ptr rx = 0 ->
  (28 < zlen p -> alloc1 h1 (zlen p + 4) <> 0 /\ alloc2 h2 (zlen p + 4) <> 0 /\ zlen p <= MaxHeap) ->
  exists h1' m wire, n_compose alloc1 fill1 h1 junk a c t p = Some (Some (h1', m)) /\
    a_transmit false (fun _ => true) h1' m = Some (IOk, wire) /\
    forall r, exists m1 r1 h2' m2, a_receiveHeader false rx (map Some wire ++ r) = Some (IOk, m1, r1) /\
      a_receiveData MaxHeap alloc2 fill2 true h2 m1 r1 = Some (IOk, h2', m2, r) /\
      m_type m2 = t /\ m_address m2 = a /\ m_command m2 = c /\ carries h2' m2 p.
Proof. intros. apply round_trip; assumption. Qed.
Definition ex_payload (n : nat) : list Z := map (fun i => (Z.of_nat i * 7 + 0x70) mod 256) (seq 0 n).
Example C38_round_trip_example :
  (do x <- n_compose ex_alloc ex_fill [] (repeat 0xAA 20) 0x12 0x7E T_Request (ex_payload 40);
   do hm <- x; let (h, m) := hm : amnb_heap * msg in
   do (st, w) <- a_transmit false (fun _ => true) h m;
   do (x, r) <- a_receiveHeader false (repeat 0 32) (map Some w ++ [Some 5; None]); let (st1, m) := x in
   do (x, r) <- a_receiveData 255 ex_alloc ex_fill true [] m r; let (y, m) := x in let (st2, h) := y in
   do g <- m_get h m 40;
   Some (st, zlen w, st1, st2, r, [m_type m; m_address m; m_command m; m_length m], g)) =
  Some (IOk, 52, IOk, IOk, [Some 5; None], [T_Request; 0x12; 0x7E; 40], Some (ex_payload 40)).
Proof. vm_compute. reflexivity. Qed.
Print Assumptions C38_round_trip_partial.

(* Up to 255 bytes the wire is the frame of the specification; from 256 bytes on (dataLength() is a uint8_t) only the first length mod 256 bytes of the data are
   sent, and the checksum covers only them. *)
Theorem C38_long_payload_truncated alloc fill h junk a c t p : amnb_allocator alloc -> amnb_content fill ->
  amnb_type t -> byte a -> byte c -> 28 < zlen p < 65536 -> zlen junk = 20 -> Forall byte junk -> alloc h (zlen p + 4) <> 0 ->
  exists h' m wire, n_compose alloc fill h junk a c t p = Some (Some (h', m)) /\
    a_transmit false (fun _ => true) h' m = Some (IOk, wire) /\
    (zlen p < 256 -> wire = frame a c t p) /\
    (forall q h2, zlen q = zlen p -> firstn (Z.to_nat (zlen p mod 256)) q = firstn (Z.to_nat (zlen p mod 256)) p ->
      alloc h2 (zlen p + 4) <> 0 ->
      exists h2' m2, n_compose alloc fill h2 junk a c t q = Some (Some (h2', m2)) /\
        a_transmit false (fun _ => true) h2' m2 = Some (IOk, wire)).
Proof.
  intros A F T Ba Bc P J Bj N. destruct (long_wire alloc fill A F h junk a c t p T Ba Bc P J Bj N) as (h' & m & E1 & E2).
  do 3 eexists. split; [exact E1|]. split; [exact E2|]. split.
  - intro L. rewrite Z.mod_small by lia. assert (firstn (Z.to_nat (zlen p)) p = p) as -> by (unfold zlen; rewrite Nat2Z.id; apply firstn_all).
    apply frame_large; assumption.
  - intros q h2 L Eq N2. rewrite <- L in N2. destruct (long_wire alloc fill A F h2 junk a c t q T Ba Bc ltac:(lia) J Bj N2) as (h2' & m2 & F1 & F2).
    exists h2', m2. split; [exact F1|]. rewrite F2, L, Eq. reflexivity.
Qed.
Example C38_long_payload_truncated_example :
  (do x <- n_compose ex_alloc ex_fill [] (repeat 0xAA 20) 0x12 0x42 T_Broadcast (repeat 1 258);
   do hm <- x; let (h, m) := hm : amnb_heap * msg in
   do (st, w) <- a_transmit false (fun _ => true) h m; Some (st, zlen w)) = Some (IOk, 12) /\
  firstn (Z.to_nat (258 mod 256)) (repeat 1 2 ++ repeat 2 256) = firstn (Z.to_nat (258 mod 256)) (repeat 1 258).
Proof. split; [vm_compute; reflexivity|]. reflexivity. Qed.
Print Assumptions C38_long_payload_truncated.

(* Therefore the full claim fails, whatever the receiver does: two different payloads of 256 bytes go over the wire alike. *)
Theorem C38_round_trip_refuted : exists p q : list Z, p <> q /\ Forall byte p /\ Forall byte q /\ zlen p = 256 /\ zlen q = 256 /\
  forall alloc fill h junk a c t, amnb_allocator alloc -> amnb_content fill -> amnb_type t -> byte a -> byte c -> zlen junk = 20 -> Forall byte junk ->
    alloc h 260 <> 0 -> exists h1 m1 h2 m2 wire,
      n_compose alloc fill h junk a c t p = Some (Some (h1, m1)) /\ a_transmit false (fun _ => true) h1 m1 = Some (IOk, wire) /\
      n_compose alloc fill h junk a c t q = Some (Some (h2, m2)) /\ a_transmit false (fun _ => true) h2 m2 = Some (IOk, wire).
Proof.
  exists (repeat 1 256), (repeat 2 256). split; [discriminate|].
  assert (forall x n, byte x -> Forall byte (repeat x n)) as R by (intros x n B; apply Forall_forall; intros y I; apply repeat_spec in I; subst; exact B).
  split; [apply R; unfold byte; lia|]. split; [apply R; unfold byte; lia|]. split; [reflexivity|]. split; [reflexivity|].
  intros alloc fill h junk a c t A F T Ba Bc J Bj N.
  destruct (C38_long_payload_truncated alloc fill h junk a c t (repeat 1 256) A F T Ba Bc) as (h1 & m1 & w & E1 & E2 & _ & E3); try assumption; [change (zlen (repeat 1 256)) with 256; lia|].
  destruct (E3 (repeat 2 256) h) as (h2 & m2 & E4 & E5); [reflexivity|reflexivity|exact N|].
  exists h1, m1, h2, m2, w. auto.
Qed.
Print Assumptions C38_round_trip_refuted.

(* ------------------------------------------------------------------------------------------------------------------------- *)
(* C39, as long as two situations do not occur: a message object that still shows payload bytes of a small message in the place
   of its block pointer, and a large message this node has no use for. Then for every byte stream (with read errors, None) and every number of
   iterations of receive(): no access outside the message objects and their own blocks (the result is never None), no block freed
   twice, none leaked: the heap consists of the blocks held by rx_msg and request_msg, each held once.
   Both situations do occur and both are undefined: see below. *)
Theorem C39_memory_safe_partial MaxHeap alloc fill respalloc listeners actions address size k n input :
  amnb_allocator alloc -> amnb_content fill -> handlers_ok listeners actions -> owned n -> input_ok input ->
  (forall j n' r, (j < k)%nat -> n_receive_n MaxHeap alloc fill respalloc listeners actions address size j n input = Some (n', r) ->
     no_leftover (n_rx n') /\ ~ unwanted respalloc listeners actions address size n' r) ->
  exists n' r, n_receive_n MaxHeap alloc fill respalloc listeners actions address size k n input = Some (n', r) /\ owned n'.
Proof. intros. apply receive_n_safe; assumption. Qed.
Definition ex_listeners : list listener := [mkListener 9 (LTyped 2); mkListener 9 LRaw].
Definition ex_actions : list action := [mkAction 8 ARaw (fun bs => RspValue [zlen bs]); mkAction 10 (ATyped 2) (fun bs => RspValue (rev bs)); mkAction 11 ANone (fun _ => RspEmpty)].
Definition ex_stream : list (option Z) := map Some (frame 5 8 T_Request (ex_payload 40)) ++ [Some 3; None] ++ map Some (frame 7 9 T_Broadcast [1; 2]).
Notation ex_run := (n_receive_n 255 ex_alloc ex_fill (fun _ => false) ex_listeners ex_actions 5 8).
Example C39_memory_safe_example :
  input_ok ex_stream /\ handlers_ok ex_listeners ex_actions /\
  (forall j n' r, (j < 3)%nat -> ex_run j ex_node ex_stream = Some (n', r) ->
     no_leftover (n_rx n') /\ ~ unwanted (fun _ => false) ex_listeners ex_actions 5 8 n' r) /\
  (do (n, r) <- ex_run 3%nat ex_node ex_stream; Some (keys (n_heap n), n_queue n, n_log n)) =
    Some ([], [mkReply T_Response 5 8 [40]], [ACall 0 (ex_payload 40)]) /\
  (do (n, r) <- ex_run 4%nat ex_node ex_stream; Some (keys (n_heap n), n_queue n, n_log n)) =
    Some ([], [mkReply T_Response 5 8 [40]], [ACall 0 (ex_payload 40); LCall 0 7 [1; 2]; LCall 1 7 [1; 2]]).
Proof.
  split; [|split; [|split; [|split; [vm_compute; reflexivity|vm_compute; reflexivity]]]].
  - assert (forall l, forallb (fun x => match x with Some b => (0 <=? b) && (b <? 256) | None => true end) l = true -> input_ok l) as Q.
    { intros l H. rewrite forallb_forall in H. apply Forall_forall. intros [b|] I; [|exact Logic.I]. specialize (H _ I). cbn in H. unfold byte. lia. }
    apply Q. vm_compute. reflexivity.
  - split; repeat (first [apply Forall_nil|apply Forall_cons; [first [exact Logic.I|cbn; lia]|]]).
  - intros j n' r J E. assert (j = 0 \/ j = 1 \/ j = 2)%nat as [-> | [-> | ->]] by lia.
    + vm_compute in E. injection E as <- <-. split; [intros _; reflexivity|].
      intros (h & m & r1 & m' & n2 & E1 & E2 & L & D & E3). vm_compute in E1. injection E1 as <- <-. vm_compute in E2. injection E2 as <- <-. vm_compute in E3. discriminate E3.
    + vm_compute in E. injection E as <- <-. split; [intro X; vm_compute in X; discriminate X|].
      intros (h & m & r1 & m' & n2 & E1 & E2 & L & D & E3). vm_compute in E1. injection E1 as <- <-. vm_compute in E2. discriminate E2.
    + vm_compute in E. injection E as <- <-. split; [intro X; vm_compute in X; vm_compute; exact X || reflexivity|].
      intros (h & m & r1 & m' & n2 & E1 & E2 & L & D & E3). vm_compute in E1. injection E1 as <- <-. vm_compute in E2. discriminate E2.
Qed.
Print Assumptions C39_memory_safe_partial.

(* A large message that is not for this node: every broadcast of 29 to 255 bytes with a command that has no listener here makes the node
   compute the checksum of the data through a null pointer. *)
Theorem C39_unwanted_undefined MaxHeap alloc fill respalloc listeners actions address size n a c p r :
  amnb_allocator alloc -> amnb_content fill ->
  owned n -> no_leftover (n_rx n) -> byte a -> byte c -> Forall byte p -> 28 < zlen p < 256 ->
  Forall (fun l => l_command l <> c) listeners ->
  n_receive MaxHeap alloc fill respalloc listeners actions address size n (map Some (frame a c 0x00 p) ++ r) = None.
Proof.
  intros A F W NL Ba Bc Bp P L. assert (amnb_type 0) as T by (left; reflexivity). destruct (land_length_31 0 T) as (Lt & Bt & Tt).
  rewrite <- (frame_large a c 0 p T ltac:(lia)). apply unwanted_undefined; try assumption. apply crc16_range.
Qed.
Example C39_unwanted_undefined_example : owned ex_node /\ no_leftover (n_rx ex_node) /\ Forall (fun l => l_command l <> 77) ex_listeners /\
  zlen (ex_payload 40) = 40 /\
  n_receive 255 ex_alloc ex_fill (fun _ => false) ex_listeners ex_actions 5 8 ex_node (map Some (frame 7 77 0x00 (ex_payload 40))) = None.
Proof.
  split; [apply ex_node_owned|]. split; [apply ex_node_owned|]. split; [repeat (apply Forall_cons; [discriminate|]); apply Forall_nil|].
  split; [reflexivity|]. vm_compute. reflexivity.
Qed.
Print Assumptions C39_unwanted_undefined.

(* Leftover payload taken for a pointer: after a small message with eight bytes of payload, a large message this node does want is
   stored at the address formed by payload bytes 4 to 7. *)
Theorem C39_leftover_refuted : exists listeners input n1 r1, Forall (fun l => l_command l = 9) listeners /\ input_ok input /\
  owned ex_node /\ no_leftover (n_rx ex_node) /\
  n_receive 255 ex_alloc ex_fill (fun _ => false) listeners [] 5 8 ex_node input = Some (IOk, n1, r1) /\
  owned n1 /\ m_ptr (n_rx n1) = 0xDEADBEEF /\
  ~ unwanted (fun _ => false) listeners [] 5 8 n1 r1 /\
  n_receive 255 ex_alloc ex_fill (fun _ => false) listeners [] 5 8 n1 r1 = None.
Proof.
  exists [mkListener 9 LRaw], (map Some (frame 7 9 0x00 [1; 2; 3; 4; 0xEF; 0xBE; 0xAD; 0xDE] ++ frame 7 9 0x00 (ex_payload 40))).
  do 2 eexists. split; [repeat constructor|]. split.
  { assert (forall l, forallb (fun x => match x with Some b => (0 <=? b) && (b <? 256) | None => true end) l = true -> input_ok l) as Q.
    { intros l H. rewrite forallb_forall in H. apply Forall_forall. intros [b|] I; [|exact Logic.I]. specialize (H _ I). cbn in H. unfold byte. lia. }
    apply Q. vm_compute. reflexivity. }
  split; [apply ex_node_owned|]. split; [apply ex_node_owned|]. split; [vm_compute; reflexivity|].
  split; [|split; [vm_compute; reflexivity|split; [|vm_compute; reflexivity]]].
  - assert (forall p, ~ holds (repeat 0 32) p) as H by (intros p (L & _); discriminate L).
    unfold owned, own. cbn [n_heap n_rx n_req keys map].
    match goal with |- object ?m /\ _ => assert (forall p, ~ holds m p) as H' by (intros p (L & _); discriminate L); assert (object m) as O end.
    { split; [reflexivity|]. repeat (apply Forall_cons; [unfold byte; lia|]). apply Forall_nil. }
    split; [exact O|]. split; [exact ex_zero_object|]. split; [constructor|].
    split; [intro p; split; [intros []|intros [X|X]; [destruct (H' _ X)|destruct (H _ X)]]|].
    split; [intros p [X _]; exact (H' _ X)|]. split; intros p X; [destruct (H' _ X)|destruct (H _ X)].
  - intros (h & m & r & m' & n2 & E1 & E2 & L & D & E3). vm_compute in E1. injection E1 as <- <-. vm_compute in E2. injection E2 as <- <-. vm_compute in E3. discriminate E3.
Qed.
Print Assumptions C39_leftover_refuted.

(* ------------------------------------------------------------------------------------------------------------------------- *)
(* C40, first half: a request frame to this node (up to 28 bytes; up to 255 if memory suffices and there is such an action) is consumed and
   leads to exactly one more reply in the queue, with the address of this node and the command of the request. Without an action for the command it
   is an error message with code 3. Otherwise the first action with this command is called, once, with the argument its signature
   selects from the payload, and its answer is the reply. If the payload is too short the action is not called, and the reply is a
   one-byte Response: that this is not an error message is shown below. *)
Theorem C40_one_reply_partial MaxHeap alloc fill respalloc listeners actions address size n c p r :
  amnb_allocator alloc -> amnb_content fill -> handlers_ok listeners actions ->
  owned n -> no_leftover (n_rx n) -> byte address -> byte c -> Forall byte p -> zlen (n_queue n) < size ->
  zlen p <= 28 \/ zlen p < 256 /\ zlen p <= MaxHeap /\
    (forall h m, m_deallocate (n_heap n) (n_rx n) = Some (h, m) -> alloc h (zlen p + 4) <> 0) /\ find (fun a => a_command a =? c) actions <> None ->
  exists n' t pl,
    n_receive MaxHeap alloc fill respalloc listeners actions address size n (map Some (frame address c 0x40 p) ++ r) = Some (IOk, n', r) /\
    n_queue n' = n_queue n ++ [mkReply t address c pl] /\
    match find (fun a => a_command a =? c) actions with
    | None => t = 0x80 /\ pl = [3] /\ n_log n' = n_log n
    | Some a =>
        match argument (a_kind a) p with
        | Some arg => (t, pl) = meant_answer respalloc (a_fun a arg) /\ exists j, nth_error actions j = Some a /\ n_log n' = n_log n ++ [ACall j arg]
        | None => t = 0x60 /\ pl = [match a_kind a with ANone => 2 | _ => 4 end] /\ n_log n' = n_log n
        end
    end.
Proof.
  intros A F H W NL Ba Bc Bp Q C. assert (amnb_type T_Request) as T by (right; left; reflexivity).
  destruct (one_reply MaxHeap alloc fill A F respalloc listeners actions address size n c p r W NL H Ba Bc Bp Q C) as (w & n' & t & pl & W1 & W2 & E & Eq & M).
  exists n', t, pl. assert (w = frame address c 0x40 p) as <-.
  { destruct (Z.le_gt_cases (zlen p) 28) as [S|S]; [rewrite (W1 S); apply frame_small; assumption|].
    rewrite (W2 ltac:(lia)). apply frame_large; [assumption|lia]. }
  split; [exact E|]. split; [exact Eq|]. destruct (find (fun a => a_command a =? c) actions) as [a|]; [|exact M].
  destruct M as (M1 & j & Ej & M2). unfold reply_of in M1. destruct (argument (a_kind a) p) as [arg|].
  - split; [rewrite M1; apply answer_ok|]. exists j. auto.
  - injection M1 as -> ->. split; [reflexivity|]. rewrite app_nil_r in M2. auto.
Qed.
Example C40_one_reply_example : let run c p := do (x, r) <- n_receive 255 ex_alloc ex_fill (fun _ => false) ex_listeners ex_actions 5 8 ex_node (map Some (frame 5 c 0x40 p)); let (st, n) := x : status * node in Some (st, n_queue n, n_log n) in
  run 10 [1; 2] = Some (IOk, [mkReply 0x60 5 10 [2; 1]], [ACall 1 [1; 2]]) /\
  run 8 (ex_payload 200) = Some (IOk, [mkReply 0x60 5 8 [200]], [ACall 0 (ex_payload 200)]) /\
  run 99 [1] = Some (IOk, [mkReply 0x80 5 99 [3]], []) /\
  run 10 [1] = Some (IOk, [mkReply 0x60 5 10 [4]], []) /\
  run 11 [1] = Some (IOk, [mkReply 0x60 5 11 [2]], []).
Proof.
  split; [vm_compute; reflexivity|]. split; [vm_compute; reflexivity|]. split; [vm_compute; reflexivity|].
  split; [vm_compute; reflexivity|]. vm_compute. reflexivity.
Qed.
Print Assumptions C40_one_reply_partial.

(* Second half, refuted for wrong sizes: whenever an action exists but the payload does not satisfy its signature, the reply is one the requester's
   Result<void> takes for success, and Result<T> with a one-byte T for a value. *)
Theorem C40_wrong_size_is_success MaxHeap alloc fill respalloc listeners actions address size n c p r a :
  amnb_allocator alloc -> amnb_content fill -> handlers_ok listeners actions ->
  owned n -> no_leftover (n_rx n) -> byte address -> byte c -> Forall byte p -> zlen (n_queue n) < size -> zlen p <= 28 ->
  find (fun a => a_command a =? c) actions = Some a -> argument (a_kind a) p = None ->
  exists n' rep,
    n_receive MaxHeap alloc fill respalloc listeners actions address size n (map Some (frame address c 0x40 p) ++ r) = Some (IOk, n', r) /\
    n_queue n' = n_queue n ++ [rep] /\ result_void rep = Some 0 /\ exists v, result_value 1 rep = Some (0, Some [v]).
Proof.
  intros A F H W NL Ba Bc Bp Q S Fa Ar.
  destruct (C40_one_reply_partial MaxHeap alloc fill respalloc listeners actions address size n c p r A F H W NL Ba Bc Bp Q (or_introl S)) as (n' & t & pl & E & Eq & M).
  rewrite Fa, Ar in M. destruct M as (-> & -> & _). do 2 eexists. split; [exact E|]. split; [exact Eq|]. split; [reflexivity|].
  eexists. reflexivity.
Qed.
Example C40_wrong_size_is_success_example : find (fun a => a_command a =? 11) ex_actions = nth_error ex_actions 2 /\
  option_map (fun a => argument (a_kind a) [1]) (nth_error ex_actions 2) = Some None /\
  result_void (mkReply 0x60 5 11 [2]) = Some 0 /\ result_value 1 (mkReply 0x60 5 10 [4]) = Some (0, Some [4]).
Proof. split; [reflexivity|]. split; [reflexivity|]. split; reflexivity. Qed.
Print Assumptions C40_wrong_size_is_success.

(* So the full claim is false: here a request without the argument the action takes. *)
Theorem C40_errors_refuted : exists actions p n rep, handlers_ok [] actions /\
  (forall a, In a actions -> ~ right_size (a_kind a) p) /\ find (fun a => a_command a =? 10) actions <> None /\
  n_receive 255 ex_alloc ex_fill (fun _ => true) [] actions 5 8 ex_node (map Some (frame 5 10 0x40 p)) = Some (IOk, n, []) /\
  n_queue n = [rep] /\ result_void rep = Some 0.
Proof.
  exists [mkAction 10 (ATyped 2) (fun bs => RspEmpty)], [1]. do 2 eexists.
  split; [split; repeat constructor; cbn; lia|]. split; [intros a [<-|[]]; cbn; discriminate|]. split; [discriminate|].
  split; [vm_compute; reflexivity|]. split; [reflexivity|]. reflexivity.
Qed.
Print Assumptions C40_errors_refuted.

(* A request of up to 28 bytes to another address is consumed without a reply or a call. *)
Theorem C40_others_not_answered MaxHeap alloc fill respalloc listeners actions address size n a c p r :
  owned n -> no_leftover (n_rx n) -> byte a -> byte c -> Forall byte p -> zlen p <= 28 -> a <> address ->
  exists n',
    n_receive MaxHeap alloc fill respalloc listeners actions address size n (map Some (frame a c 0x40 p) ++ r) = Some (IOk, n', r) /\
    n_queue n' = n_queue n /\ n_log n' = n_log n.
Proof.
  intros W NL Ba Bc Bp P N. assert (amnb_type T_Request) as T by (right; left; reflexivity).
  destruct (round_frame MaxHeap alloc fill respalloc listeners actions address size n a c T_Request p r W NL T Ba Bc Bp P) as (h & m & Mt & Ma & Mc & _ & E).
  cbv zeta in E. rewrite (frame_small a c T_Request p T P) in E.
  set (n1 := mkNode h m (n_req n) (n_waiting n) (n_received n) (n_queue n) (n_log n)) in *.
  exists n1. split; [|split; reflexivity]. apply (E n1 false); [|reflexivity|reflexivity].
  unfold n_handle. change (n_rx n1) with m. rewrite Mt, Ma. cbn [T_Request T_Broadcast Z.eqb Pos.eqb]. assert ((a =? address) = false) as -> by lia. reflexivity.
Qed.
Example C40_others_not_answered_example :
  (do (x, r) <- n_receive 255 ex_alloc ex_fill (fun _ => false) ex_listeners ex_actions 5 8 ex_node (map Some (frame 6 10 0x40 [1; 2]));
   let (st, n) := x : status * node in Some (st, n_queue n, n_log n)) = Some (IOk, [], []).
Proof. vm_compute. reflexivity. Qed.
Print Assumptions C40_others_not_answered.

(* An over-long request is not rejected either: an action for a two-byte argument is called with the first two bytes. *)
Theorem C40_overlong_refuted : exists actions p n, handlers_ok [] actions /\ (forall a, In a actions -> ~ right_size (a_kind a) p) /\
  n_receive 255 ex_alloc ex_fill (fun _ => true) [] actions 5 8 ex_node (map Some (frame 5 10 0x40 p)) = Some (IOk, n, []) /\
  n_log n = [ACall 0 [1; 2]].
Proof.
  exists [mkAction 10 (ATyped 2) (fun bs => RspEmpty)], [1; 2; 3]. eexists.
  split; [split; repeat constructor; cbn; lia|]. split; [intros a [<-|[]]; cbn; discriminate|].
  split; [vm_compute; reflexivity|]. reflexivity.
Qed.
Print Assumptions C40_overlong_refuted.

(* A request whose data cannot be stored gets no reply at all. *)
Theorem C40_no_memory_no_reply MaxHeap alloc fill respalloc listeners actions address size n c p r a :
  amnb_allocator alloc -> amnb_content fill ->
  owned n -> no_leftover (n_rx n) -> byte address -> byte c -> Forall byte p -> 28 < zlen p < 256 ->
  MaxHeap < zlen p \/ (forall h m, m_deallocate (n_heap n) (n_rx n) = Some (h, m) -> alloc h (zlen p + 4) = 0) ->
  find (fun a => a_command a =? c) actions = Some a ->
  exists n',
    n_receive MaxHeap alloc fill respalloc listeners actions address size n (map Some (frame address c 0x40 p) ++ r) = Some (AllocationFailed, n', r) /\
    n_queue n' = n_queue n /\ n_log n' = n_log n.
Proof.
  intros A F W NL Ba Bc Bp P M Fa. assert (amnb_type T_Request) as T by (right; left; reflexivity).
  rewrite <- (frame_large address c 0x40 p T ltac:(lia)). apply (too_large MaxHeap alloc fill respalloc listeners actions address size n c p r a); assumption.
Qed.
Example C40_no_memory_no_reply_example :
  (do (x, r) <- n_receive 32 ex_alloc ex_fill (fun _ => false) ex_listeners ex_actions 5 8 ex_node (map Some (frame 5 8 0x40 (ex_payload 33)) ++ [Some 1]);
   let (st, n) := x : status * node in Some (st, n_queue n, r)) = Some (AllocationFailed, [], [Some 1]).
Proof. vm_compute. reflexivity. Qed.
Print Assumptions C40_no_memory_no_reply.

(* ------------------------------------------------------------------------------------------------------------------------- *)
(* C41 for commands from 4 on: whatever the outcomes ok of the transmissions and the times busy the medium is found busy, sending ends after the first success or after
   max_tries transmissions, which is at most 20; the generator state stays non-zero; every back-off lies in its window, and the
   long back-offs count the remaining tries down. *)
Theorem C41_retries_partial ok busy command l : 4 <= command < 256 -> 0 < l < 65536 ->
  exists tries l' bs, n_send ok busy command l = Some (tries, l', bs) /\ (0 < tries)%nat /\ Z.of_nat tries <= max_tries command /\
    (forall i, (i < tries - 1)%nat -> ok i = false) /\ (Z.of_nat tries < max_tries command -> ok (tries - 1)%nat = true) /\
    0 < l' < 65536 /\ Forall window bs /\
    map b_counter (filter (fun b => b_mask b =? 11) bs) = map (fun i => max_tries command - Z.of_nat i) (seq 1 (tries - 1)).
Proof.
  intros C L. destruct (send_ok ok busy command l C L) as (t & l' & bs & E & A1 & A2 & A3 & A4 & A5 & A6 & A7).
  exists t, l', bs. auto 10.
Qed.
Example C41_retries_example :
  n_send (fun k => (k =? 2)%nat) (fun k => if (k =? 1)%nat then 1%nat else 0%nat) 16 (n_seed 7) =
    Some (3%nat, 42306, [mkBackoff 11 3 15110; mkBackoff 7 3 913; mkBackoff 11 2 15682]) /\ max_tries 16 = 4.
Proof. vm_compute. split; reflexivity. Qed.
Print Assumptions C41_retries_partial.

(* The seed of every node address is a legal state, and the state never becomes zero. *)
Theorem C41_generator_lives address k : byte address -> 0 < Nat.iter k n_lfsr (n_seed address) < 65536.
Proof. intro B. induction k as [|k IH]; [apply seed_live, B|]. apply lfsr_live, IH. Qed.
Example C41_generator_lives_example : n_seed 255 = 65280 /\ Nat.iter 3 n_lfsr (n_seed 1) = 5384.
Proof. vm_compute. split; reflexivity. Qed.
Print Assumptions C41_generator_lives.

(* A higher command never gets fewer tries, among the commands from 4 on. *)
Theorem C41_monotone_partial ok busy c1 c2 l1 l2 t1 t2 s1 s2 b1 b2 : 4 <= c1 <= c2 -> c2 < 256 -> 0 < l1 < 65536 -> 0 < l2 < 65536 ->
  (forall i, ok i = false) ->
  n_send ok busy c1 l1 = Some (t1, s1, b1) -> n_send ok busy c2 l2 = Some (t2, s2, b2) -> (t1 <= t2)%nat.
Proof.
  intros C C2 L1 L2 K E1 E2.
  destruct (send_ok ok busy c1 l1 ltac:(lia) L1) as (u1 & ? & ? & F1 & A1 & A2 & _ & _ & _ & A6 & _).
  destruct (send_ok ok busy c2 l2 ltac:(lia) L2) as (u2 & ? & ? & F2 & B1 & B2 & _ & _ & _ & B6 & _).
  rewrite F1 in E1. rewrite F2 in E2. injection E1 as <- _ _. injection E2 as <- _ _.
  assert (Z.of_nat u2 = max_tries c2). { destruct (Z.eq_dec (Z.of_nat u2) (max_tries c2)); [assumption|]. specialize (B6 ltac:(lia)). rewrite K in B6. discriminate. }
  unfold max_tries in *. lia.
Qed.
Example C41_monotone_example : let tries c := option_map (fun x => fst (fst x)) (n_send (fun _ => false) (fun _ => 0%nat) c 257) in
  tries 4 = Some 1%nat /\ tries 40 = Some 10%nat /\ tries 80 = Some 20%nat /\ tries 255 = Some 20%nat.
Proof. vm_compute. split; [reflexivity|]. split; [reflexivity|]. split; reflexivity. Qed.
Print Assumptions C41_monotone_partial.

(* Commands 0 to 3, the lowest priority, get 256 tries (the counter starts at 0 and wraps), more than any other, and back-offs that leave the
   window: some are 0 to 2047 microseconds, as if of the highest priority. *)
Theorem C41_lowest_priority_refuted : exists l' bs, n_send (fun _ => false) (fun _ => 0%nat) 0 (n_seed 7) = Some (256%nat, l', bs) /\
  (exists t l2 b2, n_send (fun _ => false) (fun _ => 0%nat) 255 (n_seed 7) = Some (t, l2, b2) /\ (t < 256)%nat) /\
  ~ Forall window bs.
Proof.
  do 2 eexists. split; [vm_compute; reflexivity|]. split.
  - do 3 eexists. split; [vm_compute; reflexivity|lia].
  - intro H. inversion H as [|b t W _]; subst. destruct W as (W & _). cbn in W. lia.
Qed.
Print Assumptions C41_lowest_priority_refuted.
