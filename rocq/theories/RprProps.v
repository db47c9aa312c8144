(* C42, C43, C65, C66: the RPR ring *)
From Verif Require Import Base SliceLemmas CrcSpec Sab2Spec RprModel RprSpec RprProofs.

Definition always (_ : rpr) (_ : Z) : bool := true.
Definition ex_msg : rmsg := mkR RUnicast 0x102 0x7c 0x7e [0x7d; 0; 255].

(* ------------------------------------------------------------------------------------------------------------------------- *)
(* C42, sending: what sendMessage writes on an idle ring is the frame of the message, with the own address as source. *)
Theorem C42_send alloc s destination type command payload :
  r_started s = false -> 0 <= r_address s < 32768 -> 0 <= destination < 65536 -> byte command -> Forall byte payload ->
  exists s' sum result, rpr_sendMessage alloc s destination type command payload =
      (s', rpr_wire (rpr_content (wire_dest type destination) (r_address s) command payload sum), result) /\
    rpr_sum (wire_dest type destination) (r_address s) command payload sum.
Proof.
  intros St A D C P. unfold rpr_sendMessage, rpr_send, rpr_writeMessage. rewrite St.
  destruct (frame_ok (mkR type destination (r_address s) command payload)) as (sum & S & E); cbn [m_dest m_src m_cmd m_payload m_type] in *; [lia|lia|exact C|exact P|].
  do 3 eexists. split; [rewrite E; reflexivity|exact S].
Qed.
Example C42_send_example :
  snd (fst (rpr_sendMessage always (rpr_initialize 48 0x7c 5) 0x102 RUnicast 0x7e [0x7d; 0; 255])) =
  [0x7e; 0x02; 0x01; 0x7d; 0x5c; 0; 0x7d; 0x5e; 0x7d; 0x5d; 0; 255; 0x12; 0x9e; 0x7c].
Proof. vm_compute. reflexivity. Qed.
Print Assumptions C42_send.

Lemma role_cases s dest : minef s dest = true <-> role (r_address s) (r_group s) dest <> RAny.
Proof. unfold minef. destruct (role _ _ _); cbn; split; congruence. Qed.
Lemma fwd_cases s dest src : fwdf s dest src = true <-> passes_on (r_address s) (r_group s) dest src.
Proof.
  unfold fwdf, ownf, passes_on. destruct (role _ _ _); cbn [rtype_eqb negb andb]; destruct (r_address s =? src mod 32768) eqn:E; cbn [negb andb]; split; intros H; try discriminate; try reflexivity; try (split; [lia|discriminate]); destruct H as [H1 H2]; try lia; contradiction.
Qed.

(* C42, receiving: a node between two calls, whatever it received before, takes in any frame of up to 248 payload bytes (up to N if it is for the node): it is written out again
   byte by byte exactly if the node is neither its source nor its unicast destination, and it is added to the received messages exactly if it
   is for the node; the delivered payload is the payload followed by the two checksum bytes (this is what is missing). *)
Theorem C42_receive_partial N alloc s dest src cmd payload sum :
  0 <= N -> listening N s -> (forall s n, alloc s n = true) ->
  0 <= dest < 65536 -> 0 <= src < 65536 -> byte cmd -> Forall byte payload -> rpr_sum dest src cmd payload sum ->
  zlen payload <= 248 -> (role (r_address s) (r_group s) dest <> RAny -> zlen payload <= N) ->
  let frame := rpr_wire (rpr_content dest src cmd payload sum) in
  exists s' out, rpr_update N alloc s frame = Some (s', out, []) /\
    (passes_on (r_address s) (r_group s) dest src -> out = frame) /\ (~ passes_on (r_address s) (r_group s) dest src -> out = []) /\
    (role (r_address s) (r_group s) dest = RAny -> r_received s' = r_received s) /\
    (role (r_address s) (r_group s) dest <> RAny ->
       r_received s' = r_received s ++ [mkR (role (r_address s) (r_group s) dest) dest (src mod 32768) cmd (payload ++ [sum mod 256; sum / 256])]) /\
    r_address s' = r_address s /\ r_group s' = r_group s /\ r_toSend s' = [] /\ zlen (r_buf s') = N + 8 /\ r_started s' = false /\ r_ended s' = true.
Proof.
  intros HN (A & Lb & Ts & Lr) Al D S C P U L Lm frame. assert (0 <= sum < 65536) as Us by apply U.
  destruct (receive_ok N alloc s dest src cmd payload sum [] (conj A Lb) D S C P Us L) as (s' & E & (A' & Lb') & E1 & E2 & E3 & E4 & E5 & R1 & R2).
  { intro M. apply role_cases in M. specialize (Lm M). lia. }
  unfold rpr_update. assert ((if r_ended s then match r_toSend s with [] => (s, []) | m :: _ => let (s0, out) := rpr_writeMessage s m in (pop_toSend s0, out) end else (s, [])) = (s, @nil Z)) as ->
    by (rewrite Ts; destruct (r_ended s); reflexivity).
  rewrite app_nil_r in E. fold frame in E. rewrite E. cbn [rpr_loop obind app].
  exists s', (if fwdf s dest src then frame else []). split; [rewrite app_nil_r; reflexivity|].
  split; [intro H; apply fwd_cases in H; rewrite H; reflexivity|]. split; [intro H; destruct (fwdf s dest src) eqn:F; [apply fwd_cases in F; contradiction|reflexivity]|].
  split; [intro H; destruct R1 as [R1|(M & _)]; [exact R1|apply role_cases in M; contradiction]|].
  split; [intro H; apply R2; [apply role_cases; exact H|exact U|exact Lr|intro; apply Al]|].
  do 2 (split; [assumption|]). split; [congruence|]. split; [exact Lb'|]. split; assumption.
Qed.
Example C42_receive_example :
  let me := rpr_initialize 48 0x102 5 in let other := rpr_initialize 48 3 5 in let f := rpr_frame ex_msg in
  listening 48 me /\
  option_map (fun r => (snd (fst r), r_received (fst (fst r)))) (rpr_update 48 always me f) = Some ([], [mkR RUnicast 0x102 0x7c 0x7e [0x7d; 0; 255; 0x12; 0x9e]]) /\
  option_map (fun r => (snd (fst r), r_received (fst (fst r)))) (rpr_update 48 always other f) = Some (f, []).
Proof.
  split; [unfold listening; split; [vm_compute; split; congruence|]; split; [reflexivity|]; split; reflexivity|]. split; vm_compute; reflexivity.
Qed.
Print Assumptions C42_receive_partial.

(* The payload is not delivered unchanged: *)
Theorem C42_receive_refuted : exists s m s' r out,
  listening 48 s /\ rpr_update 48 always s (rpr_frame m) = Some (s', out, []) /\ r_received s' = [r] /\
  m_type m = RUnicast /\ m_dest m = r_address s /\ m_src r = m_src m /\ m_cmd r = m_cmd m /\ m_payload r <> m_payload m.
Proof.
  exists (rpr_initialize 48 0x102 5), ex_msg. do 3 eexists.
  split; [unfold listening; split; [vm_compute; split; congruence|]; split; [reflexivity|]; split; reflexivity|].
  split; [vm_compute; reflexivity|]. cbn [r_received]. split; [reflexivity|]. repeat (split; [reflexivity|]). cbn [m_payload ex_msg]. discriminate.
Qed.
Print Assumptions C42_receive_refuted.

(* A frame whose checksum does not match is forwarded but never delivered. *)
Theorem C42_bad_checksum N alloc s dest src cmd payload sum :
  0 <= N -> listening N s -> 0 <= dest < 65536 -> 0 <= src < 65536 -> byte cmd -> Forall byte payload -> 0 <= sum < 65536 -> ~ rpr_sum dest src cmd payload sum ->
  zlen payload <= 248 -> (role (r_address s) (r_group s) dest <> RAny -> zlen payload <= N) ->
  exists s' out, rpr_update N alloc s (rpr_wire (rpr_content dest src cmd payload sum)) = Some (s', out, []) /\ r_received s' = r_received s.
Proof.
  intros HN (A & Lb & Ts & Lr) D S C P Us U L Lm.
  destruct (receive_ok N alloc s dest src cmd payload sum [] (conj A Lb) D S C P Us L) as (s' & E & _ & _ & _ & _ & _ & _ & R1 & _).
  { intro M. apply role_cases in M. specialize (Lm M). lia. }
  unfold rpr_update. assert ((if r_ended s then match r_toSend s with [] => (s, []) | m :: _ => let (s0, out) := rpr_writeMessage s m in (pop_toSend s0, out) end else (s, [])) = (s, @nil Z)) as ->
    by (rewrite Ts; destruct (r_ended s); reflexivity).
  rewrite app_nil_r in E. rewrite E. cbn [rpr_loop obind app]. do 2 eexists. split; [reflexivity|].
  destruct R1 as [R1|(_ & K & _)]; [exact R1|contradiction].
Qed.
Example C42_bad_checksum_example :
  option_map (fun r => r_received (fst (fst r))) (rpr_update 48 always (rpr_initialize 48 0x102 5) (rpr_wire (rpr_content 0x102 3 1 [] 77))) = Some [].
Proof. vm_compute. reflexivity. Qed.
Print Assumptions C42_bad_checksum.

(* Around the ring: a unicast frame passes all nodes in front of its destination unchanged, is taken off the ring there, and no other node delivers it. *)
Theorem C42_unicast_ring_partial N alloc before target after dest src cmd payload sum :
  0 <= N -> (forall s n, alloc s n = true) -> Forall (listening N) (before ++ target :: after) ->
  Forall (fun s => r_address s <> src mod 32768 /\ r_address s <> dest) before -> r_address target = dest ->
  0 <= src < 65536 -> byte cmd -> Forall byte payload -> rpr_sum dest src cmd payload sum -> zlen payload <= 248 -> zlen payload <= N ->
  exists before' target', ring_pass N alloc (before ++ target :: after) (rpr_wire (rpr_content dest src cmd payload sum)) = Some (before' ++ target' :: after, []) /\
    map r_received before' = map r_received before /\
    r_received target' = r_received target ++ [mkR RUnicast dest (src mod 32768) cmd (payload ++ [sum mod 256; sum / 256])].
Proof.
  intros HN Al W Nb T S C P U L Ln. assert (0 <= dest < 32768) as D. { apply Forall_app in W. destruct W as [_ W]. inversion W as [|? ? (A & _) _]. lia. }
  induction before as [|s before IH].
  - cbn [app ring_pass] in *. inversion W as [|? ? Wt Wa]; subst x l.
    destruct (C42_receive_partial N alloc target dest src cmd payload sum HN Wt Al ltac:(lia) S C P U L ltac:(intros; lia)) as (t' & out & E & _ & O & _ & R & _).
    assert (role (r_address target) (r_group target) dest = RUnicast) as Ro. { unfold role. assert ((dest =? 65535) = false) as -> by lia. assert ((32768 <=? dest) = false) as -> by lia. assert ((dest =? r_address target) = true) as -> by lia. reflexivity. }
    assert (out = []) as ->. { apply O. intros (_ & K). apply K. exact Ro. }
    rewrite E. cbn [obind]. rewrite Ro in R. specialize (R ltac:(discriminate)).
    assert (forall l, Forall (listening N) l -> ring_pass N alloc l [] = Some (l, [])) as Pass.
    { induction l as [|x l IHl]; intro F; cbn [ring_pass]; [reflexivity|]. inversion F as [|? ? (_ & _ & Ts & _) F']; subst x0 l0.
      unfold rpr_update. rewrite Ts. destruct (r_ended x); cbn [rpr_loop obind app]; rewrite IHl by exact F'; reflexivity. }
    rewrite Pass by exact Wa. cbn [obind]. exists [], t'. split; [reflexivity|]. split; [reflexivity|exact R].
  - cbn [app ring_pass] in *. inversion W as [|? ? Ws Wr]; subst x l. inversion Nb as [|? ? (N1 & N2) Nr]; subst x l.
    assert (role (r_address s) (r_group s) dest = RAny) as Ro. { unfold role. assert ((dest =? 65535) = false) as -> by lia. assert ((32768 <=? dest) = false) as -> by lia. assert ((dest =? r_address s) = false) as -> by lia. reflexivity. }
    destruct (C42_receive_partial N alloc s dest src cmd payload sum HN Ws Al ltac:(lia) S C P U L ltac:(rewrite Ro; congruence)) as (s' & out & E & O & _ & R & _).
    rewrite E. cbn [obind]. rewrite O by (split; [exact N1|rewrite Ro; discriminate]). destruct (IH Wr Nr) as (b' & t' & E' & Mb & Rt). rewrite E'. cbn [obind].
    exists (s' :: b'), t'. split; [reflexivity|]. split; [|exact Rt]. cbn [map]. rewrite (R Ro), Mb. reflexivity.
Qed.
Example C42_unicast_ring_example :
  option_map (fun r => (map r_received (fst r), snd r)) (ring_pass 48 always (map (fun a => rpr_initialize 48 a 5) [7; 9; 0x102; 11]) (rpr_frame ex_msg)) =
  Some ([[]; []; [mkR RUnicast 0x102 0x7c 0x7e [0x7d; 0; 255; 0x12; 0x9e]]; []], []).
Proof. vm_compute. reflexivity. Qed.
Print Assumptions C42_unicast_ring_partial.

(* A broadcast frame is delivered once by every node and arrives at its source again unchanged, which takes it off the ring. *)
Theorem C42_broadcast_ring_partial N alloc nodes source cmd payload sum :
  0 <= N -> (forall s n, alloc s n = true) -> Forall (listening N) nodes -> listening N source ->
  Forall (fun s => r_address s <> r_address source) nodes ->
  byte cmd -> Forall byte payload -> rpr_sum 65535 (r_address source) cmd payload sum -> zlen payload <= 248 -> zlen payload <= N ->
  let frame := rpr_wire (rpr_content 65535 (r_address source) cmd payload sum) in
  exists nodes' source', ring_pass N alloc nodes frame = Some (nodes', frame) /\
    map r_received nodes' = map (fun s => r_received s ++ [mkR RBroadcast 65535 (r_address source) cmd (payload ++ [sum mod 256; sum / 256])]) nodes /\
    rpr_update N alloc source frame = Some (source', [], []).
Proof.
  intros HN Al W Ws Ne C P U L Ln frame. destruct Ws as (As & Ws).
  destruct (C42_receive_partial N alloc source 65535 (r_address source) cmd payload sum HN (conj As Ws) Al ltac:(lia) ltac:(lia) C P U L ltac:(intros; lia)) as (s' & o & E & _ & O & _).
  assert (o = []) as -> by (apply O; intros (K & _); lia). fold frame in E.
  assert (exists nodes', ring_pass N alloc nodes frame = Some (nodes', frame) /\
    map r_received nodes' = map (fun s => r_received s ++ [mkR RBroadcast 65535 (r_address source) cmd (payload ++ [sum mod 256; sum / 256])]) nodes) as (nodes' & E1 & E2).
  { clear E O s'. induction nodes as [|s nodes IH].
    - exists []. split; reflexivity.
    - inversion W as [|? ? W1 W2]; subst x l. inversion Ne as [|? ? N1 N2]; subst x l.
      destruct (C42_receive_partial N alloc s 65535 (r_address source) cmd payload sum HN W1 Al ltac:(lia) ltac:(lia) C P U L ltac:(intros; lia)) as (s' & o & E & O & _ & _ & R & _).
      fold frame in E, O. destruct (IH W2 N2) as (n' & E1 & E2). cbn [ring_pass]. rewrite E. cbn [obind]. rewrite O by (split; [lia|discriminate]). rewrite E1. cbn [obind].
      exists (s' :: n'). split; [reflexivity|]. cbn [map]. rewrite E2. f_equal. change (role (r_address s) (r_group s) 65535) with RBroadcast in R. rewrite R by discriminate.
      replace (r_address source mod 32768) with (r_address source) by lia. reflexivity. }
  exists nodes', s'. split; [exact E1|]. split; [exact E2|exact E].
Qed.
Example C42_broadcast_ring_example :
  option_map (fun r => map (fun s => length (r_received s)) (fst r)) (ring_pass 48 always (map (fun a => rpr_initialize 48 a 5) [7; 9; 11]) (rpr_frame (mkR RBroadcast 0 4 1 [2]))) = Some [1; 1; 1]%nat.
Proof. vm_compute. reflexivity. Qed.
Print Assumptions C42_broadcast_ring_partial.

(* A multicast to group 0x7fff, the default group, is a broadcast: nodes of other groups deliver it too. *)
Theorem C42_default_group_refuted : exists s m s' r out, r_group s <> m_dest m /\ m_type m = RMulticast /\
  rpr_update 48 always s (rpr_frame m) = Some (s', out, []) /\ r_received s' = [r] /\ m_type r = RBroadcast.
Proof.
  exists (rpr_initialize 48 3 5), (mkR RMulticast 0x7fff 4 1 []). do 3 eexists. split; [vm_compute; congruence|]. split; [reflexivity|].
  split; [vm_compute; reflexivity|]. split; reflexivity.
Qed.
Print Assumptions C42_default_group_refuted.

(* ------------------------------------------------------------------------------------------------------------------------- *)
(* C43: while the ring is busy, messages are queued in order and nothing is written. *)
Theorem C43_busy_send alloc s m s' out accepted : r_started s = true -> rpr_send alloc s m = (s', out, accepted) ->
  out = [] /\ r_received s' = r_received s /\ (accepted = true -> r_toSend s' = r_toSend s ++ [m]) /\ (accepted = false -> r_toSend s' = r_toSend s) /\
  (accepted = true <-> zlen (r_toSend s) < 10 /\ alloc s (zlen (m_payload m)) = true).
Proof.
  intros St. unfold rpr_send. rewrite St. destruct (10 <=? zlen (r_toSend s)) eqn:Q.
  - intro H. injection H as <- <- <-. do 2 (split; [reflexivity|]). split; [discriminate|]. split; [reflexivity|]. split; [discriminate|lia].
  - destruct (alloc s (zlen (m_payload m))); intro H; injection H as <- <- <-; (do 2 (split; [reflexivity|])).
    + split; [reflexivity|]. split; [discriminate|]. split; [intros _; split; [lia|reflexivity]|reflexivity].
    + split; [discriminate|]. split; [reflexivity|]. split; [discriminate|intros (_ & K); discriminate].
Qed.
Example C43_busy_send_example : exists s out, rpr_loop 48 always (rpr_initialize 48 1 5) [0x7e] = Some (s, out, []) /\ r_started s = true /\
  snd (rpr_send always s ex_msg) = true.
Proof. do 2 eexists. split; [vm_compute; reflexivity|]. split; reflexivity. Qed.
Print Assumptions C43_busy_send.

(* When the ring is idle again, update() writes the oldest queued message; a message that is alone in the queue is written exactly once. *)
Theorem C43_alone_partial N alloc s m : r_ended s = true -> r_toSend s = [m] ->
  exists s', rpr_update N alloc s [] = Some (s', rpr_frame m, []) /\ r_toSend s' = [] /\ r_received s' = r_received s /\ r_ended s' = true /\
    rpr_update N alloc s' [] = Some (s', [], []).
Proof.
  intros E Q. unfold rpr_update at 1. rewrite E, Q. unfold rpr_writeMessage. cbn [rpr_loop obind]. rewrite app_nil_r. eexists. split; [reflexivity|].
  cbn [r_toSend pop_toSend set_queues r_received r_ended]. rewrite Q. cbn [tl]. split; [reflexivity|]. split; [reflexivity|]. split; [exact E|].
  unfold rpr_update. cbn [r_toSend pop_toSend set_queues r_ended]. rewrite E, Q. cbn [tl]. reflexivity.
Qed.
(* But each message written takes a second one with it, which is never written: with any queue, calling update() until nothing happens any more writes every other message only. *)
Fixpoint drain (N : Z) (alloc : rpr -> Z -> bool) (n : nat) (s : rpr) : option (rpr * list Z) :=
  match n with
  | O => Some (s, [])
  | S n => do (s, out, _) <- rpr_update N alloc s []; do (s, out') <- drain N alloc n s; Some (s, out ++ out')
  end.
Theorem C43_every_other_lost N alloc n s : r_ended s = true -> (length (r_toSend s) <= n)%nat ->
  exists s', drain N alloc n s = Some (s', flat_map rpr_frame (every_other (r_toSend s))) /\ r_toSend s' = [].
Proof.
  intros E L. remember (r_toSend s) as q eqn:Q. revert n s E L Q. induction q as [|a|a b q IH] using every_other_ind; intros n s E L Q.
  - assert (forall n s, r_ended s = true -> r_toSend s = [] -> drain N alloc n s = Some (s, [])) as K.
    { clear. induction n as [|n IH]; intros s E Q; cbn [drain]; [reflexivity|]. unfold rpr_update. rewrite E, Q. cbn [rpr_loop obind]. rewrite IH by assumption. reflexivity. }
    exists s. rewrite K by auto. split; [reflexivity|congruence].
  - destruct n as [|n]; [cbn in L; lia|]. cbn [drain]. destruct (C43_alone_partial N alloc s a E (eq_sym Q)) as (s1 & -> & T & _ & E1 & _). cbn [obind].
    assert (forall n s, r_ended s = true -> r_toSend s = [] -> drain N alloc n s = Some (s, [])) as K.
    { clear. induction n as [|n IH]; intros s E Q; cbn [drain]; [reflexivity|]. unfold rpr_update. rewrite E, Q. cbn [rpr_loop obind]. rewrite IH by assumption. reflexivity. }
    rewrite K by assumption. cbn [obind every_other flat_map]. exists s1. split; [reflexivity|exact T].
  - destruct n as [|n]; [cbn in L; lia|]. cbn [drain]. unfold rpr_update. rewrite E, <- Q. unfold rpr_writeMessage. cbn [rpr_loop obind].
    destruct (IH n (pop_toSend (pop_toSend s))) as (s1 & E1 & T).
    + exact E. + cbn [length] in L. lia. + cbn [pop_toSend set_queues r_toSend]. rewrite <- Q. reflexivity.
    + rewrite E1. cbn [obind every_other flat_map]. rewrite app_nil_r. exists s1. split; [reflexivity|exact T].
Qed.
Example C43_alone_example : exists s, r_ended s = true /\ r_toSend s = [ex_msg; mkR RBroadcast 0 1 2 []; mkR RUnicast 7 1 3 []] /\
  exists s', drain 48 always 3 s = Some (s', rpr_frame ex_msg ++ rpr_frame (mkR RUnicast 7 1 3 [])).
Proof.
  destruct (rpr_run 48 always (rpr_initialize 48 1 5) [] [RUpdate [0x7e]; RSend ex_msg; RSend (mkR RBroadcast 0 1 2 []); RSend (mkR RUnicast 7 1 3 []);
    RUpdate (tl (rpr_frame (mkR RUnicast 9 8 7 [])))]) as [[[s d] o]|] eqn:E; [|vm_compute in E; discriminate].
  exists s. vm_compute in E. injection E as <- _ _. split; [reflexivity|]. split; [reflexivity|]. eexists. vm_compute. reflexivity.
Qed.
Print Assumptions C43_alone_partial.
Print Assumptions C43_every_other_lost.

(* A history with two accepted messages of which one is never written (neither at the update() that writes the first nor later). *)
Theorem C43_refuted : exists s1 o1 m1 m2 s2 o2 s3 o3 rest,
  rpr_update 48 always (rpr_initialize 48 1 5) [0x7e] = Some (s1, o1, rest) /\
  rpr_send always s1 m1 = (s2, [], true) /\ rpr_send always s2 m2 = (s3, o2, true) /\
  exists s4, rpr_update 48 always s3 (tl (rpr_frame (mkR RUnicast 9 8 7 []))) = Some (s4, o3, []) /\
  forall n, (2 <= n)%nat -> exists s5, drain 48 always n s4 = Some (s5, rpr_frame m1).
Proof.
  do 2 eexists. exists ex_msg, (mkR RBroadcast 0 1 2 []). do 5 eexists. split; [vm_compute; reflexivity|]. split; [vm_compute; reflexivity|]. split; [vm_compute; reflexivity|].
  eexists. split; [vm_compute; reflexivity|].
  intros n L. match goal with |- exists s5, drain _ _ _ ?s = _ => destruct (C43_every_other_lost 48 always n s eq_refl L) as (s5 & E & _) end.
  exists s5. rewrite E. vm_compute. reflexivity.
Qed.
Print Assumptions C43_refuted.

(* Sending on the idle ring writes the message at once, returns false, and discards the oldest queued message unwritten. *)
Theorem C43_direct_send_discards alloc s m : r_started s = false ->
  exists s', rpr_send alloc s m = (s', rpr_frame m, false) /\ r_toSend s' = tl (r_toSend s).
Proof. intro St. unfold rpr_send. rewrite St. eexists. split; reflexivity. Qed.
Example C43_direct_send_example : exists s, r_started s = false /\ length (r_toSend s) = 1%nat.
Proof.
  exists (fst (fst (rpr_send always (set_queues (rpr_initialize 48 1 5) [ex_msg; ex_msg] []) ex_msg))). split; reflexivity.
Qed.
Print Assumptions C43_direct_send_discards.

(* ------------------------------------------------------------------------------------------------------------------------- *)
(* C65: as long as no stretch without delimiter has more than 255 bytes of content, nothing outside the buffers is accessed: for every
   byte stream, in any chunks, every sequence of calls, every outcome of allocations. *)
Theorem C65_safe_partial N alloc address group ops : 0 <= N -> short_runs (flat_map arrived ops) ->
  rpr_run N alloc (rpr_initialize N address group) [] ops <> None.
Proof.
  intros HN S. apply run_safe with (k := 0); [exact HN|apply rinv_init; first [exact HN|exact alloc]|cbn; lia|]. cbn [app]. apply short_runs_ok; first [exact S|exact alloc|exact HN|exact N].
Qed.
Example C65_safe_example : short_runs (repeat 7 200 ++ [0x7e] ++ repeat 0 200 ++ [0x7c]) /\
  exists s, rpr_run 48 always (rpr_initialize 48 1 5) [] [RUpdate ([0x7e; 1; 0] ++ repeat 0 253 ++ [0x7c])] = Some (s, [], []) /\ r_overflow s = true.
Proof.
  split.
  - intros a run b E F.
    assert (~ In 0x7e run /\ ~ In 0x7c run) as [N1 N2]. { split; intro K; rewrite Forall_forall in F; specialize (F _ K); discriminate. }
    assert (zlen run <= 255) as L.
    { destruct (Z_le_gt_dec (zlen run) 255) as [|G]; [assumption|exfalso].
      assert (zlen (a ++ run ++ b) = 402) as T by (rewrite <- E; reflexivity). rewrite !zlen_app in T. pose proof (zlen_nonneg a). pose proof (zlen_nonneg b).
      apply (f_equal (fun l => znth l 200)) in E. change (Some 126 = znth (a ++ run ++ b) 200) in E. 
      destruct (Z_lt_le_dec 200 (zlen a)) as [Q|Q].
      - lia.
      - rewrite znth_app_r in E by lia. rewrite znth_app_l in E by lia. symmetry in E. unfold znth in E. destruct (200 - zlen a <? 0); [discriminate|]. apply nth_error_In in E. contradiction. }
    unfold content_bytes. assert (forall f (l : list Z), zlen (filter f l) <= zlen l) as K.
    { intros f l. induction l as [|x l IH]; cbn [filter]; [lia|]. destruct (f x); rewrite !zlen_cons; lia. }
    specialize (K (fun b => negb (b =? 125)) run). lia.
  - eexists. split; vm_compute; reflexivity.
Qed.
Print Assumptions C65_safe_partial.

(* From 256 bytes on it is not safe: every frame of that length for this node, whatever its content and its checksum, makes update() write in front of the receive buffer. *)
Theorem C65_long_frame_undefined N alloc s dest src rest more :
  0 <= N -> listening N s -> 0 <= dest < 65536 -> 0 <= src < 65536 -> Forall byte rest -> role (r_address s) (r_group s) dest <> RAny -> 252 <= zlen rest ->
  rpr_update N alloc s (rpr_wire ([dest mod 256; dest / 256; src mod 256; src / 256] ++ rest) ++ more) = None.
Proof.
  intros HN (A & Lb & Ts & Lr) D S F M L. unfold rpr_update.
  assert ((if r_ended s then match r_toSend s with [] => (s, []) | m :: _ => let (s0, out) := rpr_writeMessage s m in (pop_toSend s0, out) end else (s, [])) = (s, @nil Z)) as ->
    by (rewrite Ts; destruct (r_ended s); reflexivity).
  fold (header dest src). rewrite (too_long N HN alloc s dest src rest more (conj A Lb) D S F); [reflexivity|apply role_cases; exact M|exact L].
Qed.
Example C65_long_frame_example : rpr_update 48 always (rpr_initialize 48 1 5) (rpr_wire ([1; 0; 2; 0] ++ repeat 0 252)) = None.
Proof. vm_compute. reflexivity. Qed.
Print Assumptions C65_long_frame_undefined.

(* ------------------------------------------------------------------------------------------------------------------------- *)
(* C66 *)
Theorem C66_dispatch alloc ls s : exists s' out called, rpr_dispatch alloc (length (r_received s)) ls s = (s', out, called) /\
  r_received s' = [] /\ dispatched ls (r_received s) called.
Proof. apply dispatch_ok. reflexivity. Qed.
Theorem C66_node_update N alloc ls s bytes s1 out1 rest : rpr_update N alloc s bytes = Some (s1, out1, rest) ->
  exists s' out called, rpr_node_update N alloc ls s bytes = Some (s', out1 ++ out, rest, called) /\ r_received s' = [] /\ dispatched ls (r_received s1) called.
Proof.
  intro E. unfold rpr_node_update. rewrite E. cbn [obind]. destruct (C66_dispatch alloc ls s1) as (s' & out & called & -> & R & D). do 3 eexists. split; [reflexivity|]. split; assumption.
Qed.
Example C66_dispatch_example :
  let l1 := mkL RMulticast 65535 255 (fun _ => []) in let l2 := mkL RAny 65535 3 (fun m => [(m_src m, RUnicast, 4, [])]) in let l3 := mkL RAny 65535 255 (fun _ => []) in
  exists s out rest, rpr_node_update 48 always [l1; l2; l3] (rpr_initialize 48 1 5) (rpr_frame (mkR RUnicast 1 6 3 []) ++ rpr_frame (mkR RUnicast 1 6 2 [])) =
    Some (s, out, rest, [(l2, mkR RUnicast 1 6 3 [185; 192]); (l3, mkR RUnicast 1 6 2 [120; 0])]) /\ out = rpr_frame (mkR RUnicast 6 1 4 []).
Proof. cbv zeta. do 3 eexists. split; [vm_compute; reflexivity|]. vm_compute. reflexivity. Qed.
Print Assumptions C66_dispatch.
Print Assumptions C66_node_update.
