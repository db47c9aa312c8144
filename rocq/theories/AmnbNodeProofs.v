From Verif Require Import Base BitLemmas SliceLemmas PtrHeap CrcModel CrcSpec CrcProofs AmnbModel AmnbSpec AmnbProofs.

Lemma stuffed_ok bs : flat_map a_escape bs = stuffed bs.
Proof.
  unfold stuffed. apply flat_map_ext. intro b. unfold a_escape, STX, DLE.
  destruct (b =? 126) eqn:E; cbn [orb]; [assert (b = 126) as -> by lia; reflexivity|].
  destruct (b =? 125) eqn:E2; [assert (b = 125) as -> by lia; reflexivity|reflexivity].
Qed.
Lemma type_sum t n : amnb_type t -> 0 <= n < 32 -> u8 (Z.lor t n) = t + n.
Proof.
  intros T R. assert (Q : forall n, 0 <= n < 256 -> forallb (fun t => negb (n <? 32) || (u8 (Z.lor t n) =? t + n)) [0; 0x40; 0x60; 0x80; 0xA0] = true)
    by (apply byte_sweep; vm_compute; reflexivity).
  specialize (Q n ltac:(lia)). rewrite forallb_forall in Q. specialize (Q t T). assert ((n <? 32) = true) as X by lia. rewrite X in Q. cbn [negb orb] in Q. lia.
Qed.
Lemma frame_small a c t p : amnb_type t -> zlen p <= 28 -> a_wire (s_header a c (u8 (Z.lor t (zlen p))) p) [] = frame a c t p.
Proof.
  intros T P. pose proof (zlen_nonneg p). unfold a_wire, frame, s_header. rewrite type_sum by (assumption || lia).
  assert ((zlen p <=? 28) = true) as -> by lia. rewrite !stuffed_ok. reflexivity.
Qed.
Lemma frame_large a c t p : amnb_type t -> 28 < zlen p < 65536 ->
  a_wire (l_header a c (u8 (Z.lor t LENGTH_MASK)) (zlen p) (crc16_ccitt p)) p = frame a c t p.
Proof.
  intros T P. unfold a_wire, frame, l_header, s_header. rewrite type_sum by first [assumption|unfold LENGTH_MASK; lia].
  assert ((zlen p <=? 28) = false) as -> by lia. rewrite !stuffed_ok. unfold le16. cbn [app].
  pose proof (crc16_range p). rewrite (Z.mod_small (zlen p / 256)) by lia. rewrite (Z.mod_small (crc16_ccitt p / 256)) by lia. reflexivity.
Qed.
Lemma answer_ok respalloc x : a_answer respalloc x = meant_answer respalloc x.
Proof.
  unfold a_answer, meant_answer, SMALL_LENGTH, T_Response, T_Error, T_UserError, E_ResponseAllocationFailed. destruct x as [|bs|bs]; [reflexivity| |];
    replace (zlen bs <=? 28) with (zlen bs <? 29) by (destruct (zlen bs <? 29) eqn:E; lia); [reflexivity|].
  destruct ((zlen bs <? 29) || respalloc (zlen bs)); reflexivity.
Qed.

(* ---- round trip ---- *)
Section RoundTrip.
Variables (alloc1 alloc2 : amnb_heap -> Z -> Z) (fill1 fill2 : Z -> list Z) (MaxHeap : Z).
Hypothesis A1 : amnb_allocator alloc1.
Hypothesis A2 : amnb_allocator alloc2.
Hypothesis F1 : amnb_content fill1.
Hypothesis F2 : amnb_content fill2.

Lemma round_trip h1 h2 junk rx a c t p : amnb_type t -> byte a -> byte c -> Forall byte p -> zlen p < 256 ->
  zlen junk = 20 -> Forall byte junk -> object rx -> m_ptr rx = 0 ->
  (28 < zlen p -> alloc1 h1 (zlen p + 4) <> 0 /\ alloc2 h2 (zlen p + 4) <> 0 /\ zlen p <= MaxHeap) ->
  exists h1' m wire, n_compose alloc1 fill1 h1 junk a c t p = Some (Some (h1', m)) /\
    a_transmit false (fun _ => true) h1' m = Some (IOk, wire) /\
    forall r, exists m1 r1 h2' m2, a_receiveHeader false rx (map Some wire ++ r) = Some (IOk, m1, r1) /\
      a_receiveData MaxHeap alloc2 fill2 true h2 m1 r1 = Some (IOk, h2', m2, r) /\
      m_type m2 = t /\ m_address m2 = a /\ m_command m2 = c /\ carries h2' m2 p.
Proof.
  intros T Ba Bc Bp P J Bj [Lr Br] Pr Hl. pose proof (zlen_nonneg p).
  destruct (Z.le_gt_cases (zlen p) 28) as [S|S].
  - destruct (type_length t (zlen p) T) as (Bt & Lt & Tt); [lia|]. set (tl := u8 (Z.lor t (zlen p))) in *.
    destruct (compose_small alloc1 fill1 h1 junk a c t p T J S) as (tail & Lk & E). fold tl in E.
    do 3 eexists. split; [exact E|]. split; [apply transmit_small; assumption|].
    intro r. unfold a_wire. cbn [flat_map]. rewrite app_nil_r.
    exists (s_header a c tl p ++ skipn (Z.to_nat (4 + zlen p)) rx), r, h2, (s_header a c tl p ++ skipn (Z.to_nat (4 + zlen p)) rx).
    assert (forall x tail, m_smallLength (s_header a c tl x ++ tail) = zlen p) as S1
      by (intros x y; unfold m_smallLength, mb, s_header; cbn [app nth]; exact Lt).
    assert (forall x tail, m_isLarge (s_header a c tl x ++ tail) = false) as Lg by (intros; unfold m_isLarge, SMALL_LENGTH; rewrite S1; lia).
    split; [|split].
    + apply receive_header_gen; try assumption. intros x Hx. unfold m_headerLength, SMALL_LENGTH. rewrite Lg, S1. lia.
    + unfold a_receiveData. rewrite Lg. reflexivity.
    + split; [exact Tt|]. split; [reflexivity|]. split; [reflexivity|]. apply carries_small; assumption.
  - destruct (Hl ltac:(lia)) as (N1 & N2 & M). destruct (land_length_31 t T) as (Lt & Bt & Tt). set (tl := u8 (Z.lor t LENGTH_MASK)) in *.
    destruct (compose_large alloc1 fill1 A1 F1 h1 junk a c t p T J) as (s1 & s2 & s3 & E); try assumption; [lia|]. fold tl in E.
    destruct (A1 h1 (zlen p + 4)) as [R1 _]. set (q := alloc1 h1 (zlen p + 4)) in *.
    assert (firstn (Z.to_nat (u8 (zlen p))) p = p) as Ep.
    { unfold u8. rewrite Z.mod_small by lia. unfold zlen. rewrite Nat2Z.id. apply firstn_all. }
    rewrite Ep in E. do 3 eexists. split; [exact E|]. split.
    { apply transmit_large with (s0 := 1) (s1 := s1) (s2 := s2) (s3 := s3) (p := p); [exact Lt|reflexivity|lia|lia|].
      cbn [hget]. rewrite Z.eqb_refl. reflexivity. }
    rewrite Ep. intro r. unfold a_wire. rewrite app_assoc, map_app, <- app_assoc.
    set (f4 := le16 (zlen p) ++ le16 (crc16_ccitt p)).
    destruct (receive_data_large MaxHeap alloc2 fill2 A2 F2 h2 a c tl p rx r) as (h2' & m2 & E2 & Hf & Lg2 & C2); try assumption; [lia|split; assumption|].
    do 4 eexists. split.
    { change (l_header a c tl (zlen p) (crc16_ccitt p)) with (s_header a c tl f4). apply receive_header_gen; try assumption.
      - unfold f4. apply Forall_app; split; apply le16_bytes.
      - intros x Hx. unfold m_headerLength, m_isLarge, m_smallLength, mb, s_header, SMALL_LENGTH. cbn [app nth]. rewrite Lt. reflexivity.
      - change (zlen f4) with 4. lia. }
    split; [exact E2|].
    assert (forall i, (i < 4)%nat -> mb m2 i = mb (l_header a c tl (zlen p) (crc16_ccitt p)) i) as Hm.
    { intros i Hi. unfold mb. rewrite <- (firstn_skipn 4 m2), Hf. unfold l_header, s_header. cbn [app firstn].
      do 4 (destruct i as [|i]; [reflexivity|]). lia. }
    unfold m_type, m_address, m_command. rewrite !Hm by lia. split; [exact Tt|]. split; [reflexivity|]. split; [reflexivity|exact C2].
Qed.

(* from 256 bytes on, only the first length mod 256 bytes reach the wire *)
Lemma long_wire h junk a c t p : amnb_type t -> byte a -> byte c -> 28 < zlen p < 65536 -> zlen junk = 20 -> Forall byte junk ->
  alloc1 h (zlen p + 4) <> 0 ->
  exists h' m, n_compose alloc1 fill1 h junk a c t p = Some (Some (h', m)) /\
    a_transmit false (fun _ => true) h' m =
      Some (IOk, a_wire (l_header a c (u8 (Z.lor t LENGTH_MASK)) (zlen p) (crc16_ccitt (firstn (Z.to_nat (zlen p mod 256)) p)))
                        (firstn (Z.to_nat (zlen p mod 256)) p)).
Proof.
  intros T Ba Bc P J Bj N1. destruct (land_length_31 t T) as (Lt & Bt & Tt).
  destruct (compose_large alloc1 fill1 A1 F1 h junk a c t p T J) as (s1 & s2 & s3 & E); try assumption.
  destruct (A1 h (zlen p + 4)) as [R1 _]. do 2 eexists. split; [exact E|].
  apply transmit_large with (s0 := 1) (s1 := s1) (s2 := s2) (s3 := s3) (p := p); [exact Lt|reflexivity|lia|lia|].
  cbn [hget]. rewrite Z.eqb_refl. reflexivity.
Qed.
End RoundTrip.

(* ---- requests ---- *)
Section Requests.
Variable MaxHeap : Z.
Variable alloc : amnb_heap -> Z -> Z.
Variable fill : Z -> list Z.
Hypothesis Halloc : amnb_allocator alloc.
Hypothesis Hfill : amnb_content fill.
Variable respalloc : Z -> bool.
Variable listeners : list listener.
Variable actions : list action.
Variable address size : Z.

(* reply of an action, as the code computes it *)
Definition reply_of (a : action) (p : list Z) : Z * list Z :=
  match argument (a_kind a) p with
  | Some arg => a_answer respalloc (a_fun a arg)
  | None => (T_Response, [match a_kind a with ANone => E_WrongArgumentSize | _ => E_ResponseAllocationFailed end])
  end.

Lemma call_spec h m p a : carries h m p -> match a_kind a with ATyped n => 1 <= n | _ => True end ->
  a_call respalloc h m a = Some (reply_of a p, argument (a_kind a) p).
Proof.
  intros [L G] K. unfold a_call, reply_of. destruct (a_kind a) as [|k|]; cbn [argument].
  - rewrite L. destruct p as [|x t]; [reflexivity|]. rewrite zlen_cons. pose proof (zlen_nonneg t).
    assert ((1 + zlen t =? 0) = false) as -> by lia. reflexivity.
  - rewrite G by exact K. cbn [obind]. destruct (k <=? zlen p) eqn:E; [|reflexivity]. rewrite L.
    assert ((zlen p <? k) = false) as -> by lia. reflexivity.
  - rewrite G by lia. cbn [obind]. destruct p as [|x t].
    + rewrite zlen_nil. reflexivity.
    + rewrite L, G by (rewrite zlen_cons; pose proof (zlen_nonneg t); lia).
      assert ((1 <=? zlen (x :: t)) = true) as -> by (rewrite zlen_cons; pose proof (zlen_nonneg t); lia).
      rewrite Z.leb_refl. cbn [obind]. unfold zlen. rewrite Nat2Z.id, firstn_all. reflexivity.
Qed.

Lemma actions_header c acts : forall i n, m_command (n_rx n) = c ->
  n_actions respalloc address size false i acts n =
  match find (fun a => a_command a =? c) acts with
  | Some _ => Some (n, true)
  | None => Some (n_push size n (mkReply T_Error address c [E_NoAction]), false)
  end.
Proof.
  induction acts as [|a r IH]; intros i n C; cbn [n_actions find]; [rewrite C; reflexivity|]. rewrite C.
  rewrite (Z.eqb_sym c). destruct (a_command a =? c); [reflexivity|]. apply IH, C.
Qed.
Lemma actions_complete c p acts : forall i n a, m_command (n_rx n) = c -> carries (n_heap n) (n_rx n) p ->
  Forall (fun a => match a_kind a with ATyped n => 1 <= n | _ => True end) acts ->
  find (fun a => a_command a =? c) acts = Some a ->
  exists j, nth_error acts j = Some a /\
  n_actions respalloc address size true i acts n =
    Some (n_push size (match argument (a_kind a) p with Some arg => n_called n (ACall (i + j) arg) | None => n end)
            (mkReply (fst (reply_of a p)) address c (snd (reply_of a p))), true).
Proof.
  induction acts as [|b r IH]; intros i n a C G F; cbn [n_actions find]; [discriminate|]. rewrite C. inversion F as [|? ? Fb Fr]; subst.
  rewrite (Z.eqb_sym (m_command (n_rx n))). destruct (a_command b =? m_command (n_rx n)) eqn:E.
  - intros [= <-]. exists 0%nat. split; [reflexivity|]. rewrite (call_spec _ _ p b G Fb). cbn [obind].
    rewrite Nat.add_0_r. destruct (reply_of b p) as [t pl]. cbn [fst snd]. assert (a_command b = m_command (n_rx n)) as -> by lia. reflexivity.
  - intro H. destruct (IH (S i) n a eq_refl G Fr H) as (j & Ej & En). exists (S j). split; [exact Ej|]. rewrite En.
    replace (S i + j)%nat with (i + S j)%nat by lia. reflexivity.
Qed.

Notation handle := (n_handle respalloc listeners actions address size).
Notation receive := (n_receive MaxHeap alloc fill respalloc listeners actions address size).

(* what reaches handleRxMessage when the frame of a message arrives *)
Lemma round_frame n a c t p r : owned n -> no_leftover (n_rx n) -> amnb_type t -> byte a -> byte c -> Forall byte p -> zlen p <= 28 ->
  exists h m, m_type m = t /\ m_address m = a /\ m_command m = c /\ carries h m p /\
  let n1 := mkNode h m (n_req n) (n_waiting n) (n_received n) (n_queue n) (n_log n) in
  forall n2 forus, handle false n1 = Some (n2, forus) -> n_heap n2 = h -> n_rx n2 = m ->
  receive n (map Some (a_wire (s_header a c (u8 (Z.lor t (zlen p))) p) []) ++ r) =
    if forus : bool then do (n3, _) <- handle true n2; Some (IOk, n3, r) else Some (IOk, n2, r).
Proof.
  intros W NL T Ba Bc Bp P. destruct (own_dealloc _ _ _ W) as (h & E & W1 & N1). pose proof (zlen_nonneg p).
  destruct (type_length t (zlen p) T) as (Bt & Lt & Tt); [lia|]. set (tl := u8 (Z.lor t (zlen p))) in *.
  set (m0 := if m_isLarge (n_rx n) && negb (m_ptr (n_rx n) =? 0) then m_set_ptr (n_rx n) 0 else n_rx n) in *.
  pose proof W1 as ((L0 & B0) & _).
  exists h, (s_header a c tl p ++ skipn (Z.to_nat (4 + zlen p)) m0).
  split; [exact Tt|]. split; [reflexivity|]. split; [reflexivity|]. split; [apply carries_small; assumption|].
  intros n1 n2 forus HH H1 H2. unfold n_receive. rewrite E. cbn [obind]. unfold a_wire. cbn [flat_map]. rewrite app_nil_r.
  assert (forall x tail, m_smallLength (s_header a c tl x ++ tail) = zlen p) as S1
    by (intros x y; unfold m_smallLength, mb, s_header; cbn [app nth]; exact Lt).
  assert (forall x tail, m_isLarge (s_header a c tl x ++ tail) = false) as Lg by (intros; unfold m_isLarge, SMALL_LENGTH; rewrite S1; lia).
  rewrite receive_header_gen; try assumption; [|intros x Hx; unfold m_headerLength, SMALL_LENGTH; rewrite Lg, S1; lia].
  cbn [obind]. fold n1. rewrite HH. cbn [obind]. rewrite H1, H2. unfold a_receiveData. rewrite Lg. cbn [negb obind].
  assert (mkNode h (s_header a c tl p ++ skipn (Z.to_nat (4 + zlen p)) m0) (n_req n2) (n_waiting n2) (n_received n2) (n_queue n2) (n_log n2) = n2) as ->
    by (rewrite <- H1, <- H2; destruct n2; reflexivity).
  reflexivity.
Qed.
Lemma round_frame_large n a c t p r : owned n -> no_leftover (n_rx n) -> amnb_type t -> byte a -> byte c -> Forall byte p -> 28 < zlen p < 256 ->
  zlen p <= MaxHeap -> (forall h m, m_deallocate (n_heap n) (n_rx n) = Some (h, m) -> alloc h (zlen p + 4) <> 0) ->
  exists h m h' m', m_type m = t /\ m_address m = a /\ m_command m = c /\
  m_type m' = t /\ m_address m' = a /\ m_command m' = c /\ carries h' m' p /\
  let n1 := mkNode h m (n_req n) (n_waiting n) (n_received n) (n_queue n) (n_log n) in
  forall n2, handle false n1 = Some (n2, true) -> n_heap n2 = h -> n_rx n2 = m ->
  receive n (map Some (a_wire (l_header a c (u8 (Z.lor t LENGTH_MASK)) (zlen p) (crc16_ccitt p)) p) ++ r) =
    do (n3, _) <- handle true (mkNode h' m' (n_req n2) (n_waiting n2) (n_received n2) (n_queue n2) (n_log n2)); Some (IOk, n3, r).
Proof.
  intros W NL T Ba Bc Bp P M Al. destruct (own_dealloc _ _ _ W) as (h & E & W1 & N1). pose proof (zlen_nonneg p).
  destruct (land_length_31 t T) as (Lt & Bt & Tt). set (tl := u8 (Z.lor t LENGTH_MASK)) in *.
  set (m0 := if m_isLarge (n_rx n) && negb (m_ptr (n_rx n) =? 0) then m_set_ptr (n_rx n) 0 else n_rx n) in *.
  assert (m_ptr m0 = 0) as Pm.
  { unfold m0. unfold no_leftover in NL. pose proof W as (O & _). destruct (m_isLarge (n_rx n)); cbn [andb]; [|apply NL; reflexivity].
    destruct (m_ptr (n_rx n) =? 0) eqn:Q; cbn [negb]; [lia|]. apply ptr_set; [apply O|cbn; lia]. }
  pose proof W1 as (O0 & _). pose proof O0 as (L0 & B0).
  destruct (receive_data_large MaxHeap alloc fill Halloc Hfill h a c tl p m0 r) as (h' & m' & E2 & Hf & Lg2 & C2); try assumption; [apply (Al _ _ E)|].
  exists h, (l_header a c tl (zlen p) (crc16_ccitt p) ++ skipn 8 m0), h', m'.
  assert (forall i, (i < 4)%nat -> mb m' i = mb (l_header a c tl (zlen p) (crc16_ccitt p)) i) as Hm.
  { intros i Hi. unfold mb. rewrite <- (firstn_skipn 4 m'), Hf. unfold l_header, s_header. cbn [app firstn].
    do 4 (destruct i as [|i]; [reflexivity|]). lia. }
  split; [exact Tt|]. split; [reflexivity|]. split; [reflexivity|].
  split; [unfold m_type; rewrite Hm by lia; exact Tt|]. split; [unfold m_address; rewrite Hm by lia; reflexivity|].
  split; [unfold m_command; rewrite Hm by lia; reflexivity|]. split; [exact C2|].
  intros n1 n2 H' H1 H2. unfold n_receive. rewrite E. cbn [obind]. unfold a_wire. rewrite app_assoc, map_app, <- app_assoc.
  set (f4 := le16 (zlen p) ++ le16 (crc16_ccitt p)) in *.
  pose proof (receive_header_gen a c tl f4 m0 (map Some (flat_map a_escape p) ++ r)) as RH.
  change (s_header a c tl f4) with (l_header a c tl (zlen p) (crc16_ccitt p)) in RH. change (Z.to_nat (4 + zlen f4)) with 8%nat in RH.
  rewrite RH; try assumption.
  2: { unfold f4. apply Forall_app; split; apply le16_bytes. }
  2: { intros x Hx. unfold m_headerLength, m_isLarge, m_smallLength, mb, s_header, SMALL_LENGTH. cbn [app nth]. rewrite Lt. reflexivity. }
  2: { change (zlen f4) with 4. lia. }
  cbn [obind]. fold n1. rewrite H'. cbn [obind]. rewrite H1, H2, E2. reflexivity.
Qed.

(* every request to this node is answered exactly once *)
Lemma one_reply n c p r : owned n -> no_leftover (n_rx n) -> handlers_ok listeners actions -> byte address -> byte c -> Forall byte p ->
  zlen (n_queue n) < size ->
  zlen p <= 28 \/ zlen p < 256 /\ zlen p <= MaxHeap /\ (forall h m, m_deallocate (n_heap n) (n_rx n) = Some (h, m) -> alloc h (zlen p + 4) <> 0) /\ find (fun a => a_command a =? c) actions <> None ->
  exists wire n' t pl, 
    (zlen p <= 28 -> wire = a_wire (s_header address c (u8 (Z.lor T_Request (zlen p))) p) []) /\
    (28 < zlen p -> wire = a_wire (l_header address c (u8 (Z.lor T_Request LENGTH_MASK)) (zlen p) (crc16_ccitt p)) p) /\
    receive n (map Some wire ++ r) = Some (IOk, n', r) /\
    n_queue n' = n_queue n ++ [mkReply t address c pl] /\
    match find (fun a => a_command a =? c) actions with
    | None => t = T_Error /\ pl = [E_NoAction] /\ n_log n' = n_log n
    | Some a => (t, pl) = reply_of a p /\ exists j, nth_error actions j = Some a /\
                n_log n' = n_log n ++ match argument (a_kind a) p with Some arg => [ACall j arg] | None => [] end
    end.
Proof.
  intros W NL [_ Ha] Bad Bc Bp Q C.
  assert (amnb_type T_Request) as T by (right; left; reflexivity).
  assert ((zlen (n_queue n) <? size) = true) as Qb by lia.
  destruct (Z.le_gt_cases (zlen p) 28) as [S|S].
  - destruct (round_frame n address c T_Request p r W NL T Bad Bc Bp S) as (h & m & Mt & Ma & Mc & G & E).
    cbv zeta in E. set (n1 := mkNode h m (n_req n) (n_waiting n) (n_received n) (n_queue n) (n_log n)) in *.
    exists (a_wire (s_header address c (u8 (Z.lor T_Request (zlen p))) p) []).
    assert (forall b, handle b n1 = n_actions respalloc address size b 0 actions n1) as Hh.
    { intro b. unfold n_handle. change (n_rx n1) with m. rewrite Mt, Ma. cbn [T_Request T_Broadcast Z.eqb Pos.eqb]. rewrite Z.eqb_refl. reflexivity. }
    pose proof (Hh false) as H0. rewrite (actions_header c actions 0 n1 Mc) in H0.
    destruct (find (fun a => a_command a =? c) actions) as [act|] eqn:Fa.
    + specialize (E n1 true H0 eq_refl eq_refl). cbv iota in E. rewrite Hh in E.
      destruct (actions_complete c p actions 0 n1 act Mc G Ha Fa) as (j & Ej & Ec). rewrite Ec in E. cbn [obind] in E.
      do 3 eexists. split; [reflexivity|]. split; [intro; lia|]. split; [exact E|].
      split; [|split; [symmetry; apply surjective_pairing|exists j; split; [exact Ej|]]].
      * unfold n_push. cbn [n_queue]. destruct (argument (a_kind act) p); cbn [n_queue n_called n1]; rewrite Qb; reflexivity.
      * unfold n_push. cbn [n_log]. destruct (argument (a_kind act) p); cbn [n_log n_called n1]; [reflexivity|rewrite app_nil_r; reflexivity].
    + specialize (E _ false H0 eq_refl eq_refl). cbv iota in E.
      do 3 eexists. split; [reflexivity|]. split; [intro; lia|]. split; [exact E|].
      unfold n_push. cbn [n_queue n1]. rewrite Qb. auto.
  - destruct C as [C|(C1 & C2 & C3 & C4)]; [lia|].
    destruct (round_frame_large n address c T_Request p r W NL T Bad Bc Bp ltac:(lia) C2 C3) as (h & m & h' & m' & Mt & Ma & Mc & Mt' & Ma' & Mc' & G & E).
    cbv zeta in E. set (n1 := mkNode h m (n_req n) (n_waiting n) (n_received n) (n_queue n) (n_log n)) in *.
    exists (a_wire (l_header address c (u8 (Z.lor T_Request LENGTH_MASK)) (zlen p) (crc16_ccitt p)) p).
    assert (handle false n1 = n_actions respalloc address size false 0 actions n1) as H0.
    { unfold n_handle. change (n_rx n1) with m. rewrite Mt, Ma. cbn [T_Request T_Broadcast Z.eqb Pos.eqb]. rewrite Z.eqb_refl. reflexivity. }
    rewrite (actions_header c actions 0 n1 Mc) in H0.
    destruct (find (fun a => a_command a =? c) actions) as [act|] eqn:Fa; [|congruence].
    specialize (E n1 H0 eq_refl eq_refl). cbn [n1 n_req n_waiting n_received n_queue n_log] in E.
    set (n3 := mkNode h' m' (n_req n) (n_waiting n) (n_received n) (n_queue n) (n_log n)) in *.
    assert (handle true n3 = n_actions respalloc address size true 0 actions n3) as H3.
    { unfold n_handle. change (n_rx n3) with m'. rewrite Mt', Ma'. cbn [T_Request T_Broadcast Z.eqb Pos.eqb]. rewrite Z.eqb_refl. reflexivity. }
    rewrite H3 in E. destruct (actions_complete c p actions 0 n3 act Mc' G Ha Fa) as (j & Ej & Ec). rewrite Ec in E. cbn [obind] in E.
    do 3 eexists. split; [intro; lia|]. split; [reflexivity|]. split; [exact E|].
    split; [|split; [symmetry; apply surjective_pairing|exists j; split; [exact Ej|]]].
    + unfold n_push. cbn [n_queue]. destruct (argument (a_kind act) p); cbn [n_queue n_called n3]; rewrite Qb; reflexivity.
    + unfold n_push. cbn [n_log]. destruct (argument (a_kind act) p); cbn [n_log n_called n3]; [reflexivity|rewrite app_nil_r; reflexivity].
Qed.

(* a request that is too large for this node's memory is not answered at all *)
Lemma too_large n c p r a : owned n -> no_leftover (n_rx n) -> byte address -> byte c -> Forall byte p -> 28 < zlen p < 256 ->
  MaxHeap < zlen p \/ (forall h m, m_deallocate (n_heap n) (n_rx n) = Some (h, m) -> alloc h (zlen p + 4) = 0) -> find (fun a => a_command a =? c) actions = Some a ->
  exists n', receive n (map Some (a_wire (l_header address c (u8 (Z.lor T_Request LENGTH_MASK)) (zlen p) (crc16_ccitt p)) p) ++ r) = Some (AllocationFailed, n', r) /\
    n_queue n' = n_queue n /\ n_log n' = n_log n.
Proof.
  intros W NL Ba Bc Bp P Al Fa. destruct (own_dealloc _ _ _ W) as (h & E & W1 & N1).
  assert (amnb_type T_Request) as T by (right; left; reflexivity).
  destruct (land_length_31 T_Request T) as (Lt & Bt & Tt). set (tl := u8 (Z.lor T_Request LENGTH_MASK)) in *.
  set (m0 := if m_isLarge (n_rx n) && negb (m_ptr (n_rx n) =? 0) then m_set_ptr (n_rx n) 0 else n_rx n) in *.
  assert (m_ptr m0 = 0) as Pm.
  { unfold m0. unfold no_leftover in NL. pose proof W as (O & _). destruct (m_isLarge (n_rx n)); cbn [andb]; [|apply NL; reflexivity].
    destruct (m_ptr (n_rx n) =? 0) eqn:Q; cbn [negb]; [lia|]. apply ptr_set; [apply O|cbn; lia]. }
  pose proof W1 as (O0 & _). pose proof O0 as (L0 & B0).
  unfold n_receive. rewrite E. cbn [obind]. unfold a_wire. rewrite app_assoc, map_app, <- app_assoc.
  set (c16 := crc16_ccitt p). set (f4 := le16 (zlen p) ++ le16 c16). change (l_header address c tl (zlen p) c16) with (s_header address c tl f4).
  rewrite (receive_header_gen address c tl f4 m0); try assumption.
  2: { unfold f4. apply Forall_app; split; apply le16_bytes. }
  2: { intros x Hx. unfold m_headerLength, m_isLarge, m_smallLength, mb, s_header, SMALL_LENGTH. cbn [app nth]. rewrite Lt. reflexivity. }
  2: { change (zlen f4) with 4. lia. }
  change (Z.to_nat (4 + zlen f4)) with 8%nat. cbn [obind].
  set (m' := s_header address c tl f4 ++ skipn 8 m0).
  assert (m_isLarge m' = true) as Lg by (unfold m_isLarge, m_smallLength, m', mb, s_header, SMALL_LENGTH; cbn [app nth]; rewrite Lt; reflexivity).
  assert (m_large_length m' = zlen p) as Ll by (unfold m_large_length, m', mb, f4, s_header, le16; cbn [app nth]; lia).
  assert (m_ptr m' = 0) as Pm'.
  { rewrite <- Pm. destruct (split32 m0 L0) as (b0&b1&b2&b3&b4&b5&b6&b7&b8&b9&b10&b11&t&->&_). reflexivity. }
  assert (m_dataLength m' = zlen p) as Dm by (unfold m_dataLength; rewrite Lg, Ll; apply Z.mod_small; lia).
  set (n1 := mkNode h m' (n_req n) (n_waiting n) (n_received n) (n_queue n) (n_log n)).
  assert (m_command (n_rx n1) = c) as Mc by reflexivity.
  assert (handle false n1 = Some (n1, true)) as ->.
  { unfold n_handle. assert (m_type (n_rx n1) = T_Request) as -> by (unfold m_type, n1, m', mb, s_header; cbn [n_rx app nth]; exact Tt).
    cbn [T_Request T_Broadcast Z.eqb Pos.eqb]. change (m_address (n_rx n1)) with address. rewrite Z.eqb_refl.
    rewrite (actions_header c actions 0 n1 Mc), Fa. reflexivity. }
  cbn [obind]. change (n_heap n1) with h. change (n_rx n1) with m'.
  unfold a_receiveData. rewrite Lg. cbn [negb andb]. rewrite Dm.
  destruct (zlen p <=? MaxHeap) eqn:Q.
  - destruct Al as [Al|Al]; [lia|]. rewrite (allocate_fail alloc fill h m' Lg Pm') by (rewrite Ll; apply (Al _ _ E)). cbn [obind].
    assert (m_dataLength (m_set_ptr m' 0) = zlen p) as Dm'.
    { rewrite <- Dm. unfold m_dataLength, m_isLarge, m_large_length, m_smallLength.
      assert (zlen m' = 32) as Lm'.
      { unfold m', s_header, f4, le16. rewrite zlen_app. cbn [app]. rewrite !zlen_cons, zlen_nil. unfold zlen in *. rewrite skipn_length. lia. }
      destruct (split32 m' Lm') as (b0&b1&b2&b3&b4&b5&b6&b7&b8&b9&b10&b11&t&->&_). reflexivity. }
    rewrite Dm'. replace (Z.to_nat (zlen p)) with (length p) by (unfold zlen; lia). rewrite data_loop_skip_ok by exact Bp. cbn [obind].
    eexists. split; [reflexivity|]. split; reflexivity.
  - cbn [obind]. rewrite Dm. replace (Z.to_nat (zlen p)) with (length p) by (unfold zlen; lia). rewrite data_loop_skip_ok by exact Bp. cbn [obind].
    eexists. split; [reflexivity|]. split; reflexivity.
Qed.
End Requests.

(* ---- retransmission ---- *)
Lemma lfsr_live l : 0 < l < 65536 -> 0 < n_lfsr l < 65536.
Proof.
  intro R. unfold n_lfsr. cbv zeta.
  assert (0 <= Z.shiftr l 7 < 65536) as R1 by (rewrite Z.shiftr_div_pow2 by lia; change (2 ^ 7) with 128; lia).
  set (x := Z.lxor l (Z.shiftr l 7)).
  assert (0 < x < 65536) as Rx.
  { assert (0 <= x < 2 ^ 16) by (apply lxor_lt; lia). assert (x <> 0); [|lia]. intro E. apply Z.lxor_eq in E.
    rewrite Z.shiftr_div_pow2 in E by lia. change (2 ^ 7) with 128 in E. lia. }
  clearbody x. set (y := u16 (Z.lxor x (Z.shiftl x 9))).
  assert (0 < y < 65536) as Ry.
  { assert (0 <= y < 65536) by (unfold y, u16; lia). assert (y <> 0); [|lia]. intro E.
    assert (forall i, 0 <= i < 16 -> Z.testbit x i = if i <? 9 then false else Z.testbit x (i - 9)) as B.
    { intros i Hi. assert (Z.testbit y i = false) as Q by (rewrite E; apply Z.bits_0). unfold y, u16 in Q.
      change 65536 with (2 ^ 16) in Q. rewrite Z.mod_pow2_bits_low in Q by lia. rewrite Z.lxor_spec in Q.
      rewrite Z.shiftl_spec in Q by lia. destruct (i <? 9) eqn:K.
      - rewrite (Z.testbit_neg_r x (i - 9)) in Q by lia. destruct (Z.testbit x i); [discriminate|reflexivity].
      - destruct (Z.testbit x i), (Z.testbit x (i - 9)); try discriminate; reflexivity. }
    assert (x = 0); [|lia]. apply Z.bits_inj_0. intro i. destruct (Z.lt_ge_cases i 0); [apply Z.testbit_neg_r; lia|].
    destruct (Z.lt_ge_cases i 16).
    - rewrite B by lia. destruct (i <? 9) eqn:K; [reflexivity|]. rewrite B by lia. assert ((i - 9 <? 9) = true) as -> by lia. reflexivity.
    - rewrite <- (Z.mod_small x (2 ^ 16)) by lia. apply Z.mod_pow2_bits_high. lia. }
  clearbody y.
  assert (0 <= Z.shiftr y 13 < 65536) as R2 by (rewrite Z.shiftr_div_pow2 by lia; change (2 ^ 13) with 8192; lia).
  assert (0 <= Z.lxor y (Z.shiftr y 13) < 2 ^ 16) by (apply lxor_lt; lia). 
  assert (Z.lxor y (Z.shiftr y 13) <> 0); [|lia]. intro E. apply Z.lxor_eq in E.
  rewrite Z.shiftr_div_pow2 in E by lia. change (2 ^ 13) with 8192 in E. lia.
Qed.
Lemma seed_live a : byte a -> 0 < n_seed a < 65536.
Proof.
  intro B. unfold byte in B. assert (forall a, 0 <= a < 256 -> (0 <? n_seed a) && (n_seed a <? 65536) = true) as Q.
  { apply byte_sweep. vm_compute. reflexivity. }
  specialize (Q a B). lia.
Qed.

Lemma lor_low a b n : 0 <= n -> 0 <= b < 2 ^ n -> Z.lor (a * 2 ^ n) b = a * 2 ^ n + b.
Proof.
  intros N B. rewrite <- Z.shiftl_mul_pow2 by exact N. rewrite <- Z.lxor_lor; [rewrite lxor_small_shift by assumption; apply f_equal2; [symmetry; apply Z.shiftl_mul_pow2; exact N|reflexivity]|].
  apply Z.bits_inj_0. intro i. rewrite Z.land_spec. destruct (Z.lt_ge_cases i 0); [rewrite !Z.testbit_neg_r by lia; reflexivity|].
  destruct (Z.lt_ge_cases i n).
  - rewrite Z.shiftl_spec_low by lia. reflexivity.
  - rewrite <- (Z.mod_small b (2 ^ n)) by lia. rewrite Z.mod_pow2_bits_high by lia. apply andb_false_r.
Qed.
Lemma reschedule_ok mask c l : mask = 7 \/ mask = 11 -> 0 <= c <= 63 -> 0 < l < 65536 ->
  0 < fst (n_reschedule mask c l) < 65536 /\ window (mkBackoff mask c (snd (n_reschedule mask c l))).
Proof.
  intros M C L. unfold n_reschedule. cbv zeta. pose proof (lfsr_live l L) as R. set (x := n_lfsr l) in *. clearbody x. cbn [fst snd].
  split; [exact R|]. unfold window. cbn [b_counter b_mask b_delay]. split; [lia|]. split; [exact M|].
  assert (n_priority c = (63 - c) / 8) as ->.
  { unfold n_priority, PRIORITY_BITS, u32, u16. change (2 ^ 6 - 1) with 63. rewrite (Z.mod_small (63 - c)) by lia.
    rewrite Z.shiftr_div_pow2 by lia. change (2 ^ 3) with 8. lia. }
  assert (2 ^ mask - 1 = Z.ones mask) as -> by (rewrite Z.ones_equiv; lia).
  rewrite Z.land_ones by (destruct M; lia).
  assert (0 <= (63 - c) / 8 < 8) as Hp by lia. set (p := (63 - c) / 8) in *. clearbody p.
  rewrite Z.lor_comm. rewrite Z.shiftl_mul_pow2 by (destruct M; lia).
  assert (0 < 2 ^ mask <= 2048) as P2 by (destruct M; subst; cbn; lia).
  assert (0 <= x mod 2 ^ mask < 2 ^ mask) as Rm by (apply Z.mod_pos_bound; lia).
  rewrite lor_low by (destruct M; lia).
  set (q := 2 ^ mask) in *. set (y := x mod q) in *. clearbody q y. unfold u16. rewrite Z.mod_small by nia. nia.
Qed.
Lemma busy_ok j : forall c l, 0 <= c <= 63 -> 0 < l < 65536 -> 0 < fst (n_busy j c l) < 65536 /\ Forall window (snd (n_busy j c l)) /\
  Forall (fun b => b_mask b = 7) (snd (n_busy j c l)).
Proof.
  induction j as [|j IH]; intros c l C L; cbn [n_busy]; [cbn; auto|].
  pose proof (reschedule_ok MASK_SHORT c l ltac:(left; reflexivity) C L) as [R W]. destruct (n_reschedule MASK_SHORT c l) as [l1 d]. cbn [fst snd] in R, W.
  specialize (IH c l1 C R). destruct (n_busy j c l1) as [l2 ds]. cbn [fst snd] in *. destruct IH as (I1 & I2 & I3). split; [exact I1|].
  split; constructor; auto.
Qed.
Lemma send_loop_ok fuel ok busy : forall k c l, 1 <= c <= 63 -> (Z.to_nat c <= fuel)%nat -> 0 < l < 65536 ->
  exists t l' bs, n_send_loop fuel ok busy k c l = Some (t, l', bs) /\ (k < t)%nat /\ Z.of_nat (t - k) <= c /\
    0 < l' < 65536 /\ Forall window bs /\ (forall i, (k <= i < t - 1)%nat -> ok i = false) /\
    (Z.of_nat (t - k) < c -> ok (t - 1)%nat = true) /\
    map b_counter (filter (fun b => b_mask b =? 11) bs) = map (fun i => c - Z.of_nat i) (seq 1 (t - k - 1)).
Proof.
  induction fuel as [|fuel IH]; intros k c l C F L; [lia|]. cbn [n_send_loop].
  pose proof (busy_ok (busy k) c l ltac:(lia) L) as (R & W & Sh). destruct (n_busy (busy k) c l) as [l1 ds]. cbn [fst snd] in R, W, Sh.
  assert (filter (fun b => b_mask b =? 11) ds = []) as Fd.
  { clear - Sh. induction Sh as [|b t E Sh IH]; [reflexivity|]. cbn [filter]. rewrite E. exact IH. }
  assert (S k - k - 1 = 0)%nat as K by lia.
  destruct (ok k) eqn:O.
  { exists (Datatypes.S k), l1, ds. split; [reflexivity|]. split; [lia|]. split; [lia|]. split; [exact R|]. split; [exact W|].
    split; [intros; lia|]. split; [replace (Datatypes.S k - 1)%nat with k by lia; auto|]. rewrite Fd, K. reflexivity. }
  assert (u8 (c - 1) = c - 1) as U by (unfold u8; apply Z.mod_small; lia). rewrite U.
  destruct (c - 1 =? 0) eqn:E.
  { exists (Datatypes.S k), l1, ds. split; [reflexivity|]. split; [lia|]. split; [lia|]. split; [exact R|]. split; [exact W|].
    split; [intros; lia|]. split; [intros; lia|]. rewrite Fd, K. reflexivity. }
  pose proof (reschedule_ok MASK_LONG (c - 1) l1 ltac:(right; reflexivity) ltac:(lia) R) as [R2 W2].
  destruct (n_reschedule MASK_LONG (c - 1) l1) as [l2 d]. cbn [fst snd] in R2, W2.
  destruct (IH (Datatypes.S k) (c - 1) l2 ltac:(lia) ltac:(lia) R2) as (t & l' & bs & Eq & I1 & I2 & I3 & I4 & I5 & I6 & I7).
  rewrite Eq. cbn [obind]. do 3 eexists. split; [reflexivity|]. split; [lia|]. split; [lia|]. split; [exact I3|].
  split; [apply Forall_app; split; [exact W|constructor; assumption]|].
  split; [intros i Hi; destruct (Nat.eq_dec i k) as [->|N]; [exact O|apply I5; lia]|]. split; [intro; apply I6; lia|].
  rewrite filter_app, Fd. cbn [app filter b_mask MASK_LONG Z.eqb Pos.eqb map b_counter]. rewrite I7.
  replace (t - k - 1)%nat with (Datatypes.S (t - Datatypes.S k - 1)) by lia. cbn [seq map]. f_equal.
  rewrite <- (seq_shift _ 1), map_map. apply map_ext. intro i. lia.
Qed.
Lemma send_ok ok busy command l : 4 <= command < 256 -> 0 < l < 65536 ->
  exists t l' bs, n_send ok busy command l = Some (t, l', bs) /\ (0 < t)%nat /\ Z.of_nat t <= max_tries command /\
    0 < l' < 65536 /\ Forall window bs /\ (forall i, (i < t - 1)%nat -> ok i = false) /\
    (Z.of_nat t < max_tries command -> ok (t - 1)%nat = true) /\
    map b_counter (filter (fun b => b_mask b =? 11) bs) = map (fun i => max_tries command - Z.of_nat i) (seq 1 (t - 1)).
Proof.
  intros C L. unfold n_send, PRIORITY_BITS, MIN_TX_TRIES. change (8 - 6) with 2. rewrite Z.shiftr_div_pow2 by lia. change (2 ^ 2) with 4.
  change (Z.min 20 (command / 4)) with (max_tries command).
  assert (1 <= max_tries command <= 20) as M by (unfold max_tries; lia).
  destruct (send_loop_ok 256 ok busy 0 (max_tries command) l ltac:(lia) ltac:(lia) L) as (t & l' & bs & E & I1 & I2 & I3 & I4 & I5 & I6 & I7).
  rewrite Nat.sub_0_r in I2, I6, I7. exists t, l', bs. split; [exact E|]. split; [exact I1|]. split; [exact I2|]. split; [exact I3|]. split; [exact I4|].
  split; [intros; apply I5; lia|]. split; [exact I6|exact I7].
Qed.
