From Verif Require Import Base BitLemmas SliceLemmas CrcModel CrcSpec CrcProofs SabProofs Sab2Spec Sab2Proofs CanProofs RprModel RprSpec.

Lemma rcrc_range r d : 0 <= r < 65536 -> byte d -> 0 <= rpr_crcUpdate r d < 65536.
Proof. exact (sab2_crc_range r d). Qed.
Lemma rcrc_fold data : forall r, 0 <= r < 65536 -> Forall byte data -> 0 <= fold_left rpr_crcUpdate data r < 65536.
Proof. exact (sab2_crc_fold data). Qed.
Lemma rcrc_iff data c : Forall byte data -> 0 <= c < 65536 -> (sab2_checksum data c <-> c = fold_left rpr_crcUpdate data 0xffff).
Proof. exact (sab2_checksum_iff data c). Qed.
Lemma rcrc_residue data lo hi : Forall byte data -> byte lo -> byte hi ->
  (fold_left rpr_crcUpdate (data ++ [lo; hi]) 0xffff = 0 <-> sab2_checksum data (lo + 256 * hi)).
Proof. exact (sab2_residue data lo hi). Qed.
Global Opaque rpr_crcUpdate.

Lemma rstuff_model b : byte b -> rpr_writeByteEscaped b = rstuff b.
Proof.
  intro H. unfold rpr_writeByteEscaped, rstuff, rpr_start, rpr_end, rpr_escape. destruct ((b =? 126) || (b =? 124) || (b =? 125)) eqn:E; [|reflexivity].
  rewrite toggle_lxor by exact H. reflexivity.
Qed.
Lemma flat_rstuff l : Forall byte l -> flat_map rpr_writeByteEscaped l = flat_map rstuff l.
Proof. induction 1; cbn [flat_map]; [reflexivity|]. rewrite rstuff_model by assumption. congruence. Qed.

(* ---- sending ---- *)
Lemma dest_ok m : 0 <= m_dest m < 65536 -> rpr_destination m = wire_dest (m_type m) (m_dest m) /\ 0 <= wire_dest (m_type m) (m_dest m) < 65536.
Proof.
  intro R. unfold rpr_destination, wire_dest, ADDRESS_VALUE, ADDRESS_BROADCAST, ADDRESS_INDIVIDUAL_GROUP.
  assert (Z.land (m_dest m) 32767 = m_dest m mod 32768) as E by (apply (land_ones_mod (m_dest m) 15); lia).
  destruct (m_type m); rewrite ?E; split; try lia.
  rewrite Z.lor_comm. change 32768 with (Z.shiftl 1 15) at 1. rewrite lor_high by lia. lia.
Qed.
Lemma shr8 x : Z.shiftr x 8 = x / 256. Proof. rewrite Z.shiftr_div_pow2 by lia. reflexivity. Qed.
Lemma frame_ok m : 0 <= m_dest m < 65536 -> 0 <= m_src m < 65536 -> byte (m_cmd m) -> Forall byte (m_payload m) ->
  exists sum, rpr_sum (wire_dest (m_type m) (m_dest m)) (m_src m) (m_cmd m) (m_payload m) sum /\
    rpr_frame m = rpr_wire (rpr_content (wire_dest (m_type m) (m_dest m)) (m_src m) (m_cmd m) (m_payload m) sum).
Proof.
  intros D S C P. destruct (dest_ok m D) as (E & R). unfold rpr_frame. rewrite E. cbv zeta. rewrite !shr8.
  set (d := wire_dest (m_type m) (m_dest m)) in *.
  assert (u8 (d / 256) = d / 256) as -> by (unfold u8; lia). assert (u8 (m_src m / 256) = m_src m / 256) as -> by (unfold u8; lia).
  change (u8 d) with (d mod 256). change (u8 (m_src m)) with (m_src m mod 256).
  set (h := [d mod 256; d / 256; m_src m mod 256; m_src m / 256; m_cmd m] ++ m_payload m).
  assert (Forall byte h) as B.
  { unfold h. cbn [app]. unfold byte in *. repeat (apply Forall_cons; [lia|]). exact P. }
  pose proof (rcrc_fold h 0xffff ltac:(lia) B) as Q. exists (fold_left rpr_crcUpdate h 0xffff).
  split; [unfold rpr_sum; fold h; apply rcrc_iff; [exact B|exact Q|reflexivity]|].
  unfold rpr_crcInitialValue. set (c := fold_left rpr_crcUpdate h 65535) in *.
  assert (rpr_content d (m_src m) (m_cmd m) (m_payload m) c = h ++ [c mod 256; c / 256]) as -> by (unfold rpr_content, h; rewrite <- app_assoc; reflexivity).
  unfold rpr_wire. rewrite flat_map_app, <- flat_rstuff by exact B.
  clearbody c. assert (u8 (c / 256) = c / 256) as -> by (unfold u8; lia). change (u8 c) with (c mod 256).
  rewrite !rstuff_model by (unfold byte; lia). cbn [flat_map]. rewrite app_nil_r, <- !app_assoc. reflexivity.
Qed.

(* ---- receiving ---- *)
Section Receive.
Variable N : Z.
Hypothesis HN : 0 <= N.
Variable alloc : rpr -> Z -> bool.
Notation loop := (rpr_loop N alloc).
Notation step := (rpr_byte N alloc).

(* the effect of one byte of content, after unescaping *)
Definition rpr_data (s : rpr) (data : Z) : option (rpr * list Z) :=
  let len := r_length s in
  let s := set_frame s (r_crc s) (u8 (len + 1)) false true (r_ended s) in
  if (len =? 0) || (len =? 2) then Some (set_abuf s data, [])
  else if len =? 1 then Some (rpr_dest_byte s data, [])
  else if len =? 3 then Some (rpr_src_byte s data)
  else rpr_payload_byte N s data.

Lemma byte_plain s b : r_started s = true -> (b =? 0x7e) || (b =? 0x7c) || (b =? 0x7d) = false ->
  step s b = do (s', out) <- rpr_data s (if r_esc s then Z.lxor b 0x20 else b); Some (s', out, true).
Proof.
  intros St E. unfold rpr_byte, rpr_data, rpr_start, rpr_end, rpr_escape. assert ((b =? 126) = false) as -> by lia. assert ((b =? 124) = false) as -> by lia. assert ((b =? 125) = false) as -> by lia.
  cbv zeta. generalize (if r_esc s then Z.lxor b 32 else b) as d. intro d. cbn [r_started r_length r_crc r_esc r_ended set_frame]. rewrite St. cbn [negb].
  assert (forall c l e st en c' l' e' st' en', set_frame (set_frame s c l e st en) c' l' e' st' en' = set_frame s c' l' e' st' en') as -> by reflexivity.
  destruct ((r_length s =? 0) || (r_length s =? 2)); [reflexivity|]. destruct (r_length s =? 1); [reflexivity|]. destruct (r_length s =? 3); [|reflexivity].
  match goal with |- context [rpr_src_byte ?a ?b] => destruct (rpr_src_byte a b) end. reflexivity.
Qed.
Lemma loop_byte s b r : byte b -> r_started s = true -> r_esc s = false ->
  loop s (rstuff b ++ r) = do (s', out) <- rpr_data s b; do (s'', out', rest) <- loop s' r; Some (s'', out ++ out', rest).
Proof.
  intros B St Es. unfold rstuff. destruct ((b =? 126) || (b =? 124) || (b =? 125)) eqn:E.
  - cbn [app]. cbn [rpr_loop].
    assert (step s 125 = Some (set_frame s (r_crc s) (r_length s) true (r_started s) (r_ended s), [], true)) as -> by reflexivity. cbn [obind].
    rewrite byte_plain; [|exact St|].
    2:{ assert (b = 126 \/ b = 124 \/ b = 125) as [ -> |[ -> | -> ]] by lia; reflexivity. }
    cbn [r_esc set_frame]. assert (Z.lxor (toggle5 b) 32 = b) as -> by (assert (b = 126 \/ b = 124 \/ b = 125) as [ -> |[ -> | -> ]] by lia; reflexivity).
    assert (rpr_data (set_frame s (r_crc s) (r_length s) true (r_started s) (r_ended s)) b = rpr_data s b) as -> by reflexivity.
    destruct (rpr_data s b) as [[s' out]|]; [|reflexivity]. cbn [obind app]. destruct (loop s' r) as [[[s'' out'] rest]|]; reflexivity.
  - cbn [app]. cbn [rpr_loop]. rewrite byte_plain by assumption. rewrite Es. destruct (rpr_data s b) as [[s' out]|]; reflexivity.
Qed.
Lemma data_keeps s b s' out : rpr_data s b = Some (s', out) -> r_started s' = true /\ r_esc s' = false.
Proof.
  unfold rpr_data. cbv zeta. destruct ((r_length s =? 0) || (r_length s =? 2)); [injection 1 as <- <-; split; reflexivity|].
  destruct (r_length s =? 1); [injection 1 as <- <-; split; reflexivity|]. destruct (r_length s =? 3); [injection 1 as <- <-; split; reflexivity|].
  unfold rpr_payload_byte. intro H.
  match type of H with (obind ?e _) = _ => destruct e as [s1|] eqn:E; [|discriminate] end. cbn [obind] in H. injection H as <- <-.
  match type of E with (if ?c then _ else _) = _ => destruct c; [|injection E as <-; split; reflexivity] end.
  match type of E with (if ?c then _ else _) = _ => destruct c; [|injection E as <-; split; reflexivity] end.
  match type of E with (obind ?e _) = _ => destruct e as [bf|]; [|discriminate] end. cbn [obind] in E. injection E as <-. split; reflexivity.
Qed.
Fixpoint rpr_datas (s : rpr) (l : list Z) : option (rpr * list Z) :=
  match l with
  | [] => Some (s, [])
  | b :: t => do (s, out) <- rpr_data s b; do (s, out') <- rpr_datas s t; Some (s, out ++ out')
  end.
Lemma loop_datas l : Forall byte l -> forall s r, r_started s = true -> r_esc s = false ->
  loop s (flat_map rstuff l ++ r) = do (s', out) <- rpr_datas s l; do (s'', out', rest) <- loop s' r; Some (s'', out ++ out', rest).
Proof.
  induction 1 as [|b l B F IH]; intros s r St Es; cbn [flat_map rpr_datas].
  - cbn [app obind]. destruct (loop s r) as [[[s'' out'] rest]|]; reflexivity.
  - rewrite <- app_assoc, loop_byte by assumption. destruct (rpr_data s b) as [[s1 o1]|] eqn:E; [|reflexivity]. cbn [obind].
    destruct (data_keeps s b s1 o1 E) as [St1 Es1]. rewrite IH by assumption. destruct (rpr_datas s1 l) as [[s2 o2]|]; [|reflexivity]. cbn [obind].
    destruct (loop s2 r) as [[[s3 o3] rest]|]; [|reflexivity]. cbn [obind]. rewrite app_assoc. reflexivity.
Qed.
Lemma datas_app l1 : forall s l2, rpr_datas s (l1 ++ l2) = do (s1, o1) <- rpr_datas s l1; do (s2, o2) <- rpr_datas s1 l2; Some (s2, o1 ++ o2).
Proof.
  induction l1 as [|b l1 IH]; intros s l2; cbn [app rpr_datas obind].
  - destruct (rpr_datas s l2) as [[s2 o2]|]; reflexivity.
  - destruct (rpr_data s b) as [[s1 o1]|]; [|reflexivity]. cbn [obind]. rewrite IH. destruct (rpr_datas s1 l1) as [[s2 o2]|]; [|reflexivity]. cbn [obind].
    destruct (rpr_datas s2 l2) as [[s3 o3]|]; [|reflexivity]. cbn [obind]. rewrite app_assoc. reflexivity.
Qed.

(* the payload part *)
Lemma payload_mine l : forall s done rest, r_mine s = true -> r_length s = 4 + zlen done -> 4 + zlen done + zlen l <= Z.min 255 (N + 8) ->
  r_buf s = done ++ rest -> zlen (r_buf s) = N + 8 ->
  exists rest', rpr_datas s l = Some (mkRpr (r_address s) (r_group s) (r_toSend s) (r_received s) (rb_type s) (rb_dest s) (rb_src s) (rb_cmd s) (rb_len s + zlen l)
    (done ++ l ++ rest') (fold_left rpr_crcUpdate l (r_crc s)) (r_length s + zlen l) (if l then r_esc s else false) (r_abuf s) (if l then r_started s else true) (r_ended s) true (r_overflow s) (r_own s),
    if rpr_forwards s then flat_map rpr_writeByteEscaped l else []) /\ zlen (done ++ l ++ rest') = N + 8.
Proof.
  induction l as [|b l IH]; intros s done rest M L B E Lb; pose proof (zlen_nonneg done).
  - exists rest. cbn [rpr_datas fold_left flat_map app]. rewrite zlen_nil, !Z.add_0_r. split; [|rewrite <- E; exact Lb].
    rewrite <- E. assert ((if rpr_forwards s then @nil Z else []) = []) as -> by (destruct (rpr_forwards s); reflexivity). destruct s; cbn in M; subst; reflexivity.
  - rewrite zlen_cons in B. pose proof (zlen_nonneg l). cbn [rpr_datas]. unfold rpr_data. cbv zeta.
    assert ((r_length s =? 0) || (r_length s =? 2) = false) as -> by lia. assert ((r_length s =? 1) = false) as -> by lia. assert ((r_length s =? 3) = false) as -> by lia.
    unfold rpr_payload_byte. cbn [r_mine r_length r_buf set_frame]. rewrite M. assert (u8 (r_length s + 1) = r_length s + 1) as -> by (unfold u8; lia).
    assert ((r_length s + 1 <=? N + 8) = true) as -> by lia.
    destruct rest as [|x rest]. { exfalso. rewrite E, zlen_app, zlen_nil in Lb. lia. }
    rewrite E, upd_at by lia. cbn [obind].
    set (s1 := set_payload _ _ _ _ _).
    destruct (IH s1 (done ++ [b]) rest) as (rest' & E1 & L1).
    + exact M. + unfold s1. cbn [r_length set_payload set_frame]. rewrite zlen_app, zlen_cons, zlen_nil. lia.
    + rewrite zlen_app, zlen_cons, zlen_nil. lia. + unfold s1. cbn [r_buf set_payload]. rewrite <- app_assoc. reflexivity.
    + unfold s1. cbn [r_buf set_payload]. rewrite <- Lb, E, !zlen_app, !zlen_cons. lia.
    + exists rest'. rewrite E1. cbn [obind]. split; [|rewrite <- app_assoc in L1; exact L1].
      assert (rpr_forwards s1 = rpr_forwards s) as Fw by reflexivity. rewrite Fw.
      assert ((if l then r_esc s1 else false) = false) as -> by (destruct l; reflexivity). assert ((if l then r_started s1 else true) = true) as -> by (destruct l; reflexivity).
      unfold s1.
      cbn [r_address r_group r_toSend r_received rb_type rb_dest rb_src rb_cmd rb_len r_crc r_length r_abuf r_ended r_overflow r_own set_payload set_frame].
      rewrite zlen_cons, <- app_assoc. cbn [app flat_map fold_left].
      rewrite !Z.add_assoc. unfold rpr_forwards at 1. cbn [r_own rb_type set_payload set_frame]. fold (rpr_forwards s).
      destruct (rpr_forwards s) eqn:Q; unfold rpr_forwards in Q; rewrite ?Q; reflexivity.
Qed.
Lemma payload_other l : forall s, r_mine s = false -> 4 <= r_length s -> r_length s + zlen l <= 255 ->
  rpr_datas s l = Some (set_frame s (r_crc s) (r_length s + zlen l) (if l then r_esc s else false) (if l then r_started s else true) (r_ended s),
    if rpr_forwards s then flat_map rpr_writeByteEscaped l else []).
Proof.
  induction l as [|b l IH]; intros s M L B.
  - cbn [rpr_datas flat_map]. rewrite zlen_nil, Z.add_0_r. assert ((if rpr_forwards s then @nil Z else []) = []) as -> by (destruct (rpr_forwards s); reflexivity). destruct s. reflexivity.
  - rewrite zlen_cons in B. pose proof (zlen_nonneg l). cbn [rpr_datas]. unfold rpr_data. cbv zeta.
    assert ((r_length s =? 0) || (r_length s =? 2) = false) as -> by lia. assert ((r_length s =? 1) = false) as -> by lia. assert ((r_length s =? 3) = false) as -> by lia.
    unfold rpr_payload_byte. cbn [r_mine set_frame]. rewrite M. cbn [obind]. assert (u8 (r_length s + 1) = r_length s + 1) as -> by (unfold u8; lia).
    rewrite IH by (cbn [r_mine r_length set_frame]; assumption || lia). cbn [obind]. rewrite zlen_cons.
    assert (forall l e st en, rpr_forwards (set_frame s (r_crc s) l e st en) = rpr_forwards s) as F by reflexivity. rewrite !F.
    unfold set_frame. cbn [r_address r_group r_toSend r_received rb_type rb_dest rb_src rb_cmd rb_len r_buf r_crc r_length r_esc r_abuf r_started r_ended r_mine r_overflow r_own].
    rewrite !Z.add_assoc. cbn [flat_map]. destruct l; destruct (rpr_forwards s); reflexivity.
Qed.

Lemma addr_join x : 0 <= x < 65536 -> u16 (Z.lor (Z.shiftl (x / 256) 8) (x mod 256)) = x.
Proof. intro R. rewrite lor_high by lia. unfold u16. change (2 ^ 8) with 256. lia. Qed.
Lemma group_bit d : 0 <= d < 65536 -> negb (Z.land d 32768 =? 0) = (32768 <=? d).
Proof.
  intro R. change 32768 with (2 ^ 15) at 1. rewrite land_pow2_test by lia. rewrite Z.testbit_odd, Z.shiftr_div_pow2 by lia. change (2 ^ 15) with 32768.
  destruct (32768 <=? d) eqn:E; [assert (d / 32768 = 1) as -> by lia|assert (d / 32768 = 0) as -> by lia]; reflexivity.
Qed.
Lemma addr_value d : Z.land d ADDRESS_VALUE = d mod 32768.
Proof. apply (land_ones_mod d 15). lia. Qed.
Lemma role_ok address group dest : 0 <= dest < 65536 -> 0 <= address < 32768 ->
  (if dest =? ADDRESS_BROADCAST then RBroadcast
    else if negb (Z.land dest ADDRESS_INDIVIDUAL_GROUP =? 0) then
      if group =? Z.land dest ADDRESS_VALUE then RMulticast else RAny
    else if address =? Z.land dest ADDRESS_VALUE then RUnicast else RAny) = role address group dest.
Proof.
  intros R A. unfold role, ADDRESS_BROADCAST, ADDRESS_INDIVIDUAL_GROUP. rewrite group_bit by exact R. rewrite addr_value.
  destruct (dest =? 65535); [reflexivity|]. destruct (32768 <=? dest) eqn:E.
  - replace (dest mod 32768) with (dest - 32768) by lia. rewrite Z.eqb_sym. reflexivity.
  - replace (dest mod 32768) with dest by lia. rewrite Z.eqb_sym. reflexivity.
Qed.
Lemma data_len s b n n' : r_length s = n -> u8 (n + 1) = n' -> rpr_data s b =
  let s := set_frame s (r_crc s) n' false true (r_ended s) in
  if (n =? 0) || (n =? 2) then Some (set_abuf s b, [])
  else if n =? 1 then Some (rpr_dest_byte s b, [])
  else if n =? 3 then Some (rpr_src_byte s b)
  else rpr_payload_byte N s b.
Proof. intros <- <-. reflexivity. Qed.
Lemma some_pair {A B} (a a' : A) (b b' : B) : a = a' -> b = b' -> Some (a, b) = Some (a', b').
Proof. intros -> ->. reflexivity. Qed.
Definition header (dest src : Z) : list Z := [dest mod 256; dest / 256; src mod 256; src / 256].
Definition minef (s : rpr) (dest : Z) : bool := negb (rtype_eqb (role (r_address s) (r_group s) dest) RAny).
Definition ownf (s : rpr) (src : Z) : bool := r_address s =? src mod 32768.
Definition fwdf (s : rpr) (dest src : Z) : bool := negb (ownf s src) && negb (rtype_eqb (role (r_address s) (r_group s) dest) RUnicast).
Lemma header_ok s dest src : 0 <= r_address s < 32768 -> 0 <= dest < 65536 -> 0 <= src < 65536 ->
  rpr_datas (set_frame s rpr_crcInitialValue 0 false true false) (header dest src) =
  Some (mkRpr (r_address s) (r_group s) (r_toSend s) (r_received s) (role (r_address s) (r_group s) dest) dest (src mod 32768) (rb_cmd s) 0 (r_buf s)
          (if minef s dest then fold_left rpr_crcUpdate (header dest src) 0xffff else 0xffff) 4 false (src mod 256) true false (minef s dest) false (ownf s src),
        if fwdf s dest src then 0x7e :: flat_map rstuff (header dest src) else []).
Proof.
  intros A D S. destruct s as [ad gr ts rc ty de sr cm ln bf cr le es ab st en mi ov ow]. unfold minef, ownf, fwdf. unfold header.
  Ltac srec := cbn [set_payload set_queues set_cmd set_frame set_abuf set_dest set_src r_own rb_type rb_dest r_abuf r_address r_group r_toSend r_received rb_src rb_cmd rb_len r_buf r_crc r_length r_esc r_started r_ended r_mine r_overflow orb] in *.
  srec. cbn [rpr_datas]. rewrite (data_len _ _ 0 1) by reflexivity. cbv zeta. srec. cbn [Z.eqb orb obind].
  rewrite (data_len _ _ 1 2) by reflexivity. cbv zeta. srec. change ((1 =? 0) || (1 =? 2)) with false. change (1 =? 1) with true. cbv iota. cbn [obind].
  unfold rpr_dest_byte. cbv zeta. srec. rewrite addr_join by exact D. rewrite role_ok by assumption.
  rewrite (data_len _ _ 2 3) by reflexivity. cbv zeta. srec. change ((2 =? 0) || (2 =? 2)) with true. cbv iota. cbn [obind].
  rewrite (data_len _ _ 3 4) by reflexivity. cbv zeta. srec. change ((3 =? 0) || (3 =? 2)) with false. change (3 =? 1) with false. change (3 =? 3) with true. cbv iota. cbn [obind].
  unfold rpr_src_byte. cbv zeta. srec. rewrite addr_join by exact S. rewrite addr_value. cbn [obind app]. rewrite app_nil_r. unfold rpr_forwards. srec. unfold ownf. srec.
  apply some_pair.
  - unfold header, rpr_crcInitialValue. cbn [fold_left]. destruct (negb (rtype_eqb (role ad gr dest) RAny)); reflexivity.
  - match goal with |- (if ?c then _ else _) = (if ?c' then _ else _) => change c' with c; destruct c; [|reflexivity] end.
    rewrite shr8. change (u8 dest) with (dest mod 256). assert (u8 (dest / 256) = dest / 256) as -> by (unfold u8; lia).
    rewrite !rstuff_model by (unfold byte; lia). unfold rpr_start. cbn [app flat_map]. rewrite ?app_nil_r. reflexivity.
Qed.

Definition rwf (s : rpr) : Prop := 0 <= r_address s < 32768 /\ zlen (r_buf s) = N + 8.

Lemma alloc_split (al : rpr -> Z -> bool) a n : if al a n then True else ~ (forall s1, al s1 n = true).
Proof. destruct (al a n) eqn:E; [exact I|]. intro H. rewrite H in E. discriminate. Qed.
Lemma end_ok s c p t : r_started s = true -> 6 <= r_length s -> (r_mine s = true -> r_buf s = c :: p ++ t /\ rb_len s = 1 + zlen p /\ 1 <= zlen p) ->
  exists s', rpr_end_byte alloc s = Some (s', if rpr_forwards s then [124] else []) /\ r_address s' = r_address s /\ r_group s' = r_group s /\ r_buf s' = r_buf s /\
    r_toSend s' = r_toSend s /\ r_started s' = false /\ r_ended s' = true /\ r_length s' = 0 /\ r_esc s' = false /\ r_crc s' = 65535 /\
    (r_received s' = r_received s \/ r_mine s = true /\ r_crc s = 0 /\ r_received s' = r_received s ++ [mkR (rb_type s) (rb_dest s) (rb_src s) c p]) /\
    (r_mine s = true -> r_crc s = 0 -> zlen (r_received s) < 10 -> (forall s1, alloc s1 (zlen p) = true) ->
      r_received s' = r_received s ++ [mkR (rb_type s) (rb_dest s) (rb_src s) c p]).
Proof.
  destruct s as [ad gr ts rc ty de sr cm ln bf cr le es ab st en mi ov ow].
  intros St L Mi. srec. subst st. unfold rpr_end_byte. srec. assert ((6 <=? le) && true = true) as -> by lia. cbv zeta. srec.
  destruct mi.
  - destruct (Mi eq_refl) as (-> & -> & Lp). destruct (cr =? 0) eqn:Ec; cbn [andb].
    + assert ((1 <? 1 + zlen p) = true) as -> by lia. change (znth (c :: p ++ t) 0) with (Some c). cbn [obind]. unfold set_cmd, rpr_push_received. srec.
      replace (1 + zlen p - 1) with (zlen p) by lia.
      match goal with |- context [alloc ?a _] => generalize (alloc_split alloc a (zlen p)); destruct (alloc a (zlen p)) end; intro Al.
      * destruct (10 <=? zlen rc) eqn:Q.
        -- cbn [obind]. eexists. split; [reflexivity|]. unfold set_frame. srec. do 9 (split; [reflexivity|]). split; [left; reflexivity|]. intros; lia.
        -- rewrite (zsub_app [c] p t 1 (zlen p) eq_refl eq_refl : zsub (c :: p ++ t) 1 (zlen p) = Some p). cbn [obind]. unfold set_queues. srec. eexists. split; [reflexivity|]. srec.
           do 9 (split; [reflexivity|]). split; [right; split; [reflexivity|split; [lia|reflexivity]]|reflexivity].
      * destruct (10 <=? zlen rc) eqn:Q.
        -- cbn [obind]. eexists. split; [reflexivity|]. unfold set_frame. srec. do 9 (split; [reflexivity|]). split; [left; reflexivity|]. intros; lia.
        -- cbn [obind]. eexists. split; [reflexivity|]. srec. do 9 (split; [reflexivity|]). split; [left; reflexivity|]. intros _ _ _ H. exfalso. apply Al. exact H.
    + cbn [obind]. eexists. split; [reflexivity|]. srec. do 9 (split; [reflexivity|]). split; [left; reflexivity|]. intros; lia.
  - cbn [andb obind]. eexists. split; [reflexivity|]. srec. do 9 (split; [reflexivity|]). split; [left; reflexivity|]. discriminate.
Qed.

(* a complete frame *)
Lemma receive_ok s dest src cmd payload sum r :
  rwf s -> 0 <= dest < 65536 -> 0 <= src < 65536 -> byte cmd -> Forall byte payload -> 0 <= sum < 65536 ->
  zlen payload <= 248 -> (minef s dest = true -> zlen payload <= N + 1) ->
  exists s', loop s (rpr_wire (rpr_content dest src cmd payload sum) ++ r) =
    (do (s'', out', rest) <- loop s' r; Some (s'', (if fwdf s dest src then rpr_wire (rpr_content dest src cmd payload sum) else []) ++ out', rest)) /\
    rwf s' /\ r_address s' = r_address s /\ r_group s' = r_group s /\ r_toSend s' = r_toSend s /\ r_started s' = false /\ r_ended s' = true /\
    (r_received s' = r_received s \/
       minef s dest = true /\ rpr_sum dest src cmd payload sum /\
       r_received s' = r_received s ++ [mkR (role (r_address s) (r_group s) dest) dest (src mod 32768) cmd (payload ++ [sum mod 256; sum / 256])]) /\
    (minef s dest = true -> rpr_sum dest src cmd payload sum -> zlen (r_received s) < 10 -> (forall s1, alloc s1 (zlen payload + 2) = true) ->
       r_received s' = r_received s ++ [mkR (role (r_address s) (r_group s) dest) dest (src mod 32768) cmd (payload ++ [sum mod 256; sum / 256])]).
Proof.
  intros (A & Lb) D S C P U Lp Lm. unfold rpr_wire. set (s0 := set_frame s rpr_crcInitialValue 0 false true false).
  set (p := payload ++ [sum mod 256; sum / 256]).
  set (body := cmd :: p).
  assert (rpr_content dest src cmd payload sum = header dest src ++ body) as -> by reflexivity.
  assert (Forall byte (header dest src)) as Bh. { unfold header, byte in *. repeat (apply Forall_cons; [lia|]). apply Forall_nil. }
  assert (Forall byte body) as Bb. { unfold body. apply Forall_cons; [exact C|]. apply Forall_app. split; [exact P|]. unfold byte. repeat (apply Forall_cons; [lia|]). apply Forall_nil. }
  assert (zlen p = zlen payload + 2) as Lpp. { unfold p. rewrite zlen_app, !zlen_cons, zlen_nil. lia. }
  assert (zlen body = zlen payload + 3) as Lbody. { unfold body. rewrite zlen_cons. lia. }
  cbn [app]. cbn [rpr_loop]. assert (step s 126 = Some (s0, [], true)) as -> by reflexivity. cbn [obind].
  rewrite <- app_assoc. cbn [app]. rewrite loop_datas; [|apply Forall_app; split; assumption|reflexivity|reflexivity].
  rewrite datas_app. unfold s0 at 1. rewrite header_ok by assumption. cbn [obind].
  set (s1 := mkRpr _ _ _ _ _ _ _ _ _ _ _ _ _ _ _ _ _ _ _).
  assert (rpr_forwards s1 = fwdf s dest src) as F1 by reflexivity.
  pose proof (zlen_nonneg payload) as Np.
  rewrite !flat_map_app.
  assert (exists s2 t, rpr_datas s1 body = Some (s2, if fwdf s dest src then flat_map rstuff body else []) /\ rpr_forwards s2 = fwdf s dest src /\ r_started s2 = true /\ 6 <= r_length s2 /\
    (r_mine s2 = true -> r_buf s2 = cmd :: p ++ t /\ rb_len s2 = 1 + zlen p /\ 1 <= zlen p) /\ zlen (r_buf s2) = N + 8 /\ r_address s2 = r_address s /\ r_group s2 = r_group s /\
    r_toSend s2 = r_toSend s /\ r_received s2 = r_received s /\ r_mine s2 = minef s dest /\ rb_type s2 = role (r_address s) (r_group s) dest /\ rb_dest s2 = dest /\ rb_src s2 = src mod 32768 /\
    (minef s dest = true -> r_crc s2 = fold_left rpr_crcUpdate (header dest src ++ body) 65535)) as (s2 & t & E2 & F2 & G1 & G2 & G3 & G4 & G5 & G6 & G7 & G8 & G9 & G10 & G11 & G12 & G13).
  { destruct (minef s dest) eqn:M.
    - specialize (Lm eq_refl). destruct (payload_mine body s1 [] (r_buf s)) as (rest' & E & Le).
      + reflexivity. + unfold s1. cbn [r_length]. rewrite zlen_nil. lia. + rewrite zlen_nil. lia. + reflexivity. + exact Lb.
      + rewrite (flat_rstuff body Bb), F1 in E. do 2 eexists. split; [exact E|]. unfold s1, rpr_forwards in *. srec. split; [exact F1|]. split; [reflexivity|]. split; [lia|].
        split; [intros _; split; [reflexivity|lia]|]. split; [exact Le|]. do 8 (split; [reflexivity|]). intros _. rewrite fold_left_app. reflexivity.
    - exists (set_frame s1 (r_crc s1) (4 + zlen body) false true false), []. rewrite payload_other; [|reflexivity|unfold s1; cbn [r_length]; lia|unfold s1; cbn [r_length]; lia].
      rewrite (flat_rstuff body Bb), F1. split; [reflexivity|]. split; [exact F1|]. unfold s1. srec. split; [reflexivity|]. split; [lia|]. split; [discriminate|]. split; [exact Lb|].
      do 8 (split; [first [reflexivity|exact M]|]). discriminate. }
  rewrite E2. cbn [obind]. cbn [rpr_loop].
  destruct (end_ok s2 cmd p t G1 G2 G3) as (s3 & E3 & H1 & H2 & H3 & H4 & H5 & H6 & H7 & H8 & H9 & H10 & H11).
  assert (step s2 124 = do (s, out) <- rpr_end_byte alloc s2; Some (s, out, true)) as -> by reflexivity. rewrite E3, F2. cbn [obind].
  exists s3. split.
  { destruct (fwdf s dest src); destruct (loop s3 r) as [[[s'' out'] rest]|]; cbn [obind app]; rewrite <- ?app_assoc; reflexivity. }
  assert (minef s dest = true -> (r_crc s2 = 0 <-> rpr_sum dest src cmd payload sum)) as Cs.
  { intro M. rewrite (G13 M). unfold rpr_sum.
    assert (Forall byte (header dest src ++ cmd :: payload)) as Bx by (apply Forall_app; split; [exact Bh|apply Forall_cons; assumption]).
    pose proof (rcrc_residue (header dest src ++ cmd :: payload) (sum mod 256) (sum / 256) Bx ltac:(unfold byte; lia) ltac:(unfold byte; lia)) as Q.
    assert (sum mod 256 + 256 * (sum / 256) = sum) as Es by lia. rewrite Es in Q.
    assert ((header dest src ++ cmd :: payload) ++ [sum mod 256; sum / 256] = header dest src ++ body) as Eb by (rewrite <- app_assoc; reflexivity).
    rewrite Eb in Q. exact Q. }
  split; [split; [rewrite H1, G5; exact A|rewrite H3; exact G4]|]. split; [congruence|]. split; [congruence|]. split; [congruence|]. split; [exact H5|]. split; [exact H6|].
  rewrite G8, G9, G10, G11, G12 in *. rewrite Lpp in H11. split.
  - destruct H10 as [H10|(M & Z0 & R)]; [left; exact H10|]. right. split; [exact M|]. split; [apply (Cs M); exact Z0|exact R].
  - intros M Su. apply H11; [exact M|apply (Cs M); exact Su].
Qed.

(* ---- memory safety ---- *)
Definition rinv (s : rpr) : Prop :=
  rwf s /\ 0 <= r_length s <= 255 /\ 0 <= rb_len s /\ (2 <= r_length s -> rb_len s <= Z.max 0 (Z.min (r_length s) (N + 8) - 4)).

Lemma data_safe s b : rinv s -> r_length s + 1 <= 255 -> exists s' out, rpr_data s b = Some (s', out) /\ rinv s' /\ r_length s' = r_length s + 1 /\
  (4 <= r_length s -> r_mine s' = r_mine s).
Proof.
  destruct s as [ad gr ts rc ty de sr cm ln bf cr le es ab st en mi ov ow]. unfold rinv, rwf. srec. intros ((A & Lb) & L & B & Q) L'.
  rewrite (data_len _ _ le (le + 1)); [|reflexivity|unfold u8; srec; lia]. cbv zeta. srec.
  destruct ((le =? 0) || (le =? 2)) eqn:E0; [do 2 eexists; split; [reflexivity|]; srec; split; [split; [split; assumption|split; [lia|split; [lia|]]]|split; [reflexivity|lia]]; lia|].
  destruct (le =? 1) eqn:E1; [do 2 eexists; split; [reflexivity|]; unfold rpr_dest_byte; cbv zeta; srec; split; [split; [split; assumption|split; [lia|split; [lia|]]]|split; [reflexivity|lia]]; lia|].
  destruct (le =? 3) eqn:E3; [do 2 eexists; split; [unfold rpr_src_byte; reflexivity|]; srec; split; [split; [split; assumption|split; [lia|split; [lia|]]]|split; [reflexivity|lia]]; lia|].
  unfold rpr_payload_byte. srec. destruct mi; [|do 2 eexists; split; [reflexivity|]; srec; split; [split; [split; assumption|split; [lia|split; [lia|]]]|split; [reflexivity|reflexivity]]; lia].
  destruct (le + 1 <=? N + 8) eqn:En.
  - destruct (zupd_in_range bf (le + 1 - 5) b) as (bf' & Eu & Lu & _); [lia|]. rewrite Eu. cbn [obind set_payload]. do 2 eexists. split; [reflexivity|]. srec.
    split; [split; [split; [assumption|lia]|split; [lia|split; [lia|]]]|split; [reflexivity|reflexivity]]. lia.
  - cbn [obind set_payload]. do 2 eexists. split; [reflexivity|]. srec. split; [split; [split; assumption|split; [lia|split; [lia|]]]|split; [reflexivity|reflexivity]]. lia.
Qed.
Lemma datas_reach l : forall s, rinv s -> 4 <= r_length s -> r_length s + zlen l <= 255 ->
  exists s' out, rpr_datas s l = Some (s', out) /\ rinv s' /\ r_length s' = r_length s + zlen l /\ r_mine s' = r_mine s.
Proof.
  induction l as [|b l IH]; intros s I4 L R; cbn [rpr_datas].
  - rewrite zlen_nil. do 2 eexists. split; [reflexivity|]. split; [assumption|]. split; [lia|reflexivity].
  - rewrite zlen_cons in *. pose proof (zlen_nonneg l). destruct (data_safe s b I4 ltac:(lia)) as (s1 & o1 & -> & I1 & L1 & M1). cbn [obind].
    destruct (IH s1 I1 ltac:(lia) ltac:(lia)) as (s2 & o2 & -> & I2 & L2 & M2). cbn [obind]. do 2 eexists. split; [reflexivity|]. split; [exact I2|]. split; [lia|]. rewrite M2. apply M1. lia.
Qed.
(* from 256 bytes on *)
Lemma too_long s dest src l r : rwf s -> 0 <= dest < 65536 -> 0 <= src < 65536 -> Forall byte l -> minef s dest = true -> 252 <= zlen l ->
  loop s (rpr_wire (header dest src ++ l) ++ r) = None.
Proof.
  intros (A & Lb) D S F M L. unfold rpr_wire. set (s0 := set_frame s rpr_crcInitialValue 0 false true false).
  assert (Forall byte (header dest src)) as Bh. { unfold header, byte in *. repeat (apply Forall_cons; [lia|]). apply Forall_nil. }
  cbn [app]. cbn [rpr_loop]. assert (step s 126 = Some (s0, [], true)) as -> by reflexivity. cbn [obind].
  rewrite <- app_assoc. cbn [app]. rewrite loop_datas; [|apply Forall_app; split; assumption|reflexivity|reflexivity].
  rewrite datas_app. unfold s0 at 1. rewrite header_ok by assumption. cbn [obind]. rewrite M.
  set (s1 := mkRpr _ _ _ _ _ _ _ _ _ _ _ _ _ _ _ _ _ _ _).
  rewrite <- (firstn_skipn 251 l), datas_app.
  assert (zlen (firstn 251 l) = 251) as L1 by (apply (firstn_zlen l 251); lia).
  assert (zlen (skipn 251 l) = zlen l - 251) as L2 by (apply (skipn_zlen l 251); lia).
  destruct (datas_reach (firstn 251 l) s1) as (s2 & o2 & -> & I2 & Le2 & M2).
  { unfold rinv, rwf, s1. srec. split; [split; assumption|]. lia. }
  { unfold s1. srec. lia. } { unfold s1. srec. lia. }
  cbn [obind]. destruct (skipn 251 l) as [|b t]; [rewrite zlen_nil in L2; lia|]. cbn [rpr_datas].
  assert (r_length s2 = 255) as L255 by (unfold s1 in Le2; srec; lia). rewrite (data_len s2 b 255 0) by (assumption || reflexivity).
  change (rpr_payload_byte N (set_frame s2 (r_crc s2) 0 false true (r_ended s2)) b) with (rpr_payload_byte N (set_frame s2 (r_crc s2) 0 false true (r_ended s2)) b).
  cbv zeta. change ((255 =? 0) || (255 =? 2)) with false. change (255 =? 1) with false. change (255 =? 3) with false. cbv iota.
  unfold rpr_payload_byte. cbn [r_mine r_length set_frame]. rewrite M2. change (r_mine s1) with true. cbv iota.
  assert ((0 <=? N + 8) = true) as -> by lia. assert (zupd (r_buf (set_frame s2 (r_crc s2) 0 false true (r_ended s2))) (0 - 5) b = None) as -> by reflexivity. reflexivity.
Qed.

Fixpoint runs_ok (k : Z) (bytes : list Z) : Prop :=
  match bytes with
  | [] => True
  | b :: r => if delimiter b then runs_ok 0 r else if b =? 0x7d then runs_ok k r else k + 1 <= 255 /\ runs_ok (k + 1) r
  end.
Lemma runs_mono bytes : forall k k', k' <= k -> runs_ok k bytes -> runs_ok k' bytes.
Proof.
  induction bytes as [|b r IH]; intros k k' L H; cbn [runs_ok] in *; [exact I|]. destruct (delimiter b); [exact H|]. destruct (b =? 125); [eapply IH; eassumption|].
  split; [lia|]. eapply IH; [|apply H]. lia.
Qed.
Lemma short_runs_ok_gen bytes : forall pre, Forall (fun x => delimiter x = false) pre -> short_runs (pre ++ bytes) -> runs_ok (content_bytes pre) bytes.
Proof.
  induction bytes as [|b r IH]; intros pre F H; cbn [runs_ok]; [exact I|]. destruct (delimiter b) eqn:E.
  - apply (IH []); [apply Forall_nil|]. intros a run c Eq. apply (H (pre ++ [b] ++ a) run c). change r with ([] ++ r); rewrite Eq, <- !app_assoc. reflexivity.
  - assert (Forall (fun x => delimiter x = false) (pre ++ [b])) as F' by (apply Forall_app; split; [exact F|apply Forall_cons; [exact E|apply Forall_nil]]).
    assert (short_runs ((pre ++ [b]) ++ r)) as H' by (rewrite <- app_assoc; exact H).
    specialize (IH _ F' H'). unfold content_bytes in IH. rewrite filter_app, zlen_app in IH. cbn [filter] in IH. unfold content_bytes.
    destruct (b =? 125) eqn:E7; cbn [negb] in IH; [rewrite zlen_nil, Z.add_0_r in IH; exact IH|]. rewrite zlen_cons, zlen_nil, Z.add_0_r in IH. split; [|exact IH].
    assert (content_bytes (pre ++ [b]) <= 255) as Q. { apply (H [] (pre ++ [b]) r); [rewrite <- app_assoc; reflexivity|exact F']. }
    unfold content_bytes in Q. rewrite filter_app, zlen_app in Q. cbn [filter] in Q. rewrite E7 in Q. cbn [negb] in Q. rewrite zlen_cons, zlen_nil in Q. lia.
Qed.
Lemma short_runs_ok bytes : short_runs bytes -> runs_ok 0 bytes.
Proof. intro H. apply (short_runs_ok_gen bytes []); [apply Forall_nil|exact H]. Qed.

Lemma end_safe s : rinv s -> exists s' out, rpr_end_byte alloc s = Some (s', out) /\ rinv s' /\ r_length s' = 0.
Proof.
  destruct s as [ad gr ts rc ty de sr cm ln bf cr le es ab st en mi ov ow]. unfold rinv, rwf. srec. intros ((A & Lb) & L & B & Q).
  unfold rpr_end_byte. srec. destruct ((6 <=? le) && st) eqn:E6.
  - cbv zeta. srec. assert (2 <= le) as L2 by lia. specialize (Q L2). destruct (mi && (cr =? 0)).
    + destruct (1 <? ln) eqn:E1.
      * destruct (znth_in_range bf 0) as [c Ec]; [lia|]. rewrite Ec. cbn [obind]. unfold set_cmd, rpr_push_received. srec.
        destruct (10 <=? zlen rc); [cbn [obind]; do 2 eexists; split; [reflexivity|]; srec; split; [split; [split; assumption|lia]|reflexivity]|].
        match goal with |- context [alloc ?a ?b] => destruct (alloc a b) end; [|cbn [obind]; do 2 eexists; split; [reflexivity|]; srec; split; [split; [split; assumption|lia]|reflexivity]].
        destruct (zsub_in_range bf 1 (ln - 1)) as (v & Ev & _); [lia|lia|lia|]. rewrite Ev. cbn [obind set_queues]. do 2 eexists. split; [reflexivity|]. srec. split; [split; [split; assumption|lia]|reflexivity].
      * cbn [obind]. unfold rpr_push_received. srec.
        destruct (10 <=? zlen rc); [cbn [obind]; do 2 eexists; split; [reflexivity|]; srec; split; [split; [split; assumption|lia]|reflexivity]|].
        match goal with |- context [alloc ?a ?b] => destruct (alloc a b) end; [|cbn [obind]; do 2 eexists; split; [reflexivity|]; srec; split; [split; [split; assumption|lia]|reflexivity]].
        destruct (zsub_in_range bf 0 ln) as (v & Ev & _); [lia|lia|lia|]. rewrite Ev. cbn [obind set_queues]. do 2 eexists. split; [reflexivity|]. srec. split; [split; [split; assumption|lia]|reflexivity].
    + cbn [obind]. do 2 eexists. split; [reflexivity|]. srec. split; [split; [split; assumption|lia]|reflexivity].
  - do 2 eexists. split; [reflexivity|]. srec. split; [split; [split; assumption|lia]|reflexivity].
Qed.
Lemma loop_safe bytes : forall s k fut, rinv s -> r_length s <= k -> runs_ok k (bytes ++ fut) ->
  exists s' out rest k', loop s bytes = Some (s', out, rest) /\ rinv s' /\ r_length s' <= k' /\ runs_ok k' (rest ++ fut).
Proof.
  induction bytes as [|b r IH]; intros s k fut I0 L R; cbn [rpr_loop].
  - do 4 eexists. split; [reflexivity|]. split; [exact I0|]. split; [exact L|exact R].
  - cbn [app runs_ok] in R. pose proof I0 as ((A & Lb) & Ll & B & Q).
    destruct (Z.eq_dec b 126) as [->|N1].
    { assert (step s 126 = Some (set_frame s rpr_crcInitialValue 0 false true false, [], true)) as -> by reflexivity. cbn [obind].
      destruct (IH (set_frame s rpr_crcInitialValue 0 false true false) 0 fut) as (s' & out & rest & k' & E & W); [unfold rinv, rwf; srec; split; [split; assumption|lia]|srec; lia|exact R|].
      rewrite E. cbn [obind]. do 4 eexists. split; [reflexivity|exact W]. }
    destruct (Z.eq_dec b 124) as [->|N2].
    { assert (step s 124 = do (s, out) <- rpr_end_byte alloc s; Some (s, out, true)) as -> by reflexivity.
      destruct (end_safe s I0) as (s1 & o1 & -> & I1 & L1). cbn [obind].
      destruct (IH s1 0 fut) as (s' & out & rest & k' & E & W); [exact I1|lia|exact R|]. rewrite E. cbn [obind]. do 4 eexists. split; [reflexivity|exact W]. }
    assert (delimiter b = false) as Ed by (unfold delimiter; lia). rewrite Ed in R.
    destruct (Z.eq_dec b 125) as [->|N3].
    { assert (step s 125 = Some (set_frame s (r_crc s) (r_length s) true (r_started s) (r_ended s), [], true)) as -> by reflexivity. cbn [obind].
      destruct (IH (set_frame s (r_crc s) (r_length s) true (r_started s) (r_ended s)) k fut) as (s' & out & rest & k' & E & W); [exact I0|exact L|exact R|].
      rewrite E. cbn [obind]. do 4 eexists. split; [reflexivity|exact W]. }
    assert ((b =? 125) = false) as E7 by lia. rewrite E7 in R. destruct R as [R1 R2].
    destruct (r_started s) eqn:St.
    + rewrite byte_plain by (assumption || lia). destruct (data_safe s (if r_esc s then Z.lxor b 32 else b) I0 ltac:(lia)) as (s1 & o1 & -> & I1 & L1 & _). cbn [obind].
      destruct (IH s1 (k + 1) fut) as (s' & out & rest & k' & E & W); [exact I1|lia|exact R2|]. rewrite E. cbn [obind]. do 4 eexists. split; [reflexivity|exact W].
    + assert (step s b = Some (set_frame s (r_crc s) (r_length s) false false (r_ended s), [], false)) as ->.
      { unfold rpr_byte, rpr_start, rpr_end, rpr_escape. assert ((b =? 126) = false) as -> by lia. assert ((b =? 124) = false) as -> by lia. rewrite E7. cbv zeta. cbn [r_started set_frame]. rewrite St. reflexivity. }
      cbn [obind]. do 4 eexists. split; [reflexivity|]. split; [exact I0|]. split; [exact L|]. apply (runs_mono _ (k + 1)); [lia|exact R2].
Qed.
Lemma update_safe s bytes k fut : rinv s -> r_length s <= k -> runs_ok k (bytes ++ fut) ->
  exists s' out rest k', rpr_update N alloc s bytes = Some (s', out, rest) /\ rinv s' /\ r_length s' <= k' /\ runs_ok k' (rest ++ fut).
Proof.
  intros I0 L R. unfold rpr_update.
  match goal with |- context [let (_, _) := ?e in _] => assert (exists s0 o0, e = (s0, o0) /\ rinv s0 /\ r_length s0 = r_length s) as (s0 & o0 & -> & I1 & L1) end.
  { destruct (r_ended s); [|exists s, []; split; [reflexivity|split; [assumption|reflexivity]]].
    destruct (r_toSend s); [exists s, []; split; [reflexivity|split; [assumption|reflexivity]]|]. do 2 eexists. split; [reflexivity|]. split; [exact I0|reflexivity]. }
  destruct (loop_safe bytes s0 k fut I1 ltac:(lia) R) as (s' & out & rest & k' & -> & W). cbn [obind]. do 4 eexists. split; [reflexivity|exact W].
Qed.
Definition arrived (op : rop) : list Z := match op with RUpdate a => a | _ => [] end.
Lemma run_safe ops : forall s dev k, rinv s -> r_length s <= k -> runs_ok k (dev ++ flat_map arrived ops) -> rpr_run N alloc s dev ops <> None.
Proof.
  induction ops as [|op ops IH]; intros s dev k I0 L R; cbn [rpr_run]; [discriminate|]. cbn [flat_map] in R.
  destruct op as [a|m|]; cbn [rpr_exec arrived] in *.
  - rewrite app_assoc in R. destruct (update_safe s (dev ++ a) k _ I0 L R) as (s' & out & rest & k' & -> & I1 & L1 & R1). cbn [obind].
    specialize (IH s' rest k' I1 L1 R1). destruct (rpr_run N alloc s' rest ops) as [[[s2 d2] o2]|]; [cbn [obind]; discriminate|contradiction].
  - assert (exists s1 o1 b1, rpr_send alloc s m = (s1, o1, b1) /\ rinv s1 /\ r_length s1 = r_length s) as (s1 & o1 & b1 & -> & I1 & L1).
    { unfold rpr_send. destruct (r_started s); [destruct (10 <=? zlen (r_toSend s)); [|destruct (alloc s (zlen (m_payload m)))]|]; do 3 eexists; (split; [reflexivity|]); (split; [exact I0|reflexivity]). }
    cbn [obind]. specialize (IH s1 dev k I1 ltac:(lia) R). destruct (rpr_run N alloc s1 dev ops) as [[[s2 d2] o2]|]; [cbn [obind]; discriminate|contradiction].
  - cbn [obind]. specialize (IH (rpr_dropReceivedMessage s) dev k I0 L R). destruct (rpr_run N alloc (rpr_dropReceivedMessage s) dev ops) as [[[s2 d2] o2]|]; [cbn [obind]; discriminate|contradiction].
Qed.
Lemma rinv_init address group : rinv (rpr_initialize N address group).
Proof.
  unfold rinv, rwf, rpr_initialize. srec. rewrite addr_value, zlen_repeat. lia.
Qed.
End Receive.

(* ---- the queue ---- *)
Lemma every_other_ind {A} (P : list A -> Prop) : P [] -> (forall a, P [a]) -> (forall a b l, P l -> P (a :: b :: l)) -> forall l, P l.
Proof.
  intros H0 H1 H2 l. assert (P l /\ forall a, P (a :: l)) as [H _]; [|exact H]. induction l as [|a l [I1 I2]]; split; auto.
Qed.

(* ---- dispatch ---- *)
Lemma rtype_eqb_ok a b : rtype_eqb a b = true <-> a = b.
Proof. destruct a, b; cbn; split; congruence. Qed.
Lemma fits_dec l m : {fits l m} + {~ fits l m}.
Proof.
  unfold fits. assert (forall a b : rtype, {a = b} + {a <> b}) as T by decide equality.
  destruct (T (l_type l) RAny), (T (l_type l) (m_type m)), (Z.eq_dec (l_source l) 65535), (Z.eq_dec (l_source l) (m_src m)), (Z.eq_dec (l_command l) 255), (Z.eq_dec (l_command l) (m_cmd m)); tauto.
Qed.
Lemma listener_ok ls m : match rpr_listener ls m with Some l => first_fit ls m l | None => Forall (fun x => ~ fits x m) ls end.
Proof.
  induction ls as [|l ls IH]; cbn [rpr_listener]; [apply Forall_nil|].
  assert (forall x, match x with Some y => x = Some l /\ fits l m \/ (first_fit ls m y /\ ~ fits l m) | None => Forall (fun z => ~ fits z m) ls /\ ~ fits l m end ->
    match x with Some y => first_fit (l :: ls) m y | None => Forall (fun z => ~ fits z m) (l :: ls) end) as K.
  { intros [y|]; [|intros [H1 H2]; apply Forall_cons; assumption]. intros [[E H]|[(a & b & -> & F & G) H]].
    - injection E as ->. exists [], ls. split; [reflexivity|]. split; [exact H|apply Forall_nil].
    - exists (l :: a), b. split; [reflexivity|]. split; [exact F|]. apply Forall_cons; assumption. }
  apply K. clear K.
  destruct (rtype_eqb (l_type l) RAny || rtype_eqb (l_type l) (m_type m)) eqn:E1.
  2:{ assert (~ fits l m) as H by (intros ([T|T] & _); apply rtype_eqb_ok in T; rewrite T in E1; [discriminate|rewrite orb_true_r in E1; discriminate]).
      destruct (rpr_listener ls m); [right; auto|auto]. }
  destruct ((l_source l =? ADDRESS_ANY) || (l_source l =? m_src m)) eqn:E2.
  2:{ assert (~ fits l m) as H by (unfold ADDRESS_ANY in E2; intros (_ & T & _); lia). destruct (rpr_listener ls m); [right; auto|auto]. }
  destruct ((l_command l =? COMMAND_ANY) || (l_command l =? m_cmd m)) eqn:E3.
  2:{ assert (~ fits l m) as H by (unfold COMMAND_ANY in E3; intros (_ & _ & T); lia). destruct (rpr_listener ls m); [right; auto|auto]. }
  left. split; [reflexivity|]. unfold fits, ADDRESS_ANY, COMMAND_ANY in *. split; [|lia].
  apply orb_true_iff in E1. rewrite !rtype_eqb_ok in E1. exact E1.
Qed.
Lemma sends_received alloc ms : forall s, r_received (fst (rpr_sends alloc s ms)) = r_received s.
Proof.
  induction ms as [|[[[d t] c] p] ms IH]; intro s; cbn [rpr_sends]; [reflexivity|].
  destruct (rpr_sendMessage alloc s d t c p) as [[s1 o1] b1] eqn:E. specialize (IH s1). destruct (rpr_sends alloc s1 ms) as [s2 o2]. cbn [fst] in *. rewrite IH.
  unfold rpr_sendMessage, rpr_send in E. destruct (r_started s); [destruct (10 <=? zlen (r_toSend s)); [|match type of E with context [alloc ?a ?b] => destruct (alloc a b) end]|]; injection E as <- _ _; reflexivity.
Qed.
Lemma dispatch_ok alloc ls n : forall s, n = length (r_received s) ->
  exists s' out called, rpr_dispatch alloc n ls s = (s', out, called) /\ r_received s' = [] /\ dispatched ls (r_received s) called.
Proof.
  induction n as [|n IH]; intros s L; cbn [rpr_dispatch].
  - destruct (r_received s) eqn:E; [|discriminate]. do 3 eexists. split; [reflexivity|]. split; [exact E|]. apply dispatched_nil.
  - unfold rpr_getReceivedMessage. destruct (r_received s) as [|m ms] eqn:E; [discriminate|]. cbn [hd_error]. injection L as L. pose proof (listener_ok ls m) as K.
    destruct (rpr_listener ls m) as [l|].
    + pose proof (sends_received alloc (l_call l m) s) as Sr. destruct (rpr_sends alloc s (l_call l m)) as [s1 o1]. cbn [fst] in Sr.
      destruct (IH (rpr_dropReceivedMessage s1)) as (s2 & o2 & c2 & E2 & R2 & D2); [cbn [rpr_dropReceivedMessage r_received set_queues]; rewrite Sr, E; exact L|].
      rewrite E2. cbn [rpr_dropReceivedMessage r_received set_queues] in D2. rewrite Sr, E in D2. do 3 eexists. split; [reflexivity|]. split; [exact R2|]. cbn [app]. apply dispatched_some; assumption.
    + destruct (IH (rpr_dropReceivedMessage s)) as (s2 & o2 & c2 & E2 & R2 & D2); [cbn [rpr_dropReceivedMessage r_received set_queues]; rewrite E; exact L|].
      rewrite E2. cbn [rpr_dropReceivedMessage r_received set_queues] in D2. rewrite E in D2. do 3 eexists. split; [reflexivity|]. split; [exact R2|]. cbn [app]. apply dispatched_none; assumption.
Qed.
