From Verif Require Import Base BitLemmas SliceLemmas CrcModel CrcSpec CrcProofs SabModel SabProofs Sab2Model Sab2Spec.

(* ---------- checksum ---------- *)
Lemma sab2_crc_range r d : 0 <= r < 65536 -> byte d -> 0 <= sab2_crcUpdate r d < 65536.
Proof. intros Hr Hd. unfold sab2_crcUpdate. apply (refl_update_range 16); [lia|cbn; lia|exact Hr|exact Hd]. Qed.
Lemma sab2_crc_fold data : forall r, 0 <= r < 65536 -> Forall byte data -> 0 <= fold_left sab2_crcUpdate data r < 65536.
Proof.
  induction data as [|d t IH]; intros r Hr H; [exact Hr|]. inversion H; subst. cbn [fold_left].
  apply IH; [apply sab2_crc_range; assumption|assumption].
Qed.
Lemma sab2_checksum_iff data c : Forall byte data -> 0 <= c < 65536 ->
  (sab2_checksum data c <-> c = fold_left sab2_crcUpdate data 0xffff).
Proof.
  intros Hd Hc. assert (0 <= 0xffff < 65536) as H0 by lia.
  pose proof (sab2_crc_value 0xffff data H0 Hd) as V. change (reflect 16 0xffff) with 0xffff in V. split.
  - intros [_ H]. apply (reflect_inj 16); [exact Hc|apply (sab2_crc_fold data _ H0 Hd)|].
    apply (crc_value_unique 16 0x18005 0xffff (stream data)); [lia|cbn; lia|exact H|exact V].
  - intros ->. split; [apply sab2_crc_fold; assumption|exact V].
Qed.
Lemma sab2_residue data lo hi : Forall byte data -> byte lo -> byte hi ->
  (fold_left sab2_crcUpdate (data ++ [lo; hi]) 0xffff = 0 <-> sab2_checksum data (lo + 256 * hi)).
Proof.
  intros Hd Hl Hh. rewrite fold_left_app. cbn [fold_left].
  pose proof (sab2_crc_fold data 0xffff ltac:(lia) Hd) as R. rewrite residue16 by assumption. unfold byte in *.
  rewrite sab2_checksum_iff by (try assumption; lia). lia.
Qed.

(* ---------- byte stuffing ---------- *)
Lemma toggle_lxor b : byte b -> Z.lxor b 0x20 = toggle5 b.
Proof.
  intro H. assert (forallb (fun n => Z.lxor (Z.of_nat n) 0x20 =? toggle5 (Z.of_nat n)) (seq 0 256) = true) as A by (vm_compute; reflexivity).
  rewrite forallb_forall in A. unfold byte in H. specialize (A (Z.to_nat b)). rewrite Z2Nat.id in A by lia. apply Z.eqb_eq. apply A. apply in_seq. lia.
Qed.
Lemma toggle_byte b : byte b -> byte (toggle5 b).
Proof. intro H. rewrite <- toggle_lxor by exact H. unfold byte in *. apply (lxor_lt b 0x20 8); cbn; lia. Qed.
Lemma stuff_model b : byte b -> sab2_writeByteEscaped b = stuff b.
Proof.
  intro H. unfold sab2_writeByteEscaped, stuff, frameBounderyByte, controlEscapeByte. destruct ((b =? 126) || (b =? 125)) eqn:E; [|reflexivity].
  rewrite toggle_lxor by exact H. reflexivity.
Qed.
Lemma flat_stuff l : Forall byte l -> flat_map sab2_writeByteEscaped l = flat_map stuff l.
Proof. induction 1; cbn [flat_map]; [reflexivity|]. rewrite stuff_model by assumption. congruence. Qed.
Lemma stuff_no_boundary l : Forall byte l -> ~ In 0x7e (flat_map stuff l).
Proof.
  induction 1 as [|b l Hb F IH]; cbn [flat_map]; [intros []|]. rewrite in_app_iff. intros [I|I]; [|tauto].
  unfold stuff in I. destruct ((b =? 126) || (b =? 125)) eqn:E.
  - destruct I as [I|[I|[]]]; [discriminate|]. revert I. apply orb_true_iff in E. destruct E as [E|E]; apply Z.eqb_eq in E; subst; vm_compute; discriminate.
  - destruct I as [I|[]]. subst. discriminate.
Qed.
Lemma unstuff_stuff l : unstuff false (flat_map stuff l) = Some l.
Proof.
  induction l as [|b l IH]; [reflexivity|]. cbn [flat_map]. unfold stuff at 1. destruct ((b =? 126) || (b =? 125)) eqn:E; cbn [app unstuff].
  - replace (toggle5 b =? 125) with false by (apply orb_true_iff in E; destruct E as [E|E]; apply Z.eqb_eq in E; subst; reflexivity).
    change (125 =? 125) with true. cbv iota. rewrite IH. do 2 f_equal.
    apply orb_true_iff in E; destruct E as [E|E]; apply Z.eqb_eq in E; subst; reflexivity.
  - apply orb_false_iff in E. destruct E as [_ ->]. rewrite IH. reflexivity.
Qed.

(* content so far and pending escape *)
Fixpoint raw (esc : bool) (l : list Z) : list Z * bool :=
  match l with
  | [] => ([], esc)
  | b :: r => if b =? 0x7d then raw true r
              else let (c, e) := raw false r in ((if esc then toggle5 b else b) :: c, e)
  end.
Lemma unstuff_raw l : forall esc, unstuff esc l = if snd (raw esc l) then None else Some (fst (raw esc l)).
Proof.
  induction l as [|b r IH]; intro esc; cbn [unstuff raw]; [destruct esc; reflexivity|].
  destruct (b =? 125); [apply IH|]. rewrite IH. destruct (raw false r) as [c e]. cbn [fst snd]. destruct e; reflexivity.
Qed.
Lemma raw_bytes l : Forall byte l -> forall esc, Forall byte (fst (raw esc l)).
Proof.
  induction 1 as [|b r Hb F IH]; intro esc; cbn [raw]; [apply Forall_nil|]. destruct (b =? 125); [apply IH|].
  specialize (IH false). destruct (raw false r) as [c e]. cbn [fst] in *. apply Forall_cons; [destruct esc; [apply toggle_byte|]; exact Hb|exact IH].
Qed.

(* the flags a user passes to sendMessage *)
Definition sab2_flags (response acknowledge : bool) : Z := if response then (if acknowledge then SAB2_ACK else SAB2_NACK) else SAB2_REQUEST.

Section Receiver.
Variables (N : Z).
Hypothesis HN : 0 <= N.
Notation w := (sab2_w N).
Notation upd := (sab2_update N).
Notation bt := (sab2_byte N).

Definition z_wf (s : sab2) : Prop :=
  zlen (z_buf s) = N + 4 /\ Forall byte (z_buf s) /\ 0 <= z_len s <= N + 4 /\ (z_avail s = 0 \/ 4 <= z_avail s <= N + 4) /\ z_avail s < 2 ^ w /\ z_len s < 2 ^ w.

Lemma w_cases : (w = 8 /\ N < 255) \/ (w = 16 /\ 255 <= N).
Proof. unfold sab2_w. destruct (255 <=? N) eqn:E; lia. Qed.
Lemma w_pos : 256 <= 2 ^ w <= 65536.
Proof. destruct w_cases as [[-> _]|[-> _]]; cbn; lia. Qed.

Lemma z_wf_init : z_wf (sab2_init N).
Proof.
  unfold z_wf, sab2_init. cbn [z_buf z_len z_avail]. pose proof w_pos. split; [rewrite zlen_repeat; lia|].
  split; [apply Forall_forall; intros x I; apply repeat_spec in I; subst; unfold byte; lia|]. lia.
Qed.
Lemma z_wf_drop s : z_wf s -> z_wf (sab2_dropMessage s).
Proof. intros (A & B & C & D & E & F). unfold z_wf, sab2_dropMessage. cbn [z_buf z_len z_avail]. repeat split; try assumption; try lia. Qed.

Lemma byte_wf s b : z_wf s -> byte b -> exists s', bt s b = Some s' /\ z_wf s'.
Proof.
  intros (A & B & C & D & E & F) Hb. pose proof w_pos as WP. unfold sab2_byte. destruct (b =? frameBounderyByte).
  { eexists. split; [reflexivity|]. unfold z_wf. cbn [z_buf z_len z_avail]. split; [exact A|]. split; [exact B|].
    split; [lia|]. destruct (z_esc s); [lia|]. destruct ((4 <=? z_len s) && (z_crc s =? 0)) eqn:Q; [|lia]. apply andb_prop in Q. lia. }
  destruct (b =? controlEscapeByte).
  { eexists. split; [reflexivity|]. unfold z_wf. cbn [z_buf z_len z_avail]. tauto. }
  cbv zeta. set (d := if z_esc s then Z.lxor b 32 else b).
  assert (byte d) as Hd by (unfold d; destruct (z_esc s); [rewrite toggle_lxor by exact Hb; apply toggle_byte|]; exact Hb).
  generalize (sab2_crcUpdate (z_crc s) d) as cr. intro cr. clearbody d.
  destruct (N + 4 <=? z_len s) eqn:Q.
  { eexists. split; [reflexivity|]. unfold z_wf. cbn [z_buf z_len z_avail]. split; [exact A|]. split; [exact B|]. lia. }
  destruct (zupd_in_range (z_buf s) (z_len s) d) as (buf & U & L & _); [lia|]. rewrite U. cbn [obind].
  eexists. split; [reflexivity|]. unfold z_wf. cbn [z_buf z_len z_avail]. split; [lia|].
  split; [exact (Forall_zupd byte _ _ _ _ B Hd U)|].
  assert (0 <= wrap w (z_len s + 1) < 2 ^ w) as R by (apply wrap_range; destruct w_cases; lia).
  assert (wrap w (z_len s + 1) <= z_len s + 1) as R2 by (apply Z.mod_le; lia). lia.
Qed.

Lemma update_wf bytes : forall s, z_wf s -> Forall byte bytes -> exists s' rest, upd s bytes = Some (s', rest) /\ z_wf s' /\ Forall byte rest.
Proof.
  induction bytes as [|b r IH]; intros s W F; cbn [sab2_update].
  - destruct (z_avail s =? 0); eauto.
  - destruct (z_avail s =? 0); [|eauto]. inversion F; subst. destruct (byte_wf s b W) as (s1 & E & W1); [assumption|]. rewrite E. cbn [obind]. apply IH; assumption.
Qed.

Definition view2 (m : Z * Z * list Z) : Z * bool * bool * Z * list Z :=
  (Z.land (fst (fst m)) 0x3f, Z.testbit (fst (fst m)) 7, Z.testbit (fst (fst m)) 6, snd (fst m), snd m).

Lemma read_view s h c p rest : z_buf s = h :: c :: p ++ rest -> z_avail s = zlen p + 4 -> zlen p + 4 < 2 ^ w -> sab2_read N s = Some (view2 (h, c, p)).
Proof.
  intros E A L. pose proof (zlen_nonneg p).
  unfold sab2_read, sab2_getAddress, sab2_isResponse, sab2_isAcknowledge, sab2_getCommand, sab2_getPayload, sab2_getPayloadLength.
  rewrite E. change (znth (h :: c :: p ++ rest) 0) with (Some h). change (znth (h :: c :: p ++ rest) 1) with (Some c). cbn [obind].
  change 0x80 with (2 ^ 7). change 0x40 with (2 ^ 6). rewrite !land_pow2_test by lia. unfold wrap. rewrite A.
  rewrite Z.mod_small by lia. replace (zlen p + 4 - 4) with (zlen p) by lia.
  change (h :: c :: p ++ rest) with ([h; c] ++ p ++ rest). rewrite zsub_app by reflexivity. reflexivity.
Qed.

Lemma read_total s : z_wf s -> z_avail s <> 0 -> exists h c p, sab2_read N s = Some (view2 (h, c, p)).
Proof.
  intros (A & B & C & D & E & F) H. destruct (z_buf s) as [|h [|c r]] eqn:Eb; rewrite ?zlen_cons, ?zlen_nil in A; try lia.
  exists h, c, (firstn (Z.to_nat (z_avail s - 4)) r).
  assert (zlen (firstn (Z.to_nat (z_avail s - 4)) r) = z_avail s - 4) as L by (apply firstn_zlen; lia).
  apply (read_view s h c _ (skipn (Z.to_nat (z_avail s - 4)) r)); [rewrite firstn_skipn; exact Eb|lia|lia].
Qed.

(* ---------- polling byte by byte ---------- *)
Fixpoint poll (s : sab2) (bytes : list Z) : option (sab2 * list (Z * bool * bool * Z * list Z)) :=
  match bytes with
  | [] => Some (s, [])
  | b :: r =>
      do s1 <- bt s b;
      if sab2_isMessageAvailable s1
      then do m <- sab2_read N s1; do (s2, ms) <- poll (sab2_dropMessage s1) r; Some (s2, m :: ms)
      else poll s1 r
  end.
Lemma serve_poll bytes : forall fuel s, z_avail s = 0 -> (length bytes < fuel)%nat -> sab2_serve N fuel s bytes = poll s bytes.
Proof.
  induction bytes as [|b r IH]; intros [|f] s A L; cbn [length] in L; try lia; cbn [sab2_serve sab2_update poll]; rewrite A; cbn [Z.eqb obind].
  - unfold sab2_isMessageAvailable. rewrite A. reflexivity.
  - destruct (bt s b) as [s1|] eqn:E; cbn [obind]; [|reflexivity]. destruct (sab2_isMessageAvailable s1) eqn:V.
    + assert (upd s1 r = Some (s1, r)) as U.
      { unfold sab2_isMessageAvailable in V. destruct r; cbn [sab2_update]; destruct (z_avail s1 =? 0); try discriminate; reflexivity. }
      rewrite U. cbn [obind]. rewrite V. destruct (sab2_read N s1); cbn [obind]; [|reflexivity]. rewrite IH; [reflexivity|reflexivity|lia].
    + rewrite <- (IH (S f) s1); [reflexivity| |lia]. unfold sab2_isMessageAvailable in V. lia.
Qed.
Lemma poll_app a b s : poll s (a ++ b) = (do (s1, m1) <- poll s a; do (s2, m2) <- poll s1 b; Some (s2, m1 ++ m2)).
Proof.
  revert s. induction a as [|x r IH]; intro s; cbn [poll app obind].
  - destruct (poll s b) as [[? ?]|]; reflexivity.
  - destruct (bt s x) as [s1|]; cbn [obind]; [|reflexivity]. destruct (sab2_isMessageAvailable s1); [|apply IH].
    destruct (sab2_read N s1); cbn [obind]; [|reflexivity]. rewrite IH.
    destruct (poll (sab2_dropMessage s1) r) as [[s2 m2]|]; cbn [obind]; [|reflexivity]. destruct (poll s2 b) as [[? ?]|]; reflexivity.
Qed.
Lemma poll_wf bytes : forall s, z_wf s -> z_avail s = 0 -> Forall byte bytes -> exists s' ms, poll s bytes = Some (s', ms) /\ z_wf s' /\ z_avail s' = 0.
Proof.
  induction bytes as [|b r IH]; intros s W A F; cbn [poll]; [eauto|]. inversion F; subst.
  destruct (byte_wf s b W) as (s1 & E & W1); [assumption|]. rewrite E. cbn [obind]. destruct (sab2_isMessageAvailable s1) eqn:V.
  - destruct (read_total s1 W1) as (h0 & c0 & p0 & ->); [unfold sab2_isMessageAvailable in V; lia|]. cbn [obind].
    destruct (IH (sab2_dropMessage s1) (z_wf_drop s1 W1) eq_refl) as (s2 & ms & -> & W2 & A2); [assumption|]. cbn [obind]. eauto.
  - apply IH; try assumption. unfold sab2_isMessageAvailable in V. lia.
Qed.
Lemma serve_chunks_poll chunks : forall s, z_wf s -> z_avail s = 0 -> Forall (Forall byte) chunks -> sab2_serve_chunks N s chunks = poll s (concat chunks).
Proof.
  induction chunks as [|c r IH]; intros s W A F; cbn [sab2_serve_chunks concat]; [reflexivity|]. inversion F; subst.
  rewrite poll_app, serve_poll by (try exact A; lia). destruct (poll_wf c s W A) as (s1 & m1 & -> & W1 & A1); [assumption|]. cbn [obind].
  rewrite IH by assumption. reflexivity.
Qed.

(* ---------- the stretch between two boundaries ---------- *)
Definition fresh (s : sab2) : Prop := z_len s = 0 /\ z_crc s = 0xffff /\ z_esc s = false /\ z_avail s = 0.

Lemma run_between seg : forall s, z_wf s -> z_avail s = 0 -> N + 4 < 2 ^ w -> Forall byte seg -> ~ In 0x7e seg ->
  z_len s + zlen (fst (raw (z_esc s) seg)) <= N + 4 ->
  exists buf, zwrite (z_buf s) (z_len s) (fst (raw (z_esc s) seg)) = Some buf /\
    poll s seg = Some (mkSab2 buf (fold_left sab2_crcUpdate (fst (raw (z_esc s) seg)) (z_crc s)) (z_len s + zlen (fst (raw (z_esc s) seg))) 0 (snd (raw (z_esc s) seg)), []).
Proof.
  induction seg as [|b r IH]; intros s W A HW F NI L; cbn [raw poll].
  - cbn [fst snd zwrite fold_left]. exists (z_buf s). split; [reflexivity|]. rewrite zlen_nil, Z.add_0_r. destruct s as [x1 x2 x3 x4 x5]. cbn in A. subst. reflexivity.
  - inversion F as [|? ? Hb Fr]; subst. destruct (byte_wf s b W Hb) as (s1 & E1 & W1).
    assert (NI' : ~ In 126 r) by (cbn [In] in NI; tauto). assert (Nb : b <> 126) by (cbn [In] in NI; lia).
    cbn [raw] in L. destruct (b =? 125) eqn:E.
    + unfold sab2_byte in *. replace (b =? frameBounderyByte) with false in * by (unfold frameBounderyByte; lia).
      unfold controlEscapeByte in *. rewrite E in *. injection E1 as <-. cbn [obind]. unfold sab2_isMessageAvailable. cbn [z_avail]. rewrite A. cbn [negb Z.eqb].
      rewrite A in W1. exact (IH (mkSab2 (z_buf s) (z_crc s) (z_len s) 0 true) W1 eq_refl HW Fr NI' L).
    + specialize (IH s1 W1). unfold sab2_byte in *. replace (b =? frameBounderyByte) with false in * by (unfold frameBounderyByte; lia).
      unfold controlEscapeByte in *. rewrite E in *. cbv zeta in E1.
      replace (if z_esc s then Z.lxor b 32 else b) with (if z_esc s then toggle5 b else b) in * by (destruct (z_esc s); [symmetry; apply toggle_lxor; exact Hb|reflexivity]).
      destruct (raw false r) as [c e] eqn:R. cbn [fst snd] in *. rewrite zlen_cons in L. pose proof (zlen_nonneg c).
      set (d := if z_esc s then toggle5 b else b) in *. cbn [zwrite fold_left].
      destruct W as (W2 & W3 & W4 & W5). replace (N + 4 <=? z_len s) with false in * by lia.
      destruct (zupd_in_range (z_buf s) (z_len s) d) as (buf & U & LU & _); [lia|]. rewrite U in *. cbn [obind] in *.
      unfold wrap in *. rewrite Z.mod_small in * by lia. revert IH W1 E1. generalize (sab2_crcUpdate (z_crc s) d) as cr. intros cr IH W1 E1.
      injection E1 as <-. cbn [z_avail z_esc z_buf z_len z_crc] in IH. unfold sab2_isMessageAvailable. cbn [z_avail]. rewrite A in *. cbn [negb Z.eqb].
      rewrite R in IH. cbn [fst snd] in IH. destruct (IH eq_refl HW Fr NI' ltac:(lia)) as (buf' & W' & P'). exists buf'. split; [exact W'|].
      rewrite P', zlen_cons. do 3 f_equal. lia.
Qed.

Lemma content_split (c : list Z) : 4 <= zlen c -> exists h k p lo hi, c = h :: k :: p ++ [lo; hi].
Proof.
  intro H. destruct c as [|h [|k r]]; rewrite ?zlen_cons, ?zlen_nil in H; try lia.
  destruct r as [|hi r _] using rev_ind; [rewrite zlen_nil in H; lia|]. rewrite zlen_app, zlen_cons, zlen_nil in H.
  destruct r as [|lo r _] using rev_ind; [rewrite zlen_nil in H; lia|].
  exists h, k, r, lo, hi. rewrite <- app_assoc. reflexivity.
Qed.

Lemma content_valid c : Forall byte c ->
  (exists h k p, sab2_content h k p c) <-> (4 <= zlen c /\ fold_left sab2_crcUpdate c 0xffff = 0).
Proof.
  intro F. split.
  - intros (h & k & p & lo & hi & Bl & Bh & E & K). subst c. rewrite !zlen_cons, zlen_app, !zlen_cons, zlen_nil. pose proof (zlen_nonneg p).
    split; [lia|]. inversion F as [|? ? B1 F1]; subst. inversion F1 as [|? ? B2 F2]; subst. apply Forall_app in F2. destruct F2 as [Bp _].
    apply (sab2_residue (h :: k :: p) lo hi); [repeat apply Forall_cons; assumption|assumption|assumption|exact K].
  - intros [L Z0]. destruct (content_split c L) as (h & k & p & lo & hi & ->). exists h, k, p, lo, hi.
    inversion F as [|? ? B1 F1]; subst. inversion F1 as [|? ? B2 F2]; subst. apply Forall_app in F2. destruct F2 as [Bp F3].
    inversion F3 as [|? ? B3 F4]; subst. inversion F4 as [|? ? B4 F5]; subst.
    split; [exact B3|]. split; [exact B4|]. split; [reflexivity|].
    apply (sab2_residue (h :: k :: p) lo hi); [repeat apply Forall_cons; assumption|assumption|assumption|exact Z0].
Qed.

(* a boundary byte always leaves a fresh receiver *)
Lemma boundary s : z_wf s -> z_avail s = 0 ->
  exists s', (poll s [0x7e] = Some (s', []) \/ exists m, poll s [0x7e] = Some (s', [view2 m])) /\ z_wf s' /\ fresh s'.
Proof.
  intros W A. destruct (byte_wf s 0x7e W ltac:(unfold byte; lia)) as (s1 & E & W1). cbn [poll]. rewrite E. cbn [obind].
  unfold sab2_byte in E. change (126 =? frameBounderyByte) with true in E. cbv iota in E. injection E as E.
  destruct (sab2_isMessageAvailable s1) eqn:V.
  - destruct (read_total s1 W1) as (h0 & c0 & p0 & ->); [unfold sab2_isMessageAvailable in V; lia|]. cbn [obind].
    exists (sab2_dropMessage s1). split; [right; eauto|]. split; [apply z_wf_drop; exact W1|]. rewrite <- E. repeat split.
  - exists s1. split; [left; reflexivity|]. split; [exact W1|]. unfold sab2_isMessageAvailable in V.
    assert (z_avail s1 = 0) as V0 by lia. rewrite <- E in *. repeat split. exact V0.
Qed.

(* nothing is reported before the boundary, and the escape flag follows the bytes *)
Lemma run_quiet seg : forall s, z_wf s -> z_avail s = 0 -> Forall byte seg -> ~ In 0x7e seg ->
  exists s', poll s seg = Some (s', []) /\ z_wf s' /\ z_avail s' = 0 /\ z_esc s' = snd (raw (z_esc s) seg).
Proof.
  induction seg as [|b r IH]; intros s W A F NI; cbn [raw poll]; [exists s; auto|].
  inversion F as [|? ? Hb Fr]; subst. destruct (byte_wf s b W Hb) as (s1 & E1 & W1). rewrite E1. cbn [obind].
  assert (NI' : ~ In 126 r) by (cbn [In] in NI; tauto). assert (Nb : b <> 126) by (cbn [In] in NI; lia).
  assert (z_avail s1 = 0 /\ z_esc s1 = (b =? 125)) as [A1 X1].
  { unfold sab2_byte in E1. replace (b =? frameBounderyByte) with false in E1 by (unfold frameBounderyByte; lia).
    unfold controlEscapeByte in E1. destruct (b =? 125); [injection E1 as <-; auto|]. cbv zeta in E1.
    revert E1. generalize (if z_esc s then Z.lxor b 32 else b) as d. intro d. generalize (sab2_crcUpdate (z_crc s) d) as cr. intros cr E1.
    destruct (N + 4 <=? z_len s); [injection E1 as <-; auto|]. destruct (zupd (z_buf s) (z_len s) d); [|discriminate]. cbn [obind] in E1. injection E1 as <-. auto. }
  unfold sab2_isMessageAvailable. rewrite A1. cbn [negb Z.eqb]. destruct (IH s1 W1 A1 Fr NI') as (s2 & P & W2 & A2 & X2).
  exists s2. split; [exact P|]. split; [exact W2|]. split; [exact A2|]. rewrite X2, X1. destruct (b =? 125); [reflexivity|].
  destruct (raw false r). reflexivity.
Qed.

(* what is reported for the stretch between two boundaries *)
Lemma segment seg s : z_wf s -> fresh s -> N + 4 < 2 ^ w -> Forall byte seg -> ~ In 0x7e seg ->
  exists s' r, poll s (seg ++ [0x7e]) = Some (s', match r with Some m => [view2 m] | None => [] end) /\ z_wf s' /\ fresh s' /\
    sab2_report N seg r.
Proof.
  intros W (L0 & C0 & E0 & A0) HW F NI. rewrite poll_app.
  destruct (run_quiet seg s W A0 F NI) as (s1 & P1 & W1 & A1 & X1). rewrite E0 in X1.
  destruct (boundary s1 W1 A1) as (s2 & B & W2 & F2). rewrite P1. cbn [obind].
  unfold sab2_report. rewrite unstuff_raw. destruct (snd (raw false seg)) eqn:Esc.
  { exists s2, None. split; [|auto]. destruct B as [B|[m B]]; [rewrite B; reflexivity|]. exfalso. revert B. cbn [poll].
    unfold sab2_byte. change (126 =? frameBounderyByte) with true. cbv iota. rewrite X1. cbn [obind]. unfold sab2_isMessageAvailable. cbn [z_avail].
    rewrite A1. discriminate. }
  destruct (Z_lt_dec (N + 4) (zlen (fst (raw false seg)))) as [Len|Len].
  { destruct B as [B|[m B]]; rewrite B; [exists s2, None|exists s2, (Some m)]; (split; [reflexivity|]); auto. }
  destruct (run_between seg s W A0 HW F NI) as (buf & Wb & Pb); [rewrite E0, L0; lia|]. rewrite E0, L0, C0 in *.
  rewrite P1 in Pb. injection Pb as Es1. pose proof (raw_bytes seg F false) as Fc. remember (fst (raw false seg)) as c eqn:Ec.
  destruct (Z_le_dec 4 (zlen c)) as [L4|L4]; [destruct (Z.eq_dec (fold_left sab2_crcUpdate c 0xffff) 0) as [K|K]|].
  - destruct (proj2 (content_valid c Fc) (conj L4 K)) as (h & k & p & V). exists s2, (Some (h, k, p)).
    split; [|split; [exact W2|split; [exact F2|right; left; eauto]]].
    assert (poll s1 [0x7e] = Some (mkSab2 buf 0xffff 0 0 false, [view2 (h, k, p)])) as R.
    { cbn [poll]. unfold sab2_byte. change (126 =? frameBounderyByte) with true. cbv iota. rewrite Es1. cbn [z_esc z_len z_crc z_buf z_avail obind].
      rewrite K, Esc. replace (4 <=? zlen c) with true by lia. cbn [andb Z.eqb]. unfold sab2_isMessageAvailable. cbn [z_avail].
      replace (zlen c =? 0) with false by lia. cbn [negb].
      destruct V as (lo & hi & Bl & Bh & Vc & Vk).
      assert (zlen c = zlen p + 4) as Lc by (rewrite Vc, !zlen_cons, zlen_app, !zlen_cons, zlen_nil; lia).
      rewrite zwrite_ok in Wb by (destruct W as (Wa & _); lia). injection Wb as <-. cbn [Z.to_nat firstn app].
      erewrite (read_view _ h k p ([lo; hi] ++ skipn (Z.to_nat (zlen c)) (z_buf s))); [reflexivity| |cbn [z_avail]; lia|lia].
      cbn [z_buf]. rewrite Vc. cbn [app]. rewrite <- app_assoc. reflexivity. }
    destruct B as [B|[m B]]; rewrite R in B; [discriminate|]. rewrite R. injection B as B _. rewrite <- B. reflexivity.
  - exists s2, None. split; [|split; [exact W2|split; [exact F2|right; right; split; [|reflexivity]]]].
    + destruct B as [B|[m B]]; [rewrite B; reflexivity|]. exfalso. revert B. cbn [poll].
      unfold sab2_byte. change (126 =? frameBounderyByte) with true. cbv iota. rewrite Es1. cbn [z_esc z_len z_crc z_avail]. rewrite Esc.
      replace ((4 <=? zlen c) && (fold_left sab2_crcUpdate c 65535 =? 0)) with false by lia. cbn [obind]. discriminate.
    + intros h k p V. apply K. apply (content_valid c Fc). eauto.
  - exists s2, None. split; [|split; [exact W2|split; [exact F2|right; right; split; [|reflexivity]]]].
    + destruct B as [B|[m B]]; [rewrite B; reflexivity|]. exfalso. revert B. cbn [poll].
      unfold sab2_byte. change (126 =? frameBounderyByte) with true. cbv iota. rewrite Es1. cbn [z_esc z_len z_crc z_avail]. rewrite Esc.
      replace (4 <=? zlen c) with false by lia. cbn [obind andb]. discriminate.
    + intros h k p V. destruct (proj1 (content_valid c Fc) ltac:(eauto)). lia.
Qed.

Definition segs_bytes (segs : list (list Z)) : list Z := flat_map (fun g => g ++ [0x7e]) segs.

Lemma stream_reports segs : forall s, z_wf s -> fresh s -> N + 4 < 2 ^ w -> Forall (Forall byte) segs -> Forall (fun g => ~ In 0x7e g) segs ->
  exists s' ms, poll s (segs_bytes segs) = Some (s', map view2 ms) /\ z_wf s' /\ fresh s' /\ sab2_reports N segs ms.
Proof.
  induction segs as [|g r IH]; intros s W Fs HW F NI.
  - exists s, []. split; [reflexivity|]. split; [exact W|]. split; [exact Fs|constructor].
  - inversion F; subst. inversion NI; subst. destruct (segment g s W Fs HW) as (s1 & rr & P & W1 & F1 & R); try assumption.
    destruct (IH s1 W1 F1 HW) as (s2 & ms & P2 & W2 & F2 & R2); try assumption.
    change (segs_bytes (g :: r)) with ((g ++ [0x7e]) ++ segs_bytes r). rewrite poll_app, P. cbn [obind]. rewrite P2. cbn [obind].
    destruct rr as [m|].
    + exists s2, (m :: ms). split; [reflexivity|]. split; [exact W2|]. split; [exact F2|]. apply reports_some; assumption.
    + exists s2, ms. split; [reflexivity|]. split; [exact W2|]. split; [exact F2|]. apply reports_none; assumption.
Qed.

Lemma segs_exist bytes : Forall byte bytes -> exists segs tail, bytes = segs_bytes segs ++ tail /\ Forall (Forall byte) segs /\ Forall (fun g => ~ In 0x7e g) segs /\
  ~ In 0x7e tail /\ Forall byte tail.
Proof.
  induction 1 as [|b r Hb F (segs & tail & E & F1 & N1 & N2 & F2)].
  - exists [], []. repeat split; try apply Forall_nil. intros [].
  - subst. destruct (Z.eq_dec b 0x7e) as [->|Nb].
    + exists ([] :: segs), tail. split; [reflexivity|]. split; [apply Forall_cons; [apply Forall_nil|assumption]|]. split; [apply Forall_cons; [intros []|assumption]|]. auto.
    + destruct segs as [|g segs].
      * exists [], (b :: tail). split; [reflexivity|]. split; [apply Forall_nil|]. split; [apply Forall_nil|]. split; [intros [X|X]; [lia|tauto]|apply Forall_cons; assumption].
      * inversion F1; subst. inversion N1; subst. exists ((b :: g) :: segs), tail. split; [reflexivity|].
        split; [apply Forall_cons; [apply Forall_cons|]; assumption|]. split; [apply Forall_cons; [intros [X|X]; [lia|tauto]|assumption]|]. auto.
Qed.

(* ---------- round trip ---------- *)
Lemma content_inj h c p h' c' p' q : sab2_content h c p q -> sab2_content h' c' p' q -> h = h' /\ c = c' /\ p = p'.
Proof.
  intros (lo & hi & _ & _ & E & _) (lo' & hi' & _ & _ & E' & _). rewrite E in E'. injection E' as -> -> E'.
  change [lo; hi] with ([lo] ++ [hi]) in E'. change [lo'; hi'] with ([lo'] ++ [hi']) in E'. rewrite !app_assoc in E'.
  apply app_inj_tail in E'. destruct E' as [E' _]. apply app_inj_tail in E'. tauto.
Qed.

Lemma frame_poll s h c p bytes : z_wf s -> z_avail s = 0 -> N + 4 < 2 ^ w -> byte h -> byte c -> Forall byte p -> zlen p <= N ->
  sab2_frame h c p bytes ->
  exists s' ms, poll s bytes = Some (s', ms ++ [view2 (h, c, p)]) /\ z_wf s' /\ fresh s' /\ (length ms <= 1)%nat /\ (fresh s -> ms = []).
Proof.
  intros W A HW Bh Bc Fp Lp (content & V & E). subst bytes. change (0x7e :: flat_map stuff content ++ [0x7e]) with ([0x7e] ++ flat_map stuff content ++ [0x7e]).
  pose proof V as (lo & hi & Bl & Bhi & Ec & _).
  assert (Forall byte content) as Fc.
  { rewrite Ec. repeat apply Forall_cons; try assumption. apply Forall_app. split; [assumption|]. repeat apply Forall_cons; try assumption. apply Forall_nil. }
  assert (Forall byte (flat_map stuff content)) as Fs.
  { clear V Ec. induction Fc as [|b l Hb Fl IH]; cbn [flat_map]; [apply Forall_nil|]. apply Forall_app. split; [|exact IH]. unfold stuff.
    destruct ((b =? 126) || (b =? 125)); repeat apply Forall_cons; try apply Forall_nil; try assumption; [unfold byte; lia|apply toggle_byte; assumption]. }
  destruct (boundary s W A) as (s1 & B & W1 & F1).
  destruct (segment (flat_map stuff content) s1 W1 F1 HW Fs (stuff_no_boundary content Fc)) as (s2 & r & P2 & W2 & F2 & R).
  unfold sab2_report in R. rewrite unstuff_stuff in R.
  assert (r = Some (h, c, p)) as ->.
  { destruct R as [R|[(h' & c' & p' & V' & ->)|[R _]]].
    - rewrite Ec, !zlen_cons, zlen_app, !zlen_cons, zlen_nil in R. lia.
    - destruct (content_inj _ _ _ _ _ _ _ V V') as (-> & -> & ->). reflexivity.
    - exfalso. apply (R h c p). exact V. }
  rewrite poll_app. destruct B as [B|[m B]]; rewrite B; cbn [obind]; rewrite P2; cbn [obind app].
  - exists s2, []. split; [reflexivity|]. split; [exact W2|]. split; [exact F2|]. split; [cbn; lia|reflexivity].
  - exists s2, [view2 m]. split; [reflexivity|]. split; [exact W2|]. split; [exact F2|]. split; [cbn; lia|].
    intros (X1 & X2 & X3 & X4). exfalso. revert B. cbn [poll]. unfold sab2_byte. change (126 =? frameBounderyByte) with true. cbv iota.
    rewrite X3, X1, X4. cbn [obind]. discriminate.
Qed.

Lemma view2_header a r k c p : 0 <= a < 64 -> view2 (sab2_header a r k, c, p) = (a, r, k, c, p).
Proof. intro H. exact (view_header a r k c p H). Qed.

Lemma frames_poll ms frames : Forall2 sab2_msg_frame ms frames -> Forall (sab2_msg N) ms -> N + 4 < 2 ^ w -> forall s, z_wf s -> z_avail s = 0 ->
  exists s' g, poll s (concat frames) = Some (s', g ++ ms) /\ z_wf s' /\ z_avail s' = 0 /\ (length g <= 1)%nat /\ (fresh s -> g = []).
Proof.
  induction 1 as [|[[[[a r] k] c] p] f ms frames Hf H IH]; intros V HW s W A.
  - exists s, []. split; [reflexivity|]. split; [exact W|]. split; [exact A|]. split; [cbn; lia|reflexivity].
  - inversion V as [|? ? V0 Vr]; subst. destruct V0 as (V1 & V2 & V3 & V4). cbn [sab2_msg_frame] in Hf. cbn [concat].
    destruct (frame_poll s (sab2_header a r k) c p f W A HW (header_byte a r k V1) V2 V3 V4 Hf) as (s1 & g & P1 & W1 & F1 & G1 & G2).
    destruct (IH Vr HW s1 W1 ltac:(apply F1)) as (s2 & g2 & P2 & W2 & A2 & _ & G4). specialize (G4 F1). subst g2. cbn [app] in P2.
    exists s2, g. rewrite poll_app, P1. cbn [obind]. rewrite P2. cbn [obind]. rewrite view2_header by exact V1.
    rewrite <- app_assoc. split; [reflexivity|]. auto.
Qed.

Lemma fold_left_3 (f : Z -> Z -> Z) p h c r : fold_left f p (f (f r h) c) = fold_left f (h :: c :: p) r.
Proof. reflexivity. Qed.
Lemma z_send fast a r k c p : 0 <= a < 64 -> (k = true -> r = true) -> byte c -> Forall byte p -> zlen p < 2 ^ w -> zlen p < 2 ^ fast ->
  exists out, sab2_send N fast a (sab2_flags r k) c p = Some out /\ sab2_frame (sab2_header a r k) c p out.
Proof.
  intros Ha H Hc Fp Hp Hf. pose proof (zlen_nonneg p). unfold sab2_send. rewrite wrap_small by lia. rewrite zsub_all. cbn [obind].
  unfold sab2_send_payload. replace (2 ^ fast <=? zlen p) with false by lia. cbn [obind].
  change (sab2_flags r k) with (flags_of r k). rewrite header_flags by assumption. change (SabSpec.sab_header a r k) with (sab2_header a r k) in *.
  pose proof (header_byte a r k Ha : byte (sab2_header a r k)) as Bh. cbv zeta.
  assert (Forall byte (sab2_header a r k :: c :: p)) as F by (repeat apply Forall_cons; assumption).
  pose proof (sab2_crc_fold _ 0xffff ltac:(lia) F) as R. pose proof (proj2 (sab2_checksum_iff _ _ F R) eq_refl) as K.
  unfold sab2_crcInitialValue. rewrite fold_left_3. revert R K.
  generalize (fold_left sab2_crcUpdate (sab2_header a r k :: c :: p) 65535) as crc. intros crc R K.
  rewrite land_FF, Z.shiftr_div_pow2 by lia. change (2 ^ 8) with 256.
  assert (byte (crc mod 256) /\ byte (crc / 256)) as [B1 B2] by (unfold byte; lia).
  eexists. split; [reflexivity|]. exists (sab2_header a r k :: c :: p ++ [crc mod 256; crc / 256]). split.
  - exists (crc mod 256), (crc / 256). split; [exact B1|]. split; [exact B2|]. split; [reflexivity|].
    replace (crc mod 256 + 256 * (crc / 256)) with crc by lia. exact K.
  - cbn [flat_map]. rewrite flat_map_app. cbn [flat_map]. rewrite app_nil_r, !stuff_model, flat_stuff by assumption. unfold frameBounderyByte.
    rewrite <- !app_assoc. reflexivity.
Qed.

(* with a message available nothing is read *)
Lemma update_stops s bytes : z_avail s <> 0 -> upd s bytes = Some (s, bytes).
Proof. intro H. destruct bytes; cbn [sab2_update]; replace (z_avail s =? 0) with false by lia; reflexivity. Qed.
End Receiver.
