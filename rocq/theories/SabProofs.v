From Verif Require Import Base BitLemmas SliceLemmas CrcModel CrcSpec CrcProofs TimeoutModel SabModel SabSpec.

(* ---------- checksum ---------- *)
Lemma sab_crc_byte r d : byte r -> byte d -> byte (sab_crcUpdate r d).
Proof. intros Hr Hd. unfold byte, sab_crcUpdate. apply (refl_update_range 8); [lia|cbn; lia|exact Hr|exact Hd]. Qed.

Lemma sab_crc_fold_byte data : forall r, byte r -> Forall byte data -> byte (fold_left sab_crcUpdate data r).
Proof.
  induction data as [|d t IH]; intros r Hr H; [exact Hr|]. inversion H; subst. cbn [fold_left].
  apply IH; [apply sab_crc_byte; assumption|assumption].
Qed.

Lemma sab_residue r d : byte r -> byte d -> (sab_crcUpdate r d = 0 <-> d = r).
Proof.
  intros Hr Hd. unfold sab_crcUpdate, refl_update. split.
  - intro H. apply (refl_iter_kernel 8) in H; [|cbn; lia|lia|apply (lxor_lt _ _ 8); [lia|exact Hr|exact Hd]].
    apply Z.lxor_eq in H. congruence.
  - intros ->. rewrite Z.lxor_nilpotent. apply refl_iter_0.
Qed.

Lemma sab_checksum_iff data c : Forall byte data -> byte c ->
  (sab_checksum data c <-> c = fold_left sab_crcUpdate data 0).
Proof.
  intros Hd Hc. assert (byte 0) as H0 by (unfold byte; lia).
  pose proof (sab_crc_value 0 data H0 Hd) as V. change (reflect 8 0) with 0 in V. split.
  - intros [_ H]. apply (reflect_inj 8); [exact Hc|apply (sab_crc_fold_byte data 0 H0 Hd)|].
    apply (crc_value_unique 8 0x131 0 (stream data)); [lia|cbn; lia|exact H|exact V].
  - intros ->. split; [apply sab_crc_fold_byte; assumption|exact V].
Qed.

Lemma sab_checksum_byte data c : sab_checksum data c -> byte c.
Proof. intros [H _]. exact H. Qed.

Lemma sab_frame_crc_zero data c : Forall byte data -> byte c ->
  (fold_left sab_crcUpdate (data ++ [c]) 0 = 0 <-> sab_checksum data c).
Proof.
  intros Hd Hc. rewrite fold_left_app. cbn [fold_left]. rewrite sab_residue; [|apply sab_crc_fold_byte; [unfold byte; lia|assumption]|assumption].
  rewrite sab_checksum_iff by assumption. reflexivity.
Qed.

(* ---------- the receiver ---------- *)
Definition sab_wf (s : sab) : Prop :=
  zlen (s_buf s) = 35 /\ (s_avail s = 0 \/ 3 <= s_avail s <= 35) /\
  (s_state s = DATA -> 0 <= s_pos s < s_len s /\ 3 <= s_len s <= 35).

Lemma sab_wf_init : sab_wf sab_init.
Proof. split; [reflexivity|]. split; [left; reflexivity|]. discriminate. Qed.

Lemma sab_wf_drop s : sab_wf s -> sab_wf (sab_dropMessage s).
Proof. intros (A & B & C). split; [exact A|]. split; [left; reflexivity|exact C]. Qed.

Lemma sab_byte_wf s b : sab_wf s -> byte b -> exists s', sab_byte s b = Some s' /\ sab_wf s'.
Proof.
  intros (A & B & C) Hb. unfold byte in Hb. unfold sab_byte. destruct (s_state s) eqn:E.
  - eexists. split; [reflexivity|]. destruct (b =? syncByte); unfold sab_wf; cbn [s_buf s_avail s_state s_pos s_len]; (split; [exact A|split; [exact B|]]); [discriminate|rewrite E; discriminate].
  - eexists. split; [reflexivity|]. unfold maxPayloadLength, u8. destruct (32 <? b) eqn:E1; unfold sab_wf; cbn [s_buf s_avail s_state s_pos s_len].
    + repeat split; try assumption; discriminate.
    + split; [exact A|]. split; [exact B|]. intros _. lia.
  - specialize (C eq_refl). destruct (zupd_in_range (s_buf s) (s_pos s) b) as (buf & U & L & _); [lia|].
    rewrite U. cbn [obind]. eexists. split; [reflexivity|]. unfold u8.
    destruct (s_len s <=? (s_pos s + 1) mod 256) eqn:E1; unfold sab_wf; cbn [s_buf s_avail s_state s_pos s_len].
    + split; [lia|]. split; [destruct (_ =? 0); lia|discriminate].
    + split; [lia|]. split; [exact B|]. intros _. lia.
Qed.

Lemma sab_update_wf bytes : forall s, sab_wf s -> Forall byte bytes -> exists s', sab_update s bytes = Some s' /\ sab_wf s'.
Proof.
  induction bytes as [|b r IH]; intros s H F; cbn [sab_update].
  - eauto.
  - inversion F; subst. destruct (sab_byte_wf s b H) as (s1 & E & W); [assumption|]. rewrite E. cbn [obind]. apply IH; assumption.
Qed.

Lemma sab_update_app a b s : sab_update s (a ++ b) = (do s' <- sab_update s a; sab_update s' b).
Proof. revert s. induction a as [|x r IH]; intro s; cbn [sab_update app obind]; [reflexivity|]. destruct (sab_byte s x); cbn [obind]; auto. Qed.

Lemma sab_update_cons s b r : sab_update s (b :: r) = (do s' <- sab_byte s b; sab_update s' r).
Proof. reflexivity. Qed.

(* feeding the body of a frame *)
Lemma sab_data_run body : forall s, s_state s = DATA -> 0 <= s_pos s -> s_len s <= zlen (s_buf s) -> s_len s < 256 ->
  s_pos s + zlen body < s_len s ->
  exists buf, zwrite (s_buf s) (s_pos s) body = Some buf /\
  sab_update s body = Some (mkSab DATA buf (fold_left sab_crcUpdate body (s_crc s)) (s_pos s + zlen body) (s_len s) (s_avail s)).
Proof.
  induction body as [|b r IH]; intros s E P L M H; cbn [sab_update fold_left zwrite].
  - exists (s_buf s). split; [reflexivity|]. rewrite zlen_nil, Z.add_0_r. destruct s as [st bf cr ps ln av]; cbn in *; subst. reflexivity.
  - rewrite zlen_cons in *. pose proof (zlen_nonneg r). unfold sab_byte at 1. rewrite E.
    destruct (zupd_in_range (s_buf s) (s_pos s) b) as (buf & U & LU & _); [lia|].
    rewrite U. cbn [obind]. unfold u8. rewrite (Z.mod_small (s_pos s + 1)) by lia.
    replace (s_len s <=? s_pos s + 1) with false by lia. cbn [obind].
    destruct (IH (mkSab DATA buf (sab_crcUpdate (s_crc s) b) (s_pos s + 1) (s_len s) (s_avail s))) as (buf' & W & R);
      cbn [s_state s_buf s_crc s_pos s_len s_avail] in *; try lia; [reflexivity|].
    exists buf'. split; [exact W|]. rewrite R. do 2 f_equal. lia.
Qed.

Lemma sab_frame_run body last s : s_state s = DATA -> s_pos s = 0 -> s_len s <= zlen (s_buf s) -> s_len s < 256 ->
  zlen body + 1 = s_len s ->
  let crc := fold_left sab_crcUpdate (body ++ [last]) (s_crc s) in
  sab_update s (body ++ [last]) =
    Some (mkSab SYNC ((body ++ [last]) ++ skipn (Z.to_nat (s_len s)) (s_buf s)) crc (s_len s) (s_len s)
            (if crc =? 0 then s_len s else s_avail s)).
Proof.
  intros E P L M H crc. subst crc. rewrite sab_update_app. pose proof (zlen_nonneg body).
  destruct (sab_data_run body s) as (buf & W & R); try lia; [assumption|].
  rewrite R. cbn [obind sab_update]. unfold sab_byte. cbn [s_state s_buf s_crc s_pos s_len s_avail].
  pose proof (zwrite_len _ _ _ _ W) as LW.
  assert (zwrite (s_buf s) 0 (body ++ [last]) = zupd buf (s_pos s + zlen body) last) as EW.
  { rewrite zwrite_app. rewrite P in W. rewrite W. cbn [obind zwrite]. rewrite P.
    destruct (zupd buf (0 + zlen body) last); reflexivity. }
  rewrite <- EW. rewrite zwrite_ok by (rewrite ?zlen_app, ?zlen_cons, ?zlen_nil; lia). cbn [obind firstn Z.to_nat app].
  unfold u8. rewrite P. rewrite Z.mod_small by lia. replace (s_len s <=? 0 + zlen body + 1) with true by lia.
  rewrite fold_left_app. cbn [fold_left]. rewrite zlen_app, zlen_cons, zlen_nil.
  replace (0 + zlen body + 1) with (s_len s) by lia. replace (0 + (zlen body + (1 + 0))) with (s_len s) by lia. reflexivity.
Qed.

Definition idle (s : sab) : Prop := s_state s = SYNC /\ zlen (s_buf s) = 35.

(* one whole frame into an idle receiver *)
Lemma sab_receive s h c p k : idle s -> zlen p <= 32 -> Forall byte (h :: c :: p ++ [k]) ->
  sab_update s (0x54 :: zlen p :: h :: c :: p ++ [k]) =
    Some (mkSab SYNC ((h :: c :: p ++ [k]) ++ skipn (Z.to_nat (zlen p + 3)) (s_buf s))
           (fold_left sab_crcUpdate (zlen p :: h :: c :: p ++ [k]) 0) (zlen p + 3) (zlen p + 3)
           (if fold_left sab_crcUpdate (zlen p :: h :: c :: p ++ [k]) 0 =? 0 then zlen p + 3 else s_avail s)).
Proof.
  intros [E L] H F. pose proof (zlen_nonneg p).
  rewrite sab_update_cons. unfold sab_byte at 1. rewrite E. change (84 =? syncByte) with true. cbn [obind].
  rewrite sab_update_cons. unfold sab_byte at 1. cbn [s_state s_buf s_crc s_pos s_len s_avail]. unfold maxPayloadLength.
  replace (32 <? zlen p) with false by lia. cbn [obind]. unfold u8. rewrite Z.mod_small by lia.
  change (h :: c :: p ++ [k]) with ((h :: c :: p) ++ [k]).
  match goal with |- sab_update ?x _ = _ => pose proof (sab_frame_run (h :: c :: p) k x) as R end.
  cbn [s_state s_buf s_crc s_pos s_len s_avail] in R. cbn zeta in R. rewrite !zlen_cons in R.
  rewrite R; [reflexivity|reflexivity|reflexivity|lia|lia|lia].
Qed.

Definition hdr (s : sab) (h c : Z) (p : list Z) : Prop :=
  zlen (s_buf s) = 35 /\ exists rest, s_buf s = h :: c :: p ++ rest.

Definition view (h c : Z) (p : list Z) : Z * bool * bool * Z * list Z :=
  (Z.land h 0x3f, Z.testbit h 7, Z.testbit h 6, c, p).

Lemma land_pow2_test h n : 0 <= n -> negb (Z.land h (2 ^ n) =? 0) = Z.testbit h n.
Proof.
  intro Hn. destruct (Z.testbit h n) eqn:E.
  - destruct (Z.land h (2 ^ n) =? 0) eqn:E1; [|reflexivity]. exfalso.
    assert (Z.testbit (Z.land h (2 ^ n)) n = true) as T by (rewrite Z.land_spec, E, Z.pow2_bits_true by lia; reflexivity).
    replace (Z.land h (2 ^ n)) with 0 in T by lia. rewrite Z.bits_0 in T. discriminate.
  - replace (Z.land h (2 ^ n)) with 0; [reflexivity|]. symmetry. apply Z.bits_inj'. intros i Hi.
    rewrite Z.land_spec, Z.bits_0. destruct (Z.eq_dec i n) as [->|].
    + rewrite E. reflexivity.
    + rewrite Z.pow2_bits_false by lia. apply andb_false_r.
Qed.

Lemma accessors s h c p : hdr s h c p ->
  sab_getAddress s = Some (Z.land h 0x3f) /\ sab_isResponse s = Some (Z.testbit h 7) /\
  sab_isAcknowledge s = Some (Z.testbit h 6) /\ sab_getCommand s = Some c /\ sab_getPayload s (zlen p) = Some p.
Proof.
  intros (L & rest & E). unfold sab_getAddress, sab_isResponse, sab_isAcknowledge, sab_getCommand, sab_getPayload.
  rewrite E. cbn [znth Z.to_nat]. change (znth (h :: c :: p ++ rest) 0) with (Some h). cbn [obind].
  change 0x80 with (2 ^ 7). change 0x40 with (2 ^ 6). rewrite !land_pow2_test by lia.
  repeat split. change (h :: c :: p ++ rest) with ([h; c] ++ p ++ rest). apply zsub_app; reflexivity.
Qed.

Lemma sab_read_view s h c p : hdr s h c p -> s_avail s = zlen p + 3 -> zlen p <= 32 -> sab_read s = Some (view h c p).
Proof.
  intros H A B. pose proof (zlen_nonneg p). unfold sab_read. destruct (accessors s h c p H) as (-> & -> & -> & -> & E).
  cbn [obind]. unfold sab_getPayloadLength, u8. rewrite A. replace ((zlen p + 3 - 3) mod 256) with (zlen p) by lia.
  rewrite E. reflexivity.
Qed.

Lemma idle_drop s : idle s -> idle (sab_dropMessage s).
Proof. intros [A B]. split; assumption. Qed.

(* an accepted frame *)
Lemma sab_accept s h c p k : idle s -> zlen p <= 32 -> byte h -> byte c -> Forall byte p ->
  sab_checksum (zlen p :: h :: c :: p) k ->
  exists s', sab_update s (0x54 :: zlen p :: h :: c :: p ++ [k]) = Some s' /\ idle s' /\ s_avail s' = zlen p + 3 /\ hdr s' h c p.
Proof.
  intros I H Hh Hc Hp K. pose proof (zlen_nonneg p). pose proof (sab_checksum_byte _ _ K) as Hk.
  assert (Forall byte (zlen p :: h :: c :: p)) as F by (repeat apply Forall_cons; try assumption; unfold byte; lia).
  rewrite sab_receive; [|exact I|exact H|].
  2: { repeat apply Forall_cons; try assumption. apply Forall_app; split; [assumption|]. apply Forall_cons; [assumption|apply Forall_nil]. }
  assert (fold_left sab_crcUpdate (zlen p :: h :: c :: p ++ [k]) 0 = 0) as Z0 by (apply (sab_frame_crc_zero (zlen p :: h :: c :: p)); assumption).
  rewrite Z0. destruct I as [I1 I2].
  assert (zlen ((h :: c :: p ++ [k]) ++ skipn (Z.to_nat (zlen p + 3)) (s_buf s)) = 35) as L.
  { rewrite zlen_app, !zlen_cons, zlen_app, zlen_cons, zlen_nil, skipn_zlen; lia. }
  eexists. split; [reflexivity|]. unfold idle, hdr. cbn [s_state s_buf s_avail Z.eqb].
  split; [split; [reflexivity|exact L]|]. split; [reflexivity|]. split; [exact L|].
  exists ([k] ++ skipn (Z.to_nat (zlen p + 3)) (s_buf s)). cbn [app]. rewrite <- app_assoc. reflexivity.
Qed.

(* a rejected frame *)
Lemma sab_reject s h c p k : idle s -> zlen p <= 32 -> byte h -> byte c -> Forall byte p -> byte k ->
  ~ sab_checksum (zlen p :: h :: c :: p) k ->
  exists s', sab_update s (0x54 :: zlen p :: h :: c :: p ++ [k]) = Some s' /\ idle s' /\ s_avail s' = s_avail s.
Proof.
  intros I H Hh Hc Hp Hk K. pose proof (zlen_nonneg p).
  assert (Forall byte (zlen p :: h :: c :: p)) as F by (repeat apply Forall_cons; try assumption; unfold byte; lia).
  rewrite sab_receive; [|exact I|exact H|].
  2: { repeat apply Forall_cons; try assumption. apply Forall_app; split; [assumption|]. apply Forall_cons; [assumption|apply Forall_nil]. }
  destruct (fold_left sab_crcUpdate (zlen p :: h :: c :: p ++ [k]) 0 =? 0) eqn:Z0.
  - exfalso. apply K. apply (sab_frame_crc_zero (zlen p :: h :: c :: p)); [assumption|assumption|]. cbn [app]. lia.
  - eexists. split; [reflexivity|]. destruct I as [I1 I2]. unfold idle. cbn [s_state s_buf s_avail].
    split; [split; [reflexivity|]|reflexivity].
    rewrite zlen_app, !zlen_cons, zlen_app, zlen_cons, zlen_nil, skipn_zlen; lia.
Qed.

(* garbage without a sync byte *)
Lemma sab_garbage g : forall s, s_state s = SYNC -> ~ In 0x54 g -> sab_update s g = Some s.
Proof.
  induction g as [|b r IH]; intros s E H; cbn [sab_update]; [reflexivity|].
  unfold sab_byte. rewrite E. replace (b =? syncByte) with false by (unfold syncByte; cbn in H; lia).
  cbn [obind]. apply IH; [exact E|]. cbn in H. tauto.
Qed.

(* a single byte poll equals update *)
Lemma sab_poll_app a b s : sab_poll s (a ++ b) =
  (do (s1, m1) <- sab_poll s a; do (s2, m2) <- sab_poll s1 b; Some (s2, m1 ++ m2)).
Proof.
  revert s. induction a as [|x r IH]; intro s; cbn [sab_poll app obind].
  - destruct (sab_poll s b) as [[? ?]|]; reflexivity.
  - destruct (sab_update s [x]) as [s1|]; cbn [obind]; [|reflexivity].
    destruct (sab_isMessageAvailable s1); [|apply IH].
    destruct (sab_read s1); cbn [obind]; [|reflexivity]. rewrite IH.
    destruct (sab_poll (sab_dropMessage s1) r) as [[s2 m2]|]; cbn [obind]; [|reflexivity].
    destruct (sab_poll s2 b) as [[? ?]|]; reflexivity.
Qed.

Lemma sab_poll_quiet bs : forall s s', sab_update s bs = Some s' ->
  (forall a b, bs = a ++ b -> exists t, sab_update s a = Some t /\ s_avail t = 0) ->
  sab_poll s bs = Some (s', []).
Proof.
  induction bs as [|b r IH]; intros s s' H Q; cbn [sab_poll].
  - cbn [sab_update] in H. injection H as <-. reflexivity.
  - destruct (Q [b] r eq_refl) as (t & E & A). rewrite E. cbn [obind]. unfold sab_isMessageAvailable. rewrite A. cbn [negb Z.eqb].
    change (b :: r) with ([b] ++ r) in H, Q. rewrite sab_update_app, E in H. cbn [obind] in H. apply IH; [exact H|].
    intros a c Hac. destruct (Q ([b] ++ a) c) as (t' & E' & A'); [rewrite Hac, app_assoc; reflexivity|].
    rewrite sab_update_app, E in E'. eauto.
Qed.

(* nothing becomes available before the last byte of a frame *)
Lemma sab_prefix_quiet s n body a b : idle s -> s_avail s = 0 -> byte n -> n <= 32 -> zlen body < n + 3 -> 0x54 :: n :: body = a ++ b ->
  exists t, sab_update s a = Some t /\ s_avail t = 0.
Proof.
  intros [I1 I2] A B N L E. destruct a as [|x [|y a]].
  - exists s. split; [reflexivity|exact A].
  - injection E as <- <-. cbn [sab_update]. unfold sab_byte. rewrite I1. eexists. split; [reflexivity|]. exact A.
  - injection E as <- <- E. rewrite sab_update_cons. unfold sab_byte at 1. rewrite I1. change (84 =? syncByte) with true. cbn [obind].
    rewrite sab_update_cons. unfold sab_byte at 1. cbn [s_state s_buf s_crc s_pos s_len s_avail]. unfold maxPayloadLength, byte in *.
    replace (32 <? n) with false by lia. cbn [obind]. unfold u8. rewrite Z.mod_small by lia.
    match goal with |- exists t, sab_update ?x _ = _ /\ _ => destruct (sab_data_run a x) as (buf & _ & R) end;
      cbn [s_state s_buf s_crc s_pos s_len s_avail] in *; try lia; try reflexivity.
    + rewrite E, zlen_app in L. pose proof (zlen_nonneg b). lia.
    + rewrite R. eexists. split; [reflexivity|]. exact A.
Qed.

Lemma prefix_snoc {A} (l : list A) x a b : l ++ [x] = a ++ b -> (a = l ++ [x] /\ b = []) \/ exists b', l = a ++ b'.
Proof.
  intro H. destruct b as [|y b _] using rev_ind.
  - left. rewrite app_nil_r in H. auto.
  - right. rewrite app_assoc in H. apply app_inj_tail in H. destruct H as [H _]. eauto.
Qed.

(* ---------- the polled receiver reports exactly the frames of the stream ---------- *)
Lemma poll_frame s h c p k : idle s -> s_avail s = 0 -> zlen p <= 32 -> byte h -> byte c -> Forall byte p -> byte k ->
  (sab_checksum (zlen p :: h :: c :: p) k ->
   exists s', sab_poll s (0x54 :: zlen p :: h :: c :: p ++ [k]) = Some (s', [view h c p]) /\ idle s' /\ s_avail s' = 0) /\
  (~ sab_checksum (zlen p :: h :: c :: p) k ->
   exists s', sab_poll s (0x54 :: zlen p :: h :: c :: p ++ [k]) = Some (s', []) /\ idle s' /\ s_avail s' = 0).
Proof.
  intros I A H Hh Hc Hp Hk. pose proof (zlen_nonneg p).
  assert (Q : forall a b, 0x54 :: zlen p :: h :: c :: p = a ++ b -> exists t, sab_update s a = Some t /\ s_avail t = 0).
  { intros a b E. apply (sab_prefix_quiet s (zlen p) (h :: c :: p) a b); try assumption; [unfold byte; lia|rewrite !zlen_cons; lia]. }
  split; intro K.
  - destruct (sab_accept s h c p k I H Hh Hc Hp K) as (s' & U & I' & A' & D').
    change (0x54 :: zlen p :: h :: c :: p ++ [k]) with ((0x54 :: zlen p :: h :: c :: p) ++ [k]) in *.
    rewrite sab_update_app in U. destruct (sab_update s (0x54 :: zlen p :: h :: c :: p)) as [t|] eqn:Et; [|discriminate]. cbn [obind] in U.
    rewrite sab_poll_app. rewrite (sab_poll_quiet _ s t Et Q). cbn [obind sab_poll]. rewrite U. cbn [obind].
    unfold sab_isMessageAvailable. rewrite A'. replace (zlen p + 3 =? 0) with false by lia. cbn [negb].
    rewrite (sab_read_view s' h c p D' A' H). cbn [obind sab_poll]. eexists. split; [reflexivity|].
    split; [apply idle_drop; exact I'|reflexivity].
  - destruct (sab_reject s h c p k I H Hh Hc Hp Hk K) as (s' & U & I' & A'). exists s'. split; [|split; [exact I'|lia]].
    apply sab_poll_quiet; [exact U|]. intros a b E.
    change (0x54 :: zlen p :: h :: c :: p ++ [k]) with ((0x54 :: zlen p :: h :: c :: p) ++ [k]) in *.
    destruct (prefix_snoc _ _ _ _ E) as [[-> ->]|[b' E']].
    + exists s'. split; [exact U|lia].
    + apply (Q a b'); exact E'.
Qed.

Lemma poll_parse bs ms : sab_parse bs ms -> Forall byte bs -> forall s, idle s -> s_avail s = 0 ->
  exists s', sab_poll s bs = Some (s', map (fun m => view (fst (fst m)) (snd (fst m)) (snd m)) ms) /\ idle s' /\ s_avail s' = 0.
Proof.
  induction 1 as [|b r ms Hb P IH|n r ms Hn P IH|h c p k r ms Hp K P IH|h c p k r ms Hp K P IH]; intros F s I A.
  - exists s. split; [reflexivity|]. tauto.
  - inversion F; subst. destruct (IH ltac:(assumption) s I A) as (s' & E & R). exists s'. split; [|exact R].
    change (b :: r) with ([b] ++ r). rewrite sab_poll_app, (sab_poll_quiet [b] s s).
    + cbn [obind]. rewrite E. reflexivity.
    + apply sab_garbage; [apply I|]. cbn. lia.
    + intros a c Hac. exists s. split; [|exact A]. apply sab_garbage; [apply I|]. intro J.
      assert (In 0x54 [b]) as [T|[]] by (rewrite Hac; apply in_or_app; left; exact J). lia.
  - inversion F as [|? ? F1 F2]; subst. inversion F2 as [|? ? Bn F3]; subst.
    destruct I as [I1 I2].
    set (s1 := mkSab SYNC (s_buf s) (s_crc s) (s_pos s) (s_len s) (s_avail s)).
    destruct (IH F3 s1) as (s' & E & R); [split; [reflexivity|exact I2]|exact A|]. exists s'. split; [|exact R].
    change (0x54 :: n :: r) with ([0x54; n] ++ r). rewrite sab_poll_app, (sab_poll_quiet [0x54; n] s s1).
    + cbn [obind]. rewrite E. reflexivity.
    + cbn [sab_update]. unfold sab_byte at 1. rewrite I1. cbn [obind]. change (84 =? syncByte) with true. unfold sab_byte. cbn [s_state].
      unfold maxPayloadLength. replace (32 <? n) with true by lia. reflexivity.
    + intros a c Hac. destruct a as [|x [|y [|z a]]].
      * exists s. split; [reflexivity|exact A].
      * injection Hac as <- Hac. cbn [sab_update]. unfold sab_byte. rewrite I1. cbn [obind]. eexists. split; [reflexivity|exact A].
      * injection Hac as <- <- Hac. cbn [sab_update]. unfold sab_byte at 1. rewrite I1. cbn [obind]. change (84 =? syncByte) with true.
        unfold sab_byte. cbn [s_state]. unfold maxPayloadLength. replace (32 <? n) with true by lia. cbn [obind]. eexists. split; [reflexivity|exact A].
      * discriminate.
  - replace (0x54 :: zlen p :: h :: c :: p ++ k :: r) with ((0x54 :: zlen p :: h :: c :: p ++ [k]) ++ r) in *
      by (cbn [app]; rewrite <- app_assoc; reflexivity).
    apply Forall_app in F. destruct F as [F Fr]. inversion F as [|? ? _ F1]; subst. inversion F1 as [|? ? _ F2]; subst.
    inversion F2 as [|? ? Bh F3]; subst. inversion F3 as [|? ? Bc F4]; subst. apply Forall_app in F4. destruct F4 as [Bp Bk].
    inversion Bk; subst.
    destruct (proj1 (poll_frame s h c p k I A Hp Bh Bc Bp ltac:(assumption)) K) as (s1 & E1 & I1 & A1).
    destruct (IH Fr s1 I1 A1) as (s' & E & R). exists s'. split; [|exact R].
    rewrite sab_poll_app, E1. cbn [obind]. rewrite E. reflexivity.
  - replace (0x54 :: zlen p :: h :: c :: p ++ k :: r) with ((0x54 :: zlen p :: h :: c :: p ++ [k]) ++ r) in *
      by (cbn [app]; rewrite <- app_assoc; reflexivity).
    apply Forall_app in F. destruct F as [F Fr]. inversion F as [|? ? _ F1]; subst. inversion F1 as [|? ? _ F2]; subst.
    inversion F2 as [|? ? Bh F3]; subst. inversion F3 as [|? ? Bc F4]; subst. apply Forall_app in F4. destruct F4 as [Bp Bk].
    inversion Bk; subst.
    destruct (proj2 (poll_frame s h c p k I A Hp Bh Bc Bp ltac:(assumption)) K) as (s1 & E1 & I1 & A1).
    destruct (IH Fr s1 I1 A1) as (s' & E & R). exists s'. split; [|exact R].
    rewrite sab_poll_app, E1. cbn [obind]. rewrite E. reflexivity.
Qed.

Lemma body_split n (r : list Z) : 0 <= n -> n + 3 <= zlen r -> exists h c p k r', r = h :: c :: p ++ k :: r' /\ zlen p = n.
Proof.
  intros Hn H. destruct r as [|h [|c r]]; rewrite ?zlen_cons, ?zlen_nil in H; try lia.
  exists h, c, (firstn (Z.to_nat n) r).
  destruct (skipn (Z.to_nat n) r) as [|k r'] eqn:E.
  - assert (zlen (skipn (Z.to_nat n) r) = 0) as L by (rewrite E; reflexivity). rewrite skipn_zlen in L; lia.
  - exists k, r'. split; [|apply firstn_zlen; lia]. rewrite <- E, firstn_skipn. reflexivity.
Qed.

Lemma parse_total bs : Forall byte bs -> exists a tail ms, bs = a ++ tail /\ sab_parse a ms /\ sab_incomplete tail.
Proof.
  remember (length bs) as n eqn:Hn. revert bs Hn. induction n as [n IH] using lt_wf_ind. intros bs Hn F.
  destruct bs as [|b r].
  { exists [], [], []. split; [reflexivity|]. split; [constructor|left; reflexivity]. }
  inversion F as [|? ? Bb Fr]; subst. destruct (Z.eq_dec b 0x54) as [->|Nb].
  2: { destruct (IH (length r) ltac:(cbn; lia) r eq_refl Fr) as (a & t & ms & -> & P & T).
       exists (b :: a), t, ms. split; [reflexivity|]. split; [apply parse_skip; assumption|exact T]. }
  destruct r as [|l r]; [exists [], [0x54], []; split; [reflexivity|]; split; [constructor|right; left; reflexivity]|].
  inversion Fr as [|? ? Bl Fr']; subst. unfold byte in Bl. destruct (Z_lt_dec 32 l) as [Hl|Hl].
  { destruct (IH (length r) ltac:(cbn; lia) r eq_refl Fr') as (a & t & ms & -> & P & T).
    exists (0x54 :: l :: a), t, ms. split; [reflexivity|]. split; [apply parse_bad_length; assumption|exact T]. }
  destruct (Z_lt_dec (zlen r) (l + 3)) as [Hs|Hs].
  { exists [], (0x54 :: l :: r), []. split; [reflexivity|]. split; [constructor|]. right; right. exists l, r. split; [reflexivity|lia]. }
  destruct (body_split l r ltac:(lia) ltac:(lia)) as (h & c & p & k & r' & -> & Hp). subst l.
  inversion Fr' as [|? ? Bh F3]; subst. inversion F3 as [|? ? Bc F4]; subst. apply Forall_app in F4. destruct F4 as [Bp Bk].
  inversion Bk as [|? ? Bk1 Fr'']; subst.
  destruct (IH (length r')) with (bs := r') as (a & t & ms & -> & P & T); [cbn; rewrite app_length; cbn; lia|reflexivity|exact Fr''|].
  assert (Forall byte (zlen p :: h :: c :: p)) as FF by (repeat apply Forall_cons; try assumption).
  destruct (Z.eq_dec k (fold_left sab_crcUpdate (zlen p :: h :: c :: p) 0)) as [Hk|Hk].
  - exists (0x54 :: zlen p :: h :: c :: p ++ k :: a), t, ((h, c, p) :: ms).
    split; [cbn [app]; rewrite <- app_assoc; reflexivity|]. split; [|exact T].
    apply parse_good; [lia| |exact P]. apply sab_checksum_iff; assumption.
  - exists (0x54 :: zlen p :: h :: c :: p ++ k :: a), t, ms.
    split; [cbn [app]; rewrite <- app_assoc; reflexivity|]. split; [|exact T].
    apply parse_bad_crc; [lia| |exact P]. intro K. apply Hk. apply sab_checksum_iff; assumption.
Qed.

Lemma poll_incomplete s tail : idle s -> s_avail s = 0 -> Forall byte tail -> sab_incomplete tail -> exists s', sab_poll s tail = Some (s', []) /\ s_avail s' = 0.
Proof.
  intros I A F T. destruct T as [->|[->|(n & body & -> & Hn & Hb)]].
  - exists s. split; [reflexivity|exact A].
  - destruct I as [I1 I2]. cbn [sab_poll sab_update]. unfold sab_byte. rewrite I1. cbn [obind]. change (84 =? syncByte) with true.
    unfold sab_isMessageAvailable. cbn [s_avail]. rewrite A. cbn [negb Z.eqb]. eexists. split; [reflexivity|]. reflexivity.
  - inversion F as [|? ? _ F1]; subst. inversion F1 as [|? ? Bn F2]; subst.
    destruct (sab_prefix_quiet s n body (0x54 :: n :: body) [] I A Bn Hn Hb) as (t & E & At); [symmetry; apply app_nil_r|].
    exists t. split; [|exact At]. apply sab_poll_quiet; [exact E|]. intros a b Hab. apply (sab_prefix_quiet s n body a b); assumption.
Qed.

Lemma poll_total s bs : idle s -> s_avail s = 0 -> Forall byte bs ->
  exists a tail ms s', bs = a ++ tail /\ sab_parse a ms /\ sab_incomplete tail /\
    sab_poll s bs = Some (s', map (fun m => view (fst (fst m)) (snd (fst m)) (snd m)) ms).
Proof.
  intros I A F. destruct (parse_total bs F) as (a & tail & ms & E & P & T). subst. apply Forall_app in F. destruct F as [Fa Ft].
  destruct (poll_parse a ms P Fa s I A) as (s1 & E1 & I1 & A1). destruct (poll_incomplete s1 tail I1 A1 Ft T) as (s2 & E2 & _).
  exists a, tail, ms, s2. split; [reflexivity|]. split; [exact P|]. split; [exact T|]. rewrite sab_poll_app, E1. cbn [obind]. rewrite E2. cbn [obind].
  rewrite app_nil_r. reflexivity.
Qed.

Lemma app_prefix_eq {A} (a b c d : list A) : a ++ b = c ++ d -> length a = length c -> a = c /\ b = d.
Proof.
  revert c. induction a as [|x a IH]; intros [|y c] H L; cbn in *; try discriminate; [auto|].
  injection H as -> H. destruct (IH c H ltac:(lia)) as [-> ->]. auto.
Qed.
Lemma zlen_eq_length {A} (a b : list A) : zlen a = zlen b -> length a = length b.
Proof. unfold zlen. lia. Qed.

(* the division of a stream into frames is unique *)
Lemma parse_det a ms : sab_parse a ms -> forall ms', sab_parse a ms' -> ms = ms'.
Proof.
  induction 1 as [|b r ms Hb P IH|n r ms Hn P IH|h c p k r ms Hp K P IH|h c p k r ms Hp K P IH]; intros ms' Q.
  - inversion Q; reflexivity.
  - inversion Q; subst; try congruence. apply IH; assumption.
  - inversion Q; subst; try congruence; try lia. apply IH; assumption.
  - inversion Q as [|? ? ? X|? ? ? X|h' c' p' k' r' ms1 Hp' K' P' E|h' c' p' k' r' ms1 Hp' K' P' E]; subst; try congruence; try lia.
    all: match goal with X : _ ++ _ = _ ++ _ |- _ => apply app_prefix_eq in X; [|apply zlen_eq_length; congruence]; destruct X as [-> X]; injection X as -> -> end.
    + f_equal. apply IH; assumption.
    + contradiction.
  - inversion Q as [|? ? ? X|? ? ? X|h' c' p' k' r' ms1 Hp' K' P' E|h' c' p' k' r' ms1 Hp' K' P' E]; subst; try congruence; try lia.
    all: match goal with X : _ ++ _ = _ ++ _ |- _ => apply app_prefix_eq in X; [|apply zlen_eq_length; congruence]; destruct X as [-> X]; injection X as -> -> end.
    + contradiction.
    + apply IH; assumption.
Qed.

(* ---------- recovery ---------- *)
Lemma data_silence g : forall s, sab_wf s -> s_state s = DATA -> s_len s - s_pos s <= zlen g -> ~ In 0x54 g -> Forall byte g ->
  exists s', sab_update s g = Some s' /\ idle s'.
Proof.
  induction g as [|b r IH]; intros s W E H N F.
  - destruct W as (_ & _ & W). specialize (W E). rewrite zlen_nil in H. lia.
  - inversion F; subst. destruct (sab_byte_wf s b W) as (s1 & E1 & W1); [assumption|]. rewrite sab_update_cons, E1. cbn [obind].
    assert (D : (s_state s1 = SYNC) \/ (s_state s1 = DATA /\ s_len s1 = s_len s /\ s_pos s1 = s_pos s + 1)).
    { revert E1. unfold sab_byte. rewrite E. destruct (zupd (s_buf s) (s_pos s) b); [|discriminate]. cbn [obind]. cbv zeta.
      generalize (sab_crcUpdate (s_crc s) b) as cr. intro cr.
      destruct W as (_ & _ & W). specialize (W E). unfold u8. rewrite Z.mod_small by lia.
      destruct (s_len s <=? s_pos s + 1); intro X; injection X as <-; cbn [s_state s_len s_pos]; auto. }
    rewrite zlen_cons in H. assert (~ In 84 r) by (cbn [In] in N; tauto). destruct D as [D|(D1 & D2 & D3)].
    + exists s1. split; [apply sab_garbage; assumption|]. split; [exact D|apply W1].
    + apply IH; try assumption. lia.
Qed.

Lemma silence_resync g s : sab_wf s -> 36 <= zlen g -> ~ In 0x54 g -> Forall byte g ->
  exists s', sab_update s g = Some s' /\ idle s'.
Proof.
  intros W H N F. destruct (s_state s) eqn:E.
  - exists s. split; [apply sab_garbage; assumption|]. split; [exact E|apply W].
  - destruct g as [|b r]; [rewrite zlen_nil in H; lia|]. inversion F; subst. rewrite zlen_cons in H.
    destruct (sab_byte_wf s b W) as (s1 & E1 & W1); [assumption|]. rewrite sab_update_cons, E1. cbn [obind].
    assert (~ In 84 r) by (cbn [In] in N; tauto).
    revert E1. unfold sab_byte. rewrite E. generalize (sab_crcUpdate crcInitialValue b) as cr. intros cr X. injection X as X. destruct (maxPayloadLength <? b) eqn:Eb.
    + exists s1. split; [apply sab_garbage; [rewrite <- X; reflexivity|assumption]|]. split; [rewrite <- X; reflexivity|apply W1].
    + unfold maxPayloadLength in Eb. apply data_silence; try assumption; rewrite <- X; cbn [s_state s_len s_pos]; [reflexivity|].
      unfold u8, byte in *. lia.
  - apply data_silence; try assumption. destruct W as (_ & _ & W). specialize (W E). lia.
Qed.

(* ---------- frames sent ---------- *)
Lemma zsub_all {A} (l : list A) : zsub l 0 (zlen l) = Some l.
Proof. rewrite <- (app_nil_r l) at 1. apply (zsub_app [] l []); reflexivity. Qed.

Lemma lor_header a f : 0 <= a < 64 -> f = REQUEST \/ f = ACK \/ f = NACK -> u8 (Z.lor a f) = a + f.
Proof.
  intros Ha Hf. unfold REQUEST, ACK, NACK, u8 in *.
  assert (exists q, f = q * 2 ^ 6 /\ 0 <= q < 4) as (q & -> & Hq) by (destruct Hf as [ -> | [ -> | -> ]]; [exists 0|exists 3|exists 2]; cbn; lia).
  rewrite Z.lor_comm, <- Z.shiftl_mul_pow2 by lia.
  assert (Z.lor (Z.shiftl q 6) a = Z.lxor (Z.shiftl q 6) a) as ->.
  { rewrite Z.lxor_lor; [reflexivity|]. apply Z.bits_inj'. intros i Hi. rewrite Z.land_spec, Z.bits_0, Z.shiftl_spec by lia.
    destruct (Z_lt_dec i 6); [rewrite (Z.testbit_neg_r q) by lia; reflexivity|].
    rewrite (testbit_high a 6 i) by (change (2 ^ 6) with 64; lia). apply andb_false_r. }
  rewrite lxor_small_shift by (change (2 ^ 6) with 64; lia). rewrite Z.shiftl_mul_pow2 by lia. change (2 ^ 6) with 64. lia.
Qed.

Definition flags_of (r k : bool) : Z := if r then (if k then ACK else NACK) else REQUEST.

Lemma send_spec a f c p : 0 <= zlen p < 256 -> byte c -> Forall byte p ->
  exists out k, sab_send a f c p (zlen p) = Some out /\ out = 0x54 :: zlen p :: u8 (Z.lor a f) :: c :: p ++ [k] /\
    sab_checksum (zlen p :: u8 (Z.lor a f) :: c :: p) k.
Proof.
  intros H Hc Hp. unfold sab_send. rewrite zsub_all. unfold obind.
  assert (Forall byte (zlen p :: u8 (Z.lor a f) :: c :: p)) as F.
  { apply Forall_cons; [exact H|]. apply Forall_cons; [unfold byte, u8; lia|]. apply Forall_cons; assumption. }
  pose proof (sab_crc_fold_byte _ 0 ltac:(unfold byte; lia) F) as B.
  pose proof (proj2 (sab_checksum_iff _ _ F B) eq_refl) as K. clear B F. revert K.
  generalize sab_crcUpdate as upd. intros upd K. eexists. eexists. split; [reflexivity|]. split; [reflexivity|]. exact K.
Qed.

Lemma header_bits a q : 0 <= a < 64 -> 0 <= q < 4 ->
  Z.land (a + q * 64) 0x3f = a /\ Z.testbit (a + q * 64) 7 = Z.testbit q 1 /\ Z.testbit (a + q * 64) 6 = Z.testbit q 0.
Proof.
  intros Ha Hq. change 0x3f with (2 ^ 6 - 1). rewrite land_ones_mod by lia. change (2 ^ 6) with 64.
  assert (forall i, 0 <= i -> Z.testbit (a + q * 64) (6 + i) = Z.testbit q i) as T.
  { intros i Hi. replace (a + q * 64) with (Z.lxor (Z.shiftl q 6) a)
      by (rewrite lxor_small_shift by (change (2 ^ 6) with 64; lia); change (2 ^ 6) with 64; lia).
    rewrite Z.lxor_spec, Z.shiftl_spec, (testbit_high a 6 (6 + i)) by (change (2 ^ 6) with 64; lia).
    rewrite xorb_false_r. f_equal. lia. }
  split; [lia|]. split; [apply (T 1); lia|apply (T 0); lia].
Qed.

Lemma view_header a r k c p : 0 <= a < 64 -> view (sab_header a r k) c p = (a, r, k, c, p).
Proof.
  intro Ha. unfold view, sab_header. destruct (header_bits a (Z.b2z k + 2 * Z.b2z r) Ha) as (E1 & E2 & E3).
  { destruct r, k; cbn; lia. }
  replace (a + 64 * Z.b2z k + 128 * Z.b2z r) with (a + (Z.b2z k + 2 * Z.b2z r) * 64) by lia.
  rewrite E1, E2, E3. destruct r, k; reflexivity.
Qed.

Lemma header_fields a r k : 0 <= a < 64 ->
  Z.land (sab_header a r k) 0x3f = a /\ Z.testbit (sab_header a r k) 7 = r /\ Z.testbit (sab_header a r k) 6 = k.
Proof.
  intro Ha. pose proof (view_header a r k 0 [] Ha) as V. unfold view in V.
  split; [exact (f_equal (fun x => fst (fst (fst (fst x)))) V)|].
  split; [exact (f_equal (fun x => snd (fst (fst (fst x)))) V)|exact (f_equal (fun x => snd (fst (fst x))) V)].
Qed.

Lemma header_flags a r k : 0 <= a < 64 -> (k = true -> r = true) -> u8 (Z.lor a (flags_of r k)) = sab_header a r k.
Proof.
  intros Ha H. rewrite lor_header; [|exact Ha|unfold flags_of; destruct r, k; auto].
  unfold sab_header, flags_of, ACK, NACK, REQUEST. destruct r, k; cbn [Z.b2z]; try lia.
Qed.

Lemma send_frame a r k c p : 0 <= a < 64 -> (k = true -> r = true) -> zlen p < 256 -> byte c -> Forall byte p ->
  exists out, sab_send a (flags_of r k) c p (zlen p) = Some out /\ sab_frame (sab_header a r k) c p out.
Proof.
  intros Ha H Hp Hc Fp. pose proof (zlen_nonneg p). destruct (send_spec a (flags_of r k) c p ltac:(lia) Hc Fp) as (out & q & E & O & K).
  rewrite header_flags in O, K by assumption. exists out. split; [exact E|]. exists q. tauto.
Qed.

Lemma header_byte a r k : 0 <= a < 64 -> byte (sab_header a r k).
Proof. intro H. unfold byte, sab_header. destruct r, k; cbn [Z.b2z]; lia. Qed.

(* receiving any frame while idle *)
Lemma frame_received s g a r k c p bytes : idle s -> 0 <= a < 64 -> byte c -> Forall byte p -> zlen p <= 32 ->
  ~ In 0x54 g -> sab_frame (sab_header a r k) c p bytes ->
  exists s', sab_update s (g ++ bytes) = Some s' /\ idle s' /\ sab_isMessageAvailable s' = true /\
    sab_getPayloadLength s' = zlen p /\ s_avail s' = zlen p + 3 /\ hdr s' (sab_header a r k) c p /\ sab_read s' = Some (a, r, k, c, p).
Proof.
  intros I Ha Hc Fp Hp N (q & -> & K). pose proof (zlen_nonneg p). rewrite sab_update_app, sab_garbage by (try assumption; apply I). cbn [obind].
  destruct (sab_accept s (sab_header a r k) c p q I Hp (header_byte a r k Ha) Hc Fp K) as (s' & E & I' & A' & D').
  exists s'. split; [exact E|]. split; [exact I'|]. unfold sab_isMessageAvailable, sab_getPayloadLength, u8. rewrite A'.
  split; [lia|]. split; [lia|]. split; [reflexivity|]. split; [exact D'|]. rewrite (sab_read_view s' (sab_header a r k) c p D' A' Hp), view_header by exact Ha. reflexivity.
Qed.

(* ---------- slave ---------- *)
Definition outcome_of (r : reply) : sab_outcome := match r with RError e => Failure e | RSend p => Answer p end.
Definition react (a : action) (p : list Z) : list sab_outcome := map outcome_of (a_call a p).
Definition outcome_ok (o : sab_outcome) : Prop :=
  match o with Answer p => Forall byte p /\ zlen p < 256 | Failure e => byte e end.
Definition expected := sab_expected a_command a_payloadLength react.

Lemma slave_reply_frame own c r : 0 <= own < 64 -> byte c -> outcome_ok (outcome_of r) ->
  exists out, slave_reply own c r = Some out /\ sab_reply_frame own c (outcome_of r) out.
Proof.
  intros Ho Hc H. destruct r as [e|p]; cbn [outcome_of outcome_ok sab_reply_frame slave_reply] in *.
  - apply (send_frame own true false c [e]); try assumption; try tauto; [cbn; lia|apply Forall_cons; [exact H|apply Forall_nil]].
  - destruct H as [F L]. pose proof (zlen_nonneg p). unfold u8. rewrite Z.mod_small by lia.
    apply (send_frame own true true c p); try assumption. tauto.
Qed.

Lemma expected_total acts c p : (forall a q, In a acts -> (length (a_call a q) <= 1)%nat) -> exists o, expected acts c p o.
Proof.
  induction acts as [|a t IH]; intro H.
  - exists (Failure 1). apply exp_unknown. intros r [].
  - destruct (Z.eq_dec (a_command a) c) as [E|N].
    + destruct (Z.eq_dec (a_payloadLength a) (zlen p)) as [L|L].
      * specialize (H a p ltac:(left; reflexivity)). destruct (a_call a p) as [|r [|r2 t2]] eqn:R.
        -- exists (Failure 3). apply (exp_silent _ _ _ _ _ _ [] a t); try assumption; [reflexivity|intros x []|unfold react; rewrite R; reflexivity].
        -- exists (outcome_of r). apply (exp_answer _ _ _ _ _ _ [] a t); try assumption; [reflexivity|intros x []|unfold react; rewrite R; reflexivity].
        -- cbn in H. lia.
      * exists (Failure 2). apply (exp_length _ _ _ _ _ _ [] a t); try assumption; [reflexivity|intros x []].
    + destruct IH as [o X]; [intros; apply H; right; assumption|]. exists o.
      assert (forall before : list action, (forall x, In x before -> a_command x <> c) -> forall x, In x (a :: before) -> a_command x <> c) as Y
        by (intros before B x [<-|I]; auto).
      destruct X as [U|before r after E B C D|before r after E B C D R|before r after o E B C D R]; [|subst t..].
      * apply exp_unknown. apply Y. exact U.
      * exact (exp_length _ _ _ _ _ _ (a :: before) r after eq_refl (Y _ B) C D).
      * exact (exp_silent _ _ _ _ _ _ (a :: before) r after eq_refl (Y _ B) C D R).
      * exact (exp_answer _ _ _ _ _ _ (a :: before) r after o eq_refl (Y _ B) C D R).
Qed.

Lemma slave_loop_skip own s c before rest : (forall x, In x before -> a_command x <> c) ->
  slave_loop own s c (before ++ rest) = slave_loop own s c rest.
Proof.
  induction before as [|a t IH]; intro H; [reflexivity|]. cbn [app slave_loop].
  replace (c =? a_command a) with false by (specialize (H a ltac:(left; reflexivity)); lia). apply IH. intros; apply H; right; assumption.
Qed.

Lemma fail_frame own c e : 0 <= own < 64 -> byte c -> byte e ->
  exists out, slave_reply own c (RError e) = Some out /\ sab_reply_frame own c (Failure e) out.
Proof. intros. apply (slave_reply_frame own c (RError e)); assumption. Qed.

(* the reaction to one available message *)
Definition slave_handle (own : Z) (acts : list action) (s : sab) (c : Z) : option (list Z) :=
  do (o, triggered) <- slave_loop own s c acts;
  if triggered then Some o else do e <- slave_reply own c (RError ERROR_NO_ACTION); Some (o ++ e).

Lemma slave_handle_spec own acts s c p o : 0 <= own < 64 -> byte c -> sab_getPayloadLength s = zlen p -> sab_getPayload s (zlen p) = Some p ->
  expected acts c p o -> outcome_ok o -> exists out, slave_handle own acts s c = Some out /\ sab_reply_frame own c o out.
Proof.
  intros Ho Hc L P X K. unfold slave_handle. destruct X as [U|before r after E B C D|before r after E B C D R|before r after o E B C D R].
  - rewrite <- (app_nil_r acts). rewrite slave_loop_skip by exact U. cbn [slave_loop obind].
    destruct (fail_frame own c ERROR_NO_ACTION Ho Hc ltac:(unfold byte, ERROR_NO_ACTION; lia)) as (out & -> & F). cbn [obind app]. eauto.
  - subst acts. rewrite slave_loop_skip by exact B. cbn [slave_loop]. rewrite C, Z.eqb_refl, L.
    replace (zlen p =? a_payloadLength r) with false by lia.
    destruct (fail_frame own c ERROR_WRONG_PAYLOAD_LENGTH Ho Hc ltac:(unfold byte, ERROR_WRONG_PAYLOAD_LENGTH; lia)) as (out & -> & F). cbn [obind]. eauto.
  - subst acts. rewrite slave_loop_skip by exact B. cbn [slave_loop]. rewrite C, Z.eqb_refl, L, D, Z.eqb_refl, P. cbn [obind].
    unfold react in R. destruct (a_call r p) as [|y t]; [|discriminate]. cbn [slave_replies obind].
    destruct (fail_frame own c ERROR_NO_RESPONSE Ho Hc ltac:(unfold byte, ERROR_NO_RESPONSE; lia)) as (out & -> & F). cbn [obind app]. eauto.
  - subst acts. rewrite slave_loop_skip by exact B. cbn [slave_loop]. rewrite C, Z.eqb_refl, L, D, Z.eqb_refl, P. cbn [obind].
    unfold react in R. destruct (a_call r p) as [|y [|y2 t]]; try discriminate. injection R as R. cbn [slave_replies obind].
    destruct (slave_reply_frame own c y Ho Hc) as (out & -> & F); [rewrite R; exact K|]. cbn [obind]. rewrite app_nil_r, R in *. eauto.
Qed.

Lemma slave_update_handle own acts s bytes s1 h c p : sab_update s bytes = Some s1 -> hdr s1 h c p ->
  slave_update own acts s bytes =
    if sab_isMessageAvailable s1 then
      if (Z.land h 0x3f =? own) && negb (Z.testbit h 7)
      then do out <- slave_handle own acts s1 c; Some (sab_dropMessage s1, out)
      else Some (sab_dropMessage s1, [])
    else Some (s1, []).
Proof.
  intros U D. unfold slave_update. rewrite U. cbn [obind]. destruct (sab_isMessageAvailable s1); [|reflexivity].
  destruct (accessors s1 h c p D) as (-> & -> & _ & -> & _). cbn [obind].
  destruct ((Z.land h 63 =? own) && negb (Z.testbit h 7)); [|reflexivity]. unfold slave_handle.
  destruct (slave_loop own s1 c acts) as [[o t]|]; cbn [obind]; [|reflexivity]. destruct t; [reflexivity|].
  destruct (slave_reply own c (RError ERROR_NO_ACTION)); reflexivity.
Qed.

Lemma slave_answers own acts s g k c p request o : idle s -> 0 <= own < 64 -> byte c -> Forall byte p -> zlen p <= 32 ->
  ~ In 0x54 g -> sab_frame (sab_header own false k) c p request -> expected acts c p o -> outcome_ok o ->
  exists s' out, slave_update own acts s (g ++ request) = Some (s', out) /\ sab_reply_frame own c o out /\ idle s' /\ s_avail s' = 0.
Proof.
  intros I Ho Hc Fp Hp N F X K.
  destruct (frame_received s g own false k c p request I Ho Hc Fp Hp N F) as (s1 & U & I1 & A1 & L1 & _ & D1 & R1).
  rewrite (slave_update_handle own acts s _ s1 _ c p U D1), A1.
  destruct (header_fields own false k Ho) as (V1 & V2 & V3). rewrite V1, V2, Z.eqb_refl. cbn [andb negb].
  destruct (slave_handle_spec own acts s1 c p o Ho Hc L1) as (out & E & G); [apply (accessors s1 _ c p D1)|exact X|exact K|].
  rewrite E. cbn [obind]. eexists. exists out. split; [reflexivity|]. split; [exact G|]. split; [apply idle_drop; exact I1|reflexivity].
Qed.

Lemma slave_ignores own acts s g a r k c p frame : idle s -> 0 <= a < 64 -> byte c -> Forall byte p -> zlen p <= 32 ->
  ~ In 0x54 g -> sab_frame (sab_header a r k) c p frame -> a <> own \/ r = true ->
  exists s', slave_update own acts s (g ++ frame) = Some (s', []) /\ idle s' /\ s_avail s' = 0.
Proof.
  intros I Ha Hc Fp Hp N F X.
  destruct (frame_received s g a r k c p frame I Ha Hc Fp Hp N F) as (s1 & U & I1 & A1 & L1 & _ & D1 & R1).
  rewrite (slave_update_handle own acts s _ s1 _ c p U D1), A1.
  destruct (header_fields a r k Ha) as (V1 & V2 & V3). rewrite V1, V2.
  replace ((a =? own) && negb r) with false by (destruct X as [X| -> ]; [replace (a =? own) with false by lia; reflexivity|symmetry; apply andb_false_r]).
  eexists. split; [reflexivity|]. split; [apply idle_drop; exact I1|reflexivity].
Qed.

(* whatever arrives, at most one reply *)
Lemma buf_hdr s n : zlen (s_buf s) = 35 -> 0 <= n <= 33 -> exists h c p, zlen p = n /\ hdr s h c p.
Proof.
  intros L Hn. destruct (s_buf s) as [|h [|c r]] eqn:E; rewrite ?zlen_cons, ?zlen_nil in L; try lia.
  exists h, c, (firstn (Z.to_nat n) r). split; [apply firstn_zlen; lia|]. split; [rewrite E, !zlen_cons; lia|].
  exists (skipn (Z.to_nat n) r). rewrite E, firstn_skipn. reflexivity.
Qed.

Definition buf_bytes (s : sab) : Prop := Forall byte (s_buf s).
Lemma Forall_zupd {A} (P : A -> Prop) l i v l' : Forall P l -> P v -> zupd l i v = Some l' -> Forall P l'.
Proof.
  intros F V U. apply zupd_split in U. subst. apply Forall_app. rewrite <- (firstn_skipn (Z.to_nat i) l) in F.
  apply Forall_app in F. destruct F as [F1 F2]. split; [exact F1|]. apply Forall_cons; [exact V|].
  rewrite <- (Nat.add_1_r (Z.to_nat i)), <- skipn_plus. rewrite <- (firstn_skipn 1 (skipn (Z.to_nat i) l)) in F2. apply Forall_app in F2. tauto.
Qed.
Lemma update_bytes bytes : forall s s', buf_bytes s -> Forall byte bytes -> sab_update s bytes = Some s' -> buf_bytes s'.
Proof.
  induction bytes as [|b r IH]; intros s s' B F U; [cbn [sab_update] in U; injection U as <-; exact B|].
  inversion F as [|? ? Hb Fr]; subst. rewrite sab_update_cons in U. destruct (sab_byte s b) as [s1|] eqn:E; [|discriminate]. cbn [obind] in U.
  refine (IH s1 s' _ Fr U). clear U IH. unfold sab_byte in E. destruct (s_state s).
  - injection E as <-. destruct (b =? syncByte); exact B.
  - revert E. generalize (sab_crcUpdate crcInitialValue b) as cr. intros cr E. injection E as <-. destruct (maxPayloadLength <? b); exact B.
  - revert E. generalize (sab_crcUpdate (s_crc s) b) as cr. intros cr. destruct (zupd (s_buf s) (s_pos s) b) as [buf|] eqn:Z; [|discriminate].
    unfold obind. intro E. injection E as <-. pose proof (Forall_zupd byte _ _ _ _ B Hb Z) as G.
    destruct (s_len s <=? u8 (s_pos s + 1)); exact G.
Qed.

Lemma slave_at_most_one own acts s bytes : sab_wf s -> buf_bytes s -> Forall byte bytes -> 0 <= own < 64 ->
  (forall a p, In a acts -> (length (a_call a p) <= 1)%nat) ->
  (forall a p o, In a acts -> Forall byte p -> In o (react a p) -> outcome_ok o) ->
  exists s' out, slave_update own acts s bytes = Some (s', out) /\ sab_wf s' /\ buf_bytes s' /\ s_avail s' = 0 /\
    (out = [] \/ exists c o, sab_reply_frame own c o out).
Proof.
  intros W B F Ho One Ok. destruct (sab_update_wf bytes s W F) as (s1 & U & W1). pose proof (update_bytes _ _ _ B F U) as B1.
  destruct (sab_isMessageAvailable s1) eqn:A.
  - unfold sab_isMessageAvailable in A. assert (3 <= s_avail s1 <= 35) as A3 by (destruct W1 as (_ & [?|?] & _); lia).
    destruct (buf_hdr s1 (s_avail s1 - 3)) as (h & c & p & Lp & D); [apply W1|lia|].
    rewrite (slave_update_handle own acts s bytes s1 h c p U D). unfold sab_isMessageAvailable. rewrite A.
    destruct D as [D0 [rest D]]. unfold buf_bytes in B1. pose proof B1 as B1'. rewrite D in B1'. inversion B1' as [|? ? Bh B2]; subst. inversion B2 as [|? ? Bc B3]; subst.
    apply Forall_app in B3. destruct B3 as [Bp _].
    destruct ((Z.land h 63 =? own) && negb (Z.testbit h 7)).
    + destruct (expected_total acts c p One) as (o & X).
      assert (outcome_ok o) as K.
      { destruct X as [|? ? ? ? ? ? ?|? ? ? ? ? ? ? ?|before r after o E _ _ _ R]; try (cbn; unfold byte; lia). subst acts.
        apply (Ok r p o); [apply in_or_app; right; left; reflexivity|exact Bp|rewrite R; left; reflexivity]. }
      destruct (slave_handle_spec own acts s1 c p o Ho Bc) as (out & E & G); [unfold sab_getPayloadLength, u8; lia| |exact X|exact K|].
      { apply (accessors s1 h c p). split; [exact D0|eauto]. }
      rewrite E. cbn [obind]. eexists. exists out. split; [reflexivity|]. split; [apply sab_wf_drop; exact W1|]. split; [exact B1|].
      split; [reflexivity|]. right. eauto.
    + eexists. exists []. split; [reflexivity|]. split; [apply sab_wf_drop; exact W1|]. split; [exact B1|]. split; [reflexivity|]. left; reflexivity.
  - unfold slave_update. rewrite U. cbn [obind]. rewrite A. exists s1, []. split; [reflexivity|]. split; [exact W1|]. split; [exact B1|].
    split; [unfold sab_isMessageAvailable in A; lia|left; reflexivity].
Qed.

(* ---------- master ---------- *)
Lemma query_spec m T a c p n : 0 <= a < 64 -> byte c -> Forall byte p -> zlen p < 256 ->
  exists m' out, master_query m T a c p n = Some (m', out) /\ sab_frame (sab_header a false false) c p out /\
    m_status m' = IN_PROGRESS /\ m_expected m' = n /\ m_if m' = sab_dropMessage (m_if m) /\ m_timer m' = t_restart 16 (m_timer m) 10 T.
Proof.
  intros Ha Hc Fp Hp. pose proof (zlen_nonneg p). unfold master_query, u8. rewrite Z.mod_small by lia.
  destruct (send_frame a false false c p Ha ltac:(discriminate) Hp Hc Fp) as (out & E & F). unfold flags_of in E. rewrite E. cbn [obind].
  eexists. exists out. split; [reflexivity|]. split; [exact F|]. repeat split.
Qed.

Definition outcome_status (n : Z) (o : sab_outcome) (st : Z) : Prop :=
  match o with
  | Answer p => st = if zlen p =? n then SUCCESS else ERROR_PAYLOAD
  | Failure _ => st = ERROR_RESPONSE
  end.
Definition outcome_data (m : master) (o : sab_outcome) : Prop :=
  match o with
  | Answer p => master_getResponse m (zlen p) = Some p
  | Failure e => master_getErrorCode m = Some e
  end.
Definition outcome_short (o : sab_outcome) : Prop := match o with Answer p => zlen p <= 32 | Failure _ => True end.

Lemma master_receives m T g a c o bytes : idle (m_if m) -> m_status m = IN_PROGRESS -> 0 <= a < 64 -> byte c ->
  outcome_ok o -> outcome_short o -> ~ In 0x54 g -> sab_reply_frame a c o bytes ->
  exists m', master_update m T (g ++ bytes) = Some m' /\ outcome_status (m_expected m) o (m_status m') /\ outcome_data m' o.
Proof.
  intros I S Ha Hc K Sh N F. destruct o as [p|e]; cbn [sab_reply_frame outcome_ok outcome_short] in *.
  - destruct (frame_received (m_if m) g a true true c p bytes I Ha Hc ltac:(tauto) Sh N F) as (s1 & U & I1 & A1 & L1 & _ & D1 & R1).
    unfold master_update. rewrite U. cbn [obind]. rewrite S, Z.eqb_refl, A1. cbn [negb].
    destruct (header_fields a true true Ha) as (V1 & V2 & V3).
    destruct (accessors s1 _ c p D1) as (_ & -> & -> & _ & P). cbn [obind]. rewrite V2, V3. cbn [negb].
    eexists. split; [reflexivity|]. cbn [m_status outcome_status outcome_data]. split; [rewrite L1; reflexivity|exact P].
  - destruct (frame_received (m_if m) g a true false c [e] bytes I Ha Hc) as (s1 & U & I1 & A1 & L1 & _ & D1 & R1); try assumption.
    { apply Forall_cons; [exact K|apply Forall_nil]. } { cbn; lia. }
    unfold master_update. rewrite U. cbn [obind]. rewrite S, Z.eqb_refl, A1. cbn [negb].
    destruct (header_fields a true false Ha) as (V1 & V2 & V3).
    destruct (accessors s1 _ c [e] D1) as (_ & -> & -> & _ & P). cbn [obind]. rewrite V2, V3. cbn [negb].
    eexists. split; [reflexivity|]. cbn [m_status outcome_status outcome_data]. split; [reflexivity|].
    unfold master_getErrorCode. cbn [m_status m_if]. rewrite Z.eqb_refl. destruct D1 as [_ [rest ->]]. reflexivity.
Qed.

(* nothing but the own request (an echo on a half duplex bus) does not complete the query *)
Lemma master_echo m T a k c p bytes : idle (m_if m) -> m_status m = IN_PROGRESS -> 0 <= a < 64 -> byte c -> Forall byte p -> zlen p <= 32 ->
  sab_frame (sab_header a false k) c p bytes ->
  exists m', master_update m T bytes = Some m' /\ m_status m' = IN_PROGRESS /\ idle (m_if m') /\ s_avail (m_if m') = 0 /\ m_expected m' = m_expected m /\
    m_timer m' = m_timer m.
Proof.
  intros I S Ha Hc Fp Hp F.
  destruct (frame_received (m_if m) [] a false k c p bytes I Ha Hc Fp Hp ltac:(intros []) F) as (s1 & U & I1 & A1 & L1 & _ & D1 & R1).
  cbn [app] in U. unfold master_update. rewrite U. cbn [obind]. rewrite S, Z.eqb_refl, A1. cbn [negb].
  destruct (header_fields a false k Ha) as (V1 & V2 & V3).
  destruct (accessors s1 _ c p D1) as (_ & -> & -> & _ & P). cbn [obind]. rewrite V2, V3. cbn [negb].
  eexists. split; [reflexivity|]. cbn [m_status m_if m_expected m_timer]. split; [reflexivity|]. split; [apply idle_drop; exact I1|]. split; [reflexivity|]. split; reflexivity.
Qed.

(* silence *)
Lemma timer_query t T0 T : 0 <= T - T0 < 65536 ->
  snd (t_isExpired 16 (t_restart 16 t 10 T0) T) = (10 <=? T - T0).
Proof.
  intro H. unfold t_restart. cbn [Z.leb]. replace (0 <=? 10) with true by reflexivity.
  unfold t_isExpired, t_query, checkExpiration. cbn [t_state t_start t_interval]. change (wrap 16 10) with 10.
  change (negb (Z.land ARMED ARMED =? 0)) with true. cbn [andb]. unfold clock, wrap. change (2 ^ 16) with 65536.
  replace ((T mod 65536 - T0 mod 65536) mod 65536) with (T - T0).
  - destruct (10 <=? T - T0); reflexivity.
  - rewrite <- Zminus_mod. rewrite Z.mod_small by lia. reflexivity.
Qed.

Lemma master_silence m T0 T g : idle (m_if m) -> s_avail (m_if m) = 0 -> m_status m = IN_PROGRESS -> (exists t, m_timer m = t_restart 16 t 10 T0) ->
  ~ In 0x54 g -> 0 <= T - T0 < 65536 ->
  exists m', master_update m T g = Some m' /\ m_status m' = (if 10 <=? T - T0 then ERROR_TIMEOUT else IN_PROGRESS).
Proof.
  intros I A S (t & E) N H. unfold master_update. rewrite sab_garbage by (try assumption; apply I). cbn [obind].
  rewrite S, Z.eqb_refl. unfold sab_isMessageAvailable. rewrite A. cbn [negb Z.eqb].
  pose proof (timer_query t T0 T H) as X. rewrite <- E in X. destruct (t_isExpired 16 (m_timer m) T) as [t' e]. cbn [snd] in X. subst e.
  eexists. split; [reflexivity|]. reflexivity.
Qed.

Lemma session_wf chunks : forall s, sab_wf s -> Forall (fun c => Forall byte (fst c)) chunks -> exists s', sab_session s chunks = Some s' /\ sab_wf s'.
Proof.
  induction chunks as [|[b d] r IH]; intros s W F; cbn [sab_session]; [eauto|].
  inversion F; subst. destruct (sab_update_wf b s W) as (s1 & E & W1); [assumption|]. rewrite E. cbn [obind].
  apply IH; [destruct d; [apply sab_wf_drop|]; exact W1|assumption].
Qed.

Lemma session_concat chunks : forall s, Forall (fun c => snd c = false) chunks ->
  sab_session s chunks = sab_update s (concat (map fst chunks)).
Proof.
  induction chunks as [|[b d] r IH]; intros s F; cbn [sab_session map concat fst]; [reflexivity|].
  inversion F as [|? ? D F']; subst. cbn [snd] in D. subst. rewrite sab_update_app. destruct (sab_update s b); cbn [obind]; [|reflexivity]. apply IH. exact F'.
Qed.

Lemma transaction m sl T T1 T2 own acts c p n o : idle (m_if m) -> idle sl -> 0 <= own < 64 -> byte c -> Forall byte p -> zlen p <= 32 ->
  expected acts c p o -> outcome_ok o -> outcome_short o ->
  exists m1 request sl' response m2 m3 m4,
    master_query m T own c p n = Some (m1, request) /\
    slave_update own acts sl request = Some (sl', response) /\
    master_update m1 T1 response = Some m2 /\ outcome_status n o (m_status m2) /\ outcome_data m2 o /\
    master_update m1 T1 request = Some m3 /\ m_status m3 = IN_PROGRESS /\
    master_update m3 T2 response = Some m4 /\ outcome_status n o (m_status m4) /\ outcome_data m4 o.
Proof.
  intros Im Is Ho Hc Fp Hp X K Sh.
  destruct (query_spec m T own c p n Ho Hc Fp ltac:(lia)) as (m1 & req & Q & F & S1 & E1 & I1 & _).
  destruct (slave_answers own acts sl [] false c p req o Is Ho Hc Fp Hp ltac:(intros []) F X K) as (sl' & out & U & G & _ & _). cbn [app] in U.
  assert (idle (m_if m1)) as Im1 by (rewrite I1; apply idle_drop; exact Im).
  destruct (master_receives m1 T1 [] own c o out Im1 S1 Ho Hc K Sh ltac:(intros []) G) as (m2 & U2 & S2 & D2). cbn [app] in U2.
  destruct (master_echo m1 T1 own false c p req Im1 S1 Ho Hc Fp Hp F) as (m3 & U3 & S3 & I3 & _ & E3 & _).
  destruct (master_receives m3 T2 [] own c o out I3 S3 Ho Hc K Sh ltac:(intros []) G) as (m4 & U4 & S4 & D4). cbn [app] in U4.
  rewrite E3 in S4. rewrite E1 in S2, S4. exists m1, req, sl', out, m2, m3, m4. tauto.
Qed.

Lemma session_bytes chunks : forall s s', buf_bytes s -> Forall (fun c => Forall byte (fst c)) chunks -> sab_session s chunks = Some s' -> buf_bytes s'.
Proof.
  induction chunks as [|[b d] r IH]; intros s s' B F S; cbn [sab_session] in S; [injection S as <-; exact B|].
  inversion F as [|? ? Fb Fr]; subst. destruct (sab_update s b) as [s1|] eqn:E; [|discriminate]. cbn [obind] in S.
  pose proof (update_bytes b s s1 B Fb E) as B1. apply (IH (if d then sab_dropMessage s1 else s1) s'); [destruct d; exact B1|exact Fr|exact S].
Qed.
Lemma buf_bytes_init : buf_bytes sab_init.
Proof. unfold buf_bytes. cbn. repeat (apply Forall_cons; [unfold byte; lia|]). apply Forall_nil. Qed.
