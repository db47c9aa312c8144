From Verif Require Import Base BitLemmas SliceLemmas WindowLemmas CanModel CanSpec CanProofs RegModel BxModel FdModel FdSpec.
From Verif Require BxProofs.

(** *** Layout *)
Lemma std_addr base inst i : standardFilter base inst i = element base inst StdFilter i.
Proof. unfold standardFilter, FilterListStandard, RamBase, Size, element, offset, bytes. lia. Qed.
Lemma ext_addr base inst i : extendedFilter base inst i = element base inst ExtFilter i.
Proof. unfold extendedFilter, FilterListExtended, FilterListStandard, RamBase, Size, element, offset, bytes. lia. Qed.
Lemma rx_addr base inst (k : bool) i : rxElement base inst (if k then 1 else 0) i = element base inst (if k then Rx1 else Rx0) i.
Proof. unfold rxElement, RxFifo0, FilterListExtended, FilterListStandard, RamBase, Size, element. destruct k; cbn [offset bytes]; lia. Qed.
Lemma tx_addr base inst i : txFifoElement base inst i = element base inst TxBuffer i.
Proof. unfold txFifoElement, TxFifo, TxEventFifo, RxFifo1, RxFifo0, FilterListExtended, FilterListStandard, RamBase, Size, element, offset, bytes. lia. Qed.
Lemma disjoint base inst k i inst' k' i' : 0 <= i < count k -> 0 <= i' < count k' -> (inst, k, i) <> (inst', k', i') ->
  element base inst k i + bytes k <= element base inst' k' i' \/ element base inst' k' i' + bytes k' <= element base inst k i.
Proof.
  intros I I' N. destruct (Z.lt_trichotomy inst inst') as [L | [-> | L]].
  - left. unfold element. destruct k, k'; cbn [count bytes offset] in *; lia.
  - destruct k, k'; cbn [count bytes offset] in *; unfold element, bytes, offset; try lia; assert (i <> i') by congruence; lia.
  - right. unfold element. destruct k, k'; cbn [count bytes offset] in *; lia.
Qed.
Lemma inside base inst n k i : 0 <= inst < n -> 0 <= i < count k -> base <= element base inst k i /\ element base inst k i + bytes k <= base + 848 * n.
Proof. intros N I. unfold element. destruct k; cbn [count bytes offset] in *; lia. Qed.

(** *** Words *)
Lemma store_same r a v : store r a v a = v.
Proof. unfold store. rewrite Z.eqb_refl. reflexivity. Qed.
Lemma store_other r a v x : x <> a -> store r a v x = r x.
Proof. intro N. unfold store. destruct (Z.eqb_spec x a); [contradiction|reflexivity]. Qed.
Lemma word4_word b0 b1 b2 b3 : 0 <= b0 < 256 -> 0 <= b1 < 256 -> 0 <= b2 < 256 -> 0 <= b3 < 256 ->
  word_bytes (BxProofs.word4 b0 b1 b2 b3) = [b0; b1; b2; b3].
Proof.
  intros H0 H1 H2 H3. unfold word_bytes. destruct (BxProofs.word4_bytes b0 b1 b2 b3 H0 H1 H2 H3) as (E0 & E1 & E2 & E3).
  change (2 ^ 8) with 256. change (2 ^ 16) with 65536. change (2 ^ 24) with 16777216. rewrite E0, E1, E2, E3. reflexivity.
Qed.
Lemma list_4 {A} (l : list A) : 4 <= zlen l -> exists a b c d r, l = a :: b :: c :: d :: r.
Proof. intro L. do 4 (destruct l as [|? l]; [unfold zlen in L; cbn in L; lia|]). repeat eexists. Qed.
Lemma load32_app pre a b c d r i : i = zlen pre -> load32 (pre ++ a :: b :: c :: d :: r) i = Some (BxProofs.word4 a b c d).
Proof.
  intros ->. unfold load32.
  rewrite (znth_app_r pre _ (zlen pre)), (znth_app_r pre _ (zlen pre + 1)), (znth_app_r pre _ (zlen pre + 2)), (znth_app_r pre _ (zlen pre + 3)) by lia.
  replace (zlen pre - zlen pre) with 0 by lia. replace (zlen pre + 1 - zlen pre) with 1 by lia. replace (zlen pre + 2 - zlen pre) with 2 by lia. replace (zlen pre + 3 - zlen pre) with 3 by lia.
  reflexivity.
Qed.
Lemma store32_app pre a b c d r i v : i = zlen pre -> store32 (pre ++ a :: b :: c :: d :: r) i v = Some (pre ++ word_bytes v ++ r).
Proof.
  intros ->. unfold store32, word_bytes.
  rewrite (zupd_app pre a _ _ _ eq_refl). cbn [obind].
  replace (pre ++ u8 v :: b :: c :: d :: r) with ((pre ++ [u8 v]) ++ b :: c :: d :: r) by (rewrite <- app_assoc; reflexivity).
  rewrite (zupd_app (pre ++ [u8 v]) b) by (rewrite zlen_app; reflexivity). cbn [obind].
  set (p1 := pre ++ [u8 v]). replace (p1 ++ u8 (Z.shiftr v 8) :: c :: d :: r) with ((p1 ++ [u8 (Z.shiftr v 8)]) ++ c :: d :: r) by (rewrite <- app_assoc; reflexivity).
  rewrite (zupd_app (p1 ++ [u8 (Z.shiftr v 8)]) c) by (unfold p1; rewrite !zlen_app; unfold zlen; cbn; lia). cbn [obind].
  set (p2 := p1 ++ [u8 (Z.shiftr v 8)]). replace (p2 ++ u8 (Z.shiftr v 16) :: d :: r) with ((p2 ++ [u8 (Z.shiftr v 16)]) ++ d :: r) by (rewrite <- app_assoc; reflexivity).
  rewrite (zupd_app (p2 ++ [u8 (Z.shiftr v 16)]) d) by (unfold p2, p1; rewrite !zlen_app; unfold zlen; cbn; lia).
  unfold p2, p1. rewrite <- !app_assoc. unfold u8. rewrite !Z.shiftr_div_pow2 by lia. reflexivity.
Qed.
Lemma ram_bytes_S r a n : ram_bytes r a (S n) = word_bytes (r a) ++ ram_bytes r (a + 4) n.
Proof.
  unfold ram_bytes. cbn [seq flat_map]. rewrite <- seq_shift, flat_map_concat_map, map_map, <- flat_map_concat_map.
  replace (a + 4 * Z.of_nat 0) with a by lia. f_equal. rewrite !flat_map_concat_map. f_equal. apply map_ext. intro k. replace (a + 4 * Z.of_nat (S k)) with (a + 4 + 4 * Z.of_nat k) by lia. reflexivity.
Qed.
Lemma ram_bytes_length r a n : length (ram_bytes r a n) = (4 * n)%nat.
Proof. revert a. induction n as [|n IH]; intro a; [reflexivity|]. rewrite ram_bytes_S, app_length, IH. cbn [word_bytes length]. lia. Qed.
Lemma ram_bytes_firstn r a n k : (k <= n)%nat -> firstn (4 * k) (ram_bytes r a n) = ram_bytes r a k.
Proof.
  revert a n. induction k as [|k IH]; intros a n L; [reflexivity|]. destruct n as [|n]; [lia|]. rewrite !ram_bytes_S. replace (4 * S k)%nat with (4 + 4 * k)%nat by lia.
  unfold word_bytes. cbn [Nat.add app firstn]. rewrite IH by lia. reflexivity.
Qed.
Lemma writeWords_ok n : forall i a pre d r, i = zlen pre -> 4 * Z.of_nat n <= zlen d -> Forall (fun b => 0 <= b < 256) d ->
  exists r', writeWords n i a (pre ++ d) r = Some r' /\ ram_bytes r' a n = firstn (4 * n) d /\
    forall x, (forall k, 0 <= k < Z.of_nat n -> x <> a + 4 * k) -> r' x = r x.
Proof.
  induction n as [|n IH]; intros i a pre d r E L F.
  - exists r. split; [reflexivity|]. split; [reflexivity|]. auto.
  - destruct (list_4 d ltac:(lia)) as (b0 & b1 & b2 & b3 & d' & ->). cbn [writeWords]. rewrite load32_app by exact E. cbn [obind].
    assert (F' : Forall (fun b => 0 <= b < 256) d' /\ 0 <= b0 < 256 /\ 0 <= b1 < 256 /\ 0 <= b2 < 256 /\ 0 <= b3 < 256).
    { repeat match goal with H : Forall _ (_ :: _) |- _ => apply Forall_cons_iff in H; destruct H end. auto. }
    destruct F' as (F' & H0 & H1 & H2 & H3).
    replace (pre ++ b0 :: b1 :: b2 :: b3 :: d') with ((pre ++ [b0; b1; b2; b3]) ++ d') by (rewrite <- app_assoc; reflexivity).
    destruct (IH (i + 4) (a + 4) (pre ++ [b0; b1; b2; b3]) d' (store r a (BxProofs.word4 b0 b1 b2 b3))) as (r' & W & B & O).
    { rewrite zlen_app. unfold zlen at 2. cbn. lia. }
    { rewrite !zlen_cons in L. lia. }
    { exact F'. }
    exists r'. split; [exact W|]. split.
    + rewrite ram_bytes_S, B. rewrite O by (intros; lia). rewrite store_same, word4_word by assumption. replace (4 * S n)%nat with (4 + 4 * n)%nat by lia. reflexivity.
    + intros x X. rewrite O; [apply store_other|]; intros; [specialize (X 0); lia|]. specialize (X (k + 1)). lia.
Qed.
Lemma readWords_ok n : forall i a pre d r, i = zlen pre -> 4 * Z.of_nat n <= zlen d ->
  readWords n i a r (pre ++ d) = Some (pre ++ ram_bytes r a n ++ skipn (4 * n) d).
Proof.
  induction n as [|n IH]; intros i a pre d r E L; [reflexivity|].
  destruct (list_4 d ltac:(lia)) as (b0 & b1 & b2 & b3 & d' & ->). cbn [readWords]. rewrite store32_app by exact E. cbn [obind].
  rewrite app_assoc. rewrite IH.
  - rewrite ram_bytes_S. replace (4 * S n)%nat with (4 + 4 * n)%nat by lia. rewrite <- !app_assoc. reflexivity.
  - rewrite zlen_app. unfold zlen at 2. cbn [word_bytes length]. lia.
  - rewrite !zlen_cons in L. lia.
Qed.

(** *** Headers *)
Lemma vl_get_value w width pos v : 0 <= width -> 0 <= pos -> width + pos <= w -> vl_get w width pos v = v / 2 ^ pos mod 2 ^ width.
Proof.
  intros W P T. unfold vl_get, vl_mask. rewrite wrap_small.
  - rewrite Z.shiftr_land, Z.shiftr_shiftl_l by lia. rewrite Z.sub_diag, Z.shiftl_0_r. rewrite (Z.shiftl_mul_pow2 1) by lia. rewrite Z.mul_1_l, land_ones_mod by lia. rewrite Z.shiftr_div_pow2 by lia. reflexivity.
  - rewrite !Z.shiftl_mul_pow2 by lia. rewrite Z.mul_1_l. assert (0 < 2 ^ width) by (apply Z.pow_pos_nonneg; lia). assert (0 < 2 ^ pos) by (apply Z.pow_pos_nonneg; lia).
    assert (2 ^ width * 2 ^ pos <= 2 ^ w) by (rewrite <- Z.pow_add_r by lia; apply Z.pow_le_mono_r; lia). nia.
Qed.
Lemma testbit_div x k : 0 <= k -> Z.testbit x k = (x / 2 ^ k mod 2 =? 1).
Proof. intro K. rewrite Z.testbit_odd, Z.shiftr_div_pow2 by exact K. rewrite Zodd_mod. unfold Zeq_bool. destruct (Z.eqb_spec (x / 2 ^ k mod 2) 1) as [-> |N]; [reflexivity|]. destruct (x / 2 ^ k mod 2 ?= 1) eqn:C; try reflexivity. apply Z.compare_eq in C. contradiction. Qed.
Definition b2z (b : bool) : Z := if b then 1 else 0.
Lemma header_value m : 0 <= c_id m < (if c_ext m then 2 ^ 29 else 2 ^ 11) ->
  headerFromMessage m = (b2z (c_ext m) * 2 + b2z (c_rtr m)) * 2 ^ 29 + c_id m * (if c_ext m then 1 else 2 ^ 18).
Proof.
  intro R. unfold headerFromMessage, vl_set. change (vl_mask 32 29 0) with 536870911. rewrite Z.shiftl_0_r.
  set (id := if c_ext m then c_id m else u32 (Z.shiftl (c_id m) 18)).
  assert (E : id = c_id m * (if c_ext m then 1 else 2 ^ 18) /\ 0 <= id < 2 ^ 29).
  { unfold id. destruct (c_ext m); [lia|]. change (2 ^ 11) with 2048 in R. rewrite BxProofs.shiftl_u32; [|lia|change (2 ^ 18) with 262144; lia]. change (2 ^ 18) with 262144. change (2 ^ 29) with 536870912. lia. }
  destruct E as [<- Q]. rewrite (BxProofs.land_mod id _ 29) by reflexivity || lia. rewrite (Z.mod_small id) by exact Q.
  assert (H : Z.land (Z.lor (if c_ext m then 1073741824 else 0) (if c_rtr m then 536870912 else 0)) (Z.lnot 536870911) = (b2z (c_ext m) * 2 + b2z (c_rtr m)) * 2 ^ 29) by (destruct (c_ext m), (c_rtr m); reflexivity).
  rewrite H, BxProofs.lor_add by (lia || exact Q). apply wrap_small. change (2 ^ 29) with 536870912 in *. change (2 ^ 32) with 4294967296. unfold b2z. destruct (c_ext m), (c_rtr m); lia.
Qed.
Lemma header_bits (e r : bool) id : 0 <= id < 2 ^ 29 -> let w := (b2z e * 2 + b2z r) * 2 ^ 29 + id in
  Z.testbit w 30 = e /\ Z.testbit w 29 = r /\ w mod 2 ^ 29 = id /\ w / 2 ^ 18 mod 2 ^ 11 = id / 2 ^ 18.
Proof.
  intros I. cbn zeta. set (w := (b2z e * 2 + b2z r) * 2 ^ 29 + id). split; [|split; [|split]].
  - unfold w. rewrite BxProofs.tb_join by lia. destruct e, r; reflexivity.
  - unfold w. rewrite BxProofs.tb_join by lia. destruct e, r; reflexivity.
  - unfold w. rewrite Z.add_comm, Z.mod_add by lia. apply Z.mod_small. exact I.
  - unfold w. change (2 ^ 29) with (2 ^ 11 * 2 ^ 18) in *. rewrite Z.mul_assoc, (Z.add_comm _ id), Z.div_add by lia. rewrite Z.mod_add by lia. apply Z.mod_small.
    split; [apply Z.div_pos; lia|]. apply Z.div_lt_upper_bound; lia.
Qed.
Lemma txheader_value m : 0 <= c_dlc m <= 15 -> txHeaderFromMessage m = (b2z (c_fd m) * 2 + b2z (c_brs m)) * 2 ^ 20 + c_dlc m * 2 ^ 16.
Proof.
  intro R. unfold txHeaderFromMessage, vl_set. change (vl_mask 32 4 16) with 983040.
  assert (Q : Z.land (Z.shiftl (c_dlc m) 16) 983040 = c_dlc m * 2 ^ 16).
  { change 983040 with (Z.shiftl 15 16). rewrite <- Z.shiftl_land, (BxProofs.land_mod _ 15 4) by reflexivity || lia. rewrite Z.mod_small by (change (2 ^ 4) with 16; lia). apply Z.shiftl_mul_pow2. lia. }
  rewrite Q.
  assert (H : Z.land (Z.lor (if c_fd m then 2097152 else 0) (if c_brs m then 1048576 else 0)) (Z.lnot 983040) = (b2z (c_fd m) * 2 + b2z (c_brs m)) * 2 ^ 20) by (destruct (c_fd m), (c_brs m); reflexivity).
  change (2 ^ 16) with 65536. rewrite H, BxProofs.lor_add by (change (2 ^ 20) with 1048576; lia). apply wrap_small. change (2 ^ 20) with 1048576. change (2 ^ 32) with 4294967296. unfold b2z. destruct (c_fd m), (c_brs m); lia.
Qed.
Lemma txheader_bits (e r : bool) d : 0 <= d <= 15 -> let w := (b2z e * 2 + b2z r) * 2 ^ 20 + d * 2 ^ 16 in
  Z.testbit w 21 = e /\ Z.testbit w 20 = r /\ w / 2 ^ 16 mod 2 ^ 4 = d.
Proof.
  intros I. cbn zeta. set (w := (b2z e * 2 + b2z r) * 2 ^ 20 + d * 2 ^ 16). assert (D : 0 <= d * 2 ^ 16 < 2 ^ 20) by (change (2 ^ 16) with 65536; change (2 ^ 20) with 1048576; lia). split; [|split].
  - unfold w. rewrite BxProofs.tb_join by (exact D || lia). destruct e, r; reflexivity.
  - unfold w. rewrite BxProofs.tb_join by (exact D || lia). destruct e, r; reflexivity.
  - unfold w. change (2 ^ 20) with (2 ^ 4 * 2 ^ 16). rewrite Z.mul_assoc, <- Z.mul_add_distr_r, Z.div_mul by lia. rewrite Z.add_comm, Z.mod_add by lia. apply Z.mod_small. change (2 ^ 4) with 16. lia.
Qed.

(** *** Sending *)
Lemma lengths_bound d l : znth can_lengths d = Some l -> 0 <= l <= 64 /\ 0 <= d <= 15 /\ (d <= 8 -> l = d) /\ nth (Z.to_nat d) can_lengths 0 = l.
Proof.
  intro E. pose proof (znth_Some _ _ _ E) as R. change (zlen can_lengths) with 16 in R.
  assert (Q : d = 0 \/ d = 1 \/ d = 2 \/ d = 3 \/ d = 4 \/ d = 5 \/ d = 6 \/ d = 7 \/ d = 8 \/ d = 9 \/ d = 10 \/ d = 11 \/ d = 12 \/ d = 13 \/ d = 14 \/ d = 15) by lia.
  repeat destruct Q as [Q|Q]; subst d; injection E as <-; (split; [lia|]; split; [lia|]; split; [lia|reflexivity]).
Qed.
Lemma capacity_4 c : can_capacity c -> exists q, c = 4 * q /\ 2 <= q <= 16.
Proof. unfold can_capacity. cbn [In]. intro H. exists (c / 4). lia. Qed.
Lemma words_len l q : 0 <= l <= 64 -> l <= 4 * q -> let n := Z.to_nat ((Z.min l 64 + 3) / 4) in l <= 4 * Z.of_nat n /\ 4 * Z.of_nat n <= 4 * q /\ (n <= 16)%nat.
Proof. intros L Q. cbn zeta. rewrite Z.min_l by lia. lia. Qed.
Lemma send_ram base inst k m capacity r : valid_msg capacity m ->
  exists r', sendMsg_ram base inst k m r = Some r' /\ frame_at r' (element base inst TxBuffer k) = frame_of m /\
    forall x, (forall j, 0 <= j < 18 -> x <> element base inst TxBuffer k + 4 * j) -> r' x = r x.
Proof.
  intros (C & (L & LC & Z0) & I & F & D & FD & _). destruct (lengths_bound _ _ L) as (LB & _ & L8 & LN). destruct (capacity_4 _ C) as (q & -> & Q).
  unfold sendMsg_ram, writeData. cbn zeta. rewrite tx_addr. set (e := element base inst TxBuffer k).
  destruct (words_len (c_len m) q LB ltac:(lia)) as (N1 & N2 & N3). set (n := Z.to_nat ((Z.min (c_len m) 64 + 3) / 4)) in *.
  destruct (writeWords_ok n 0 (e + 2 * 4) [] (c_data m) (store (store r e (headerFromMessage m)) (e + 4) (txHeaderFromMessage m)) eq_refl ltac:(lia) F) as (r' & W & B & O).
  exists r'. split; [exact W|].
  assert (R0 : r' e = headerFromMessage m) by (rewrite O by (intros; lia); rewrite store_other by lia; apply store_same).
  assert (R1 : r' (e + 4) = txHeaderFromMessage m) by (rewrite O by (intros; lia); apply store_same).
  split.
  - unfold frame_at. rewrite R0, R1, header_value, txheader_value by assumption.
    assert (I29 : 0 <= c_id m * (if c_ext m then 1 else 2 ^ 18) < 2 ^ 29) by (clear - I; destruct (c_ext m); [lia|]; change (2 ^ 11) with 2048 in I; change (2 ^ 18) with 262144; change (2 ^ 29) with 536870912; lia).
    destruct (header_bits (c_ext m) (c_rtr m) _ I29) as (-> & -> & -> & ->). destruct (txheader_bits (c_fd m) (c_brs m) _ D) as (-> & -> & ->).
    unfold frame_of. f_equal.
    + clear - I. destruct (c_ext m); [apply Z.mul_1_r|]. apply Z.div_mul. lia.
    + replace (frame_len (c_fd m) (c_rtr m) (c_dlc m)) with (if c_rtr m then 0 else c_len m).
      * destruct (c_rtr m); [reflexivity|]. change (e + 8) with (e + 2 * 4).
        replace (Z.to_nat (c_len m)) with (Nat.min (Z.to_nat (c_len m)) (4 * n)) by lia. rewrite <- !firstn_firstn, ram_bytes_firstn by exact N3. rewrite B. reflexivity.
      * unfold frame_len. destruct (c_rtr m); [reflexivity|]. destruct (c_fd m) eqn:E; [symmetry; exact LN|]. destruct (Z.le_gt_cases (c_dlc m) 8) as [L0|L0]; [rewrite L8 by exact L0; lia|]. specialize (FD ltac:(lia)). discriminate.
  - intros x X. rewrite O.
    + rewrite store_other by (specialize (X 1); lia). apply store_other. specialize (X 0). lia.
    + intros j J E. apply (X (j + 2)); lia.
Qed.

(** *** Receiving *)
Lemma read_ok base inst (k : bool) g capacity m r r1 : can_capacity capacity -> zlen (c_data m) = capacity ->
  let e := element base inst (if k then Rx1 else Rx0) g in let f := frame_at r e in
  exists m' l, readMsg base inst capacity m (if k then 1 else 0) g r r1 = Some (m', filter_at r e, stamp_at r e) /\
    consistent capacity m' /\ znth can_lengths (f_dlc f) = Some l /\ c_len m' = Z.min l capacity /\
    c_ext m' = f_ext f /\ c_id m' = f_id f /\ c_rtr m' = f_rtr f /\ c_brs m' = c_brs m /\ c_fd m' = (c_fd m || (8 <? c_len m')) /\
    firstn (Z.to_nat (c_len m')) (c_data m') = firstn (Z.to_nat (c_len m')) (ram_bytes r1 (e + 8) 16) /\
    forall i, c_len m' + 4 <= i -> znth (c_data m') i = znth (c_data m) i.
Proof.
  intros C D e f. unfold readMsg. rewrite rx_addr. fold e. cbn zeta.
  unfold fl_any, rg_and. change 1073741824 with (2 ^ 30). change 536870912 with (2 ^ 29). rewrite (BxProofs.land_bit (r e) 30), (BxProofs.land_bit (r e) 29) by lia.
  rewrite (vl_get_value 32 29 0 (r e)), (vl_get_value 32 4 16), (vl_get_value 32 7 24), (vl_get_value 32 16 0) by lia. change (2 ^ 0) with 1. rewrite !Z.div_1_r.
  set (dlc := r (e + 4) / 2 ^ 16 mod 2 ^ 4). assert (DB : 0 <= dlc < 16) by (apply (Z.mod_pos_bound _ (2 ^ 4)); lia).
  set (id := if Z.testbit (r e) 30 then r e mod 2 ^ 29 else Z.shiftr (r e mod 2 ^ 29) 18).
  destruct (setDlc_ok capacity (mkCan id (c_fd m) (c_brs m) (Z.testbit (r e) 29) (Z.testbit (r e) 30) (c_dlc m) (c_len m) (c_data m)) dlc C D DB)
    as (m1 & l & S1 & (K1 & K2 & K3) & T & L & E1 & E2 & E3 & E4 & E5 & E6). cbn [c_id c_rtr c_ext c_brs c_data c_fd] in E1, E2, E3, E4, E5, E6.
  rewrite S1. cbn [obind]. destruct (lengths_bound _ _ K1) as (LB & _ & _ & _). destruct (capacity_4 _ C) as (q & QE & Q).
  unfold readData. rewrite rx_addr. fold e. destruct (words_len (c_len m1) q LB ltac:(lia)) as (N1 & N2 & N3). set (n := Z.to_nat ((Z.min (c_len m1) 64 + 3) / 4)) in *.
  rewrite E5. pose proof (readWords_ok n 0 (e + 2 * 4) [] (c_data m) r1 eq_refl ltac:(lia)) as RW. cbn [app] in RW. rewrite RW. cbn [obind].
  exists (mkCan (c_id m1) (c_fd m1) (c_brs m1) (c_rtr m1) (c_ext m1) (c_dlc m1) (c_len m1) (ram_bytes r1 (e + 2 * 4) n ++ skipn (4 * n) (c_data m))), l. split; [reflexivity|].
  cbn [c_id c_fd c_brs c_rtr c_ext c_dlc c_len c_data]. unfold consistent. cbn [c_len c_dlc c_data]. subst f. unfold frame_at. cbn [f_dlc f_ext f_id f_rtr]. fold dlc.
  split; [split; [exact K1|]; split; [exact K2|]|].
  { rewrite zlen_app. unfold zlen. rewrite ram_bytes_length, skipn_length. unfold zlen in D. lia. }
  split; [exact T|]. split; [exact L|]. split; [exact E3|]. split; [|split; [exact E2|]; split; [exact E4|]; split; [exact E6|]; split].
  - rewrite E1. unfold id. destruct (Z.testbit (r e) 30); [reflexivity|]. rewrite Z.shiftr_div_pow2 by lia. clear.
    change (2 ^ 29) with (2 ^ 18 * 2 ^ 11). rewrite Z.rem_mul_r by lia. rewrite Z.mul_comm, Z.div_add by lia. rewrite Z.div_small by (apply Z.mod_pos_bound; lia). reflexivity.
  - rewrite firstn_app, ram_bytes_length. replace (Z.to_nat (c_len m1) - 4 * n)%nat with 0%nat by lia. cbn [firstn]. rewrite app_nil_r.
    rewrite <- (ram_bytes_firstn r1 (e + 2 * 4) 16 n N3), firstn_firstn. replace (Nat.min (Z.to_nat (c_len m1)) (4 * n)) with (Z.to_nat (c_len m1)) by lia. reflexivity.
  - intros i Hi. assert (4 * Z.of_nat n <= i) by (unfold n in *; clear - Hi LB; rewrite Z.min_l by lia; lia).
    rewrite znth_app_r by (unfold zlen; rewrite ram_bytes_length; lia). unfold zlen. rewrite ram_bytes_length.
    rewrite <- (firstn_skipn (4 * n) (c_data m)) at 2. rewrite znth_app_r by (unfold zlen; rewrite firstn_length; lia). f_equal. unfold zlen. rewrite firstn_length. unfold zlen in D. lia.
Qed.
