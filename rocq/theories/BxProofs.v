From Verif Require Import Base BitLemmas CanModel BxModel BxSpec.

(** *** Words *)
Lemma lor_add a b n : 0 <= n -> 0 <= b < 2 ^ n -> Z.lor (a * 2 ^ n) b = a * 2 ^ n + b.
Proof.
  intros N B. rewrite Z.add_nocarry_lxor; [symmetry; apply Z.bits_inj'; intros i Hi; rewrite Z.lxor_spec, Z.lor_spec|].
  - destruct (Z.lt_ge_cases i n) as [L|L].
    + rewrite (Z.mul_pow2_bits_low a n i L). destruct (Z.testbit b i); reflexivity.
    + rewrite (testbit_high b n i B L). destruct (Z.testbit (a * 2 ^ n) i); reflexivity.
  - apply Z.bits_inj'. intros i Hi. rewrite Z.land_spec, Z.bits_0. destruct (Z.lt_ge_cases i n) as [L|L].
    + rewrite (Z.mul_pow2_bits_low a n i L). reflexivity.
    + rewrite (testbit_high b n i B L), andb_false_r. reflexivity.
Qed.
Lemma tb_join a c n i : 0 <= n -> 0 <= c < 2 ^ n -> 0 <= i -> Z.testbit (a * 2 ^ n + c) i = if i <? n then Z.testbit c i else Z.testbit a (i - n).
Proof.
  intros N C I. rewrite <- (lor_add a c n N C), Z.lor_spec. destruct (Z.ltb_spec i n) as [L|L].
  - rewrite (Z.mul_pow2_bits_low a n i L). reflexivity.
  - rewrite (testbit_high c n i C L), orb_false_r, Z.mul_pow2_bits by lia. reflexivity.
Qed.
Lemma shiftl_u32 a n : 0 <= n -> 0 <= a * 2 ^ n < 4294967296 -> u32 (Z.shiftl a n) = a * 2 ^ n.
Proof. intros N A. unfold u32. rewrite Z.shiftl_mul_pow2 by lia. apply Z.mod_small. exact A. Qed.

Definition bit (b : bool) (v : Z) : Z := if b then v else 0.
Lemma tir_value id k (e r : bool) : (if e then k = 3 else k = 21) -> 0 <= id < 2 ^ (32 - k) ->
  (let t := if e then Z.lor (u32 (Z.shiftl id k)) 4 else u32 (Z.shiftl id k) in if r then Z.lor t 2 else t) = id * 2 ^ k + bit e 4 + bit r 2.
Proof.
  intros K R. assert (A : u32 (Z.shiftl id k) = id * 2 ^ k).
  { apply shiftl_u32; destruct e; subst k; [lia|lia| |].
    - change (2 ^ (32 - 3)) with 536870912 in R. change (2 ^ 3) with 8. lia.
    - change (2 ^ (32 - 21)) with 2048 in R. change (2 ^ 21) with 2097152. lia. }
  rewrite A. destruct e; subst k; unfold bit.
  - rewrite (lor_add id 4 3) by lia. destruct r; [|cbn zeta; lia]. cbn zeta.
    replace (id * 2 ^ 3 + 4) with ((id * 2 + 1) * 2 ^ 2) by (change (2 ^ 3) with 8; change (2 ^ 2) with 4; lia). rewrite (lor_add (id * 2 + 1) 2 2) by lia. change (2 ^ 3) with 8. change (2 ^ 2) with 4. lia.
  - destruct r; cbn zeta; [rewrite (lor_add id 2 21) by lia|]; lia.
Qed.
Lemma tb_small x c n i : 0 <= i < n -> x mod 2 ^ n = c -> Z.testbit x i = Z.testbit c i.
Proof. intros I <-. rewrite Z.mod_pow2_bits_low by lia. reflexivity. Qed.
Lemma tir_bits id k (e r : bool) z : (if e then k = 3 else k = 21) -> 0 <= z < 2 ->
  let t := id * 2 ^ k + bit e 4 + bit r 2 + z in Z.testbit t 2 = e /\ Z.testbit t 1 = r.
Proof.
  intros K Hz. cbn zeta. set (t := id * 2 ^ k + bit e 4 + bit r 2 + z).
  assert (M : t mod 2 ^ 3 = bit e 4 + bit r 2 + z).
  { unfold t. destruct e; subst k.
    - replace (id * 2 ^ 3 + bit true 4 + bit r 2 + z) with (bit true 4 + bit r 2 + z + id * 2 ^ 3) by lia. rewrite Z.mod_add by lia. apply Z.mod_small. unfold bit. destruct r; lia.
    - replace (id * 2 ^ 21 + bit false 4 + bit r 2 + z) with (bit false 4 + bit r 2 + z + id * 2 ^ 18 * 2 ^ 3) by (change (2 ^ 21) with (2 ^ 18 * 2 ^ 3); lia). rewrite Z.mod_add by lia. apply Z.mod_small. unfold bit. destruct r; lia. }
  assert (Hz' : z = 0 \/ z = 1) by lia. rewrite (tb_small t _ 3 2 ltac:(lia) M), (tb_small t _ 3 1 ltac:(lia) M). destruct e, r, Hz' as [-> | ->]; split; reflexivity.
Qed.
Lemma tir_id id k (e r : bool) z : (if e then k = 3 else k = 21) -> 0 <= z < 2 -> (id * 2 ^ k + bit e 4 + bit r 2 + z) / 2 ^ k = id.
Proof.
  intros K Hz. replace (id * 2 ^ k + bit e 4 + bit r 2 + z) with (bit e 4 + bit r 2 + z + id * 2 ^ k) by lia.
  assert (0 < 2 ^ k) by (destruct e; subst k; lia). rewrite Z.div_add by lia. rewrite Z.div_small; [lia|]. unfold bit. destruct e; subst k; [change (2 ^ 3) with 8|change (2 ^ 21) with 2097152]; destruct r; lia.
Qed.

(** *** Data registers *)
Definition word4 (b0 b1 b2 b3 : Z) : Z := b0 + 256 * b1 + 65536 * b2 + 16777216 * b3.
Lemma word4_bytes b0 b1 b2 b3 : 0 <= b0 < 256 -> 0 <= b1 < 256 -> 0 <= b2 < 256 -> 0 <= b3 < 256 ->
  word4 b0 b1 b2 b3 mod 256 = b0 /\ word4 b0 b1 b2 b3 / 256 mod 256 = b1 /\ word4 b0 b1 b2 b3 / 65536 mod 256 = b2 /\ word4 b0 b1 b2 b3 / 16777216 mod 256 = b3.
Proof.
  intros. unfold word4.
  assert (E1 : (b0 + 256 * b1 + 65536 * b2 + 16777216 * b3) / 256 = b1 + 256 * b2 + 65536 * b3) by (symmetry; apply (Z.div_unique _ 256 _ b0); lia).
  assert (E2 : (b0 + 256 * b1 + 65536 * b2 + 16777216 * b3) / 65536 = b2 + 256 * b3) by (symmetry; apply (Z.div_unique _ 65536 _ (b0 + 256 * b1)); lia).
  assert (E3 : (b0 + 256 * b1 + 65536 * b2 + 16777216 * b3) / 16777216 = b3) by (symmetry; apply (Z.div_unique _ 16777216 _ (b0 + 256 * b1 + 65536 * b2)); lia).
  rewrite E1, E2, E3. split; [|split; [|split]].
  - symmetry. apply (Z.mod_unique _ 256 (b1 + 256 * b2 + 65536 * b3)); lia.
  - symmetry. apply (Z.mod_unique _ 256 (b2 + 256 * b3)); lia.
  - symmetry. apply (Z.mod_unique _ 256 b3); lia.
  - apply Z.mod_small. lia.
Qed.
Definition bytes8 (lo hi : Z) : list Z := [lo mod 256; lo / 256 mod 256; lo / 65536 mod 256; lo / 16777216 mod 256; hi mod 256; hi / 256 mod 256; hi / 65536 mod 256; hi / 16777216 mod 256].
Lemma data_bytes_8 lo hi n : (n <= 8)%nat -> data_bytes lo hi n = firstn n (bytes8 lo hi).
Proof.
  intro L. assert (E : data_bytes lo hi 8 = bytes8 lo hi).
  { unfold data_bytes, bytes8. cbn [seq map]. unfold data_byte. change (Z.of_nat 0) with 0. change (Z.of_nat 1) with 1. change (Z.of_nat 2) with 2. change (Z.of_nat 3) with 3. change (Z.of_nat 4) with 4. change (Z.of_nat 5) with 5. change (Z.of_nat 6) with 6. change (Z.of_nat 7) with 7.
    change (256 ^ 0) with 1. change (256 ^ 1) with 256. change (256 ^ 2) with 65536. change (256 ^ 3) with 16777216. change (256 ^ (4 - 4)) with 1. change (256 ^ (5 - 4)) with 256. change (256 ^ (6 - 4)) with 65536. change (256 ^ (7 - 4)) with 16777216. cbn [Z.ltb Z.compare Pos.compare Pos.compare_cont]. rewrite !Z.div_1_r. reflexivity. }
  rewrite <- E. unfold data_bytes. rewrite firstn_map. f_equal. do 9 (destruct n as [|n]; [reflexivity|]). lia.
Qed.
Lemma list_8 {A} (l : list A) : 8 <= zlen l -> exists a b c d e f g h r, l = a :: b :: c :: d :: e :: f :: g :: h :: r.
Proof. intro L. do 8 (destruct l as [|? l]; [unfold zlen in L; cbn in L; lia|]). repeat eexists. Qed.

Lemma load_lo a b c d e f g h r : load32 (a :: b :: c :: d :: e :: f :: g :: h :: r) 0 = Some (word4 a b c d).
Proof. reflexivity. Qed.
Lemma load_hi a b c d e f g h r : load32 (a :: b :: c :: d :: e :: f :: g :: h :: r) 4 = Some (word4 e f g h).
Proof. reflexivity. Qed.
Lemma lor_1 x : x mod 2 = 0 -> Z.lor x 1 = x + 1.
Proof.
  intro X. pose proof (lor_add (x / 2) 1 1) as P. change (2 ^ 1) with 2 in P. replace (x / 2 * 2) with x in P by (rewrite (Z.div_mod x 2) at 1; lia). apply P; lia.
Qed.
Lemma send_ok m : 8 <= zlen (c_data m) -> Forall (fun b => 0 <= b < 256) (c_data m) -> 0 <= c_id m < (if c_ext m then 2 ^ 29 else 2 ^ 11) ->
  exists lo hi, sendMailbox m = Some (Mb (c_id m * 2 ^ (if c_ext m then 3 else 21) + bit (c_ext m) 4 + bit (c_rtr m) 2 + 1) (c_dlc m) lo hi) /\ bytes8 lo hi = firstn 8 (c_data m).
Proof.
  intros L F I. destruct (list_8 _ L) as (a & b & c & d & e & f & g & h & r & E). rewrite E in F.
  exists (word4 a b c d), (word4 e f g h). split.
  - unfold sendMailbox. rewrite E, load_lo, load_hi. cbn [obind].
    assert (T : (if c_rtr m then Z.lor (if c_ext m then Z.lor (u32 (Z.shiftl (c_id m) 3)) 4 else u32 (Z.shiftl (c_id m) 21)) 2 else if c_ext m then Z.lor (u32 (Z.shiftl (c_id m) 3)) 4 else u32 (Z.shiftl (c_id m) 21)) =
      c_id m * 2 ^ (if c_ext m then 3 else 21) + bit (c_ext m) 4 + bit (c_rtr m) 2).
    { pose proof (tir_value (c_id m) (if c_ext m then 3 else 21) (c_ext m) (c_rtr m)) as T. cbn zeta in T. destruct (c_ext m); apply T; auto. }
    cbn zeta. rewrite T. rewrite lor_1; [reflexivity|]. clear T.
    destruct (c_ext m), (c_rtr m); unfold bit; change (2 ^ 3) with 8; change (2 ^ 21) with 2097152; lia.
  - rewrite E. cbn [firstn]. repeat match goal with H : Forall _ (_ :: _) |- _ => apply Forall_cons_iff in H; destruct H end. unfold bytes8.
    destruct (word4_bytes a b c d) as (-> & -> & -> & ->); auto. destruct (word4_bytes e f g h) as (-> & -> & -> & ->); auto.
Qed.

Lemma on_bus_ok m lo hi : 0 <= c_id m < (if c_ext m then 2 ^ 29 else 2 ^ 11) -> 0 <= c_dlc m <= 8 -> bytes8 lo hi = firstn 8 (c_data m) ->
  on_bus (Mb (c_id m * 2 ^ (if c_ext m then 3 else 21) + bit (c_ext m) 4 + bit (c_rtr m) 2 + 1) (c_dlc m) lo hi) =
  Frame (c_ext m) (c_id m) (c_rtr m) (c_dlc m) (if c_rtr m then [] else firstn (Z.to_nat (c_dlc m)) (c_data m)).
Proof.
  intros I D B. unfold on_bus. cbn [tir tdtr tdlr tdhr].
  set (k := if c_ext m then 3 else 21). assert (K : if c_ext m then k = 3 else k = 21) by (unfold k; destruct (c_ext m); reflexivity).
  destruct (tir_bits (c_id m) k (c_ext m) (c_rtr m) 1 K ltac:(lia)) as [T2 T1]. pose proof (tir_id (c_id m) k (c_ext m) (c_rtr m) 1 K ltac:(lia)) as TI. cbn zeta in T1, T2. rewrite T1, T2.
  rewrite (Z.mod_small (c_dlc m) 16) by lia. f_equal.
  - unfold k in *. destruct (c_ext m); rewrite TI; apply Z.mod_small; exact I.
  - destruct (c_rtr m); [reflexivity|]. rewrite data_bytes_8 by lia. rewrite B, firstn_firstn. f_equal. lia.
Qed.

Lemma store_lo a b c d e f g h r v : store32 (a :: b :: c :: d :: e :: f :: g :: h :: r) 0 v = Some (u8 v :: u8 (Z.shiftr v 8) :: u8 (Z.shiftr v 16) :: u8 (Z.shiftr v 24) :: e :: f :: g :: h :: r).
Proof. reflexivity. Qed.
Lemma store_hi a b c d e f g h r v : store32 (a :: b :: c :: d :: e :: f :: g :: h :: r) 4 v = Some (a :: b :: c :: d :: u8 v :: u8 (Z.shiftr v 8) :: u8 (Z.shiftr v 16) :: u8 (Z.shiftr v 24) :: r).
Proof. reflexivity. Qed.
Lemma land_bit x n : 0 <= n -> negb (Z.land x (2 ^ n) =? 0) = Z.testbit x n.
Proof.
  intro N. destruct (Z.testbit x n) eqn:T.
  - apply negb_true_iff, Z.eqb_neq. intro E. assert (Q : Z.testbit (Z.land x (2 ^ n)) n = true) by (rewrite Z.land_spec, T, Z.pow2_bits_true by lia; reflexivity). rewrite E, Z.bits_0 in Q. discriminate.
  - apply negb_false_iff, Z.eqb_eq. apply Z.bits_inj'. intros i Hi. rewrite Z.land_spec, Z.bits_0. destruct (Z.eq_dec i n) as [->|D]; [rewrite T; reflexivity|]. rewrite Z.pow2_bits_false by lia. apply andb_false_r.
Qed.
Lemma dlc_small d : 0 <= d <= 8 -> znth dlcConversionTable d = Some d.
Proof.
  intros D. assert (Q : d = 0 \/ d = 1 \/ d = 2 \/ d = 3 \/ d = 4 \/ d = 5 \/ d = 6 \/ d = 7 \/ d = 8) by lia.
  repeat destruct Q as [Q|Q]; subst d; reflexivity.
Qed.
Lemma dlc_down_S n c d : dlc_down (S n) c d = do t <- znth dlcConversionTable d; if c <? t then dlc_down n c (u8 (d - 1)) else Some d.
Proof. reflexivity. Qed.
Lemma dlc_table c d : 8 <= c -> 0 <= d <= 8 -> dlc_down 17 c d = Some d /\ znth dlcConversionTable d = Some d.
Proof.
  intros C D. pose proof (dlc_small d D) as E. split; [|exact E]. rewrite dlc_down_S, E. cbn [obind]. replace (c <? d) with false by lia. reflexivity.
Qed.
Lemma dlc_table_8 d : 8 < d <= 15 -> dlc_down 17 8 d = Some 8.
Proof.
  intros D. assert (Q : d = 9 \/ d = 10 \/ d = 11 \/ d = 12 \/ d = 13 \/ d = 14 \/ d = 15) by lia. repeat destruct Q as [Q|Q]; subst d; reflexivity.
Qed.
Lemma set_dlc c m d : 8 <= c -> 0 <= d <= 15 -> c = 8 \/ d <= 8 ->
  can_setDataLengthCode c m d = Some (mkCan (c_id m) (c_fd m) (c_brs m) (c_rtr m) (c_ext m) (Z.min d 8) (Z.min d 8) (c_data m)).
Proof.
  intros C D O. unfold can_setDataLengthCode. destruct (Z.le_gt_cases d 8) as [L|L].
  - destruct (dlc_table c d C ltac:(lia)) as [-> E]. cbn [obind]. rewrite E. cbn [obind]. replace (8 <? d) with false by lia. replace (Z.min d 8) with d by lia. reflexivity.
  - destruct O as [-> |O]; [|lia]. rewrite dlc_table_8 by lia. cbn [obind]. replace (Z.min d 8) with 8 by lia. reflexivity.
Qed.
Lemma land_mod a n k : 0 <= k -> n = 2 ^ k - 1 -> Z.land a n = a mod 2 ^ k.
Proof. intros K ->. apply land_ones_mod. exact K. Qed.
Lemma fmi_value x : Z.shiftr (Z.land x 65280) 8 = x / 256 mod 256.
Proof. rewrite Z.shiftr_land. change (Z.shiftr 65280 8) with 255. rewrite (land_mod _ 255 8) by lia. rewrite Z.shiftr_div_pow2 by lia. reflexivity. Qed.

Lemma read_ok capacity m0 f fmi rir rdtr lo hi : 8 <= capacity -> zlen (c_data m0) = capacity -> valid_frame f -> capacity = 8 \/ f_dlc f <= 8 -> in_fifo f fmi rir rdtr lo hi ->
  exists d, readMailbox capacity m0 rir rdtr lo hi = Some (mkCan (f_id f) (c_fd m0) (c_brs m0) (f_rtr f) (f_ext f) (Z.min (f_dlc f) 8) (Z.min (f_dlc f) 8) d, fmi) /\
    zlen d = capacity /\ firstn 8 d = bytes8 lo hi /\ firstn (length (f_data f)) d = f_data f.
Proof.
  intros C L V O (RI & RD & RF & LO & HI & RT & DB). destruct V as (VI & VD & VB & VL). unfold readMailbox.
  set (k := if f_ext f then 3 else 21). assert (K : if f_ext f then k = 3 else k = 21) by (unfold k; destruct (f_ext f); reflexivity).
  assert (RV : rir = f_id f * 2 ^ k + bit (f_ext f) 4 + bit (f_rtr f) 2 + 0) by (rewrite RI; unfold k, bit; destruct (f_ext f), (f_rtr f); lia).
  destruct (tir_bits (f_id f) k (f_ext f) (f_rtr f) 0 K ltac:(lia)) as [T2 T1]. pose proof (tir_id (f_id f) k (f_ext f) (f_rtr f) 0 K ltac:(lia)) as TI. cbn zeta in T1, T2. rewrite <- RV in T1, T2, TI.
  change 4 with (2 ^ 2). change (Z.land rir 2) with (Z.land rir (2 ^ 1)). rewrite !land_bit by lia. rewrite T1, T2. cbn zeta.
  rewrite (land_mod _ 15 4) by lia. change (2 ^ 4) with 16. rewrite RD, (set_dlc _ _ _ C VD O). cbn [obind c_id c_fd c_brs c_rtr c_ext c_dlc c_len c_data].
  destruct (list_8 (c_data m0)) as (a & b & c & d & e & g & h & i & r & E); [lia|]. rewrite E. change (2 ^ 2) with 4. rewrite store_lo. cbn [obind]. rewrite store_hi. cbn [obind]. rewrite fmi_value, RF.
  eexists. split; [|split; [|split]].
  - f_equal. f_equal. f_equal. rewrite !Z.shiftr_div_pow2 by lia. unfold k in TI. destruct (f_ext f); exact TI.
  - rewrite E in L. unfold zlen in *. cbn [length] in *. exact L.
  - unfold u8, bytes8. rewrite !Z.shiftr_div_pow2 by lia. reflexivity.
  - assert (LE : (length (f_data f) <= 8)%nat) by (unfold zlen in VL; destruct (f_rtr f); lia). rewrite data_bytes_8 in DB by exact LE.
    rewrite <- DB at 2. unfold u8, bytes8. rewrite !Z.shiftr_div_pow2 by lia. change (2 ^ 8) with 256. change (2 ^ 16) with 65536. change (2 ^ 24) with 16777216.
    destruct (length (f_data f)) as [|[|[|[|[|[|[|[|[|n]]]]]]]]]; try reflexivity. lia.
Qed.

(** *** Filters *)
Definition wf_regs (r : fregs) : Prop := 0 <= fa r < 2 ^ 32 /\ 0 <= fm r < 2 ^ 32 /\ 0 <= fs r < 2 ^ 32 /\ 0 <= ffa r < 2 ^ 32.
Lemma set_bit_test b reg bank k : 0 <= reg < 2 ^ 32 -> 0 <= bank < 32 -> 0 <= k -> Z.testbit (set_bit b reg (Z.shiftl 1 bank)) k = if k =? bank then b else Z.testbit reg k.
Proof.
  intros R B K. rewrite Z.shiftl_1_l. unfold set_bit. destruct b.
  - rewrite Z.lor_spec, Z.pow2_bits_eqb by lia. rewrite (Z.eqb_sym bank k). destruct (k =? bank); [apply orb_true_r|apply orb_false_r].
  - rewrite Z.land_spec. change 4294967295 with (Z.ones 32). rewrite Z.sub_nocarry_ldiff.
    + rewrite Z.ldiff_spec, Z.pow2_bits_eqb, (Z.eqb_sym bank k) by lia. destruct (k =? bank); [rewrite !andb_false_r; reflexivity|]. rewrite andb_true_r.
      destruct (Z.lt_ge_cases k 32) as [L|L]; [rewrite Z.ones_spec_low by lia; apply andb_true_r|]. rewrite (testbit_high reg 32 k R L). reflexivity.
    + apply Z.bits_inj'. intros i Hi. rewrite Z.ldiff_spec, Z.bits_0, Z.pow2_bits_eqb by lia. destruct (Z.eqb_spec bank i) as [<-|]; [|reflexivity]. rewrite Z.ones_spec_low by lia. reflexivity.
Qed.
Lemma set_bit_range b reg bank : 0 <= reg < 2 ^ 32 -> 0 <= bank < 32 -> 0 <= set_bit b reg (Z.shiftl 1 bank) < 2 ^ 32.
Proof.
  intros R B. assert (N : 0 <= set_bit b reg (Z.shiftl 1 bank)).
  { unfold set_bit. rewrite Z.shiftl_1_l. assert (0 < 2 ^ bank) by lia. destruct b; [apply Z.lor_nonneg|apply Z.land_nonneg]; lia. }
  split; [exact N|]. apply lt_pow2_bits; [lia|exact N|]. intros i Hi. rewrite set_bit_test by lia. replace (i =? bank) with false by lia. exact (testbit_high reg 32 i R Hi).
Qed.

Lemma base_ok bank flags f1 f2 r : wf_regs r -> 0 <= bank < 32 -> exists r', setFilterBase bank flags f1 f2 r = Some r' /\ wf_regs r' /\
  Z.testbit (fa r') bank = true /\ Z.testbit (fm r') bank = Z.testbit flags 1 /\ Z.testbit (fs r') bank = Z.testbit flags 2 /\ Z.testbit (ffa r') bank = Z.testbit flags 0 /\
  fr1 r' bank = f1 /\ fr2 r' bank = f2 /\
  forall k, 0 <= k -> k <> bank -> Z.testbit (fa r') k = Z.testbit (fa r) k /\ Z.testbit (fm r') k = Z.testbit (fm r) k /\ Z.testbit (fs r') k = Z.testbit (fs r) k /\ Z.testbit (ffa r') k = Z.testbit (ffa r) k /\
    fr1 r' k = fr1 r k /\ fr2 r' k = fr2 r k.
Proof.
  intros (A & M & S' & F) B. unfold setFilterBase. replace (bank <? 32) with true by lia. eexists. split; [reflexivity|]. cbn [fa fm fs ffa fr1 fr2].
  change (Z.land flags 2) with (Z.land flags (2 ^ 1)). change (Z.land flags 4) with (Z.land flags (2 ^ 2)). change (Z.land flags 1) with (Z.land flags (2 ^ 0)). rewrite !land_bit by lia.
  assert (A1 := set_bit_range false _ _ A B).
  split; [unfold wf_regs; cbn [fa fm fs ffa]; repeat split; apply set_bit_range; assumption|].
  rewrite !set_bit_test by (assumption || lia). rewrite !Z.eqb_refl. do 6 (split; [reflexivity|]).
  intros k K N. rewrite !set_bit_test by (assumption || lia). replace (k =? bank) with false by lia. repeat split.
Qed.

Lemma other_bank bank flags f1 f2 r r' k to1 f : wf_regs r -> 0 <= bank < 32 -> setFilterBase bank flags f1 f2 r = Some r' -> 0 <= k -> k <> bank -> passes r' k to1 f <-> passes r k to1 f.
Proof.
  intros W B E K N. destruct (base_ok bank flags f1 f2 r W B) as (r2 & E2 & _ & _ & _ & _ & _ & _ & _ & O). rewrite E in E2. injection E2 as <-.
  destruct (O k K N) as (A1 & A2 & A3 & A4 & A5 & A6). unfold passes. rewrite A1, A2, A3, A4, A5, A6. tauto.
Qed.
Definition fifo_is (fifo : Z) (to1 : bool) : Prop := fifo = if to1 then 1 else 0.
Lemma fifo_bit fifo (to1 : bool) l s : fifo = 0 \/ fifo = 1 -> l = 0 \/ l = 2 -> s = 0 \/ s = 4 ->
  Z.testbit (Z.lor (Z.lor fifo l) s) 1 = (l =? 2) /\ Z.testbit (Z.lor (Z.lor fifo l) s) 2 = (s =? 4) /\ (Z.testbit (Z.lor (Z.lor fifo l) s) 0 = to1 <-> fifo_is fifo to1).
Proof. intros [-> | ->] [-> | ->] [-> | ->]; (split; [reflexivity|split; [reflexivity|]]); unfold fifo_is; destruct to1; cbn; split; (discriminate || reflexivity || intro; discriminate || lia). Qed.

Lemma base_passes bank fifo l s f1 f2 r (to1 : bool) f : wf_regs r -> 0 <= bank < 32 -> fifo = 0 \/ fifo = 1 -> l = 0 \/ l = 2 -> s = 0 \/ s = 4 ->
  exists r', setFilterBase bank (Z.lor (Z.lor fifo l) s) f1 f2 r = Some r' /\ wf_regs r' /\
  (passes r' bank to1 f <-> fifo_is fifo to1 /\
    if s =? 4 then if l =? 2 then frame32 f = f1 \/ frame32 f = f2 else masked (frame32 f) f1 f2
    else if l =? 2 then frame16 f = f1 mod 2 ^ 16 \/ frame16 f = f1 / 2 ^ 16 \/ frame16 f = f2 mod 2 ^ 16 \/ frame16 f = f2 / 2 ^ 16
    else masked (frame16 f) (f1 mod 2 ^ 16) (f1 / 2 ^ 16) \/ masked (frame16 f) (f2 mod 2 ^ 16) (f2 / 2 ^ 16)).
Proof.
  intros W B F L S'. destruct (base_ok bank (Z.lor (Z.lor fifo l) s) f1 f2 r W B) as (r' & E & W' & A & M & SS & FF & E1 & E2 & _). exists r'. split; [exact E|]. split; [exact W'|].
  destruct (fifo_bit fifo to1 l s F L S') as (B1 & B2 & B0). unfold passes. rewrite A, M, SS, FF, E1, E2, B1, B2. cbn zeta. tauto.
Qed.

(* the 32-bit forms *)
Lemma frame32_value f : valid_frame f -> frame32 f = f_id f * 2 ^ (if f_ext f then 3 else 21) + bit (f_ext f) 4 + bit (f_rtr f) 2.
Proof.
  intros (V & _). unfold frame32, std_id, bit. destruct (f_ext f); [|lia]. pose proof (Z.div_mod (f_id f) (2 ^ 18) ltac:(lia)) as D.
  change (2 ^ 21) with (2 ^ 18 * 2 ^ 3). lia.
Qed.
Lemma ext_value id (r : bool) : 0 <= id < 2 ^ 29 -> ExtendedIdentifier id r = id * 2 ^ 3 + bit true 4 + bit r 2.
Proof.
  intro I. pose proof (tir_value id 3 true r eq_refl I) as T. cbn zeta in T. rewrite <- T. unfold ExtendedIdentifier. destruct r; [reflexivity|]. apply Z.lor_0_r.
Qed.
Lemma std_value id (r : bool) : 0 <= id < 2 ^ 11 -> StandardIdentifier id r = id * 2 ^ 21 + bit false 4 + bit r 2.
Proof.
  intro I. pose proof (tir_value id 21 false r eq_refl I) as T. cbn zeta in T. rewrite <- T. unfold StandardIdentifier. destruct r; [reflexivity|]. apply Z.lor_0_r.
Qed.
Lemma word_inj a b k (e r e' r' : bool) : 3 <= k -> a * 2 ^ k + bit e 4 + bit r 2 = b * 2 ^ k + bit e' 4 + bit r' 2 -> a = b /\ e = e' /\ r = r'.
Proof.
  intros K E. assert (P : 8 <= 2 ^ k) by (change 8 with (2 ^ 3); apply Z.pow_le_mono_r; lia).
  assert (H : a = b) by (unfold bit in E; destruct e, r, e', r'; nia). subst b. split; [reflexivity|]. unfold bit in E. destruct e, r, e', r'; split; try reflexivity; lia.
Qed.
Lemma enc32_value i : valid_ident i -> enc32 i = i_id i * 2 ^ (if i_ext i then 3 else 21) + bit (i_ext i) 4 + bit (i_rtr i) 2.
Proof. intro V. unfold enc32, valid_ident in *. destruct (i_ext i); [apply ext_value|apply std_value]; exact V. Qed.
Lemma list_match i f : valid_ident i -> valid_frame f -> frame32 f = enc32 i <-> is_ident i f.
Proof.
  intros VI VF. rewrite (frame32_value f VF), (enc32_value i VI). unfold is_ident. split; [|intros (-> & -> & ->); reflexivity].
  intro E. assert (X : f_ext f = i_ext i).
  { destruct (f_ext f), (i_ext i); try reflexivity; exfalso; change (2 ^ 3) with 8 in E; change (2 ^ 21) with 2097152 in E; unfold bit in E; destruct (f_rtr f), (i_rtr i); lia. }
  rewrite X in E |- *. destruct (word_inj _ _ (if i_ext i then 3 else 21) _ _ _ _ ltac:(destruct (i_ext i); lia) E) as (A & _ & B). auto.
Qed.
Lemma tb_word a k (e r : bool) i : 3 <= k -> 0 <= i -> Z.testbit (a * 2 ^ k + bit e 4 + bit r 2) i = if k <=? i then Z.testbit a (i - k) else if i =? 2 then e else if i =? 1 then r else false.
Proof.
  intros K I. assert (P : 8 <= 2 ^ k) by (change 8 with (2 ^ 3); apply Z.pow_le_mono_r; lia). rewrite <- Z.add_assoc, tb_join by (try (unfold bit; destruct e, r); lia).
  destruct (Z.leb_spec k i) as [L|L]; [replace (i <? k) with false by lia; reflexivity|]. replace (i <? k) with true by lia.
  destruct (Z.eqb_spec i 2) as [->|N2]; [destruct e, r; reflexivity|]. destruct (Z.eqb_spec i 1) as [->|N1]; [destruct e, r; reflexivity|]. destruct (Z.eq_dec i 0) as [->|N0]; [destruct e, r; reflexivity|].
  apply (testbit_high _ 3); [unfold bit; destruct e, r; lia|lia].
Qed.
(* masks agree on the identifier, on IDE if the mask has it and on RTR if the mask has it *)
Lemma masked_word x id mask k (e r e' r' me mr : bool) : 3 <= k ->
  masked (x * 2 ^ k + bit e 4 + bit r 2) (id * 2 ^ k + bit e' 4 + bit r' 2) (mask * 2 ^ k + bit me 4 + bit mr 2) <->
  masked x id mask /\ (me = true -> e = e') /\ (mr = true -> r = r').
Proof.
  intro K. unfold masked. split.
  - intro H. split; [|split].
    + intros i I M. specialize (H (i + k) ltac:(lia)). rewrite !tb_word in H by lia. replace (k <=? i + k) with true in H by lia. replace (i + k - k) with i in H by lia. exact (H M).
    + intro M. specialize (H 2 ltac:(lia)). rewrite !tb_word in H by lia. replace (k <=? 2) with false in H by lia. exact (H M).
    + intro M. specialize (H 1 ltac:(lia)). rewrite !tb_word in H by lia. replace (k <=? 1) with false in H by lia. exact (H M).
  - intros (A & B & C) i I M. rewrite !tb_word in * by lia. destruct (Z.leb_spec k i); [apply A; [lia|exact M]|]. destruct (i =? 2); [auto|]. destruct (i =? 1); auto.
Qed.
Lemma ext_mask_match id mask (rtr mrtr : bool) f : 0 <= id < 2 ^ 29 -> 0 <= mask < 2 ^ 29 -> valid_frame f ->
  masked (frame32 f) (ExtendedIdentifier id rtr) (ExtendedFilterMask mask mrtr) <-> wants_ext id mask mrtr rtr f.
Proof.
  intros I M V. change (ExtendedFilterMask mask mrtr) with (ExtendedIdentifier mask mrtr). rewrite (frame32_value f V), (ext_value id), (ext_value mask) by assumption. unfold wants_ext, rtr_ok.
  destruct (f_ext f) eqn:X.
  - rewrite masked_word by lia. tauto.
  - split; [|intros (Q & _); discriminate]. intro H. exfalso. specialize (H 2 ltac:(lia)). rewrite !tb_word in H by lia. cbn in H. specialize (H eq_refl). discriminate.
Qed.
Lemma std_mask_match id mask (rtr mrtr : bool) f : 0 <= id < 2 ^ 11 -> 0 <= mask < 2 ^ 11 -> valid_frame f -> f_ext f = false ->
  masked (frame32 f) (StandardIdentifier id rtr) (StandardFilterMask mask mrtr) <-> wants_std id mask mrtr rtr f.
Proof.
  intros I M V X. change (StandardFilterMask mask mrtr) with (StandardIdentifier mask mrtr). rewrite (frame32_value f V), (std_value id), (std_value mask) by assumption. unfold wants_std, rtr_ok. rewrite X.
  rewrite masked_word by lia. intuition discriminate.
Qed.

(* the 16-bit forms *)
Definition w16 (s : Z) (r e : bool) (l : Z) : Z := s * 32 + bit r 16 + bit e 8 + l.
Lemma tb_w16 s (r e : bool) l i : 0 <= l < 8 -> 0 <= i -> Z.testbit (w16 s r e l) i = if 5 <=? i then Z.testbit s (i - 5) else if i =? 4 then r else if i =? 3 then e else Z.testbit l i.
Proof.
  intros L I. unfold w16. rewrite <- !Z.add_assoc. change 32 with (2 ^ 5). rewrite tb_join by (try (unfold bit; destruct r, e); lia).
  destruct (Z.leb_spec 5 i) as [G|G]; [replace (i <? 5) with false by lia; reflexivity|]. replace (i <? 5) with true by lia.
  replace (bit r 16 + (bit e 8 + l)) with ((bit r 2 + bit e 1) * 2 ^ 3 + l) by (unfold bit; destruct r, e; lia). rewrite tb_join by lia.
  destruct (Z.ltb_spec i 3) as [H|H]; [replace (i =? 4) with false by lia; replace (i =? 3) with false by lia; reflexivity|].
  assert (Q : i = 3 \/ i = 4) by lia. destruct Q as [-> | ->], r, e; reflexivity.
Qed.
Lemma w16_inj s r e l s' r' e' l' : 0 <= l < 8 -> 0 <= l' < 8 -> w16 s r e l = w16 s' r' e' l' -> s = s' /\ r = r' /\ e = e' /\ l = l'.
Proof. intros L L' E. unfold w16, bit in E. destruct r, e, r', e'; (split; [lia|split; [reflexivity || lia|split; [reflexivity || lia|lia]]]). Qed.
Lemma low3 id : 0 <= id / 2 ^ 15 mod 8 < 8.
Proof. apply Z.mod_pos_bound. lia. Qed.
Lemma frame16_value f : frame16 f = w16 (std_id f) (f_rtr f) (f_ext f) (if f_ext f then f_id f / 2 ^ 15 mod 8 else 0).
Proof. unfold frame16, w16, bit. change (2 ^ 5) with 32. change (2 ^ 3) with 8. destruct (f_ext f), (f_rtr f); lia. Qed.
Lemma std_short_value id (r : bool) : 0 <= id < 2 ^ 11 -> StandardIdentifierShort id r = w16 id r false 0.
Proof.
  intro I. unfold StandardIdentifierShort. assert (E : Z.land (Z.shiftl id 5) 65504 = id * 2 ^ 5).
  { rewrite Z.shiftl_mul_pow2 by lia. apply Z.bits_inj'. intros i Hi. rewrite Z.land_spec. change 65504 with (2047 * 2 ^ 5). rewrite !Z.mul_pow2_bits by lia.
    destruct (Z.lt_ge_cases i 5); [rewrite (Z.testbit_neg_r id) by lia; reflexivity|]. change 2047 with (Z.ones 11).
    destruct (Z.lt_ge_cases (i - 5) 11); [rewrite Z.ones_spec_low by lia; apply andb_true_r|]. rewrite (testbit_high id 11 (i - 5) I) by lia. reflexivity. }
  rewrite E. change (2 ^ 11) with 2048 in I. assert (F : Z.lor (id * 2 ^ 5) (if r then 16 else 0) = id * 32 + bit r 16) by (rewrite (lor_add id _ 5) by (destruct r; lia); unfold bit; reflexivity).
  rewrite F. unfold u16, w16, bit. rewrite Z.mod_small; destruct r; lia.
Qed.
Lemma ext_short_value id (r : bool) : 0 <= id < 2 ^ 29 -> clean id r -> ExtendedIdentifierShort id r = w16 (id / 2 ^ 18) r true (id / 2 ^ 15 mod 8).
Proof.
  intros I (C1 & C2 & C3). pose proof (low3 id) as L3.
  assert (R : 0 <= w16 (id / 2 ^ 18) r true (id / 2 ^ 15 mod 8) < 65536).
  { assert (0 <= id / 2 ^ 18 < 2048) by (split; [apply Z.div_pos; lia|apply Z.div_lt_upper_bound; lia]). unfold w16, bit. destruct r; lia. }
  unfold ExtendedIdentifierShort.
  assert (E : Z.lor (Z.lor (Z.lor (Z.land (Z.shiftr id 13) 65504) (Z.land (Z.shiftr id 15) 127)) 8) (if r then 16 else 0) = w16 (id / 2 ^ 18) r true (id / 2 ^ 15 mod 8)).
  { apply Z.bits_inj'. intros i Hi. rewrite tb_w16 by assumption. rewrite !Z.lor_spec, !Z.land_spec, !Z.shiftr_spec by lia. change 65504 with (2047 * 2 ^ 5). rewrite Z.mul_pow2_bits by lia. change 2047 with (Z.ones 11). change 127 with (Z.ones 7).
    change 8 with (2 ^ 3) at 1. change 8 with (2 ^ 3) at 1. rewrite Z.pow2_bits_eqb by lia.
    assert (B16 : Z.testbit (if r then 16 else 0) i = r && (i =? 4)) by (destruct r; [change 16 with (2 ^ 4); rewrite Z.pow2_bits_eqb, (Z.eqb_sym 4 i) by lia; reflexivity|apply Z.bits_0]). rewrite B16.
    destruct (Z.leb_spec 5 i) as [G|G].
    - replace (3 =? i) with false by lia. replace (i =? 4) with false by lia. rewrite andb_false_r, !orb_false_r. rewrite Z.div_pow2_bits by lia. replace (i - 5 + 18) with (i + 13) by lia.
      destruct (Z.lt_ge_cases i 16) as [H|H].
      + rewrite (Z.ones_spec_low 11) by lia. rewrite andb_true_r. destruct (Z.lt_ge_cases i 7) as [H7|H7]; [|rewrite (Z.ones_spec_high 7) by lia; rewrite andb_false_r, orb_false_r; reflexivity].
        rewrite (Z.ones_spec_low 7) by lia. rewrite andb_true_r. assert (Q : i = 5 \/ i = 6) by lia.
        destruct Q as [-> | ->]; [change (5 + 13) with 18; change (5 + 15) with 20; destruct (Z.testbit id 20); [rewrite C2 by reflexivity; reflexivity|apply orb_false_r]|change (6 + 13) with 19; change (6 + 15) with 21; destruct (Z.testbit id 21); [rewrite C3 by reflexivity; reflexivity|apply orb_false_r]].
      + rewrite (testbit_high id 29 (i + 13) I) by lia. rewrite (testbit_high id 29 (i + 15) I) by lia. reflexivity.
    - rewrite (Z.testbit_neg_r (Z.ones 11)) by lia. rewrite (Z.ones_spec_low 7) by lia. rewrite andb_false_r, andb_true_r, orb_false_l.
      destruct (Z.eqb_spec i 4) as [->|N4]; [change (4 + 15) with 19; destruct (Z.testbit id 19); [rewrite C1 by reflexivity; reflexivity|]; destruct r; reflexivity|].
      destruct (Z.eqb_spec i 3) as [->|N3]; [rewrite orb_true_r; reflexivity|]. replace (3 =? i) with false by lia. rewrite andb_false_r, !orb_false_r. change 8 with (2 ^ 3). rewrite Z.mod_pow2_bits_low, Z.div_pow2_bits by lia. reflexivity. }
  rewrite E. apply Z.mod_small. exact R.
Qed.
Lemma top14 id : id / 2 ^ 15 = id / 2 ^ 18 * 8 + id / 2 ^ 15 mod 8.
Proof.
  pose proof (Z.div_mod (id / 2 ^ 15) 8 ltac:(lia)) as D. rewrite Z.div_div in D by lia. change (2 ^ 15 * 8) with (2 ^ 18) in D. lia.
Qed.
Lemma enc16_value i : valid_ident i -> (i_ext i = true -> clean (i_id i) (i_rtr i)) ->
  enc16 i = w16 (if i_ext i then i_id i / 2 ^ 18 else i_id i) (i_rtr i) (i_ext i) (if i_ext i then i_id i / 2 ^ 15 mod 8 else 0).
Proof. unfold enc16, valid_ident. destruct (i_ext i); intros V C; [apply ext_short_value; auto|apply std_short_value; exact V]. Qed.
Lemma list_short_match i f : valid_ident i -> (i_ext i = true -> clean (i_id i) (i_rtr i)) -> valid_frame f -> frame16 f = enc16 i <-> is_ident_short i f.
Proof.
  intros VI C VF. rewrite frame16_value, (enc16_value i VI C). unfold is_ident_short, std_id. split.
  - intro E. pose proof (low3 (f_id f)). pose proof (low3 (i_id i)). apply w16_inj in E; [|destruct (f_ext f); lia|destruct (i_ext i); lia]. destruct E as (A & B & D & F). rewrite D in A, F. split; [exact D|]. split; [|exact B].
    destruct (i_ext i); [|exact A]. rewrite (top14 (f_id f)), (top14 (i_id i)). lia.
  - intros (-> & A & ->). destruct (i_ext i); [|rewrite A; reflexivity]. assert (B : f_id f / 2 ^ 18 = i_id i / 2 ^ 18).
    { pose proof (top14 (f_id f)). pose proof (top14 (i_id i)). pose proof (low3 (f_id f)). pose proof (low3 (i_id i)). rewrite A in *. lia. }
    rewrite A, B. reflexivity.
Qed.
Lemma short_values s : valid_short s -> (s_ext s = true -> clean (s_id s) (s_rtr s) /\ clean (s_mask s) (s_match s)) ->
  short_id s = w16 (if s_ext s then s_id s / 2 ^ 18 else s_id s) (s_rtr s) (s_ext s) (if s_ext s then s_id s / 2 ^ 15 mod 8 else 0) /\
  short_mask s = w16 (if s_ext s then s_mask s / 2 ^ 18 else s_mask s) (s_match s) (s_ext s) (if s_ext s then s_mask s / 2 ^ 15 mod 8 else 0).
Proof.
  unfold short_id, short_mask, valid_short. destruct (s_ext s); intros (V1 & V2) C.
  - destruct (C eq_refl) as [C1 C2]. split; [apply ext_short_value; assumption|]. change (ExtendedFilterMaskShort (s_mask s) (s_match s)) with (ExtendedIdentifierShort (s_mask s) (s_match s)). apply ext_short_value; assumption.
  - split; [apply std_short_value; exact V1|]. change (StandardFilterMaskShort (s_mask s) (s_match s)) with (StandardIdentifierShort (s_mask s) (s_match s)). apply std_short_value; exact V2.
Qed.
Lemma tb_top14 id i : 0 <= i -> Z.testbit (id / 2 ^ 15) i = if 3 <=? i then Z.testbit (id / 2 ^ 18) (i - 3) else Z.testbit (id / 2 ^ 15 mod 8) i.
Proof.
  intro I. rewrite (top14 id) at 1. change 8 with (2 ^ 3) at 1. rewrite tb_join by (try apply low3; lia). destruct (Z.ltb_spec i 3), (Z.leb_spec 3 i); try lia; reflexivity.
Qed.
Lemma short_match s f : valid_short s -> (s_ext s = true -> clean (s_id s) (s_rtr s) /\ clean (s_mask s) (s_match s)) -> valid_frame f -> (f_ext f = true -> s_ext s = true) ->
  masked (frame16 f) (short_id s) (short_mask s) <-> wants_short s f.
Proof.
  intros V C VF X. destruct (short_values s V C) as [-> ->]. rewrite frame16_value. unfold wants_short, rtr_ok, std_id.
  pose proof (low3 (f_id f)) as Lf. pose proof (low3 (s_id s)) as Li. pose proof (low3 (s_mask s)) as Lm.
  destruct (s_ext s) eqn:SE.
  - split.
    + intro H. assert (FE : f_ext f = true).
      { specialize (H 3 ltac:(lia)). rewrite !tb_w16 in H by (try destruct (f_ext f); lia). exact (H eq_refl). }
      rewrite FE in *. split; [reflexivity|]. split.
      * intros i I M. rewrite tb_top14 in M |- * by lia. rewrite tb_top14 by lia. destruct (Z.leb_spec 3 i) as [G|G].
        -- specialize (H (i + 2) ltac:(lia)). rewrite !tb_w16 in H by lia. replace (5 <=? i + 2) with true in H by lia. replace (i + 2 - 5) with (i - 3) in H by lia. exact (H M).
        -- specialize (H i I). rewrite !tb_w16 in H by lia. replace (5 <=? i) with false in H by lia. replace (i =? 4) with false in H by lia. replace (i =? 3) with false in H by lia. exact (H M).
      * intro M. specialize (H 4 ltac:(lia)). rewrite !tb_w16 in H by lia. exact (H M).
    + intros (-> & A & B) i I M. rewrite !tb_w16 in * by lia. destruct (Z.leb_spec 5 i) as [G|G].
      * specialize (A (i - 2) ltac:(lia)). rewrite !tb_top14 in A by lia. replace (3 <=? i - 2) with true in A by lia. replace (i - 2 - 3) with (i - 5) in A by lia. exact (A M).
      * destruct (Z.eqb_spec i 4); [auto|]. destruct (Z.eqb_spec i 3); [reflexivity|]. specialize (A i I). rewrite !tb_top14 in A by lia. replace (3 <=? i) with false in A by lia. exact (A M).
  - destruct (f_ext f); [discriminate (X eq_refl)|]. split.
    + intro H. split; [reflexivity|]. split.
      * intros i I M. specialize (H (i + 5) ltac:(lia)). rewrite !tb_w16 in H by lia. replace (5 <=? i + 5) with true in H by lia. replace (i + 5 - 5) with i in H by lia. exact (H M).
      * intro M. specialize (H 4 ltac:(lia)). rewrite !tb_w16 in H by lia. exact (H M).
    + intros (_ & A & B) i I M. rewrite !tb_w16 in * by lia. destruct (Z.leb_spec 5 i) as [G|G]; [apply A; [lia|exact M]|].
      destruct (Z.eqb_spec i 4); [auto|]. destruct (Z.eqb_spec i 3); reflexivity.
Qed.
(* two 16-bit values in a register *)
Lemma pair16 a b : 0 <= a < 2 ^ 16 -> 0 <= b < 2 ^ 16 -> let x := Z.lor a (u32 (Z.shiftl b 16)) in x mod 2 ^ 16 = a /\ x / 2 ^ 16 = b.
Proof.
  intros A B. cbn zeta. rewrite shiftl_u32 by (change (2 ^ 16) with 65536 in *; lia). rewrite Z.lor_comm, lor_add by lia. split.
  - rewrite Z.add_comm, Z.mod_add by lia. apply Z.mod_small. exact A.
  - rewrite Z.add_comm, Z.div_add by lia. rewrite Z.div_small by exact A. lia.
Qed.
Lemma enc16_range i : 0 <= enc16 i < 2 ^ 16.
Proof. unfold enc16. destruct (i_ext i); apply Z.mod_pos_bound; lia. Qed.
Lemma short_range s : 0 <= short_id s < 2 ^ 16 /\ 0 <= short_mask s < 2 ^ 16.
Proof. unfold short_id, short_mask. destruct (s_ext s); split; apply Z.mod_pos_bound; lia. Qed.
