(* Proofs about the frames of the AD7280A. *)
From Verif Require Import Base BitLemmas BxProofs CanProofs CrcSpec CrcProofs BitsModel AdcModel AdcSpec.

Lemma step_sweep : forall x, 0 <= x < 256 -> ((0 <=? crcStep x) && (crcStep x <? 256) && (Z.lxor (2 * x) (crcStep x) =? (if x <? 128 then 0 else 303))) = true.
Proof. apply (sweep 256). vm_compute. reflexivity. Qed.
Lemma step_ok x : 0 <= x < 256 -> 0 <= crcStep x < 256 /\ congr g8 (2 * x) (crcStep x).
Proof.
  intros R. pose proof (step_sweep x R) as H. apply andb_prop in H. destruct H as [H E]. apply andb_prop in H. destruct H as [A B].
  apply Z.leb_le in A. apply Z.ltb_lt in B. apply Z.eqb_eq in E. split; [lia |]. destruct (x <? 128).
  - exists 0. split; [lia |]. rewrite E. reflexivity.
  - exists 1. split; [lia |]. rewrite E. reflexivity.
Qed.
Lemma iter_ok n : forall x, 0 <= x < 256 -> 0 <= Nat.iter n crcStep x < 256 /\ congr g8 (Z.shiftl x (Z.of_nat n)) (Nat.iter n crcStep x).
Proof.
  induction n as [| n IH]; intros x R.
  - split; [exact R |]. cbn [Nat.iter]. rewrite Z.shiftl_0_r. apply congr_refl.
  - cbn [Nat.iter Nat.iter nat_rect]. destruct (IH x R) as [A B]. change (Nat.iter (S n) crcStep x) with (crcStep (Nat.iter n crcStep x)).
    destruct (step_ok _ A) as [C D]. split; [exact C |]. rewrite Nat2Z.inj_succ. rewrite shiftl_succ by lia.
    apply (congr_trans g8 _ (2 * Nat.iter n crcStep x)); [apply congr_double; exact B | exact D].
Qed.
Lemma update_ok x : 0 <= x < 256 -> 0 <= updateCrc x < 256 /\ congr g8 (Z.shiftl x 8) (updateCrc x).
Proof. exact (iter_ok 8 x). Qed.
Lemma lxor_byte a b : 0 <= a < 256 -> 0 <= b < 256 -> 0 <= Z.lxor a b < 256.
Proof.
  intros A B. split; [apply Z.lxor_nonneg; lia |]. destruct (Z.eq_dec (Z.lxor a b) 0) as [E | N]; [lia |].
  apply (Z.log2_lt_pow2 _ 8); [assert (0 <= Z.lxor a b) by (apply Z.lxor_nonneg; lia); lia |].
  pose proof (Z.log2_lxor a b ltac:(lia) ltac:(lia)). assert (G : forall z, 0 <= z < 256 -> Z.log2 z < 8).
  { intros z Hz. destruct (Z.eq_dec z 0) as [-> | Nz]; [cbn; lia |]. apply Z.log2_lt_pow2; [lia |]. change (2 ^ 8) with 256. lia. }
  pose proof (G a A). pose proof (G b B). lia.
Qed.
Lemma land255 x : Z.land x 255 = x mod 256.
Proof. change 255 with (Z.ones 8). rewrite Z.land_ones by lia. reflexivity. Qed.
Lemma shrd x k : 0 <= k -> Z.shiftr x k = x / 2 ^ k.
Proof. intros K. apply Z.shiftr_div_pow2. exact K. Qed.
Lemma calc_ok d : 0 <= d < 16777216 -> rem8 d (calculateCrc d).
Proof.
  intros R. unfold calculateCrc. cbv zeta. rewrite !land255. rewrite !shrd by lia. change (2 ^ 16) with 65536. change (2 ^ 8) with 256.
  set (x2 := d / 65536 mod 256). set (x1 := d / 256 mod 256). set (x0 := d mod 256).
  assert (R2 : 0 <= x2 < 256) by (subst x2; clear; lia). assert (R1 : 0 <= x1 < 256) by (subst x1; clear; lia). assert (R0 : 0 <= x0 < 256) by (subst x0; clear; lia).
  assert (E : d = (x2 * 256 + x1) * 256 + x0) by (subst x2 x1 x0; clear - R; lia). clearbody x2 x1 x0. subst d. clear R.
  destruct (update_ok x2 R2) as [A2 C2]. set (c2 := updateCrc x2) in *. clearbody c2. pose proof (lxor_byte c2 x1 A2 R1) as B1.
  unfold u8. rewrite (Z.mod_small (Z.lxor c2 x1)) by exact B1. destruct (update_ok _ B1) as [A1 C1]. set (c1 := updateCrc (Z.lxor c2 x1)) in *. clearbody c1.
  pose proof (lxor_byte c1 x0 A1 R0) as B0. rewrite (Z.mod_small (Z.lxor c1 x0)) by exact B0. split; [exact B0 |].
  assert (X : (x2 * 256 + x1) * 256 + x0 = Z.lxor (Z.shiftl (Z.lxor (Z.shiftl x2 8) x1) 8) x0).
  { rewrite (lxor_small_shift x2 x1 8) by (try change (2 ^ 8) with 256; lia). rewrite lxor_small_shift by (try change (2 ^ 8) with 256; lia). reflexivity. }
  rewrite X. apply congr_xor; [| apply congr_refl]. apply (congr_trans g8 _ (Z.shiftl (Z.lxor c2 x1) 8)); [| exact C1].
  apply congr_shift; [lia |]. apply congr_xor; [exact C2 | apply congr_refl].
Qed.
Lemma rem8_unique d r r' : rem8 d r -> rem8 d r' -> r = r'.
Proof.
  intros [A B] [A' B']. apply (congr_small g8 8); [lia | unfold g8; cbn; lia | exact A | exact A' |].
  apply (congr_trans g8 _ d); [apply congr_sym; exact B | exact B'].
Qed.
Lemma calc_iff d r : 0 <= d < 16777216 -> 0 <= r < 256 -> (calculateCrc d = r <-> congr g8 d r).
Proof.
  intros D R. pose proof (calc_ok d D) as C. split.
  - intros <-. exact (proj2 C).
  - intros H. apply (rem8_unique d); [exact C | split; assumption].
Qed.

Lemma word4 b0 b1 b2 b3 : byte b0 -> byte b1 -> byte b2 -> byte b3 ->
  Z.lor (Z.lor (Z.lor (Z.shiftl b0 24) (Z.shiftl b1 16)) (Z.shiftl b2 8)) b3 = b0 * 16777216 + b1 * 65536 + b2 * 256 + b3.
Proof.
  unfold byte. intros H0 H1 H2 H3. rewrite !Z.shiftl_mul_pow2 by lia. rewrite (lor_add b0 (b1 * 2 ^ 16) 24) by (change (2 ^ 16) with 65536; change (2 ^ 24) with 16777216; lia).
  replace (b0 * 2 ^ 24 + b1 * 2 ^ 16) with ((b0 * 256 + b1) * 2 ^ 16) by (change (2 ^ 24) with (256 * 2 ^ 16); ring).
  rewrite (lor_add (b0 * 256 + b1) (b2 * 2 ^ 8) 16) by (change (2 ^ 8) with 256; change (2 ^ 16) with 65536; lia).
  replace ((b0 * 256 + b1) * 2 ^ 16 + b2 * 2 ^ 8) with ((b0 * 65536 + b1 * 256 + b2) * 2 ^ 8) by (change (2 ^ 16) with (256 * 2 ^ 8); change 65536 with (256 * 256); ring).
  rewrite lor_add by (change (2 ^ 8) with 256; lia). change (2 ^ 8) with 256. ring.
Qed.
Lemma read_ok w : 0 <= w < 4294967296 ->
  read (w / 16777216) (w / 65536 mod 256) (w / 256 mod 256) (w mod 256) = (w, calculateCrc (w / 1024) =? w / 4 mod 256)
  /\ (snd (read (w / 16777216) (w / 65536 mod 256) (w / 256 mod 256) (w mod 256)) = true <-> congr g8 (w / 1024) (w / 4 mod 256)).
Proof.
  intros R. assert (E : read (w / 16777216) (w / 65536 mod 256) (w / 256 mod 256) (w mod 256) = (w, calculateCrc (w / 1024) =? w / 4 mod 256)).
  { unfold read. rewrite word4 by (unfold byte; clear - R; lia).
    assert (X : w / 16777216 * 16777216 + w / 65536 mod 256 * 65536 + w / 256 mod 256 * 256 + w mod 256 = w) by (clear - R; lia). rewrite X. cbv zeta.
    rewrite land255. rewrite !shrd by lia. reflexivity. }
  split; [exact E |]. rewrite E. cbn [snd]. rewrite Z.eqb_eq. apply calc_iff; clear - R; lia.
Qed.

(** *** Bursts *)
Definition lowsweep (s : Z) : bool := forallb (fun m => negb (m / 2 ^ (8 - s) =? m * 2 ^ s mod 256) || (m =? 0)) (map Z.of_nat (seq 0 256)).
Lemma low_ok s m : 0 <= s < 8 -> 0 <= m < 256 -> m / 2 ^ (8 - s) = m * 2 ^ s mod 256 -> m = 0.
Proof.
  intros S0 M E. assert (H : lowsweep s = true) by (revert s S0 E; intros s S0 _; revert s S0; apply (sweep 8); vm_compute; reflexivity).
  unfold lowsweep in H. pose proof (sweep 256 _ H m M) as K. cbv beta in K. apply Bool.orb_true_iff in K. destruct K as [K | K]; [| apply Z.eqb_eq; exact K].
  rewrite E, Z.eqb_refl in K. discriminate.
Qed.
Lemma burst8 v v' s m : 0 <= s -> 0 < m < 256 -> Z.lxor v v' = Z.shiftl m s ->
  congr g8 (Z.shiftr v 8) (Z.land v 255) -> congr g8 (Z.shiftr v' 8) (Z.land v' 255) -> False.
Proof.
  intros S0 M E A B. pose proof (congr_xor g8 _ _ _ _ A B) as C. rewrite <- Z.shiftr_lxor in C.
  assert (L : Z.lxor (Z.land v 255) (Z.land v' 255) = Z.land (Z.lxor v v') 255).
  { apply Z.bits_inj'. intros i Hi. rewrite Z.lxor_spec, !Z.land_spec, Z.lxor_spec. destruct (Z.testbit v i), (Z.testbit v' i), (Z.testbit 255 i); reflexivity. }
  rewrite L, E in C. clear A B L E v v'. rewrite land255 in C. destruct (Z_lt_le_dec s 8) as [H | H].
  - rewrite Z.shiftr_shiftl_r in C by lia. rewrite Z.shiftr_div_pow2 in C by lia. rewrite Z.shiftl_mul_pow2 in C by lia.
    assert (X : m / 2 ^ (8 - s) = m * 2 ^ s mod 256).
    { apply (congr_small g8 8); [lia | unfold g8; cbn; lia | | | exact C].
      - assert (P : 1 <= 2 ^ (8 - s)) by (apply (Z.pow_le_mono_r 2 0); lia). change (2 ^ 8) with 256. clear - M P. generalize dependent (2 ^ (8 - s)). intros k P.
        split; [apply Z.div_pos; lia |]. apply Z.div_lt_upper_bound; nia.
      - change (2 ^ 8) with 256. apply Z.mod_pos_bound. lia. }
    pose proof (low_ok s m ltac:(lia) ltac:(lia) X). lia.
  - rewrite Z.shiftr_shiftl_l in C by lia. assert (Z0 : Z.shiftl m s mod 256 = 0).
    { rewrite Z.shiftl_mul_pow2 by lia. replace s with (s - 8 + 8) by ring. rewrite Z.pow_add_r by lia. change (2 ^ 8) with 256. rewrite Z.mul_assoc. apply Z.mod_mul. lia. }
    rewrite Z0 in C. assert (D : congr g8 m 0).
    { apply (congr_odd_shift g8 m 0 (s - 8)); [unfold g8; lia | reflexivity | lia |]. rewrite Z.shiftl_0_l. exact C. }
    pose proof (congr_small g8 8 m 0 ltac:(lia) ltac:(unfold g8; cbn; lia) ltac:(cbn; lia) ltac:(cbn; lia) D). lia.
Qed.

(** *** Fields *)
Lemma dev_sweep : forall d, 0 <= d < 32 -> ((0 <=? dev d) && (dev d <? 32) && (bitReverse8 d =? dev d * 8)
  && forallb (fun k => Z.land (bitReverse8 (dev d * 8 + k)) 31 =? d) (map Z.of_nat (seq 0 8))) = true.
Proof. apply (sweep 32). vm_compute. reflexivity. Qed.
Lemma dev_ok d : 0 <= d < 32 -> 0 <= dev d < 32 /\ bitReverse8 d = dev d * 8 /\ forall k, 0 <= k < 8 -> Z.land (bitReverse8 (dev d * 8 + k)) 31 = d.
Proof.
  intros R. pose proof (dev_sweep d R) as H. apply andb_prop in H. destruct H as [H K]. apply andb_prop in H. destruct H as [H E].
  apply andb_prop in H. destruct H as [A B]. apply Z.leb_le in A. apply Z.ltb_lt in B. apply Z.eqb_eq in E. split; [lia |]. split; [exact E |].
  intros k Hk. apply Z.eqb_eq. exact (sweep 8 _ K k Hk).
Qed.
Lemma pows : 2 ^ 27 = 134217728 /\ 2 ^ 21 = 2097152 /\ 2 ^ 13 = 8192 /\ 2 ^ 12 = 4096 /\ 2 ^ 10 = 1024 /\ 2 ^ 23 = 8388608 /\ 2 ^ 11 = 2048.
Proof. repeat split. Qed.
Lemma b2z_r b : 0 <= Z.b2z b <= 1.
Proof. destruct b; cbn; lia. Qed.
Definition head (d reg value : Z) (all : bool) : Z := ((dev d * 64 + reg) * 256 + value) * 2 + Z.b2z all.
Lemma head_ok d reg all value : 0 <= d < 32 -> 0 <= reg < 64 -> 0 <= value < 256 ->
  writeHead d reg all value = head d reg value all * 4096 /\ 0 <= head d reg value all < 1048576.
Proof.
  intros D G V. destruct (dev_ok d D) as (RD & ED & _). pose proof (b2z_r all) as RA. unfold writeHead, head. rewrite ED.
  set (r := dev d) in *. set (a := Z.b2z all) in *. clearbody r a. split; [| clear - RD G V RA; lia].
  rewrite !Z.shiftl_mul_pow2 by lia. unfold u32. rewrite !Z.mod_small by (clear - RD G V; lia).
  replace (r * 8 * 2 ^ 24) with (r * 2 ^ 27) by (change (2 ^ 27) with (8 * 2 ^ 24); ring).
  rewrite (lor_add r (reg * 2 ^ 21) 27) by (clear - G; lia). replace (r * 2 ^ 27 + reg * 2 ^ 21) with ((r * 64 + reg) * 2 ^ 21) by (change (2 ^ 27) with (64 * 2 ^ 21); ring).
  rewrite (lor_add _ (value * 2 ^ 13) 21) by (clear - V; lia).
  replace ((r * 64 + reg) * 2 ^ 21 + value * 2 ^ 13) with (((r * 64 + reg) * 256 + value) * 2 ^ 13) by (change (2 ^ 21) with (256 * 2 ^ 13); ring).
  rewrite (lor_add _ (a * 2 ^ 12) 13) by (clear - RA; lia). change (2 ^ 13) with (2 * 4096). change (2 ^ 12) with 4096. ring.
Qed.
Lemma command_head d reg value all crc : command d reg value all crc = head d reg value all * 4096 + crc * 8 + 2.
Proof. unfold command, head. destruct pows as (-> & -> & -> & -> & _). ring. Qed.
Lemma crc_word x c : 0 <= x < 1048576 -> c = calculateCrc (Z.shiftr (x * 4096) 11) -> 0 <= c < 256 -> writeCrc (x * 4096) = x * 4096 + c * 8 + 2.
Proof.
  intros RX E RC. unfold writeCrc. rewrite <- E. clear E.
  rewrite Z.shiftl_mul_pow2 by lia. rewrite (lor_add c 2 3) by lia. change (2 ^ 3) with 8. change 4096 with (2 ^ 12). rewrite lor_add by (clear - RC; lia). ring.
Qed.
Lemma bytes_word w : 0 <= w < 4294967296 -> writeBytes w = bytes4 w.
Proof.
  intros RW. unfold writeBytes, bytes4. rewrite !land255. rewrite !shrd by lia. change (2 ^ 24) with 16777216. change (2 ^ 16) with 65536. change (2 ^ 8) with 256.
  rewrite (Z.mod_small (w / 16777216)) by (clear - RW; lia). reflexivity.
Qed.
Lemma write_ok d reg all value : 0 <= d < 32 -> 0 <= reg < 64 -> 0 <= value < 256 ->
  exists crc, rem8 (command d reg value all 0 / 2048) crc /\ write d reg all value = bytes4 (command d reg value all crc) /\ 0 <= command d reg value all crc < 4294967296.
Proof.
  intros D G V. destruct (head_ok d reg all value D G V) as [EH RX]. unfold write. rewrite EH. clear EH. rewrite command_head.
  set (x := head d reg value all) in *.
  assert (Q : Z.shiftr (x * 4096) 11 = (x * 4096 + 0 * 8 + 2) / 2048) by (rewrite shrd by lia; change (2 ^ 11) with 2048; clearbody x; clear; lia).
  assert (RQ : 0 <= (x * 4096 + 0 * 8 + 2) / 2048 < 16777216) by (clearbody x; clear - RX; lia).
  pose proof (calc_ok _ RQ) as C. rewrite <- Q in *. remember (calculateCrc (Z.shiftr (x * 4096) 11)) as crc eqn:EC. exists crc. split; [exact C |].
  destruct C as [RC _]. rewrite command_head. fold x. rewrite (crc_word x crc RX EC RC). clear EC Q RQ. clearbody x.
  assert (RW : 0 <= x * 4096 + crc * 8 + 2 < 4294967296) by (clear - RX RC; lia). split; [apply bytes_word; exact RW | exact RW].
Qed.
Lemma bit10 w : negb (Z.land w 1024 =? 0) = Z.odd (w / 1024).
Proof.
  rewrite <- Z.bit0_odd. change 1024 with (2 ^ 10) at 2. rewrite <- Z.shiftr_div_pow2 by lia. rewrite Z.shiftr_spec by lia. change (0 + 10) with 10.
  destruct (Z.eqb_spec (Z.land w 1024) 0) as [E | E]; destruct (Z.testbit w 10) eqn:T; try reflexivity.
  - exfalso. assert (X : Z.testbit (Z.land w 1024) 10 = false) by (rewrite E; reflexivity). rewrite Z.land_spec, T in X. discriminate.
  - exfalso. apply E. apply Z.bits_inj'. intros i Hi. rewrite Z.land_spec, Z.bits_0. change 1024 with (2 ^ 10). rewrite Z.pow2_bits_eqb by lia.
    destruct (Z.eqb_spec 10 i) as [<- |]; [rewrite T; reflexivity | apply Bool.andb_false_r].
Qed.
Lemma land_low x k n : 0 <= k -> n = 2 ^ k - 1 -> Z.land x n = x mod 2 ^ k.
Proof. intros K ->. replace (2 ^ k - 1) with (Z.ones k) by (rewrite Z.ones_equiv; lia). apply Z.land_ones. exact K. Qed.
Lemma wr_ok d reg value a crc w : 0 <= d < 32 -> 0 <= reg < 64 -> 0 <= value < 256 -> 0 <= a <= 1 -> 0 <= crc < 256 ->
  w = dev d * 134217728 + reg * 2097152 + value * 8192 + a * 1024 + crc * 4 ->
  0 <= w < 4294967296 /\ w / 4 mod 256 = crc /\ Z.land (bitReverse8 (u8 (Z.shiftr w 24))) 31 = d /\ Z.land (Z.shiftr w 21) 63 = reg /\ Z.land (Z.shiftr w 13) 255 = value
  /\ w / 1024 = 2 * (dev d * 65536 + reg * 1024 + value * 4) + a.
Proof.
  intros D G V RA RC EW. destruct (dev_ok d D) as (RD & _ & K). rewrite (land_low _ 6 63), (land_low _ 8 255) by (try reflexivity; lia). rewrite !shrd by lia.
  change (2 ^ 24) with 16777216. destruct pows as (_ & -> & -> & _). change (2 ^ 6) with 64. change (2 ^ 8) with 256. unfold u8.
  assert (F1 : w / 16777216 mod 256 = dev d * 8 + reg / 8) by (clear K; generalize dependent (dev d); intros r RD EW; lia). rewrite F1. rewrite K by (clear - G; lia). clear K F1.
  generalize dependent (dev d). intros r RD EW. split; [lia |]. split; [lia |]. split; [reflexivity |]. split; [lia |]. split; lia.
Qed.
Lemma wc_ok d ch value a crc w : 0 <= d < 32 -> 0 <= ch < 16 -> 0 <= value < 4096 -> 0 <= a <= 1 -> 0 <= crc < 256 ->
  w = dev d * 134217728 + ch * 8388608 + value * 2048 + a * 1024 + crc * 4 ->
  0 <= w < 4294967296 /\ w / 4 mod 256 = crc /\ Z.land (bitReverse8 (u8 (Z.shiftr w 24))) 31 = d /\ Z.land (Z.shiftr w 23) 15 = ch /\ Z.land (Z.shiftr w 11) 4095 = value
  /\ w / 1024 = 2 * (dev d * 65536 + ch * 4096 + value) + a.
Proof.
  intros D G V RA RC EW. destruct (dev_ok d D) as (RD & _ & K). rewrite (land_low _ 4 15), (land_low _ 12 4095) by (try reflexivity; lia). rewrite !shrd by lia.
  change (2 ^ 24) with 16777216. destruct pows as (_ & _ & _ & -> & _ & -> & ->). change (2 ^ 4) with 16. unfold u8.
  assert (F1 : w / 16777216 mod 256 = dev d * 8 + ch / 2) by (clear K; generalize dependent (dev d); intros r RD EW; lia). rewrite F1. rewrite K by (clear - G; lia). clear K F1.
  generalize dependent (dev d). intros r RD EW. split; [lia |]. split; [lia |]. split; [reflexivity |]. split; [lia |]. split; lia.
Qed.
Lemma odd_b2z x b : Z.odd (2 * x + Z.b2z b) = b.
Proof. rewrite Z.add_comm, Z.odd_add_mul_2. destruct b; reflexivity. Qed.
Lemma read_true w crc : 0 <= w < 4294967296 -> w / 4 mod 256 = crc -> congr g8 (w / 1024) crc ->
  read (w / 16777216) (w / 65536 mod 256) (w / 256 mod 256) (w mod 256) = (w, true).
Proof.
  intros RW E C. rewrite <- E in C. destruct (read_ok w RW) as [ER IR]. apply IR in C. destruct (read (w / 16777216) (w / 65536 mod 256) (w / 256 mod 256) (w mod 256)) as [v ok].
  cbn [snd] in C. rewrite C in *. assert (v = w) by congruence. congruence.
Qed.
Lemma readRegister_ok d reg value ack crc w : 0 <= d < 32 -> 0 <= reg < 64 -> 0 <= value < 256 -> rem8 (replyReg d reg value ack 0 / 1024) crc ->
  w = replyReg d reg value ack crc -> readRegister (w / 16777216) (w / 65536 mod 256) (w / 256 mod 256) (w mod 256) = Some (d, reg, value, ack).
Proof.
  intros D G V [RC C] EW. unfold replyReg in *. destruct pows as (P27 & P21 & P13 & _ & P10 & _). rewrite P27, P21, P13, P10 in *. clear P27 P21 P13 P10.
  destruct (wr_ok d reg value (Z.b2z ack) crc w D G V (b2z_r ack) RC EW) as (RW & EC & F1 & F2 & F3 & F4).
  destruct (wr_ok d reg value (Z.b2z ack) 0 _ D G V (b2z_r ack) ltac:(lia) eq_refl) as (_ & _ & _ & _ & _ & F0). rewrite F0, <- F4 in C. clear F0 EW.
  unfold readRegister. rewrite (read_true w crc RW EC C). unfold registerFields. rewrite F1, F2, F3, bit10, F4, odd_b2z. reflexivity.
Qed.
Lemma readConv_ok d ch value ack crc w : 0 <= d < 32 -> 0 <= ch < 16 -> 0 <= value < 4096 -> rem8 (replyConv d ch value ack 0 / 1024) crc ->
  w = replyConv d ch value ack crc -> readConversionResult (w / 16777216) (w / 65536 mod 256) (w / 256 mod 256) (w mod 256) = Some (d, ch, value, ack).
Proof.
  intros D G V [RC C] EW. unfold replyConv in *. destruct pows as (P27 & _ & _ & _ & P10 & P23 & P11). rewrite P27, P23, P11, P10 in *. clear P27 P23 P11 P10.
  destruct (wc_ok d ch value (Z.b2z ack) crc w D G V (b2z_r ack) RC EW) as (RW & EC & F1 & F2 & F3 & F4).
  destruct (wc_ok d ch value (Z.b2z ack) 0 _ D G V (b2z_r ack) ltac:(lia) eq_refl) as (_ & _ & _ & _ & _ & F0). rewrite F0, <- F4 in C. clear F0 EW.
  unfold readConversionResult. rewrite (read_true w crc RW EC C). unfold conversionFields. rewrite F1, F2, F3, bit10, F4, odd_b2z. reflexivity.
Qed.
