(* Proofs about the check sums of the pressure sensors. *)
From Verif Require Import Base BitLemmas CanProofs BxProofs CrcSpec CrcProofs PrsModel PrsSpec.

Definition G : Z := 77824.
Definition step (r : Z) : Z := if negb (Z.land r 32768 =? 0) then Z.lxor (u16 (Z.shiftl r 1)) 12288 else u16 (Z.shiftl r 1).
Lemma crcBits_S n r : crcBits5611 (S n) r = crcBits5611 n (step r).
Proof. reflexivity. Qed.
Lemma land15 r : 0 <= r < 65536 -> (Z.land r 32768 =? 0) = (r <? 32768).
Proof.
  intros R. replace 32768 with (2 ^ 15) at 1 by reflexivity.
  assert (E : Z.land r (2 ^ 15) = if Z.testbit r 15 then 2 ^ 15 else 0).
  { apply Z.bits_inj'. intros i Hi. rewrite Z.land_spec, Z.pow2_bits_eqb by lia. destruct (Z.eqb_spec 15 i) as [<- | N].
    - rewrite andb_true_r. destruct (Z.testbit r 15) eqn:T; [rewrite Z.pow2_bits_true by lia; reflexivity | rewrite Z.bits_0; reflexivity].
    - rewrite andb_false_r. destruct (Z.testbit r 15); [rewrite Z.pow2_bits_false by lia; reflexivity | rewrite Z.bits_0; reflexivity]. }
  rewrite E. rewrite Z.testbit_eqb by lia. change (2 ^ 15) with 32768.
  destruct (r <? 32768) eqn:Q.
  - rewrite (Z.div_small r) by lia. reflexivity.
  - assert (D : r / 32768 = 1) by (clear - R Q; lia). rewrite D. reflexivity.
Qed.
Lemma lxor16 a b : 0 <= a < 65536 -> 0 <= b < 65536 -> 0 <= Z.lxor a b < 65536.
Proof.
  intros A B. change 65536 with (2 ^ 16) in *. split; [apply Z.lxor_nonneg; lia |].
  destruct (Z.eq_dec (Z.lxor a b) 0) as [-> | N]; [lia |]. apply Z.log2_lt_pow2.
  - assert (0 <= Z.lxor a b) by (apply Z.lxor_nonneg; lia). lia.
  - eapply Z.le_lt_trans; [apply Z.log2_lxor; lia |]. apply Z.max_lub_lt.
    + destruct (Z.eq_dec a 0) as [-> |]; [cbn; lia |]. apply Z.log2_lt_pow2; lia.
    + destruct (Z.eq_dec b 0) as [-> |]; [cbn; lia |]. apply Z.log2_lt_pow2; lia.
Qed.
Lemma step_range r : 0 <= r < 65536 -> 0 <= step r < 65536.
Proof.
  intros R. unfold step. assert (U : 0 <= u16 (Z.shiftl r 1) < 65536) by (unfold u16; apply Z.mod_pos_bound; lia).
  destruct (negb _); [apply lxor16; [exact U | lia] | exact U].
Qed.
Lemma step_congr r : 0 <= r < 65536 -> congr G (2 * r) (step r).
Proof.
  intros R. unfold step. rewrite land15 by exact R. rewrite Z.shiftl_mul_pow2 by lia. change (2 ^ 1) with 2. unfold u16.
  destruct (r <? 32768) eqn:Q; cbn [negb].
  - rewrite Z.mod_small by lia. rewrite (Z.mul_comm r 2). apply congr_refl.
  - assert (E : (r * 2) mod 65536 = 2 * r - 65536) by (clear - R Q; lia). rewrite E.
    exists 1. split; [lia |]. rewrite clmul_1.
    assert (J : 2 * r = Z.lxor 65536 (2 * r - 65536)).
    { pose proof (lxor_small_shift 1 (2 * r - 65536) 16 ltac:(lia)) as L. change (Z.shiftl 1 16) with 65536 in L. change (1 * 2 ^ 16) with 65536 in L.
      rewrite L; [clear; lia |]. change (2 ^ 16) with 65536. clear - R Q. lia. }
    rewrite J at 1. rewrite lxor_cancel_mid. reflexivity.
Qed.
Lemma bits_range n : forall r, 0 <= r < 65536 -> 0 <= crcBits5611 n r < 65536.
Proof. induction n as [| n IH]; intros r R; [exact R |]. rewrite crcBits_S. apply IH. apply step_range. exact R. Qed.
Lemma bits_congr n : forall r, 0 <= r < 65536 -> congr G (Z.shiftl r (Z.of_nat n)) (crcBits5611 n r).
Proof.
  induction n as [| n IH]; intros r R; [rewrite Z.shiftl_0_r; apply congr_refl |]. rewrite crcBits_S.
  eapply congr_trans; [| apply IH; apply step_range; exact R].
  rewrite Nat2Z.inj_succ. rewrite Z.shiftl_mul_pow2 by lia. rewrite Z.pow_succ_r by lia.
  replace (r * (2 * 2 ^ Z.of_nat n)) with (Z.shiftl (2 * r) (Z.of_nat n)) by (rewrite Z.shiftl_mul_pow2 by lia; ring).
  apply congr_shift; [lia |]. apply step_congr. exact R.
Qed.
Definition feed (r b : Z) : Z := crcBits5611 8 (Z.lxor r b).
Lemma feed_range l : forall r, Forall byte l -> 0 <= r < 65536 -> 0 <= fold_left feed l r < 65536.
Proof.
  induction l as [| b l IH]; intros r F R; [exact R |]. inversion F as [| ? ? B F']; subst. cbn [fold_left]. apply IH; [exact F' |].
  unfold feed. apply bits_range. apply lxor16; [exact R |]. unfold byte in B. lia.
Qed.
Lemma poly_byte b : byte b -> poly_of (rev (bits_lsb 8 b)) = b.
Proof.
  intros B. apply Z.eqb_eq. refine (sweep 256 (fun b => poly_of (rev (bits_lsb 8 b)) =? b) _ b B). vm_compute. reflexivity.
Qed.
Lemma stream_msb_app a b : stream_msb (a ++ b) = stream_msb a ++ stream_msb b.
Proof. unfold stream_msb. apply flat_map_app. Qed.
Lemma feed_congr l : Forall byte l -> congr G (Z.shiftl (poly_of (stream_msb l)) 8) (fold_left feed l 0).
Proof.
  induction l as [| b l IH] using rev_ind; intros F; [apply congr_refl |].
  apply Forall_app in F. destruct F as [F B]. inversion B as [| ? ? Bb _]; subst.
  rewrite fold_left_app. cbn [fold_left]. unfold feed at 1. rewrite stream_msb_app. rewrite poly_of_app.
  assert (Sb : stream_msb [b] = rev (bits_lsb 8 b)) by (unfold stream_msb; cbn [flat_map]; apply app_nil_r).
  rewrite Sb. rewrite poly_byte by exact Bb. unfold zlen. rewrite rev_length. change (length (bits_lsb 8 b)) with 8%nat.
  eapply congr_trans; [| apply bits_congr; apply lxor16; [apply feed_range; [exact F | lia] | unfold byte in Bb; lia]].
  change (Z.of_nat 8) with 8. apply congr_shift; [lia |]. apply congr_xor; [apply IH; exact F | apply congr_refl].
Qed.
Lemma congr_top a b : congr G a b -> congr g4 (Z.shiftr a 12) (Z.shiftr b 12).
Proof.
  intros (q & Q & E). exists q. split; [exact Q |]. rewrite <- Z.shiftr_lxor. rewrite E.
  assert (K : forall g k, clmul q (Z.shiftl g (Z.of_nat k)) = Z.shiftl (clmul q g) (Z.of_nat k)).
  { intros g k. induction k as [| k IH]; [rewrite !Z.shiftl_0_r; reflexivity |]. rewrite Nat2Z.inj_succ. rewrite !shiftl_succ by lia. rewrite <- IH.
    generalize (Z.shiftl g (Z.of_nat k)). intros x. destruct q as [| p | p]; [reflexivity | | lia]. cbn [clmul]. clear.
    induction p as [p IHp | p IHp |]; cbn [pmul]; [| rewrite IHp; ring | reflexivity]. rewrite IHp. rewrite <- lxor_double0. f_equal. }
  change G with (Z.shiftl g4 (Z.of_nat 12)). rewrite K. rewrite Z.shiftr_shiftl_l by lia. apply Z.shiftl_0_r.
Qed.
Opaque crcBits5611 crcBits5837.
(* the four bits left when one more byte 0 follows *)
Lemma crc_of_bytes l : Forall byte l ->
  crc_value 4 g4 0 (stream_msb l) (Z.shiftr (fold_left feed (l ++ [0]) 0) 12).
Proof.
  intros F. assert (F0 : Forall byte (l ++ [0])) by (apply Forall_app; split; [exact F | constructor; [unfold byte; lia | constructor]]).
  pose proof (feed_range _ 0 F0 ltac:(lia)) as R. pose proof (congr_top _ _ (feed_congr _ F0)) as C.
  split.
  - rewrite Z.shiftr_div_pow2 by lia. change (2 ^ 12) with 4096. change (2 ^ 4) with 16. revert R. generalize (fold_left feed (l ++ [0]) 0). clear. intros; lia.
  - rewrite Z.shiftl_0_l, Z.lxor_0_l. rewrite stream_msb_app, poly_of_app in C.
    change (poly_of (stream_msb [0])) with 0 in C. change (zlen (stream_msb [0])) with 8 in C. rewrite Z.lxor_0_r in C.
    rewrite Z.shiftl_shiftl in C by lia. rewrite Z.shiftr_shiftl_l in C by lia. exact C.
Qed.

(** *** The two functions *)

Lemma byte_hi w : word w -> Z.shiftr w 8 = w / 256.
Proof. intros _. rewrite Z.shiftr_div_pow2 by lia. reflexivity. Qed.
Lemma byte_lo w : Z.land w 255 = w mod 256.
Proof. change 255 with (Z.ones 8). rewrite Z.land_ones by lia. reflexivity. Qed.
Lemma bytes_words ws : Forall word ws -> Forall byte (bytes_of ws).
Proof.
  unfold bytes_of. induction 1 as [| w ws W F IH]; [constructor |]. cbn [flat_map app]. unfold word in W. unfold byte.
  constructor; [clear - W; lia |]. constructor; [clear - W; lia |]. exact IH.
Qed.
Lemma two_bytes (f : Z -> Z -> Z) w rest (r : Z) : fold_left f (bytes_of (w :: rest)) r = fold_left f (bytes_of rest) (f (f r (w / 256)) (w mod 256)).
Proof. reflexivity. Qed.
Lemma pair_5611 data m k r : word (nth k data 0) ->
  crcBytes5611 data (S (S m)) (2 * Z.of_nat k) r = crcBytes5611 data m (2 * Z.of_nat (S k)) (feed (feed r (nth k data 0 / 256)) (nth k data 0 mod 256)).
Proof.
  intros W. cbn [crcBytes5611]. rewrite !Z.shiftr_div_pow2 by lia. change (2 ^ 1) with 2. change (2 ^ 8) with 256.
  assert (M0 : (2 * Z.of_nat k) mod 2 = 0) by (clear; lia). assert (M1 : (2 * Z.of_nat k + 1) mod 2 = 1) by (clear; lia).
  assert (D0 : 2 * Z.of_nat k / 2 = Z.of_nat k) by (clear; lia). assert (D1 : (2 * Z.of_nat k + 1) / 2 = Z.of_nat k) by (clear; lia).
  rewrite M0, M1, D0, D1, Nat2Z.id. change (0 =? 1) with false. change (1 =? 1) with true. cbv iota. rewrite byte_lo.
  replace (2 * Z.of_nat k + 1 + 1) with (2 * Z.of_nat (S k)) by lia. reflexivity.
Qed.
Lemma words_5611 rest : Forall word rest -> forall pre r,
  crcBytes5611 (pre ++ rest) (2 * length rest) (2 * Z.of_nat (length pre)) r = fold_left feed (bytes_of rest) r.
Proof.
  induction 1 as [| w rest W F IH]; intros pre r; [reflexivity |].
  assert (N : nth (length pre) (pre ++ w :: rest) 0 = w) by (rewrite app_nth2, Nat.sub_diag by lia; reflexivity).
  replace (2 * length (w :: rest))%nat with (S (S (2 * length rest))) by (cbn [length]; lia).
  rewrite pair_5611 by (rewrite N; exact W). rewrite N.
  replace (pre ++ w :: rest) with ((pre ++ [w]) ++ rest) by (rewrite <- app_assoc; reflexivity).
  replace (S (length pre)) with (length (pre ++ [w])) by (rewrite app_length; cbn [length]; lia). rewrite IH. symmetry. apply two_bytes.
Qed.
Lemma run_5611 w0 w1 w2 w3 w4 w5 w6 w7 : Forall word [w0; w1; w2; w3; w4; w5; w6; w7] ->
  crcBytes5611 [w0; w1; w2; w3; w4; w5; w6; w7] 16 0 0 = fold_left feed (bytes_of [w0; w1; w2; w3; w4; w5; w6; w7]) 0.
Proof. intros F. exact (words_5611 _ F [] 0). Qed.
Lemma mask_hi w : word w -> Z.land 65280 w = 256 * (w / 256).
Proof.
  intros W. unfold word in W. replace w with (256 * (w / 256) + w mod 256) at 1 by (clear; lia).
  pose proof (lor_add (w / 256) (w mod 256) 8) as _L.
  apply Z.bits_inj'. intros i Hi. rewrite Z.land_spec.
  replace (256 * (w / 256)) with (Z.shiftl (Z.shiftr w 8) 8) at 2 by (rewrite Z.shiftl_mul_pow2, Z.shiftr_div_pow2 by lia; change (2 ^ 8) with 256; ring).
  replace (256 * (w / 256) + w mod 256) with w by (clear; lia).
  change 65280 with (Z.shiftl (Z.ones 8) 8). rewrite !Z.shiftl_spec by lia.
  destruct (Z.lt_ge_cases i 8) as [L | L].
  - rewrite !(Z.testbit_neg_r _ (i - 8)) by lia. reflexivity.
  - rewrite Z.shiftr_spec by lia. replace (i - 8 + 8) with i by lia. destruct (Z.lt_ge_cases i 16) as [L2 | L2].
    + rewrite Z.ones_spec_low by lia. reflexivity.
    + rewrite Z.ones_spec_high by lia. symmetry. cbn [andb]. rewrite Z.testbit_eqb by lia. rewrite Z.div_small; [reflexivity |].
      split; [lia |]. eapply Z.lt_le_trans; [apply W |]. change 65536 with (2 ^ 16). apply Z.pow_le_mono_r; lia.
Qed.
Lemma eight {A} (l : list A) : length l = 8%nat -> exists a b c d e f g h, l = [a; b; c; d; e; f; g; h].
Proof. intros L. do 8 (destruct l as [| ? l]; [discriminate |]). destruct l; [| discriminate]. repeat eexists. Qed.
Lemma crc_5611 p : prom_ok p -> crc_value 4 g4 0 (covered5611 p) (calculateCrc5611 p).
Proof.
  intros [L F]. destruct (eight p L) as (w0 & w1 & w2 & w3 & w4 & w5 & w6 & w7 & ->).
  do 8 (match goal with H : Forall word (_ :: _) |- _ => inversion H; clear H; subst end).
  unfold calculateCrc5611, covered5611. cbn [firstn app nth].
  rewrite mask_hi by assumption.
  rewrite run_5611 by (repeat constructor; try assumption; match goal with |- _ <= _ => idtac | |- _ < _ => idtac end; unfold word in *; lia).
  set (l := firstn 15 (bytes_of [w0; w1; w2; w3; w4; w5; w6; w7])).
  assert (E : bytes_of [w0; w1; w2; w3; w4; w5; w6; 256 * (w7 / 256)] = l ++ [0]).
  { subst l. cbn [bytes_of flat_map app firstn]. rewrite (Z.mul_comm 256), Z.div_mul, Z.mod_mul by lia. reflexivity. }
  rewrite E. assert (B : Forall byte l).
  { subst l. apply (Forall_forall byte). intros x Hx. assert (Q : Forall byte (bytes_of [w0; w1; w2; w3; w4; w5; w6; w7])) by (apply bytes_words; repeat constructor; assumption || (unfold word in *; lia)).
    rewrite Forall_forall in Q. apply Q. rewrite <- (firstn_skipn 15). apply in_or_app. left. exact Hx. }
  pose proof (crc_of_bytes l B) as C. rewrite Z.lxor_0_r. rewrite Z.land_comm. change 15 with (Z.ones 4). rewrite Z.land_ones by lia. rewrite Z.mod_small by (apply (proj1 C)). exact C.
Qed.

Transparent crcBits5837.
(** *** MS5837: a wider register *)

Lemma mod16_lxor a b : Z.lxor a b mod 65536 = Z.lxor (a mod 65536) (b mod 65536).
Proof. change 65536 with (2 ^ 16). rewrite <- !Z.land_ones by lia. apply Z.bits_inj'. intros i Hi. rewrite Z.lxor_spec, !Z.land_spec, Z.lxor_spec.
  destruct (Z.testbit a i), (Z.testbit b i), (Z.testbit (Z.ones 16) i); reflexivity. Qed.
Lemma wide_bits n : forall r, 0 <= r -> crcBits5837 n r mod 65536 = crcBits5611 n (r mod 65536) /\ 0 <= crcBits5837 n r.
Proof.
  induction n as [| n IH]; intros r R; [split; [reflexivity | exact R] |].
  cbn [crcBits5837]. rewrite crcBits_S.
  assert (T : Z.land r 32768 = Z.land (r mod 65536) 32768).
  { change 65536 with (2 ^ 16). rewrite <- Z.land_ones by lia. rewrite <- Z.land_assoc. reflexivity. }
  assert (U : u32 (Z.shiftl r 1) mod 65536 = u16 (Z.shiftl (r mod 65536) 1)).
  { unfold u32, u16. rewrite !Z.shiftl_mul_pow2 by lia. change (2 ^ 1) with 2. clear. lia. }
  assert (N : 0 <= u32 (Z.shiftl r 1)) by (unfold u32; apply Z.mod_pos_bound; lia).
  rewrite T. unfold step. destruct (negb _).
  - destruct (IH (Z.lxor (u32 (Z.shiftl r 1)) 12288)) as [E P]; [apply Z.lxor_nonneg; lia |]. split; [| exact P].
    rewrite E, mod16_lxor, U. reflexivity.
  - destruct (IH (u32 (Z.shiftl r 1)) N) as [E P]. split; [| exact P]. rewrite E, U. reflexivity.
Qed.
Opaque crcBits5837.
Definition feedw (r b : Z) : Z := crcBits5837 8 (Z.lxor r b).
Lemma wide_feed l : Forall byte l -> forall r, 0 <= r -> fold_left feedw l r mod 65536 = fold_left feed l (r mod 65536) /\ 0 <= fold_left feedw l r.
Proof.
  induction 1 as [| b l B F IH]; intros r R; [split; [reflexivity | exact R] |]. cbn [fold_left]. unfold byte in B.
  destruct (wide_bits 8 (Z.lxor r b)) as [E P]; [apply Z.lxor_nonneg; lia |]. destruct (IH (feedw r b) P) as [E2 P2]. split; [| exact P2].
  rewrite E2. unfold feedw, feed. rewrite E, mod16_lxor. rewrite (Z.mod_small b) by lia. reflexivity.
Qed.
Lemma pair_5837 data m k r : word (nth k data 0) ->
  crcBytes5837 data (S (S m)) (2 * Z.of_nat k) r = crcBytes5837 data m (2 * Z.of_nat (S k)) (feedw (feedw r (nth k data 0 / 256)) (nth k data 0 mod 256)).
Proof.
  intros W. cbn [crcBytes5837]. rewrite !Z.shiftr_div_pow2 by lia. change (2 ^ 1) with 2. change (2 ^ 8) with 256.
  assert (M0 : (2 * Z.of_nat k) mod 2 = 0) by (clear; lia). assert (M1 : (2 * Z.of_nat k + 1) mod 2 = 1) by (clear; lia).
  assert (D0 : 2 * Z.of_nat k / 2 = Z.of_nat k) by (clear; lia). assert (D1 : (2 * Z.of_nat k + 1) / 2 = Z.of_nat k) by (clear; lia).
  rewrite M0, M1, D0, D1, Nat2Z.id. change (0 =? 1) with false. change (1 =? 1) with true. cbv iota. rewrite byte_lo.
  replace (2 * Z.of_nat k + 1 + 1) with (2 * Z.of_nat (S k)) by lia. reflexivity.
Qed.
Lemma words_5837 rest : Forall word rest -> forall pre r,
  crcBytes5837 (pre ++ rest) (2 * length rest) (2 * Z.of_nat (length pre)) r = fold_left feedw (bytes_of rest) r.
Proof.
  induction 1 as [| w rest W F IH]; intros pre r; [reflexivity |].
  assert (N : nth (length pre) (pre ++ w :: rest) 0 = w) by (rewrite app_nth2, Nat.sub_diag by lia; reflexivity).
  replace (2 * length (w :: rest))%nat with (S (S (2 * length rest))) by (cbn [length]; lia).
  rewrite pair_5837 by (rewrite N; exact W). rewrite N.
  replace (pre ++ w :: rest) with ((pre ++ [w]) ++ rest) by (rewrite <- app_assoc; reflexivity).
  replace (S (length pre)) with (length (pre ++ [w])) by (rewrite app_length; cbn [length]; lia). rewrite IH. symmetry. apply two_bytes.
Qed.
Lemma run_5837 w0 w1 w2 w3 w4 w5 w6 w7 : Forall word [w0; w1; w2; w3; w4; w5; w6; w7] ->
  crcBytes5837 [w0; w1; w2; w3; w4; w5; w6; w7] 16 0 0 = fold_left feedw (bytes_of [w0; w1; w2; w3; w4; w5; w6; w7]) 0.
Proof. intros F. exact (words_5837 _ F [] 0). Qed.
Lemma top4 x : Z.land (Z.shiftr x 12) 15 = Z.shiftr (x mod 65536) 12.
Proof. change 15 with (Z.ones 4). rewrite Z.land_ones by lia. rewrite !Z.shiftr_div_pow2 by lia. change (2 ^ 12) with 4096. change (2 ^ 4) with 16. clear. lia. Qed.
Lemma crc_5837 p : prom_ok p ->
  crc_value 4 g4 0 (covered5837 p) (fst (calculateCrc5837 p)) /\ snd (calculateCrc5837 p) = nth 0 p 0 mod 4096 :: firstn 6 (tl p) ++ [0].
Proof.
  intros [L F]. destruct (eight p L) as (w0 & w1 & w2 & w3 & w4 & w5 & w6 & w7 & ->).
  do 8 (match goal with H : Forall word (_ :: _) |- _ => inversion H; clear H; subst end).
  unfold calculateCrc5837, covered5837, masked5837. cbn [firstn app nth tl fst snd].
  assert (M : Z.land w0 4095 = w0 mod 4096) by (change 4095 with (Z.ones 12); rewrite Z.land_ones by lia; reflexivity). rewrite M.
  split; [| reflexivity].
  assert (W0 : word (w0 mod 4096)) by (unfold word; clear; lia).
  assert (FW : Forall word [w0 mod 4096; w1; w2; w3; w4; w5; w6; 0]) by (repeat (apply Forall_cons; [first [assumption | (unfold word; lia)] |]); apply Forall_nil).
  rewrite run_5837 by exact FW. rewrite top4.
  destruct (wide_feed _ (bytes_words _ FW) 0 ltac:(lia)) as [E _]. rewrite E. change (0 mod 65536) with 0.
  replace (bytes_of [w0 mod 4096; w1; w2; w3; w4; w5; w6; 0]) with ((bytes_of [w0 mod 4096; w1; w2; w3; w4; w5; w6] ++ [0]) ++ [0]) by reflexivity.
  apply crc_of_bytes. apply Forall_app. split; [| repeat constructor; unfold byte; lia].
  apply bytes_words. repeat (apply Forall_cons; [first [assumption | (unfold word; lia)] |]); apply Forall_nil.
Qed.

(** *** initialize *)

Lemma word5611 b0 b1 : byte b0 -> byte b1 -> promWord5611 b0 b1 = b0 * 256 + b1.
Proof.
  unfold byte. intros B0 B1. unfold promWord5611. cbv zeta. rewrite (Z.shiftl_mul_pow2 b1), (Z.shiftl_mul_pow2 (Z.land _ 255)) by lia.
  rewrite (lor_add b1 b0 8) by (change (2 ^ 8) with 256; lia). change (2 ^ 8) with 256.
  assert (E : u16 (b1 * 256 + b0) = b1 * 256 + b0) by (unfold u16; apply Z.mod_small; lia). rewrite E. rewrite byte_lo. rewrite Z.shiftr_div_pow2 by lia. change (2 ^ 8) with 256.
  assert (M : (b1 * 256 + b0) mod 256 = b0) by (clear - B0 B1; lia). assert (D : (b1 * 256 + b0) / 256 = b1) by (clear - B0 B1; lia). rewrite M, D.
  replace (b0 * 256) with (b0 * 2 ^ 8) by reflexivity. rewrite (lor_add b0 b1 8) by (change (2 ^ 8) with 256; lia). change (2 ^ 8) with 256. unfold u16. apply Z.mod_small. lia.
Qed.
Lemma word5837 b0 b1 : byte b0 -> byte b1 -> readProm5837 (Some (b0, b1)) = b0 * 256 + b1.
Proof.
  unfold byte. intros B0 B1. unfold readProm5837. rewrite Z.shiftl_mul_pow2 by lia. rewrite lor_add by (change (2 ^ 8) with 256; lia). change (2 ^ 8) with 256.
  unfold u16. apply Z.mod_small. lia.
Qed.
Fixpoint pairs (l : list Z) : list (Z * Z) := match l with a :: b :: t => (a, b) :: pairs t | _ => [] end.
Lemma words_even n : forall l, length l = (2 * n)%nat -> Forall byte l ->
  promWords5611 l = map (fun x => fst x * 256 + snd x) (pairs l) /\ bytes_of (promWords5611 l) = l /\ Forall word (promWords5611 l) /\ length (promWords5611 l) = n.
Proof.
  induction n as [| n IH]; intros l L F.
  - destruct l; [| discriminate]. split; [reflexivity |]. split; [reflexivity |]. split; [constructor | reflexivity].
  - destruct l as [| a l]; [discriminate |]. destruct l as [| b l]; [cbn in L; lia |].
    inversion F as [| ? ? A F1]; subst. inversion F1 as [| ? ? B F2]; subst.
    destruct (IH l ltac:(cbn in L; lia) F2) as (E1 & E2 & E3 & E4). cbn [promWords5611 pairs map fst snd]. rewrite word5611 by assumption. rewrite <- E1.
    split; [reflexivity |]. unfold byte in A, B. split.
    + change (bytes_of (a * 256 + b :: promWords5611 l)) with ((a * 256 + b) / 256 :: (a * 256 + b) mod 256 :: bytes_of (promWords5611 l)).
      assert (D : (a * 256 + b) / 256 = a) by (clear - A B; lia). assert (M : (a * 256 + b) mod 256 = b) by (clear - A B; lia). rewrite D, M, E2. reflexivity.
    + split; [constructor; [unfold word; lia | exact E3] | cbn [length]; rewrite E4; reflexivity].
Qed.
Lemma g4_range : 2 ^ 4 <= g4 < 2 ^ (4 + 1).
Proof. unfold g4. lia. Qed.
Lemma init_5611 bytes : length bytes = 16%nat -> Forall byte bytes ->
  prom_ok (fst (initialize5611 bytes)) /\ bytes_of (fst (initialize5611 bytes)) = bytes
  /\ (snd (initialize5611 bytes) = true <-> crc_value 4 g4 0 (stream_msb (firstn 15 bytes)) (nth 15 bytes 0 mod 16)).
Proof.
  intros L F. destruct (words_even 8 bytes L F) as (_ & E & W & L8). unfold initialize5611. cbn [fst snd].
  assert (OK : prom_ok (promWords5611 bytes)) by (split; assumption). split; [exact OK |]. split; [exact E |].
  pose proof (crc_5611 _ OK) as C. unfold covered5611 in C. rewrite E in C.
  assert (N : Z.land (nth 7 (promWords5611 bytes) 0) 15 = nth 15 bytes 0 mod 16).
  { change 15 with (Z.ones 4) at 1. rewrite Z.land_ones by lia. change (2 ^ 4) with 16. clear C OK. revert E W L8. generalize (promWords5611 bytes). intros p E W L8.
    destruct (eight p L8) as (w0 & w1 & w2 & w3 & w4 & w5 & w6 & w7 & ->). rewrite <- E. unfold bytes_of. cbn [flat_map app nth]. clear. lia. }
  rewrite N. split; intros H.
  - apply Z.eqb_eq in H. rewrite <- H. exact C.
  - apply Z.eqb_eq. exact (crc_value_unique 4 g4 0 _ _ _ ltac:(lia) g4_range C H).
Qed.
Lemma six (l m : list Z) : length l = 6%nat -> firstn 6 (l ++ m) = l.
Proof. intros L. rewrite <- L. rewrite firstn_app, Nat.sub_diag, firstn_O, app_nil_r. apply firstn_all. Qed.
Lemma init_5837 bytes old : length bytes = 14%nat -> Forall byte bytes -> prom_ok old ->
  let r := initialize5837 true (map Some (pairs bytes)) old in
  firstn 6 (tl (fst r)) = map (fun x => fst x * 256 + snd x) (tl (pairs bytes))
  /\ (snd r = true <-> crc_value 4 g4 0 (stream_msb (nth 0 bytes 0 mod 16 :: tl bytes ++ [0])) (nth 0 bytes 0 / 16)).
Proof.
  intros L F [LO FO] r. subst r. destruct (words_even 7 bytes L F) as (EW & E & W & L7).
  assert (ER : map readProm5837 (map Some (pairs bytes)) = promWords5611 bytes).
  { rewrite EW. clear E W L7 EW. assert (FP : Forall (fun x => byte (fst x) /\ byte (snd x)) (pairs bytes)).
    { clear LO L. revert F. assert (G0 : forall n l, (length l <= n)%nat -> Forall byte l -> Forall (fun x => byte (fst x) /\ byte (snd x)) (pairs l)).
      { induction n as [| n IH]; intros l Hl Fl; [destruct l; [constructor | cbn in Hl; lia] |]. destruct l as [| a l]; [constructor |]. destruct l as [| b l]; [constructor |].
        inversion Fl as [| ? ? A F1]; subst. inversion F1 as [| ? ? B F2]; subst. cbn [pairs]. constructor; [split; assumption |]. apply IH; [cbn in Hl; lia | exact F2]. }
      intros F. exact (G0 (length bytes) bytes (le_n _) F). }
    induction FP as [| [a b] l [A B] FP IH]; [reflexivity |]. cbn [map]. rewrite word5837 by assumption. rewrite IH. reflexivity. }
  unfold initialize5837. cbn [negb]. rewrite ER.
  assert (WO : word (nth 7 old 0)) by (rewrite Forall_forall in FO; apply FO; apply nth_In; lia).
  assert (OK : prom_ok (promWords5611 bytes ++ [nth 7 old 0])).
  { split; [rewrite app_length, L7; reflexivity |]. apply Forall_app. split; [exact W | constructor; [exact WO | constructor]]. }
  destruct (crc_5837 _ OK) as [C S]. destruct (calculateCrc5837 (promWords5611 bytes ++ [nth 7 old 0])) as [crc data'] eqn:EC. cbn [fst snd] in *. subst data'. clear EC OK ER WO FO LO.
  destruct bytes as [| b0 bytes]; [discriminate |]. destruct bytes as [| b1 bytes]; [discriminate |]. cbn [pairs map tl promWords5611 app nth fst snd] in *.
  inversion F as [| ? ? B0 F1]; subst. inversion F1 as [| ? ? B1 F2]; subst. rewrite (word5611 b0 b1) in C, EW, L7 |- * by assumption.
  apply (f_equal (@tl Z)) in EW. cbn [tl] in EW. clear F F1 E W. split.
  - assert (L6 : length (promWords5611 bytes) = 6%nat) by (cbn [length] in L7; lia). rewrite (six (promWords5611 bytes) [nth 7 old 0] L6). rewrite (six (promWords5611 bytes) [0] L6). exact EW.
  - assert (CV : covered5837 ((b0 * 256 + b1 :: promWords5611 bytes) ++ [nth 7 old 0]) = stream_msb (b0 mod 16 :: b1 :: bytes ++ [0])).
    { unfold covered5837. cbn [app nth tl]. assert (L6 : length (promWords5611 bytes) = 6%nat) by (cbn [length] in L7; lia).
      rewrite six by exact L6.
      change (bytes_of ((b0 * 256 + b1) mod 4096 :: promWords5611 bytes)) with ((b0 * 256 + b1) mod 4096 / 256 :: (b0 * 256 + b1) mod 4096 mod 256 :: bytes_of (promWords5611 bytes)).
      destruct (words_even 6 bytes ltac:(cbn [length] in L; lia) F2) as (_ & E6 & _). rewrite E6. unfold byte in B0, B1.
      assert (D : (b0 * 256 + b1) mod 4096 / 256 = b0 mod 16) by (clear - B0 B1; lia). assert (M : (b0 * 256 + b1) mod 4096 mod 256 = b1) by (clear - B0 B1; lia).
      rewrite D, M. reflexivity. }
    cbn [app] in CV. rewrite CV in C.
    assert (N : Z.land (Z.shiftr (b0 * 256 + b1) 12) 15 = b0 / 16).
    { change 15 with (Z.ones 4). rewrite Z.land_ones by lia. rewrite Z.shiftr_div_pow2 by lia. change (2 ^ 12) with 4096. change (2 ^ 4) with 16. unfold byte in B0, B1. clear - B0 B1. lia. }
    rewrite N. split; intros H.
    + apply Z.eqb_eq in H. rewrite H. exact C.
    + apply Z.eqb_eq. exact (crc_value_unique 4 g4 0 _ _ _ ltac:(lia) g4_range H C).
Qed.
Lemma burst4 pre d1 d2 post r : zlen d1 = zlen d2 -> zlen d1 <= 4 -> crc_value 4 g4 0 (pre ++ d1 ++ post) r -> crc_value 4 g4 0 (pre ++ d2 ++ post) r -> d1 = d2.
Proof. intros L L4 A B. exact (burst 4 g4 0 pre d1 d2 post r ltac:(lia) g4_range eq_refl L L4 A B). Qed.
