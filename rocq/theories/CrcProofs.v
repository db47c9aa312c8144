(* Proofs about the CRC routines. *)
From Verif Require Import Base BitLemmas CrcModel CrcSpec.

(* ---------- carry-less multiplication ---------- *)

Lemma clmul_0 g : clmul 0 g = 0. Proof. reflexivity. Qed.
Lemma clmul_1 g : clmul 1 g = g. Proof. reflexivity. Qed.
Lemma clmul_double a g : clmul (2 * a) g = 2 * clmul a g.
Proof. destruct a; reflexivity. Qed.
Lemma clmul_double1 a g : 0 <= a -> clmul (2 * a + 1) g = Z.lxor g (2 * clmul a g).
Proof. intro H. destruct a; cbn; try lia. rewrite Z.lxor_0_r. reflexivity. Qed.

Lemma clmul_step a (b : bool) g : 0 <= a -> clmul (2 * a + Z.b2z b) g = Z.lxor (if b then g else 0) (2 * clmul a g).
Proof.
  intro H. destruct b; cbn [Z.b2z].
  - apply clmul_double1. exact H.
  - rewrite Z.add_0_r, clmul_double, Z.lxor_0_l. reflexivity.
Qed.

Lemma half_split a : a = 2 * (a / 2) + Z.b2z (Z.testbit a 0).
Proof. rewrite Z.bit0_mod. lia. Qed.

Lemma bin_ind (P : Z -> Prop) : P 0 -> (forall a b, 0 <= a -> P a -> P (2 * a + Z.b2z b)) -> forall a, 0 <= a -> P a.
Proof.
  intros H0 Hs a Ha. destruct a as [|p|p]; [exact H0| |lia].
  induction p as [p IH|p IH|].
  - apply (Hs (Zpos p) true); [lia|apply IH; lia].
  - replace (Zpos p~0) with (2 * Zpos p + Z.b2z false) by (cbn; lia). apply Hs; [lia|apply IH; lia].
  - apply (Hs 0 true); [lia|exact H0].
Qed.

Lemma double_b_bits_0 a b : Z.testbit (2 * a + Z.b2z b) 0 = b.
Proof. rewrite Z.add_comm. apply Z.add_b2z_double_bit0. Qed.
Lemma double_b_bits_S a b i : 0 <= i -> Z.testbit (2 * a + Z.b2z b) (i + 1) = Z.testbit a i.
Proof. intro H. rewrite Z.add_1_r, <- Z.div2_bits by lia. f_equal. destruct b; cbn [Z.b2z]; lia. Qed.

Lemma lxor_double a b (c d : bool) : Z.lxor (2 * a + Z.b2z c) (2 * b + Z.b2z d) = 2 * Z.lxor a b + Z.b2z (xorb c d).
Proof.
  apply Z.bits_inj'. intros i Hi. rewrite Z.lxor_spec. destruct (Z.eq_dec i 0) as [->|Hn].
  - rewrite !double_b_bits_0. reflexivity.
  - replace i with ((i - 1) + 1) by lia. rewrite !double_b_bits_S by lia. rewrite Z.lxor_spec. reflexivity.
Qed.
Lemma lxor_double0 a b : Z.lxor (2 * a) (2 * b) = 2 * Z.lxor a b.
Proof. pose proof (lxor_double a b false false) as H. cbn [Z.b2z xorb] in H. rewrite !Z.add_0_r in H. exact H. Qed.

Lemma lxor_swap a b c d : Z.lxor (Z.lxor a b) (Z.lxor c d) = Z.lxor (Z.lxor a c) (Z.lxor b d).
Proof. apply lxor_4. Qed.

Lemma clmul_lxor g a : 0 <= a -> forall b, 0 <= b -> clmul (Z.lxor a b) g = Z.lxor (clmul a g) (clmul b g).
Proof.
  intro Ha. pattern a. revert Ha. apply bin_ind; clear a.
  - intros b Hb. rewrite !Z.lxor_0_l. reflexivity.
  - intros a c Ha IH b Hb. rewrite (half_split b). assert (0 <= b / 2) as Hb2 by lia.
    set (b2 := b / 2) in *. set (d := Z.testbit b 0). clearbody b2 d.
    rewrite lxor_double, !clmul_step; try lia; [|apply Z.lxor_nonneg; lia].
    rewrite IH by lia. rewrite <- lxor_double0, lxor_4. f_equal.
    destruct c, d; cbn [xorb]; rewrite ?Z.lxor_nilpotent, ?Z.lxor_0_r, ?Z.lxor_0_l; reflexivity.
Qed.

Lemma clmul_nonneg g a : 0 <= a -> 0 <= g -> 0 <= clmul a g.
Proof.
  intros Ha Hg. pattern a. revert Ha. apply bin_ind; clear a; [cbn; lia|].
  intros a b Ha IH. rewrite clmul_step by lia. apply Z.lxor_nonneg. destruct b; lia.
Qed.

Lemma clmul_low g n a : 0 <= n -> 2 ^ n <= g < 2 ^ (n + 1) -> 0 < a -> 2 ^ n <= clmul a g.
Proof.
  intros Hn Hg Ha.
  assert (0 <= a) as Ha' by lia.
  assert (0 < a -> Z.log2 (clmul a g) = n + Z.log2 a /\ 2 ^ n <= clmul a g) as H; [|apply H; exact Ha].
  clear Ha. pattern a. revert Ha'. apply bin_ind; clear a; [lia|].
  intros a b Ha IH Hp. rewrite clmul_step by lia.
  assert (0 < 2 ^ n) by (apply Z.pow_pos_nonneg; lia).
  assert (Z.log2 g = n) as Hlg by (apply Z.log2_unique; [lia|rewrite <- Z.add_1_r; lia]).
  destruct (Z.eq_dec a 0) as [->|Hz].
  - destruct b; cbn [Z.b2z] in *; [|lia]. rewrite clmul_0. cbn [Z.mul Z.add]. rewrite Z.lxor_0_r. split; [|lia].
    rewrite Hlg. change (Z.log2 (Z.pos 1)) with 0. lia.
  - destruct (IH ltac:(lia)) as [IHl IHg].
    assert (Z.log2 (2 * clmul a g) = n + Z.log2 a + 1) as H2 by (rewrite Z.log2_double by lia; lia).
    assert (Z.log2 (2 * a + Z.b2z b) = Z.log2 a + 1) as H3.
    { destruct b; cbn [Z.b2z]; [rewrite Z.log2_succ_double by lia|rewrite Z.add_0_r, Z.log2_double by lia]; lia. }
    assert (0 <= Z.log2 a) by apply Z.log2_nonneg.
    assert (Z.log2 (Z.lxor (if b then g else 0) (2 * clmul a g)) = n + Z.log2 a + 1) as H4.
    { apply Z.log2_bits_unique.
      - rewrite Z.lxor_spec, <- H2, Z.bit_log2 by lia. rewrite Z.bits_above_log2; [reflexivity| |].
        + destruct b; lia.
        + destruct b; [lia|]. change (Z.log2 0) with 0. lia.
      - intros m Hm. rewrite Z.lxor_spec, (Z.bits_above_log2 (2 * clmul a g)) by lia.
        rewrite Z.bits_above_log2; [reflexivity| |].
        + destruct b; lia.
        + destruct b; [lia|]. change (Z.log2 0) with 0. lia. }
    split; [lia|].
    destruct (Z_le_dec (2 ^ n) (Z.lxor (if b then g else 0) (2 * clmul a g))) as [Hle|Hgt]; [exact Hle|exfalso].
    assert (0 <= Z.lxor (if b then g else 0) (2 * clmul a g)) as Hnn by (apply Z.lxor_nonneg; destruct b; lia).
    set (v := Z.lxor _ _) in *. destruct (Z.eq_dec v 0) as [Hv|Hv]; [rewrite Hv in H4; cbn in H4; lia|].
    assert (Z.log2 v < n) by (apply Z.log2_lt_pow2; lia). lia.
Qed.

(* ---------- congruence ---------- *)

Lemma shiftl_succ a k : 0 <= k -> Z.shiftl a (Z.succ k) = 2 * Z.shiftl a k.
Proof. intro H. rewrite !Z.shiftl_mul_pow2, Z.pow_succ_r by lia. lia. Qed.


Lemma congr_refl g a : congr g a a.
Proof. exists 0. rewrite Z.lxor_nilpotent. split; [lia|reflexivity]. Qed.
Lemma congr_sym g a b : congr g a b -> congr g b a.
Proof. intros (q & Hq & H). exists q. rewrite Z.lxor_comm. split; assumption. Qed.
Lemma congr_xor g a b c d : congr g a b -> congr g c d -> congr g (Z.lxor a c) (Z.lxor b d).
Proof.
  intros (q & Hq & H) (r & Hr & H'). exists (Z.lxor q r). split; [apply Z.lxor_nonneg; lia|].
  rewrite lxor_4, H, H', clmul_lxor by lia. reflexivity.
Qed.
Lemma lxor_cancel_mid a b c : Z.lxor (Z.lxor a b) (Z.lxor b c) = Z.lxor a c.
Proof. rewrite Z.lxor_assoc, <- (Z.lxor_assoc b), Z.lxor_nilpotent, Z.lxor_0_l. reflexivity. Qed.
Lemma congr_trans g a b c : congr g a b -> congr g b c -> congr g a c.
Proof.
  intros (q & Hq & H) (r & Hr & H'). exists (Z.lxor q r). split; [apply Z.lxor_nonneg; lia|].
  rewrite clmul_lxor, <- H, <- H', lxor_cancel_mid by lia. reflexivity.
Qed.
Lemma congr_double g a b : congr g a b -> congr g (2 * a) (2 * b).
Proof. intros (q & Hq & H). exists (2 * q). split; [lia|]. rewrite lxor_double0, clmul_double, H. reflexivity. Qed.
Lemma congr_shift g a b k : 0 <= k -> congr g a b -> congr g (Z.shiftl a k) (Z.shiftl b k).
Proof.
  intros Hk H. pattern k. revert Hk. apply natlike_ind; clear k.
  - rewrite !Z.shiftl_0_r. exact H.
  - intros k Hk IH. rewrite !shiftl_succ by lia. apply congr_double. exact IH.
Qed.

Lemma congr_small g n a b : 0 <= n -> 2 ^ n <= g < 2 ^ (n + 1) -> 0 <= a < 2 ^ n -> 0 <= b < 2 ^ n ->
  congr g a b -> a = b.
Proof.
  intros Hn Hg Ha Hb (q & Hq & H). destruct (Z.eq_dec q 0) as [->|Hz].
  - rewrite clmul_0 in H. apply Z.lxor_eq in H. exact H.
  - pose proof (clmul_low g n q Hn Hg ltac:(lia)). pose proof (lxor_lt a b n Hn Ha Hb). lia.
Qed.

Lemma congr_odd_half g a b : 0 <= g -> Z.testbit g 0 = true -> congr g (2 * a) (2 * b) -> congr g a b.
Proof.
  intros Hg Ho (q & Hq & H). rewrite lxor_double0 in H.
  rewrite (half_split q) in H. rewrite clmul_step in H by lia.
  destruct (Z.testbit q 0).
  - apply (f_equal (fun z => Z.testbit z 0)) in H. rewrite Z.lxor_spec, !Z.testbit_even_0, Ho in H. discriminate.
  - rewrite Z.lxor_0_l in H. exists (q / 2). split; lia.
Qed.
Lemma congr_odd_shift g a b k : 0 <= g -> Z.testbit g 0 = true -> 0 <= k ->
  congr g (Z.shiftl a k) (Z.shiftl b k) -> congr g a b.
Proof.
  intros Hg Ho Hk. pattern k. revert Hk. apply natlike_ind; clear k.
  - rewrite !Z.shiftl_0_r. tauto.
  - intros k Hk IH. rewrite !shiftl_succ by lia. intro H. apply IH. apply congr_odd_half; assumption.
Qed.

(* ---------- bit strings ---------- *)

Lemma poly_of_snoc l b : poly_of (l ++ [b]) = 2 * poly_of l + Z.b2z b.
Proof. unfold poly_of. rewrite fold_left_app. reflexivity. Qed.

Lemma poly_of_range l : 0 <= poly_of l < 2 ^ zlen l.
Proof.
  induction l as [|b l IH] using rev_ind; [cbn; lia|].
  rewrite poly_of_snoc, zlen_app. change (zlen [b]) with 1. rewrite Z.pow_add_r by (unfold zlen; lia).
  change (2 ^ 1) with 2. destruct b; cbn [Z.b2z]; lia.
Qed.

Lemma lxor_small_shift a b k : 0 <= k -> 0 <= b < 2 ^ k -> Z.lxor (Z.shiftl a k) b = a * 2 ^ k + b.
Proof.
  intros Hk Hb. rewrite <- Z.add_nocarry_lxor; [rewrite Z.shiftl_mul_pow2 by lia; reflexivity|].
  apply Z.bits_inj'. intros i Hi. rewrite Z.land_spec, Z.bits_0. destruct (Z_lt_dec i k).
  - rewrite Z.shiftl_spec_low by lia. reflexivity.
  - rewrite (testbit_high b k) by lia. apply andb_false_r.
Qed.

Lemma poly_of_app a b : poly_of (a ++ b) = Z.lxor (Z.shiftl (poly_of a) (zlen b)) (poly_of b).
Proof.
  rewrite lxor_small_shift; [|unfold zlen; lia|apply poly_of_range].
  induction b as [|c b IH] using rev_ind.
  - rewrite app_nil_r. change (zlen []) with 0. change (poly_of []) with 0. lia.
  - rewrite app_assoc, !poly_of_snoc, IH, zlen_app. change (zlen [c]) with 1.
    rewrite Z.pow_add_r by (unfold zlen; lia). change (2 ^ 1) with 2. lia.
Qed.

Lemma poly_of_inj a : forall b, zlen a = zlen b -> poly_of a = poly_of b -> a = b.
Proof.
  induction a as [|c a IH] using rev_ind; intros b Hl Hp.
  - destruct b; [reflexivity|]. unfold zlen in Hl. cbn in Hl. lia.
  - destruct (exists_last (l := b)) as (b' & d & ->).
    { intros ->. rewrite zlen_app in Hl. unfold zlen in Hl. cbn in Hl. lia. }
    rewrite !poly_of_snoc in Hp. rewrite !zlen_app in Hl. change (zlen [c]) with 1 in Hl. change (zlen [d]) with 1 in Hl.
    assert (c = d) as -> by (destruct c, d; cbn [Z.b2z] in Hp; lia || reflexivity).
    f_equal. apply IH; lia.
Qed.

Lemma bits_lsb_S n v : bits_lsb (S n) v = bits_lsb n v ++ [Z.testbit v (Z.of_nat n)].
Proof. unfold bits_lsb. rewrite seq_S, map_app. reflexivity. Qed.
Lemma bits_lsb_len n v : zlen (bits_lsb n v) = Z.of_nat n.
Proof. unfold bits_lsb, zlen. rewrite map_length, seq_length. reflexivity. Qed.

Lemma reflect_range n r : 0 <= reflect n r < 2 ^ Z.of_nat n.
Proof. unfold reflect. rewrite <- (bits_lsb_len n r). apply poly_of_range. Qed.

Lemma reflect_spec n r i : 0 <= i < Z.of_nat n -> Z.testbit (reflect n r) i = Z.testbit r (Z.of_nat n - 1 - i).
Proof.
  revert i. induction n as [|n IH]; intros i Hi; [lia|].
  unfold reflect. rewrite bits_lsb_S, poly_of_snoc. destruct (Z.eq_dec i 0) as [->|Hz].
  - rewrite double_b_bits_0. f_equal. lia.
  - replace i with ((i - 1) + 1) at 1 by lia. rewrite double_b_bits_S by lia. fold (reflect n r). rewrite IH by lia. f_equal. lia.
Qed.

Lemma reflect_lxor n a b : reflect n (Z.lxor a b) = Z.lxor (reflect n a) (reflect n b).
Proof.
  pose proof (reflect_range n a). pose proof (reflect_range n b).
  apply (bits_ext_range _ _ (Z.of_nat n)); [apply reflect_range|apply lxor_lt; lia|].
  intros i Hi. rewrite Z.lxor_spec, !reflect_spec, Z.lxor_spec by lia. reflexivity.
Qed.

Lemma reflect_inj n a b : 0 <= a < 2 ^ Z.of_nat n -> 0 <= b < 2 ^ Z.of_nat n -> reflect n a = reflect n b -> a = b.
Proof.
  intros Ha Hb H. apply (bits_ext_range _ _ (Z.of_nat n)); [assumption..|]. intros i Hi.
  pose proof (reflect_spec n a (Z.of_nat n - 1 - i) ltac:(lia)) as E1.
  pose proof (reflect_spec n b (Z.of_nat n - 1 - i) ltac:(lia)) as E2.
  replace (Z.of_nat n - 1 - (Z.of_nat n - 1 - i)) with i in * by lia. congruence.
Qed.

Lemma reflect_byte n d : (8 <= n)%nat -> byte d -> reflect n d = Z.shiftl (reflect 8 d) (Z.of_nat n - 8).
Proof.
  intros Hn Hd. unfold byte in Hd. pose proof (reflect_range 8 d) as H8. change (2 ^ Z.of_nat 8) with 256 in H8.
  apply (bits_ext_range _ _ (Z.of_nat n)); [apply reflect_range| |].
  - rewrite Z.shiftl_mul_pow2 by lia. split; [apply Z.mul_nonneg_nonneg; lia|].
    replace (2 ^ Z.of_nat n) with (256 * 2 ^ (Z.of_nat n - 8)).
    + apply Z.mul_lt_mono_pos_r; [apply Z.pow_pos_nonneg; lia|lia].
    + change 256 with (2 ^ 8). rewrite <- Z.pow_add_r by lia. f_equal. lia.
  - intros i Hi. rewrite reflect_spec by lia. rewrite Z.shiftl_spec by lia. destruct (Z_lt_dec i (Z.of_nat n - 8)).
    + rewrite (testbit_high d 8) by (cbn; lia). rewrite Z.testbit_neg_r by lia. reflexivity.
    + rewrite reflect_spec by lia. f_equal. lia.
Qed.

(* ---------- the reflected shift register ---------- *)

Definition gen (n : nat) (poly : Z) : Z := Z.lxor (2 ^ Z.of_nat n) (reflect n poly).

Lemma gen_range n poly : 2 ^ Z.of_nat n <= gen n poly < 2 ^ (Z.of_nat n + 1).
Proof.
  unfold gen. pose proof (reflect_range n poly) as H. rewrite Z.pow_add_r by lia. change (2 ^ 1) with 2.
  pose proof (lxor_small_shift 1 (reflect n poly) (Z.of_nat n) ltac:(lia) H) as E.
  rewrite Z.shiftl_mul_pow2, Z.mul_1_l in E by lia. rewrite E. lia.
Qed.

Lemma refl_step_alt poly r : refl_step poly r = Z.lxor (Z.shiftr r 1) (if Z.testbit r 0 then poly else 0).
Proof.
  unfold refl_step. rewrite land_1_testbit. destruct (Z.testbit r 0); cbn [Z.b2z Z.eqb negb]; [reflexivity|].
  rewrite Z.lxor_0_r. reflexivity.
Qed.
Lemma refl_step_additive poly : additive (refl_step poly).
Proof.
  intros a b. rewrite !refl_step_alt, Z.shiftr_lxor, Z.lxor_spec, lxor_4. f_equal.
  destruct (Z.testbit a 0), (Z.testbit b 0); cbn [xorb]; rewrite ?Z.lxor_nilpotent, ?Z.lxor_0_r, ?Z.lxor_0_l; reflexivity.
Qed.
Lemma refl_step_range n poly r : 0 <= poly < 2 ^ Z.of_nat n -> 0 <= r < 2 ^ Z.of_nat n -> 0 <= refl_step poly r < 2 ^ Z.of_nat n.
Proof.
  intros Hp Hr. rewrite refl_step_alt. apply lxor_lt; [lia| |destruct (Z.testbit r 0); lia].
  rewrite Z.shiftr_div_pow2 by lia. change (2 ^ 1) with 2. lia.
Qed.
Lemma refl_iter_range n poly r k : 0 <= poly < 2 ^ Z.of_nat n -> 0 <= r < 2 ^ Z.of_nat n ->
  0 <= Nat.iter k (refl_step poly) r < 2 ^ Z.of_nat n.
Proof.
  intros Hp Hr. induction k as [|k IH]; [exact Hr|]. rewrite nat_iter_S. apply refl_step_range; assumption.
Qed.

Lemma refl_step_congr n poly r : 0 <= poly < 2 ^ Z.of_nat n -> 0 <= r < 2 ^ Z.of_nat n ->
  congr (gen n poly) (2 * reflect n r) (reflect n (refl_step poly r)).
Proof.
  intros Hp Hr. exists (Z.b2z (Z.testbit r 0)). split; [destruct (Z.testbit r 0); cbn; lia|].
  rewrite refl_step_alt, reflect_lxor.
  assert (Z.lxor (2 * reflect n r) (reflect n (Z.shiftr r 1)) = if Z.testbit r 0 then 2 ^ Z.of_nat n else 0) as H.
  { pose proof (reflect_range n r) as Hrr. pose proof (reflect_range n (Z.shiftr r 1)) as Hrs.
    apply (bits_ext_range _ _ (Z.of_nat n + 1)).
    - apply lxor_lt; [lia| |]; rewrite Z.pow_add_r by lia; change (2 ^ 1) with 2; lia.
    - rewrite Z.pow_add_r by lia; change (2 ^ 1) with 2. pose proof (Z.pow_pos_nonneg 2 (Z.of_nat n)). destruct (Z.testbit r 0); lia.
    - intros i Hi. rewrite Z.lxor_spec. destruct (Z.eq_dec i 0) as [->|Hz].
      + rewrite Z.testbit_even_0. destruct (Z.eq_dec (Z.of_nat n) 0) as [Hn0|Hn0].
        * destruct n; [|lia]. change (2 ^ Z.of_nat 0) with 1 in *. replace r with 0 by lia. reflexivity.
        * rewrite reflect_spec by lia. rewrite Z.shiftr_spec by lia. rewrite (testbit_high r (Z.of_nat n)) by lia.
          destruct (Z.testbit r 0); [rewrite Z.pow2_bits_false by lia|rewrite Z.bits_0]; reflexivity.
      + replace i with ((i - 1) + 1) at 1 by lia. rewrite Z.add_1_r, Z.double_bits_succ.
        rewrite reflect_spec by lia. destruct (Z.eq_dec i (Z.of_nat n)) as [->|Hne].
        * rewrite (testbit_high (reflect n (Z.shiftr r 1)) (Z.of_nat n)) by lia. rewrite xorb_false_r.
          replace (Z.of_nat n - 1 - (Z.of_nat n - 1)) with 0 by lia.
          destruct (Z.testbit r 0); [rewrite Z.pow2_bits_true by lia|rewrite Z.bits_0]; reflexivity.
        * rewrite reflect_spec by lia. rewrite Z.shiftr_spec by lia.
          replace (Z.of_nat n - 1 - i + 1) with (Z.of_nat n - 1 - (i - 1)) by lia. rewrite xorb_nilpotent.
          destruct (Z.testbit r 0); [rewrite Z.pow2_bits_false by lia|rewrite Z.bits_0]; reflexivity. }
  rewrite <- Z.lxor_assoc, H. destruct (Z.testbit r 0); cbn [Z.b2z].
  - rewrite clmul_1. reflexivity.
  - rewrite clmul_0, Z.lxor_0_l. apply Z.bits_inj'. intros i Hi. rewrite Z.bits_0. destruct (Z_lt_dec i (Z.of_nat n)).
    + rewrite reflect_spec by lia. apply Z.bits_0.
    + apply (testbit_high _ (Z.of_nat n)); [apply reflect_range|lia].
Qed.

Lemma refl_iter_congr n poly r k : 0 <= poly < 2 ^ Z.of_nat n -> 0 <= r < 2 ^ Z.of_nat n ->
  congr (gen n poly) (Z.shiftl (reflect n r) (Z.of_nat k)) (reflect n (Nat.iter k (refl_step poly) r)).
Proof.
  intros Hp Hr. induction k as [|k IH].
  - rewrite Z.shiftl_0_r. apply congr_refl.
  - rewrite nat_iter_S, Nat2Z.inj_succ, shiftl_succ by lia.
    eapply congr_trans; [apply congr_double; exact IH|]. apply refl_step_congr; [assumption|].
    apply refl_iter_range; assumption.
Qed.

Lemma byte_lt_pow n d : (8 <= n)%nat -> byte d -> 0 <= d < 2 ^ Z.of_nat n.
Proof.
  intros Hn Hd. unfold byte in Hd. assert (2 ^ 8 <= 2 ^ Z.of_nat n) by (apply Z.pow_le_mono_r; lia). change (2 ^ 8) with 256 in *. lia.
Qed.

Lemma refl_update_range n poly r d : (8 <= n)%nat -> 0 <= poly < 2 ^ Z.of_nat n -> 0 <= r < 2 ^ Z.of_nat n -> byte d ->
  0 <= refl_update poly r d < 2 ^ Z.of_nat n.
Proof.
  intros Hn Hp Hr Hd. unfold refl_update. apply refl_iter_range; [assumption|]. apply lxor_lt; [lia|lia|].
  apply byte_lt_pow; assumption.
Qed.

Lemma refl_update_congr n poly r d : (8 <= n)%nat -> 0 <= poly < 2 ^ Z.of_nat n -> 0 <= r < 2 ^ Z.of_nat n -> byte d ->
  congr (gen n poly) (Z.lxor (Z.shiftl (reflect n r) 8) (Z.shiftl (poly_of (bits_lsb 8 d)) (Z.of_nat n)))
        (reflect n (refl_update poly r d)).
Proof.
  intros Hn Hp Hr Hd. unfold refl_update.
  pose proof (refl_iter_congr n poly (Z.lxor r d) 8 Hp) as H.
  rewrite reflect_lxor, (reflect_byte n d Hn Hd), Z.shiftl_lxor, Z.shiftl_shiftl in H by lia.
  change (Z.of_nat 8) with 8 in H. replace (Z.of_nat n - 8 + 8) with (Z.of_nat n) in H by lia.
  apply H. apply lxor_lt; [lia|lia|apply byte_lt_pow; assumption].
Qed.

Lemma stream_len data : zlen (stream data) = 8 * zlen data.
Proof.
  induction data as [|d ds IH]; [reflexivity|]. cbn [stream flat_map]. fold (stream ds).
  rewrite zlen_app, IH, bits_lsb_len. unfold zlen. cbn [length]. lia.
Qed.

Lemma refl_fold n poly data : (8 <= n)%nat -> 0 <= poly < 2 ^ Z.of_nat n -> Forall byte data ->
  forall r, 0 <= r < 2 ^ Z.of_nat n ->
  crc_value (Z.of_nat n) (gen n poly) (reflect n r) (stream data) (reflect n (fold_left (refl_update poly) data r))
  /\ 0 <= fold_left (refl_update poly) data r < 2 ^ Z.of_nat n.
Proof.
  intros Hn Hp Hd. induction Hd as [|d ds Hd Hds IH]; intros r Hr.
  - cbn [fold_left]. split; [|exact Hr]. split; [apply reflect_range|]. cbn [stream flat_map].
    change (zlen []) with 0. change (poly_of []) with 0. rewrite Z.shiftl_0_r, Z.shiftl_0_l, Z.lxor_0_r. apply congr_refl.
  - cbn [fold_left]. pose proof (refl_update_range n poly r d Hn Hp Hr Hd) as Hu.
    destruct (IH _ Hu) as [(_ & IHc) IHr]. split; [|exact IHr]. split; [apply reflect_range|].
    eapply congr_trans; [|exact IHc].
    cbn [stream flat_map]. fold (stream ds). rewrite zlen_app, bits_lsb_len, poly_of_app.
    set (k := zlen (stream ds)). assert (0 <= k) by (unfold k, zlen; lia).
    rewrite Z.shiftl_lxor, <- Z.lxor_assoc. apply congr_xor; [|apply congr_refl].
    pose proof (congr_shift _ _ _ k ltac:(lia) (refl_update_congr n poly r d Hn Hp Hr Hd)) as Hs.
    rewrite Z.shiftl_lxor, !Z.shiftl_shiftl in Hs by lia. rewrite Z.shiftl_shiftl by lia.
    change (Z.of_nat 8) with 8. rewrite (Z.add_comm k). exact Hs.
Qed.

(* ---------- uniqueness ---------- *)

Lemma crc_value_unique n g init msg r1 r2 : 0 <= n -> 2 ^ n <= g < 2 ^ (n + 1) ->
  crc_value n g init msg r1 -> crc_value n g init msg r2 -> r1 = r2.
Proof.
  intros Hn Hg (H1 & C1) (H2 & C2). apply (congr_small g n); try assumption.
  eapply congr_trans; [apply congr_sym; exact C1|exact C2].
Qed.

(* ---------- bursts ---------- *)

Lemma burst n g init pre d1 d2 post r :
  0 <= n -> 2 ^ n <= g < 2 ^ (n + 1) -> Z.testbit g 0 = true -> zlen d1 = zlen d2 -> zlen d1 <= n ->
  crc_value n g init (pre ++ d1 ++ post) r -> crc_value n g init (pre ++ d2 ++ post) r -> d1 = d2.
Proof.
  intros Hn Hg Ho Hl Hd (_ & C1) (_ & C2).
  assert (0 <= g) by (pose proof (Z.pow_nonneg 2 n); lia).
  apply congr_sym in C2. pose proof (congr_trans _ _ _ _ C1 C2) as C.
  rewrite !zlen_app, <- Hl in C.
  set (L := zlen pre + (zlen d1 + zlen post)) in C.
  assert (congr g (Z.shiftl (poly_of (pre ++ d1 ++ post)) n) (Z.shiftl (poly_of (pre ++ d2 ++ post)) n)) as C'.
  { pose proof (congr_xor _ _ _ _ _ C (congr_refl g (Z.shiftl init L))) as C3.
    rewrite !(Z.lxor_comm (Z.shiftl init L)), !Z.lxor_assoc, !Z.lxor_nilpotent, !Z.lxor_0_r in C3. exact C3. }
  apply congr_odd_shift in C'; [|assumption..].
  rewrite !poly_of_app, !zlen_app, <- Hl in C'.
  set (X := Z.shiftl (poly_of pre) (zlen d1 + zlen post)) in C'.
  assert (congr g (Z.shiftl (poly_of d1) (zlen post)) (Z.shiftl (poly_of d2) (zlen post))) as C4.
  { destruct C' as (q & Hq & E). exists q. split; [exact Hq|]. rewrite <- E.
    rewrite (lxor_4 X), Z.lxor_nilpotent, Z.lxor_0_l, lxor_4, Z.lxor_nilpotent, Z.lxor_0_r. reflexivity. }
  apply congr_odd_shift in C4; [|assumption|assumption|unfold zlen; lia].
  apply poly_of_inj; [exact Hl|].
  pose proof (poly_of_range d1). pose proof (poly_of_range d2).
  assert (2 ^ zlen d1 <= 2 ^ n) by (apply Z.pow_le_mono_r; lia).
  apply (congr_small g n); try assumption; rewrite <- ?Hl in *; lia.
Qed.

(* ---------- parity: odd numbers of flipped bits ---------- *)

Fixpoint ppar (p : positive) : bool := match p with xH => true | xO q => ppar q | xI q => negb (ppar q) end.
Definition par (z : Z) : bool := match z with Zpos p => ppar p | _ => false end.

Lemma par_step a b : 0 <= a -> par (2 * a + Z.b2z b) = xorb b (par a).
Proof. intro H. destruct a; try lia; destruct b; cbn; try reflexivity. destruct (ppar p); reflexivity. Qed.
Lemma par_double a : par (2 * a) = par a.
Proof. destruct a; reflexivity. Qed.

Lemma par_lxor a : 0 <= a -> forall b, 0 <= b -> par (Z.lxor a b) = xorb (par a) (par b).
Proof.
  intro Ha. pattern a. revert Ha. apply bin_ind; clear a.
  - intros b Hb. rewrite Z.lxor_0_l. destruct (par b); reflexivity.
  - intros a c Ha IH b Hb. rewrite (half_split b). assert (0 <= b / 2) by lia.
    set (b2 := b / 2) in *. set (d := Z.testbit b 0). clearbody b2 d.
    rewrite lxor_double, !par_step; try lia; [|apply Z.lxor_nonneg; lia]. rewrite IH by lia.
    destruct c, d, (par a), (par b2); reflexivity.
Qed.

Lemma par_clmul g q : 0 <= g -> 0 <= q -> par g = false -> par (clmul q g) = false.
Proof.
  intros Hg Hq Hp. pattern q. revert Hq. apply bin_ind; clear q; [reflexivity|].
  intros a b Ha IH. pose proof (clmul_nonneg g a Ha Hg). rewrite clmul_step, par_lxor by (destruct b; lia).
  rewrite par_double, IH, xorb_false_r. destruct b; [exact Hp|reflexivity].
Qed.

Lemma par_shift a k : 0 <= k -> par (Z.shiftl a k) = par a.
Proof.
  intro Hk. pattern k. revert Hk. apply natlike_ind; clear k; [rewrite Z.shiftl_0_r; reflexivity|].
  intros k Hk IH. rewrite shiftl_succ, par_double by lia. exact IH.
Qed.

Lemma par_congr g a b : 0 <= g -> 0 <= a -> 0 <= b -> par g = false -> congr g a b -> par a = par b.
Proof.
  intros Hg Ha Hb Hp (q & Hq & H). apply (f_equal par) in H. rewrite par_lxor, par_clmul in H by assumption.
  destruct (par a), (par b); cbn in H; congruence.
Qed.

Lemma hamming_par a : forall b, length a = length b ->
  xorb (par (poly_of a)) (par (poly_of b)) = Nat.odd (hamming a b).
Proof.
  induction a as [|x a IH]; intros [|y b] Hl; try discriminate; [reflexivity|].
  change (x :: a) with ([x] ++ a). change (y :: b) with ([y] ++ b). rewrite !poly_of_app.
  pose proof (poly_of_range a). pose proof (poly_of_range b).
  assert (forall c l, par (Z.lxor (Z.shiftl (poly_of [c]) (zlen l)) (poly_of l)) = xorb c (par (poly_of l))) as E.
  { intros c l. pose proof (poly_of_range l). rewrite par_lxor; [| |lia].
    - rewrite par_shift by (unfold zlen; lia). destruct c; reflexivity.
    - apply Z.shiftl_nonneg. destruct c; cbn; lia. }
  rewrite !E. cbn [app hamming]. rewrite Nat.odd_add, <- IH by (cbn in Hl; lia).
  destruct x, y; cbn [xorb Nat.odd Nat.even negb]; destruct (par (poly_of a)), (par (poly_of b)); reflexivity.
Qed.

Lemma odd_errors n g init a b r : 0 <= n -> 0 <= g -> 0 <= init -> par g = false -> length a = length b ->
  crc_value n g init a r -> crc_value n g init b r -> Nat.odd (hamming a b) = false.
Proof.
  intros Hn Hg Hi Hp Hl (Hr & C1) (_ & C2).
  pose proof (poly_of_range a). pose proof (poly_of_range b).
  assert (forall l, 0 <= poly_of l -> 0 <= Z.lxor (Z.shiftl init (zlen l)) (Z.shiftl (poly_of l) n)) as Hnn.
  { intros l Hpl. apply Z.lxor_nonneg. rewrite !Z.shiftl_nonneg. tauto. }
  apply par_congr in C1; [|try assumption; try lia; apply Hnn; lia ..].
  apply par_congr in C2; [|try assumption; try lia; apply Hnn; lia ..].
  rewrite par_lxor, !par_shift in C1; try (rewrite ?Z.shiftl_nonneg; unfold zlen; lia).
  rewrite par_lxor, !par_shift in C2; try (rewrite ?Z.shiftl_nonneg; unfold zlen; lia).
  rewrite <- hamming_par by exact Hl.
  destruct (par init), (par (poly_of a)), (par (poly_of b)), (par r); cbn in *; congruence.
Qed.

(* ---------- double errors ---------- *)

(* multiply by x and reduce *)
Definition xstep (n g s : Z) : Z := let d := 2 * s in if Z.testbit d n then Z.lxor d g else d.
(* no power of x between 1 and fuel is congruent to 1 *)
Fixpoint no_period (n g : Z) (fuel : nat) (s : Z) : bool :=
  match fuel with
  | O => true
  | S f => let s' := xstep n g s in if s' =? 1 then false else no_period n g f s'
  end.

Lemma xstep_range n g s : 0 <= n -> 2 ^ n <= g < 2 ^ (n + 1) -> 0 <= s < 2 ^ n -> 0 <= xstep n g s < 2 ^ n.
Proof.
  intros Hn Hg Hs. unfold xstep. cbv zeta. rewrite Z.pow_add_r in Hg by lia. change (2 ^ 1) with 2 in Hg.
  destruct (Z.testbit (2 * s) n) eqn:E.
  - split; [apply Z.lxor_nonneg; lia|]. apply lt_pow2_bits; [lia|apply Z.lxor_nonneg; lia|].
    intros i Hi. rewrite Z.lxor_spec. destruct (Z.eq_dec i n) as [->|Hne].
    + rewrite E. replace n with (Z.log2 g) at 1; [rewrite Z.bit_log2 by lia; reflexivity|].
      apply Z.log2_unique; [lia|rewrite Z.pow_succ_r by lia; lia].
    + rewrite (testbit_high _ (n + 1)), (testbit_high g (n + 1)); try reflexivity; try lia;
        rewrite Z.pow_add_r by lia; change (2 ^ 1) with 2; lia.
  - split; [lia|]. apply lt_pow2_bits; [lia|lia|]. intros i Hi. destruct (Z.eq_dec i n) as [->|Hne]; [exact E|].
    apply (testbit_high _ (n + 1)); [rewrite Z.pow_add_r by lia; change (2 ^ 1) with 2; lia|lia].
Qed.
Lemma xstep_congr n g s : congr g (2 * s) (xstep n g s).
Proof.
  unfold xstep. cbv zeta. destruct (Z.testbit (2 * s) n); [|apply congr_refl].
  exists 1. split; [lia|]. rewrite <- Z.lxor_assoc, Z.lxor_nilpotent, Z.lxor_0_l, clmul_1. reflexivity.
Qed.

Lemma no_period_sound n g : 0 < n -> 2 ^ n <= g < 2 ^ (n + 1) ->
  forall fuel s j, 0 <= s < 2 ^ n -> congr g (2 ^ j) s -> 0 <= j -> no_period n g fuel s = true ->
  forall k, j < k <= j + Z.of_nat fuel -> ~ congr g (2 ^ k) 1.
Proof.
  intros Hn Hg. induction fuel as [|fuel IH]; intros s j Hs Hc Hj Hp k Hk C; [lia|].
  cbn [no_period] in Hp. cbv zeta in Hp. destruct (xstep n g s =? 1) eqn:E; [discriminate|].
  pose proof (xstep_range n g s ltac:(lia) Hg Hs) as Hr.
  assert (congr g (2 ^ (j + 1)) (xstep n g s)) as Hc'.
  { rewrite Z.pow_add_r by lia. change (2 ^ 1) with 2. rewrite Z.mul_comm.
    eapply congr_trans; [apply congr_double; exact Hc|apply xstep_congr]. }
  destruct (Z.eq_dec k (j + 1)) as [->|Hne].
  - assert (xstep n g s = 1) as E1; [|lia].
    apply (congr_small g n); [lia|exact Hg|exact Hr| |].
    + split; [lia|]. apply Z.pow_gt_1; lia.
    + eapply congr_trans; [apply congr_sym; exact Hc'|exact C].
  - apply (IH _ (j + 1) Hr Hc' ltac:(lia) Hp k ltac:(lia) C).
Qed.

Lemma poly_of_1 x : poly_of [x] = Z.b2z x.
Proof. destruct x; reflexivity. Qed.
Lemma b2z_lxor x : Z.lxor (Z.b2z x) (Z.b2z (negb x)) = 1.
Proof. destruct x; reflexivity. Qed.

Lemma double_errors n g init pre x mid y post r :
  0 < n -> 2 ^ n <= g < 2 ^ (n + 1) -> Z.testbit g 0 = true ->
  ~ congr g (2 ^ (zlen mid + 1)) 1 ->
  crc_value n g init (pre ++ [x] ++ mid ++ [y] ++ post) r ->
  crc_value n g init (pre ++ [negb x] ++ mid ++ [negb y] ++ post) r -> False.
Proof.
  intros Hn Hg Ho Hper (_ & C1) (_ & C2). apply Hper.
  assert (0 <= g) by (pose proof (Z.pow_nonneg 2 n); lia).
  apply congr_sym in C2. pose proof (congr_trans _ _ _ _ C1 C2) as C.
  rewrite !zlen_app in C. change (zlen [negb x]) with 1 in C. change (zlen [x]) with 1 in C.
  change (zlen [negb y]) with 1 in C. change (zlen [y]) with 1 in C.
  set (L := zlen pre + (1 + (zlen mid + (1 + zlen post)))) in C.
  assert (congr g (Z.shiftl (poly_of (pre ++ [x] ++ mid ++ [y] ++ post)) n)
                  (Z.shiftl (poly_of (pre ++ [negb x] ++ mid ++ [negb y] ++ post)) n)) as C'.
  { pose proof (congr_xor _ _ _ _ _ C (congr_refl g (Z.shiftl init L))) as C3.
    rewrite !(Z.lxor_comm (Z.shiftl init L)), !Z.lxor_assoc, !Z.lxor_nilpotent, !Z.lxor_0_r in C3. exact C3. }
  apply congr_odd_shift in C'; [|assumption|assumption|lia].
  rewrite !poly_of_app, !zlen_app, !poly_of_1 in C'.
  change (zlen [negb x]) with 1 in C'. change (zlen [x]) with 1 in C'.
  change (zlen [negb y]) with 1 in C'. change (zlen [y]) with 1 in C'.
  destruct C' as (q & Hq & E).
  assert (0 <= zlen mid) by (unfold zlen; lia). assert (0 <= zlen post) by (unfold zlen; lia).
  rewrite lxor_4, Z.lxor_nilpotent, Z.lxor_0_l in E.
  rewrite lxor_4 in E. rewrite <- Z.shiftl_lxor, b2z_lxor in E.
  rewrite (lxor_4 (Z.shiftl (poly_of mid) _)), Z.lxor_nilpotent, Z.lxor_0_l in E.
  rewrite lxor_4, Z.lxor_nilpotent, Z.lxor_0_r, <- Z.shiftl_lxor, b2z_lxor in E.
  apply (congr_odd_shift g _ _ (zlen post)); [assumption|assumption|lia|].
  exists q. split; [exact Hq|]. rewrite <- E. f_equal.
  rewrite !Z.shiftl_mul_pow2 by lia. rewrite Z.mul_1_l, <- Z.pow_add_r by lia. f_equal. lia.
Qed.

(* ---------- the guarantees for a reflected register ---------- *)

Section Guarantees.
Context (n : nat) (poly init : Z) (Hn : (8 <= n)%nat) (Hp : 0 <= poly < 2 ^ Z.of_nat n)
        (Hi : 0 <= init < 2 ^ Z.of_nat n).
Let f (data : list Z) := fold_left (refl_update poly) data init.

Lemma fold_value data : Forall byte data ->
  crc_value (Z.of_nat n) (gen n poly) (reflect n init) (stream data) (reflect n (f data)).
Proof. intro H. apply refl_fold; assumption. Qed.

Lemma stream_length_eq a b : zlen a = zlen b -> length (stream a) = length (stream b).
Proof. intro H. pose proof (stream_len a). pose proof (stream_len b). unfold zlen in *. lia. Qed.

Lemma refl_bursts : Z.testbit (gen n poly) 0 = true -> detects_bursts (Z.of_nat n) f.
Proof.
  intros Ho a b pre d1 d2 post Ha Hb Ea Eb Hl Hd Hne Hf. apply Hne.
  pose proof (fold_value a Ha) as Va. pose proof (fold_value b Hb) as Vb. rewrite Ea in Va. rewrite Eb, <- Hf in Vb.
  eapply (burst (Z.of_nat n)); [lia|apply gen_range|exact Ho|exact Hl|exact Hd|exact Va|exact Vb].
Qed.

Lemma refl_odd : par (gen n poly) = false -> detects_odd f.
Proof.
  intros Ho a b Ha Hb Hl Hodd Hf.
  pose proof (fold_value a Ha) as Va. pose proof (fold_value b Hb) as Vb. rewrite <- Hf in Vb.
  pose proof (gen_range n poly). pose proof (Z.pow_pos_nonneg 2 (Z.of_nat n)).
  rewrite (odd_errors (Z.of_nat n) (gen n poly) (reflect n init) _ _ (reflect n (f a))) in Hodd;
    [discriminate|lia|lia|apply reflect_range|exact Ho|apply stream_length_eq; exact Hl|exact Va|exact Vb].
Qed.

Lemma refl_double fuel : Z.testbit (gen n poly) 0 = true ->
  no_period (Z.of_nat n) (gen n poly) fuel 1 = true -> detects_double (Z.of_nat fuel + 1) f.
Proof.
  intros Ho Hper a b pre x mid y post Ha Hb Ea Eb Hm Hf.
  pose proof (fold_value a Ha) as Va. pose proof (fold_value b Hb) as Vb. rewrite Ea in Va. rewrite Eb, <- Hf in Vb.
  eapply (double_errors (Z.of_nat n)); [|apply gen_range|exact Ho| |exact Va|exact Vb]; [lia|].
  assert (0 <= zlen mid) by (unfold zlen; lia).
  apply (no_period_sound (Z.of_nat n) (gen n poly) ltac:(lia) (gen_range n poly) fuel 1 0); try lia; [|apply congr_refl|exact Hper].
  split; [lia|]. apply Z.pow_gt_1; lia.
Qed.
End Guarantees.

(* ---------- the library routines are reflected registers ---------- *)

Definition ccitt_fun (x : Z) : Z :=
  let d0 := Z.land x 0xFF in
  let d := Z.land (Z.lxor d0 (Z.shiftl d0 4)) 0xFF in
  Z.land (Z.lxor (Z.lxor (Z.lxor (Z.shiftl d 8) (Z.land (Z.shiftr x 8) 0xFF)) (Z.land (Z.shiftr d 4) 0xFF))
                 (Z.shiftl d 3)) 0xFFFF.

Lemma additive_lxor2 f g : additive f -> additive g -> additive (fun x => Z.lxor (f x) (g x)).
Proof. intros Hf Hg a b. rewrite Hf, Hg. apply lxor_4. Qed.
Lemma additive_land f m : additive f -> additive (fun x => Z.land (f x) m).
Proof. intros Hf a b. rewrite Hf. apply land_lxor_distr. Qed.
Lemma additive_shl f m : additive f -> additive (fun x => Z.shiftl (f x) m).
Proof. intros Hf a b. rewrite Hf. apply Z.shiftl_lxor. Qed.
Lemma additive_shr f m : additive f -> additive (fun x => Z.shiftr (f x) m).
Proof. intros Hf a b. rewrite Hf. apply Z.shiftr_lxor. Qed.
Lemma additive_id : additive (fun x => x).
Proof. intros a b. reflexivity. Qed.

Lemma ccitt_fun_additive : additive ccitt_fun.
Proof.
  unfold ccitt_fun. cbv zeta.
  repeat first [apply additive_id | apply additive_land | apply additive_shl | apply additive_shr | apply additive_lxor2].
Qed.

Lemma ccitt_update_fun crc data : byte data -> crc16_ccitt_update crc data = ccitt_fun (Z.lxor crc data).
Proof.
  intro Hd. unfold byte in Hd. unfold crc16_ccitt_update, ccitt_fun. cbv zeta.
  assert (Z.land (Z.lxor crc data) 0xFF = Z.lxor data (Z.land crc 0xFF)) as E1.
  { rewrite land_lxor_distr, Z.lxor_comm. f_equal. rewrite land_FF. apply Z.mod_small. exact Hd. }
  assert (Z.shiftr (Z.lxor crc data) 8 = Z.shiftr crc 8) as E2.
  { rewrite Z.shiftr_lxor, (Z.shiftr_div_pow2 data) by lia. change (2 ^ 8) with 256.
    rewrite (Z.div_small data) by exact Hd. apply Z.lxor_0_r. }
  rewrite E1, E2. set (d := Z.land (Z.lxor _ (Z.shiftl _ 4)) 0xFF).
  f_equal. f_equal. f_equal. symmetry. apply Z.lxor_lor.
  apply Z.bits_inj'. intros i Hi. rewrite Z.land_spec, Z.bits_0. destruct (Z_lt_dec i 8).
  - rewrite Z.shiftl_spec_low by lia. reflexivity.
  - rewrite land_FF, (testbit_high (Z.shiftr crc 8 mod 256) 8); [apply andb_false_r| |lia]. change (2 ^ 8) with 256. lia.
Qed.

Lemma ccitt_fun_refl x : 0 <= x < 65536 -> ccitt_fun x = Nat.iter 8 (refl_step 0x8408) x.
Proof.
  apply (additive_ext ccitt_fun (Nat.iter 8 (refl_step 0x8408)) 16).
  - apply ccitt_fun_additive.
  - apply additive_iter, refl_step_additive.
  - intros i Hi. assert (i = 0 \/ i = 1 \/ i = 2 \/ i = 3 \/ i = 4 \/ i = 5 \/ i = 6 \/ i = 7 \/ i = 8 \/ i = 9 \/ i = 10
      \/ i = 11 \/ i = 12 \/ i = 13 \/ i = 14 \/ i = 15) as H by lia.
    repeat (destruct H as [->|H]; [vm_compute; reflexivity|]). subst i. vm_compute. reflexivity.
Qed.

Lemma ccitt_update_refl crc data : 0 <= crc < 65536 -> byte data -> crc16_ccitt_update crc data = refl_update 0x8408 crc data.
Proof.
  intros Hc Hd. rewrite ccitt_update_fun by exact Hd. unfold refl_update. apply ccitt_fun_refl.
  apply (lxor_lt crc data 16); [lia|exact Hc|]. unfold byte in Hd. cbn. lia.
Qed.

Lemma ccitt_fold_refl data : Forall byte data -> forall r, 0 <= r < 65536 ->
  fold_left crc16_ccitt_update data r = fold_left (refl_update 0x8408) data r.
Proof.
  intro Hd. induction Hd as [|d ds Hd Hds IH]; intros r Hr; [reflexivity|].
  cbn [fold_left]. rewrite ccitt_update_refl by assumption. apply IH.
  apply (refl_update_range 16); [lia|cbn; lia|exact Hr|exact Hd].
Qed.

Lemma crc32_step_refl crc : crc32_step crc = refl_step 0xEDB88320 crc.
Proof.
  rewrite refl_step_alt. unfold crc32_step. rewrite land_1_testbit. f_equal. destruct (Z.testbit crc 0); reflexivity.
Qed.
Lemma crc32_iter_refl k crc : Nat.iter k crc32_step crc = Nat.iter k (refl_step 0xEDB88320) crc.
Proof. induction k as [|k IH]; [reflexivity|]. rewrite !nat_iter_S, IH. apply crc32_step_refl. Qed.
Lemma crc32_fold_gen k data r : fold_left (fun c d => Nat.iter k crc32_step (Z.lxor c d)) data r
  = fold_left (fun c d => Nat.iter k (refl_step 0xEDB88320) (Z.lxor c d)) data r.
Proof.
  revert r. induction data as [|d ds IH]; intro r; [reflexivity|]. cbn [fold_left]. rewrite IH, crc32_iter_refl. reflexivity.
Qed.
Lemma crc32_fold_refl data r : fold_left crc32_update data r = fold_left (refl_update 0xEDB88320) data r.
Proof. exact (crc32_fold_gen 8 data r). Qed.

Lemma lnot_32 x : 0 <= x < 2 ^ 32 -> Z.land (Z.lnot x) 0xFFFFFFFF = Z.lxor x 0xFFFFFFFF.
Proof.
  intro Hx. apply Z.bits_inj'. intros i Hi. rewrite Z.land_spec, Z.lnot_spec, Z.lxor_spec by lia.
  change 0xFFFFFFFF with (Z.ones 32). destruct (Z_lt_dec i 32).
  - rewrite Z.ones_spec_low by lia. destruct (Z.testbit x i); reflexivity.
  - rewrite Z.ones_spec_high, (testbit_high x 32) by lia. reflexivity.
Qed.

Lemma gen_ccitt : gen 16 0x8408 = 0x11021. Proof. vm_compute. reflexivity. Qed.
Lemma gen_crc16 : gen 16 0xA001 = 0x18005. Proof. vm_compute. reflexivity. Qed.
Lemma gen_crc8 : gen 8 0x8C = 0x131. Proof. vm_compute. reflexivity. Qed.
Lemma gen_crc32 : gen 32 0xEDB88320 = 0x104C11DB7. Proof. vm_compute. reflexivity. Qed.

Lemma crc16_ccitt_value init data : 0 <= init < 65536 -> Forall byte data ->
  crc_value 16 0x11021 (reflect 16 init) (stream data) (reflect 16 (fold_left crc16_ccitt_update data init)).
Proof.
  intros Hi Hd. rewrite ccitt_fold_refl by assumption. rewrite <- gen_ccitt.
  apply (refl_fold 16); [lia|cbn; lia|exact Hd|exact Hi].
Qed.
Lemma crc32_value data : Forall byte data ->
  crc_value 32 0x104C11DB7 0xFFFFFFFF (stream data) (Z.lxor 0xFFFFFFFF (reflect 32 (crc32 data))).
Proof.
  intro Hd. unfold crc32. rewrite crc32_fold_refl.
  pose proof (refl_fold 32 0xEDB88320 data ltac:(lia) ltac:(lia) Hd crc32_init ltac:(unfold crc32_init; lia)) as [Hv Hr].
  rewrite lnot_32 by exact Hr. rewrite reflect_lxor. change (reflect 32 0xFFFFFFFF) with 0xFFFFFFFF.
  rewrite Z.lxor_comm, Z.lxor_assoc, Z.lxor_nilpotent, Z.lxor_0_r. rewrite <- gen_crc32.
  change (reflect 32 crc32_init) with 0xFFFFFFFF in Hv. exact Hv.
Qed.
Lemma sab_crc_value init data : byte init -> Forall byte data ->
  crc_value 8 0x131 (reflect 8 init) (stream data) (reflect 8 (fold_left sab_crcUpdate data init)).
Proof. intros Hi Hd. rewrite <- gen_crc8. apply (refl_fold 8); [lia|cbn; lia|exact Hd|exact Hi]. Qed.
Lemma sab2_crc_value init data : 0 <= init < 65536 -> Forall byte data ->
  crc_value 16 0x18005 (reflect 16 init) (stream data) (reflect 16 (fold_left sab2_crcUpdate data init)).
Proof. intros Hi Hd. rewrite <- gen_crc16. apply (refl_fold 16); [lia|cbn; lia|exact Hd|exact Hi]. Qed.

(* ---------- guarantees of the library routines ---------- *)

Lemma ccitt_guarantees init : 0 <= init < 65536 ->
  detects_bursts 16 (fun d => fold_left crc16_ccitt_update d init) /\
  detects_odd (fun d => fold_left crc16_ccitt_update d init) /\
  detects_double 32767 (fun d => fold_left crc16_ccitt_update d init).
Proof.
  intro Hi. assert (0 <= 0x8408 < 2 ^ Z.of_nat 16) as Hp by (cbn; lia).
  repeat split.
  - intros a b pre d1 d2 post Ha Hb. rewrite !ccitt_fold_refl by assumption.
    apply (refl_bursts 16 0x8408 init ltac:(lia) Hp Hi); [reflexivity|assumption..].
  - intros a b Ha Hb. rewrite !ccitt_fold_refl by assumption.
    apply (refl_odd 16 0x8408 init ltac:(lia) Hp Hi); [reflexivity|assumption..].
  - intros a b pre x mid y post Ha Hb. rewrite !ccitt_fold_refl by assumption.
    replace 32767 with (Z.of_nat (Z.to_nat 32766) + 1) by lia.
    apply (refl_double 16 0x8408 init ltac:(lia) Hp Hi (Z.to_nat 32766)); [reflexivity| |assumption..].
    vm_compute. reflexivity.
Qed.
Lemma sab2_guarantees init : 0 <= init < 65536 ->
  detects_bursts 16 (fun d => fold_left sab2_crcUpdate d init) /\
  detects_odd (fun d => fold_left sab2_crcUpdate d init) /\
  detects_double 32767 (fun d => fold_left sab2_crcUpdate d init).
Proof.
  intro Hi. assert (0 <= 0xA001 < 2 ^ Z.of_nat 16) as Hp by (cbn; lia).
  repeat split.
  - apply (refl_bursts 16 0xA001 init ltac:(lia) Hp Hi). reflexivity.
  - apply (refl_odd 16 0xA001 init ltac:(lia) Hp Hi). reflexivity.
  - replace 32767 with (Z.of_nat (Z.to_nat 32766) + 1) by lia.
    apply (refl_double 16 0xA001 init ltac:(lia) Hp Hi (Z.to_nat 32766)); [reflexivity|]. vm_compute. reflexivity.
Qed.
Lemma sab_guarantees init : byte init ->
  detects_bursts 8 (fun d => fold_left sab_crcUpdate d init) /\
  detects_odd (fun d => fold_left sab_crcUpdate d init) /\
  detects_double 127 (fun d => fold_left sab_crcUpdate d init).
Proof.
  intro Hi. assert (0 <= 0x8C < 2 ^ Z.of_nat 8) as Hp by (cbn; lia).
  repeat split.
  - apply (refl_bursts 8 0x8C init ltac:(lia) Hp Hi). reflexivity.
  - apply (refl_odd 8 0x8C init ltac:(lia) Hp Hi). reflexivity.
  - apply (refl_double 8 0x8C init ltac:(lia) Hp Hi 126%nat); [reflexivity|]. vm_compute. reflexivity.
Qed.
Lemma crc32_bursts : detects_bursts 32 crc32.
Proof.
  intros a b pre d1 d2 post Ha Hb Ea Eb Hl Hd Hne Hf. apply Hne.
  pose proof (crc32_value a Ha) as Va. pose proof (crc32_value b Hb) as Vb. rewrite Ea in Va. rewrite Eb, <- Hf in Vb.
  eapply (burst 32 0x104C11DB7); [lia|lia|reflexivity|exact Hl|exact Hd|exact Va|exact Vb].
Qed.

(* ---------- the broken crc8_ccitt ---------- *)

Lemma crc8_step_blind x : crc8_ccitt_step (Z.lxor x 0x80) = crc8_ccitt_step x.
Proof.
  unfold crc8_ccitt_step. rewrite Z.shiftl_lxor, land_lxor_distr. change (Z.land (Z.shiftl 0x80 1) 0xFF) with 0.
  rewrite Z.lxor_0_r. reflexivity.
Qed.
Lemma crc8_update_blind crc d : crc8_ccitt_update crc (Z.lxor d 0x80) = crc8_ccitt_update crc d.
Proof.
  unfold crc8_ccitt_update. replace (Z.lxor (Z.lxor d 0x80) crc) with (Z.lxor (Z.lxor d crc) 0x80).
  - rewrite !(nat_iter_Sr 7), crc8_step_blind. reflexivity.
  - rewrite !Z.lxor_assoc. f_equal. apply Z.lxor_comm.
Qed.
Lemma crc8_blind a b d : crc8_ccitt (a ++ Z.lxor d 0x80 :: b) = crc8_ccitt (a ++ d :: b).
Proof. unfold crc8_ccitt. rewrite !fold_left_app. cbn [fold_left]. rewrite crc8_update_blind. reflexivity. Qed.

(* ---------- appended checksum ---------- *)

Lemma refl_step_even poly x : Z.testbit x 0 = false -> refl_step poly x = x / 2.
Proof. intro H. rewrite refl_step_alt, H, Z.lxor_0_r, Z.shiftr_div_pow2 by lia. reflexivity. Qed.
Lemma refl_iter_shift poly k b : Nat.iter k (refl_step poly) (b * 2 ^ Z.of_nat k) = b.
Proof.
  revert b. induction k as [|k IH]; intro b; [cbn; lia|].
  rewrite nat_iter_Sr, refl_step_even.
  - replace (b * 2 ^ Z.of_nat (S k) / 2) with (b * 2 ^ Z.of_nat k); [apply IH|].
    rewrite Nat2Z.inj_succ, Z.pow_succ_r by lia. rewrite (Z.mul_comm 2), Z.mul_assoc, Z.div_mul by lia. reflexivity.
  - rewrite Nat2Z.inj_succ, Z.pow_succ_r by lia. replace (b * (2 * 2 ^ Z.of_nat k)) with (2 * (b * 2 ^ Z.of_nat k)) by lia.
    apply Z.testbit_even_0.
Qed.
Lemma refl_iter_0 poly k : Nat.iter k (refl_step poly) 0 = 0.
Proof. rewrite <- (refl_iter_shift poly k 0) at 2. reflexivity. Qed.

Lemma refl_step_kernel n poly x : 2 ^ (n - 1) <= poly -> 0 < n -> 0 <= x < 2 ^ n -> refl_step poly x = 0 -> x = 0.
Proof.
  intros Hp Hn Hx H. replace n with (n - 1 + 1) in Hx by lia. rewrite Z.pow_add_r in Hx by lia. change (2 ^ 1) with 2 in Hx.
  rewrite refl_step_alt, Z.shiftr_div_pow2 in H by lia. change (2 ^ 1) with 2 in H. apply Z.lxor_eq in H.
  destruct (Z.testbit x 0) eqn:E; [lia|]. pose proof (half_split x) as Hs. rewrite E in Hs. cbn [Z.b2z] in Hs. lia.
Qed.
Lemma refl_iter_kernel n poly x k : 2 ^ (Z.of_nat n - 1) <= poly < 2 ^ Z.of_nat n -> (0 < n)%nat -> 0 <= x < 2 ^ Z.of_nat n ->
  Nat.iter k (refl_step poly) x = 0 -> x = 0.
Proof.
  intros Hp Hn. assert (0 <= poly) by (pose proof (Z.pow_nonneg 2 (Z.of_nat n - 1)); lia).
  induction k as [|k IH]; intros Hx H1; [exact H1|].
  rewrite nat_iter_S in H1. apply IH; [exact Hx|].
  apply (refl_step_kernel (Z.of_nat n) poly); [lia|lia| |exact H1]. apply refl_iter_range; lia.
Qed.

(* feeding a register its own value, low byte first, clears it, and nothing else does *)
Lemma residue_gen (k : nat) r a b : Z.of_nat k = 8 -> 0 <= r < 65536 -> byte a -> byte b ->
  (Nat.iter k (refl_step 0xA001) (Z.lxor (Nat.iter k (refl_step 0xA001) (Z.lxor r a)) b) = 0
   <-> a = r mod 256 /\ b = r / 256).
Proof.
  intros Hk Hr Ha Hb. assert (0 <= 0xA001 < 2 ^ Z.of_nat 16) as Hp by (cbn; lia).
  assert (forall c, 0 <= c < 256 -> 0 <= c * 2 ^ Z.of_nat k < 2 ^ Z.of_nat 16) as Hc by (intros c; rewrite Hk; cbn; lia).
  pose proof (byte_lt_pow 16 b ltac:(lia) Hb) as Hb'. pose proof (byte_lt_pow 16 a ltac:(lia) Ha) as Ha'.
  split.
  - intro H. apply (refl_iter_kernel 16) in H; [|cbn; lia|lia|].
    2: { apply lxor_lt; [lia| |exact Hb']. apply refl_iter_range; [exact Hp|]. apply lxor_lt; [lia|exact Hr|exact Ha']. }
    apply Z.lxor_eq in H.
    assert (Nat.iter k (refl_step 0xA001) (Z.lxor (Z.lxor r a) (b * 2 ^ Z.of_nat k)) = 0) as H0.
    { rewrite (additive_iter _ k (refl_step_additive 0xA001)), refl_iter_shift, H. apply Z.lxor_nilpotent. }
    apply (refl_iter_kernel 16) in H0; [|cbn; lia|lia|].
    2: { apply lxor_lt; [lia| |apply Hc; exact Hb]. apply lxor_lt; [lia|exact Hr|exact Ha']. }
    apply Z.lxor_eq in H0. assert (r = Z.lxor (Z.shiftl b 8) a) as E.
    { rewrite Z.shiftl_mul_pow2, <- Hk by lia. rewrite <- H0, Z.lxor_assoc, Z.lxor_nilpotent, Z.lxor_0_r. reflexivity. }
    unfold byte in *. rewrite lxor_small_shift in E by (cbn; lia). change (2 ^ 8) with 256 in E. lia.
  - intros [-> ->].
    assert (Z.lxor r (r mod 256) = (r / 256) * 2 ^ Z.of_nat k) as ->.
    { assert (r = Z.lxor (Z.shiftl (r / 256) 8) (r mod 256)) as E.
      { rewrite lxor_small_shift by (cbn; lia). change (2 ^ 8) with 256. lia. }
      rewrite E at 1. rewrite Z.lxor_assoc, Z.lxor_nilpotent, Z.lxor_0_r, Z.shiftl_mul_pow2, Hk by lia. reflexivity. }
    rewrite refl_iter_shift, Z.lxor_nilpotent. apply refl_iter_0.
Qed.
Lemma residue16 r a b : 0 <= r < 65536 -> byte a -> byte b ->
  (sab2_crcUpdate (sab2_crcUpdate r a) b = 0 <-> a = r mod 256 /\ b = r / 256).
Proof. exact (residue_gen 8 r a b eq_refl). Qed.
