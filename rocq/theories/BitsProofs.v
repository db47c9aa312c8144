From Verif Require Import Base BitLemmas BitsModel BitsSpec.

Lemma lor_lt a b n : 0 <= n -> 0 <= a < 2 ^ n -> 0 <= b < 2 ^ n -> 0 <= Z.lor a b < 2 ^ n.
Proof.
  intros Hn Ha Hb. split; [apply Z.lor_nonneg; lia|].
  apply lt_pow2_bits; [lia|apply Z.lor_nonneg; lia|].
  intros i Hi. rewrite Z.lor_spec, (testbit_high a n), (testbit_high b n) by lia. reflexivity.
Qed.
Lemma land_lt a m n : 0 <= n -> 0 <= m < 2 ^ n -> 0 <= Z.land a m < 2 ^ n.
Proof.
  intros Hn Hm. split; [apply Z.land_nonneg; lia|].
  apply lt_pow2_bits; [lia|apply Z.land_nonneg; lia|].
  intros i Hi. rewrite Z.land_spec, (testbit_high m n) by lia. apply andb_false_r.
Qed.
Lemma wrap_testbit w x i : 0 <= w -> Z.testbit (wrap w x) i = if i <? w then Z.testbit x i else false.
Proof.
  intro Hw. unfold wrap. destruct (i <? w) eqn:E; [apply Z.mod_pow2_bits_low; lia|apply Z.mod_pow2_bits_high; lia].
Qed.

Definition layer (s m : Z) (n : Z) : Z := Z.lor (Z.land (Z.shiftr n s) m) (Z.land (Z.shiftl n s) (Z.shiftl m s)).

(* bit i of a layer is bit (i xor s) *)
Definition layer_mask (w s m : Z) : bool :=
  forallb (fun k => let i := Z.of_nat k in
     eqb (Z.testbit m i) (Z.lxor i s =? i + s) && eqb (Z.testbit (Z.shiftl m s) i) (Z.lxor i s =? i - s)
     && ((Z.lxor i s =? i + s) || (Z.lxor i s =? i - s))) (seq 0 (Z.to_nat w)).

Lemma layer_spec w s m n i : 0 < s -> layer_mask w s m = true -> 0 <= i < w ->
  Z.testbit (layer s m n) i = Z.testbit n (Z.lxor i s).
Proof.
  intros Hs Hm Hi. unfold layer_mask in Hm. rewrite forallb_forall in Hm.
  specialize (Hm (Z.to_nat i)). rewrite in_seq in Hm. specialize (Hm ltac:(lia)). cbv zeta in Hm.
  rewrite Z2Nat.id in Hm by lia. apply andb_prop in Hm as [Hm H3]. apply andb_prop in Hm as [H1 H2].
  apply eqb_prop in H1, H2. unfold layer. rewrite Z.lor_spec, !Z.land_spec, H1, H2, Z.shiftr_spec, (Z.shiftl_spec n) by lia.
  destruct (Z.lxor i s =? i + s) eqn:E1, (Z.lxor i s =? i - s) eqn:E2; try discriminate.
  - lia.
  - replace (Z.lxor i s) with (i + s) by lia. rewrite andb_true_r, andb_false_r, orb_false_r. reflexivity.
  - replace (Z.lxor i s) with (i - s) by lia. rewrite andb_true_r, andb_false_r, orb_false_l. reflexivity.
Qed.

Lemma wrap_layer_spec w s m n i : 0 < s -> 0 <= w -> layer_mask w s m = true -> 0 <= i < w ->
  Z.testbit (wrap w (layer s m n)) i = Z.testbit n (Z.lxor i s).
Proof.
  intros Hs Hw Hm Hi. rewrite wrap_testbit by lia. replace (i <? w) with true by lia. apply (layer_spec w); assumption.
Qed.

Lemma land_wrap_mask w x m : 0 <= w -> 0 <= m < 2 ^ w -> Z.land (wrap w x) m = Z.land x m.
Proof.
  intros Hw Hm. apply Z.bits_inj'. intros i Hi. rewrite !Z.land_spec, wrap_testbit by lia.
  destruct (i <? w) eqn:E; [reflexivity|]. rewrite (testbit_high m w) by lia. rewrite !andb_false_r. reflexivity.
Qed.

Lemma lxor_range_w w i s : 0 <= w -> 0 <= i < 2 ^ w -> 0 <= s < 2 ^ w -> 0 <= Z.lxor i s < 2 ^ w.
Proof. intros. apply lxor_lt; assumption. Qed.

(* ---- swap ---- *)
Lemma swap8_val n : 0 <= n < 256 -> swap8 n = (n mod 16) * 16 + n / 16.
Proof.
  intro Hn. unfold swap8, u8. rewrite <- (Z.lxor_lor).
  2: { apply Z.bits_inj'. intros i Hi. rewrite Z.land_spec, Z.bits_0, Z.shiftl_spec, Z.shiftr_spec by lia.
       destruct (Z_lt_dec i 4); [rewrite Z.testbit_neg_r by lia; reflexivity|].
       rewrite (testbit_high n 8 (i + 4)) by (cbn; lia). apply andb_false_r. }
  rewrite <- Z.add_nocarry_lxor.
  2: { apply Z.bits_inj'. intros i Hi. rewrite Z.land_spec, Z.bits_0, Z.shiftl_spec, Z.shiftr_spec by lia.
       destruct (Z_lt_dec i 4); [rewrite Z.testbit_neg_r by lia; reflexivity|].
       rewrite (testbit_high n 8 (i + 4)) by (cbn; lia). apply andb_false_r. }
  unfold wrap. rewrite Z.shiftl_mul_pow2, Z.shiftr_div_pow2 by lia. change (2 ^ 4) with 16. change (2 ^ 8) with 256. lia.
Qed.
Lemma swap16_val n : 0 <= n < 65536 -> swap16 n = (n mod 256) * 256 + n / 256.
Proof.
  intro Hn. unfold swap16, u16. assert (Z.land (Z.shiftl n 8) (Z.shiftr n 8) = 0) as H0.
  { apply Z.bits_inj'. intros i Hi. rewrite Z.land_spec, Z.bits_0, Z.shiftl_spec, Z.shiftr_spec by lia.
       destruct (Z_lt_dec i 8); [rewrite Z.testbit_neg_r by lia; reflexivity|].
       rewrite (testbit_high n 16 (i + 8)) by (cbn; lia). apply andb_false_r. }
  rewrite <- Z.lxor_lor, <- Z.add_nocarry_lxor by exact H0.
  unfold wrap. rewrite Z.shiftl_mul_pow2, Z.shiftr_div_pow2 by lia. change (2 ^ 8) with 256. change (2 ^ 16) with 65536. lia.
Qed.
Lemma add_disj a b k : 0 <= k -> 0 <= b < 2 ^ k -> Z.lor (a * 2 ^ k) b = a * 2 ^ k + b.
Proof.
  intros Hk Hb. assert (Z.land (a * 2 ^ k) b = 0) as H0.
  { rewrite <- Z.shiftl_mul_pow2 by lia. apply Z.bits_inj'. intros i Hi. rewrite Z.land_spec, Z.bits_0, Z.shiftl_spec by lia.
    destruct (Z_lt_dec i k); [rewrite Z.testbit_neg_r by lia; reflexivity|].
    rewrite (testbit_high b k) by lia. apply andb_false_r. }
  rewrite <- Z.lxor_lor, <- Z.add_nocarry_lxor by exact H0. reflexivity.
Qed.
Lemma land_byte_at x k : 0 <= k -> Z.land x (Z.shiftl 0xff k) = ((x / 2 ^ k) mod 256) * 2 ^ k.
Proof.
  intro Hk. rewrite <- Z.shiftl_mul_pow2 by lia. apply Z.bits_inj'. intros i Hi.
  rewrite Z.land_spec, !Z.shiftl_spec by lia. destruct (Z_lt_dec i k).
  - rewrite !(Z.testbit_neg_r _ (i - k)) by lia. apply andb_false_r.
  - change 256 with (2 ^ 8). change 0xff with (Z.ones 8). destruct (Z_lt_dec (i - k) 8).
    + rewrite Z.ones_spec_low, Z.mod_pow2_bits_low, Z.div_pow2_bits by lia. rewrite andb_true_r. f_equal. lia.
    + rewrite Z.ones_spec_high, Z.mod_pow2_bits_high by lia. apply andb_false_r.
Qed.
Lemma swap32_val n : 0 <= n < 2 ^ 32 ->
  swap32 n = (n mod 256) * 2 ^ 24 + (n / 256 mod 256) * 2 ^ 16 + (n / 65536 mod 256) * 2 ^ 8 + n / 2 ^ 24.
Proof.
  intro Hn. change (2 ^ 32) with 4294967296 in Hn. unfold swap32, u32, wrap.
  change 0xff0000 with (Z.shiftl 0xff 16). change 0xff00 with (Z.shiftl 0xff 8). rewrite !land_byte_at by lia.
  rewrite !Z.shiftl_mul_pow2, !Z.shiftr_div_pow2 by lia.
  replace (n * 2 ^ 24 mod 4294967296) with ((n mod 256) * 2 ^ 24) by (cbn; lia).
  replace ((n * 2 ^ 8 mod 4294967296 / 2 ^ 16) mod 256) with (n / 256 mod 256) by (cbn; lia).
  replace ((n / 2 ^ 8 / 2 ^ 8) mod 256) with (n / 65536 mod 256) by (cbn; lia).
  rewrite (add_disj (n mod 256) ((n / 256 mod 256) * 2 ^ 16) 24) by (cbn; lia).
  replace (n mod 256 * 2 ^ 24 + n / 256 mod 256 * 2 ^ 16) with ((n mod 256 * 256 + n / 256 mod 256) * 2 ^ 16) by (cbn; lia).
  rewrite (add_disj _ (n / 65536 mod 256 * 2 ^ 8) 16) by (cbn; lia).
  replace ((n mod 256 * 256 + n / 256 mod 256) * 2 ^ 16 + n / 65536 mod 256 * 2 ^ 8)
    with (((n mod 256 * 256 + n / 256 mod 256) * 256 + n / 65536 mod 256) * 2 ^ 8) by (cbn; lia).
  rewrite add_disj by (cbn; lia). reflexivity.
Qed.

Lemma swap8_digits n : 0 <= n < 256 -> digits 16 2 (swap8 n) = rev (digits 16 2 n) /\ 0 <= swap8 n < 256.
Proof. intro Hn. rewrite swap8_val by exact Hn. cbn [digits rev app]. split; [|lia]. repeat (f_equal; [lia|]). f_equal; lia. Qed.
Lemma swap16_digits n : 0 <= n < 65536 -> digits 256 2 (swap16 n) = rev (digits 256 2 n) /\ 0 <= swap16 n < 65536.
Proof. intro Hn. rewrite swap16_val by exact Hn. cbn [digits rev app]. split; [|lia]. repeat (f_equal; [lia|]). f_equal; lia. Qed.
Lemma digits_step k h lo : 0 <= lo < 256 -> digits 256 (S k) (h * 256 + lo) = lo :: digits 256 k h.
Proof.
  intro H. cbn [digits]. f_equal; [rewrite Z.add_comm, Z.mod_add by lia; apply Z.mod_small; exact H|].
  f_equal. rewrite Z.div_add_l by lia. rewrite Z.div_small by lia. lia.
Qed.
Lemma bytes4 n : 0 <= n < 2 ^ 32 -> exists b0 b1 b2 b3, n = ((b3 * 256 + b2) * 256 + b1) * 256 + b0 /\
  0 <= b0 < 256 /\ 0 <= b1 < 256 /\ 0 <= b2 < 256 /\ 0 <= b3 < 256.
Proof.
  intro Hn. change (2 ^ 32) with 4294967296 in Hn.
  exists (n mod 256), (n / 256 mod 256), (n / 65536 mod 256), (n / 16777216). lia.
Qed.
Lemma swap32_bytes b0 b1 b2 b3 : 0 <= b0 < 256 -> 0 <= b1 < 256 -> 0 <= b2 < 256 -> 0 <= b3 < 256 ->
  swap32 (((b3 * 256 + b2) * 256 + b1) * 256 + b0) = ((b0 * 256 + b1) * 256 + b2) * 256 + b3.
Proof.
  intros H0 H1 H2 H3. set (n := ((b3 * 256 + b2) * 256 + b1) * 256 + b0).
  assert (n mod 256 = b0) as E0 by (unfold n; lia).
  assert (n / 256 mod 256 = b1) as E1 by (unfold n; lia).
  assert (n / 65536 mod 256 = b2) as E2 by (unfold n; lia).
  assert (n / 2 ^ 24 = b3) as E3 by (unfold n; cbn; lia).
  rewrite swap32_val by (unfold n; cbn; lia). rewrite E0, E1, E2, E3. cbn. lia.
Qed.
Lemma swap32_digits n : 0 <= n < 2 ^ 32 -> digits 256 4 (swap32 n) = rev (digits 256 4 n) /\ 0 <= swap32 n < 2 ^ 32.
Proof.
  intro Hn. destruct (bytes4 n Hn) as (b0 & b1 & b2 & b3 & -> & H0 & H1 & H2 & H3).
  rewrite swap32_bytes by assumption. split; [|cbn; lia].
  rewrite !digits_step by assumption. replace b0 with (0 * 256 + b0) at 1 by lia. rewrite digits_step by assumption.
  replace (digits 256 1 b3) with [b3]; [reflexivity|]. cbn. f_equal. symmetry. apply Z.mod_small. assumption.
Qed.
Lemma swap16_inv n : 0 <= n < 65536 -> swap16 (swap16 n) = n.
Proof. intro Hn. rewrite (swap16_val n) by exact Hn. rewrite swap16_val by lia. lia. Qed.
Lemma swap32_inv n : 0 <= n < 2 ^ 32 -> swap32 (swap32 n) = n.
Proof.
  intro Hn. destruct (bytes4 n Hn) as (b0 & b1 & b2 & b3 & -> & H0 & H1 & H2 & H3).
  rewrite !swap32_bytes by assumption. reflexivity.
Qed.

(* ---- bitReverse ---- *)
Definition rot_mask (h : Z) : bool :=
  forallb (fun k => let i := Z.of_nat k in Z.lxor i h =? (if i <? h then i + h else i - h)) (seq 0 (Z.to_nat (2 * h))).
Lemma rot_bits h n i : 0 < h -> 0 <= n < 2 ^ (2 * h) -> rot_mask h = true -> 0 <= i < 2 * h ->
  Z.testbit (wrap (2 * h) (Z.lor (Z.shiftl n h) (Z.shiftr n h))) i = Z.testbit n (Z.lxor i h).
Proof.
  intros Hh Hn Hm Hi. unfold rot_mask in Hm. rewrite forallb_forall in Hm. specialize (Hm (Z.to_nat i)).
  rewrite in_seq in Hm. specialize (Hm ltac:(lia)). cbv zeta in Hm. rewrite Z2Nat.id in Hm by lia.
  apply Z.eqb_eq in Hm. rewrite Hm. rewrite wrap_testbit by lia. replace (i <? 2 * h) with true by lia.
  rewrite Z.lor_spec, Z.shiftl_spec, Z.shiftr_spec by lia. destruct (i <? h) eqn:E.
  - rewrite (Z.testbit_neg_r _ (i - h)) by lia. reflexivity.
  - rewrite (testbit_high n (2 * h) (i + h)) by lia. apply orb_false_r.
Qed.

Lemma reversal_from w n r : 0 <= r < 2 ^ w ->
  (forall i, 0 <= i < w -> Z.testbit r i = Z.testbit n (Z.lxor i (w - 1))) ->
  (forallb (fun k => Z.lxor (Z.of_nat k) (w - 1) =? w - 1 - Z.of_nat k) (seq 0 (Z.to_nat w)) = true) ->
  is_reversal w n r.
Proof.
  intros Hr H Hc. split; [exact Hr|]. intros i Hi. rewrite H by exact Hi. f_equal.
  rewrite forallb_forall in Hc. specialize (Hc (Z.to_nat i)). rewrite in_seq in Hc. specialize (Hc ltac:(lia)).
  rewrite Z2Nat.id in Hc by lia. lia.
Qed.

Ltac in_range := apply lxor_range_w; [lia|cbn; lia|cbn; lia].

Lemma lxor_acc i a b : Z.lxor (Z.lxor i a) b = Z.lxor i (Z.lxor a b).
Proof. apply Z.lxor_assoc. Qed.

Lemma bitReverse8_correct n : 0 <= n < 256 -> is_reversal 8 n (bitReverse8 n).
Proof.
  intro Hn. unfold bitReverse8, swap8. cbv zeta. change u8 with (wrap 8). rewrite !(land_wrap_mask 8) by (cbn; lia).
  apply reversal_from; [apply wrap_range; lia| |reflexivity].
  intros i Hi. rewrite (rot_bits 4) by (try reflexivity; try lia; apply wrap_range; lia).
  assert (0 <= Z.lxor i 4 < 2 ^ 3) as H1 by in_range.
  set (n1 := wrap 8 (Z.lor (Z.land (Z.shiftr n 1) 85) (Z.land (Z.shiftl n 1) 170))).
  change (Z.lor (Z.land (Z.shiftr n1 2) 51) (Z.land (Z.shiftl n1 2) 204)) with (layer 2 0x33 n1).
  rewrite wrap_layer_spec by (try reflexivity; cbn in *; lia).
  assert (0 <= Z.lxor (Z.lxor i 4) 2 < 2 ^ 3) as H2 by (apply lxor_range_w; [lia|exact H1|cbn; lia]).
  unfold n1. change (Z.lor (Z.land (Z.shiftr n 1) 85) (Z.land (Z.shiftl n 1) 170)) with (layer 1 0x55 n).
  rewrite wrap_layer_spec by (try reflexivity; cbn in *; lia).
  rewrite !lxor_acc. reflexivity.
Qed.

Lemma bitReverse16_correct n : 0 <= n < 65536 -> is_reversal 16 n (bitReverse16 n).
Proof.
  intro Hn. unfold bitReverse16, swap16. cbv zeta. change u16 with (wrap 16).
  apply reversal_from; [apply wrap_range; lia| |reflexivity].
  intros i Hi. rewrite (rot_bits 8) by (try reflexivity; try lia; apply wrap_range; lia).
  assert (0 <= Z.lxor i 8 < 2 ^ 4) as H1 by in_range.
  change (Z.lor (Z.land (Z.shiftr n 1) 0x5555) (Z.land (Z.shiftl n 1) 0xaaaa)) with (layer 1 0x5555 n).
  set (n1 := wrap 16 (layer 1 0x5555 n)).
  change (Z.lor (Z.land (Z.shiftr n1 2) 0x3333) (Z.land (Z.shiftl n1 2) 0xcccc)) with (layer 2 0x3333 n1).
  set (n2 := wrap 16 (layer 2 0x3333 n1)).
  change (Z.lor (Z.land (Z.shiftr n2 4) 0x0f0f) (Z.land (Z.shiftl n2 4) 0xf0f0)) with (layer 4 0x0f0f n2).
  rewrite wrap_layer_spec by (try reflexivity; cbn in *; lia).
  assert (0 <= Z.lxor (Z.lxor i 8) 4 < 2 ^ 4) as H2 by (apply lxor_range_w; [lia|exact H1|cbn; lia]).
  unfold n2. rewrite wrap_layer_spec by (try reflexivity; cbn in *; lia).
  assert (0 <= Z.lxor (Z.lxor (Z.lxor i 8) 4) 2 < 2 ^ 4) as H3 by (apply lxor_range_w; [lia|exact H2|cbn; lia]).
  unfold n1. rewrite wrap_layer_spec by (try reflexivity; cbn in *; lia).
  rewrite !lxor_acc. reflexivity.
Qed.

Lemma bitReverse32_correct n : 0 <= n < 2 ^ 32 -> is_reversal 32 n (bitReverse32 n).
Proof.
  intro Hn. unfold bitReverse32. cbv zeta. change u32 with (wrap 32). rewrite !(land_wrap_mask 32) by (cbn; lia).
  apply reversal_from; [apply lor_lt; [lia| |]; apply land_lt; cbn; lia| |reflexivity].
  intros i Hi.
  change (Z.lor (Z.land (Z.shiftr n 1) 0x55555555) (Z.land (Z.shiftl n 1) 0xaaaaaaaa)) with (layer 1 0x55555555 n).
  set (n1 := layer 1 0x55555555 n).
  change (Z.lor (Z.land (Z.shiftr n1 2) 0x33333333) (Z.land (Z.shiftl n1 2) 0xcccccccc)) with (layer 2 0x33333333 n1).
  set (n2 := layer 2 0x33333333 n1).
  change (Z.lor (Z.land (Z.shiftr n2 4) 0x0f0f0f0f) (Z.land (Z.shiftl n2 4) 0xf0f0f0f0)) with (layer 4 0x0f0f0f0f n2).
  set (n3 := layer 4 0x0f0f0f0f n2).
  change (Z.lor (Z.land (Z.shiftr n3 8) 0x00ff00ff) (Z.land (Z.shiftl n3 8) 0xff00ff00)) with (layer 8 0x00ff00ff n3).
  set (n4 := layer 8 0x00ff00ff n3).
  change (Z.lor (Z.land (Z.shiftr n4 16) 0x0000ffff) (Z.land (Z.shiftl n4 16) 0xffff0000)) with (layer 16 0x0000ffff n4).
  rewrite (layer_spec 32) by (try reflexivity; cbn in *; lia).
  assert (0 <= Z.lxor i 16 < 2 ^ 5) as H1 by in_range.
  unfold n4. rewrite (layer_spec 32) by (try reflexivity; cbn in *; lia).
  assert (0 <= Z.lxor (Z.lxor i 16) 8 < 2 ^ 5) as H2 by (apply lxor_range_w; [lia|exact H1|cbn; lia]).
  unfold n3. rewrite (layer_spec 32) by (try reflexivity; cbn in *; lia).
  assert (0 <= Z.lxor (Z.lxor (Z.lxor i 16) 8) 4 < 2 ^ 5) as H3 by (apply lxor_range_w; [lia|exact H2|cbn; lia]).
  unfold n2. rewrite (layer_spec 32) by (try reflexivity; cbn in *; lia).
  assert (0 <= Z.lxor (Z.lxor (Z.lxor (Z.lxor i 16) 8) 4) 2 < 2 ^ 5) as H4 by (apply lxor_range_w; [lia|exact H3|cbn; lia]).
  unfold n1. rewrite (layer_spec 32) by (try reflexivity; cbn in *; lia).
  rewrite !lxor_acc. reflexivity.
Qed.

(* ---- leftmostBit ---- *)
Lemma leftmostBitHelper_correct fuel n : 0 <= n < 2 ^ Z.of_nat fuel -> Z.of_nat fuel <= 100 ->
  exists r, leftmostBitHelper (S fuel) n = Some r /\ 0 <= r <= Z.of_nat fuel /\ is_leftmost n (r - 1).
Proof.
  revert n. induction fuel as [|fuel IH]; intros n Hn Hf.
  - change (2 ^ Z.of_nat 0) with 1 in Hn. exists 0. cbn [leftmostBitHelper]. replace (n =? 0) with true by lia.
    split; [reflexivity|]. split; [lia|left; lia].
  - rewrite Nat2Z.inj_succ, Z.pow_succ_r in Hn by lia.
    remember (S fuel) as f1 eqn:Ef1. cbn [leftmostBitHelper].
    destruct (n =? 0) eqn:E; [exists 0; split; [reflexivity|split; [lia|left; lia]]|].
    rewrite Z.shiftr_div_pow2 by lia. change (2 ^ 1) with 2. subst f1.
    destruct (IH (n / 2) ltac:(lia) ltac:(lia)) as (r & -> & Hr & Hl). cbn [obind].
    exists (1 + r). rewrite swrap_small by (change (2 ^ (8 - 1)) with 128; lia). split; [reflexivity|]. split; [lia|].
    right. replace (1 + r - 1) with (r - 1 + 1) by lia. destruct Hl as [[H0 H1]|(H0 & H1)].
    + assert (r = 0) as -> by lia. change (2 ^ (0 - 1 + 1)) with 1. change (2 ^ (0 - 1 + 1 + 1)) with 2. lia.
    + split; [lia|]. rewrite !(Z.pow_add_r 2 (r - 1 + 1) 1), !(Z.pow_add_r 2 (r - 1) 1) in * by lia.
      change (2 ^ 1) with 2 in *. lia.
Qed.
Lemma leftmostBit_correct n : 0 <= n < 2 ^ 32 -> exists r, leftmostBit 33 n = Some r /\ is_leftmost n r.
Proof.
  intro Hn. destruct (leftmostBitHelper_correct 32 n ltac:(cbn in *; lia) ltac:(lia)) as (r & H & Hr & Hl).
  exists (r - 1). unfold leftmostBit. rewrite H. cbn [obind]. rewrite swrap_small by (change (2 ^ (8 - 1)) with 128; lia). split; [reflexivity|exact Hl].
Qed.

(* ---- bitCount ---- *)
Lemma popcount_S w n : popcount (S w) n = popcount w n + Z.b2z (Z.testbit n (Z.of_nat w)).
Proof.
  unfold popcount. rewrite seq_S, filter_app, zlen_app. f_equal. cbn [filter Nat.add]. 
  destruct (Z.testbit n (Z.of_nat w)); reflexivity.
Qed.
Lemma popcount_split k h lo : 0 <= lo < 256 -> popcount (8 + k) (h * 256 + lo) = popcount 8 lo + popcount k h.
Proof.
  intro Hl. induction k as [|k IH].
  - change (popcount 0 h) with 0. rewrite Z.add_0_r. rewrite Nat.add_0_r.
    repeat rewrite popcount_S. change (popcount 0 (h * 256 + lo)) with 0. change (popcount 0 lo) with 0.
    assert (forall i, 0 <= i < 8 -> Z.testbit (h * 256 + lo) i = Z.testbit lo i) as E.
    { intros i Hi. replace lo with ((h * 256 + lo) mod 2 ^ 8) at 2 by (change (2 ^ 8) with 256; lia).
      rewrite Z.mod_pow2_bits_low by lia. reflexivity. }
    rewrite !E by lia. reflexivity.
  - rewrite Nat.add_succ_r, (popcount_S (8 + k)), (popcount_S k), IH.
    replace (Z.testbit (h * 256 + lo) (Z.of_nat (8 + k))) with (Z.testbit h (Z.of_nat k)); [lia|].
    assert (h = (h * 256 + lo) / 2 ^ 8) as E by (change (2 ^ 8) with 256; lia).
    rewrite E at 1. rewrite Z.div_pow2_bits by lia. f_equal. lia.
Qed.

Lemma bitCount8_correct n : 0 <= n < 256 -> bitCount8 n = popcount 8 n.
Proof.
  intro Hn. assert (forallb (fun k => bitCount8 (Z.of_nat k) =? popcount 8 (Z.of_nat k)) (seq 0 256) = true) as H by (vm_compute; reflexivity).
  rewrite forallb_forall in H. specialize (H (Z.to_nat n)). rewrite in_seq in H. specialize (H ltac:(lia)).
  rewrite Z2Nat.id in H by lia. lia.
Qed.
Lemma bitCount16_correct n : 0 <= n < 65536 -> bitCount16 n = popcount 16 n.
Proof.
  intro Hn. unfold bitCount16, u8, wrap. rewrite Z.shiftr_div_pow2 by lia. change (2 ^ 8) with 256.
  rewrite !bitCount8_correct by lia. rewrite (Z.mod_small (n / 256)) by lia.
  rewrite <- popcount_split by lia. change (8 + 8)%nat with 16%nat. f_equal. lia.
Qed.

(* one stage of the parallel sum, on a word split into its low byte and the rest *)
Definition stage (k M n : Z) : Z := Z.land (Z.shiftr n k) M + Z.land n M.
Lemma join256 a b : 0 <= b < 256 -> a * 256 + b = Z.lor (Z.shiftl a 8) b.
Proof. intro H. rewrite Z.shiftl_mul_pow2 by lia. rewrite add_disj by (cbn; lia). reflexivity. Qed.
Lemma land_split h lo M m : 0 <= lo < 256 -> 0 <= m < 256 ->
  Z.land (h * 256 + lo) (M * 256 + m) = Z.land h M * 256 + Z.land lo m.
Proof.
  intros Hl Hm. assert (0 <= Z.land lo m < 2 ^ 8) as Hr by (apply land_lt; cbn; lia).
  change (2 ^ 8) with 256 in Hr. rewrite !join256 by lia. apply Z.bits_inj'. intros i Hi.
  rewrite !Z.land_spec, !Z.lor_spec, !Z.shiftl_spec, !Z.land_spec by lia.
  destruct (Z_lt_dec i 8).
  - rewrite !(Z.testbit_neg_r _ (i - 8)) by lia. reflexivity.
  - rewrite (testbit_high lo 8), (testbit_high m 8) by (cbn; lia). rewrite !orb_false_r. reflexivity.
Qed.
Lemma stage_split k h lo M m : 0 <= k <= 8 -> 0 <= lo < 256 -> 0 <= m < 2 ^ (8 - k) ->
  stage k (M * 256 + m) (h * 256 + lo) = stage k M h * 256 + stage k m lo.
Proof.
  intros Hk Hl Hm. assert (m < 256).
  { assert (2 ^ (8 - k) <= 2 ^ 8) by (apply Z.pow_le_mono_r; lia). change (2 ^ 8) with 256 in *. lia. }
  unfold stage. rewrite (land_split h lo M m) by lia.
  assert (Z.land (Z.shiftr (h * 256 + lo) k) (M * 256 + m) = Z.land (Z.shiftr h k) M * 256 + Z.land (Z.shiftr lo k) m) as ->; [|lia].
  assert (0 <= Z.land (Z.shiftr lo k) m < 2 ^ 8) as Hr by (apply land_lt; cbn; lia).
  change (2 ^ 8) with 256 in Hr. rewrite !join256 by lia. apply Z.bits_inj'. intros i Hi.
  rewrite Z.land_spec, Z.shiftr_spec by lia. rewrite !Z.lor_spec, !Z.shiftl_spec, !Z.land_spec, (Z.shiftr_spec lo) by lia.
  destruct (Z_lt_dec i 8).
  - rewrite !(Z.testbit_neg_r _ (i - 8)) by lia. cbn [orb andb]. destruct (Z_lt_dec i (8 - k)).
    + rewrite (Z.testbit_neg_r _ (i + k - 8)) by lia. reflexivity.
    + rewrite (testbit_high m (8 - k)) by lia. rewrite !andb_false_r. reflexivity.
  - rewrite (testbit_high lo 8 (i + k)), (testbit_high m 8) by (cbn; lia). rewrite !orb_false_r, Z.shiftr_spec by lia.
    replace (i + k - 8) with (i - 8 + k) by lia. rewrite ?andb_false_r, ?orb_false_r. reflexivity.
Qed.

Definition s1 (b : Z) := stage 1 0x55 b.
Definition s2 (b : Z) := stage 2 0x33 (s1 b).
Definition s3 (b : Z) := stage 4 0x0f (s2 b).
Lemma stages_byte b : 0 <= b < 256 -> 0 <= s1 b < 256 /\ 0 <= s2 b < 256 /\ s3 b = popcount 8 b /\ 0 <= s3 b <= 8.
Proof.
  intro Hn. assert (forallb (fun k => let b := Z.of_nat k in (0 <=? s1 b) && (s1 b <? 256) && (0 <=? s2 b) && (s2 b <? 256)
     && (s3 b =? popcount 8 b) && (0 <=? s3 b) && (s3 b <=? 8)) (seq 0 256) = true) as H by (vm_compute; reflexivity).
  rewrite forallb_forall in H. specialize (H (Z.to_nat b)). rewrite in_seq in H. specialize (H ltac:(lia)). cbv zeta in H.
  rewrite Z2Nat.id in H by lia. lia.
Qed.

Lemma stage4 k m b0 b1 b2 b3 : 0 <= k <= 8 -> 0 <= m < 2 ^ (8 - k) ->
  0 <= b0 < 256 -> 0 <= b1 < 256 -> 0 <= b2 < 256 ->
  stage k (((m * 256 + m) * 256 + m) * 256 + m) (((b3 * 256 + b2) * 256 + b1) * 256 + b0)
  = ((stage k m b3 * 256 + stage k m b2) * 256 + stage k m b1) * 256 + stage k m b0.
Proof. intros. rewrite !stage_split by assumption. reflexivity. Qed.

Lemma bitCount32_correct n : 0 <= n < 2 ^ 32 -> bitCount32 n = popcount 32 n.
Proof.
  intro Hn. change (2 ^ 32) with 4294967296 in Hn. unfold bitCount32. cbv zeta. change u32 with (wrap 32).
  set (b0 := n mod 256). set (b1 := n / 256 mod 256). set (b2 := n / 65536 mod 256). set (b3 := n / 16777216).
  assert (n = ((b3 * 256 + b2) * 256 + b1) * 256 + b0) as En by (unfold b0, b1, b2, b3; lia).
  assert (0 <= b0 < 256 /\ 0 <= b1 < 256 /\ 0 <= b2 < 256 /\ 0 <= b3 < 256) as (H0 & H1 & H2 & H3)
    by (unfold b0, b1, b2, b3; lia).
  clearbody b0 b1 b2 b3. subst n. clear Hn.
  pose proof (stages_byte b0 H0) as (A1 & A2 & A3 & A4). pose proof (stages_byte b1 H1) as (B1 & B2 & B3 & B4).
  pose proof (stages_byte b2 H2) as (C1 & C2 & C3 & C4). pose proof (stages_byte b3 H3) as (D1 & D2 & D3 & D4).
  set (n := ((b3 * 256 + b2) * 256 + b1) * 256 + b0).
  change (Z.land (Z.shiftr n 1) 0x55555555 + Z.land n 0x55555555) with (stage 1 (((0x55 * 256 + 0x55) * 256 + 0x55) * 256 + 0x55) n).
  unfold n. rewrite stage4 by (cbn; lia). fold (s1 b0) (s1 b1) (s1 b2) (s1 b3).
  rewrite (wrap_small 32 (_ * 256 + s1 b0)) by (cbn; lia).
  set (n1 := ((s1 b3 * 256 + s1 b2) * 256 + s1 b1) * 256 + s1 b0).
  change (Z.land (Z.shiftr n1 2) 0x33333333 + Z.land n1 0x33333333) with (stage 2 (((0x33 * 256 + 0x33) * 256 + 0x33) * 256 + 0x33) n1).
  unfold n1. rewrite stage4 by (cbn; lia). fold (s2 b0) (s2 b1) (s2 b2) (s2 b3).
  rewrite (wrap_small 32 (_ * 256 + s2 b0)) by (cbn; lia).
  set (n2 := ((s2 b3 * 256 + s2 b2) * 256 + s2 b1) * 256 + s2 b0).
  change (Z.land (Z.shiftr n2 4) 0x0f0f0f0f + Z.land n2 0x0f0f0f0f) with (stage 4 (((0x0f * 256 + 0x0f) * 256 + 0x0f) * 256 + 0x0f) n2).
  unfold n2. rewrite stage4 by (cbn; lia). fold (s3 b0) (s3 b1) (s3 b2) (s3 b3).
  rewrite (wrap_small 32 (_ * 256 + s3 b0)) by (cbn; lia).
  change 32%nat with (8 + (8 + (8 + 8)))%nat. rewrite !popcount_split by assumption.
  rewrite <- A3, <- B3, <- C3, <- D3. lia.
Qed.

(* ---- endianness ---- *)
Lemma endian16 big v : 0 <= v < 65536 ->
  fromBigEndian16 big (toBigEndian16 big v) = v /\ toBigEndian16 big (fromBigEndian16 big v) = v /\
  fromLittleEndian16 big (toLittleEndian16 big v) = v /\ toLittleEndian16 big (fromLittleEndian16 big v) = v /\
  memory big 2 (toBigEndian16 big v) = rev (digits 256 2 v) /\ memory big 2 (toLittleEndian16 big v) = digits 256 2 v.
Proof.
  intro Hv. destruct (swap16_digits v Hv) as [Hd _]. pose proof (swap16_inv v Hv) as Hi.
  unfold fromBigEndian16, toBigEndian16, fromLittleEndian16, toLittleEndian16, memory.
  destruct big; repeat split; try assumption. rewrite Hd, rev_involutive. reflexivity.
Qed.
Lemma endian32 big v : 0 <= v < 2 ^ 32 ->
  fromBigEndian32 big (toBigEndian32 big v) = v /\ toBigEndian32 big (fromBigEndian32 big v) = v /\
  fromLittleEndian32 big (toLittleEndian32 big v) = v /\ toLittleEndian32 big (fromLittleEndian32 big v) = v /\
  memory big 4 (toBigEndian32 big v) = rev (digits 256 4 v) /\ memory big 4 (toLittleEndian32 big v) = digits 256 4 v.
Proof.
  intro Hv. destruct (swap32_digits v Hv) as [Hd _]. pose proof (swap32_inv v Hv) as Hi.
  unfold fromBigEndian32, toBigEndian32, fromLittleEndian32, toLittleEndian32, memory.
  destruct big; repeat split; try assumption. rewrite Hd, rev_involutive. reflexivity.
Qed.

Lemma wrap_swrap w x : 0 < w -> wrap w (swrap w x) = wrap w x.
Proof.
  intro Hw. pose proof (Z.pow_pos_nonneg 2 w). unfold swrap, wrap.
  rewrite Zminus_mod_idemp_l. f_equal. lia.
Qed.
Lemma swrap_wrap w x : 0 < w -> swrap w (wrap w x) = swrap w x.
Proof. intro Hw. unfold swrap, wrap. rewrite Zplus_mod_idemp_l. reflexivity. Qed.

(* the signed overloads *)
Lemma signed_roundtrip w (f g : Z -> Z) v : 0 < w -> (forall u, 0 <= u < 2 ^ w -> g (f u) = u) ->
  (forall u, 0 <= u < 2 ^ w -> 0 <= f u < 2 ^ w) -> - 2 ^ (w - 1) <= v < 2 ^ (w - 1) ->
  signed_via w g (signed_via w f v) = v.
Proof.
  intros Hw Hgf Hf Hv. unfold signed_via. rewrite wrap_swrap by exact Hw.
  pose proof (wrap_range w v ltac:(lia)) as Hr. rewrite (wrap_small w (f (wrap w v))) by (apply Hf; exact Hr).
  rewrite Hgf by exact Hr. rewrite swrap_wrap by exact Hw. apply swrap_small; assumption.
Qed.
Lemma signed_endian big v :
  (- 32768 <= v < 32768 ->
   signed_via 16 (fromBigEndian16 big) (signed_via 16 (toBigEndian16 big) v) = v /\
   signed_via 16 (fromLittleEndian16 big) (signed_via 16 (toLittleEndian16 big) v) = v /\
   memory big 2 (wrap 16 (signed_via 16 (toBigEndian16 big) v)) = rev (digits 256 2 (wrap 16 v))) /\
  (- 2 ^ 31 <= v < 2 ^ 31 ->
   signed_via 32 (fromBigEndian32 big) (signed_via 32 (toBigEndian32 big) v) = v /\
   signed_via 32 (fromLittleEndian32 big) (signed_via 32 (toLittleEndian32 big) v) = v /\
   memory big 4 (wrap 32 (signed_via 32 (toBigEndian32 big) v)) = rev (digits 256 4 (wrap 32 v))).
Proof.
  split; intro Hv.
  - assert (forall u, 0 <= u < 65536 -> 0 <= toBigEndian16 big u < 65536) as R1.
    { intros u Hu. unfold toBigEndian16. destruct big; [exact Hu|apply swap16_digits; exact Hu]. }
    assert (forall u, 0 <= u < 65536 -> 0 <= toLittleEndian16 big u < 65536) as R2.
    { intros u Hu. unfold toLittleEndian16. destruct big; [apply swap16_digits; exact Hu|exact Hu]. }
    repeat split.
    + apply signed_roundtrip; [lia| |exact R1|exact Hv]. intros u Hu. apply (endian16 big u Hu).
    + apply signed_roundtrip; [lia| |exact R2|exact Hv]. intros u Hu. apply (endian16 big u Hu).
    + unfold signed_via. rewrite wrap_swrap by lia. pose proof (wrap_range 16 v ltac:(lia)) as Hr.
      rewrite (wrap_small 16 (toBigEndian16 big (wrap 16 v))) by (apply R1; exact Hr). apply (endian16 big _ Hr).
  - assert (forall u, 0 <= u < 2 ^ 32 -> 0 <= toBigEndian32 big u < 2 ^ 32) as R1.
    { intros u Hu. unfold toBigEndian32. destruct big; [exact Hu|apply swap32_digits; exact Hu]. }
    assert (forall u, 0 <= u < 2 ^ 32 -> 0 <= toLittleEndian32 big u < 2 ^ 32) as R2.
    { intros u Hu. unfold toLittleEndian32. destruct big; [apply swap32_digits; exact Hu|exact Hu]. }
    repeat split.
    + apply signed_roundtrip; [lia| |exact R1|exact Hv]. intros u Hu. apply (endian32 big u Hu).
    + apply signed_roundtrip; [lia| |exact R2|exact Hv]. intros u Hu. apply (endian32 big u Hu).
    + unfold signed_via. rewrite wrap_swrap by lia. pose proof (wrap_range 32 v ltac:(lia)) as Hr.
      rewrite (wrap_small 32 (toBigEndian32 big (wrap 32 v))) by (apply R1; exact Hr). apply (endian32 big _ Hr).
Qed.
