From Verif Require Import Base BitsProofs RegModel.

(* a value of the underlying type *)
Definition fits (w v : Z) : Prop := 0 <= v < 2 ^ w.
Lemma fits_high w v j : 0 <= w -> fits w v -> w <= j -> Z.testbit v j = false.
Proof.
  intros W [A B] J. destruct (Z.eq_dec v 0) as [->|N]; [apply Z.bits_0|]. apply Z.bits_above_log2; [exact A|].
  apply Z.log2_lt_pow2; [lia|]. apply Z.lt_le_trans with (2 ^ w); [exact B|]. apply Z.pow_le_mono_r; lia.
Qed.
Lemma bits_fits w v : 0 <= w -> 0 <= v -> (forall j, w <= j -> Z.testbit v j = false) -> fits w v.
Proof.
  intros W V H. split; [exact V|]. destruct (Z.lt_ge_cases v (2 ^ w)) as [L|L]; [exact L|]. exfalso.
  assert (w <= Z.log2 v) as G. { apply Z.log2_le_pow2; [|exact L]. pose proof (Z.pow_pos_nonneg 2 w ltac:(lia) W). lia. }
  specialize (H _ G). rewrite Z.bit_log2 in H; [discriminate|]. pose proof (Z.pow_pos_nonneg 2 w ltac:(lia) W). lia.
Qed.
Lemma zero_iff v : v = 0 <-> forall j, 0 <= j -> Z.testbit v j = false.
Proof.
  split; [intros -> j _; apply Z.bits_0|]. intro H. apply Z.bits_inj. intro n. rewrite Z.bits_0. destruct (Z.lt_ge_cases n 0) as [L|L]; [apply Z.testbit_neg_r; exact L|apply H; exact L].
Qed.
Lemma land_zero v o : Z.land v o = 0 <-> forall j, 0 <= j -> Z.testbit o j = true -> Z.testbit v j = false.
Proof.
  rewrite zero_iff. split; intros H j J.
  - intro T. specialize (H j J). rewrite Z.land_spec, T, andb_true_r in H. exact H.
  - rewrite Z.land_spec. destruct (Z.testbit o j) eqn:T; [rewrite (H j J T); reflexivity|apply andb_false_r].
Qed.
Lemma land_nonzero v o : 0 <= o -> (Z.land v o <> 0 <-> exists j, 0 <= j /\ Z.testbit o j = true /\ Z.testbit v j = true).
Proof.
  intro O. assert (0 <= Z.land v o) as Ln by (apply Z.land_nonneg; right; exact O). split.
  - intro N. exists (Z.log2 (Z.land v o)). split; [apply Z.log2_nonneg|]. assert (Z.testbit (Z.land v o) (Z.log2 (Z.land v o)) = true) as B by (apply Z.bit_log2; lia). rewrite Z.land_spec in B. apply andb_prop in B. tauto.
  - intros (j & J & A & B) E. rewrite land_zero in E. rewrite (E j J A) in B. discriminate.
Qed.
Lemma land_all v o : Z.land v o = o <-> forall j, 0 <= j -> Z.testbit o j = true -> Z.testbit v j = true.
Proof.
  split; intro H.
  - intros j J T. rewrite <- H, Z.land_spec in T. apply andb_prop in T. tauto.
  - apply Z.bits_inj'. intros n N. rewrite Z.land_spec. destruct (Z.testbit o n) eqn:T; [rewrite (H n N T); reflexivity|apply andb_false_r].
Qed.

Lemma cf_set_bit w mask pos v c j : 0 <= pos -> 0 <= j -> 0 <= w ->
  Z.testbit (cf_set w mask pos v c) j = (if j <? w then (Z.testbit v j && negb (Z.testbit mask (j - pos))) || Z.testbit c (j - pos) else false).
Proof. intros P J W. unfold cf_set. rewrite wrap_testbit by lia. destruct (j <? w) eqn:E; [|reflexivity]. rewrite Z.lor_spec, Z.land_spec, Z.lnot_spec, !Z.shiftl_spec by lia. reflexivity. Qed.
Lemma vl_mask_bit w width pos j : 0 <= pos -> 0 <= width -> 0 <= j -> 0 <= w -> Z.testbit (vl_mask w width pos) j = (pos <=? j) && (j <? pos + width) && (j <? w).
Proof.
  intros P Wd J W. unfold vl_mask. rewrite wrap_testbit by lia. destruct (j <? w) eqn:E; [|rewrite andb_false_r; reflexivity]. rewrite andb_true_r. rewrite Z.shiftl_spec by lia.
  rewrite Z.shiftl_mul_pow2, Z.mul_1_l by lia. rewrite <- Z.ones_equiv || idtac. assert (2 ^ width - 1 = Z.ones width) as -> by (rewrite Z.ones_equiv; lia).
  destruct (Z.lt_ge_cases (j - pos) 0) as [L|L].
  - rewrite Z.testbit_neg_r by lia. assert ((pos <=? j) = false) as -> by lia. reflexivity.
  - assert ((pos <=? j) = true) as -> by lia. cbn [andb]. destruct (Z.lt_ge_cases (j - pos) width) as [K|K].
    + rewrite Z.ones_spec_low by lia. symmetry. lia.
    + rewrite Z.ones_spec_high by lia. symmetry. lia.
Qed.
Lemma vl_set_bit w width pos v c j : 0 <= pos -> 0 <= width -> 0 <= j -> 0 <= w ->
  Z.testbit (vl_set w width pos v c) j = (if j <? w then if (pos <=? j) && (j <? pos + width) then Z.testbit c (j - pos) else Z.testbit v j else false).
Proof.
  intros P Wd J W. unfold vl_set. rewrite wrap_testbit by lia. destruct (j <? w) eqn:E; [|reflexivity]. rewrite Z.lor_spec, !Z.land_spec, Z.lnot_spec, Z.shiftl_spec, vl_mask_bit by lia. rewrite E, andb_true_r.
  destruct ((pos <=? j) && (j <? pos + width)); cbn [negb]; rewrite ?andb_true_r, ?andb_false_r, ?orb_false_r, ?orb_false_l; reflexivity.
Qed.
