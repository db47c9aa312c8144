(* Theorems for C53: register bit fields *)
From Verif Require Import Base BitsProofs RegModel RegProofs.

(* set, reset, toggle and update change exactly the bits of the argument, and the value stays one of the underlying type *)
Theorem C53_flags : forall w v o b j, 0 < w -> fits w v -> fits w o -> 0 <= j ->
  Z.testbit (fl_set v o) j = (if Z.testbit o j then true else Z.testbit v j) /\
  Z.testbit (fl_reset w v o) j = (if Z.testbit o j then false else Z.testbit v j) /\
  Z.testbit (fl_toggle v o) j = (if Z.testbit o j then negb (Z.testbit v j) else Z.testbit v j) /\
  Z.testbit (fl_update w v o b) j = (if Z.testbit o j then b else Z.testbit v j) /\
  fits w (fl_set v o) /\ fits w (fl_reset w v o) /\ fits w (fl_toggle v o) /\ fits w (fl_update w v o b).
Proof.
  intros w v o b j W V O J.
  assert (forall j, 0 <= j -> Z.testbit (fl_set v o) j = (if Z.testbit o j then true else Z.testbit v j)) as A. { intros i I. unfold fl_set, rg_or. rewrite Z.lor_spec. destruct (Z.testbit o i), (Z.testbit v i); reflexivity. }
  assert (forall j, 0 <= j -> Z.testbit (fl_reset w v o) j = (if Z.testbit o j then false else Z.testbit v j)) as B.
  { intros i I. unfold fl_reset, rg_and, rg_not. rewrite Z.land_spec, wrap_testbit, Z.lnot_spec by lia. destruct (Z.lt_ge_cases i w) as [L|L].
    - assert ((i <? w) = true) as -> by lia. destruct (Z.testbit o i), (Z.testbit v i); reflexivity.
    - assert ((i <? w) = false) as -> by lia. rewrite (fits_high w o i), (fits_high w v i) by (assumption || lia). reflexivity. }
  assert (forall j, 0 <= j -> Z.testbit (fl_toggle v o) j = (if Z.testbit o j then negb (Z.testbit v j) else Z.testbit v j)) as C. { intros i I. unfold fl_toggle, rg_xor. rewrite Z.lxor_spec. destruct (Z.testbit o i), (Z.testbit v i); reflexivity. }
  assert (forall x f, (forall j, 0 <= j -> Z.testbit x j = (if Z.testbit o j then f (Z.testbit v j) else Z.testbit v j)) -> 0 <= x -> fits w x) as F.
  { intros x f H X. apply bits_fits; [lia|exact X|]. intros i I. rewrite H, (fits_high w o i), (fits_high w v i) by (assumption || lia). reflexivity. }
  assert (fits w (fl_set v o)) as F1. { apply (F _ (fun _ => true)); [exact A|]. apply Z.lor_nonneg. unfold fits in V, O. lia. }
  assert (fits w (fl_reset w v o)) as F2. { apply (F _ (fun _ => false)); [exact B|]. apply Z.land_nonneg. unfold fits in V. lia. }
  assert (fits w (fl_toggle v o)) as F3. { apply (F _ negb); [exact C|]. apply Z.lxor_nonneg. unfold fits in V, O. lia. }
  repeat split; try (apply A; lia); try (apply B; lia); try (apply C; lia); try apply F1; try apply F2; try apply F3; unfold fl_update; destruct b; try (apply (A j J)); try (apply (B j J)); try apply F1; apply F2.
Qed.
Example C53_flags_example : fl_set 0x51 0x03 = 0x53 /\ fl_reset 8 0x53 0x12 = 0x41 /\ fl_toggle 0x53 0x11 = 0x42 /\ fl_update 8 0x53 0x0f false = 0x50 /\ fits 8 0x53.
Proof. vm_compute. repeat split; discriminate. Qed.
Print Assumptions C53_flags.

(* all, any and none are the subset, overlap and disjointness of the bits *)
Theorem C53_queries : forall w v o, fits w o ->
  (fl_all v o = true <-> forall j, 0 <= j -> Z.testbit o j = true -> Z.testbit v j = true) /\
  (fl_any v o = true <-> exists j, 0 <= j /\ Z.testbit o j = true /\ Z.testbit v j = true) /\
  (fl_none v o = true <-> forall j, 0 <= j -> Z.testbit o j = true -> Z.testbit v j = false).
Proof.
  intros w v o [O _]. unfold fl_all, fl_any, fl_none, rg_and. rewrite <- land_all, <- land_zero, <- (land_nonzero v o O). lia.
Qed.
Example C53_queries_example : fl_all 0x53 0x41 = true /\ fl_all 0x53 0x45 = false /\ fl_any 0x53 0x45 = true /\ fl_none 0x53 0x2c = true.
Proof. vm_compute. repeat split. Qed.
Print Assumptions C53_queries.

(* the overloads for one enum value agree with the bit if the enum value is a single bit *)
Theorem C53_single_bit : forall v k, 0 <= k ->
  fl_all_enum v (2 ^ k) = Z.testbit v k /\ fl_any_enum v (2 ^ k) = Z.testbit v k /\ fl_none_enum v (2 ^ k) = negb (Z.testbit v k).
Proof.
  intros v k K. assert ((rg_and v (2 ^ k) =? 0) = negb (Z.testbit v k)) as E.
  { unfold rg_and. destruct (Z.testbit v k) eqn:T; cbn [negb].
    - apply Z.eqb_neq. intro X. rewrite land_zero in X. rewrite (X k K (Z.pow2_bits_true k K)) in T. discriminate.
    - apply Z.eqb_eq. apply land_zero. intros j J. rewrite Z.pow2_bits_eqb by exact K. intro X. assert (j = k) as -> by lia. exact T. }
  unfold fl_all_enum, fl_any_enum, fl_none_enum. rewrite E, negb_involutive. repeat split.
Qed.
Example C53_single_bit_example : fl_all_enum 0x53 (2 ^ 6) = true /\ fl_none_enum 0x53 (2 ^ 5) = true.
Proof. vm_compute. split; reflexivity. Qed.
Print Assumptions C53_single_bit.

(* but all(Enum) of an enum value with several bits is true when only some of them are set, unlike all(Flags) *)
Theorem C53_all_enum_refuted : exists v e, fits 8 v /\ fits 8 e /\ fl_all_enum v e = true /\ ~ (forall j, 0 <= j -> Z.testbit e j = true -> Z.testbit v j = true) /\ fl_all v e = false.
Proof. exists 1, 3. repeat split; try lia; try reflexivity. intro H. specialize (H 1 ltac:(lia) eq_refl). discriminate. Qed.
Print Assumptions C53_all_enum_refuted.

(* Configuration: get after set gives the configuration, no other bit changes; reset clears the field only *)
Theorem C53_configuration_partial : forall w mask pos v c j, 0 <= pos -> 0 <= mask -> fits w (Z.shiftl mask pos) -> fits w v -> 0 < w ->
  Z.land c mask = c -> 0 <= j ->
  cf_get mask pos (cf_set w mask pos v c) = c /\ fits w (cf_set w mask pos v c) /\
  Z.testbit (cf_set w mask pos v c) j = (if Z.testbit (cf_mask w mask pos) j then Z.testbit c (j - pos) else Z.testbit v j) /\
  cf_get mask pos (cf_reset w mask pos v) = 0 /\
  Z.testbit (cf_reset w mask pos v) j = (if Z.testbit (cf_mask w mask pos) j then false else Z.testbit v j) /\
  cf_make w pos c = cf_set w mask pos 0 c.
Proof.
  intros w mask pos v c j P M F V W C J.
  assert (forall i, 0 <= i -> Z.testbit c i = true -> Z.testbit mask i = true) as Cm. { intros i I T. rewrite <- C, Z.land_spec in T. apply andb_prop in T. tauto. }
  assert (forall i, 0 <= i -> Z.testbit mask i = true -> i + pos < w) as Mw.
  { intros i I T. destruct (Z.lt_ge_cases (i + pos) w) as [L|L]; [exact L|]. exfalso. pose proof (fits_high w _ (i + pos) ltac:(lia) F L) as H. rewrite Z.shiftl_spec in H by lia. replace (i + pos - pos) with i in H by lia. congruence. }
  assert (forall i, Z.testbit mask i = true -> 0 <= i) as Mn. { intros i T. destruct (Z.lt_ge_cases i 0) as [L|L]; [rewrite Z.testbit_neg_r in T by lia; discriminate|exact L]. }
  assert (forall i, 0 <= i -> Z.testbit (cf_mask w mask pos) i = Z.testbit mask (i - pos)) as Km.
  { intros i I. unfold cf_mask. rewrite wrap_testbit, Z.shiftl_spec by lia. destruct (i <? w) eqn:E; [reflexivity|]. symmetry. destruct (Z.testbit mask (i - pos)) eqn:T; [|reflexivity]. pose proof (Mw _ (Mn _ T) T). lia. }
  assert (forall i, 0 <= i -> Z.testbit (cf_set w mask pos v c) i = (if Z.testbit mask (i - pos) then Z.testbit c (i - pos) else Z.testbit v i)) as Sb.
  { intros i I. rewrite cf_set_bit by lia. destruct (i <? w) eqn:E.
    - destruct (Z.testbit mask (i - pos)) eqn:T; [rewrite andb_false_r; reflexivity|]. rewrite andb_true_r. destruct (Z.testbit c (i - pos)) eqn:Tc; [|apply orb_false_r].
      exfalso. destruct (Z.lt_ge_cases (i - pos) 0) as [L|L]; [rewrite Z.testbit_neg_r in Tc by lia; discriminate|]. rewrite (Cm _ L Tc) in T. discriminate.
    - rewrite (fits_high w v i) by (assumption || lia). destruct (Z.testbit mask (i - pos)) eqn:T; [|reflexivity]. pose proof (Mw _ (Mn _ T) T). lia. }
  assert (forall i, 0 <= i -> Z.testbit (cf_reset w mask pos v) i = (if Z.testbit mask (i - pos) then false else Z.testbit v i)) as Rb.
  { intros i I. unfold cf_reset. rewrite wrap_testbit by lia. destruct (i <? w) eqn:E.
    - rewrite Z.land_spec, Z.lnot_spec, Z.shiftl_spec by lia. destruct (Z.testbit mask (i - pos)); [apply andb_false_r|apply andb_true_r].
    - rewrite (fits_high w v i) by (assumption || lia). destruct (Z.testbit mask (i - pos)); reflexivity. }
  split; [|split; [|split; [|split; [|split]]]].
  - apply Z.bits_inj'. intros n N. unfold cf_get. rewrite Z.shiftr_spec, Z.land_spec, Sb, Z.shiftl_spec by lia. replace (n + pos - pos) with n by lia. destruct (Z.testbit mask n) eqn:T; [apply andb_true_r|]. rewrite andb_false_r. symmetry. destruct (Z.testbit c n) eqn:Tc; [rewrite (Cm n N Tc) in T; discriminate|reflexivity].
  - unfold cf_set. apply wrap_range. lia.
  - rewrite Sb, Km by exact J. reflexivity.
  - apply Z.bits_inj'. intros n N. rewrite Z.bits_0. unfold cf_get. rewrite Z.shiftr_spec, Z.land_spec, Rb, Z.shiftl_spec by lia. replace (n + pos - pos) with n by lia. destruct (Z.testbit mask n); [reflexivity|apply andb_false_r].
  - rewrite Rb, Km by exact J. reflexivity.
  - unfold cf_make, cf_set. rewrite Z.land_0_l, Z.lor_0_l. reflexivity.
Qed.
Example C53_configuration_example : cf_get 3 4 (cf_set 8 3 4 0xff 2) = 2 /\ cf_set 8 3 4 0xff 2 = 0xef /\ fits 8 (Z.shiftl 3 4) /\ Z.land 2 3 = 2.
Proof. vm_compute. repeat split; discriminate. Qed.
Print Assumptions C53_configuration_partial.

(* what is missing: a configuration with bits outside the mask is not cut off but changes foreign bits *)
Theorem C53_configuration_refuted : exists v c, fits 8 v /\ fits 8 c /\ Z.testbit (cf_mask 8 3 2) 4 = false /\ Z.testbit v 4 = false /\ Z.testbit (cf_set 8 3 2 v c) 4 = true /\ cf_get 3 2 (cf_set 8 3 2 v c) <> c.
Proof. exists 0, 4. repeat split; try lia; try reflexivity. vm_compute. discriminate. Qed.
Print Assumptions C53_configuration_refuted.

(* Value: get after set gives the value reduced to its width, whatever it was, and no bit outside the field ever changes *)
Theorem C53_value : forall w width pos v c j, 0 <= pos -> 0 < width -> pos + width <= w -> fits w v -> 0 <= c -> 0 <= j ->
  vl_get w width pos (vl_set w width pos v c) = c mod 2 ^ width /\ fits w (vl_set w width pos v c) /\
  (~ pos <= j < pos + width -> Z.testbit (vl_set w width pos v c) j = Z.testbit v j) /\
  vl_get w width pos (vl_reset w width pos v) = 0 /\
  (~ pos <= j < pos + width -> Z.testbit (vl_reset w width pos v) j = Z.testbit v j) /\
  vl_make w width pos c = vl_set w width pos 0 c /\ vl_get w width pos v = (v / 2 ^ pos) mod 2 ^ width.
Proof.
  intros w width pos v c j P Wd W V C J.
  assert (forall x, (forall n, 0 <= n -> Z.testbit (vl_get w width pos x) n = (n <? width) && Z.testbit x (n + pos))) as G.
  { intros x n N. unfold vl_get. rewrite Z.shiftr_spec, Z.land_spec, vl_mask_bit by lia. assert ((pos <=? n + pos) = true) as -> by lia. cbn [andb]. destruct (n <? width) eqn:E.
    - assert ((n + pos <? pos + width) = true) as -> by lia. assert ((n + pos <? w) = true) as -> by lia. apply andb_true_r.
    - assert ((n + pos <? pos + width) = false) as -> by lia. apply andb_false_r. }
  assert (forall x n, 0 <= n -> Z.testbit (x mod 2 ^ width) n = (n <? width) && Z.testbit x n) as Mb.
  { intros x n N. destruct (n <? width) eqn:E; [apply Z.mod_pow2_bits_low; lia|apply Z.mod_pow2_bits_high; lia]. }
  assert (forall i, 0 <= i -> Z.testbit (vl_reset w width pos v) i = (if (pos <=? i) && (i <? pos + width) then false else Z.testbit v i)) as Rb.
  { intros i I. unfold vl_reset. rewrite wrap_testbit by lia. destruct (i <? w) eqn:E.
    - rewrite Z.land_spec, Z.lnot_spec, vl_mask_bit by lia. rewrite E, andb_true_r. destruct ((pos <=? i) && (i <? pos + width)); [apply andb_false_r|apply andb_true_r].
    - rewrite (fits_high w v i) by (assumption || lia). destruct ((pos <=? i) && (i <? pos + width)); reflexivity. }
  split; [|split; [|split; [|split; [|split; [|split]]]]].
  - apply Z.bits_inj'. intros n N. rewrite G, Mb by exact N. destruct (n <? width) eqn:E; [|reflexivity]. cbn [andb]. rewrite vl_set_bit by lia. assert ((n + pos <? w) = true) as -> by lia. assert ((pos <=? n + pos) = true) as -> by lia. assert ((n + pos <? pos + width) = true) as -> by lia. cbn [andb]. f_equal. lia.
  - unfold vl_set. apply wrap_range. lia.
  - intro O. rewrite vl_set_bit by lia. assert ((pos <=? j) && (j <? pos + width) = false) as -> by lia. destruct (j <? w) eqn:E; [reflexivity|]. symmetry. apply (fits_high w); (assumption || lia).
  - apply Z.bits_inj'. intros n N. rewrite G, Z.bits_0, Rb by lia. destruct (n <? width) eqn:E; [|reflexivity]. assert ((pos <=? n + pos) && (n + pos <? pos + width) = true) as -> by lia. reflexivity.
  - intro O. rewrite Rb by exact J. assert ((pos <=? j) && (j <? pos + width) = false) as -> by lia. reflexivity.
  - unfold vl_make, vl_set. rewrite Z.land_0_l, Z.lor_0_l. reflexivity.
  - apply Z.bits_inj'. intros n N. rewrite G, Mb by exact N. rewrite <- Z.shiftr_div_pow2, Z.shiftr_spec by lia. reflexivity.
Qed.
Example C53_value_example : vl_get 8 3 1 (vl_set 8 3 1 0xff 0x0a) = 2 /\ vl_set 8 3 1 0xff 0x0a = 0xf5 /\ fits 8 0xff.
Proof. vm_compute. repeat split; discriminate. Qed.
Print Assumptions C53_value.
