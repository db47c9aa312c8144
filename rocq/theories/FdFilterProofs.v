From Verif Require Import Base BitLemmas CanModel FdModel FdSpec FdProofs.
From Verif Require BxProofs.

(** *** Words *)
Lemma filter_word_std t a i1 i2 : 0 <= t < 4 -> 0 <= a < 8 -> 0 <= i1 < 2048 -> 0 <= i2 < 2048 ->
  Z.lor (Z.lor (Z.lor (t * 2 ^ 30) (FilterConfig a)) (Z.land i2 2047)) (Z.shiftl (Z.land i1 2047) 16) = t * 1073741824 + a * 134217728 + i1 * 65536 + i2.
Proof.
  intros T A I1 I2. unfold FilterConfig. rewrite (BxProofs.land_mod i2 2047 11), (BxProofs.land_mod i1 2047 11) by reflexivity || lia. change (2 ^ 11) with 2048. rewrite !Z.mod_small by lia.
  rewrite !Z.shiftl_mul_pow2 by lia. rewrite <- Z.lor_assoc, (Z.lor_comm i2), Z.lor_assoc.
  rewrite (BxProofs.lor_add t (a * 2 ^ 27) 30) by (change (2 ^ 27) with 134217728; change (2 ^ 30) with 1073741824; lia).
  replace (t * 2 ^ 30 + a * 2 ^ 27) with ((t * 8 + a) * 2 ^ 27) by (change (2 ^ 27) with 134217728; change (2 ^ 30) with 1073741824; lia).
  rewrite (BxProofs.lor_add (t * 8 + a) (i1 * 2 ^ 16) 27) by (change (2 ^ 27) with 134217728; change (2 ^ 16) with 65536; lia).
  replace ((t * 8 + a) * 2 ^ 27 + i1 * 2 ^ 16) with (((t * 8 + a) * 2048 + i1) * 2 ^ 16) by (change (2 ^ 27) with 134217728; change (2 ^ 16) with 65536; lia).
  rewrite BxProofs.lor_add by (change (2 ^ 16) with 65536; lia). change (2 ^ 16) with 65536. lia.
Qed.
Lemma std_decode t a i1 i2 : 0 <= t < 4 -> 0 <= a < 8 -> 0 <= i1 < 2048 -> 0 <= i2 < 2048 ->
  let w := t * 1073741824 + a * 134217728 + i1 * 65536 + i2 in
  w / 2 ^ 27 mod 2 ^ 3 = a /\ w / 2 ^ 30 mod 2 ^ 2 = t /\ w / 2 ^ 16 mod 2 ^ 11 = i1 /\ w mod 2 ^ 11 = i2.
Proof.
  intros T A I1 I2. cbn zeta. change (2 ^ 27) with 134217728. change (2 ^ 3) with 8. change (2 ^ 30) with 1073741824. change (2 ^ 2) with 4. change (2 ^ 16) with 65536. change (2 ^ 11) with 2048.
  split; [|split; [|split]].
  - replace ((t * 1073741824 + a * 134217728 + i1 * 65536 + i2) / 134217728) with (t * 8 + a) by (apply (Z.div_unique _ _ _ (i1 * 65536 + i2)); lia). symmetry. apply (Z.mod_unique _ _ t); lia.
  - replace ((t * 1073741824 + a * 134217728 + i1 * 65536 + i2) / 1073741824) with t by (apply (Z.div_unique _ _ _ (a * 134217728 + i1 * 65536 + i2)); lia). apply Z.mod_small. lia.
  - replace ((t * 1073741824 + a * 134217728 + i1 * 65536 + i2) / 65536) with (t * 16384 + a * 2048 + i1) by (apply (Z.div_unique _ _ _ i2); lia). symmetry. apply (Z.mod_unique _ _ (t * 8 + a)); lia.
  - symmetry. apply (Z.mod_unique _ _ (t * 524288 + a * 65536 + i1 * 32)); lia.
Qed.
Lemma filter_word_ext0 a i1 : 0 <= a < 8 -> 0 <= i1 < 536870912 -> Z.lor (u32 (Z.shiftl (FilterConfig a) 2)) (Z.land i1 536870911) = a * 536870912 + i1.
Proof.
  intros A I1. unfold FilterConfig. rewrite Z.shiftl_shiftl by lia. rewrite BxProofs.shiftl_u32 by (lia || (change (2 ^ (27 + 2)) with 536870912; lia)).
  rewrite (BxProofs.land_mod i1 _ 29) by reflexivity || lia. change (27 + 2) with 29. rewrite Z.mod_small by (change (2 ^ 29) with 536870912; lia). rewrite BxProofs.lor_add by (change (2 ^ 29) with 536870912; lia). reflexivity.
Qed.
Lemma filter_word_ext1 t i2 : 0 <= t < 4 -> 0 <= i2 < 536870912 -> Z.lor (t * 2 ^ 30) (Z.land i2 536870911) = t * 1073741824 + i2.
Proof.
  intros T I2. rewrite (BxProofs.land_mod i2 _ 29) by reflexivity || lia. rewrite Z.mod_small by (change (2 ^ 29) with 536870912; lia). rewrite BxProofs.lor_add by (change (2 ^ 30) with 1073741824; lia). reflexivity.
Qed.
Lemma ext_decode t a i1 i2 : 0 <= t < 4 -> 0 <= a < 8 -> 0 <= i1 < 536870912 -> 0 <= i2 < 536870912 ->
  (a * 536870912 + i1) / 2 ^ 29 mod 2 ^ 3 = a /\ (a * 536870912 + i1) mod 2 ^ 29 = i1 /\ (t * 1073741824 + i2) / 2 ^ 30 mod 2 ^ 2 = t /\ (t * 1073741824 + i2) mod 2 ^ 29 = i2.
Proof.
  intros T A I1 I2. change (2 ^ 29) with 536870912. change (2 ^ 3) with 8. change (2 ^ 30) with 1073741824. change (2 ^ 2) with 4. split; [|split; [|split]].
  - replace ((a * 536870912 + i1) / 536870912) with a by (apply (Z.div_unique _ _ _ i1); lia). apply Z.mod_small. lia.
  - symmetry. apply (Z.mod_unique _ _ a); lia.
  - replace ((t * 1073741824 + i2) / 1073741824) with t by (apply (Z.div_unique _ _ _ i2); lia). apply Z.mod_small. lia.
  - symmetry. apply (Z.mod_unique _ _ (t * 2)); lia.
Qed.

(** *** Calls *)
Lemma current_snoc calls c i : current (calls ++ [c]) i = if k_index c =? i then Some c else current calls i.
Proof. unfold current. rewrite rev_app_distr. reflexivity. Qed.
Lemma clearStandard_ok base inst n : forall j r i, 0 <= i -> clearStandard n j base inst r (element base inst StdFilter i) = if (j <=? i) && (i <? j + Z.of_nat n) then 0 else r (element base inst StdFilter i).
Proof.
  induction n as [|n IH]; intros j r i I; cbn [clearStandard].
  - destruct (Z.leb_spec j i), (Z.ltb_spec i (j + Z.of_nat 0)); try reflexivity. lia.
  - rewrite IH by exact I. unfold store. rewrite std_addr. destruct (Z.eqb_spec (element base inst StdFilter i) (element base inst StdFilter j)) as [E|E].
    + unfold element, bytes in E. assert (i = j) as -> by lia. replace (j <=? j) with true by lia. replace (j <? j + Z.of_nat (S n)) with true by lia. destruct ((j + 1 <=? j) && (j <? j + 1 + Z.of_nat n)); reflexivity.
    + assert (i <> j) by congruence. replace ((j + 1 <=? i) && (i <? j + 1 + Z.of_nat n)) with ((j <=? i) && (i <? j + Z.of_nat (S n))) by (destruct (Z.leb_spec j i), (Z.leb_spec (j + 1) i), (Z.ltb_spec i (j + 1 + Z.of_nat n)), (Z.ltb_spec i (j + Z.of_nat (S n))); cbn; lia). reflexivity.
Qed.
Lemma clearStandard_out base inst n : forall j r x, (forall i, j <= i < j + Z.of_nat n -> x <> element base inst StdFilter i) -> clearStandard n j base inst r x = r x.
Proof.
  induction n as [|n IH]; intros j r x X; cbn [clearStandard]; [reflexivity|]. rewrite IH by (intros; apply X; lia). apply store_other. rewrite std_addr. apply X. lia.
Qed.
Lemma clearExtended_ok base inst n : forall j r i, 0 <= i -> clearExtended n j base inst r (element base inst ExtFilter i) = if (j <=? i) && (i <? j + Z.of_nat n) then 0 else r (element base inst ExtFilter i).
Proof.
  induction n as [|n IH]; intros j r i I; cbn [clearExtended].
  - destruct (Z.leb_spec j i), (Z.ltb_spec i (j + Z.of_nat 0)); try reflexivity. lia.
  - rewrite IH by exact I. unfold store. rewrite ext_addr. destruct (Z.eqb_spec (element base inst ExtFilter i) (element base inst ExtFilter j)) as [E|E].
    + unfold element, bytes in E. assert (i = j) as -> by lia. replace (j <=? j) with true by lia. replace (j <? j + Z.of_nat (S n)) with true by lia. destruct ((j + 1 <=? j) && (j <? j + 1 + Z.of_nat n)); reflexivity.
    + assert (i <> j) by congruence. replace ((j + 1 <=? i) && (i <? j + 1 + Z.of_nat n)) with ((j <=? i) && (i <? j + Z.of_nat (S n))) by (destruct (Z.leb_spec j i), (Z.leb_spec (j + 1) i), (Z.ltb_spec i (j + 1 + Z.of_nat n)), (Z.ltb_spec i (j + Z.of_nat (S n))); cbn; lia). reflexivity.
Qed.
Lemma clearExtended_out base inst n : forall j r x, (forall i, j <= i < j + Z.of_nat n -> x <> element base inst ExtFilter i) -> clearExtended n j base inst r x = r x.
Proof.
  induction n as [|n IH]; intros j r x X; cbn [clearExtended]; [reflexivity|]. rewrite IH by (intros; apply X; lia). apply store_other. rewrite ext_addr. apply X. lia.
Qed.
Lemma valid_types bits c : valid_call bits c -> 0 <= k_type c < 4 /\ 0 <= k_action c < 8.
Proof. intros (_ & T & A & _). cbn [In] in T, A. lia. Qed.

Lemma std_words base inst calls r : Forall (valid_call 11) calls -> forall i, 0 <= i < 28 ->
  fold_left (fun r c => do_std base inst c r) calls (clearStandardFilters base inst r) (element base inst StdFilter i) =
  match current calls i with None => 0 | Some c => k_type c * 1073741824 + k_action c * 134217728 + k_id1 c * 65536 + k_id2 c end.
Proof.
  induction calls as [|c calls IH] using rev_ind; intros F i I.
  - cbn [fold_left]. unfold clearStandardFilters. rewrite clearStandard_ok by lia. replace (0 <=? i) with true by lia. replace (i <? 0 + Z.of_nat 28) with true by lia. reflexivity.
  - apply Forall_app in F. destruct F as [F F1]. apply Forall_inv in F1. rewrite fold_left_app, current_snoc. cbn [fold_left]. unfold do_std at 1, setStandardFilter.
    destruct (valid_types _ _ F1) as [T A]. destruct F1 as (X & _ & _ & I1 & I2). change (2 ^ 11) with 2048 in I1, I2.
    destruct (Z.leb_spec 28 (k_index c)) as [G|G]; cbn [snd].
    + destruct (Z.eqb_spec (k_index c) i); [lia|]. apply IH; assumption.
    + unfold ram_setStandardFilter. rewrite std_addr. destruct (Z.eqb_spec (k_index c) i) as [-> |N].
      * rewrite store_same. apply filter_word_std; assumption.
      * rewrite store_other; [apply IH; assumption|]. unfold element, bytes. lia.
Qed.
Lemma ext_words base inst calls r : Forall (valid_call 29) calls -> forall i, 0 <= i < 8 ->
  let r' := fold_left (fun r c => do_ext base inst c r) calls (clearExtendedFilters base inst r) in
  match current calls i with None => r' (element base inst ExtFilter i) = 0
  | Some c => r' (element base inst ExtFilter i) = k_action c * 536870912 + k_id1 c /\ r' (element base inst ExtFilter i + 4) = k_type c * 1073741824 + k_id2 c end.
Proof.
  cbn zeta. induction calls as [|c calls IH] using rev_ind; intros F i I.
  - cbn [fold_left current rev find]. unfold clearExtendedFilters. rewrite clearExtended_ok by lia. replace (0 <=? i) with true by lia. replace (i <? 0 + Z.of_nat 8) with true by lia. reflexivity.
  - apply Forall_app in F. destruct F as [F F1]. apply Forall_inv in F1. rewrite fold_left_app, current_snoc. cbn [fold_left].
    set (r0 := fold_left _ calls _) in *. unfold do_ext, setExtendedFilter.
    destruct (valid_types _ _ F1) as [T A]. destruct F1 as (X & _ & _ & I1 & I2). change (2 ^ 29) with 536870912 in I1, I2.
    destruct (Z.leb_spec 8 (k_index c)) as [G|G]; cbn [snd].
    + destruct (Z.eqb_spec (k_index c) i); [lia|]. apply IH; assumption.
    + unfold setExtendedFilter1, setExtendedFilter0. rewrite ext_addr. destruct (Z.eqb_spec (k_index c) i) as [-> |N].
      * split; [|rewrite store_same; apply filter_word_ext1; assumption]. rewrite store_other by lia. rewrite store_same. apply filter_word_ext0; assumption.
      * specialize (IH F i I). destruct (current calls i); rewrite !store_other by (unfold element, bytes; lia); exact IH.
Qed.

Lemma std_read base inst calls r i f : Forall (valid_call 11) calls -> 0 <= i < 28 ->
  let r' := fold_left (fun r c => do_std base inst c r) calls (clearStandardFilters base inst r) in
  match current calls i with
  | None => std_action r' base inst i = 0
  | Some c => std_action r' base inst i = k_action c /\ (std_matches r' base inst i f <-> matches (k_type c) (k_id1 c) (k_id2 c) f) end.
Proof.
  intros F I. cbn zeta. pose proof (std_words base inst calls r F i I) as W. unfold std_action, std_matches. cbn zeta. rewrite W.
  destruct (current calls i) as [c|] eqn:E; [|reflexivity].
  assert (V : valid_call 11 c). { unfold current in E. apply find_some in E. rewrite Forall_forall in F. apply F. apply in_rev. apply E. }
  destruct (valid_types _ _ V) as [T A]. destruct V as (_ & _ & _ & I1 & I2). destruct (std_decode _ _ _ _ T A I1 I2) as (-> & -> & -> & ->). split; [reflexivity|]. tauto.
Qed.
Lemma ext_read base inst calls r i f : Forall (valid_call 29) calls -> 0 <= i < 8 ->
  let r' := fold_left (fun r c => do_ext base inst c r) calls (clearExtendedFilters base inst r) in
  match current calls i with
  | None => ext_action r' base inst i = 0
  | Some c => ext_action r' base inst i = k_action c /\ (ext_matches r' base inst i f <-> matches (k_type c) (k_id1 c) (k_id2 c) f) end.
Proof.
  intros F I. cbn zeta. pose proof (ext_words base inst calls r F i I) as W. cbn zeta in W. unfold ext_action, ext_matches. cbn zeta.
  destruct (current calls i) as [c|] eqn:E; [|rewrite W; reflexivity]. destruct W as [-> ->].
  assert (V : valid_call 29 c). { unfold current in E. apply find_some in E. rewrite Forall_forall in F. apply F. apply in_rev. apply E. }
  destruct (valid_types _ _ V) as [T A]. destruct V as (_ & _ & _ & I1 & I2). destruct (ext_decode _ _ _ _ T A I1 I2) as (-> & -> & -> & ->). split; [reflexivity|]. tauto.
Qed.
Lemma decides_wanted (n : Z) calls (action : Z -> Z) (mt : Z -> Prop) f a :
  (forall i, 0 <= i < n -> match current calls i with None => action i = 0 | Some c => action i = k_action c /\ (mt i <-> matches (k_type c) (k_id1 c) (k_id2 c) f) end) ->
  (exists i, 0 <= i < n /\ action i = a /\ a <> 0 /\ mt i /\ forall j, 0 <= j < i -> action j = 0 \/ ~ mt j) <-> wanted n calls f a.
Proof.
  intro H. split.
  - intros (i & I & A & N & M & O). pose proof (H i I) as Hi. destruct (current calls i) as [c|] eqn:E; [|congruence]. destruct Hi as [Ha Hm].
    exists i, c. split; [exact I|]. split; [exact E|]. split; [congruence|]. split; [exact N|]. split; [apply Hm; exact M|].
    intros j d J Ej. pose proof (H j ltac:(lia)) as Hj. rewrite Ej in Hj. destruct Hj as [Ja Jm]. rewrite <- Ja, <- Jm. apply O. exact J.
  - intros (i & c & I & E & A & N & M & O). pose proof (H i I) as Hi. rewrite E in Hi. destruct Hi as [Ha Hm]. exists i. split; [exact I|]. split; [congruence|]. split; [exact N|]. split; [apply Hm; exact M|].
    intros j J. pose proof (H j ltac:(lia)) as Hj. destruct (current calls j) as [d|] eqn:Ej; [|left; exact Hj]. destruct Hj as [Ja Jm]. rewrite Ja, Jm. apply (O j d J Ej).
Qed.
(* nothing but the filter list changes *)
Lemma std_outside base inst calls r x : Forall (valid_call 11) calls -> (forall i, 0 <= i < 28 -> x <> element base inst StdFilter i) ->
  fold_left (fun r c => do_std base inst c r) calls (clearStandardFilters base inst r) x = r x.
Proof.
  intros F X. induction calls as [|c calls IH] using rev_ind.
  - cbn [fold_left]. apply clearStandard_out. exact X.
  - apply Forall_app in F. destruct F as [F F1]. apply Forall_inv in F1. rewrite fold_left_app. cbn [fold_left]. unfold do_std at 1, setStandardFilter.
    destruct (Z.leb_spec 28 (k_index c)); cbn [snd]; [apply IH; exact F|]. unfold ram_setStandardFilter. rewrite std_addr, store_other; [apply IH; exact F|]. apply X. destruct F1. lia.
Qed.
Lemma ext_outside base inst calls r x : Forall (valid_call 29) calls -> (forall i, 0 <= i < 8 -> x <> element base inst ExtFilter i /\ x <> element base inst ExtFilter i + 4) ->
  fold_left (fun r c => do_ext base inst c r) calls (clearExtendedFilters base inst r) x = r x.
Proof.
  intros F X. induction calls as [|c calls IH] using rev_ind.
  - cbn [fold_left]. apply clearExtended_out. intros i I. apply X. exact I.
  - apply Forall_app in F. destruct F as [F F1]. apply Forall_inv in F1. rewrite fold_left_app. cbn [fold_left]. set (r0 := fold_left _ calls _) in *. unfold do_ext, setExtendedFilter.
    destruct (Z.leb_spec 8 (k_index c)) as [G|G]; cbn [snd]; [apply IH; exact F|]. unfold setExtendedFilter1, setExtendedFilter0. rewrite ext_addr. destruct F1 as [F1 _]. destruct (X (k_index c) ltac:(lia)) as [X0 X1]. rewrite !store_other by assumption. apply IH. exact F.
Qed.
