(* Proofs about the output stream. *)
From Verif Require Import Base SliceLemmas WindowLemmas IosModel IosSpec.
Local Open Scope Z_scope.

(* --- numerals --- *)
Lemma read_app : forall b l1 l2 a, read_from b a (l1 ++ l2) = match read_from b a l1 with Some x => read_from b x l2 | None => None end.
Proof.
  induction l1 as [|c l1 IH]; intros l2 a; [reflexivity|]. cbn [app read_from]. destruct (digit_value c) as [d|]; [|reflexivity].
  destruct (d <? b); [apply IH|reflexivity].
Qed.
Lemma read_shift : forall b l a v, read_from b 0 l = Some v -> read_from b a l = Some (a * b ^ Z.of_nat (length l) + v).
Proof.
  intros b l. assert (G : forall a c v, read_from b c l = Some v -> read_from b (a + c) l = Some (a * b ^ Z.of_nat (length l) + v)).
  { induction l as [|c l IH]; intros a c' v E; cbn [read_from length] in *.
    - injection E as <-. rewrite Z.pow_0_r. f_equal. lia.
    - destruct (digit_value c) as [d|]; [|discriminate]. destruct (d <? b); [|discriminate].
      replace ((a + c') * b + d) with (a * b + (c' * b + d)) by ring. rewrite (IH (a * b) _ _ E). f_equal.
      rewrite Nat2Z.inj_succ, Z.pow_succ_r by lia. ring. }
  intros a v E. specialize (G a 0 v E). rewrite Z.add_0_r in G. exact G.
Qed.
Lemma read_join : forall b l1 l2 v1 v2, read_from b 0 l1 = Some v1 -> read_from b 0 l2 = Some v2 ->
  read_from b 0 (l1 ++ l2) = Some (v1 * b ^ Z.of_nat (length l2) + v2).
Proof. intros b l1 l2 v1 v2 E1 E2. rewrite read_app, E1. apply read_shift, E2. Qed.

Definition byte_ok (base : Z) (f : Z -> list Z) (n : nat) : bool :=
  forallb (fun v => (length (f v) =? n)%nat && match read_from base 0 (f v) with Some x => x =? v | None => false end) (map Z.of_nat (seq 0 256)).
Lemma byte_ok_spec : forall base f n, byte_ok base f n = true -> forall v, 0 <= v < 256 -> length (f v) = n /\ read_from base 0 (f v) = Some v.
Proof.
  intros base f n H v Hv. unfold byte_ok in H. rewrite forallb_forall in H. specialize (H v).
  assert (I0 : In v (map Z.of_nat (seq 0 256))). { apply in_map_iff. exists (Z.to_nat v). split; [lia|]. apply in_seq. lia. }
  specialize (H I0). apply andb_true_iff in H. destruct H as [H1 H2]. apply Nat.eqb_eq in H1. split; [exact H1|].
  destruct (read_from base 0 (f v)) as [x|]; [|discriminate]. apply Z.eqb_eq in H2. congruence.
Qed.
Lemma hex_byte : forall v, 0 <= v < 256 -> length (writeHex v) = 2%nat /\ read_from 16 0 (writeHex v) = Some v.
Proof. apply byte_ok_spec. vm_compute. reflexivity. Qed.
Lemma bin_byte : forall v, 0 <= v < 256 -> length (writeBin v) = 8%nat /\ read_from 2 0 (writeBin v) = Some v.
Proof. apply byte_ok_spec. vm_compute. reflexivity. Qed.
Lemma numeral_intro : forall b l v n, length l = S n -> read_from b 0 l = Some v -> numeral b l v.
Proof. intros b l v n H E. split; [|exact E]. intros ->. discriminate H. Qed.

(* --- the byte loops --- *)
Fixpoint bytes_of (k : nat) (f : Z -> list Z) (u : Z) : list Z :=
  match k with O => [] | S k => f (u8 (Z.shiftr u (8 * Z.of_nat k))) ++ bytes_of k f u end.
Lemma byte_loop_S : forall fuel f bits u ii, byte_loop (S fuel) f bits u ii =
  if ii <? bits then (do l <- byte_loop fuel f bits u (u8 (ii - 8)); Some (f (u8 (Z.shiftr u ii)) ++ l)) else Some [].
Proof. reflexivity. Qed.
Lemma byte_loop_bytes : forall k fuel f n u, (1 <= k <= n)%nat -> (n <= 31)%nat -> (k < fuel)%nat ->
  byte_loop fuel f (8 * Z.of_nat n) u (8 * Z.of_nat k - 8) = Some (bytes_of k f u).
Proof.
  induction k as [|k IH]; intros fuel f n u Hk Hn Hf; [lia|]. destruct fuel as [|fuel]; [lia|]. rewrite byte_loop_S.
  replace (8 * Z.of_nat (S k) - 8) with (8 * Z.of_nat k) by lia.
  replace (8 * Z.of_nat k <? 8 * Z.of_nat n) with true by (symmetry; apply Z.ltb_lt; lia).
  destruct k as [|k].
  - destruct fuel as [|fuel]; [lia|]. rewrite byte_loop_S. change (u8 (8 * Z.of_nat 0 - 8)) with 248.
    replace (248 <? 8 * Z.of_nat n) with false by (symmetry; apply Z.ltb_ge; lia). reflexivity.
  - replace (u8 (8 * Z.of_nat (S k) - 8)) with (8 * Z.of_nat (S k) - 8).
    + rewrite (IH fuel f n u) by lia. reflexivity.
    + symmetry. apply Z.mod_small. change (2 ^ 8) with 256. lia.
Qed.
Lemma bytes_read : forall base f d u, base ^ Z.of_nat d = 256 -> (forall v, 0 <= v < 256 -> length (f v) = d /\ read_from base 0 (f v) = Some v) ->
  forall k, length (bytes_of k f u) = (k * d)%nat /\ read_from base 0 (bytes_of k f u) = Some (u mod 256 ^ Z.of_nat k).
Proof.
  intros base f d u Hb Hf. induction k as [|k [IL IR]].
  - split; [reflexivity|]. cbn. now rewrite Z.mod_1_r.
  - cbn [bytes_of]. assert (R : 0 <= u8 (Z.shiftr u (8 * Z.of_nat k)) < 256) by (apply Z.mod_pos_bound; reflexivity).
    destruct (Hf _ R) as [L1 R1]. split; [rewrite app_length, L1, IL; lia|].
    rewrite (read_join base _ _ _ _ R1 IR). f_equal. rewrite IL.
    replace (base ^ Z.of_nat (k * d)) with (256 ^ Z.of_nat k)
      by (rewrite <- Hb, <- Z.pow_mul_r by lia; f_equal; lia).
    change (u8 (Z.shiftr u (8 * Z.of_nat k))) with (Z.shiftr u (8 * Z.of_nat k) mod 256).
    rewrite Z.shiftr_div_pow2 by lia. rewrite (Z.pow_mul_r 2 8) by lia. change (2 ^ 8) with 256.
    rewrite Nat2Z.inj_succ, Z.pow_succ_r by lia.
    assert (P : 0 < 256 ^ Z.of_nat k) by (apply Z.pow_pos_nonneg; lia).
    rewrite (Z.mul_comm 256). rewrite Z.rem_mul_r by lia. ring.
Qed.
Lemma pow_256 : forall k, 256 ^ Z.of_nat k = 2 ^ (8 * Z.of_nat k).
Proof. intros k. rewrite (Z.pow_mul_r 2 8) by lia. reflexivity. Qed.

(* --- decimal numerals --- *)
Lemma digit_dec : forall x, 0 <= x < 10 -> digit_value (48 + x) = Some x.
Proof.
  intros x H. unfold digit_value. replace (48 <=? 48 + x) with true by (symmetry; apply Z.leb_le; lia).
  replace (48 + x <=? 57) with true by (symmetry; apply Z.leb_le; lia). cbn [andb]. f_equal. lia.
Qed.
Lemma digits_read : forall fuel x, 0 <= x < 10 ^ Z.of_nat fuel -> (0 < fuel)%nat ->
  read_from 10 0 (rev (digits fuel x)) = Some x /\ digits fuel x <> [] /\ (x = 0 \/ last (digits fuel x) 0 <> 48).
Proof.
  induction fuel as [|fuel IH]; intros x Hx Hf; [lia|]. cbn [digits rev].
  assert (M : 0 <= x mod 10 < 10) by (apply Z.mod_pos_bound; lia).
  rewrite read_app. destruct (Z.ltb_spec x 10) as [Hl|Hl].
  - cbn [rev read_from app]. rewrite digit_dec by exact M. replace (x mod 10 <? 10) with true by (symmetry; apply Z.ltb_lt; lia).
    rewrite Z.mod_small by lia. split; [f_equal; lia|]. split; [discriminate|]. cbn [last]. lia.
  - rewrite Nat2Z.inj_succ, Z.pow_succ_r in Hx by lia.
    assert (Hd : 1 <= x / 10 < 10 ^ Z.of_nat fuel).
    { split; [apply Z.div_le_lower_bound; lia|apply Z.div_lt_upper_bound; lia]. }
    assert (Hf' : (0 < fuel)%nat). { destruct fuel; [cbn in Hd; lia|lia]. }
    destruct (IH (x / 10) ltac:(lia) Hf') as (R & N & La). rewrite R. cbn [read_from]. rewrite digit_dec by exact M.
    replace (x mod 10 <? 10) with true by (symmetry; apply Z.ltb_lt; lia).
    split; [|split; [discriminate|]].
    + f_equal. pose proof (Z.div_mod x 10). lia.
    + right. destruct La as [La|La]; [lia|]. cbn [last]. destruct (digits fuel (x / 10)) as [|z l] eqn:E; [now elim N|exact La].
Qed.
Lemma hd_rev_last : forall (l : list Z) d, hd d (rev l) = last l d.
Proof.
  intros l d. destruct l as [|x l] using rev_ind; [reflexivity|]. rewrite rev_app_distr. cbn [rev app hd]. now rewrite last_last.
Qed.
Lemma print_decimal : forall x, 0 <= x < 2 ^ 64 -> decimal (rev (digits 20 x)) x.
Proof.
  intros x Hx. assert (B : 0 <= x < 10 ^ Z.of_nat 20). { change (10 ^ Z.of_nat 20) with 100000000000000000000. change (2 ^ 64) with 18446744073709551616 in Hx. lia. }
  destruct (digits_read 20 x B ltac:(lia)) as (R & N & La). split; [split; [|exact R]|].
  - intro E. apply N. rewrite <- (rev_involutive (digits 20 x)), E. reflexivity.
  - rewrite hd_rev_last. intro H. destruct La as [La|La]; [|now elim La]. subst x. reflexivity.
Qed.
Lemma neg_wrap : forall h v, - h <= v < 0 -> ((- v + h) mod (2 * h) - h) mod (2 * h) = - v.
Proof.
  intros h v H. destruct (Z.eq_dec v (- h)) as [-> |N].
  - replace (- - h + h) with (1 * (2 * h)) by ring. rewrite Z.mod_mul by lia. replace (0 - h) with (h + (-1) * (2 * h)) by ring. rewrite Z.mod_add by lia. rewrite Z.mod_small by lia. lia.
  - rewrite (Z.mod_small (- v + h)) by lia. rewrite Z.mod_small by lia. lia.
Qed.
Lemma integer_decimal : forall sg bits v, bits = 16 \/ bits = 32 \/ bits = 64 -> of_type sg bits v -> signed_decimal (writeInteger sg bits v) v.
Proof.
  intros sg bits v Hb Hv. unfold writeInteger, signed_decimal, print_integer, of_type in *. destruct sg.
  - destruct (Z.ltb_spec v 0) as [Hn|Hn].
    + exists (rev (digits 20 (- v))). split; [|apply print_decimal].
      * cbn [app]. do 3 f_equal. unfold swrap, wrap.
        destruct Hb as [-> |[-> | -> ]]; 
          [change (2 ^ (16 - 1)) with 32768 in Hv|change (2 ^ (32 - 1)) with 2147483648 in Hv|change (2 ^ (64 - 1)) with 9223372036854775808 in Hv].
        -- change (Z.max 16 32) with 32. change (2 ^ (32 - 1)) with 2147483648. change (2 ^ 32) with 4294967296. change (2 ^ 16) with 65536.
           rewrite (Z.mod_small (- v + 2147483648) 4294967296) by lia. rewrite Z.mod_small by lia. lia.
        -- change (Z.max 32 32) with 32. change (2 ^ (32 - 1)) with 2147483648. change (2 ^ 32) with 4294967296. apply (neg_wrap 2147483648). lia.
        -- change (Z.max 64 32) with 64. change (2 ^ (64 - 1)) with 9223372036854775808. change (2 ^ 64) with 18446744073709551616. apply (neg_wrap 9223372036854775808). lia.
      * change (2 ^ 64) with 18446744073709551616.
        destruct Hb as [-> |[-> | -> ]]; [change (2 ^ (16 - 1)) with 32768 in Hv|change (2 ^ (32 - 1)) with 2147483648 in Hv|change (2 ^ (64 - 1)) with 9223372036854775808 in Hv]; lia.
    + cbn [app]. unfold wrap. destruct Hb as [-> |[-> | -> ]];
        [change (2 ^ (16 - 1)) with 32768 in Hv; change (2 ^ 16) with 65536|change (2 ^ (32 - 1)) with 2147483648 in Hv; change (2 ^ 32) with 4294967296|
         change (2 ^ (64 - 1)) with 9223372036854775808 in Hv; change (2 ^ 64) with 18446744073709551616];
        rewrite Z.mod_small by lia; apply print_decimal; change (2 ^ 64) with 18446744073709551616; lia.
  - assert (v < 2 ^ 64). { clear - Hb Hv. destruct Hv as [_ Hv]. eapply Z.lt_le_trans; [exact Hv|]. apply Z.pow_le_mono_r; lia. }
    destruct (Z.ltb_spec v 0); [lia|]. cbn [app]. apply print_decimal. lia.
Qed.
Lemma bytes_mode : forall base f d bits v, base ^ Z.of_nat (S d) = 256 -> (forall v, 0 <= v < 256 -> length (f v) = S d /\ read_from base 0 (f v) = Some v) ->
  bits = 16 \/ bits = 32 \/ bits = 64 ->
  exists l, byte_loop 256 f bits v (bits - 8) = Some l /\ Z.of_nat (length l) = bits / 8 * Z.of_nat (S d) /\ numeral base l (v mod 2 ^ bits).
Proof.
  intros base f d bits v Hb Hf Hc. set (k := Z.to_nat (bits / 8)).
  assert (Hk : (1 <= k <= 8)%nat /\ bits = 8 * Z.of_nat k /\ bits / 8 = Z.of_nat k). { clear - Hc. subst k. destruct Hc as [-> |[-> | -> ]];
      [change (Z.to_nat (16 / 8)) with 2%nat|change (Z.to_nat (32 / 8)) with 4%nat|change (Z.to_nat (64 / 8)) with 8%nat]; (split; [lia|split; reflexivity]). }
  destruct Hk as (Hk1 & Hk2 & Hk3). exists (bytes_of k f v). rewrite Hk3. rewrite Hk2.
  destruct (bytes_read base f (S d) v Hb Hf k) as [BL BR]. split; [|split].
  - apply byte_loop_bytes; lia.
  - rewrite BL. lia.
  - rewrite <- pow_256. split; [|exact BR]. intro E. rewrite E in BL. cbn in BL. destruct k; lia.
Qed.
Lemma cstring : forall s, In 0 s -> exists out rest, write_string s = Some out /\ s = out ++ 0 :: rest /\ ~ In 0 out.
Proof.
  induction s as [|c s IH]; intros H; [destruct H|]. cbn [write_string]. destruct (Z.eqb_spec c 0) as [-> |N].
  - exists [], s. split; [reflexivity|]. split; [reflexivity|]. intros [].
  - destruct H as [H|H]; [congruence|]. destruct (IH H) as (out & rest & E & Es & Ni). rewrite E. exists (c :: out), rest. cbn [obind]. split; [reflexivity|].
    split; [cbn; now rewrite Es at 1|]. intros [Q|Q]; [congruence|contradiction].
Qed.
Lemma pointer_looks : forall psize p, psize = 2 \/ psize = 4 \/ psize = 8 -> 0 <= p < 2 ^ (8 * psize) ->
  exists l, writePointer psize p = Some (48 :: 120 :: l) /\ Z.of_nat (length l) = 2 * psize /\ numeral 16 l p.
Proof.
  intros psize p Hs Hp. unfold writePointer.
  destruct (bytes_mode 16 writeHex 1 (8 * psize) p eq_refl hex_byte ltac:(lia)) as (l & E & L & N).
  rewrite Z.mod_small in N by exact Hp.
  assert (L' : Z.of_nat (length l) = 2 * psize). { rewrite L. replace (8 * psize) with (psize * 8) by ring. rewrite Z.div_mul by lia. lia. }
  destruct (Z.eqb_spec psize 2) as [-> |Hn].
  - exists l. split; [|now split]. change (8 * 2) with 16 in *. change (16 - 8) with (8 * Z.of_nat 2 - 8) in E. change 16 with (8 * Z.of_nat 2) in E at 1.
    rewrite (byte_loop_bytes 2 256 writeHex 2 p) in E by lia. assert (El : l = bytes_of 2 writeHex p) by congruence. rewrite El. cbn [bytes_of]. change (u8 (Z.shiftr p (8 * Z.of_nat 0))) with (u8 p). rewrite (app_nil_r (writeHex (u8 p))). reflexivity.
  - exists l. rewrite E. split; [reflexivity|]. now split.
Qed.
Lemma put_looks : forall psize m i, psize = 2 \/ psize = 4 \/ psize = 8 -> valid psize i -> not_function i ->
  exists out, put psize m i = Some (mode_after m [i], out) /\ looks psize m i out.
Proof.
  intros psize m i Hs V NF. destruct i as [b|c|v|sg bits v|s|p|slot p| | | | | ]; cbn [valid not_function] in *; cbn [put].
  - eexists. split; [reflexivity|]. destruct b, m; cbn [looks]; try reflexivity; (split; [reflexivity|]); (split; [discriminate|reflexivity]).
  - eexists. split; [reflexivity|]. assert (R : 0 <= u8 c < 256) by (apply Z.mod_pos_bound; reflexivity). change (c mod 256) with (u8 c).
    destruct m; cbn [looks]; [reflexivity| |].
    + destruct (hex_byte _ R) as [L E]. split; [exact L|]. eapply numeral_intro; eassumption.
    + destruct (bin_byte _ R) as [L E]. split; [exact L|]. eapply numeral_intro; eassumption.
  - eexists. split; [reflexivity|]. destruct m; cbn [looks].
    + apply print_decimal. change (2 ^ 64) with 18446744073709551616. lia.
    + destruct (hex_byte _ V) as [L E]. split; [exact L|]. eapply numeral_intro; eassumption.
    + destruct (bin_byte _ V) as [L E]. split; [exact L|]. eapply numeral_intro; eassumption.
  - destruct V as [Hb Hv]. unfold writeIntegerMode.
    assert (U : u8 (bits - 8) = bits - 8). { destruct Hb as [-> |[-> | -> ]]; reflexivity. }
    assert (WW : wrap bits v mod 2 ^ bits = v mod 2 ^ bits). { unfold wrap. apply Z.mod_mod. destruct Hb as [-> |[-> | -> ]]; discriminate. }
    destruct m; cbn [looks].
    + eexists. split; [reflexivity|]. now apply integer_decimal.
    + rewrite U. destruct (bytes_mode 16 writeHex 1 bits (wrap bits v) eq_refl hex_byte Hb) as (l & E & L & N). rewrite E. cbn [obind].
      exists l. split; [reflexivity|]. rewrite WW in N. split; [|exact N]. rewrite L. destruct Hb as [-> |[-> | -> ]]; reflexivity.
    + rewrite U. destruct (bytes_mode 2 writeBin 7 bits (wrap bits v) eq_refl bin_byte Hb) as (l & E & L & N). rewrite E. cbn [obind].
      exists l. split; [reflexivity|]. rewrite WW in N. split; [|exact N]. rewrite L. destruct Hb as [-> |[-> | -> ]]; reflexivity.
  - destruct (cstring s V) as (out & rest & E & Es & Ni). rewrite E. exists out. split; [reflexivity|]. destruct m; cbn [looks]; exists rest; now split.
  - destruct (pointer_looks psize p Hs V) as (l & E & L & N). rewrite E. exists (48 :: 120 :: l). split; [reflexivity|]. destruct m; cbn [looks]; exists l; (split; [reflexivity|split; assumption]).
  - destruct NF.
  - exists []. split; [reflexivity|]. destruct m; reflexivity.
  - exists []. split; [reflexivity|]. destruct m; reflexivity.
  - exists []. split; [reflexivity|]. destruct m; reflexivity.
  - exists [10]. split; [reflexivity|]. destruct m; reflexivity.
  - exists []. split; [reflexivity|]. destruct m; reflexivity.
Qed.
Lemma put_all_text : forall psize l m, psize = 2 \/ psize = 4 \/ psize = 8 -> Forall (valid psize) l -> Forall not_function l ->
  exists out, put_all psize m l = Some (mode_after m l, out) /\ text psize m l out.
Proof.
  intros psize l. induction l as [|i l IH]; intros m Hs V N.
  - exists []. split; [reflexivity|constructor].
  - inversion V as [|? ? V1 V2]. inversion N as [|? ? N1 N2]. subst. destruct (put_looks psize m i Hs V1 N1) as (o1 & E1 & L1).
    destruct (IH (mode_after m [i]) Hs V2 N2) as (o2 & E2 & T2). cbn [put_all]. rewrite E1. cbn [obind fst snd]. rewrite E2. cbn [obind fst snd].
    exists (o1 ++ o2). split; [reflexivity|]. econstructor; eassumption.
Qed.

(* --- the wrapper --- *)
Lemma write_more : forall acc c fuel k r, wrapper_write fuel true acc k c = Some r -> forall fuel', (fuel <= fuel')%nat -> wrapper_write fuel' true acc k c = Some r.
Proof.
  intros acc c. induction fuel as [|fuel IH]; intros k r E fuel' Hf; [discriminate|]. destruct fuel' as [|fuel']; [lia|]. cbn [wrapper_write] in *.
  destruct (acc k); [exact E|]. apply (IH _ _ E). lia.
Qed.
Lemma text_more : forall acc s fuel k r, wrapper_text fuel true acc k s = Some r -> forall fuel', (fuel <= fuel')%nat -> wrapper_text fuel' true acc k s = Some r.
Proof.
  intros acc. induction s as [|c s IH]; intros fuel k r E fuel' Hf; [exact E|]. cbn [wrapper_text] in *.
  destruct (wrapper_write fuel true acc k c) as [q|] eqn:W; [|discriminate]. cbn [obind] in E. rewrite (write_more acc c fuel k q W fuel' Hf). cbn [obind].
  destruct (wrapper_text fuel true acc (fst q) s) as [q2|] eqn:W2; [|discriminate]. rewrite (IH _ _ _ W2 fuel' Hf). exact E.
Qed.
Lemma write_block_safe : forall acc c fuel k n out, wrapper_write fuel true acc k c = Some (n, out) -> out = [c] /\ (k < n)%nat /\ acc (Nat.pred n) = true /\ (forall j, (k <= j < Nat.pred n)%nat -> acc j = false).
Proof.
  intros acc c. induction fuel as [|fuel IH]; intros k n out E; [discriminate|]. cbn [wrapper_write] in E. destruct (acc k) eqn:A.
  - injection E as <- <-. split; [reflexivity|]. split; [lia|]. split; [exact A|]. cbn [Nat.pred]. lia.
  - destruct (IH _ _ _ E) as (-> & H1 & H2 & H3). split; [reflexivity|]. split; [lia|]. split; [exact H2|]. intros j Hj.
    destruct (Nat.eq_dec j k) as [-> |]; [exact A|apply H3; lia].
Qed.
Lemma write_block_live : forall acc c k j, (k <= j)%nat -> acc j = true -> exists n, wrapper_write (S (j - k)) true acc k c = Some (n, [c]).
Proof.
  intros acc c k j Hj A. remember (j - k)%nat as d eqn:D. revert k Hj D. induction d as [|d IH]; intros k Hj D.
  - assert (j = k) by lia. subst j. exists (S k). cbn [wrapper_write]. now rewrite A.
  - cbn [wrapper_write]. destruct (acc k); [eauto|]. apply (IH (S k)); lia.
Qed.
Lemma text_block_safe : forall acc s fuel k n out, wrapper_text fuel true acc k s = Some (n, out) -> out = s.
Proof.
  intros acc. induction s as [|c s IH]; intros fuel k n out E; cbn [wrapper_text] in E; [now injection E as <- <-|].
  destruct (wrapper_write fuel true acc k c) as [[n1 o1]|] eqn:W; [|discriminate]. cbn [obind fst snd] in E.
  destruct (wrapper_text fuel true acc n1 s) as [[n2 o2]|] eqn:W2; [|discriminate]. cbn [obind fst snd] in E. injection E as <- <-.
  destruct (write_block_safe _ _ _ _ _ _ W) as [-> _]. now rewrite (IH _ _ _ _ W2).
Qed.
Lemma text_block_live : forall acc, (forall k, exists j, (k <= j)%nat /\ acc j = true) -> forall s k, exists fuel n, wrapper_text fuel true acc k s = Some (n, s).
Proof.
  intros acc F. induction s as [|c s IH]; intros k; [exists O, k; reflexivity|]. destruct (F k) as (j & Hj & A).
  destruct (write_block_live acc c k j Hj A) as (n1 & W1). destruct (IH n1) as (fuel & n2 & W2).
  exists (Nat.max (S (j - k)) fuel), n2. cbn [wrapper_text]. rewrite (write_more _ _ _ _ _ W1 _ (Nat.le_max_l _ _)). cbn [obind fst snd].
  rewrite (text_more _ _ _ _ _ W2 _ (Nat.le_max_r _ _)). reflexivity.
Qed.
Lemma text_discard : forall acc s fuel k, (0 < fuel)%nat -> wrapper_text fuel false acc k s = Some ((k + length s)%nat, taken acc k s).
Proof.
  intros acc. induction s as [|c s IH]; intros fuel k Hf; [cbn; now rewrite Nat.add_0_r|]. destruct fuel as [|fuel]; [lia|]. cbn [wrapper_text].
  unfold taken. cbn [length seq combine filter fst]. destruct (acc k) eqn:A; cbn [wrapper_write]; rewrite A; cbn [obind fst snd]; rewrite IH by lia; cbn [obind fst snd map app];
    f_equal; f_equal; lia.
Qed.

(* --- get --- *)
Lemma get_loop_spec : forall k input pre rest ii, ii = Z.of_nat (length pre) -> (k < length rest)%nat ->
  get_loop k input (pre ++ rest) ii = Some (pre ++ firstn k input ++ 0 :: skipn (S (length (firstn k input))) rest, skipn k input).
Proof.
  induction k as [|k IH]; intros input pre rest ii Hi Hk.
  - destruct rest as [|r rest]; [cbn in Hk; lia|]. cbn [get_loop firstn skipn length app]. rewrite zupd_app by exact Hi. reflexivity.
  - destruct input as [|c input].
    + destruct rest as [|r rest]; [cbn in Hk; lia|]. cbn [get_loop firstn skipn length app]. rewrite zupd_app by exact Hi. reflexivity.
    + destruct rest as [|r rest]; [cbn in Hk; lia|]. cbn [get_loop]. rewrite zupd_app by exact Hi. cbn [obind].
      replace (pre ++ c :: rest) with ((pre ++ [c]) ++ rest) by (rewrite <- app_assoc; reflexivity).
      rewrite (IH input (pre ++ [c]) rest) by (try rewrite app_length; cbn [length] in *; lia).
      cbn [firstn skipn length app]. rewrite <- app_assoc. reflexivity.
Qed.
