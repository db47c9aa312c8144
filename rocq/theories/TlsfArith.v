(* Arithmetic of the TLSF allocator: size classes, header words, alignment. *)
From Verif Require Import Base BitLemmas BitsProofs TlsfModel.

(** *** Size classes *)
Definition low (K i j : Z) : Z := if i =? 0 then 4 * j else (2 ^ K + j) * 2 ^ (i + 1).
Definition gran (i : Z) : Z := if i =? 0 then 4 else 2 ^ (i + 1).

Lemma lxor_top K x : 0 <= K -> 2 ^ K <= x < 2 * 2 ^ K -> Z.lxor x (2 ^ K) = x - 2 ^ K.
Proof.
  intros HK HX.
  assert (D : Z.land (2 ^ K) (x - 2 ^ K) = 0).
  { apply Z.bits_inj'. intros n Hn. rewrite Z.land_spec, Z.bits_0, Z.pow2_bits_eqb by exact HK.
    destruct (Z.eqb_spec K n) as [->|]; [|reflexivity]. rewrite (testbit_high _ n n); [reflexivity|lia|lia]. }
  replace x with (2 ^ K + (x - 2 ^ K)) at 1 by ring. rewrite (Z.add_nocarry_lxor _ _ D).
  rewrite Z.lxor_comm, <- Z.lxor_assoc, Z.lxor_nilpotent, Z.lxor_0_l. reflexivity.
Qed.

Lemma pow_pos n : 0 <= n -> 0 < 2 ^ n.
Proof. intro. apply Z.pow_pos_nonneg; lia. Qed.

Lemma pow_split a b : 0 <= a -> 0 <= b -> 2 ^ (a + b) = 2 ^ a * 2 ^ b.
Proof. intros. apply Z.pow_add_r; assumption. Qed.

Lemma mapping_class K size : 1 <= K -> 0 <= size ->
  let i := fst (mapping_insert K size) in let j := snd (mapping_insert K size) in
  0 <= i /\ 0 <= j < 2 ^ K /\ low K i j <= size < low K i j + gran i /\ (i = 0 <-> size < 2 ^ (K + 2)) /\
  (i <> 0 -> i = Z.log2 size - (K + 1)).
Proof.
  intros HK HS. unfold mapping_insert, SMALL, SLC, tlsf_fls.
  assert (P : 2 ^ (K + 2) = 4 * 2 ^ K) by (rewrite pow_split by lia; change (2 ^ 2) with 4; ring).
  pose proof (pow_pos K ltac:(lia)) as PK.
  destruct (size <? 2 ^ (K + 2)) eqn:E; cbn [fst snd].
  - apply Z.ltb_lt in E. replace (2 ^ (K + 2) / 2 ^ K) with 4 by (rewrite P, Z.div_mul; lia).
    unfold low, gran. cbn [Z.eqb].
    assert (D : 4 * (size / 4) <= size < 4 * (size / 4) + 4) by lia.
    repeat split; try lia.
  - apply Z.ltb_ge in E. destruct (size =? 0) eqn:Z0; [lia|].
    pose proof (Z.log2_spec size ltac:(lia)) as [L1 L2].
    set (l := Z.log2 size) in *.
    assert (LK : K + 2 <= l) by (apply Z.log2_le_pow2; lia).
    assert (Q : 2 ^ K <= size / 2 ^ (l - K) < 2 * 2 ^ K).
    { pose proof (pow_pos (l - K) ltac:(lia)) as PL.
      assert (A : 2 ^ l = 2 ^ K * 2 ^ (l - K)) by (rewrite <- pow_split by lia; f_equal; lia).
      replace (Z.succ l) with (l + 1) in L2 by lia. rewrite (pow_split l 1) in L2 by lia. change (2 ^ 1) with 2 in L2.
      split; [apply Z.div_le_lower_bound; nia|apply Z.div_lt_upper_bound; nia]. }
    rewrite lxor_top by lia. unfold low, gran.
    replace (l - (K + 1) =? 0) with false by lia. replace (l - (K + 1) + 1) with (l - K) by lia.
    replace (2 ^ K + (size / 2 ^ (l - K) - 2 ^ K)) with (size / 2 ^ (l - K)) by ring.
    pose proof (pow_pos (l - K) ltac:(lia)) as PL.
    pose proof (Z.div_mod size (2 ^ (l - K)) ltac:(lia)) as DM.
    pose proof (Z.mod_pos_bound size (2 ^ (l - K)) PL) as MB.
    clear - LK Q DM MB E HK. set (d := size / 2 ^ (l - K)) in *. set (m := size mod 2 ^ (l - K)) in *. set (g := 2 ^ (l - K)) in *.
    clearbody d m g. repeat split; try lia; nia.
Qed.

Lemma mapping_fl K F size : 1 <= K -> K + 2 <= F -> 0 <= size < 2 ^ F -> 0 <= fst (mapping_insert K size) < FLC K F.
Proof.
  intros HK HF HS. pose proof (mapping_class K size HK ltac:(lia)) as (A & _ & _ & B & C). cbv zeta in *. unfold FLC.
  split; [exact A|]. destruct (Z.eq_dec (fst (mapping_insert K size)) 0) as [E|E]; [lia|]. rewrite (C E).
  assert (Z.log2 size < F); [|lia]. apply Z.log2_lt_pow2; [|lia].
  destruct (Z.eq_dec size 0) as [->|]; [|lia]. exfalso. apply E. apply B. apply pow_pos. lia.
Qed.

(* the converse bound, for the out of range cases *)
Lemma mapping_fl_over K F size : 1 <= K -> K + 2 <= F -> 2 ^ F <= size -> FLC K F <= fst (mapping_insert K size).
Proof.
  intros HK HF HS. pose proof (pow_pos F ltac:(lia)) as P. pose proof (mapping_class K size HK ltac:(lia)) as (A & _ & _ & B & C). cbv zeta in *.
  assert (2 ^ (K + 2) <= 2 ^ F) by (apply Z.pow_le_mono_r; lia).
  assert (N : fst (mapping_insert K size) <> 0) by lia. rewrite (C N). unfold FLC.
  assert (F <= Z.log2 size); [|lia]. apply Z.log2_le_pow2; lia.
Qed.

Definition lexle (i j i' j' : Z) : Prop := i < i' \/ i = i' /\ j <= j'.

Lemma low_mono K i j i' j' : 1 <= K -> 0 <= i -> 0 <= j < 2 ^ K -> 0 <= i' -> 0 <= j' < 2 ^ K -> lexle i j i' j' -> low K i j <= low K i' j'.
Proof.
  intros HK Hi Hj Hi' Hj' [L|[-> L]]; unfold low.
  - replace (i' =? 0) with false by lia. pose proof (pow_pos K ltac:(lia)) as PK.
    destruct (i =? 0) eqn:E.
    + assert (4 <= 2 ^ (i' + 1)) by (change 4 with (2 ^ 2); apply Z.pow_le_mono_r; lia). nia.
    + assert (X : 2 * 2 ^ (i + 1) <= 2 ^ (i' + 1)).
      { replace (2 * 2 ^ (i + 1)) with (2 ^ (i + 1 + 1)) by (rewrite (pow_split (i + 1) 1) by lia; change (2 ^ 1) with 2; ring). apply Z.pow_le_mono_r; lia. }
      pose proof (pow_pos (i + 1) ltac:(lia)). nia.
  - destruct (i' =? 0); [lia|]. pose proof (pow_pos (i' + 1) ltac:(lia)). nia.
Qed.

Lemma low_lt K i j i' j' : 1 <= K -> 0 <= i -> 0 <= j < 2 ^ K -> 0 <= i' -> 0 <= j' < 2 ^ K -> ~ lexle i j i' j' ->
  low K i' j' + gran i' <= low K i j.
Proof.
  intros HK Hi Hj Hi' Hj' N.
  assert (C : i' < i \/ i' = i /\ j' < j) by (unfold lexle in N; lia). unfold low, gran. pose proof (pow_pos K ltac:(lia)) as PK.
  destruct C as [L|[-> L]].
  - replace (i =? 0) with false by lia. destruct (i' =? 0) eqn:E.
    + assert (4 <= 2 ^ (i + 1)) by (change 4 with (2 ^ 2); apply Z.pow_le_mono_r; lia). nia.
    + assert (X : 2 * 2 ^ (i' + 1) <= 2 ^ (i + 1)).
      { replace (2 * 2 ^ (i' + 1)) with (2 ^ (i' + 1 + 1)) by (rewrite (pow_split (i' + 1) 1) by lia; change (2 ^ 1) with 2; ring). apply Z.pow_le_mono_r; lia. }
      pose proof (pow_pos (i' + 1) ltac:(lia)). nia.
  - destruct (i =? 0); [lia|]. pose proof (pow_pos (i + 1) ltac:(lia)). nia.
Qed.

(* The size a search actually looks for. *)
Definition goal (K size : Z) : Z := if size <? 2 ^ (K + 2) then size else let g := 2 ^ (Z.log2 size - K) in (size + g - 1) / g * g.

Lemma goal_ge K size : 1 <= K -> 0 <= size -> size <= goal K size.
Proof.
  intros HK HS. unfold goal. destruct (size <? 2 ^ (K + 2)) eqn:E; [lia|]. cbv zeta. apply Z.ltb_ge in E.
  assert (K + 2 <= Z.log2 size) by (apply Z.log2_le_pow2; [|exact E]; pose proof (pow_pos (K + 2) ltac:(lia)); lia).
  pose proof (pow_pos (Z.log2 size - K) ltac:(lia)) as P. set (g := 2 ^ (Z.log2 size - K)) in *. clearbody g.
  pose proof (Z.div_mod (size + g - 1) g ltac:(lia)). pose proof (Z.mod_pos_bound (size + g - 1) g P). nia.
Qed.

Lemma mapping_search_low K F size : 1 <= K -> K + 2 <= F -> F < 31 -> 0 <= size < 2 ^ F -> size mod 4 = 0 ->
  let i := fst (mapping_search K size) in let j := snd (mapping_search K size) in
  0 <= i /\ 0 <= j < 2 ^ K /\ low K i j = goal K size /\ (i < FLC K F <-> goal K size < 2 ^ F).
Proof.
  intros HK HF HF2 HS HM. unfold mapping_search, SMALL, tlsf_fls.
  assert (PF : 2 ^ F < 2 ^ 31) by (apply Z.pow_lt_mono_r; lia).
  destruct (2 ^ (K + 2) <=? size) eqn:E.
  2:{ apply Z.leb_gt in E. unfold goal. replace (size <? 2 ^ (K + 2)) with true by lia.
      pose proof (mapping_class K size HK ltac:(lia)) as (A & B & C & D & _). pose proof (mapping_fl K F size HK HF ltac:(lia)) as G. cbv zeta in *.
      split; [exact A|]. split; [exact B|].
      assert (I0 : fst (mapping_insert K size) = 0) by (apply D; exact E). rewrite I0 in *. unfold low, gran in *. cbn [Z.eqb] in *.
      split; [|lia]. set (j := snd (mapping_insert K size)) in *. clearbody j. clear - C HM. lia. }
  apply Z.leb_le in E. pose proof (pow_pos (K + 2) ltac:(lia)) as P2. replace (size =? 0) with false by lia.
  unfold goal. replace (size <? 2 ^ (K + 2)) with false by lia. cbv zeta.
  pose proof (Z.log2_spec size ltac:(lia)) as [L1 L2]. set (l := Z.log2 size) in *.
  assert (LK : K + 2 <= l) by (apply Z.log2_le_pow2; lia).
  assert (LF : l < F) by (apply Z.log2_lt_pow2; lia).
  pose proof (pow_pos (l - K) ltac:(lia)) as PG. pose proof (pow_pos K ltac:(lia)) as PK.
  assert (GS : 2 ^ l = 2 ^ K * 2 ^ (l - K)) by (rewrite <- pow_split by lia; f_equal; lia).
  replace (Z.succ l) with (l + 1) in L2 by lia. rewrite (pow_split l 1) in L2 by lia. change (2 ^ 1) with 2 in L2.
  assert (GL : 2 ^ (l - K) <= 2 ^ l) by (apply Z.pow_le_mono_r; lia).
  assert (LL : 2 * 2 ^ l <= 2 ^ F) by (replace (2 * 2 ^ l) with (2 ^ (l + 1)) by (rewrite (pow_split l 1) by lia; change (2 ^ 1) with 2; ring); apply Z.pow_le_mono_r; lia).
  set (g := 2 ^ (l - K)) in *.
  assert (U : u32 (size + (g - 1)) = size + g - 1).
  { unfold u32. rewrite Z.mod_small; [ring|]. change (2 ^ 31) with 2147483648 in PF. split; [lia|]. clear - L2 GL PF LL PG. lia. }
  rewrite U. set (t := size + g - 1) in *.
  pose proof (mapping_class K t HK ltac:(lia)) as (A & B & C & D & DL). cbv zeta in *.
  assert (TS : 2 ^ (K + 2) <= t) by lia. assert (NZ : fst (mapping_insert K t) <> 0) by lia. specialize (DL NZ).
  set (i := fst (mapping_insert K t)) in *. set (j := snd (mapping_insert K t)) in *.
  split; [exact A|]. split; [exact B|].
  pose proof (Z.div_mod t g ltac:(lia)) as DM. pose proof (Z.mod_pos_bound t g PG) as MB.
  unfold low, gran in *. replace (i =? 0) with false in * by lia.
  destruct (Z_lt_ge_dec t (2 * 2 ^ l)) as [T|T].
  - assert (LT : Z.log2 t = l) by (apply Z.log2_unique; [lia|]; replace (Z.succ l) with (l + 1) by lia; rewrite (pow_split l 1) by lia; change (2 ^ 1) with 2; lia).
    rewrite LT in DL. assert (IL : i + 1 = l - K) by lia. rewrite IL in *. fold g in C |- *. clear - C DM MB PG T LL DL HF LF.
    assert (Q : 2 ^ K + j = t / g) by nia. split; [nia|]. unfold FLC. nia.
  - assert (LT : Z.log2 t = l + 1).
    { apply Z.log2_unique; [lia|]. replace (Z.succ (l + 1)) with (l + 2) by lia. rewrite (pow_split l 1), (pow_split l 2) by lia. change (2 ^ 1) with 2. change (2 ^ 2) with 4. lia. }
    rewrite LT in DL. assert (IL : i + 1 = (l - K) + 1) by lia. rewrite IL in *. rewrite (pow_split (l - K) 1) in * by lia. change (2 ^ 1) with 2 in *. fold g in C |- *.
    assert (J0 : j = 0).
    { assert (t < 2 * 2 ^ l + g) by lia. clear - C H PG B GS PK. nia. }
    assert (Q : t / g = 2 * 2 ^ K). { symmetry. apply Z.div_unique with (r := t - g * (2 * 2 ^ K)); [|ring]. left. lia. }
    rewrite J0, Q. split; [ring|]. rewrite <- Z.mul_assoc, <- GS. unfold FLC.
    assert (X : i < F - (K + 2) + 1 <-> l + 1 < F) by lia. rewrite X.
    replace (2 * 2 ^ l) with (2 ^ (l + 1)) by (rewrite (pow_split l 1) by lia; change (2 ^ 1) with 2; ring).
    split; intro Y; [apply Z.pow_lt_mono_r; lia|]. apply Z.pow_lt_mono_r_iff in Y; lia.
Qed.

(** *** Header words *)
Definition word (sz : Z) (fr pf : bool) : Z := sz + Z.b2z fr + 2 * Z.b2z pf.

Lemma low_lor q r m : 0 <= r < 4 -> 0 <= m < 4 -> Z.lor (4 * q + r) m = 4 * q + Z.lor r m.
Proof.
  intros HR HM. assert (L : 0 <= Z.lor r m < 4) by (apply (lor_lt r m 2); lia).
  replace (4 * q + r) with (Z.lor (q * 2 ^ 2) r) by (rewrite add_disj; [change (2 ^ 2) with 4; ring|lia|exact HR]).
  rewrite <- Z.lor_assoc, add_disj; [change (2 ^ 2) with 4; ring|lia|exact L].
Qed.
Lemma low_land q r m : 0 <= r < 4 -> 0 <= m < 4 -> Z.land (4 * q + r) m = Z.land r m.
Proof.
  intros HR HM. replace (4 * q + r) with (Z.lor (q * 2 ^ 2) r) by (rewrite add_disj; [change (2 ^ 2) with 4; ring|lia|exact HR]).
  rewrite Z.land_lor_distr_l. replace (Z.land (q * 2 ^ 2) m) with 0; [apply Z.lor_0_l|].
  apply Z.bits_inj'. intros n Hn. rewrite Z.bits_0, Z.land_spec. destruct (Z.ltb_spec n 2).
  - rewrite Z.mul_pow2_bits_low by lia. reflexivity.
  - rewrite (testbit_high m 2 n) by (try exact HM; lia). symmetry. apply andb_false_r.
Qed.
Lemma high_land q r m : 0 <= r < 4 -> 0 <= m < 4 -> 0 <= 4 * q < 2 ^ 32 -> Z.land (4 * q + r) (2 ^ 32 - 4 + m) = 4 * q + Z.land r m.
Proof.
  intros HR HM HQ.
  assert (Q : 0 <= q < 2 ^ 30) by (change (2 ^ 30) with 1073741824; change (2 ^ 32) with 4294967296 in HQ; lia).
  assert (N : Z.land (q * 2 ^ 2) m = 0).
  { pose proof (low_land q 0 m ltac:(lia) HM) as X. rewrite Z.land_0_l in X. rewrite <- X. f_equal. change (2 ^ 2) with 4. ring. }
  assert (N2 : Z.land r ((2 ^ 30 - 1) * 2 ^ 2) = 0).
  { pose proof (low_land (2 ^ 30 - 1) 0 r ltac:(lia) HR) as X. rewrite Z.land_0_l in X. rewrite <- X, (Z.land_comm r). reflexivity. }
  replace (4 * q + r) with (Z.lor (q * 2 ^ 2) r) by (rewrite add_disj; [change (2 ^ 2) with 4; ring|lia|exact HR]).
  replace (2 ^ 32 - 4 + m) with (Z.lor ((2 ^ 30 - 1) * 2 ^ 2) m) by (rewrite add_disj; [reflexivity|lia|exact HM]).
  rewrite Z.land_lor_distr_l, !Z.land_lor_distr_r, N, N2, Z.lor_0_l, Z.lor_0_r.
  replace (Z.land (q * 2 ^ 2) ((2 ^ 30 - 1) * 2 ^ 2)) with (q * 2 ^ 2).
  - rewrite add_disj; [change (2 ^ 2) with 4; ring|lia|]. apply (land_lt r m 2); [lia|exact HM].
  - rewrite <- !Z.shiftl_mul_pow2, <- Z.shiftl_land by lia. f_equal. rewrite (land_ones_mod q 30) by lia. symmetry. apply Z.mod_small. exact Q.
Qed.

Lemma word_4 sz fr pf : sz mod 4 = 0 -> word sz fr pf = 4 * (sz / 4) + (Z.b2z fr + 2 * Z.b2z pf).
Proof. intro H. unfold word. lia. Qed.

Ltac word_tac sz H := rewrite (word_4 sz) by exact H; 
  match goal with |- context [Z.b2z ?fr + 2 * Z.b2z ?pf] => destruct fr, pf end.

Lemma word_size sz fr pf : sz mod 4 = 0 -> 0 <= sz < 2 ^ 32 -> Z.land (word sz fr pf) (2 ^ 32 - 4) = sz.
Proof.
  intros H R. rewrite (word_4 sz) by exact H. replace (2 ^ 32 - 4) with (2 ^ 32 - 4 + 0) by ring.
  rewrite high_land; [rewrite Z.land_0_r; lia|destruct fr, pf; cbn; lia|lia|lia].
Qed.
Lemma word_free sz fr pf : sz mod 4 = 0 -> negb (Z.land (word sz fr pf) 1 =? 0) = fr.
Proof. intro H. rewrite (word_4 sz), low_land by (try exact H; try lia; destruct fr, pf; cbn; lia). destruct fr, pf; reflexivity. Qed.
Lemma word_prev sz fr pf : sz mod 4 = 0 -> negb (Z.land (word sz fr pf) 2 =? 0) = pf.
Proof. intro H. rewrite (word_4 sz), low_land by (try exact H; try lia; destruct fr, pf; cbn; lia). destruct fr, pf; reflexivity. Qed.
Lemma word_set_free sz fr pf : sz mod 4 = 0 -> Z.lor (word sz fr pf) 1 = word sz true pf.
Proof. intro H. rewrite !(word_4 sz), low_lor by (try exact H; try lia; destruct fr, pf; cbn; lia). destruct fr, pf; reflexivity. Qed.
Lemma word_set_prev sz fr pf : sz mod 4 = 0 -> Z.lor (word sz fr pf) 2 = word sz fr true.
Proof. intro H. rewrite !(word_4 sz), low_lor by (try exact H; try lia; destruct fr, pf; cbn; lia). destruct fr, pf; reflexivity. Qed.
Lemma word_clr_free sz fr pf : sz mod 4 = 0 -> 0 <= sz < 2 ^ 32 -> Z.land (word sz fr pf) (2 ^ 32 - 1 - 1) = word sz false pf.
Proof.
  intros H R. rewrite !(word_4 sz) by exact H. replace (2 ^ 32 - 1 - 1) with (2 ^ 32 - 4 + 2) by ring.
  rewrite high_land by (try lia; destruct fr, pf; cbn; lia). destruct fr, pf; reflexivity.
Qed.
Lemma word_clr_prev sz fr pf : sz mod 4 = 0 -> 0 <= sz < 2 ^ 32 -> Z.land (word sz fr pf) (2 ^ 32 - 1 - 2) = word sz fr false.
Proof.
  intros H R. rewrite !(word_4 sz) by exact H. replace (2 ^ 32 - 1 - 2) with (2 ^ 32 - 4 + 1) by ring.
  rewrite high_land by (try lia; destruct fr, pf; cbn; lia). destruct fr, pf; reflexivity.
Qed.
(* a new size keeps whatever flags the word had *)
Lemma word_new_size sz sz' fr pf : sz mod 4 = 0 -> sz' mod 4 = 0 -> Z.lor sz' (Z.land (word sz fr pf) 3) = word sz' fr pf.
Proof.
  intros H H'. rewrite !word_4, low_land by (try assumption; try lia; destruct fr, pf; cbn; lia).
  replace sz' with (4 * (sz' / 4) + 0) at 1 by lia. rewrite low_lor by (try lia; destruct fr, pf; cbn; lia). destruct fr, pf; reflexivity.
Qed.
Lemma word_junk_size w sz' : sz' mod 4 = 0 -> exists fr pf, Z.lor sz' (Z.land w 3) = word sz' fr pf.
Proof.
  intro H. exists (Z.odd w), (Z.odd (w / 2)).
  assert (E : w = word (4 * (w / 4)) (Z.odd w) (Z.odd (w / 2))).
  { unfold word. pose proof (Z.div2_odd w) as A. pose proof (Z.div2_odd (w / 2)) as B. rewrite Z.div2_div in A, B. rewrite Z.div_div in B by lia. change (2 * 2) with 4 in B. lia. }
  rewrite E at 1. apply word_new_size; [lia|exact H].
Qed.
Lemma word_grow sz fr pf d : word sz fr pf + d = word (sz + d) fr pf.
Proof. unfold word. ring. Qed.

(** *** Alignment *)
Lemma land_lnot_ones x n : 0 <= n <= 32 -> 0 <= x < 2 ^ 32 -> Z.land x (u32 (Z.lnot (2 ^ n - 1))) = x / 2 ^ n * 2 ^ n.
Proof.
  intros HN HX. change u32 with (wrap 32). 
  rewrite Z.land_comm. replace x with (wrap 32 x) at 1 by (unfold wrap; apply Z.mod_small; exact HX).
  apply Z.bits_inj'. intros k Hk. rewrite Z.land_spec, !wrap_testbit by lia.
  replace (2 ^ n - 1) with (Z.ones n) by (rewrite Z.ones_equiv; lia).
  rewrite Z.lnot_spec by exact Hk. 
  destruct (Z.ltb_spec k n).
  - rewrite Z.ones_spec_low by lia. rewrite Z.mul_pow2_bits_low by lia. destruct (k <? 32); reflexivity.
  - rewrite Z.ones_spec_high by lia. rewrite Z.mul_pow2_bits by lia. rewrite Z.div_pow2_bits by lia. replace (k - n + n) with k by ring.
    destruct (k <? 32) eqn:E; [reflexivity|]. symmetry. apply (testbit_high x 32); [exact HX|lia].
Qed.
Lemma align_up_val x n : 0 <= n <= 32 -> 0 <= x -> x + 2 ^ n - 1 < 2 ^ 32 -> align_up x (2 ^ n) = (x + 2 ^ n - 1) / 2 ^ n * 2 ^ n.
Proof.
  intros HN HX HB. pose proof (pow_pos n ltac:(lia)). unfold align_up. 
  replace (u32 (x + (2 ^ n - 1))) with (x + 2 ^ n - 1).
  - apply land_lnot_ones; lia.
  - unfold u32. change 4294967296 with (2 ^ 32). rewrite Z.mod_small; lia.
Qed.
Lemma align_up_4 x : 0 <= x < 2 ^ 31 -> align_up x 4 = (x + 3) / 4 * 4.
Proof. intro H. change (2 ^ 31) with 2147483648 in H. change 4 with (2 ^ 2) at 1. rewrite align_up_val; [change (2 ^ 2) with 4; f_equal; f_equal; lia|lia|lia|change (2 ^ 2) with 4; change (2 ^ 32) with 4294967296; lia]. Qed.
Lemma align_down_4 x : 0 <= x < 2 ^ 32 -> align_down x 4 = x - x mod 4.
Proof.
  intro H. change (2 ^ 32) with 4294967296 in H. unfold align_down. change (4 - 1) with (2 ^ 2 - 1). rewrite land_ones_mod by lia. change (2 ^ 2) with 4.
  unfold u32. apply Z.mod_small. lia.
Qed.

(** *** Bit searches *)
Lemma ffs_spec w : 0 < w < 2 ^ 32 -> 0 <= tlsf_ffs w < 32 /\ Z.testbit w (tlsf_ffs w) = true /\ forall i, 0 <= i < tlsf_ffs w -> Z.testbit w i = false.
Proof.
  intro H. unfold tlsf_ffs. 
  assert (G : forall n k, (forall i, 0 <= i < Z.of_nat k -> Z.testbit w i = false) ->
    match find (fun i => Z.testbit w (Z.of_nat i)) (seq k n) with
    | Some r => (k <= r < k + n)%nat /\ Z.testbit w (Z.of_nat r) = true /\ forall i, 0 <= i < Z.of_nat r -> Z.testbit w i = false
    | None => forall i, 0 <= i < Z.of_nat (k + n) -> Z.testbit w i = false end).
  { induction n as [|n IH]; intros k HK; cbn [seq find].
    - intros i Hi. apply HK. lia.
    - destruct (Z.testbit w (Z.of_nat k)) eqn:T.
      + split; [lia|]. split; [exact T|exact HK].
      + specialize (IH (S k)). destruct (find _ _) as [r|].
        * destruct IH as (A & B & C); [|split; [lia|split; assumption]]. intros i Hi. destruct (Z.eq_dec i (Z.of_nat k)) as [->|]; [exact T|apply HK; lia].
        * intros i Hi. apply IH; [|lia]. intros i' Hi'. destruct (Z.eq_dec i' (Z.of_nat k)) as [->|]; [exact T|apply HK; lia]. }
  specialize (G 32%nat 0%nat ltac:(intros; lia)). destruct (find _ _) as [r|].
  - destruct G as (A & B & C). split; [lia|]. split; assumption.
  - exfalso. assert (w = 0); [|lia]. apply Z.bits_inj'. intros n Hn. rewrite Z.bits_0. destruct (Z.ltb_spec n 32); [apply G; lia|]. apply (testbit_high w 32); lia.
Qed.
Lemma from_bit_spec i k : 0 <= i -> 0 <= k -> Z.testbit (u32 (Z.shiftl (2 ^ 32 - 1) i)) k = (i <=? k) && (k <? 32).
Proof.
  intros HI HK. change u32 with (wrap 32). rewrite wrap_testbit by lia. destruct (k <? 32) eqn:E; [|rewrite andb_false_r; reflexivity].
  rewrite andb_true_r, Z.shiftl_spec by exact HK. replace (2 ^ 32 - 1) with (Z.ones 32) by reflexivity.
  destruct (Z.leb_spec i k); [apply Z.ones_spec_low; lia|]. apply Z.testbit_neg_r. lia.
Qed.
Lemma clear_bit_spec w i k : 0 <= i < 32 -> 0 <= k -> Z.testbit (Z.land w (u32 (Z.lnot (2 ^ i)))) k = Z.testbit w k && negb (i =? k) && (k <? 32).
Proof.
  intros HI HK. rewrite Z.land_spec. change u32 with (wrap 32). rewrite wrap_testbit by lia. destruct (k <? 32) eqn:E; [|rewrite !andb_false_r; reflexivity].
  rewrite andb_true_r, Z.lnot_spec, Z.pow2_bits_eqb by lia. reflexivity.
Qed.
Lemma set_bit_spec w i k : 0 <= i -> 0 <= k -> Z.testbit (Z.lor w (2 ^ i)) k = Z.testbit w k || (i =? k).
Proof. intros HI HK. rewrite Z.lor_spec, Z.pow2_bits_eqb by lia. reflexivity. Qed.
