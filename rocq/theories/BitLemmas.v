(* Shared lemmas about bits of Z. *)
From Verif Require Import Base.

Lemma testbit_high a n i : 0 <= a < 2 ^ n -> n <= i -> Z.testbit a i = false.
Proof.
  intros Ha Hi. destruct (Z_lt_dec n 0) as [Hn|Hn].
  { rewrite Z.pow_neg_r in Ha by lia. lia. }
  destruct (Z.eq_dec a 0) as [->|Hz]; [apply Z.bits_0|].
  apply Z.bits_above_log2; [lia|].
  apply Z.lt_le_trans with n; [apply Z.log2_lt_pow2; lia|lia].
Qed.

Lemma lt_pow2_bits a n : 0 <= n -> 0 <= a -> (forall i, n <= i -> Z.testbit a i = false) -> a < 2 ^ n.
Proof.
  intros Hn Ha H. destruct (Z.eq_dec a 0) as [->|Hz]; [apply Z.pow_pos_nonneg; lia|].
  apply Z.log2_lt_pow2; [lia|]. destruct (Z_lt_dec (Z.log2 a) n) as [|Hge]; [lia|].
  specialize (H (Z.log2 a) ltac:(lia)).
  rewrite Z.bit_log2 in H by lia. discriminate.
Qed.

Lemma lxor_lt a b n : 0 <= n -> 0 <= a < 2 ^ n -> 0 <= b < 2 ^ n -> 0 <= Z.lxor a b < 2 ^ n.
Proof.
  intros Hn Ha Hb. split; [apply Z.lxor_nonneg; lia|].
  apply lt_pow2_bits; [lia|apply Z.lxor_nonneg; lia|].
  intros i Hi. rewrite Z.lxor_spec, (testbit_high a n), (testbit_high b n) by lia. reflexivity.
Qed.

Lemma bits_ext_range a b n : 0 <= a < 2 ^ n -> 0 <= b < 2 ^ n ->
  (forall i, 0 <= i < n -> Z.testbit a i = Z.testbit b i) -> a = b.
Proof.
  intros Ha Hb H. apply Z.bits_inj'. intros i Hi. destruct (Z_lt_dec i n); [apply H; lia|].
  rewrite (testbit_high a n), (testbit_high b n) by lia. reflexivity.
Qed.

Lemma land_ones_mod a n : 0 <= n -> Z.land a (2 ^ n - 1) = a mod 2 ^ n.
Proof. intro H. replace (2 ^ n - 1) with (Z.ones n) by (rewrite Z.ones_equiv; lia). apply Z.land_ones. exact H. Qed.

Lemma land_FF a : Z.land a 0xFF = a mod 256.
Proof. apply (land_ones_mod a 8). lia. Qed.
Lemma land_FFFF a : Z.land a 0xFFFF = a mod 65536.
Proof. apply (land_ones_mod a 16). lia. Qed.

Lemma lxor_shift_top x k : 0 <= k -> 0 <= x < 2 ^ (k + 1) ->
  x = Z.lxor (x mod 2 ^ k) (if Z.testbit x k then 2 ^ k else 0).
Proof.
  intros Hk Hx. apply Z.bits_inj'. intros i Hi. rewrite Z.lxor_spec.
  destruct (Z_lt_dec i k) as [Hl|Hl].
  - rewrite Z.mod_pow2_bits_low by lia. destruct (Z.testbit x k).
    + rewrite Z.pow2_bits_false by lia. rewrite xorb_false_r. reflexivity.
    + rewrite Z.bits_0, xorb_false_r. reflexivity.
  - rewrite Z.mod_pow2_bits_high by lia. rewrite xorb_false_l.
    destruct (Z.eq_dec i k) as [->|Hne].
    + destruct (Z.testbit x k); [rewrite Z.pow2_bits_true by lia; reflexivity|rewrite Z.bits_0; reflexivity].
    + rewrite (testbit_high x (k + 1)) by lia.
      destruct (Z.testbit x k); [rewrite Z.pow2_bits_false by lia; reflexivity|rewrite Z.bits_0; reflexivity].
Qed.

(* functions that are additive for lxor *)
Definition additive (f : Z -> Z) : Prop := forall a b, f (Z.lxor a b) = Z.lxor (f a) (f b).

(* two additive functions agreeing on the unit vectors agree on all k bit words *)
Lemma additive_ext (f g : Z -> Z) (k : nat) : additive f -> additive g ->
  (forall i, 0 <= i < Z.of_nat k -> f (2 ^ i) = g (2 ^ i)) ->
  forall x, 0 <= x < 2 ^ Z.of_nat k -> f x = g x.
Proof.
  intros Hf Hg. assert (f 0 = 0) as Hf0.
  { specialize (Hf 0 0). rewrite Z.lxor_0_r in Hf. rewrite Hf at 1. apply Z.lxor_nilpotent. }
  assert (g 0 = 0) as Hg0.
  { specialize (Hg 0 0). rewrite Z.lxor_0_r in Hg. rewrite Hg at 1. apply Z.lxor_nilpotent. }
  induction k as [|k IH]; intros Hb x Hx.
  - change (2 ^ Z.of_nat 0) with 1 in Hx. assert (x = 0) as -> by lia. congruence.
  - rewrite (lxor_shift_top x (Z.of_nat k)) by lia.
    rewrite Hf, Hg. f_equal.
    + apply IH; [intros i Hi; apply Hb; lia|]. apply Z.mod_pos_bound. apply Z.pow_pos_nonneg; lia.
    + destruct (Z.testbit x (Z.of_nat k)); [apply Hb; lia|congruence].
Qed.

Lemma additive_compose f g : additive f -> additive g -> additive (fun x => f (g x)).
Proof. intros Hf Hg a b. rewrite Hg, Hf. reflexivity. Qed.
Lemma additive_iter f n : additive f -> additive (Nat.iter n f).
Proof.
  intros Hf. induction n as [|n IH]; intros a b; [reflexivity|].
  cbn [Nat.iter nat_rect]. change (nat_rect _ a _ n) with (Nat.iter n f a). change (nat_rect _ b _ n) with (Nat.iter n f b).
  change (nat_rect _ (Z.lxor a b) _ n) with (Nat.iter n f (Z.lxor a b)). rewrite IH. apply Hf.
Qed.
Lemma land_lxor_distr a b c : Z.land (Z.lxor a b) c = Z.lxor (Z.land a c) (Z.land b c).
Proof. apply Z.bits_inj'. intros i Hi. rewrite Z.land_spec, !Z.lxor_spec, !Z.land_spec. destruct (Z.testbit a i), (Z.testbit b i), (Z.testbit c i); reflexivity. Qed.
Lemma lxor_4 a b c d : Z.lxor (Z.lxor a b) (Z.lxor c d) = Z.lxor (Z.lxor a c) (Z.lxor b d).
Proof. apply Z.bits_inj'. intros i Hi. rewrite !Z.lxor_spec. destruct (Z.testbit a i), (Z.testbit b i), (Z.testbit c i), (Z.testbit d i); reflexivity. Qed.

Lemma land_1_testbit a : Z.land a 1 = Z.b2z (Z.testbit a 0).
Proof. change 1 with (2 ^ 1 - 1) at 1. rewrite land_ones_mod by lia. change (2 ^ 1) with 2. symmetry. apply Z.bit0_mod. Qed.

Lemma nat_iter_S {A} n (f : A -> A) x : Nat.iter (S n) f x = f (Nat.iter n f x).
Proof. reflexivity. Qed.
Lemma nat_iter_Sr {A} n (f : A -> A) x : Nat.iter (S n) f x = Nat.iter n f (f x).
Proof. induction n as [|n IH]; [reflexivity|]. rewrite nat_iter_S, IH, nat_iter_S. reflexivity. Qed.
