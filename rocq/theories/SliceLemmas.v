(* Contiguous reads and writes of byte arrays, shared by the communication models. *)
From Verif Require Import Base.

(* the n cells l[i], ..., l[i+n-1]; None when one of them lies outside the array *)
Definition zsub {A} (l : list A) (i n : Z) : option (list A) :=
  if (0 <=? i) && (0 <=? n) && (i + n <=? zlen l) then Some (firstn (Z.to_nat n) (skipn (Z.to_nat i) l)) else None.

(* the consecutive writes l[i] = v0, l[i+1] = v1, ... *)
Fixpoint zwrite {A} (l : list A) (i : Z) (vs : list A) : option (list A) :=
  match vs with
  | [] => Some l
  | v :: r => do l' <- zupd l i v; zwrite l' (i + 1) r
  end.

Lemma upd_nat_firstn {A} (l : list A) n v l' : upd_nat l n v = Some l' -> l' = firstn n l ++ v :: skipn (S n) l.
Proof.
  revert n l'. induction l as [|x t IH]; intros [|n] l' H; cbn in H; try discriminate.
  - injection H as <-. reflexivity.
  - destruct (upd_nat t n v) as [t'|] eqn:E; [|discriminate]. injection H as <-.
    apply IH in E. subst. reflexivity.
Qed.

Lemma zupd_split {A} (l : list A) i v l' : zupd l i v = Some l' ->
  l' = firstn (Z.to_nat i) l ++ v :: skipn (S (Z.to_nat i)) l.
Proof. unfold zupd. destruct (i <? 0); [discriminate|]. apply upd_nat_firstn. Qed.

Lemma zupd_ok {A} (l : list A) i v : 0 <= i < zlen l ->
  zupd l i v = Some (firstn (Z.to_nat i) l ++ v :: skipn (S (Z.to_nat i)) l).
Proof. intro H. destruct (zupd_in_range l i v H) as (l' & E & _). rewrite E. f_equal. apply zupd_split; exact E. Qed.

Lemma zupd_len {A} (l : list A) i v l' : zupd l i v = Some l' -> zlen l' = zlen l.
Proof. intro H. apply zupd_Some in H. tauto. Qed.

Lemma firstn_zlen {A} (l : list A) n : 0 <= n <= zlen l -> zlen (firstn (Z.to_nat n) l) = n.
Proof. intro H. unfold zlen in *. rewrite firstn_length. lia. Qed.

Lemma skipn_zlen {A} (l : list A) n : 0 <= n <= zlen l -> zlen (skipn (Z.to_nat n) l) = zlen l - n.
Proof. intro H. unfold zlen in *. rewrite skipn_length. lia. Qed.

Lemma skipn_plus {A} (l : list A) : forall a b, skipn b (skipn a l) = skipn (a + b) l.
Proof. induction l as [|x t IH]; intros [|a] b; cbn [skipn Nat.add]; rewrite ?skipn_nil; auto. Qed.

(* appending to a prefix: after l[i] = v the first i+1 cells are the first i cells followed by v *)
Lemma zupd_prefix {A} (l : list A) i v l' : zupd l i v = Some l' ->
  firstn (Z.to_nat (i + 1)) l' = firstn (Z.to_nat i) l ++ [v].
Proof.
  intro H. pose proof (zupd_Some _ _ _ _ H) as (R & _ & _). apply zupd_split in H. subst.
  replace (Z.to_nat (i + 1)) with (Z.to_nat i + 1)%nat by lia.
  unfold zlen in R.
  rewrite <- (firstn_length_le l (n := Z.to_nat i)) at 1 by lia.
  rewrite firstn_app_2. reflexivity.
Qed.

Lemma firstn_app_exact {A} (a b : list A) n : n = length a -> firstn n (a ++ b) = a.
Proof. intros ->. rewrite <- (Nat.add_0_r (length a)), firstn_app_2. cbn. apply app_nil_r. Qed.
Lemma skipn_app_exact {A} (a b : list A) n : n = length a -> skipn n (a ++ b) = b.
Proof. intros ->. rewrite skipn_app, skipn_all, Nat.sub_diag. reflexivity. Qed.

Lemma zsub_app {A} (a b c : list A) i n : i = zlen a -> n = zlen b -> zsub (a ++ b ++ c) i n = Some b.
Proof.
  intros -> ->. unfold zsub. pose proof (zlen_nonneg a). pose proof (zlen_nonneg b). pose proof (zlen_nonneg c).
  rewrite !zlen_app.
  replace ((0 <=? zlen a) && (0 <=? zlen b) && (zlen a + zlen b <=? zlen a + (zlen b + zlen c))) with true
    by (symmetry; apply andb_true_intro; split; [apply andb_true_intro; split|]; lia).
  rewrite skipn_app_exact by (unfold zlen; lia). rewrite firstn_app_exact by (unfold zlen; lia). reflexivity.
Qed.

Lemma zsub_in_range {A} (l : list A) i n : 0 <= i -> 0 <= n -> i + n <= zlen l ->
  exists v, zsub l i n = Some v /\ zlen v = n.
Proof.
  intros H1 H2 H3. unfold zsub.
  replace ((0 <=? i) && (0 <=? n) && (i + n <=? zlen l)) with true
    by (symmetry; apply andb_true_intro; split; [apply andb_true_intro; split|]; lia).
  eexists. split; [reflexivity|]. apply firstn_zlen. rewrite skipn_zlen; lia.
Qed.

Lemma zsub_inv {A} (l : list A) i n v : zsub l i n = Some v ->
  0 <= i /\ 0 <= n /\ zlen v = n /\ l = firstn (Z.to_nat i) l ++ v ++ skipn (Z.to_nat (i + n)) l.
Proof.
  unfold zsub. destruct ((0 <=? i) && (0 <=? n) && (i + n <=? zlen l)) eqn:E; [|discriminate].
  intro H. injection H as <-. apply andb_prop in E. destruct E as [E E3]. apply andb_prop in E. destruct E as [E1 E2].
  split; [lia|]. split; [lia|]. split.
  - apply firstn_zlen. rewrite skipn_zlen; lia.
  - replace (Z.to_nat (i + n)) with (Z.to_nat i + Z.to_nat n)%nat by lia.
    replace (skipn (Z.to_nat i + Z.to_nat n) l) with (skipn (Z.to_nat n) (skipn (Z.to_nat i) l)).
    + rewrite firstn_skipn, firstn_skipn. reflexivity.
    + clear. generalize (Z.to_nat i) as a. induction l as [|x t IH]; intros [|a]; cbn; rewrite ?skipn_nil; auto.
Qed.

Lemma zwrite_app {A} (vs ws : list A) : forall l i,
  zwrite l i (vs ++ ws) = (do l' <- zwrite l i vs; zwrite l' (i + zlen vs) ws).
Proof.
  induction vs as [|v r IH]; intros l i; cbn [zwrite app obind].
  - rewrite zlen_nil. f_equal. lia.
  - destruct (zupd l i v) as [l'|]; cbn [obind]; [|reflexivity]. rewrite IH. rewrite zlen_cons.
    destruct (zwrite l' (i + 1) r); cbn [obind]; [|reflexivity]. f_equal. lia.
Qed.

Lemma zwrite_ok {A} (vs : list A) : forall l i, 0 <= i -> i + zlen vs <= zlen l ->
  zwrite l i vs = Some (firstn (Z.to_nat i) l ++ vs ++ skipn (Z.to_nat (i + zlen vs)) l).
Proof.
  induction vs as [|v r IH]; intros l i H1 H2; cbn [zwrite obind].
  - rewrite zlen_nil, Z.add_0_r. cbn [app]. rewrite firstn_skipn. reflexivity.
  - rewrite zlen_cons in *. pose proof (zlen_nonneg r). rewrite zupd_ok by lia. cbn [obind].
    set (l' := firstn (Z.to_nat i) l ++ v :: skipn (S (Z.to_nat i)) l).
    assert (L : zlen l' = zlen l).
    { unfold l'. rewrite zlen_app, zlen_cons, firstn_zlen by lia.
      replace (S (Z.to_nat i)) with (Z.to_nat (i + 1)) by lia. rewrite skipn_zlen by lia. lia. }
    rewrite IH by lia. f_equal.
    assert (F : firstn (Z.to_nat (i + 1)) l' = firstn (Z.to_nat i) l ++ [v]).
    { apply zupd_prefix with (l := l). apply zupd_ok. lia. }
    rewrite F. rewrite <- !app_assoc. cbn [app]. f_equal. f_equal. f_equal.
    replace (Z.to_nat (i + 1 + zlen r)) with (Z.to_nat i + (1 + Z.to_nat (zlen r)))%nat by lia.
    unfold l'. rewrite skipn_app. unfold zlen in *. rewrite firstn_length.
    rewrite (skipn_all2 (firstn (Z.to_nat i) l)) by (rewrite firstn_length; lia). cbn [app].
    replace (Z.to_nat i + (1 + Z.to_nat (Z.of_nat (length r))) - Nat.min (Z.to_nat i) (length l))%nat
      with (S (Z.to_nat (Z.of_nat (length r)))) by lia.
    cbn [skipn].
    replace (Z.to_nat (i + (1 + Z.of_nat (length r)))) with (S (Z.to_nat i) + Z.to_nat (Z.of_nat (length r)))%nat by lia.
    exact (skipn_plus l (S (Z.to_nat i)) _).
Qed.

Lemma zwrite_len {A} (vs : list A) : forall l i l', zwrite l i vs = Some l' -> zlen l' = zlen l.
Proof.
  induction vs as [|v r IH]; intros l i l' H; cbn [zwrite obind] in H.
  - injection H as <-. reflexivity.
  - destruct (zupd l i v) as [l1|] eqn:E; [|discriminate]. cbn [obind] in H. apply IH in H. apply zupd_len in E. lia.
Qed.
