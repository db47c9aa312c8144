From Verif Require Import Base DequeModel DequeSpec.

Section Proofs.
Context {A : Type}.
Variable N w : Z.
Hypothesis HN : 1 <= N < 2 ^ w.

Definition slot (t i : Z) : Z := if t + i <? N then t + i else t + i - N.

Record Rep (d : @deque A) (l : list A) : Prop := {
  p_h : 0 <= d_head d < N;
  p_t : 0 <= d_tail d < N;
  p_len : zlen (d_buf d) = N;
  p_size : d_size d = zlen l;
  p_max : zlen l <= N;
  p_ht : d_head d = slot (d_tail d) (if zlen l =? 0 then N - 1 else zlen l - 1);
  p_cells : forall i x, znth l i = Some x -> znth (d_buf d) (slot (d_tail d) i) = Some x
}.

Lemma rep_init b : zlen b = N -> Rep (d_init N b) [].
Proof.
  intro Hb. unfold d_init. constructor; cbn [d_head d_tail d_size d_buf]; try exact Hb; try lia.
  - destruct (N =? 1) eqn:?; lia.
  - reflexivity.
  - rewrite zlen_nil. lia.
  - rewrite zlen_nil. cbn [Z.eqb]. unfold slot. destruct (N =? 1) eqn:?; destruct (_ <? _) eqn:?; lia.
  - intros i x H. apply znth_Some in H. rewrite zlen_nil in H. lia.
Qed.

Lemma up_eq i : 0 <= i < N -> d_up N w i = if i =? N - 1 then 0 else i + 1.
Proof.
  intro H. unfold d_up. destruct (N - 1 <=? i) eqn:?; destruct (i =? N - 1) eqn:?; try lia.
  apply wrap_small. lia.
Qed.
Lemma down_eq i : 0 <= i < N -> d_down N w i = if i =? 0 then N - 1 else i - 1.
Proof. intro H. unfold d_down. destruct (i =? 0) eqn:?; [reflexivity|]. apply wrap_small. lia. Qed.

Ltac bash := unfold slot in *; repeat match goal with
  | |- context [if ?a <? ?b then _ else _] => destruct (a <? b) eqn:?
  | |- context [if ?a =? ?b then _ else _] => destruct (a =? b) eqn:?
  | H : context [if ?a <? ?b then _ else _] |- _ => destruct (a <? b) eqn:?
  | H : context [if ?a =? ?b then _ else _] |- _ => destruct (a =? b) eqn:?
  end; try lia.

Lemma rep_up_snoc d l b v : Rep d l -> zlen l < N ->
  zupd (d_buf d) (d_up N w (d_head d)) v = Some b ->
  Rep (mkDeque (d_up N w (d_head d)) (d_tail d) (zlen l + 1) b) (l ++ [v]).
Proof.
  intros [Hh Ht Hl Hs Hm Hht Hc] Hlt Hu. rewrite up_eq in * by lia.
  apply zupd_Some in Hu as (Hr & Hlen & G). pose proof (zlen_nonneg l).
  assert (zlen (l ++ [v]) = zlen l + 1) as El by (rewrite zlen_app, zlen_cons, zlen_nil; lia).
  constructor; cbn [d_head d_tail d_size d_buf]; try lia; rewrite ?El; try lia.
  - bash.
  - intros i x Hx. rewrite G. pose proof (znth_Some _ _ _ Hx) as Hi. rewrite El in Hi.
    destruct (Z_lt_dec i (zlen l)).
    + rewrite znth_app_l in Hx by lia. apply Hc in Hx. rewrite <- Hx.
      match goal with |- context [?a =? ?b] => destruct (a =? b) eqn:E end; [|reflexivity].
      exfalso. bash.
    + assert (i = zlen l) as -> by lia. rewrite znth_app_r, Z.sub_diag in Hx by lia.
      cbn in Hx. injection Hx as <-.
      match goal with |- context [?a =? ?b] => destruct (a =? b) eqn:E end; [reflexivity|].
      exfalso. bash.
Qed.

Lemma rep_down_cons d l b v : Rep d l -> zlen l < N ->
  zupd (d_buf d) (d_down N w (d_tail d)) v = Some b ->
  Rep (mkDeque (d_head d) (d_down N w (d_tail d)) (zlen l + 1) b) (v :: l).
Proof.
  intros [Hh Ht Hl Hs Hm Hht Hc] Hlt Hu. rewrite down_eq in * by lia.
  apply zupd_Some in Hu as (Hr & Hlen & G). pose proof (zlen_nonneg l).
  constructor; cbn [d_head d_tail d_size d_buf]; try lia; rewrite ?zlen_cons; try lia.
  - bash.
  - intros i x Hx. rewrite G. pose proof (znth_Some _ _ _ Hx) as Hi. rewrite zlen_cons in Hi.
    destruct (Z.eq_dec i 0) as [->|Hi0].
    + cbn in Hx. injection Hx as <-.
      match goal with |- context [?a =? ?b] => destruct (a =? b) eqn:E end; [reflexivity|].
      exfalso. bash.
    + rewrite znth_cons in Hx by lia. apply Hc in Hx. rewrite <- Hx.
      match goal with |- context [?a =? ?b] => destruct (a =? b) eqn:E end.
      * exfalso. bash.
      * f_equal. bash.
Qed.

Lemma rep_tail d x r : Rep d (x :: r) ->
  Rep (mkDeque (d_head d) (d_up N w (d_tail d)) (zlen r) (d_buf d)) r.
Proof.
  intros [Hh Ht Hl Hs Hm Hht Hc]. rewrite up_eq by lia. pose proof (zlen_nonneg r).
  rewrite zlen_cons in *.
  constructor; cbn [d_head d_tail d_size d_buf]; try lia.
  - bash.
  - bash.
  - intros i y Hy. pose proof (znth_Some _ _ _ Hy) as Hi.
    assert (znth (x :: r) (i + 1) = Some y) as Hy1.
    { rewrite znth_cons by lia. rewrite <- Hy. f_equal. lia. }
    apply Hc in Hy1. rewrite <- Hy1. f_equal. bash.
Qed.

Lemma rep_removelast d l x : Rep d (l ++ [x]) ->
  Rep (mkDeque (d_down N w (d_head d)) (d_tail d) (zlen l) (d_buf d)) l.
Proof.
  intros [Hh Ht Hl Hs Hm Hht Hc]. rewrite down_eq by lia. pose proof (zlen_nonneg l).
  assert (zlen (l ++ [x]) = zlen l + 1) as El by (rewrite zlen_app, zlen_cons, zlen_nil; lia).
  rewrite El in *.
  constructor; cbn [d_head d_tail d_size d_buf]; try lia.
  - bash.
  - bash.
  - intros i y Hy. pose proof (znth_Some _ _ _ Hy) as Hi.
    apply Hc. rewrite znth_app_l by lia. exact Hy.
Qed.

Lemma rep_range_up d l : Rep d l -> 0 <= d_up N w (d_head d) < zlen (d_buf d).
Proof. intros [Hh Ht Hl _ _ _ _]. rewrite up_eq by lia. destruct (_ =? _) eqn:?; lia. Qed.
Lemma rep_range_down d l : Rep d l -> 0 <= d_down N w (d_tail d) < zlen (d_buf d).
Proof. intros [Hh Ht Hl _ _ _ _]. rewrite down_eq by lia. destruct (_ =? _) eqn:?; lia. Qed.

Lemma full_eq d l : Rep d l -> d_isFull N d = (zlen l =? N).
Proof. intros R. unfold d_isFull. rewrite (p_size _ _ R). reflexivity. Qed.

Lemma deque_eta (d : @deque A) : d = mkDeque (d_head d) (d_tail d) (d_size d) (d_buf d).
Proof. destruct d; reflexivity. Qed.

Lemma size_mk (h t s s' : Z) (b : list A) : s = s' -> mkDeque h t s b = mkDeque h t s' b.
Proof. intros ->. reflexivity. Qed.

Lemma step_refines d l o l' r : Rep d l -> spec_step N l o = Some (l', r) ->
  exists d', dstep N w d o = Some (d', r) /\ Rep d' l'.
Proof.
  intros R H. pose proof (p_size _ _ R) as Hs. pose proof (p_max _ _ R) as Hm. pose proof (zlen_nonneg l) as H0.
  destruct o as [v|v|v|v| | |]; cbn [spec_step dstep] in *.
  - unfold d_append. rewrite (full_eq _ _ R). destruct (zlen l =? N) eqn:E; injection H as <- <-.
    + exists d. split; [reflexivity|exact R].
    + destruct (zupd_in_range (d_buf d) _ v (rep_range_up _ _ R)) as (b & Eb & _). rewrite Eb. cbn [obind].
      eexists; split; [reflexivity|]. rewrite Hs, (wrap_small w) by lia.
      apply rep_up_snoc; [exact R|lia|exact Eb].
  - unfold d_appendOverwrite. rewrite (full_eq _ _ R). injection H as <- <-.
    destruct (zupd_in_range (d_buf d) _ v (rep_range_up _ _ R)) as (b & Eb & _). rewrite Eb. cbn [obind].
    eexists; split; [reflexivity|]. destruct (zlen l =? N) eqn:E.
    + destruct l as [|x t]; [rewrite zlen_nil in *; lia|]. cbn [tl].
      pose proof (rep_tail _ _ _ R) as R1. rewrite zlen_cons in *.
      pose proof (rep_up_snoc _ _ b v R1) as R2. cbn [d_head d_tail d_buf d_size] in R2.
      rewrite Hs. replace (1 + zlen t) with (zlen t + 1) by lia. apply R2; [lia|exact Eb].
    + rewrite Hs, (wrap_small w) by lia. apply rep_up_snoc; [exact R|lia|exact Eb].
  - unfold d_prepend. rewrite (full_eq _ _ R). destruct (zlen l =? N) eqn:E; injection H as <- <-.
    + exists d. split; [reflexivity|exact R].
    + destruct (zupd_in_range (d_buf d) _ v (rep_range_down _ _ R)) as (b & Eb & _). rewrite Eb. cbn [obind].
      eexists; split; [reflexivity|]. rewrite Hs, (wrap_small w) by lia.
      apply rep_down_cons; [exact R|lia|exact Eb].
  - unfold d_prependOverwrite. rewrite (full_eq _ _ R). injection H as <- <-.
    destruct (zupd_in_range (d_buf d) _ v (rep_range_down _ _ R)) as (b & Eb & _). rewrite Eb. cbn [obind].
    eexists; split; [reflexivity|]. destruct (zlen l =? N) eqn:E.
    + destruct (exists_last (l := l)) as (t & x & ->); [intros ->; rewrite zlen_nil in *; lia|].
      rewrite removelast_last. pose proof (rep_removelast _ _ _ R) as R1.
      assert (zlen (t ++ [x]) = zlen t + 1) as El by (rewrite zlen_app, zlen_cons, zlen_nil; lia). rewrite El in *.
      pose proof (rep_down_cons _ _ b v R1) as R2. cbn [d_head d_tail d_buf d_size] in R2.
      rewrite Hs. apply R2; [lia|exact Eb].
    + rewrite Hs, (wrap_small w) by lia. apply rep_down_cons; [exact R|lia|exact Eb].
  - destruct l as [|x t]; [discriminate|]. injection H as <- <-.
    eexists; split; [reflexivity|]. unfold d_removeFront. rewrite zlen_cons in *. pose proof (zlen_nonneg t).
    rewrite Hs, (wrap_small w) by lia. replace (1 + zlen t - 1) with (zlen t) by lia. apply (rep_tail _ _ _ R).
  - destruct l as [|x0 t0]; [discriminate|].
    destruct (exists_last (l := x0 :: t0)) as (t & x & Et); [discriminate|].
    rewrite Et in *. rewrite removelast_last in H.
    assert (l' = t /\ r = true) as [-> ->] by (split; congruence).
    eexists; split; [reflexivity|]. unfold d_removeBack. pose proof (zlen_nonneg t).
    assert (zlen (t ++ [x]) = zlen t + 1) as El by (rewrite zlen_app, zlen_cons, zlen_nil; lia). rewrite El in *.
    rewrite Hs, (wrap_small w) by lia. replace (zlen t + 1 - 1) with (zlen t) by lia. apply (rep_removelast _ _ _ R).
  - injection H as <- <-. eexists; split; [reflexivity|].
    apply (rep_init (d_buf d)). apply (p_len _ _ R).
Qed.

Lemma run_refines os : forall d l l' out, Rep d l -> spec_run N l os = Some (l', out) ->
  exists d', drun N w d os = Some (d', out) /\ Rep d' l'.
Proof.
  induction os as [|o os IH]; intros d l l' out R H; cbn [spec_run drun] in *.
  - injection H as <- <-. exists d. split; [reflexivity|exact R].
  - destruct (spec_step N l o) as [[l1 x]|] eqn:E1; cbn [obind] in H; [|discriminate].
    destruct (spec_run N l1 os) as [[l2 xs]|] eqn:E2; cbn [obind] in H; [|discriminate].
    injection H as <- <-. destruct (step_refines _ _ _ _ _ R E1) as (d1 & Ed1 & R1).
    destruct (IH _ _ _ _ R1 E2) as (d2 & Ed2 & R2). rewrite Ed1. cbn [obind]. rewrite Ed2. cbn [obind].
    exists d2. split; [reflexivity|exact R2].
Qed.

(* ---- queries ---- *)
Lemma rep_get d l i : Rep d l -> 0 <= i < zlen l -> d_get N d i = znth l i.
Proof.
  intros R Hi. destruct (znth_in_range l i Hi) as [x Hx]. rewrite Hx. rewrite <- (p_cells _ _ R i x Hx).
  unfold d_get. pose proof (p_t _ _ R). pose proof (p_max _ _ R).
  destruct (N - 1 <? d_tail d + i) eqn:?; f_equal; bash.
Qed.

Lemma rep_rget d l i : Rep d l -> 0 <= i < zlen l -> d_rget N d i = znth l (zlen l - 1 - i).
Proof.
  intros R Hi. destruct (znth_in_range l (zlen l - 1 - i)) as [x Hx]; [lia|]. rewrite Hx.
  rewrite <- (p_cells _ _ R _ x Hx).
  unfold d_rget. pose proof (p_t _ _ R). pose proof (p_h _ _ R). pose proof (p_max _ _ R). pose proof (p_ht _ _ R).
  destruct (d_head d <? i) eqn:?; f_equal; bash.
Qed.

Lemma rep_front d x r : Rep d (x :: r) -> d_getFront d = Some x.
Proof.
  intros R. unfold d_getFront. rewrite <- (p_cells _ _ R 0 x (znth_0 _ _)). f_equal.
  pose proof (p_t _ _ R). bash.
Qed.

Lemma rep_back d l x : Rep d (l ++ [x]) -> d_getBack d = Some x.
Proof.
  intros R. unfold d_getBack.
  assert (zlen (l ++ [x]) = zlen l + 1) as El by (rewrite zlen_app, zlen_cons, zlen_nil; lia).
  rewrite <- (p_cells _ _ R (zlen l) x).
  - f_equal. pose proof (p_ht _ _ R) as Hh. rewrite El in Hh. pose proof (zlen_nonneg l).
    destruct (zlen l + 1 =? 0) eqn:?; [lia|]. rewrite Hh. f_equal. lia.
  - rewrite znth_app_r, Z.sub_diag by lia. reflexivity.
Qed.

Definition queries_exact (d : @deque A) (l : list A) : Prop :=
  d_getSize d = zlen l /\ d_isEmpty d = (zlen l =? 0) /\ d_isFull N d = (zlen l =? N) /\ zlen l <= N /\
  (forall i, 0 <= i < zlen l -> d_get N d i = znth l i) /\
  (forall i, 0 <= i < zlen l -> d_rget N d i = znth l (zlen l - 1 - i)) /\
  (0 < zlen l -> d_getFront d = znth l 0) /\
  (0 < zlen l -> d_getBack d = znth l (zlen l - 1)).

Lemma rep_queries d l : Rep d l -> queries_exact d l.
Proof.
  intro R. unfold queries_exact. repeat split.
  - apply (p_size _ _ R).
  - unfold d_isEmpty. rewrite (p_size _ _ R). reflexivity.
  - apply full_eq; exact R.
  - apply (p_max _ _ R).
  - intros; apply rep_get; assumption.
  - intros; apply rep_rget; assumption.
  - intro H. destruct l as [|x r]; [rewrite zlen_nil in H; lia|]. rewrite (rep_front _ _ _ R). reflexivity.
  - intro H. destruct (exists_last (l := l)) as (t & x & ->); [intros ->; rewrite zlen_nil in H; lia|].
    rewrite (rep_back _ _ _ R). rewrite zlen_app, zlen_cons, zlen_nil.
    rewrite znth_app_r by lia. replace (_ - _ - _) with 0 by lia. reflexivity.
Qed.

(* ---- iteration ---- *)
Definition it_at (d : @deque A) (k : Z) : iter := 
  if k <? d_size d then mkIter (slot (d_tail d) k) k else mkIter N k.

Lemma inc_at d l k : Rep d l -> 0 <= k < zlen l -> it_inc N w d (it_at d k) = it_at d (k + 1).
Proof.
  intros R Hk. unfold it_inc, it_at. pose proof (p_t _ _ R). pose proof (p_max _ _ R).
  rewrite (p_size _ _ R). destruct (k <? zlen l) eqn:E; [|lia]. cbn [it_count it_index].
  rewrite (wrap_small w) by lia.
  destruct (zlen l <=? k + 1) eqn:?; destruct (k + 1 <? zlen l) eqn:?; try lia; [reflexivity|].
  assert (0 <= slot (d_tail d) k < N) by bash.
  rewrite (wrap_small w) by lia. f_equal. destruct (N <=? _) eqn:?; bash.
Qed.

Lemma loop_at d l (R : Rep d l) : forall fuel k, 0 <= k <= zlen l -> zlen l - k <= Z.of_nat fuel ->
  it_loop N w fuel d (it_at d k) = Some (skipn (Z.to_nat k) l).
Proof.
  pose proof (p_t _ _ R) as Ht. pose proof (p_max _ _ R) as Hm.
  induction fuel as [|f IH]; intros k Hk Hf.
  - assert (k = zlen l) as -> by lia. cbn [it_loop]. unfold it_at. rewrite (p_size _ _ R).
    destruct (zlen l <? zlen l) eqn:?; [lia|]. unfold it_eq; cbn [it_index d_end].
    rewrite Z.eqb_refl. unfold zlen. rewrite Nat2Z.id, skipn_all. reflexivity.
  - cbn [it_loop]. destruct (Z_lt_dec k (zlen l)) as [Hl|Hl].
    + rewrite (inc_at d l k R) by lia. rewrite IH by lia.
      unfold it_at at 1 2. rewrite (p_size _ _ R). destruct (k <? zlen l) eqn:?; [|lia].
      unfold it_eq, it_deref; cbn [it_index d_end].
      assert (0 <= slot (d_tail d) k < N) by bash.
      destruct (slot (d_tail d) k =? N) eqn:?; [lia|].
      destruct (znth_in_range l k) as [x Hx]; [lia|]. rewrite (p_cells _ _ R k x Hx). cbn [obind].
      f_equal. unfold znth in Hx. destruct (k <? 0) eqn:?; [lia|].
      replace (Z.to_nat (k + 1)) with (S (Z.to_nat k)) by lia.
      clear -Hx. revert Hx. generalize (Z.to_nat k) as n. induction l as [|y l IHl]; intros [|n] Hx; cbn in *; try discriminate.
      * congruence.
      * exact (IHl n Hx).
    + assert (k = zlen l) as -> by lia. unfold it_at at 1. rewrite (p_size _ _ R).
      destruct (zlen l <? zlen l) eqn:?; [lia|]. unfold it_eq; cbn [it_index d_end].
      rewrite Z.eqb_refl. unfold zlen. rewrite Nat2Z.id, skipn_all. reflexivity.
Qed.

Lemma begin_at d l : Rep d l -> 0 < zlen l -> d_begin d = it_at d 0.
Proof.
  intros R H. unfold d_begin, it_at. rewrite (p_size _ _ R). pose proof (p_t _ _ R).
  destruct (0 <? zlen l) eqn:?; [|lia]. f_equal. bash.
Qed.

Lemma iterate_all d l fuel : Rep d l -> 0 < zlen l <= Z.of_nat fuel ->
  it_loop N w fuel d (d_begin d) = Some l.
Proof.
  intros R H. rewrite (begin_at _ _ R) by lia. rewrite (loop_at d l R) by lia. reflexivity.
Qed.

Lemma iterate_empty d fuel : Rep d [] -> (1 <= fuel)%nat ->
  exists x, it_loop N w fuel d (d_begin d) = Some [x].
Proof.
  intros R H. destruct fuel as [|f]; [lia|]. cbn [it_loop]. pose proof (p_t _ _ R). pose proof (p_len _ _ R).
  unfold it_eq, d_begin, d_end; cbn [it_index]. destruct (d_tail d =? N) eqn:?; [lia|].
  unfold it_deref; cbn [it_index].
  destruct (znth_in_range (d_buf d) (d_tail d)) as [x Hx]; [lia|]. rewrite Hx. cbn [obind].
  exists x. unfold it_inc. cbn [it_count]. rewrite (p_size _ _ R), zlen_nil.
  rewrite (wrap_small w) by lia. cbn [Z.add].
  destruct (0 <=? 1) eqn:?; [|lia]. destruct f; cbn [it_loop]; unfold it_eq, d_end; cbn [it_index]; rewrite Z.eqb_refl; reflexivity.
Qed.

Lemma dec_at d l k : Rep d l -> 0 < k < zlen l -> it_dec N w d (it_at d k) = it_at d (k - 1).
Proof.
  intros R Hk. unfold it_dec, it_at. pose proof (p_t _ _ R). pose proof (p_max _ _ R).
  rewrite (p_size _ _ R). destruct (k <? zlen l) eqn:E; [|lia]. destruct (k - 1 <? zlen l) eqn:?; [|lia].
  cbn [it_count it_index]. destruct (k =? 0) eqn:?; [lia|].
  rewrite (wrap_small w (k - 1)) by lia. f_equal.
  assert (0 <= slot (d_tail d) k < N) by bash.
  destruct (slot (d_tail d) k =? 0) eqn:E0; [|rewrite (wrap_small w) by lia]; bash.
Qed.

Lemma deref_at d l k : Rep d l -> 0 <= k < zlen l -> it_deref d (it_at d k) = znth l k.
Proof.
  intros R Hk. unfold it_deref, it_at. rewrite (p_size _ _ R). destruct (k <? zlen l) eqn:E; [|lia].
  destruct (znth_in_range l k Hk) as [x Hx]. rewrite Hx. apply (p_cells _ _ R k x Hx).
Qed.

(* iterator obtained by k increments of begin *)
Lemma begin_inc d l (R : Rep d l) (H : 0 < zlen l) : forall k, Z.of_nat k <= zlen l ->
  Nat.iter k (it_inc N w d) (d_begin d) = it_at d (Z.of_nat k).
Proof.
  induction k as [|k IH]; intro Hk.
  - cbn. apply (begin_at _ _ R H).
  - cbn [Nat.iter nat_rect]. change (nat_rect _ _ _ k) with (Nat.iter k (it_inc N w d) (d_begin d)).
    rewrite IH by lia. rewrite (inc_at d l _ R) by lia. f_equal. lia.
Qed.

Lemma step_back d l k : Rep d l -> 0 < Z.of_nat k < zlen l ->
  it_deref d (it_dec N w d (Nat.iter k (it_inc N w d) (d_begin d))) = znth l (Z.of_nat k - 1).
Proof.
  intros R Hk. rewrite (begin_inc d l R) by lia. rewrite (dec_at d l _ R) by lia.
  apply deref_at; [exact R|lia].
Qed.

Lemma dec_end (d : @deque A) : it_dec N w d (d_end N d) = d_end N d.
Proof. reflexivity. Qed.

(* ---- adaptors ---- *)
Lemma fifo_refines os : forall d l l' out, Rep d l -> spec_arun (fifo_step N) l os = Some (l', out) ->
  exists d', arun (bq_step N w) d os = Some (d', out) /\ Rep d' l'.
Proof.
  induction os as [|o os IH]; intros d l l' out R H; cbn [spec_arun arun] in *.
  - injection H as <- <-. exists d. split; [reflexivity|exact R].
  - destruct (fifo_step N l o) as [[l1 x]|] eqn:E1; cbn [obind] in H; [|discriminate].
    destruct (spec_arun _ l1 os) as [[l2 xs]|] eqn:E2; cbn [obind] in H; [|discriminate].
    injection H as <- <-.
    assert (exists d1, bq_step N w d o = Some (d1, x) /\ Rep d1 l1) as (d1 & Ed1 & R1).
    { destruct o as [v|]; cbn [fifo_step bq_step] in *.
      - destruct (step_refines d l (DAppend v) l1 (match x with BPushed b => b | _ => true end) R) as (d1 & Ed & R1).
        + cbn [spec_step]. destruct (zlen l =? N); injection E1 as <- <-; reflexivity.
        + cbn [dstep] in Ed. rewrite Ed. cbn [obind]. exists d1. split; [|exact R1].
          destruct (zlen l =? N); injection E1 as <- <-; reflexivity.
      - destruct l as [|y t]; [discriminate|]. injection E1 as <- <-.
        rewrite (rep_front _ _ _ R). cbn [obind].
        destruct (step_refines d (y :: t) DRemoveFront t true R eq_refl) as (d1 & Ed & R1).
        cbn [dstep] in Ed. injection Ed as <-. eexists; split; [reflexivity|exact R1]. }
    rewrite Ed1. cbn [obind]. destruct (IH _ _ _ _ R1 E2) as (d2 & Ed2 & R2). rewrite Ed2. cbn [obind].
    exists d2. split; [reflexivity|exact R2].
Qed.

Lemma lifo_refines os : forall d l l' out, Rep d l -> spec_arun (lifo_step N) l os = Some (l', out) ->
  exists d', arun (bs_step N w) d os = Some (d', out) /\ Rep d' l'.
Proof.
  induction os as [|o os IH]; intros d l l' out R H; cbn [spec_arun arun] in *.
  - injection H as <- <-. exists d. split; [reflexivity|exact R].
  - destruct (lifo_step N l o) as [[l1 x]|] eqn:E1; cbn [obind] in H; [|discriminate].
    destruct (spec_arun _ l1 os) as [[l2 xs]|] eqn:E2; cbn [obind] in H; [|discriminate].
    injection H as <- <-.
    assert (exists d1, bs_step N w d o = Some (d1, x) /\ Rep d1 l1) as (d1 & Ed1 & R1).
    { destruct o as [v|]; cbn [lifo_step bs_step] in *.
      - destruct (step_refines d l (DPrepend v) l1 (match x with BPushed b => b | _ => true end) R) as (d1 & Ed & R1).
        + cbn [spec_step]. destruct (zlen l =? N); injection E1 as <- <-; reflexivity.
        + cbn [dstep] in Ed. rewrite Ed. cbn [obind]. exists d1. split; [|exact R1].
          destruct (zlen l =? N); injection E1 as <- <-; reflexivity.
      - destruct l as [|y t]; [discriminate|]. injection E1 as <- <-.
        rewrite (rep_front _ _ _ R). cbn [obind].
        destruct (step_refines d (y :: t) DRemoveFront t true R eq_refl) as (d1 & Ed & R1).
        cbn [dstep] in Ed. injection Ed as <-. eexists; split; [reflexivity|exact R1]. }
    rewrite Ed1. cbn [obind]. destruct (IH _ _ _ _ R1 E2) as (d2 & Ed2 & R2). rewrite Ed2. cbn [obind].
    exists d2. split; [reflexivity|exact R2].
Qed.

Lemma history_refines (b : list A) os l out : zlen b = N -> spec_run N [] os = Some (l, out) ->
  exists d, drun N w (d_init N b) os = Some (d, out) /\ queries_exact d l.
Proof.
  intros Hb H. destruct (run_refines os _ _ _ _ (rep_init b Hb) H) as (d & E & R).
  exists d. split; [exact E|apply rep_queries; exact R].
Qed.

Lemma history_iterates (b : list A) os l out fuel : zlen b = N -> spec_run N [] os = Some (l, out) ->
  0 < zlen l <= Z.of_nat fuel ->
  exists d, drun N w (d_init N b) os = Some (d, out) /\ it_loop N w fuel d (d_begin d) = Some l /\
    (forall k, 0 < Z.of_nat k < zlen l ->
      it_deref d (it_dec N w d (Nat.iter k (it_inc N w d) (d_begin d))) = znth l (Z.of_nat k - 1)).
Proof.
  intros Hb H Hf. destruct (run_refines os _ _ _ _ (rep_init b Hb) H) as (d & E & R).
  exists d. split; [exact E|]. split; [apply iterate_all; assumption|].
  intros k Hk. apply step_back; assumption.
Qed.

Lemma history_iterates_empty (b : list A) os out fuel : zlen b = N -> spec_run N [] os = Some ([], out) ->
  (1 <= fuel)%nat ->
  exists d x, drun N w (d_init N b) os = Some (d, out) /\ it_loop N w fuel d (d_begin d) = Some [x].
Proof.
  intros Hb H Hf. destruct (run_refines os _ _ _ _ (rep_init b Hb) H) as (d & E & R).
  destruct (iterate_empty d fuel R Hf) as [x Hx]. exists d, x. auto.
Qed.

Lemma fifo_history (b : list A) os l out : zlen b = N -> spec_arun (fifo_step N) [] os = Some (l, out) ->
  exists d, arun (bq_step N w) (d_init N b) os = Some (d, out) /\
    d_getSize d = zlen l /\ d_isFull N d = (zlen l =? N) /\ d_isEmpty d = (zlen l =? 0).
Proof.
  intros Hb H. destruct (fifo_refines os _ _ _ _ (rep_init b Hb) H) as (d & E & R).
  exists d. split; [exact E|]. pose proof (rep_queries d l R) as (q1 & q2 & q3 & _). auto.
Qed.
Lemma lifo_history (b : list A) os l out : zlen b = N -> spec_arun (lifo_step N) [] os = Some (l, out) ->
  exists d, arun (bs_step N w) (d_init N b) os = Some (d, out) /\
    d_getSize d = zlen l /\ d_isFull N d = (zlen l =? N) /\ d_isEmpty d = (zlen l =? 0).
Proof.
  intros Hb H. destruct (lifo_refines os _ _ _ _ (rep_init b Hb) H) as (d & E & R).
  exists d. split; [exact E|]. pose proof (rep_queries d l R) as (q1 & q2 & q3 & _). auto.
Qed.
End Proofs.
