From Verif Require Import Base WindowSpec WindowLemmas MedianModel MedianSpec.

(* ---- the network permutes and commutes with monotone maps ---- *)
Definition in_net (n : Z) (net : list (Z * Z)) : Prop := Forall (fun p => 0 <= fst p < n /\ 0 <= snd p < n /\ fst p <> snd p) net.

Lemma swap_perm (s s1 s2 : list Z) i j a b : i <> j -> znth s i = Some a -> znth s j = Some b ->
  zupd s i b = Some s1 -> zupd s1 j a = Some s2 -> Permutation s s2.
Proof.
  intros Hij Ha Hb H1 H2.
  assert (forall (s s1 s2 : list Z) i j a b, i < j -> znth s i = Some a -> znth s j = Some b ->
    zupd s i b = Some s1 -> zupd s1 j a = Some s2 -> Permutation s s2) as Hlt.
  { clear. intros s s1 s2 i j a b Hij Ha Hb H1 H2.
    pose proof (znth_Some _ _ _ Ha) as Ri. pose proof (znth_Some _ _ _ Hb) as Rj. unfold zlen in *.
    destruct (split_at s (Z.to_nat i)) as (l & x & r & -> & L); [lia|].
    assert (i = zlen l) as Ei by (unfold zlen; lia).
    rewrite (znth_app_mid l x r i Ei) in Ha. injection Ha as ->.
    rewrite (zupd_app l a r b i Ei) in H1. injection H1 as <-.
    rewrite app_length in Rj. cbn [length] in Rj.
    destruct (split_at r (Z.to_nat (j - i - 1))) as (l' & y & r' & -> & L'); [lia|].
    assert (j = zlen (l ++ a :: l')) as Ej by (rewrite zlen_app, zlen_cons; unfold zlen in *; lia).
    replace (l ++ a :: l' ++ y :: r') with ((l ++ a :: l') ++ y :: r') in Hb by (rewrite <- app_assoc; reflexivity).
    rewrite (znth_app_mid _ y r' j Ej) in Hb. injection Hb as ->.
    assert (j = zlen (l ++ b :: l')) as Ej' by (rewrite zlen_app, zlen_cons in *; lia).
    replace (l ++ b :: l' ++ b :: r') with ((l ++ b :: l') ++ b :: r') in H2 by (rewrite <- app_assoc; reflexivity).
    rewrite (zupd_app _ b r' a j Ej') in H2. injection H2 as <-.
    rewrite <- app_assoc. cbn [app]. apply Permutation_app_head.
    transitivity (b :: a :: l' ++ r').
    - transitivity (a :: b :: l' ++ r'); [|apply perm_swap]. apply perm_skip. symmetry. apply Permutation_middle.
    - apply perm_skip. apply Permutation_middle. }
  destruct (Z.lt_trichotomy i j) as [H|[H|H]]; [eapply Hlt; eassumption|lia|].
  (* the two writes commute *)
  destruct (zupd_Some _ _ _ _ H1) as (R1 & L1 & G1). destruct (zupd_Some _ _ _ _ H2) as (R2 & L2 & G2).
  destruct (zupd_in_range s j a) as (s1' & E1 & L1' & G1'); [lia|].
  destruct (zupd_in_range s1' i b) as (s2' & E2 & L2' & G2'); [lia|].
  assert (s2 = s2') as ->.
  { apply znth_ext. intros k Hk. rewrite G2, G1, G2', G1'. destruct (k =? j) eqn:A, (k =? i) eqn:B; try reflexivity; lia. }
  eapply (Hlt s s1' s2' j i b a); eassumption.
Qed.

Lemma sort2_spec s i j : 0 <= i < zlen s -> 0 <= j < zlen s -> i <> j ->
  exists s', sort2 s i j = Some s' /\ Permutation s s' /\ zlen s' = zlen s.
Proof.
  intros Hi Hj Hij. unfold sort2. destruct (znth_in_range s i Hi) as [a Ha]. destruct (znth_in_range s j Hj) as [b Hb].
  rewrite Ha, Hb. cbn [obind]. destruct (b <? a); [|eauto using Permutation_refl].
  destruct (zupd_in_range s i b Hi) as (s1 & E1 & L1 & _). rewrite E1. cbn [obind].
  destruct (zupd_in_range s1 j a) as (s2 & E2 & L2 & _); [lia|]. rewrite E2.
  exists s2. split; [reflexivity|]. split; [|lia]. eapply swap_perm; eassumption.
Qed.
Lemma network_spec net s : in_net (zlen s) net -> exists s', network net s = Some s' /\ Permutation s s' /\ zlen s' = zlen s.
Proof.
  revert s; induction net as [|[i j] r IH]; intros s H; cbn [network]; [eauto using Permutation_refl|].
  inversion H as [|? ? (Hi & Hj & Hij) Hr]; subst; cbn [fst snd] in *.
  destruct (sort2_spec s i j Hi Hj Hij) as (s1 & E & P & L). rewrite E. cbn [obind].
  destruct (IH s1) as (s2 & E2 & P2 & L2); [rewrite L; exact Hr|]. exists s2. split; [exact E2|]. split; [|lia].
  etransitivity; eassumption.
Qed.

Lemma zupd_map (f : Z -> Z) s i v : zupd (map f s) i (f v) = option_map (map f) (zupd s i v).
Proof.
  unfold zupd. destruct (i <? 0); [reflexivity|]. generalize (Z.to_nat i). induction s as [|x s IH]; intros [|n]; cbn; try reflexivity.
  rewrite IH. destruct (upd_nat s n v); reflexivity.
Qed.
Lemma zupd_same (s : list Z) i x : znth s i = Some x -> zupd s i x = Some s.
Proof.
  intro H. destruct (zupd_in_range s i x (znth_Some _ _ _ H)) as (s' & E & L & G). rewrite E. f_equal.
  apply znth_ext. intros k Hk. rewrite G. destruct (k =? i) eqn:E1; [|reflexivity]. replace k with i by lia. auto.
Qed.
Lemma sort2_map f s i j : (forall x y, x <= y -> f x <= f y) -> sort2 (map f s) i j = option_map (map f) (sort2 s i j).
Proof.
  intro Hf. unfold sort2. rewrite !znth_map.
  destruct (znth s i) as [a|] eqn:Ha; cbn; [|reflexivity]. destruct (znth s j) as [b|] eqn:Hb; cbn; [|reflexivity].
  destruct (b <? a) eqn:E.
  - destruct (f b <? f a) eqn:E1.
    + rewrite zupd_map. destruct (zupd s i b) as [s1|]; cbn; [|reflexivity]. apply zupd_map.
    + assert (f a = f b) as Eq by (pose proof (Hf b a ltac:(lia)); lia).
      (* equal images: swapping them changes nothing *)
      pose proof (zupd_map f s i b) as Hm. rewrite (zupd_same (map f s) i (f b)) in Hm by (rewrite znth_map, Ha; cbn; congruence).
      destruct (zupd s i b) as [s1|]; cbn in *; [|discriminate]. injection Hm as Hm.
      rewrite <- zupd_map, <- Hm. symmetry. apply zupd_same. rewrite znth_map, Hb. cbn. congruence.
  - pose proof (Hf a b ltac:(lia)). replace (f b <? f a) with false by lia. reflexivity.
Qed.
Lemma network_map f net s : (forall x y, x <= y -> f x <= f y) -> network net (map f s) = option_map (map f) (network net s).
Proof.
  intro Hf. revert s; induction net as [|[i j] r IH]; intro s; cbn [network]; [reflexivity|].
  rewrite sort2_map by exact Hf. destruct (sort2 s i j); cbn; [apply IH|reflexivity].
Qed.

(* ---- counting ---- *)
Definition ge (t x : Z) : Z := if t <=? x then 1 else 0.
Fixpoint total (l : list Z) : Z := match l with [] => 0 | x :: r => x + total r end.
Definition count_ge (t : Z) (l : list Z) : Z := total (map (ge t) l).
Lemma ge_mono t x y : x <= y -> ge t x <= ge t y.
Proof. unfold ge. intro. destruct (t <=? x) eqn:A, (t <=? y) eqn:B; lia. Qed.
Lemma total_perm l l' : Permutation l l' -> total l = total l'.
Proof. induction 1; cbn; lia. Qed.
Lemma count_perm t l l' : Permutation l l' -> count_ge t l = count_ge t l'.
Proof. intro H. apply total_perm, Permutation_map, H. Qed.
Lemma count_app t l l' : count_ge t (l ++ l') = count_ge t l + count_ge t l'.
Proof. unfold count_ge. rewrite map_app. induction (map (ge t) l); cbn; lia. Qed.
Lemma count_cons t x l : count_ge t (x :: l) = ge t x + count_ge t l. Proof. reflexivity. Qed.
Lemma count_bounds t l : 0 <= count_ge t l <= zlen l.
Proof. induction l; [cbn; lia|]. rewrite count_cons, zlen_cons. unfold ge. destruct (t <=? a); lia. Qed.
Lemma count_all t l : Forall (fun x => t <= x) l -> count_ge t l = zlen l.
Proof. induction 1; [reflexivity|]. rewrite count_cons, zlen_cons. unfold ge. replace (t <=? x) with true by lia. lia. Qed.
Lemma count_none t l : Forall (fun x => x < t) l -> count_ge t l = 0.
Proof. induction 1; [reflexivity|]. rewrite count_cons. unfold ge. replace (t <=? x) with false by lia. lia. Qed.

Lemma sorted_split (l : list Z) m r : StronglySorted Z.le (l ++ m :: r) -> Forall (fun x => x <= m) l /\ Forall (fun x => m <= x) r.
Proof.
  induction l as [|x l IH]; cbn; intro H.
  - inversion H; subst. split; [constructor|assumption].
  - inversion H as [|? ? Hs Hf]; subst. destruct (IH Hs) as [A B]. split; [|exact B]. constructor; [|exact A].
    rewrite Forall_forall in Hf. apply Hf. apply in_or_app. right. left. reflexivity.
Qed.
Lemma sorted_threshold s k m t : Sorted Z.le s -> nth_error s k = Some m ->
  (t <= m <-> zlen s - Z.of_nat k <= count_ge t s).
Proof.
  intros Hs Hk. apply Sorted_StronglySorted in Hs; [|intros a b c; lia].
  assert (k < length s)%nat as Hlt by (apply nth_error_Some; congruence).
  destruct (split_at s k Hlt) as (l & x & r & -> & L).
  rewrite nth_error_app2 in Hk by lia. replace (k - length l)%nat with 0%nat in Hk by lia. cbn in Hk. injection Hk as ->.
  destruct (sorted_split l m r Hs) as [A B].
  rewrite count_app, count_cons, zlen_app, zlen_cons. pose proof (count_bounds t l). pose proof (count_bounds t r).
  assert (Z.of_nat k = zlen l) as -> by (unfold zlen; lia).
  unfold ge. destruct (t <=? m) eqn:E.
  - rewrite (count_all t r); [lia|]. eapply Forall_impl; [|exact B]. cbn; lia.
  - rewrite (count_none t l); [lia|]. eapply Forall_impl; [|exact A]. cbn; lia.
Qed.

(* insertion sort, to name the sorted arrangement *)
Fixpoint insert (x : Z) (l : list Z) : list Z :=
  match l with [] => [x] | y :: r => if x <=? y then x :: y :: r else y :: insert x r end.
Fixpoint isort (l : list Z) : list Z := match l with [] => [] | x :: r => insert x (isort r) end.
Lemma insert_perm x l : Permutation (insert x l) (x :: l).
Proof. induction l as [|y r IH]; cbn; [reflexivity|]. destruct (x <=? y); [reflexivity|]. rewrite IH. apply perm_swap. Qed.
Lemma insert_sorted x l : Sorted Z.le l -> Sorted Z.le (insert x l).
Proof.
  induction 1 as [|y r Hr IH Hy]; cbn; [repeat constructor|]. destruct (x <=? y) eqn:E.
  - repeat constructor; assumption || lia.
  - constructor; [exact IH|]. destruct r as [|z r]; cbn; [constructor; lia|].
    inversion Hy; subst. destruct (x <=? z); constructor; lia.
Qed.
Lemma isort_ok l : Permutation (isort l) l /\ Sorted Z.le (isort l).
Proof.
  induction l as [|x l [P S]]; cbn; [split; constructor|]. split.
  - rewrite insert_perm, P. reflexivity.
  - apply insert_sorted, S.
Qed.

(* ---- the finite check on zeros and ones ---- *)
Fixpoint zero_one (n : nat) : list (list Z) :=
  match n with O => [[]] | S k => map (cons 0) (zero_one k) ++ map (cons 1) (zero_one k) end.
Lemma zero_one_complete l : Forall (fun x => x = 0 \/ x = 1) l -> In l (zero_one (length l)).
Proof.
  induction 1 as [|x l Hx Hl IH]; [left; reflexivity|]. cbn. apply in_or_app.
  destruct Hx as [-> | ->]; [left|right]; apply in_map, IH.
Qed.
Definition selects (net : list (Z * Z)) (mid : Z) (l : list Z) : bool :=
  match network net l with
  | Some s => match znth s mid with Some x => x =? (if mid + 1 <=? total l then 1 else 0) | None => false end
  | None => false
  end.
Definition good_class (c : mclass) : Prop :=
  in_net (Z.of_nat (c_n c)) (c_net c) /\ Z.of_nat (c_n c) = 2 * c_mid c + 1 /\ 0 <= c_mid c /\
  forallb (selects (c_net c) (c_mid c)) (zero_one (c_n c)) = true.
Lemma good3 : good_class Median3. Proof. repeat split; try (cbn; lia). repeat constructor; cbn; lia. Qed.
Lemma good5 : good_class Median5. Proof. repeat split; try (cbn; lia). repeat constructor; cbn; lia. Qed.
Lemma good7 : good_class Median7. Proof. split; [repeat constructor; cbn; lia|]. vm_compute. intuition congruence. Qed.
Lemma good9 : good_class Median9. Proof. split; [repeat constructor; cbn; lia|]. vm_compute. intuition congruence. Qed.

Lemma network_median c l : good_class c -> length l = c_n c ->
  exists s m, network (c_net c) l = Some s /\ Permutation l s /\ znth s (c_mid c) = Some m /\ is_median l m.
Proof.
  intros (Hin & Hn & Hmid & Hsel) Hl.
  destruct (network_spec (c_net c) l) as (s & E & P & L); [unfold zlen; rewrite Hl; exact Hin|].
  destruct (znth_in_range s (c_mid c)) as [x Hx]; [unfold zlen in *; lia|].
  exists s, x. repeat split; try assumption.
  destruct (isort_ok l) as [Pi Si]. exists (isort l). split; [exact Pi|]. split; [exact Si|].
  assert (Nat.div2 (length l) = Z.to_nat (c_mid c)) as Ed.
  { rewrite Hl. replace (c_n c) with (S (2 * Z.to_nat (c_mid c))) by lia. apply Nat.div2_succ_double. }
  rewrite Ed. assert (length (isort l) = length l) as Li by (apply Permutation_length, Pi).
  destruct (nth_error (isort l) (Z.to_nat (c_mid c))) as [m|] eqn:Em.
  2:{ apply nth_error_None in Em. lia. }
  f_equal.
  assert (forall t, t <= m <-> t <= x) as Ht.
  { intro t. rewrite (sorted_threshold _ _ _ t Si Em). rewrite (count_perm t _ _ Pi).
    unfold zlen. rewrite Li, Hl. replace (Z.of_nat (c_n c) - Z.of_nat (Z.to_nat (c_mid c))) with (c_mid c + 1) by lia.
    pose proof (network_map (ge t) (c_net c) l (ge_mono t)) as Hm. rewrite E in Hm. cbn in Hm.
    rewrite forallb_forall in Hsel. specialize (Hsel (map (ge t) l)). unfold selects in Hsel. rewrite Hm in Hsel.
    rewrite znth_map, Hx in Hsel. cbn in Hsel.
    assert (In (map (ge t) l) (zero_one (c_n c))) as Hi.
    { rewrite <- Hl, <- (map_length (ge t) l). apply zero_one_complete. apply Forall_forall. intros y Hy.
      apply in_map_iff in Hy. destruct Hy as (z & <- & _). unfold ge. destruct (t <=? z); tauto. }
    specialize (Hsel Hi). unfold count_ge. unfold ge at 1 in Hsel.
    destruct (t <=? x) eqn:E1, (c_mid c + 1 <=? total (map (ge t) l)) eqn:E2; try discriminate; lia. }
  pose proof (proj1 (Ht m)). pose proof (proj2 (Ht x)). lia.
Qed.

(* ---- the filter ---- *)
Lemma replace_first_perm v x s r : Permutation s (v :: r) -> Permutation (replace_first v x s) (x :: r).
Proof.
  assert (In v s -> exists r', Permutation s (v :: r') /\ Permutation (replace_first v x s) (x :: r')) as H.
  { induction s as [|y s IH]; intro Hin; [destruct Hin|]. cbn. destruct (y =? v) eqn:E.
    - assert (y = v) as -> by lia. exists s. split; reflexivity.
    - destruct Hin as [->|Hin]; [lia|]. destruct (IH Hin) as (r' & A & B). exists (y :: r'). split.
      + rewrite A. apply perm_swap.
      + rewrite B. apply perm_swap. }
  intro P. destruct H as (r' & A & B).
  - apply Permutation_in with (v :: r); [symmetry; exact P|left; reflexivity].
  - rewrite B. apply perm_skip. apply Permutation_cons_inv with v. rewrite <- A. exact P.
Qed.
Lemma ring_perm {A} i (b w : list A) : ring i b w -> Permutation b w.
Proof. intros (_ & <-). rewrite <- (firstn_skipn (Z.to_nat i) b) at 1. apply Permutation_app_comm. Qed.

Definition m_inv (c : mclass) (w : list Z) (m : median) : Prop :=
  ring (m_index m) (m_buffer m) w /\ length w = c_n c /\ length (m_buffer m) = c_n c /\
  (c_copy c = false -> Permutation (m_sorted m) w).

Lemma m_init_inv c v : good_class c -> m_inv c (repeat v (c_n c)) (m_init (c_n c) v).
Proof.
  intros (_ & Hn & Hm & _). unfold m_inv, m_init. cbn [m_index m_buffer m_sorted]. rewrite !repeat_length.
  repeat split; try lia.
  - rewrite zlen_repeat. lia.
  - cbn. apply app_nil_r.
  - intros _. reflexivity.
Qed.
Lemma m_append_inv c w m x : good_class c -> m_inv c w m ->
  exists m', m_step c m (MAppend x) = Some m' /\ m_inv c (tl w ++ [x]) m'.
Proof.
  intros (_ & Hn & Hm & _) (Hr & Hw & Hb & Hs).
  destruct (ring_push _ _ _ x Hr) as (o & b' & E1 & E2 & E3 & L & R).
  assert (zlen (m_buffer m) = Z.of_nat (c_n c)) as Ez by (unfold zlen; lia). rewrite Ez in R.
  assert (w = o :: tl w) as Ew by (destruct w; cbn in *; congruence).
  assert (length (tl w ++ [x]) = c_n c) as Lw by (rewrite Ew in Hw; cbn in Hw; rewrite app_length; cbn; lia).
  assert (length b' = c_n c) as Lb by (unfold zlen in *; lia).
  cbn [m_step]. destruct (c_copy c) eqn:Ec; unfold m_append_copy, m_append_inplace, m_store.
  - rewrite E3. cbn [obind]. eexists. split; [reflexivity|]. unfold m_inv. cbn [m_index m_buffer m_sorted]. repeat split; try assumption; try apply R.
    congruence.
  - rewrite E1, E3. cbn [obind]. eexists. split; [reflexivity|]. unfold m_inv. cbn [m_index m_buffer m_sorted]. repeat split; try assumption; try apply R.
    intros _. rewrite (replace_first_perm o x (m_sorted m) (tl w)).
    + apply Permutation_cons_append.
    + rewrite Ew in Hs. apply Hs. reflexivity.
Qed.
Lemma is_median_perm l l' m : Permutation l l' -> is_median l m -> is_median l' m.
Proof.
  intros P (s & Ps & Ss & H). exists s. split; [rewrite Ps; exact P|]. split; [exact Ss|].
  rewrite <- (Permutation_length P). exact H.
Qed.
Lemma m_update_inv c w m : good_class c -> m_inv c w m ->
  exists m' v, m_step c m MUpdate = Some m' /\ m_inv c w m' /\ m_getValue (c_mid c) m' = Some v /\ is_median w v.
Proof.
  intros Hg (Hr & Hw & Hb & Hs). cbn [m_step].
  pose proof (ring_perm _ _ _ Hr) as Pb.
  destruct (c_copy c) eqn:Ec.
  - destruct (network_median c (m_buffer m) Hg Hb) as (s & v & E & P & X & Y).
    unfold m_update_copy. rewrite E. cbn [obind]. eexists _, v. split; [reflexivity|].
    split; [unfold m_inv; cbn [m_index m_buffer m_sorted]; intuition congruence|].
    split; [exact X|]. eapply is_median_perm; eassumption.
  - specialize (Hs eq_refl). assert (length (m_sorted m) = c_n c) as Ls by (rewrite <- Hw; apply Permutation_length; assumption).
    destruct (network_median c (m_sorted m) Hg Ls) as (s & v & E & P & X & Y).
    unfold m_update_inplace. rewrite E. cbn [obind]. eexists _, v. split; [reflexivity|].
    split; [unfold m_inv; cbn [m_index m_buffer m_sorted]; repeat split; try assumption; try apply Hr; intros _; rewrite <- P; exact Hs|].
    split; [exact X|]. exact (is_median_perm _ _ _ Hs Y).
Qed.
Lemma m_run_inv c h v os m : good_class c -> m_inv c (window (c_n c) v h) m ->
  exists m', m_run c m os = Some m' /\ m_inv c (window (c_n c) v (h ++ samples os)) m'.
Proof.
  intro Hg. assert (0 < c_n c)%nat as Hpos by (destruct Hg as (_ & Hn & Hm & _); lia).
  revert h m; induction os as [|[x|] os IH]; intros h m Hi; cbn [m_run samples].
  - exists m. rewrite app_nil_r. auto.
  - destruct (m_append_inv c _ m x Hg Hi) as (m1 & E & I). rewrite E. cbn [obind].
    rewrite <- window_snoc in I by assumption. destruct (IH _ _ I) as (m2 & E2 & I2). exists m2. split; [exact E2|].
    rewrite <- app_assoc in I2. exact I2.
  - destruct (m_update_inv c _ m Hg Hi) as (m1 & y & E & I & _). rewrite E. cbn [obind]. apply IH, I.
Qed.
Theorem median_correct c v os : good_class c ->
  exists m x, m_run c (m_init (c_n c) v) (os ++ [MUpdate]) = Some m /\ m_getValue (c_mid c) m = Some x /\
    is_median (window (c_n c) v (samples os)) x.
Proof.
  intro Hg. pose proof (m_init_inv c v Hg) as Hi. rewrite <- window_nil in Hi.
  destruct (m_run_inv c [] v os _ Hg Hi) as (m1 & E1 & I1). cbn [app] in I1.
  destruct (m_update_inv c _ _ Hg I1) as (m2 & x & E2 & _ & X & Y).
  exists m2, x. split; [|auto].
  assert (forall os m, m_run c m (os ++ [MUpdate]) = (do m' <- m_run c m os; m_step c m' MUpdate)) as Happ.
  { clear. induction os as [|o os IH]; intro m; cbn [m_run app].
    - cbn [obind]. destruct (m_step c m MUpdate); reflexivity.
    - destruct (m_step c m o); cbn [obind]; [apply IH|reflexivity]. }
  rewrite Happ, E1. cbn [obind]. exact E2.
Qed.
