(* Proofs about the block allocator: the memory always holds a list of blocks with intact markers and no two adjacent free ones. *)
From Coq Require Import Permutation.
From Verif Require Import Base BlockAllocModel BlockAllocSpec.

Definition blk := (Z * bool)%type.   (* slots, in use *)
Fixpoint tot (bl : list blk) : Z := match bl with [] => 0 | (n, _) :: r => n + tot r end.
Fixpoint used_at (s : Z) (bl : list blk) : list (Z * Z) :=
  match bl with [] => [] | (n, u) :: r => (if u then [(s, n)] else []) ++ used_at (s + n) r end.
Fixpoint free_at (s : Z) (bl : list blk) : list (Z * Z) :=
  match bl with [] => [] | (n, u) :: r => (if u then [] else [(s, n)]) ++ free_at (s + n) r end.
Fixpoint pos (bl : list blk) : Prop := match bl with [] => True | (n, _) :: r => 1 <= n /\ pos r end.
Fixpoint canon (bl : list blk) : Prop :=
  match bl with
  | [] => True
  | (_, u) :: r => match r with (_, v) :: _ => u = true \/ v = true | [] => True end /\ canon r
  end.

Lemma tot_app a b : tot (a ++ b) = tot a + tot b.
Proof. induction a as [|[n u] r IH]; cbn [tot app]; lia. Qed.
Lemma pos_app a b : pos (a ++ b) <-> pos a /\ pos b.
Proof. induction a as [|[n u] r IH]; cbn [pos app]; tauto. Qed.
Lemma tot_nonneg a : pos a -> 0 <= tot a.
Proof. induction a as [|[n u] r IH]; cbn [pos tot]; [lia|]. intros [H1 H2]. specialize (IH H2). lia. Qed.
Lemma used_app a : forall s b, used_at s (a ++ b) = used_at s a ++ used_at (s + tot a) b.
Proof.
  induction a as [|[n u] r IH]; intros s b; cbn [used_at app tot]; [f_equal; lia|]. rewrite IH, <- app_assoc. do 3 f_equal. lia.
Qed.
Lemma free_app a : forall s b, free_at s (a ++ b) = free_at s a ++ free_at (s + tot a) b.
Proof.
  induction a as [|[n u] r IH]; intros s b; cbn [free_at app tot]; [f_equal; lia|]. rewrite IH, <- app_assoc. do 3 f_equal. lia.
Qed.
Lemma used_range bl : forall s t k, pos bl -> In (t, k) (used_at s bl) -> s <= t /\ 1 <= k /\ t + k <= s + tot bl.
Proof.
  induction bl as [|[n u] r IH]; intros s t k P I; cbn [used_at pos tot] in *; [destruct I|]. destruct P as [P1 P2]. pose proof (tot_nonneg r P2).
  apply in_app_or in I. destruct I as [I|I].
  - destruct u; [|destruct I]. destruct I as [I|[]]. injection I as <- <-. lia.
  - specialize (IH _ _ _ P2 I). lia.
Qed.
Lemma free_range bl : forall s t k, pos bl -> In (t, k) (free_at s bl) -> s <= t /\ 1 <= k /\ t + k <= s + tot bl.
Proof.
  induction bl as [|[n u] r IH]; intros s t k P I; cbn [free_at pos tot] in *; [destruct I|]. destruct P as [P1 P2]. pose proof (tot_nonneg r P2).
  apply in_app_or in I. destruct I as [I|I].
  - destruct u; [destruct I|]. destruct I as [I|[]]. injection I as <- <-. lia.
  - specialize (IH _ _ _ P2 I). lia.
Qed.
Lemma used_split bl : forall s t k, In (t, k) (used_at s bl) -> exists a b, bl = a ++ (k, true) :: b /\ t = s + tot a.
Proof.
  induction bl as [|[n u] r IH]; intros s t k I; cbn [used_at] in *; [destruct I|]. apply in_app_or in I. destruct I as [I|I].
  - destruct u; [|destruct I]. destruct I as [I|[]]. injection I as <- <-. exists [], r. cbn. split; [reflexivity|lia].
  - destruct (IH _ _ _ I) as (a & b & -> & ->). exists ((n, u) :: a), b. cbn [tot app]. split; [reflexivity|lia].
Qed.

Definition endsfree (a : list blk) : Prop := exists a' n, a = a' ++ [(n, false)].
Definition startsfree (b : list blk) : Prop := exists n b', b = (n, false) :: b'.
Lemma canon_app a b : canon (a ++ b) <-> canon a /\ canon b /\ ~ (endsfree a /\ startsfree b).
Proof.
  induction a as [|[n u] r IH]; cbn [app canon].
  - split; [|tauto]. intro H. split; [exact I|]. split; [exact H|]. intros [(a' & m & E) _]. destruct a'; discriminate.
  - rewrite IH. destruct r as [|[m v] r]; cbn [app].
    + cbn [canon]. split.
      * intros (H1 & _ & H2 & H3). split; [auto|]. split; [exact H2|]. intros [(a' & m & E) (m' & b' & ->)].
        destruct a' as [|x [|y a']]; cbn in E; try discriminate. injection E as <- ->. destruct H1; discriminate.
      * intros (_ & H2 & H3). split; [|split; [exact I|split; [exact H2|]]].
        { destruct b as [|[m v] b']; [exact I|]. destruct u; [auto|]. destruct v; [auto|]. exfalso. apply H3. split; [exists [], n; reflexivity|exists m, b'; reflexivity]. }
        intros [(a' & m & E) _]. destruct a'; discriminate.
    + split.
      * intros (H1 & H2 & H3 & H4). split; [auto|]. split; [exact H3|]. intros [(a' & k & E) Sb]. apply H4. split; [|exact Sb].
        destruct a' as [|x a']; cbn in E; [discriminate|]. injection E as _ E. exists a', k. exact E.
      * intros ((H1 & H2) & H3 & H4). split; [exact H1|]. split; [exact H2|]. split; [exact H3|]. intros [(a' & k & E) Sb]. apply H4.
        split; [|exact Sb]. exists ((n, u) :: a'), k. cbn [app]. rewrite <- E. reflexivity.
Qed.

(* a free run lies in one free block *)
Lemma free_run bl : forall s0 s k, pos bl -> canon bl -> 1 <= k -> s0 <= s -> s + k <= s0 + tot bl ->
  (forall s' k', In (s', k') (used_at s0 bl) -> s + k <= s' \/ s' + k' <= s) ->
  exists t n, In (t, n) (free_at s0 bl) /\ t <= s /\ s + k <= t + n.
Proof.
  induction bl as [|[n u] r IH]; intros s0 s k P C K H1 H2 D; cbn [pos canon tot used_at free_at] in *; [lia|]. destruct P as [P1 P2], C as [C1 C2].
  destruct (Z_le_dec (s0 + n) s) as [L|L].
  - destruct (IH (s0 + n) s k P2 C2 K L ltac:(lia)) as (t & m & I & T1 & T2).
    { intros s' k' I. apply D. apply in_or_app. auto. }
    exists t, m. split; [apply in_or_app; auto|auto].
  - destruct u. { exfalso. destruct (D s0 n); [apply in_or_app; left; left; reflexivity|lia|lia]. }
    destruct (Z_le_dec (s + k) (s0 + n)) as [L2|L2]; [exists s0, n; split; [left; reflexivity|lia]|].
    exfalso. destruct r as [|[m v] r]; cbn [tot] in *; [lia|]. destruct C1 as [C1|C1]; [discriminate|subst v].
    cbn [pos] in P2. destruct (D (s0 + n) m); [cbn [used_at app]; left; reflexivity|lia|lia].
Qed.

Lemma taken_perm a b : Permutation a b -> taken a = taken b.
Proof. induction 1; unfold taken in *; cbn [fold_right]; lia. Qed.

Section Alloc.
Variables (pw BS A size M : Z).
Hypothesis Hpw : 16 <= pw.
Hypothesis HBS : 2 <= BS.
Hypothesis HA : 2 <= A.
Hypothesis Hsize : 1 <= size <= 32767.
Hypothesis HM : size * BS < M.
Hypothesis Htop : A + 2 * M <= 2 ^ pw.

Definition tag (n : Z) (u : bool) : Z := if u then n else 65536 - n.
Lemma tag_signed n u : 1 <= n <= 32767 -> swrap 16 (tag n u) = if u then n else - n.
Proof. intro H. unfold swrap, tag. change (2 ^ (16 - 1)) with 32768. change (2 ^ 16) with 65536. destruct u; lia. Qed.
Lemma tag_free n : 1 <= n <= 32767 -> u16 (- n) = tag n false.
Proof. intro H. unfold u16, tag. lia. Qed.
Lemma tag_used n : 1 <= n <= 32767 -> u16 n = tag n true.
Proof. intro H. unfold u16, tag. lia. Qed.
Lemma s16_small n : 1 <= n <= 32767 -> swrap 16 (- - n) = n.
Proof. intro H. rewrite swrap_small; change (2 ^ (16 - 1)) with 32768; lia. Qed.

Fixpoint lay (m : list Z) (s : Z) (bl : list blk) : Prop :=
  match bl with
  | [] => True
  | (n, u) :: r => znth m (s * BS) = Some (tag n u) /\ znth m ((s + n) * BS - 1) = Some (tag n u) /\ lay m (s + n) r
  end.
Lemma lay_app m a : forall s b, lay m s (a ++ b) <-> lay m s a /\ lay m (s + tot a) b.
Proof.
  induction a as [|[n u] r IH]; intros s b; cbn [lay app tot]; [rewrite Z.add_0_r; tauto|]. rewrite IH, Z.add_assoc. tauto.
Qed.
Lemma lay_frame m m' bl : forall s, pos bl -> (forall i, s * BS <= i < (s + tot bl) * BS -> znth m' i = znth m i) -> lay m s bl -> lay m' s bl.
Proof.
  induction bl as [|[n u] r IH]; intros s P F L; cbn [lay pos tot] in *; [exact I|]. destruct P as [P1 P2], L as (L1 & L2 & L3).
  pose proof (tot_nonneg r P2). assert (2 <= n * BS) by nia. assert (0 <= tot r * BS) by nia.
  split; [rewrite F by lia; exact L1|]. split; [rewrite F by lia; exact L2|]. apply IH; [exact P2| |exact L3]. intros i Hi. apply F. lia.
Qed.

Definition wfs (s : balloc) (bl : list blk) : Prop :=
  b_start s = A /\ b_hint s = A /\ b_end s = A + 2 * (size * BS) /\ zlen (b_mem s) = M /\ lay (b_mem s) 0 bl /\ tot bl = size /\ pos bl /\ canon bl.

Lemma at_read s i : b_start s = A -> b_read s (A + 2 * i) = znth (b_mem s) i.
Proof.
  intro E. unfold b_read. rewrite E. replace (A + 2 * i - A) with (i * 2) by lia. rewrite Z.odd_mul, andb_false_r, Z.div_mul by lia. reflexivity.
Qed.
Lemma at_write s i v : b_start s = A -> 0 <= i < zlen (b_mem s) ->
  exists m, b_write s (A + 2 * i) v = Some (mkBA m A (b_end s) (b_hint s)) /\ zlen m = zlen (b_mem s) /\
    forall k, znth m k = if k =? i then Some (u16 v) else znth (b_mem s) k.
Proof.
  intros E R. unfold b_write. rewrite E. replace (A + 2 * i - A) with (i * 2) by lia. rewrite Z.odd_mul, andb_false_r, Z.div_mul by lia.
  destruct (zupd_in_range (b_mem s) i (u16 v) R) as (m & U & L & G). rewrite U. cbn [obind]. exists m. auto.
Qed.
Lemma at_add i n : -1 <= i + n < M -> padd pw (A + 2 * i) n = A + 2 * (i + n).
Proof. intro H. unfold padd. rewrite wrap_small; lia. Qed.
Lemma at_add_wrap i n : -1 <= i + n < M -> padd pw (A + 2 * i) (wrap pw n) = A + 2 * (i + n).
Proof.
  intro H. unfold padd, wrap. rewrite <- (Zplus_mod_idemp_r (2 * (n mod 2 ^ pw))), <- Zmult_mod_idemp_r, Zmod_mod, Zmult_mod_idemp_r, Zplus_mod_idemp_r.
  rewrite Z.mod_small; lia.
Qed.

(* ---------- allocate ---------- *)
Definition small (k : Z) (bl : list blk) : Prop := forall t n, In (t, n) (free_at 0 bl) -> n < k.
Lemma small_app k a b : small k (a ++ b) <-> small k a /\ (forall t n, In (t, n) (free_at (tot a) b) -> n < k).
Proof.
  unfold small. rewrite free_app. cbn [Z.add]. split.
  - intro H. split; intros t n I; apply (H t n); apply in_or_app; auto.
  - intros [H1 H2] t n I. apply in_app_or in I. destruct I; eauto.
Qed.

(* writing the two markers of n slots from slot sl on *)
Lemma mark s sl n v : b_start s = A -> zlen (b_mem s) = M -> 0 <= sl -> 1 <= n -> sl + n <= size ->
  exists s1 m, b_write s (A + 2 * (sl * BS)) v = Some s1 /\
    b_write s1 (padd pw (padd pw (A + 2 * (sl * BS)) (wrap pw (n * BS))) (-1)) v = Some (mkBA m A (b_end s) (b_hint s)) /\
    zlen m = M /\ (forall k, znth m k = if (k =? sl * BS) || (k =? (sl + n) * BS - 1) then Some (u16 v) else znth (b_mem s) k).
Proof.
  intros E L H1 H2 H3. assert (0 <= sl * BS) by nia. assert (2 <= n * BS) by nia. assert ((sl + n) * BS <= size * BS) by nia.
  destruct (at_write s (sl * BS) v E ltac:(lia)) as (m1 & E1 & L1 & G1).
  exists (mkBA m1 A (b_end s) (b_hint s)). rewrite at_add_wrap by lia. rewrite at_add by lia.
  destruct (at_write (mkBA m1 A (b_end s) (b_hint s)) (sl * BS + n * BS + -1) v eq_refl) as (m2 & E2 & L2 & G2); [cbn [b_mem]; lia|].
  cbn [b_mem b_end b_hint] in *. exists m2. split; [exact E1|]. split; [exact E2|]. split; [lia|].
  intro k. rewrite G2, G1. replace ((sl + n) * BS - 1) with (sl * BS + n * BS + -1) by lia.
  destruct (k =? sl * BS), (k =? sl * BS + n * BS + -1); reflexivity.
Qed.

Lemma search_spec k rest : 1 <= k -> forall pre s fuel, wfs s (pre ++ rest) -> rest <> [] -> small k pre -> (length rest < fuel)%nat ->
  (small k (pre ++ rest) /\ ba_search pw pw BS fuel s k (A + 2 * (tot pre * BS)) = Some (s, 0)) \/
  (exists a n b m', pre ++ rest = a ++ (n, false) :: b /\ small k a /\ k <= n /\
     ba_search pw pw BS fuel s k (A + 2 * (tot pre * BS)) = Some (mkBA m' A (b_end s) A, A + 2 * (tot a * BS) + 2) /\
     wfs (mkBA m' A (b_end s) A) (a ++ (k, true) :: (if k <? n then [(n - k, false)] else []) ++ b) /\
     forall i, ~ (tot a * BS <= i < (tot a + n) * BS) -> znth m' i = znth (b_mem s) i).
Proof.
  intro Hk. induction rest as [|[n u] r IH]; intros pre s fuel W NE S F; [congruence|]. destruct fuel as [|f]; [lia|]. cbn [length] in F.
  pose proof W as (W1 & W2 & W3 & W4 & W5 & W6 & W7 & W8). apply lay_app in W5. destruct W5 as [L1 (L2 & L3 & L4)]. cbn [Z.add] in L2, L3, L4.
  rewrite tot_app in W6. cbn [tot] in W6. apply pos_app in W7. destruct W7 as [P1 [P2 P3]].
  pose proof (tot_nonneg _ P1) as T1. pose proof (tot_nonneg _ P3) as T2.
  assert (0 <= tot pre * BS) by nia. assert (2 <= n * BS) by nia. assert (0 <= tot r * BS) by nia.
  assert (size * BS = tot pre * BS + n * BS + tot r * BS) as Esz by nia.
  cbn [ba_search]. rewrite at_read by exact W1. rewrite L2. cbn [obind]. cbv zeta. rewrite tag_signed by lia.
  replace ((if u then n else - n) <? 0) with (negb u) by (destruct u; lia).
  destruct u; cbn [negb andb].
  - (* in use: next block *)
    rewrite at_add_wrap by lia.
    replace (tot pre * BS + n * BS) with (tot (pre ++ [(n, true)]) * BS) by (rewrite tot_app; cbn [tot]; lia).
    assert (small k (pre ++ [(n, true)])) as S' by (apply small_app; split; [exact S|intros t q []]).
    destruct r as [|x r'].
    + left. split; [exact S'|]. assert ((A + 2 * (tot (pre ++ [(n, true)]) * BS) <? b_end s) = false) as Q by (apply Z.ltb_ge; rewrite W3, tot_app; cbn [tot] in *; nia).
      rewrite Q. reflexivity.
    + pose proof (IH (pre ++ [(n, true)]) s f) as IH'. rewrite <- app_assoc in IH'. cbn [app] in IH'.
      assert (1 <= tot (x :: r')) by (destruct x; cbn [pos tot] in *; destruct P3 as [P3 P4]; pose proof (tot_nonneg _ P4); lia).
      assert ((A + 2 * (tot (pre ++ [(n, true)]) * BS) <? b_end s) = true) as Q by (apply Z.ltb_lt; rewrite W3, tot_app; cbn [tot]; nia).
        rewrite Q. apply IH'; [exact W|congruence|exact S'|lia].
  - rewrite s16_small by lia. unfold u16. rewrite (Z.mod_small n 65536) by lia.
    destruct (k <=? n) eqn:E.
    + right. exists pre, n, r. destruct (mark s (tot pre) k k W1 W4 T1 Hk ltac:(lia)) as (s1 & m1 & E1 & E2 & ML & G).
      rewrite E1. cbn [obind]. rewrite E2. cbn [obind].
      assert (0 < k * BS) by nia. assert (k * BS <= n * BS) by nia.
      rewrite at_add_wrap by lia. rewrite <- Z.mul_add_distr_r.
      rewrite (tag_used k) in G by lia.
      assert (forall b', canon (pre ++ (n, false) :: b') -> canon (pre ++ (k, true) :: b')) as CT.
      { intros b' C. apply canon_app in C. destruct C as (C1 & C2 & C3). apply canon_app. split; [exact C1|]. cbn [canon] in *. destruct C2 as [C2 C4].
        split; [split; [destruct b' as [|[? ?] ?]; auto|exact C4]|]. intros [_ (q & b'' & X)]. discriminate. }
      destruct (k <? n) eqn:E3.
      * destruct (mark (mkBA m1 A (b_end s) (b_hint s)) (tot pre + k) (n - k) (- (n - k)) eq_refl ML ltac:(lia) ltac:(lia) ltac:(lia)) as (s2 & m2 & E4 & E5 & ML2 & G2).
        rewrite E4. cbn [obind b_mem b_end b_hint] in *.
        assert (0 < (n - k) * BS) as Q by nia. rewrite Z.mul_sub_distr_r in Q.
        rewrite at_add_wrap in E5 by lia.
        rewrite at_add_wrap by lia. replace (tot pre * BS + n * BS) with ((tot pre + k) * BS + (n - k) * BS) by lia. rewrite E5. cbn [obind].
        rewrite at_add by lia. rewrite W2. rewrite (tag_free (n - k)) in G2 by lia.
        assert (forall i, ~ (tot pre * BS <= i < (tot pre + n) * BS) -> znth m2 i = znth (b_mem s) i) as FR.
        { intros i Hi. rewrite G2, G. assert (i <> tot pre * BS) by lia. assert (i <> (tot pre + k) * BS - 1) by lia.
          assert (i <> (tot pre + k) * BS) by lia. assert (i <> (tot pre + k + (n - k)) * BS - 1) by lia.
          replace (i =? (tot pre + k) * BS) with false by lia. replace (i =? (tot pre + k + (n - k)) * BS - 1) with false by lia.
          replace (i =? tot pre * BS) with false by lia. replace (i =? (tot pre + k) * BS - 1) with false by lia. reflexivity. }
        exists m2. split; [reflexivity|]. split; [exact S|]. split; [lia|]. split; [do 2 f_equal; lia|]. split; [|exact FR].
        unfold wfs. cbn [b_start b_hint b_end b_mem]. split; [reflexivity|]. split; [reflexivity|]. split; [exact W3|]. split; [exact ML2|].
        split; [|split; [rewrite tot_app; cbn [tot app]; lia|split]].
        { apply lay_app. cbn [Z.add app lay]. split; [apply (lay_frame (b_mem s)); [exact P1| |exact L1]; intros i Hi; apply FR; lia|].
          split. { rewrite G2, G. replace (tot pre * BS =? (tot pre + k) * BS) with false by lia.
            replace (tot pre * BS =? (tot pre + k + (n - k)) * BS - 1) with false by lia. rewrite Z.eqb_refl. reflexivity. }
          split. { rewrite G2, G. replace ((tot pre + k) * BS - 1 =? (tot pre + k) * BS) with false by lia.
            replace ((tot pre + k) * BS - 1 =? (tot pre + k + (n - k)) * BS - 1) with false by lia. rewrite Z.eqb_refl, orb_true_r. reflexivity. }
          split. { rewrite G2, Z.eqb_refl. reflexivity. }
          split. { rewrite G2, Z.eqb_refl, orb_true_r. reflexivity. }
          replace (tot pre + k + (n - k)) with (tot pre + n) by lia. apply (lay_frame (b_mem s)); [exact P3| |exact L4]. intros i Hi. apply FR. lia. }
        { apply pos_app. cbn [pos app]. split; [exact P1|]. split; [lia|]. split; [lia|exact P3]. }
        { cbn [app]. apply canon_app in W8. destruct W8 as (C1 & C2 & C3). apply canon_app. split; [exact C1|]. split.
          - change ((k, true) :: (n - k, false) :: r) with ([(k, true)] ++ (n - k, false) :: r). apply canon_app. split; [cbn; auto|]. split; [exact C2|].
            intros [(a' & q & X) _]. destruct a' as [|? [|? ?]]; discriminate.
          - intros [_ (q & b'' & X)]. discriminate. }
      * assert (k = n) by lia. subst k. exists m1. rewrite at_add by lia. rewrite W2.
        split; [reflexivity|]. split; [exact S|]. split; [lia|]. split; [do 2 f_equal; lia|].
        assert (forall i, ~ (tot pre * BS <= i < (tot pre + n) * BS) -> znth m1 i = znth (b_mem s) i) as FR.
        { intros i Hi. rewrite G. replace (i =? tot pre * BS) with false by lia. replace (i =? (tot pre + n) * BS - 1) with false by lia. reflexivity. }
        split; [|exact FR].
        unfold wfs. cbn [b_start b_hint b_end b_mem app]. split; [reflexivity|]. split; [reflexivity|]. split; [exact W3|]. split; [exact ML|].
        split; [|split; [rewrite tot_app; cbn [tot app]; lia|split; [apply pos_app; cbn [pos]; auto|apply CT; exact W8]]].
        apply lay_app. cbn [Z.add lay]. split; [apply (lay_frame (b_mem s)); [exact P1| |exact L1]; intros i Hi; apply FR; lia|].
        split; [rewrite G, Z.eqb_refl; reflexivity|]. split; [rewrite G, Z.eqb_refl, orb_true_r; reflexivity|].
        apply (lay_frame (b_mem s)); [exact P3| |exact L4]. intros i Hi. apply FR. lia.
    + (* too small: next block *)
      rewrite at_add_wrap by lia.
      replace (tot pre * BS + n * BS) with (tot (pre ++ [(n, false)]) * BS) by (rewrite tot_app; cbn [tot]; lia).
      assert (small k (pre ++ [(n, false)])) as S' by (apply small_app; split; [exact S|intros t q [X|[]]; injection X as _ <-; lia]).
      destruct r as [|x r'].
      * left. split; [exact S'|]. assert ((A + 2 * (tot (pre ++ [(n, false)]) * BS) <? b_end s) = false) as Q by (apply Z.ltb_ge; rewrite W3, tot_app; cbn [tot] in *; nia).
      rewrite Q. reflexivity.
      * pose proof (IH (pre ++ [(n, false)]) s f) as IH'. rewrite <- app_assoc in IH'. cbn [app] in IH'.
        assert (1 <= tot (x :: r')) by (destruct x; cbn [pos tot] in *; destruct P3 as [P3 P4]; pose proof (tot_nonneg _ P4); lia).
        assert ((A + 2 * (tot (pre ++ [(n, false)]) * BS) <? b_end s) = true) as Q by (apply Z.ltb_lt; rewrite W3, tot_app; cbn [tot]; nia).
        rewrite Q. apply IH'; [exact W|congruence|exact S'|lia].
Qed.

(* ---------- free ---------- *)
Lemma last_cases (a : list blk) : a = [] \/ exists a' n u, a = a' ++ [(n, u)].
Proof. destruct a as [|[n u] a _] using rev_ind; [auto|right; eauto]. Qed.

Lemma free_spec s a n b : wfs s (a ++ (n, true) :: b) ->
  exists a1 x b1 y m',
    (a = a1 /\ x = 0 \/ a = a1 ++ [(x, false)]) /\ (b = b1 /\ y = 0 \/ b = (y, false) :: b1) /\
    ba_free pw pw BS s (A + 2 * (tot a * BS) + 2) = Some (mkBA m' A (b_end s) A) /\
    wfs (mkBA m' A (b_end s) A) (a1 ++ (x + n + y, false) :: b1) /\
    forall i, ~ (tot a1 * BS <= i < (tot a1 + (x + n + y)) * BS) -> znth m' i = znth (b_mem s) i.
Proof.
  intro W. pose proof W as (W1 & W2 & W3 & W4 & W5 & W6 & W7 & W8). apply lay_app in W5. destruct W5 as [L1 (L2 & L3 & L4)]. cbn [Z.add] in L2, L3, L4.
  rewrite tot_app in W6. cbn [tot] in W6. apply pos_app in W7. destruct W7 as [P1 [P2 P3]].
  pose proof (tot_nonneg _ P1) as T1. pose proof (tot_nonneg _ P3) as T2.
  assert (0 <= tot a * BS) by nia. assert (2 <= n * BS) by nia. assert (0 <= tot b * BS) by nia.
  assert (size * BS = tot a * BS + n * BS + tot b * BS) as Esz by nia.
  apply canon_app in W8. destruct W8 as (C1 & C2 & _).
  (* the block above *)
  assert (exists b1 y, (b = b1 /\ y = 0 \/ b = (y, false) :: b1) /\ 0 <= y /\ y + tot b1 = tot b /\ pos b1 /\ lay (b_mem s) (tot a + n + y) b1 /\ ~ startsfree b1 /\ canon b1 /\
    (if A + 2 * (tot a * BS + n * BS) <? A + 2 * (size * BS)
     then do w <- b_read s (A + 2 * (tot a * BS + n * BS)); Some (if swrap 16 w <? 0 then u16 (n + - swrap 16 w) else n)
     else Some n) = Some (n + y)) as (b1 & y & B1 & B2 & B3 & B4 & B5 & B6 & B7 & B8).
  { destruct b as [|[m u] b'].
    - exists [], 0. cbn [tot pos lay canon] in *. rewrite !Z.add_0_r. split; [auto|]. split; [lia|]. split; [lia|]. split; [exact I|]. split; [exact I|].
      split; [intros (? & ? & X); discriminate|]. split; [exact I|]. replace (_ <? _) with false by lia. reflexivity.
    - cbn [tot pos lay] in *. destruct P3 as [P3 P4]. destruct L4 as (L4 & L5 & L6). pose proof (tot_nonneg _ P4). assert (2 <= m * BS) by nia. assert (0 <= tot b' * BS) by nia.
      replace (_ <? _) with true by lia. rewrite at_read by exact W1. rewrite <- Z.mul_add_distr_r, L4. cbn [obind]. rewrite tag_signed by lia.
      cbn [canon] in C2. destruct C2 as [_ C2]. cbn [canon] in C2. destruct C2 as [C2 C3].
      destruct u.
      + exists ((m, true) :: b'), 0. rewrite Z.add_0_r. cbn [tot pos lay canon]. split; [auto|]. split; [lia|]. split; [lia|]. split; [auto|]. split; [auto|].
        split; [intros (? & ? & X); discriminate|]. split; [auto|]. replace (m <? 0) with false by lia. f_equal. lia.
      + exists b', m. split; [auto|]. split; [lia|]. split; [lia|]. split; [exact P4|]. split; [exact L6|].
        split; [intros (q & b'' & ->); destruct C2; discriminate|]. split; [exact C3|]. replace (- m <? 0) with true by lia. f_equal. unfold u16. rewrite Z.mod_small; lia. }
  (* the block below *)
  assert (exists a1 x, (a = a1 /\ x = 0 \/ a = a1 ++ [(x, false)]) /\ 0 <= x /\ x + tot a1 = tot a /\ 0 <= tot a1 /\ pos a1 /\ lay (b_mem s) 0 a1 /\ ~ endsfree a1 /\ canon a1 /\
    (if b_start s <=? padd pw (A + 2 * (tot a * BS)) (-1)
     then do w <- b_read s (padd pw (A + 2 * (tot a * BS)) (-1));
          Some (if swrap 16 w <? 0 then (padd pw (A + 2 * (tot a * BS)) (wrap pw (swrap 16 w * BS)), u16 (n + y + - swrap 16 w)) else (A + 2 * (tot a * BS), n + y))
     else Some (A + 2 * (tot a * BS), n + y)) = Some (A + 2 * (tot a1 * BS), x + n + y)) as (a1 & x & D1 & D2 & D3 & D4 & D5 & D6 & D7 & D8 & D9).
  { rewrite at_add by lia. rewrite W1. destruct (last_cases a) as [->|(a' & m & u & ->)].
    - exists [], 0. cbn [tot] in *. split; [auto|]. split; [lia|]. split; [lia|]. split; [lia|]. split; [exact I|]. split; [exact I|].
      split; [intros (a' & ? & X); destruct a'; discriminate|]. split; [exact I|]. replace (A <=? _) with false by lia. reflexivity.
    - rewrite tot_app in *. cbn [tot] in *. apply pos_app in P1. destruct P1 as [P1 [P5 _]]. apply lay_app in L1. destruct L1 as [L1 (L7 & L8 & _)]. cbn [Z.add] in L7, L8.
      pose proof (tot_nonneg _ P1). assert (2 <= m * BS) by nia. assert (0 <= tot a' * BS) by nia. rewrite Z.add_0_r in *.
      replace (A <=? A + 2 * ((tot a' + m) * BS + -1)) with true by lia. rewrite at_read by exact W1.
      replace ((tot a' + m) * BS + -1) with ((tot a' + m) * BS - 1) by lia. rewrite L8. cbn [obind]. rewrite tag_signed by lia.
      pose proof C1 as C1'. apply canon_app in C1'. destruct C1' as (C4 & _ & C6).
      destruct u.
      + exists (a' ++ [(m, true)]), 0. rewrite tot_app. cbn [tot]. split; [auto|]. split; [lia|]. split; [lia|]. split; [lia|].
        split; [apply pos_app; cbn [pos]; auto|]. split; [apply lay_app; cbn [lay Z.add]; auto|].
        split; [intros (a'' & q & X); apply app_inj_tail in X; destruct X as [_ X]; discriminate|]. split; [exact C1|].
        replace (m <? 0) with false by lia. apply f_equal, f_equal2; lia.
      + exists a', m. split; [auto|]. split; [lia|]. split; [lia|]. split; [lia|]. split; [exact P1|]. split; [exact L1|].
        split; [intro X; apply C6; split; [exact X|exists m, []; reflexivity]|]. split; [exact C4|].
        replace (- m <? 0) with true by lia. rewrite at_add_wrap by nia. apply f_equal, f_equal2; [lia|]. pose proof (tot_nonneg _ B4). unfold u16. rewrite Z.mod_small; lia. }
  exists a1, x, b1, y.
  destruct (mark s (tot a1) (x + n + y) (- (x + n + y)) W1 W4 D4 ltac:(lia) ltac:(pose proof (tot_nonneg _ B4); lia)) as (s1 & m1 & E1 & E2 & ML & G).
  exists m1. split; [exact D1|]. split; [exact B1|]. split.
  - unfold ba_free. replace (A + 2 * (tot a * BS) + 2 =? 0) with false by lia. cbv zeta.
    replace (A + 2 * (tot a * BS) + 2) with (A + 2 * (tot a * BS + 1)) by lia. rewrite at_add by lia. replace (tot a * BS + 1 + -1) with (tot a * BS) by lia.
    rewrite at_read by exact W1. rewrite L2. cbn [obind]. rewrite tag_signed by lia.
    assert (u16 n = n) as -> by (unfold u16; apply Z.mod_small; lia).
    rewrite at_add_wrap by lia. rewrite W3 in *. cbv zeta in B8, D9. rewrite B8. cbn [obind]. rewrite D9. cbn [obind]. rewrite E1. cbn [obind]. rewrite E2. cbn [obind b_hint b_mem b_start b_end].
    rewrite W2. replace (A + 2 * (tot a1 * BS) <? A) with false by nia. reflexivity.
  - rewrite (tag_free (x + n + y)) in G by (pose proof (tot_nonneg _ B4); lia).
    assert (forall i, ~ (tot a1 * BS <= i < (tot a1 + (x + n + y)) * BS) -> znth m1 i = znth (b_mem s) i) as FR.
    { assert (0 < (x + n + y) * BS) by nia. intros i Hi. rewrite G. replace (i =? tot a1 * BS) with false by lia. replace (i =? (tot a1 + (x + n + y)) * BS - 1) with false by lia. reflexivity. }
    split; [|exact FR].
    pose proof (tot_nonneg _ B4). assert (0 < (x + n + y) * BS) by nia.
    unfold wfs. cbn [b_start b_hint b_end b_mem app]. split; [reflexivity|]. split; [reflexivity|]. split; [exact W3|]. split; [exact ML|].
    split; [|split; [rewrite tot_app; cbn [tot app]; lia|split; [apply pos_app; cbn [pos]; split; [exact D5|split; [lia|exact B4]]|]]].
    + apply lay_app. cbn [Z.add lay]. split; [apply (lay_frame (b_mem s)); [exact D5| |exact D6]; intros i Hi; apply FR; lia|].
      split; [rewrite G, Z.eqb_refl; reflexivity|]. split; [rewrite G, Z.eqb_refl, orb_true_r; reflexivity|].
      replace (tot a1 + (x + n + y)) with (tot a + n + y) in * by lia.
      apply (lay_frame (b_mem s)); [exact B4| |exact B5]. intros i Hi. apply FR. lia.
    + apply canon_app. split; [exact D8|]. split; [|intros [X _]; exact (D7 X)].
      change ((x + n + y, false) :: b1) with ([(x + n + y, false)] ++ b1). apply canon_app. split; [cbn; auto|]. split; [exact B7|]. intros [_ X]. exact (B6 X).
Qed.

(* ---------- getAvailableSize ---------- *)
Fixpoint freesum (bl : list blk) : Z := match bl with [] => 0 | (n, u) :: r => (if u then 0 else n) + freesum r end.
Lemma freesum_bounds bl : pos bl -> 0 <= freesum bl <= tot bl.
Proof. induction bl as [|[n u] r IH]; cbn [pos freesum tot]; [lia|]. intros [H1 H2]. specialize (IH H2). destruct u; lia. Qed.
Lemma sum_spec rest : forall pre s fuel acc, wfs s (pre ++ rest) -> rest <> [] -> (length rest < fuel)%nat -> 0 <= acc ->
  acc <= 2 * BS * tot pre ->
  ba_sum pw pw BS fuel s (A + 2 * (tot pre * BS)) acc = Some (acc + 2 * BS * freesum rest).
Proof.
  induction rest as [|[n u] r IH]; intros pre s fuel acc W NE F H0 H1; [congruence|]. destruct fuel as [|f]; [lia|]. cbn [length] in F.
  pose proof W as (W1 & W2 & W3 & W4 & W5 & W6 & W7 & W8). apply lay_app in W5. destruct W5 as [L1 (L2 & L3 & L4)]. cbn [Z.add] in L2, L3, L4.
  rewrite tot_app in W6. cbn [tot] in W6. apply pos_app in W7. destruct W7 as [P1 [P2 P3]].
  pose proof (tot_nonneg _ P1) as T1. pose proof (tot_nonneg _ P3) as T2.
  assert (0 <= tot pre * BS) by nia. assert (2 <= n * BS) by nia. assert (0 <= tot r * BS) by nia.
  assert (size * BS = tot pre * BS + n * BS + tot r * BS) as Esz by nia.
  cbn [ba_sum]. rewrite at_read by exact W1. rewrite L2. cbn [obind]. cbv zeta. rewrite tag_signed by lia.
  replace ((if u then n else - n) <? 0) with (negb u) by (destruct u; lia).
  assert ((if negb u then swrap 16 (- (if u then n else - n)) else if u then n else - n) = n) as -> by (destruct u; cbn [negb]; [reflexivity|apply s16_small; lia]).
  rewrite at_add_wrap by lia.
  assert ((if negb u then wrap pw (acc + wrap pw (wrap pw (swrap 16 (- (if u then n else - n)) * BS) * 2)) else acc) = acc + 2 * BS * (if u then 0 else n)) as ->.
  { destruct u; cbn [negb]; [lia|]. rewrite s16_small by lia. rewrite (wrap_small pw (n * BS)) by lia. rewrite (wrap_small pw (n * BS * 2)) by lia. rewrite wrap_small by nia. lia. }
  replace (tot pre * BS + n * BS) with (tot (pre ++ [(n, u)]) * BS) by (rewrite tot_app; cbn [tot]; lia).
  destruct r as [|x r'].
  - assert ((A + 2 * (tot (pre ++ [(n, u)]) * BS) <? b_end s) = false) as Q by (apply Z.ltb_ge; rewrite W3, tot_app; cbn [tot] in *; nia).
    rewrite Q. cbn [freesum]. f_equal. lia.
  - assert (1 <= tot (x :: r')) by (destruct x; cbn [pos tot] in *; destruct P3 as [P3 P4]; pose proof (tot_nonneg _ P4); lia).
    assert ((A + 2 * (tot (pre ++ [(n, u)]) * BS) <? b_end s) = true) as Q by (apply Z.ltb_lt; rewrite W3, tot_app; cbn [tot]; nia).
    rewrite Q. rewrite IH; [|rewrite <- app_assoc; exact W|congruence|lia|destruct u; nia|rewrite tot_app; cbn [tot]; destruct u; nia].
    change (freesum ((n, u) :: x :: r')) with ((if u then 0 else n) + freesum (x :: r')). f_equal. lia.
Qed.
Lemma wfs_len s bl : wfs s bl -> (length bl <= length (b_mem s))%nat /\ bl <> [].
Proof.
  intros (_ & _ & _ & W4 & _ & W6 & W7 & _). split; [|intros ->; cbn [tot] in W6; lia].
  assert (Z.of_nat (length bl) <= tot bl) as Q.
  { clear -W7. induction bl as [|[n u] r IH]; cbn [length tot pos] in *; [lia|]. destruct W7 as [P1 P2]. specialize (IH P2). lia. }
  unfold zlen in W4. nia.
Qed.
Lemma free_total bl : forall s, freesum bl = tot bl - taken (used_at s bl).
Proof.
  induction bl as [|[n u] r IH]; intro s; cbn [freesum tot used_at]; [reflexivity|]. rewrite (IH (s + n)). destruct u; unfold taken; cbn [app fold_right snd]; lia.
Qed.
Lemma available_spec s bl : wfs s bl -> ba_getAvailableSize pw pw BS s = Some (2 * BS * (size - taken (used_at 0 bl))).
Proof.
  intro W. destruct (wfs_len s bl W) as [L NE]. unfold ba_getAvailableSize. pose proof W as (W1 & _ & _ & _ & _ & W6 & _).
  pose proof (sum_spec bl [] s (S (length (b_mem s))) 0 W NE ltac:(lia) ltac:(lia) ltac:(cbn [tot]; lia)) as E. cbn [tot] in E.
  rewrite W1. replace (A + 2 * (0 * BS)) with A in E by lia. rewrite E. f_equal. rewrite (free_total bl 0), W6. lia.
Qed.

(* ---------- the specification is followed step by step ---------- *)
Definition to_model (e : user_event) : ba_event := match e with UAlloc r => EAlloc r | UFree p => EFree p | UWrite a v => EWrite a v end.
Definition reasonable (e : user_event) : Prop := match e with UAlloc r => r + 4 + 2 * BS <= 2 ^ pw | _ => True end.
Definition rep (s : balloc) (live : list block) : Prop := exists bl, wfs s bl /\ Permutation live (used_at 0 bl).

Lemma needed_spec r k : 0 <= r -> r + 4 + 2 * BS <= 2 ^ pw -> slots_for BS r k -> ba_needed pw BS r = k /\ 1 <= k.
Proof.
  intros H0 H1 [S1 S2]. unfold ba_needed. rewrite (wrap_small pw (r + 4)) by lia. rewrite wrap_small by lia.
  assert (1 <= k) by nia. split; [|exact H]. symmetry. apply (Z.div_unique _ _ _ (r + 4 + (BS * 2 - 1) - BS * 2 * k)); nia.
Qed.

Lemma fits_perm l l' k s : Permutation l l' -> fits size l k s -> fits size l' k s.
Proof. intros P (H1 & H2 & H3). split; [exact H1|]. split; [exact H2|]. intros s' k' I. apply H3. apply (Permutation_in _ (Permutation_sym P)). exact I. Qed.

Lemma fits_found a n b k s : wfs s (a ++ (n, false) :: b) -> small k a -> 1 <= k -> k <= n -> placed size (used_at 0 (a ++ (n, false) :: b)) k (Some (tot a)).
Proof.
  intros (W1 & W2 & W3 & W4 & W5 & W6 & W7 & W8) S K1 K. pose proof W7 as W7'. apply pos_app in W7. destruct W7 as [P1 [P2 P3]].
  pose proof (tot_nonneg _ P1) as T1. pose proof (tot_nonneg _ P3) as T2. pose proof W6 as W6'. rewrite tot_app in W6. cbn [tot] in W6.
  split.
  - split; [lia|]. split; [lia|]. intros s' k' I. rewrite used_app in I. cbn [used_at app Z.add] in I. apply in_app_or in I. destruct I as [I|I].
    + apply used_range in I; [lia|exact P1].
    + apply used_range in I; [lia|exact P3].
  - intros s' L (F1 & F2 & F3). destruct (free_run _ 0 s' k W7' W8 K1 F1 ltac:(lia) F3) as (t & m & I & T3 & T4).
    rewrite free_app in I. cbn [free_at app Z.add] in I. apply in_app_or in I. destruct I as [I|I].
    + specialize (S t m I). lia.
    + destruct I as [I|I]; [injection I as <- <-; lia|]. apply free_range in I; [lia|exact P3].
Qed.
Lemma fits_none bl k s : wfs s bl -> small k bl -> 1 <= k -> placed size (used_at 0 bl) k None.
Proof.
  intros (W1 & W2 & W3 & W4 & W5 & W6 & W7 & W8) S K1 s' (F1 & F2 & F3).
  destruct (free_run _ 0 s' k W7 W8 K1 F1 ltac:(lia) F3) as (t & m & I & T3 & T4). specialize (S t m I). lia.
Qed.
Lemma placed_unique l l' k x y : Permutation l l' -> placed size l k x -> placed size l' k y -> x = y.
Proof.
  intros P X Y. destruct x as [x|], y as [y|]; cbn [placed] in *.
  - f_equal. destruct X as [X1 X2], Y as [Y1 Y2]. destruct (Z.lt_trichotomy x y) as [L|[L|L]]; [|exact L|].
    + exfalso. apply (Y2 x L). apply (fits_perm l); assumption.
    + exfalso. apply (X2 y L). apply (fits_perm l'); [apply Permutation_sym|]; assumption.
  - exfalso. apply (Y x). apply (fits_perm l); [exact P|apply X].
  - exfalso. apply (X y). apply (fits_perm l'); [apply Permutation_sym; exact P|apply Y].
  - reflexivity.
Qed.

Lemma outside a n b t k i : pos a -> pos b -> 0 <= n -> In (t, k) (used_at 0 a ++ used_at (tot a + n) b) -> t * BS < i < (t + k) * BS - 1 ->
  ~ (tot a * BS <= i < (tot a + n) * BS).
Proof.
  intros P1 P3 Hn I Hi. pose proof (tot_nonneg _ P1). apply in_app_or in I. destruct I as [I|I]; apply used_range in I; try assumption.
  - assert ((t + k) * BS <= tot a * BS) by nia. lia.
  - assert ((tot a + n) * BS <= t * BS) by nia. lia.
Qed.

(* the starts of the blocks differ *)
Lemma used_unique bl : forall s t k k', pos bl -> In (t, k) (used_at s bl) -> In (t, k') (used_at s bl) -> k = k'.
Proof.
  induction bl as [|[n u] r IH]; intros s t k k' P I1 I2; cbn [used_at pos] in *; [destruct I1|]. destruct P as [P1 P2].
  apply in_app_or in I1. apply in_app_or in I2.
  assert (forall q, In (t, q) (used_at (s + n) r) -> s < t) as Q by (intros q I; apply used_range in I; [lia|exact P2]).
  destruct I1 as [I1|I1], I2 as [I2|I2].
  - destruct u; [|destruct I1]. destruct I1 as [I1|[]], I2 as [I2|[]]. congruence.
  - destruct u; [|destruct I1]. destruct I1 as [I1|[]]. injection I1 as -> ->. apply Q in I2. lia.
  - destruct u; [|destruct I2]. destruct I2 as [I2|[]]. injection I2 as -> ->. apply Q in I1. lia.
  - eapply IH; eassumption.
Qed.

Lemma step_rep s live e x live' : rep s live -> reasonable e -> user_step BS A size live e x live' ->
  exists s', ba_step pw pw BS s (to_model e) = Some (s', x) /\ rep s' live' /\
    forall t k i, In (t, k) live -> In (t, k) live' -> t * BS < i < (t + k) * BS - 1 -> (forall v, e <> UWrite (A + 2 * i) v) ->
      znth (b_mem s') i = znth (b_mem s) i.
Proof.
  intros (bl & W & P) R U. destruct (wfs_len s bl W) as [L NE]. pose proof W as (W1 & W2 & W3 & W4 & W5 & W6 & W7 & W8).
  destruct U as [r k t Hr Sl Pl|r k Hr Sl Pl|before after t k El| |a v t k I Ha1 Ha2 Ev]; cbn [to_model ba_step reasonable] in *.
  - destruct (needed_spec r k Hr R Sl) as [E K]. unfold ba_allocate. rewrite E, W2.
    pose proof (search_spec k bl K [] s (S (length (b_mem s))) W NE) as Q. cbn [tot app] in Q. replace (A + 2 * (0 * BS)) with A in Q by lia.
    destruct Q as [[Sm _]|(a & n & b & m' & Eb & Sm & Kn & Es & W' & FR)]; [intros ? ? []|lia| |].
    + exfalso. pose proof (placed_unique _ _ k _ _ P Pl (fits_none bl k s W Sm K)). discriminate.
    + subst bl. pose proof (placed_unique _ _ k _ _ P Pl (fits_found a n b k s W Sm K Kn)) as Q. injection Q as ->.
      rewrite Es. eexists. split; [unfold payload_at; do 2 f_equal; lia|].
      rewrite used_app in *. cbn [used_at app Z.add] in *. split.
      2: { intros t' k' i I _ Hi _. cbn [b_mem]. apply FR. apply pos_app in W7. destruct W7 as [P1 [P2 P3]].
           apply (outside a n b t' k' i); try assumption; [lia|]. apply (Permutation_in _ P). exact I. }
      eexists. split; [exact W'|]. rewrite used_app. cbn [used_at app Z.add].
      assert (used_at (tot a + k) ((if k <? n then [(n - k, false)] else []) ++ b) = used_at (tot a + n) b) as ->.
      { destruct (k <? n) eqn:Ekn; cbn [app used_at]; [|]; f_equal; lia. }
      apply Permutation_cons_app. exact P.
  - destruct (needed_spec r k Hr R Sl) as [E K]. unfold ba_allocate. rewrite E, W2.
    pose proof (search_spec k bl K [] s (S (length (b_mem s))) W NE) as Q. cbn [tot app] in Q. replace (A + 2 * (0 * BS)) with A in Q by lia.
    destruct Q as [[Sm Es]|(a & n & b & m' & Eb & Sm & Kn & Es & W' & _)]; [intros ? ? []|lia| |].
    + rewrite Es. eexists. split; [reflexivity|]. split; [exists bl; auto|reflexivity].
    + exfalso. subst bl. pose proof (placed_unique _ _ k _ _ P Pl (fits_found a n b k s W Sm K Kn)). discriminate.
  - subst live. assert (In (t, k) (used_at 0 bl)) as I by (apply (Permutation_in _ P); apply in_or_app; right; left; reflexivity).
    destruct (used_split bl 0 t k I) as (a & b & -> & ->). cbn [Z.add] in *.
    destruct (free_spec s a k b W) as (a1 & x & b1 & y & m' & E1 & E2 & Ef & W' & FR).
    unfold payload_at. replace (A + 2 * BS * tot a + 2) with (A + 2 * (tot a * BS) + 2) by lia. rewrite Ef. cbn [obind].
    eexists. split; [reflexivity|].
    rewrite used_app in P. cbn [used_at app Z.add] in P. apply Permutation_app_inv in P.
    assert (Permutation (before ++ after) (used_at 0 a1 ++ used_at (tot a1 + (x + k + y)) b1)) as P'.
    2: { split; [eexists; split; [exact W'|]; rewrite used_app; cbn [used_at app Z.add]; exact P'|].
         intros t' k' i _ I' Hi _. cbn [b_mem]. apply FR. destruct W' as (_ & _ & _ & _ & _ & _ & Pp & _). apply pos_app in Pp. destruct Pp as [P1 [P2 P3]].
         apply (outside a1 (x + k + y) b1 t' k' i); try assumption; [lia|]. apply (Permutation_in _ P'). exact I'. }
    replace (used_at 0 a1) with (used_at 0 a) by (destruct E1 as [[-> _]| ->]; [reflexivity|rewrite used_app; cbn [used_at app]; apply app_nil_r]).
    replace (used_at (tot a1 + (x + k + y)) b1) with (used_at (tot a + k) b); [exact P|].
    assert (tot a = tot a1 + x) as -> by (destruct E1 as [[-> ->]| ->]; [lia|rewrite tot_app; cbn [tot]; lia]).
    destruct E2 as [[-> ->]| ->]; cbn [used_at app]; f_equal; lia.
  - eexists. split; [reflexivity|]. split; [exists bl; auto|reflexivity].
  - apply (Permutation_in _ P) in I. destruct (used_split bl 0 t k I) as (b1 & b2 & -> & ->). cbn [Z.add] in *.
    apply lay_app in W5. destruct W5 as [L1 (L2 & L3 & L4)]. cbn [Z.add] in L2, L3, L4. rewrite tot_app in W6. cbn [tot] in W6. apply pos_app in W7. destruct W7 as [P1 [P2 P3]].
    pose proof (tot_nonneg _ P1). pose proof (tot_nonneg _ P3). unfold payload_at, payload_end in *. destruct Ev as [j Ej].
    assert (a = A + 2 * j) as -> by lia. assert (0 <= tot b1 * BS) by nia. assert ((tot b1 + k) * BS <= size * BS) by nia.
    destruct (at_write s j v W1 ltac:(nia)) as (m & Ew & Lm & G). rewrite Ew. cbn [obind]. eexists. split; [reflexivity|]. split.
    2: { intros t' k' i _ _ _ Hv. cbn [b_mem]. rewrite G. replace (i =? j) with false; [reflexivity|]. symmetry. apply Z.eqb_neq. intros ->. exact (Hv v eq_refl). }
    exists (b1 ++ (k, true) :: b2). split; [|exact P]. unfold wfs. cbn [b_start b_hint b_end b_mem].
    split; [reflexivity|]. split; [exact W2|]. split; [exact W3|]. split; [lia|]. split; [|split; [rewrite tot_app; cbn [tot]; lia|split; [apply pos_app; cbn [pos]; auto|exact W8]]].
    assert (tot b1 * BS < j < (tot b1 + k) * BS - 1) as Hj by lia.
    apply lay_app. cbn [Z.add lay]. split; [|split; [|split]].
    + apply (lay_frame (b_mem s)); [exact P1| |exact L1]. intros i Hi. rewrite G. replace (i =? j) with false by lia. reflexivity.
    + rewrite G. replace (_ =? j) with false by lia. exact L2.
    + rewrite G. replace (_ =? j) with false by lia. exact L3.
    + apply (lay_frame (b_mem s)); [exact P3| |exact L4]. intros i Hi. rewrite G. replace (i =? j) with false by lia. reflexivity.
Qed.

Lemma run_rep live es xs live' : user_run BS A size live es xs live' -> forall s, rep s live -> Forall reasonable es ->
  exists s', ba_run pw pw BS s (map to_model es) = Some (s', xs) /\ rep s' live'.
Proof.
  induction 1 as [live|live e x live1 es xs live2 U _ IH]; intros s Rp F; cbn [map ba_run].
  - exists s. auto.
  - inversion F; subst. destruct (step_rep s live e x live1 Rp) as (s1 & E & R1 & _); [assumption|exact U|]. rewrite E. cbn [obind].
    destruct (IH s1 R1) as (s2 & E2 & R2); [assumption|]. rewrite E2. cbn [obind]. eauto.
Qed.

(* a block stays live while it is not freed, and its words stay *)
Lemma payload_inj t t' : payload_at BS A t = payload_at BS A t' -> t = t'.
Proof. unfold payload_at. nia. Qed.
Lemma run_keeps live es xs live' : user_run BS A size live es xs live' -> forall s, rep s live -> Forall reasonable es ->
  forall t k i, In (t, k) live -> ~ In (UFree (payload_at BS A t)) es -> t * BS < i < (t + k) * BS - 1 -> (forall v, ~ In (UWrite (A + 2 * i) v) es) ->
  exists s', ba_run pw pw BS s (map to_model es) = Some (s', xs) /\ rep s' live' /\ znth (b_mem s') i = znth (b_mem s) i.
Proof.
  induction 1 as [live|live e x live1 es xs live2 U _ IH]; intros s Rp F t k i I NF Hi NW; cbn [map ba_run].
  - exists s. auto.
  - inversion F; subst. destruct (step_rep s live e x live1 Rp) as (s1 & E & R1 & K1); [assumption|exact U|]. rewrite E. cbn [obind].
    assert (In (t, k) live1) as I1.
    { destruct U as [r k0 t0 Hr Sl Pl|r k0 Hr Sl Pl|before after t0 k0 El| |a v t0 k0 I0 Ha1 Ha2 Ev]; try exact I; [right; exact I|]. subst live.
      apply in_app_or in I. destruct I as [I|[I|I]]; [apply in_or_app; auto| |apply in_or_app; auto]. injection I as -> ->. exfalso. apply NF. left. reflexivity. }
    destruct (IH s1 R1 ltac:(assumption) t k i I1) as (s2 & E2 & R2 & K2); [intro X; apply NF; right; exact X|exact Hi|intros v X; apply (NW v); right; exact X|].
    rewrite E2. cbn [obind]. exists s2. split; [reflexivity|]. split; [exact R2|]. rewrite K2. apply (K1 t k i I I1 Hi). intros v X. apply (NW v). left. exact X.
Qed.
Lemma run_app es1 es2 s : ba_run pw pw BS s (es1 ++ es2) = (do (s1, x1) <- ba_run pw pw BS s es1; do (s2, x2) <- ba_run pw pw BS s1 es2; Some (s2, x1 ++ x2)).
Proof.
  revert s. induction es1 as [|e r IH]; intro s; cbn [app ba_run obind].
  - destruct (ba_run pw pw BS s es2) as [[? ?]|]; reflexivity.
  - destruct (ba_step pw pw BS s e) as [[s1 x]|]; cbn [obind]; [|reflexivity]. rewrite IH.
    destruct (ba_run pw pw BS s1 r) as [[s2 x2]|]; cbn [obind]; [|reflexivity]. destruct (ba_run pw pw BS s2 es2) as [[? ?]|]; reflexivity.
Qed.

(* every request has an answer *)
Lemma slots_exist r : 0 <= r -> exists k, slots_for BS r k.
Proof. intro H. exists ((r + 4 + 2 * BS - 1) / (2 * BS)). unfold slots_for. pose proof (Z.div_mod (r + 4 + 2 * BS - 1) (2 * BS) ltac:(lia)). pose proof (Z.mod_pos_bound (r + 4 + 2 * BS - 1) (2 * BS) ltac:(lia)). nia. Qed.
Lemma alloc_answer s live r : rep s live -> 0 <= r -> r + 4 + 2 * BS <= 2 ^ pw -> exists x live', user_step BS A size live (UAlloc r) x live'.
Proof.
  intros (bl & W & P) Hr R. destruct (slots_exist r Hr) as [k Sl]. destruct (needed_spec r k Hr R Sl) as [E K]. destruct (wfs_len s bl W) as [L NE].
  pose proof W as (_ & W2 & _).
  pose proof (search_spec k bl K [] s (S (length (b_mem s))) W NE) as Q.
  assert (forall o, placed size (used_at 0 bl) k o -> placed size live k o) as PP.
  { intros [o|] H; cbn [placed] in *.
    - destruct H as [H1 H2]. split; [apply (fits_perm (used_at 0 bl)); [apply Permutation_sym; exact P|exact H1]|]. intros s' Ls F. apply (H2 s' Ls). apply (fits_perm live); assumption.
    - intros s' F. apply (H s'). apply (fits_perm live); assumption. }
  destruct Q as [[Sm Es]|(a & n & b & m' & Eb & Sm & Kn & Es & W' & _)]; [intros ? ? []|lia| |].
  - do 2 eexists. eapply step_full; [exact Hr|exact Sl|]. apply PP. apply (fits_none bl k s); assumption.
  - do 2 eexists. eapply step_alloc; [exact Hr|exact Sl|]. apply PP. cbn [app] in Eb. subst bl. apply (fits_found a n b k s); assumption.
Qed.

(* ---------- initialize ---------- *)
Lemma init_rep s junk : zlen junk = M -> b_write (mkBA junk A (A + 2 * (size * BS)) A) A (- size) = Some s ->
  exists s', b_write s (padd pw (A + 2 * (size * BS)) (-1)) (- size) = Some s' /\ rep s' [].
Proof.
  intros L E. destruct (mark (mkBA junk A (A + 2 * (size * BS)) A) 0 size (- size) eq_refl L ltac:(lia) ltac:(lia) ltac:(lia)) as (s1 & m & E1 & E2 & ML & G).
  cbn [b_mem b_end b_hint] in *. replace (A + 2 * (0 * BS)) with A in * by lia. rewrite E in E1. injection E1 as <-.
  assert (padd pw A (wrap pw (size * BS)) = A + 2 * (size * BS)) as X.
  { replace A with (A + 2 * 0) at 1 by lia. rewrite at_add_wrap by nia. lia. }
  rewrite X in E2. eexists. split; [exact E2|]. exists [(size, false)]. split; [|apply perm_nil].
  unfold wfs. cbn [b_start b_hint b_end b_mem lay tot pos canon]. rewrite (tag_free size) in G by lia.
  split; [reflexivity|]. split; [reflexivity|]. split; [reflexivity|]. split; [exact ML|].
  split; [|split; [lia|split; [lia|auto]]].
  split; [rewrite G, Z.eqb_refl; reflexivity|]. split; [rewrite G, Z.eqb_refl, orb_true_r; reflexivity|exact I].
Qed.
End Alloc.

Lemma align_spec pw al p : 4 <= pw -> (al = 4 \/ al = 8) -> 0 <= p -> p + 8 <= 2 ^ pw ->
  exists start, alignPointer pw al p = Some start /\ p <= start < p + al /\ (start + 2) mod al = 0.
Proof.
  intros Hpw Hal Hp Htop. unfold alignPointer.
  assert (Z.land p (al - 1) = p mod al) as -> by (destruct Hal as [-> | ->]; [apply (Z.land_ones p 2)|apply (Z.land_ones p 3)]; lia).
  assert (0 <= p mod al < al) as R by (apply Z.mod_pos_bound; lia).
  assert (exists o, znth (if al =? 8 then [6; 5; 4; 3; 2; 1; 0; 7] else [2; 1; 0; 3]) (p mod al) = Some o /\ 0 <= o < al /\ (p mod al + o + 2) mod al = 0) as (o & E & O & Z0).
  { revert R. generalize (p mod al) as r. intros r R. destruct Hal as [-> | ->]; cbn [Z.eqb Pos.eqb].
    - assert (r = 0 \/ r = 1 \/ r = 2 \/ r = 3) as [-> |[-> |[-> | ->]]] by lia; eexists; (split; [reflexivity|]); split; try lia; reflexivity.
    - assert (r = 0 \/ r = 1 \/ r = 2 \/ r = 3 \/ r = 4 \/ r = 5 \/ r = 6 \/ r = 7) as [-> |[-> |[-> |[-> |[-> |[-> |[-> | ->]]]]]]] by lia; eexists; (split; [reflexivity|]); split; try lia; reflexivity. }
  rewrite E. cbn [obind]. eexists. split; [reflexivity|]. rewrite wrap_small by lia. split; [lia|].
  rewrite <- Z0. rewrite <- Z.add_assoc, <- (Zplus_mod_idemp_l p), Z.add_assoc. reflexivity.
Qed.

(* initialize leaves a heap of (heapEnd - start - 2) / (2 BS) free slots *)
Lemma initialize_rep pw BS al heapStart heapEnd junk :
  16 <= pw -> 2 <= BS -> (al = 4 \/ al = 8) -> 0 <= heapStart -> heapStart + 8 <= 2 ^ pw -> heapEnd <= 2 ^ pw - 1 ->
  forall start, alignPointer pw al heapStart = Some start ->
  start + 2 + 2 * BS <= heapEnd -> (heapEnd - start - 2) / (2 * BS) <= 32767 -> zlen junk = (heapEnd - start) / 2 ->
  exists s, ba_initialize pw BS al heapStart heapEnd junk = Some s /\
    2 <= start /\ start + 2 * ((heapEnd - start) / 2) <= 2 ^ pw /\
    1 <= (heapEnd - start - 2) / (2 * BS) /\ (heapEnd - start - 2) / (2 * BS) * BS < (heapEnd - start) / 2 /\
    rep BS start ((heapEnd - start - 2) / (2 * BS)) ((heapEnd - start) / 2) s [].
Proof.
  intros Hpw HBS Hal H0 H8 He start Ea Hs Hz Hj.
  destruct (align_spec pw al heapStart ltac:(lia) Hal H0 H8) as (st & Ea' & R & Z0). rewrite Ea in Ea'. injection Ea' as <-.
  assert (2 <= start) as A2.
  { apply Z.mod_divide in Z0; [|lia]. destruct Z0 as [q Q]. destruct Hal as [-> | ->]; lia. }
  set (size := (heapEnd - start - 2) / (2 * BS)) in *. set (M := (heapEnd - start) / 2) in *.
  assert (1 <= size) as S1 by (apply Z.div_le_lower_bound; lia).
  assert (2 * BS * size <= heapEnd - start - 2) as S2 by (apply Z.mul_div_le; lia).
  assert (2 * M <= heapEnd - start < 2 * M + 2) as M1 by (unfold M; clear; lia).
  assert (size * BS < M) as S3 by nia.
  unfold ba_initialize. rewrite Ea. cbn [obind]. cbv zeta. rewrite (wrap_small pw (heapEnd - start - 2)) by lia.
  replace (BS * 2) with (2 * BS) by lia. fold size. rewrite wrap_small by nia. replace (start + size * BS * 2) with (start + 2 * (size * BS)) by lia.
  destruct (at_write BS start (mkBA junk start (start + 2 * (size * BS)) start) 0 (- size) eq_refl) as (m & E1 & _ & _); [cbn [b_mem]; nia|].
  rewrite Z.mul_0_r, Z.add_0_r in E1. rewrite E1. cbn [obind].
  destruct (init_rep pw BS start size M ltac:(lia) ltac:(lia) ltac:(lia) ltac:(lia) ltac:(lia) ltac:(lia) _ junk Hj E1) as (s' & E2 & Rp).
  exists s'. split; [exact E2|]. split; [exact A2|]. split; [lia|]. split; [exact S1|]. split; [exact S3|exact Rp].
Qed.

(* ---------- the live blocks ---------- *)
Lemma live_invariant BS start size live es xs live' : 2 <= BS -> user_run BS start size live es xs live' -> blocks_ok size live -> blocks_ok size live'.
Proof.
  intros HBS. induction 1 as [live|live e x live1 es xs live2 U _ IH]; intro I; [exact I|]. apply IH. destruct I as [I1 I2]. clear IH.
  destruct U as [r k0 t0 Hr [Sl1 Sl2] Pl|r k0 Hr Sl Pl|before after t0 k0 El| |a v t0 k0 I0 Ha1 Ha2 Ev]; try (split; assumption).
  - destruct Pl as [(F1 & F2 & F3) _]. assert (1 <= k0) by nia. split.
    + intros t k [X|X]; [injection X as <- <-; lia|exact (I1 t k X)].
    + constructor; [|exact I2]. apply Forall_forall. intros [t k] X. cbn [fst snd]. exact (F3 t k X).
  - subst live. split.
    + intros t k X. apply I1. apply in_app_or in X. apply in_or_app. destruct X; [auto|right; right; assumption].
    + clear -I2. induction before as [|b r IH]; cbn [app] in *; inversion I2 as [|? ? Fa Or]; subst; [exact Or|]. constructor; [|apply IH; exact Or].
      apply Forall_app in Fa. destruct Fa as [F1 F2]. inversion F2; subst. apply Forall_app. auto.
Qed.

Lemma write_far s p v : 2 * zlen (b_mem s) <= p - b_start s -> b_write s p v = None.
Proof.
  intro H. unfold b_write. destruct (Z.odd _); [reflexivity|]. rewrite (proj2 (zupd_None _ _ _)); [reflexivity|]. right. apply Z.div_le_lower_bound; lia.
Qed.
