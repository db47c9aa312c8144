(* Proofs about polygons and rays. *)
From Verif Require Import Base GeoModel GeoSpec GeoProofs.
Local Open Scope Z_scope.

Lemma intersects_test : forall T s o, valid_type T -> all_near (reach T) [fst s; snd s; fst o; snd o] -> intersects T s o = test s o && test o s.
Proof.
  intros T [a b] [c d] V H. unfold intersects, test. cbn [fst snd] in *.
  assert (N : forall x y, In x [a; b; c; d] -> In y [a; b; c; d] -> near (reach T) x y) by exact H.
  rewrite !(ccw_exact T) by (try exact V; apply N; cbn; tauto). reflexivity.
Qed.
Lemma intersects_meet : forall T s o, valid_type T -> all_near (reach T) [fst s; snd s; fst o; snd o] -> fst s <> snd s -> fst o <> snd o ->
  (intersects T s o = true <-> meet s o).
Proof.
  intros T s o V H N1 N2. rewrite (intersects_test T s o V H). rewrite andb_true_iff. split.
  - intros [T1 T2]. now apply test_meet.
  - intro M. split; apply meet_test; try assumption. now apply meet_sym.
Qed.

(* --- vertices --- *)
Lemma vertex_cycle : forall p i, vertex p (i + length p) = vertex p i.
Proof.
  intros p i. unfold vertex. destruct p as [|x p]; [destruct (Nat.modulo (i + length (@nil vec)) (length (@nil vec))), (Nat.modulo i (length (@nil vec))); reflexivity|]. f_equal.
  replace (i + length (x :: p))%nat with (i + 1 * length (x :: p))%nat by lia. apply Nat.mod_add. discriminate.
Qed.
Lemma vertex_mod : forall p i, p <> [] -> vertex p (Nat.modulo i (length p)) = vertex p i.
Proof. intros p i N. unfold vertex. rewrite Nat.mod_mod; [reflexivity|]. destruct p; [congruence|discriminate]. Qed.
Lemma vertex_in : forall p i, p <> [] -> In (vertex p i) p.
Proof. intros p i N. unfold vertex. apply nth_In. apply Nat.mod_upper_bound. destruct p; [congruence|discriminate]. Qed.
Lemma edge_side : forall p i, (i < length p)%nat -> edge p i = side p i.
Proof. intros p i H. unfold edge, side, vertex. rewrite (Nat.mod_small i) by exact H. now replace (i + 1)%nat with (S i) by lia. Qed.
Lemma side_mod : forall p i, p <> [] -> side p (Nat.modulo i (length p)) = side p i.
Proof.
  intros p i N. unfold side. rewrite vertex_mod by exact N. f_equal. rewrite <- (vertex_mod p (S i) N), <- (vertex_mod p (S _) N).
  f_equal. assert (length p <> 0%nat) by (destruct p; [congruence|discriminate]). rewrite <- (Nat.add_1_r (Nat.modulo i (length p))), <- (Nat.add_1_r i).
  apply Nat.add_mod_idemp_l. assumption.
Qed.
Lemma in_edges : forall p e, In e (edges p) <-> p <> [] /\ exists i, e = side p i.
Proof.
  intros p e. unfold edges. rewrite in_map_iff. split.
  - intros (i & E & Hi). apply in_seq in Hi. split; [intros ->; cbn in Hi; lia|]. exists i. rewrite <- E. apply edge_side. lia.
  - intros (N & i & ->). exists (Nat.modulo i (length p)). assert (L : (Nat.modulo i (length p) < length p)%nat) by (apply Nat.mod_upper_bound; destruct p; [congruence|discriminate]).
    split; [rewrite edge_side by exact L; now apply side_mod|]. apply in_seq. lia.
Qed.

(* --- isInside --- *)
Lemma inside_loop_spec : forall T v l cw_ ccw_, (forall e, In e l -> ccw T (fst e) (snd e) v = ccwz (fst e) (snd e) v) ->
  (inside_loop T l v cw_ ccw_ = true <-> (exists e, In e l /\ ccwz (fst e) (snd e) v = 0) \/ (cw_ = true /\ forall e, In e l -> ccwz (fst e) (snd e) v <> 1) \/
     (ccw_ = true /\ forall e, In e l -> ccwz (fst e) (snd e) v <> -1)).
Proof.
  intros T v. induction l as [|e l IH]; intros cw_ ccw_ H.
  - cbn [inside_loop]. rewrite orb_true_iff. split.
    + intros [-> | -> ]; right; [left|right]; (split; [reflexivity|intros ? []]).
    + intros [(e & [] & _)|[[-> _]|[-> _]]]; tauto.
  - cbn [inside_loop]. rewrite (H e (or_introl eq_refl)). assert (H' : forall e, In e l -> ccw T (fst e) (snd e) v = ccwz (fst e) (snd e) v) by (intros e' I'; apply H; now right).
    destruct (ccwz_cases (fst e) (snd e) v) as [E|[E|E]]; rewrite E.
    + change (1 =? 0) with false. change (1 =? 1) with true. cbv iota. rewrite IH by exact H'. split.
      * intros [(e' & I' & E')|[[Q _]|[Q F]]]; [left; exists e'; split; [now right|exact E']|discriminate|]. right. right. split; [exact Q|].
        intros e' [<-|I']; [rewrite E; discriminate|now apply F].
      * intros [(e' & [<-|I'] & E')|[[Q F]|[Q F]]]; [rewrite E in E'; discriminate|left; eauto|elim (F e (or_introl eq_refl) E)|].
        right. right. split; [exact Q|]. intros e' I'. apply F. now right.
    + change (0 =? 0) with true. cbv iota. split; [|reflexivity]. intros _. left. exists e. split; [now left|exact E].
    + change (-1 =? 0) with false. change (-1 =? 1) with false. change (-1 =? -1) with true. cbv iota. rewrite IH by exact H'. split.
      * intros [(e' & I' & E')|[[Q F]|[Q _]]]; [left; exists e'; split; [now right|exact E']| |discriminate]. right. left. split; [exact Q|].
        intros e' [<-|I']; [rewrite E; discriminate|now apply F].
      * intros [(e' & [<-|I'] & E')|[[Q F]|[Q F]]]; [rewrite E in E'; discriminate|left; eauto| |elim (F e (or_introl eq_refl) E)].
        right. left. split; [exact Q|]. intros e' I'. apply F. now right.
Qed.
(* the sum of the areas of the triangles of a point with the sides does not depend on the point *)
Fixpoint total (p : list vec) (v : vec) (k : nat) : Z := match k with O => 0 | S k => total p v k + area (vertex p k) (vertex p (S k)) v end.
Definition cr (a b : vec) : Z := fst a * snd b - snd a * fst b.
Lemma total_tele : forall p v w k, total p v k - cr (vertex p k) v + cr (vertex p 0) v = total p w k - cr (vertex p k) w + cr (vertex p 0) w.
Proof.
  intros p v w. induction k as [|k IH]; [cbn [total]; lia|]. cbn [total].
  assert (A : forall a b u, area a b u = cr a b + cr b u - cr a u) by (intros; unfold area, cr; ring).
  rewrite (A _ _ v), (A _ _ w). lia.
Qed.
Lemma total_const : forall p v w, total p v (length p) = total p w (length p).
Proof.
  intros p v w. pose proof (total_tele p v w (length p)) as H. pose proof (vertex_cycle p 0) as C. rewrite Nat.add_0_l in C. rewrite C in H. lia.
Qed.
Lemma total_nonpos : forall o p v k, (forall i, (i < k)%nat -> o * area (vertex p i) (vertex p (S i)) v <= 0) -> o * total p v k <= 0.
Proof.
  intros o p v. induction k as [|k IH]; intros H; [cbn [total]; lia|]. cbn [total]. rewrite Z.mul_add_distr_l. pose proof (H k ltac:(lia)). assert (o * total p v k <= 0) by (apply IH; intros; apply H; lia). lia.
Qed.
Lemma total_nonneg : forall o p v k, (forall i, 0 <= o * area (vertex p i) (vertex p (S i)) v) -> 0 <= o * total p v k.
Proof. intros o p v k H. induction k as [|k IH]; [cbn [total]; lia|]. cbn [total]. rewrite Z.mul_add_distr_l. pose proof (H k). lia. Qed.
Lemma total_pos : forall o p, convex o p -> 0 < o * total p (vertex p 0) (length p).
Proof.
  intros o p (Ho & Hl & HC & HS). destruct (length p) as [|[|n]] eqn:E; [lia|lia|].
  assert (G : forall k, 0 < o * total p (vertex p 0) (S (S k))).
  { induction k as [|k IH].
    - cbn [total]. rewrite !Z.mul_add_distr_l. pose proof (HC 0%nat 0%nat). pose proof (HS 0%nat) as H1.
      replace (area (vertex p 1) (vertex p 2) (vertex p 0)) with (area (vertex p 0) (vertex p 1) (vertex p 2)) by (unfold area; ring). lia.
    - remember (S (S k)) as m eqn:Em. cbn [total]. rewrite Z.mul_add_distr_l. pose proof (HC m 0%nat). lia. }
  apply G.
Qed.
Lemma some_positive : forall o p v, convex o p -> exists i, (i < length p)%nat /\ 0 < o * area (vertex p i) (vertex p (S i)) v.
Proof.
  intros o p v C. pose proof (total_pos o p C) as P. rewrite (total_const p _ v) in P.
  assert (D : (exists i, (i < length p)%nat /\ 0 < o * area (vertex p i) (vertex p (S i)) v) \/ (forall i, (i < length p)%nat -> o * area (vertex p i) (vertex p (S i)) v <= 0)).
  { generalize (length p). induction n as [|n [(i & Hi & H)|IH]]; [right; intros; lia|left; exists i; split; [lia|exact H]|].
    destruct (Z.lt_ge_cases 0 (o * area (vertex p n) (vertex p (S n)) v)) as [Q|Q]; [left; exists n; split; [lia|exact Q]|right].
    intros i Hi. destruct (Nat.eq_dec i n) as [-> |]; [exact Q|apply IH; lia]. }
  destruct D as [D|D]; [exact D|]. apply total_nonpos in D. lia.
Qed.
Lemma convex_side : forall o p i, convex o p -> vertex p i <> vertex p (S i).
Proof. intros o p i (_ & _ & _ & HS) E. specialize (HS i). rewrite <- E in HS. unfold area in HS. rewrite !Z.sub_diag in HS. lia. Qed.
Lemma area_combine : forall a b x y v n t, n * (fst v - fst x) = t * (fst y - fst x) -> n * (snd v - snd x) = t * (snd y - snd x) ->
  n * area a b v = (n - t) * area a b x + t * area a b y.
Proof.
  intros [ax ay] [bx by_] [xx xy] [yx yy] [vx vy] n t Ex Ey. unfold area. cbn [fst snd] in *.
  transitivity ((bx - ax) * (n * (vy - xy) + n * (xy - ay)) - (by_ - ay) * (n * (vx - xx) + n * (xx - ax))); [ring|]. rewrite Ex, Ey. ring.
Qed.
Lemma isInside_convex : forall T o p v, valid_type T -> convex o p -> all_near (reach T) (v :: p) -> (isInside T p v = true <-> inside o p v).
Proof.
  intros T o p v V C N. assert (Np : p <> []) by (destruct C as (_ & L & _); intros ->; cbn in L; lia).
  assert (X : forall e, In e (edges p) -> ccw T (fst e) (snd e) v = ccwz (fst e) (snd e) v).
  { intros e He. apply in_edges in He. destruct He as (_ & i & ->). cbn [side fst snd]. apply ccw_exact; [exact V| |]; apply N; cbn; auto using vertex_in. }
  unfold isInside. rewrite (inside_loop_spec T v (edges p) true true X). pose proof C as (Ho & Hl & HC & HS). split.
  - intros [(e & He & E)|D].
    + apply in_edges in He. destruct He as (_ & i & ->). cbn [side fst snd] in E. apply ccwz_zero in E. destruct E as (n & t & Hn & Ht & Ex & Ey).
      intro j. pose proof (area_combine (vertex p j) (vertex p (S j)) _ _ v n t Ex Ey) as Q. pose proof (HC j i) as H1. pose proof (HC j (S i)) as H2.
      set (A := area (vertex p j) (vertex p (S j)) v) in *. set (A1 := area (vertex p j) (vertex p (S j)) (vertex p i)) in *. set (A2 := area (vertex p j) (vertex p (S j)) (vertex p (S i))) in *.
      clearbody A A1 A2. assert (n * (o * A) = (n - t) * (o * A1) + t * (o * A2)) by (transitivity (o * (n * A)); [ring|rewrite Q; ring]).
      assert (0 <= (n - t) * (o * A1)) by (apply Z.mul_nonneg_nonneg; lia). assert (0 <= t * (o * A2)) by (apply Z.mul_nonneg_nonneg; lia). nia.
    + destruct (some_positive o p v C) as (i & Hi & Pi). intro j.
      assert (Ei : In (side p i) (edges p)) by (apply in_edges; eauto). assert (Ej : In (side p j) (edges p)) by (apply in_edges; eauto).
      destruct (Z.lt_ge_cases (o * area (vertex p j) (vertex p (S j)) v) 0) as [Nj|Nj]; [exfalso|exact Nj].
      destruct D as [[_ D]|[_ D]]; (destruct Ho as [-> | -> ]).
      * apply (D _ Ei). cbn [side fst snd]. apply ccwz_pos. lia.
      * apply (D _ Ej). cbn [side fst snd]. apply ccwz_pos. lia.
      * apply (D _ Ej). cbn [side fst snd]. apply ccwz_neg. lia.
      * apply (D _ Ei). cbn [side fst snd]. apply ccwz_neg. lia.
  - intro H.
    assert (R : forall e, In e (edges p) -> ccwz (fst e) (snd e) v = 0 \/ ccwz (fst e) (snd e) v = o).
    { intros e He. apply in_edges in He. destruct He as (_ & i & ->). cbn [side fst snd]. pose proof (convex_side o p i C) as Nd.
      destruct (Z.eq_dec (area (vertex p i) (vertex p (S i)) v) 0) as [A0|A0].
      - left. destruct (ccwz_cases (vertex p i) (vertex p (S i)) v) as [E|[E|E]]; [exfalso|exact E|exfalso].
        + apply (ccwz_behind _ _ _ Nd) in E. destruct E as [E|(n & t & Hn & Ht & Ex & Ey)]; [lia|].
          pose proof (area_combine (vertex p (S i)) (vertex p (S (S i))) _ _ v n t Ex Ey) as Q.
          replace (area (vertex p (S i)) (vertex p (S (S i))) (vertex p (S i))) with 0 in Q by (unfold area; ring).
          replace (area (vertex p (S i)) (vertex p (S (S i))) (vertex p i)) with (area (vertex p i) (vertex p (S i)) (vertex p (S (S i)))) in Q by (unfold area; ring).
          pose proof (HS i) as H1. pose proof (H (S i)) as H2. set (A := area (vertex p (S i)) (vertex p (S (S i))) v) in *. set (B := area (vertex p i) (vertex p (S i)) (vertex p (S (S i)))) in *.
          clearbody A B. assert (n * (o * A) = (n - t) * (o * B)) by (transitivity (o * (n * A)); [ring|rewrite Q; ring]).
          assert ((n - t) * (o * B) < 0) by (apply Z.mul_neg_pos; lia). nia.
        + apply (ccwz_before _ _ _ Nd) in E. destruct E as [E|(n & t & Hn & Ht & Ex & Ey)]; [lia|].
          set (k := (i + length p - 1)%nat). assert (K1 : vertex p (S k) = vertex p i) by (rewrite <- (vertex_cycle p i); f_equal; subst k; lia).
          assert (K2 : vertex p (S (S k)) = vertex p (S i)) by (rewrite <- (vertex_cycle p (S i)); f_equal; subst k; lia).
          pose proof (area_combine (vertex p k) (vertex p (S k)) _ _ v n t Ex Ey) as Q. pose proof (HS k) as H1. pose proof (H k) as H2. rewrite K2 in H1. rewrite K1 in *.
          replace (area (vertex p k) (vertex p i) (vertex p i)) with 0 in Q by (unfold area; ring).
          set (A := area (vertex p k) (vertex p i) v) in *. set (B := area (vertex p k) (vertex p i) (vertex p (S i))) in *.
          clearbody A B. assert (n * (o * A) = t * (o * B)) by (transitivity (o * (n * A)); [ring|rewrite Q; ring]).
          assert (t * (o * B) < 0) by (apply Z.mul_neg_pos; lia). nia.
      - right. specialize (H i). destruct Ho as [-> | -> ]; [apply ccwz_pos|apply ccwz_neg]; lia. }
    assert (Z0 : forall l, (forall e, In e l -> ccwz (fst e) (snd e) v = 0 \/ ccwz (fst e) (snd e) v = o) -> (exists e, In e l /\ ccwz (fst e) (snd e) v = 0) \/ (forall e, In e l -> ccwz (fst e) (snd e) v = o)).
    { induction l as [|e l IH]; intros Hl'; [right; intros ? []|]. destruct (Hl' e (or_introl eq_refl)) as [Q|Q]; [left; exists e; split; [now left|exact Q]|].
      destruct IH as [(e' & I' & Q')|F]; [intros; apply Hl'; now right|left; exists e'; split; [now right|exact Q']|right; intros e' [<-|I']; [exact Q|now apply F]]. }
    destruct (Z0 _ R) as [F|F]; [now left|]. right. destruct Ho as [-> | -> ]; [right|left]; (split; [reflexivity|]); intros e He; rewrite (F e He); discriminate.
Qed.

(* --- polygons meeting --- *)
Lemma existsb_edges : forall (f : segment -> bool) p, existsb f (edges p) = true <-> p <> [] /\ exists i, f (side p i) = true.
Proof.
  intros f p. rewrite existsb_exists. split.
  - intros (e & He & E). apply in_edges in He. destruct He as (N & i & ->). eauto.
  - intros (N & i & E). exists (side p i). split; [apply in_edges; eauto|exact E].
Qed.

(* --- rays --- *)
Definition crossz (a b : vec) : Z := fst a * snd b - snd a * fst b.
Lemma rays_cases : forall T (P : ctype -> Prop), valid_type T -> ts T = true -> P (int8_on 16) -> P (int16_on 16) -> P (int32_on 16) ->
  P (int8_on 32) -> P (int16_on 32) -> P (int32_on 32) -> P T.
Proof. intros T P (b & [-> | -> ] & [-> |[-> |[-> | -> ]]]) S **; try assumption; discriminate S. Qed.
Lemma ray_reach_le : forall T, valid_type T -> ray_reach T <= reach T.
Proof. intros T V. pattern T. apply (valid_cases T _ V); vm_compute; discriminate. Qed.
Lemma toT_small : forall T x, valid_type T -> ts T = true -> Z.abs x <= reach T -> toT T x = x.
Proof.
  intros T x V S. pattern T. apply (rays_cases T _ V S); unfold toT, reach; cbn [tw tb ts int8_on int16_on int32_on Z.eqb Pos.eqb]; intro H; (apply sw8 || apply sw16 || apply sw32); lia.
Qed.
Lemma vsub_exact : forall T a b, valid_type T -> ts T = true -> near (reach T) a b -> vsub T a b = (fst a - fst b, snd a - snd b).
Proof. intros T a b V S [H1 H2]. unfold vsub. rewrite !(inT_small T V) by assumption. rewrite !toT_small by assumption. reflexivity. Qed.
Lemma orthogonal_exact : forall T a, valid_type T -> ts T = true -> Z.abs (fst a) <= reach T -> orthogonal T a = (snd a, - fst a).
Proof. intros T a V S H. unfold orthogonal. rewrite (inT_small T V) by lia. rewrite toT_small by (try assumption; lia). reflexivity. Qed.
Lemma dot_small : forall T a b, valid_type T -> Z.abs (fst a) <= reach T -> Z.abs (snd a) <= reach T -> Z.abs (fst b) <= reach T -> Z.abs (snd b) <= reach T ->
  dot T a b = fst a * fst b + snd a * snd b.
Proof.
  intros T [ax ay] [bx by_] V H1 H2 H3 H4. unfold dot. cbn [fst snd] in *. rewrite !(toW_small T V ax), !(toW_small T V ay), !(toW_small T V bx), !(toW_small T V by_) by (apply reach_wide; assumption).
  pose proof (reach_square T _ _ V H1 H3). pose proof (reach_square T _ _ V H2 H4). rewrite !(inW_small T V (ax * bx)), !(inW_small T V (ay * by_)) by lia.
  rewrite (inW_small T V) by lia. apply toW_small; [exact V|lia].
Qed.
Lemma cross_bound : forall d a b, Z.abs (fst a) <= d -> Z.abs (snd a) <= d -> Z.abs (fst b) <= d -> Z.abs (snd b) <= d -> Z.abs (crossz a b) <= 2 * (d * d).
Proof.
  intros d [ax ay] [bx by_] H1 H2 H3 H4. unfold crossz. cbn [fst snd] in *.
  assert (Z.abs (ax * by_) <= d * d) by (rewrite Z.abs_mul; apply Z.mul_le_mono_nonneg; lia).
  assert (Z.abs (ay * bx) <= d * d) by (rewrite Z.abs_mul; apply Z.mul_le_mono_nonneg; lia). lia.
Qed.
Lemma ray_product : forall T x y, valid_type T -> Z.abs x <= 2 * (ray_reach T * ray_reach T) -> Z.abs y <= 2 * (ray_reach T * ray_reach T) -> inW T (x * y) = x * y.
Proof.
  intros T x y V Hx Hy. assert (A : Z.abs (x * y) <= 2 * (ray_reach T * ray_reach T) * (2 * (ray_reach T * ray_reach T))) by (rewrite Z.abs_mul; apply Z.mul_le_mono_nonneg; lia).
  clear Hx Hy. revert A. set (z := x * y). clearbody z. clear x y. revert z. pattern T. apply (valid_cases T _ V); intros z; unfold ray_reach, inW; cbn [tw tb ts ib int8_on uint8_on int16_on int32_on];
    (change (Z.max 16 16) with 16 || change (Z.max 16 32) with 32 || change (Z.max 32 16) with 32 || change (Z.max 32 32) with 32); cbn [Z.eqb Pos.eqb]; intro H; (apply sw16 || apply sw32); lia.
Qed.
Lemma ray_exact : forall T base dir s e, valid_type T -> ts T = true -> all_near (ray_reach T) [base; s; e] -> near (ray_reach T) dir (0, 0) ->
  let l := (fst e - fst s, snd e - snd s) in
  ray_intersects T base dir (s, e) =
    if crossz (fst s - fst base, snd s - snd base) dir * crossz (fst e - fst base, snd e - snd base) dir <? 0
    then crossz (fst base - fst s, snd base - snd s) l * crossz dir l <? 0 else false.
Proof.
  intros T base dir s e V S N [D1 D2] l. cbn [fst snd] in D1, D2. rewrite Z.sub_0_r in D1, D2. unfold ray_intersects. cbn [fst snd].
  pose proof (ray_reach_le T V) as LE.
  assert (NN : forall x y, In x [base; s; e] -> In y [base; s; e] -> near (ray_reach T) x y) by exact N.
  assert (NW : forall x y, In x [base; s; e] -> In y [base; s; e] -> near (reach T) x y) by (intros x y Hx Hy; destruct (NN x y Hx Hy); split; lia).
  destruct (NN s base) as [A1 A2]; [cbn; tauto|cbn; tauto|]. destruct (NN e base) as [B1 B2]; [cbn; tauto|cbn; tauto|].
  destruct (NN e s) as [C1 C2]; [cbn; tauto|cbn; tauto|]. destruct (NN base s) as [E1 E2]; [cbn; tauto|cbn; tauto|].
  rewrite (vsub_exact T s base), (vsub_exact T e base), (vsub_exact T base s), (vsub_exact T e s) by (try assumption; apply NW; cbn; tauto).
  rewrite (orthogonal_exact T dir) by (try assumption; lia). rewrite (orthogonal_exact T (fst e - fst s, snd e - snd s)) by (try assumption; cbn [fst]; lia).
  rewrite !(dot_small T) by (try exact V; cbn [fst snd]; lia). cbn [fst snd]. unfold l.
  replace ((fst s - fst base) * snd dir + (snd s - snd base) * - fst dir) with (crossz (fst s - fst base, snd s - snd base) dir) by (unfold crossz; cbn [fst snd]; ring).
  replace ((fst e - fst base) * snd dir + (snd e - snd base) * - fst dir) with (crossz (fst e - fst base, snd e - snd base) dir) by (unfold crossz; cbn [fst snd]; ring).
  replace ((fst base - fst s) * (snd e - snd s) + (snd base - snd s) * - (fst e - fst s)) with (crossz (fst base - fst s, snd base - snd s) (fst e - fst s, snd e - snd s)) by (unfold crossz; cbn [fst snd]; ring).
  replace (fst dir * (snd e - snd s) + snd dir * - (fst e - fst s)) with (crossz dir (fst e - fst s, snd e - snd s)) by (unfold crossz; cbn [fst snd]; ring).
  rewrite !(ray_product T) by (try exact V; apply cross_bound; cbn [fst snd]; lia). reflexivity.
Qed.
Lemma ray_meaning : forall base dir s e, let l := (fst e - fst s, snd e - snd s) in
  crossz (fst s - fst base, snd s - snd base) dir * crossz (fst e - fst base, snd e - snd base) dir < 0 /\ crossz (fst base - fst s, snd base - snd s) l * crossz dir l < 0 <->
  ray_crosses base dir (s, e).
Proof.
  intros [bx by_] [dx dy] [sx sy] [ex ey] l. unfold ray_crosses, crossz, l. cbn [fst snd].
  set (A := (sx - bx) * dy - (sy - by_) * dx). set (B := (ex - bx) * dy - (ey - by_) * dx). set (M := (bx - sx) * (ey - sy) - (by_ - sy) * (ex - sx)). set (K := dx * (ey - sy) - dy * (ex - sx)).
  assert (I1 : B = A - K) by (unfold A, B, K; ring). split.
  - intros [H1 H2].
    assert (X : K * bx - M * dx = K * sx + A * (ex - sx)) by (unfold A, M, K; ring). assert (Y : K * by_ - M * dy = K * sy + A * (ey - sy)) by (unfold A, M, K; ring).
    clearbody A B M K. rewrite I1 in H1. destruct (Z.lt_ge_cases K 0) as [Kn|Kp].
    + exists (- K), M, (- A). split; [lia|]. split; [nia|]. split; [nia|]. split; [lia|]. split; lia.
    + exists K, (- M), A. assert (K <> 0) by (intros ->; lia). split; [lia|]. split; [nia|]. split; [nia|]. split; [lia|]. split; lia.
  - intros (n & t & u & Hn & Ht & Hu & HK & X & Y).
    assert (J1 : n * A = u * K).
    { unfold A, K. transitivity (dy * (n * sx + u * (ex - sx) - n * bx) - dx * (n * sy + u * (ey - sy) - n * by_) + u * (dx * (ey - sy) - dy * (ex - sx))); [ring|]. rewrite <- X, <- Y. ring. }
    assert (J2 : n * M = - t * K).
    { unfold M, K. transitivity ((ey - sy) * (n * bx + t * dx - n * sx) - (ex - sx) * (n * by_ + t * dy - n * sy) - t * (dx * (ey - sy) - dy * (ex - sx))); [ring|]. rewrite X, Y. ring. }
    assert (J3 : n * B = - (n - u) * K) by (rewrite I1; lia). clearbody A B M K. clear I1 X Y.
    assert (KK : 0 < K * K) by (apply sq_pos; exact HK). assert (NN : 0 < n * n) by (apply sq_pos; lia). split.
    + assert (Q : (n * n) * (A * B) = - (u * (n - u)) * (K * K)) by (transitivity ((n * A) * (n * B)); [ring|rewrite J1, J3; ring]).
      assert (0 < u * (n - u)) by (apply Z.mul_pos_pos; lia). assert (- (u * (n - u)) * (K * K) < 0) by (apply Z.mul_neg_pos; lia). nia.
    + assert (Q : n * (M * K) = - t * (K * K)) by (transitivity ((n * M) * K); [ring|rewrite J2; ring]). assert (- t * (K * K) < 0) by (apply Z.mul_neg_pos; lia). nia.
Qed.
