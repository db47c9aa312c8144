(* C92 - C94: integer geometry. *)
From Verif Require Import Base GeoModel GeoSpec GeoProofs GeoPolyProofs.
Local Open Scope Z_scope.

(* --- C92: vectors --- *)
Definition small (T : ctype) : Prop := valid_type T /\ ts T = true /\ tw T = 2 * tb T.
Definition lowest (T : ctype) : Z := - 2 ^ (tb T - 1).
Lemma small_cases : forall T (P : ctype -> Prop), small T -> P (int8_on 16) -> P (int16_on 16) -> P (int8_on 32) -> P (int16_on 32) -> P T.
Proof. intros T P ((b & [-> | -> ] & [-> |[-> |[-> | -> ]]]) & S1 & S2) **; try assumption; discriminate. Qed.
Lemma prod_bound : forall m x y, 0 < m -> - m <= x < m -> - m <= y < m -> - (m * (m - 1)) <= x * y <= m * m /\ (x * y <= m * m - m \/ (x = - m /\ y = - m)).
Proof.
  intros m x y Hm Hx Hy. assert (L : forall a b, 0 <= a <= m -> 0 <= b <= m - 1 -> a * b <= m * (m - 1)) by (intros a b Ha Hb; apply Z.mul_le_mono_nonneg; lia).
  assert (F : m * (m - 1) = m * m - m) by ring.
  destruct (Z.lt_ge_cases x 0) as [X|X]; destruct (Z.lt_ge_cases y 0) as [Y|Y].
  - replace (x * y) with ((- x) * (- y)) by ring. assert (0 <= - x * - y) by (apply Z.mul_nonneg_nonneg; lia). assert (- x * - y <= m * m) by (apply Z.mul_le_mono_nonneg; lia).
    assert (0 <= m * (m - 1)) by (apply Z.mul_nonneg_nonneg; lia). split; [lia|].
    destruct (Z.eq_dec x (- m)) as [Ex|Ex]; [destruct (Z.eq_dec y (- m)) as [Ey|Ey]|]; [now right| |]; left; rewrite <- F.
    + apply L; lia.
    + rewrite Z.mul_comm. apply L; lia.
  - pose proof (L (- x) y ltac:(lia) ltac:(lia)) as B. assert (x * y <= 0) by (apply Z.mul_nonpos_nonneg; lia). assert (0 <= m * (m - 1)) by (apply Z.mul_nonneg_nonneg; lia).
    assert (- x * y = - (x * y)) by ring. split; [split; lia|left; lia].
  - pose proof (L (- y) x ltac:(lia) ltac:(lia)) as B. assert (x * y <= 0) by (apply Z.mul_nonneg_nonpos; lia). assert (0 <= m * (m - 1)) by (apply Z.mul_nonneg_nonneg; lia).
    assert (- y * x = - (x * y)) by ring. split; [split; lia|left; lia].
  - pose proof (L x y ltac:(lia) ltac:(lia)) as B. assert (0 <= x * y) by (apply Z.mul_nonneg_nonneg; lia). assert (0 <= m * (m - 1)) by (apply Z.mul_nonneg_nonneg; lia). split; [lia|left; lia].
Qed.
Lemma small_facts : forall T, small T -> exists m, 2 <= m /\ wide_max T = 2 * (m * m) - 1 /\ lowest T = - m /\ (forall x, isT T x <-> - m <= x < m) /\ m * m - 1 <= wide_max T.
Proof.
  intros T S. pattern T. apply (small_cases T _ S); [exists 128|exists 32768|exists 128|exists 32768]; (split; [lia|]); (split; [reflexivity|]); (split; [reflexivity|]); (split; [intro x; reflexivity|]); vm_compute; discriminate.
Qed.
(* the dot product of two vectors of int8_t or int16_t is exact, except that of (min, min) with itself, which is negative *)
Theorem C92_dot_products_are_exact_but_for_one : forall T a b, small T -> vecT T a -> vecT T b ->
  (a = (lowest T, lowest T) /\ b = (lowest T, lowest T) -> dot T a b < 0) /\
  (~ (a = (lowest T, lowest T) /\ b = (lowest T, lowest T)) -> dot T a b = fst a * fst b + snd a * snd b).
Proof.
  intros T [ax ay] [bx by_] S [Ha1 Ha2] [Hb1 Hb2]. split; [intros [-> -> ]; pattern T; apply (small_cases T _ S); vm_compute; reflexivity|].
  pose proof S as [V _]. destruct (small_facts T S) as (m & Hm & W & Lo & R & MW). cbn [fst snd] in *. apply R in Ha1, Ha2, Hb1, Hb2. rewrite Lo. intro N.
  destruct (prod_bound m ax bx) as [P1 P2]; [lia|lia|lia|]. destruct (prod_bound m ay by_) as [Q1 Q2]; [lia|lia|lia|].
  assert (F : m * (m - 1) = m * m - m) by ring. assert (G : 2 * m <= m * m) by (apply Z.mul_le_mono_nonneg_r; lia).
  unfold dot. cbn [fst snd]. rewrite !(toW_small T V ax), !(toW_small T V ay), !(toW_small T V bx), !(toW_small T V by_) by lia.
  assert (B : ax * bx + ay * by_ <= 2 * (m * m) - m).
  { destruct P2 as [P2|[P2 P3]]; [lia|]. destruct Q2 as [Q2|[Q2 Q3]]; [lia|]. elim N. split; congruence. }
  set (p := ax * bx) in *. set (q := ay * by_) in *. clearbody p q. rewrite (inW_small T V p), (inW_small T V q) by lia. rewrite (inW_small T V) by lia. apply toW_small; [exact V|lia].
Qed.
Example C92_dot_case : small (int16_on 32) /\ vecT (int16_on 32) (-32768, -32768) /\ dot (int16_on 32) (-32768, -32768) (-32768, -32767) = 2147450880 /\
  dot (int16_on 32) (-32768, -32768) (-32768, -32768) = -2147483648.
Proof. split; [split; [exists 32; tauto|split; reflexivity]|]. split; [split; split; vm_compute; (discriminate || reflexivity)|]. split; vm_compute; reflexivity. Qed.
(* and so is the square of the length *)
Theorem C92_squared_lengths_are_exact_but_for_one : forall T a, small T -> vecT T a ->
  (a = (lowest T, lowest T) -> getLengthSquared T a < 0) /\ (a <> (lowest T, lowest T) -> getLengthSquared T a = fst a * fst a + snd a * snd a).
Proof.
  intros T a S Ha. destruct (C92_dot_products_are_exact_but_for_one T a a S Ha Ha) as [D1 D2]. assert (E0 : getLengthSquared T a = dot T a a) by (unfold getLengthSquared, dot; reflexivity). rewrite E0. clear E0. split.
  - intro E. apply D1. now split.
  - intro N. apply D2. intros [E _]. contradiction.
Qed.
Example C92_squared_case : getLengthSquared (int8_on 32) (-128, -128) = -32768 /\ getLengthSquared (int8_on 32) (-128, -127) = 32513.
Proof. split; vm_compute; reflexivity. Qed.
(* the cross product is exact everywhere *)
Theorem C92_cross_products_are_exact : forall T a b, small T -> vecT T a -> vecT T b -> cross T a b = fst a * snd b - snd a * fst b.
Proof.
  intros T [ax ay] [bx by_] S [Ha1 Ha2] [Hb1 Hb2]. pose proof S as [V _]. destruct (small_facts T S) as (m & Hm & W & Lo & R & MW). cbn [fst snd] in *. apply R in Ha1, Ha2, Hb1, Hb2.
  destruct (prod_bound m ax by_) as [P1 P2]; [lia|lia|lia|]. destruct (prod_bound m ay bx) as [Q1 Q2]; [lia|lia|lia|].
  assert (F : m * (m - 1) = m * m - m) by ring. assert (G : 2 * m <= m * m) by (apply Z.mul_le_mono_nonneg_r; lia).
  unfold cross. cbn [fst snd]. rewrite !(toW_small T V ax), !(toW_small T V ay), !(toW_small T V bx), !(toW_small T V by_) by lia.
  set (p := ax * by_) in *. set (q := ay * bx) in *. clearbody p q. rewrite (inW_small T V p), (inW_small T V q) by lia. rewrite (inW_small T V) by lia. apply toW_small; [exact V|lia].
Qed.
Example C92_cross_case : small (int8_on 16) /\ vecT (int8_on 16) (-128, 127) /\ vecT (int8_on 16) (-128, -128) /\ cross (int8_on 16) (-128, 127) (-128, -128) = 32640.
Proof. split; [split; [exists 16; tauto|split; reflexivity]|]. split; [split; split; vm_compute; (discriminate || reflexivity)|]. split; [split; split; vm_compute; (discriminate || reflexivity)|]. vm_compute. reflexivity. Qed.
(* for uint8_t the wide type is too small *)
Theorem C92_lengths_of_uint8_vectors_refuted : exists T a, valid_type T /\ ts T = false /\ vecT T a /\ getLengthSquared T a <> fst a * fst a + snd a * snd a.
Proof. exists (uint8_on 32), (182, 0). split; [exists 32; tauto|]. split; [reflexivity|]. split; [split; split; vm_compute; (discriminate || reflexivity)|]. vm_compute. discriminate. Qed.
(* and for int32_t it is not wide at all *)
Theorem C92_lengths_of_int32_vectors_refuted : exists T a, valid_type T /\ tb T = 32 /\ vecT T a /\ near 46341 a (0, 0) /\ getLengthSquared T a < 0.
Proof.
  exists (int32_on 32), (46341, 0). split; [exists 32; tauto|]. split; [reflexivity|]. split; [split; split; vm_compute; (discriminate || reflexivity)|].
  split; [split; vm_compute; discriminate|]. vm_compute. reflexivity.
Qed.
(* ccw tells the orientation, and for points on a line where the third one is, as long as the points are within reach of each other *)
Theorem C92_ccw_tells_the_orientation : forall T a b c, valid_type T -> near (reach T) b a -> near (reach T) c a -> a <> b ->
  (ccw T a b c = 1 <-> 0 < area a b c \/ behind a b c) /\ (ccw T a b c = 0 <-> on_segment a b c) /\ (ccw T a b c = -1 <-> area a b c < 0 \/ before a b c).
Proof.
  intros T a b c V H1 H2 N. rewrite (ccw_exact T a b c V H1 H2). split; [now apply ccwz_behind|]. split; [apply ccwz_zero|now apply ccwz_before].
Qed.
Example C92_ccw_case : near (reach (int16_on 32)) (16383, 16000) (-16384, 100) /\ ccw (int16_on 32) (-16384, 100) (16383, 16000) (16383, 16001) = 1 /\
  ccw (int16_on 32) (0, 0) (10, 20) (15, 30) = 1 /\ ccw (int16_on 32) (0, 0) (10, 20) (5, 10) = 0 /\ ccw (int16_on 32) (0, 0) (10, 20) (-5, -10) = -1.
Proof. split; [split; vm_compute; discriminate|]. split; [|split; [|split]]; vm_compute; reflexivity. Qed.
(* farther apart the products overflow and ccw tells the opposite *)
Theorem C92_ccw_for_all_points_refuted : exists T a b c, small T /\ vecT T a /\ vecT T b /\ vecT T c /\ 0 < area a b c /\ ccw T a b c = -1.
Proof.
  exists (int16_on 32), (-32768, -32768), (32767, -32768), (0, 32767). split; [split; [exists 32; tauto|split; reflexivity]|].
  split; [split; split; vm_compute; (discriminate || reflexivity)|]. split; [split; split; vm_compute; (discriminate || reflexivity)|]. split; [split; split; vm_compute; (discriminate || reflexivity)|].
  split; vm_compute; reflexivity.
Qed.

(* --- C93: segments and rays --- *)
Theorem C93_intersects_says_whether_segments_meet : forall T s o, valid_type T -> all_near (reach T) [fst s; snd s; fst o; snd o] -> fst s <> snd s -> fst o <> snd o ->
  (intersects T s o = true <-> meet s o).
Proof. intros T s o V H N1 N2. exact (intersects_meet T s o V H N1 N2). Qed.
Lemma near4 : forall T a b c d, (forallb (fun x => forallb (fun y => (Z.abs (fst x - fst y) <=? reach T) && (Z.abs (snd x - snd y) <=? reach T)) [a; b; c; d]) [a; b; c; d]) = true ->
  all_near (reach T) [a; b; c; d].
Proof.
  intros T a b c d H x y Hx Hy. rewrite forallb_forall in H. specialize (H x Hx). rewrite forallb_forall in H. specialize (H y Hy). apply andb_true_iff in H. destruct H as [H1 H2].
  apply Z.leb_le in H1, H2. now split.
Qed.
Example C93_segments_case : let s := ((0, 0), (100, 100)) in let touching := ((50, 50), (120, 0)) in let collinear := ((100, 100), (120, 120)) in let apart := ((101, 101), (120, 120)) in
  all_near (reach (int8_on 32)) [fst s; snd s; fst touching; snd touching] /\
  intersects (int8_on 32) s touching = true /\ intersects (int8_on 32) s collinear = true /\ intersects (int8_on 32) s apart = false.
Proof. cbv zeta. split; [apply near4; vm_compute; reflexivity|]. split; [|split]; vm_compute; reflexivity. Qed.
(* a segment of length zero on the other one is not found *)
Theorem C93_intersects_for_points_refuted : exists T s o, valid_type T /\ all_near (reach T) [fst s; snd s; fst o; snd o] /\ meet s o /\ intersects T s o = false.
Proof.
  exists (int16_on 32), ((5, 5), (5, 5)), ((0, 0), (10, 10)). split; [exists 32; tauto|]. split; [apply near4; vm_compute; reflexivity|].
  split; [exists 2, 0, 1; vm_compute; repeat split; discriminate|vm_compute; reflexivity].
Qed.
(* long segments which cross are missed *)
Theorem C93_intersects_for_all_segments_refuted : exists T s o, small T /\ vecT T (fst s) /\ vecT T (snd s) /\ vecT T (fst o) /\ vecT T (snd o) /\ fst s <> snd s /\ fst o <> snd o /\
  meet s o /\ intersects T s o = false.
Proof.
  exists (int16_on 32), ((-23500, -22500), (23500, 22500)), ((-22500, 23500), (22500, -23500)). split; [split; [exists 32; tauto|split; reflexivity]|].
  split; [split; split; vm_compute; (discriminate || reflexivity)|]. split; [split; split; vm_compute; (discriminate || reflexivity)|].
  split; [split; split; vm_compute; (discriminate || reflexivity)|]. split; [split; split; vm_compute; (discriminate || reflexivity)|].
  split; [discriminate|]. split; [discriminate|]. split; [exists 2, 1, 1; vm_compute; repeat split; discriminate|vm_compute; reflexivity].
Qed.
(* a ray: found exactly when it goes through the inside of the segment, from one side to the other *)
Theorem C93_ray_intersects_says_whether_it_crosses : forall T base dir s e, valid_type T -> ts T = true -> all_near (ray_reach T) [base; s; e] -> near (ray_reach T) dir (0, 0) ->
  (ray_intersects T base dir (s, e) = true <-> ray_crosses base dir (s, e)).
Proof.
  intros T base dir s e V S N D. rewrite (ray_exact T base dir s e V S N D). rewrite <- ray_meaning.
  set (p := crossz (fst s - fst base, snd s - snd base) dir * crossz (fst e - fst base, snd e - snd base) dir).
  set (q := crossz (fst base - fst s, snd base - snd s) (fst e - fst s, snd e - snd s) * crossz dir (fst e - fst s, snd e - snd s)).
  destruct (Z.ltb_spec p 0); [rewrite Z.ltb_lt; tauto|]. split; [discriminate|lia].
Qed.
Example C93_ray_case : all_near (ray_reach (int16_on 32)) [(0, 0); (100, 50); (50, 100)] /\ near (ray_reach (int16_on 32)) (1, 1) (0, 0) /\
  ray_intersects (int16_on 32) (0, 0) (1, 1) ((100, 50), (50, 100)) = true /\ ray_intersects (int16_on 32) (0, 0) (-1, -1) ((100, 50), (50, 100)) = false /\
  ray_intersects (int16_on 32) (0, 0) (3, 1) ((100, 50), (50, 100)) = false.
Proof.
  split; [|split; [split; vm_compute; discriminate|split; [|split]; vm_compute; reflexivity]]. intros x y Hx Hy. cbn in Hx, Hy.
  destruct Hx as [<-|[<-|[<-|[]]]]; destruct Hy as [<-|[<-|[<-|[]]]]; (split; vm_compute; discriminate).
Qed.
(* already with coordinates of some hundreds the products of two dot products overflow *)
Theorem C93_ray_intersects_for_all_rays_refuted : exists T base dir s e, small T /\ all_near 250 [base; s; e] /\ near 250 dir (0, 0) /\ ray_crosses base dir (s, e) /\ ray_intersects T base dir (s, e) = false.
Proof.
  exists (int16_on 32), (0, 0), (200, 0), (200, -150), (200, 100). split; [split; [exists 32; tauto|split; reflexivity]|].
  split; [intros x y Hx Hy; cbn in Hx, Hy; destruct Hx as [<-|[<-|[<-|[]]]]; destruct Hy as [<-|[<-|[<-|[]]]]; (split; vm_compute; discriminate)|].
  split; [split; vm_compute; discriminate|]. split; [exists 5, 5, 3; vm_compute; repeat split; discriminate|vm_compute; reflexivity].
Qed.

(* --- C94: polygons --- *)
Theorem C94_isInside_says_whether_the_point_is_in_the_convex_polygon : forall T o p v, valid_type T -> convex o p -> all_near (reach T) (v :: p) -> (isInside T p v = true <-> inside o p v).
Proof. intros T o p v V C N. exact (isInside_convex T o p v V C N). Qed.
Lemma all_near_dec : forall d l, forallb (fun x => forallb (fun y => (Z.abs (fst x - fst y) <=? d) && (Z.abs (snd x - snd y) <=? d)) l) l = true -> all_near d l.
Proof.
  intros d l H x y Hx Hy. rewrite forallb_forall in H. specialize (H x Hx). rewrite forallb_forall in H. specialize (H y Hy). apply andb_true_iff in H. destruct H as [H1 H2].
  apply Z.leb_le in H1, H2. now split.
Qed.
Lemma convex_dec : forall o p, (o = 1 \/ o = -1) -> (3 <= length p)%nat ->
  forallb (fun i => forallb (fun j => 0 <=? o * area (vertex p i) (vertex p (S i)) (vertex p j)) (seq 0 (length p)) && (0 <? o * area (vertex p i) (vertex p (S i)) (vertex p (S (S i))))) (seq 0 (length p)) = true -> convex o p.
Proof.
  intros o p Ho Hl H. rewrite forallb_forall in H. assert (Np : p <> []) by (intros ->; cbn in Hl; lia). assert (Nl : length p <> 0%nat) by lia.
  assert (M : forall i, In (Nat.modulo i (length p)) (seq 0 (length p))) by (intro i; apply in_seq; pose proof (Nat.mod_upper_bound i (length p) Nl); lia).
  assert (V1 : forall i, vertex p (S (Nat.modulo i (length p))) = vertex p (S i)).
  { intro i. rewrite <- (vertex_mod p (S i) Np), <- (vertex_mod p (S _) Np). f_equal. rewrite <- (Nat.add_1_r (Nat.modulo i _)), <- (Nat.add_1_r i). now apply Nat.add_mod_idemp_l. }
  assert (V2 : forall i, vertex p (S (S (Nat.modulo i (length p)))) = vertex p (S (S i))).
  { intro i. rewrite <- (vertex_mod p (S (S i)) Np), <- (vertex_mod p (S (S _)) Np). f_equal. change (S (S (Nat.modulo i (length p)))) with (2 + Nat.modulo i (length p))%nat. change (S (S i)) with (2 + i)%nat. now apply Nat.add_mod_idemp_r. }
  split; [exact Ho|]. split; [exact Hl|]. split.
  - intros i j. specialize (H _ (M i)). apply andb_true_iff in H. destruct H as [H _]. rewrite forallb_forall in H. specialize (H _ (M j)). apply Z.leb_le in H. rewrite V1, !vertex_mod in H by exact Np. exact H.
  - intros i. specialize (H _ (M i)). apply andb_true_iff in H. destruct H as [_ H]. apply Z.ltb_lt in H. rewrite V1, V2, !vertex_mod in H by exact Np. exact H.
Qed.
Example C94_isInside_case : let p := [(0, 0); (40, 0); (50, 30); (20, 60); (-10, 30)] in
  convex 1 p /\ convex (-1) (rev p) /\ all_near (reach (int8_on 32)) ((60, 0) :: p) /\
  isInside (int8_on 32) p (20, 20) = true /\ isInside (int8_on 32) p (30, 0) = true /\ isInside (int8_on 32) p (60, 0) = false /\ isInside (int8_on 32) p (-5, 0) = false /\
  isInside (int8_on 32) (rev p) (20, 20) = true /\ isInside (int8_on 32) (rev p) (60, 0) = false.
Proof.
  cbv zeta. split; [apply convex_dec; [tauto|cbn; lia|vm_compute; reflexivity]|]. split; [apply convex_dec; [tauto|cbn; lia|vm_compute; reflexivity]|].
  split; [apply all_near_dec; vm_compute; reflexivity|]. split; [|split; [|split; [|split; [|split]]]]; vm_compute; reflexivity.
Qed.
(* a repeated vertex, harmless in a counter-clockwise polygon, hides the inside of a clockwise one *)
Theorem C94_isInside_with_a_repeated_vertex_refuted : exists T p v, valid_type T /\ convex (-1) p /\ all_near (reach T) (v :: p) /\ inside (-1) p v /\
  isInside T p v = true /\ isInside T (p ++ [last p (0, 0)]) v = false.
Proof.
  exists (int16_on 32), [(0, 0); (0, 10); (10, 10); (10, 0)], (5, 5). split; [exists 32; tauto|]. assert (C : convex (-1) [(0, 0); (0, 10); (10, 10); (10, 0)]) by (apply convex_dec; [tauto|cbn; lia|vm_compute; reflexivity]).
  assert (N : all_near (reach (int16_on 32)) [(5, 5); (0, 0); (0, 10); (10, 10); (10, 0)]) by (apply all_near_dec; vm_compute; reflexivity).
  split; [exact C|]. split; [exact N|]. split; [|split; vm_compute; reflexivity].
  apply (isInside_convex (int16_on 32)); [exists 32; tauto|exact C|exact N|vm_compute; reflexivity].
Qed.
(* two polygons, or a polygon and a segment, intersect when a side of one meets a side of the other *)
Theorem C94_polygons_intersect_when_their_sides_meet : forall T p q, valid_type T -> p <> [] -> q <> [] -> all_near (reach T) (p ++ q) ->
  (forall i, vertex p i <> vertex p (S i)) -> (forall i, vertex q i <> vertex q (S i)) -> (polygon_intersects T p q = true <-> exists i j, meet (side p i) (side q j)).
Proof.
  intros T p q V Np Nq N Dp Dq.
  assert (E : forall i j, intersects T (side p i) (side q j) = true <-> meet (side p i) (side q j)).
  { intros i j. apply intersects_meet; [exact V| |apply Dp|apply Dq]. intros x y Hx Hy. assert (I1 : forall z, In z [fst (side p i); snd (side p i); fst (side q j); snd (side q j)] -> In z (p ++ q)).
    { intros z Hz. apply in_or_app. cbn [In side fst snd] in Hz. destruct Hz as [<-|[<-|[<-|[<-|[]]]]]; [left|left|right|right]; now apply vertex_in. }
    apply N; now apply I1. }
  unfold polygon_intersects. rewrite existsb_edges. split.
  - intros (_ & i & H). apply existsb_edges in H. destruct H as (_ & j & H). exists i, j. now apply E.
  - intros (i & j & H). split; [exact Np|]. exists i. apply existsb_edges. split; [exact Nq|]. exists j. now apply E.
Qed.
Theorem C94_a_segment_intersects_a_polygon_when_it_meets_a_side : forall T p s, valid_type T -> p <> [] -> all_near (reach T) (fst s :: snd s :: p) -> fst s <> snd s ->
  (forall i, vertex p i <> vertex p (S i)) -> (polygon_intersects_segment T p s = true <-> exists i, meet s (side p i)).
Proof.
  intros T p s V Np N Ds Dp.
  assert (E : forall i, intersects T s (side p i) = true <-> meet s (side p i)).
  { intros i. apply intersects_meet; [exact V| |exact Ds|apply Dp]. intros x y Hx Hy. assert (I1 : forall z, In z [fst s; snd s; fst (side p i); snd (side p i)] -> In z (fst s :: snd s :: p)).
    { intros z Hz. cbn [In side fst snd] in Hz. destruct Hz as [<-|[<-|[<-|[<-|[]]]]]; [now left|right; now left|right; right|right; right]; now apply vertex_in. }
    apply N; now apply I1. }
  unfold polygon_intersects_segment. rewrite existsb_edges. split.
  - intros (_ & i & H). exists i. now apply E.
  - intros (i & H). split; [exact Np|]. exists i. now apply E.
Qed.
Lemma sides_dec : forall p, p <> [] -> forallb (fun i => negb ((fst (vertex p i) =? fst (vertex p (S i))) && (snd (vertex p i) =? snd (vertex p (S i))))) (seq 0 (length p)) = true ->
  forall i, vertex p i <> vertex p (S i).
Proof.
  intros p Np H i E. rewrite forallb_forall in H. assert (Nl : length p <> 0%nat) by (destruct p; [congruence|discriminate]).
  specialize (H (Nat.modulo i (length p))). assert (M : In (Nat.modulo i (length p)) (seq 0 (length p))) by (apply in_seq; pose proof (Nat.mod_upper_bound i (length p) Nl); lia).
  specialize (H M). pose proof (side_mod p i Np) as Q. unfold side in Q. injection Q as Q1 Q2. rewrite Q1, Q2, E, !Z.eqb_refl in H. discriminate H.
Qed.
Example C94_polygons_case : let p := [(0, 0); (40, 0); (40, 40); (0, 40)] in let q := [(30, 30); (60, 30); (60, 60)] in let r := [(10, 10); (20, 10); (15, 20)] in
  all_near (reach (int8_on 32)) (p ++ q) /\ (forall i, vertex p i <> vertex p (S i)) /\ (forall i, vertex q i <> vertex q (S i)) /\ (forall i, vertex r i <> vertex r (S i)) /\
  polygon_intersects (int8_on 32) p q = true /\ polygon_intersects (int8_on 32) p r = false /\ polygon_intersects_segment (int8_on 32) p ((20, 20), (20, 60)) = true.
Proof.
  cbv zeta. split; [apply all_near_dec; vm_compute; reflexivity|]. split; [apply sides_dec; [discriminate|vm_compute; reflexivity]|]. split; [apply sides_dec; [discriminate|vm_compute; reflexivity]|].
  split; [apply sides_dec; [discriminate|vm_compute; reflexivity]|]. split; [|split]; vm_compute; reflexivity.
Qed.
(* a ray is said to intersect a polygon when it crosses the inside of a side *)
Theorem C94_a_ray_intersects_a_polygon_when_it_crosses_a_side : forall T p base dir, valid_type T -> ts T = true -> p <> [] -> all_near (ray_reach T) (base :: p) -> near (ray_reach T) dir (0, 0) ->
  (polygon_intersects_ray T p base dir = true <-> exists i, ray_crosses base dir (side p i)).
Proof.
  intros T p base dir V S Np N D.
  assert (E : forall i, ray_intersects T base dir (side p i) = true <-> ray_crosses base dir (side p i)).
  { intros i. unfold side. apply C93_ray_intersects_says_whether_it_crosses; [exact V|exact S| |exact D]. intros x y Hx Hy.
    assert (I1 : forall z, In z [base; vertex p i; vertex p (Datatypes.S i)] -> In z (base :: p)).
    { intros z Hz. cbn [In] in Hz. destruct Hz as [<-|[<-|[<-|[]]]]; [now left|right|right]; now apply vertex_in. }
    apply N; now apply I1. }
  unfold polygon_intersects_ray. rewrite existsb_edges. split.
  - intros (_ & i & H). exists i. now apply E.
  - intros (i & H). split; [exact Np|]. exists i. now apply E.
Qed.
Example C94_ray_case : let p := [(0, 0); (40, 0); (40, 40); (0, 40)] in all_near (ray_reach (int16_on 32)) ((-20, 5) :: p) /\ near (ray_reach (int16_on 32)) (7, 1) (0, 0) /\ polygon_intersects_ray (int16_on 32) p (-20, 5) (7, 1) = true /\ polygon_intersects_ray (int16_on 32) p (-20, 5) (-7, -1) = false /\ polygon_intersects_ray (int16_on 32) p (20, 20) (1, 1) = false.
Proof. cbv zeta. split; [apply all_near_dec; vm_compute; reflexivity|]. split; [split; vm_compute; discriminate|]. split; [|split]; vm_compute; reflexivity. Qed.
(* a ray through the middle of a polygon is missed when it goes through the vertices *)
Theorem C94_a_ray_intersects_a_polygon_refuted : exists T p base dir v, valid_type T /\ convex 1 p /\ inside 1 p v /\ all_near (ray_reach T) (base :: p) /\ near (ray_reach T) dir (0, 0) /\
  v = (fst base + fst dir, snd base + snd dir) /\ (exists i, ray_meets base dir (side p i)) /\ polygon_intersects_ray T p base dir = false.
Proof.
  exists (int16_on 32), [(10, 0); (20, 10); (10, 20); (0, 10)], (-10, 10), (20, 0), (10, 10). split; [exists 32; tauto|].
  assert (C : convex 1 [(10, 0); (20, 10); (10, 20); (0, 10)]) by (apply convex_dec; [tauto|cbn; lia|vm_compute; reflexivity]). split; [exact C|].
  split; [apply (isInside_convex (int16_on 32)); [exists 32; tauto|exact C|apply all_near_dec; vm_compute; reflexivity|vm_compute; reflexivity]|].
  split; [apply all_near_dec; vm_compute; reflexivity|]. split; [split; vm_compute; discriminate|]. split; [reflexivity|].
  split; [exists 0%nat, 2, 3, 2; vm_compute; repeat split; discriminate|vm_compute; reflexivity].
Qed.

Print Assumptions C92_dot_products_are_exact_but_for_one.
Print Assumptions C92_squared_lengths_are_exact_but_for_one.
Print Assumptions C92_cross_products_are_exact.
Print Assumptions C92_lengths_of_uint8_vectors_refuted.
Print Assumptions C92_lengths_of_int32_vectors_refuted.
Print Assumptions C92_ccw_tells_the_orientation.
Print Assumptions C92_ccw_for_all_points_refuted.
Print Assumptions C93_intersects_says_whether_segments_meet.
Print Assumptions C93_intersects_for_points_refuted.
Print Assumptions C93_intersects_for_all_segments_refuted.
Print Assumptions C93_ray_intersects_says_whether_it_crosses.
Print Assumptions C93_ray_intersects_for_all_rays_refuted.
Print Assumptions C94_isInside_says_whether_the_point_is_in_the_convex_polygon.
Print Assumptions C94_isInside_with_a_repeated_vertex_refuted.
Print Assumptions C94_polygons_intersect_when_their_sides_meet.
Print Assumptions C94_a_segment_intersects_a_polygon_when_it_meets_a_side.
Print Assumptions C94_a_ray_intersects_a_polygon_when_it_crosses_a_side.
Print Assumptions C94_a_ray_intersects_a_polygon_refuted.
