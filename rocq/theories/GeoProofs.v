(* Proofs about the integer geometry. *)
From Verif Require Import Base GeoModel GeoSpec.
Local Open Scope Z_scope.

(* --- exact arithmetic --- *)
Lemma sw16 : forall x, -32768 <= x <= 32767 -> swrap 16 x = x.
Proof. intros x H. apply swrap_small; [change (2 ^ (16 - 1)) with 32768|]; lia. Qed.
Lemma sw32 : forall x, -2147483648 <= x <= 2147483647 -> swrap 32 x = x.
Proof. intros x H. apply swrap_small; [change (2 ^ (32 - 1)) with 2147483648|]; lia. Qed.
Lemma sw8 : forall x, -128 <= x <= 127 -> swrap 8 x = x.
Proof. intros x H. apply swrap_small; [change (2 ^ (8 - 1)) with 128|]; lia. Qed.
Lemma valid_cases : forall T (P : ctype -> Prop), valid_type T -> P (int8_on 16) -> P (uint8_on 16) -> P (int16_on 16) -> P (int32_on 16) ->
  P (int8_on 32) -> P (uint8_on 32) -> P (int16_on 32) -> P (int32_on 32) -> P T.
Proof. intros T P (b & [-> | -> ] & [-> |[-> |[-> | -> ]]]) **; assumption. Qed.
(* the numbers which WideType and the promoted types hold *)
Definition wide_max (T : ctype) : Z := if tw T =? 16 then 32767 else 2147483647.
Lemma toW_small : forall T, valid_type T -> forall x, - wide_max T <= x <= wide_max T -> toW T x = x.
Proof. intros T V. pattern T. apply (valid_cases T _ V); intros x H; unfold toW, wide_max in *; cbn in H |- *; (apply sw16 || apply sw32); lia. Qed.
Lemma inW_small : forall T, valid_type T -> forall x, - wide_max T <= x <= wide_max T -> inW T x = x.
Proof.
  intros T V. pattern T. apply (valid_cases T _ V); intros x H; unfold inW, wide_max in *; cbn [tw ib int8_on uint8_on int16_on int32_on Z.eqb Pos.eqb] in *;
    (change (Z.max 16 16) with 16 || change (Z.max 16 32) with 32 || change (Z.max 32 16) with 32 || change (Z.max 32 32) with 32); (apply sw16 || apply sw32); lia.
Qed.
(* differences within reach *)
Lemma inT_small : forall T, valid_type T -> forall x, Z.abs x <= reach T -> inT T x = x.
Proof.
  intros T V. pattern T. apply (valid_cases T _ V); intros x H; unfold inT, reach in *; cbn [tw tb ib int8_on uint8_on int16_on int32_on Z.eqb Pos.eqb] in *;
    (change (Z.max 16 8) with 16 || change (Z.max 16 16) with 16 || change (Z.max 16 32) with 32 || change (Z.max 32 8) with 32 || change (Z.max 32 16) with 32 || change (Z.max 32 32) with 32);
    (apply sw16 || apply sw32); lia.
Qed.
Lemma reach_square : forall T x y, valid_type T -> Z.abs x <= reach T -> Z.abs y <= reach T -> - wide_max T <= 2 * (x * y) <= wide_max T.
Proof.
  intros T x y V Hx Hy. assert (Q : 2 * (reach T * reach T) <= wide_max T) by (pattern T; apply (valid_cases T _ V); vm_compute; discriminate).
  assert (0 <= reach T) by lia. assert (A : Z.abs (x * y) <= reach T * reach T) by (rewrite Z.abs_mul; apply Z.mul_le_mono_nonneg; lia). lia.
Qed.
Lemma reach_wide : forall T x, valid_type T -> Z.abs x <= reach T -> - wide_max T <= x <= wide_max T.
Proof. intros T x V. pattern T. apply (valid_cases T _ V); unfold reach, wide_max; cbn; lia. Qed.

(* ccw without wrap-around *)
Definition ccwz (a b c : vec) : Z :=
  let dx1 := fst b - fst a in let dy1 := snd b - snd a in let dx2 := fst c - fst a in let dy2 := snd c - snd a in
  if dx1 * dy2 >? dy1 * dx2 then 1 else if dx1 * dy2 <? dy1 * dx2 then -1
  else if (dx1 * dx2 <? 0) || (dy1 * dy2 <? 0) then -1
  else if dx1 * dx1 + dy1 * dy1 >=? dx2 * dx2 + dy2 * dy2 then 0 else 1.
Lemma ccw_exact : forall T a b c, valid_type T -> near (reach T) b a -> near (reach T) c a -> ccw T a b c = ccwz a b c.
Proof.
  intros T [ax ay] [bx by_] [cx cy] V [H1 H2] [H3 H4]. unfold ccw, ccwz. cbn [fst snd] in *.
  rewrite !(inT_small T V) by assumption. rewrite !(toW_small T V (bx - ax)), !(toW_small T V (by_ - ay)), !(toW_small T V (cx - ax)), !(toW_small T V (cy - ay)) by (apply reach_wide; assumption).
  pose proof (reach_square T _ _ V H1 H4) as S1. pose proof (reach_square T _ _ V H2 H3) as S2. pose proof (reach_square T _ _ V H1 H3) as S3. pose proof (reach_square T _ _ V H2 H4) as S4.
  pose proof (reach_square T _ _ V H1 H1) as S5. pose proof (reach_square T _ _ V H2 H2) as S6. pose proof (reach_square T _ _ V H3 H3) as S7. pose proof (reach_square T _ _ V H4 H4) as S8.
  set (p1 := (bx - ax) * (cy - ay)) in *. set (p2 := (by_ - ay) * (cx - ax)) in *. set (p3 := (bx - ax) * (cx - ax)) in *. set (p4 := (by_ - ay) * (cy - ay)) in *.
  set (p5 := (bx - ax) * (bx - ax)) in *. set (p6 := (by_ - ay) * (by_ - ay)) in *. set (p7 := (cx - ax) * (cx - ax)) in *. set (p8 := (cy - ay) * (cy - ay)) in *.
  clearbody p1 p2 p3 p4 p5 p6 p7 p8. clear H1 H2 H3 H4.
  rewrite !(inW_small T V p1), !(inW_small T V p2), !(inW_small T V p3), !(inW_small T V p4), !(inW_small T V p5), !(inW_small T V p6), !(inW_small T V p7), !(inW_small T V p8) by lia.
  rewrite !(toW_small T V p1), !(toW_small T V p2) by lia. rewrite !(inW_small T V (p5 + p6)), !(inW_small T V (p7 + p8)) by lia. reflexivity.
Qed.

(* --- the meaning of ccwz --- *)
Definition len2 (a b : vec) : Z := (fst b - fst a) * (fst b - fst a) + (snd b - snd a) * (snd b - snd a).
Definition along (a b c : vec) : Z := (fst b - fst a) * (fst c - fst a) + (snd b - snd a) * (snd c - snd a).
Lemma sq_pos : forall x, x <> 0 -> 0 < x * x.
Proof. intros x H. assert (C : x < 0 \/ 0 < x) by lia. destruct C; [now apply Z.mul_neg_neg|now apply Z.mul_pos_pos]. Qed.
Lemma sq_nonneg : forall x, 0 <= x * x. Proof. intros x. apply Z.square_nonneg. Qed.
Lemma len2_pos : forall a b, a <> b -> 0 < len2 a b.
Proof.
  intros [ax ay] [bx by_] N. unfold len2. cbn [fst snd].
  assert (H : bx - ax <> 0 \/ by_ - ay <> 0). { destruct (Z.eq_dec (bx - ax) 0); [|now left]. right. intro. apply N. f_equal; lia. }
  pose proof (sq_nonneg (bx - ax)). pose proof (sq_nonneg (by_ - ay)). destruct H as [H|H]; apply sq_pos in H; lia.
Qed.
Lemma len2_nonneg : forall a b, 0 <= len2 a b. Proof. intros. unfold len2. pose proof (sq_nonneg (fst b - fst a)). pose proof (sq_nonneg (snd b - snd a)). lia. Qed.
Lemma line_point : forall a b c, area a b c = 0 -> len2 a b * (fst c - fst a) = along a b c * (fst b - fst a) /\ len2 a b * (snd c - snd a) = along a b c * (snd b - snd a).
Proof.
  intros a b c H. unfold area, len2, along in *. set (x := fst b - fst a) in *. set (y := snd b - snd a) in *. set (u := fst c - fst a) in *. set (v := snd c - snd a) in *.
  clearbody x y u v. split.
  - transitivity (x * (x * u) + y * (y * u)); [ring|]. replace (y * u) with (x * v) by lia. ring.
  - transitivity (x * (x * v) + y * (y * v)); [ring|]. replace (x * v) with (y * u) by lia. ring.
Qed.
Lemma ccwz_pos : forall a b c, 0 < area a b c -> ccwz a b c = 1.
Proof. intros a b c H. unfold ccwz, area in *. rewrite (proj2 (Z.gtb_lt _ _)) by lia. reflexivity. Qed.
Lemma ccwz_neg : forall a b c, area a b c < 0 -> ccwz a b c = -1.
Proof.
  intros a b c H. unfold ccwz, area in *. set (p := (fst b - fst a) * (snd c - snd a)) in *. set (q := (snd b - snd a) * (fst c - fst a)) in *.
  rewrite Z.gtb_ltb. destruct (Z.ltb_spec q p); [lia|]. destruct (Z.ltb_spec p q); [reflexivity|lia].
Qed.
Lemma ccwz_line : forall a b c, area a b c = 0 -> a <> b -> ccwz a b c = if along a b c <? 0 then -1 else if along a b c <=? len2 a b then 0 else 1.
Proof.
  intros a b c H N. destruct (line_point a b c H) as [Lx Ly]. pose proof (len2_pos a b N) as LP. unfold ccwz. unfold area in H.
  unfold len2, along in *. set (x := fst b - fst a) in *. set (y := snd b - snd a) in *. set (u := fst c - fst a) in *. set (v := snd c - snd a) in *.
  rewrite Z.gtb_ltb. replace (y * u <? x * v) with false by (symmetry; apply Z.ltb_ge; lia). replace (x * v <? y * u) with false by (symmetry; apply Z.ltb_ge; lia).
  clearbody x y u v. set (L := x * x + y * y) in *. set (t := x * u + y * v) in *. 
  assert (X : L * (x * u) = t * (x * x)) by (transitivity (x * (L * u)); [ring|rewrite Lx; ring]).
  assert (Y : L * (y * v) = t * (y * y)) by (transitivity (y * (L * v)); [ring|rewrite Ly; ring]).
  assert (XX : 0 <= x * x) by apply sq_nonneg. assert (YY : 0 <= y * y) by apply sq_nonneg.
  assert (Q : L * (u * u + v * v) = t * t). { transitivity (u * (L * u) + v * (L * v)); [ring|]. rewrite Lx, Ly. unfold t. ring. }
  destruct (Z.ltb_spec t 0) as [T0|T0].
  - assert (C : (x * u <? 0) || (y * v <? 0) = true); [|now rewrite C].
    apply orb_true_iff. destruct (Z.ltb_spec (x * u) 0); [now left|]. destruct (Z.ltb_spec (y * v) 0); [now right|]. unfold t in T0. lia.
  - assert (C : (x * u <? 0) || (y * v <? 0) = false).
    { apply orb_false_iff. split; apply Z.ltb_ge; nia. }
    rewrite C. rewrite Z.geb_leb. destruct (Z.leb_spec t L) as [TL|TL].
    + replace (u * u + v * v <=? L) with true; [reflexivity|]. symmetry. apply Z.leb_le. nia.
    + replace (u * u + v * v <=? L) with false; [reflexivity|]. symmetry. apply Z.leb_gt. nia.
Qed.
Lemma ccwz_point : forall a c, ccwz a a c = if (fst c =? fst a) && (snd c =? snd a) then 0 else 1.
Proof.
  intros [ax ay] [cx cy]. unfold ccwz. cbn [fst snd]. rewrite !Z.sub_diag. cbn [Z.mul Z.add Z.gtb Z.ltb Z.compare orb].
  destruct (Z.eqb_spec cx ax) as [-> |]; destruct (Z.eqb_spec cy ay) as [-> |]; cbn [andb]; rewrite ?Z.sub_diag; rewrite Z.geb_leb;
    [reflexivity| | | ]; (destruct (Z.leb_spec ((cx - ax) * (cx - ax) + (cy - ay) * (cy - ay)) 0) || destruct (Z.leb_spec (0 * 0 + (cy - ay) * (cy - ay)) 0) || destruct (Z.leb_spec ((cx - ax) * (cx - ax) + 0 * 0) 0)); try reflexivity; exfalso; nia.
Qed.
Lemma on_segment_area : forall a b p, on_segment a b p -> area a b p = 0.
Proof.
  intros a b p (n & t & Hn & _ & Ex & Ey). unfold area. set (x := fst b - fst a) in *. set (y := snd b - snd a) in *. set (u := fst p - fst a) in *. set (v := snd p - snd a) in *.
  clearbody x y u v. assert (n * (x * v - y * u) = 0); [|nia]. transitivity (x * (n * v) - y * (n * u)); [ring|]. rewrite Ex, Ey. ring.
Qed.
Lemma param_along : forall a b p n t, n * (fst p - fst a) = t * (fst b - fst a) -> n * (snd p - snd a) = t * (snd b - snd a) -> n * along a b p = t * len2 a b.
Proof.
  intros a b p n t Ex Ey. unfold along, len2. set (x := fst b - fst a) in *. set (y := snd b - snd a) in *. set (u := fst p - fst a) in *. set (v := snd p - snd a) in *.
  clearbody x y u v. transitivity (x * (n * u) + y * (n * v)); [ring|]. rewrite Ex, Ey. ring.
Qed.
Lemma on_segment_along : forall a b p, on_segment a b p -> 0 <= along a b p <= len2 a b.
Proof.
  intros a b p (n & t & Hn & Ht & Ex & Ey). pose proof (param_along a b p n t Ex Ey) as E. pose proof (len2_nonneg a b) as L. nia.
Qed.
Lemma along_on_segment : forall a b p, a <> b -> area a b p = 0 -> 0 <= along a b p <= len2 a b -> on_segment a b p.
Proof. intros a b p N A H. destruct (line_point a b p A) as [Ex Ey]. exists (len2 a b), (along a b p). split; [now apply len2_pos|]. now split. Qed.
Lemma ccwz_zero : forall a b c, ccwz a b c = 0 <-> on_segment a b c.
Proof.
  intros a b c. destruct (Z.eq_dec (fst a) (fst b)) as [E1|E1]; [destruct (Z.eq_dec (snd a) (snd b)) as [E2|E2]|].
  - assert (a = b) by (destruct a, b; cbn in *; congruence). subst b. rewrite ccwz_point. split.
    + intro H. exists 1, 0. destruct (Z.eqb_spec (fst c) (fst a)), (Z.eqb_spec (snd c) (snd a)); cbn [andb] in H; try discriminate. lia.
    + intros (n & t & Hn & _ & Ex & Ey). rewrite Z.sub_diag, Z.mul_0_r in Ex, Ey. apply Z.mul_eq_0 in Ex, Ey.
      rewrite (proj2 (Z.eqb_eq (fst c) (fst a))), (proj2 (Z.eqb_eq (snd c) (snd a))) by lia. reflexivity.
  - assert (N : a <> b) by congruence. split.
    + intro H. destruct (Z.lt_trichotomy (area a b c) 0) as [A|[A|A]]; [rewrite ccwz_neg in H by exact A; discriminate| |rewrite ccwz_pos in H by exact A; discriminate].
      rewrite ccwz_line in H by assumption. destruct (Z.ltb_spec (along a b c) 0); [discriminate|]. destruct (Z.leb_spec (along a b c) (len2 a b)); [|discriminate].
      apply along_on_segment; [assumption|assumption|lia].
    + intro H. rewrite ccwz_line by (try apply on_segment_area; assumption). pose proof (on_segment_along a b c H).
      destruct (Z.ltb_spec (along a b c) 0); [lia|]. destruct (Z.leb_spec (along a b c) (len2 a b)); [reflexivity|lia].
  - assert (N : a <> b) by congruence. split.
    + intro H. destruct (Z.lt_trichotomy (area a b c) 0) as [A|[A|A]]; [rewrite ccwz_neg in H by exact A; discriminate| |rewrite ccwz_pos in H by exact A; discriminate].
      rewrite ccwz_line in H by assumption. destruct (Z.ltb_spec (along a b c) 0); [discriminate|]. destruct (Z.leb_spec (along a b c) (len2 a b)); [|discriminate].
      apply along_on_segment; [assumption|assumption|lia].
    + intro H. rewrite ccwz_line by (try apply on_segment_area; assumption). pose proof (on_segment_along a b c H).
      destruct (Z.ltb_spec (along a b c) 0); [lia|]. destruct (Z.leb_spec (along a b c) (len2 a b)); [reflexivity|lia].
Qed.
Lemma ccwz_cases : forall a b c, ccwz a b c = 1 \/ ccwz a b c = 0 \/ ccwz a b c = -1.
Proof.
  intros a b c. unfold ccwz. repeat match goal with |- context [if ?e then _ else _] => destruct e end; tauto.
Qed.
Lemma ccwz_behind : forall a b c, a <> b -> (ccwz a b c = 1 <-> 0 < area a b c \/ behind a b c).
Proof.
  intros a b c N. pose proof (len2_pos a b N) as LP. split.
  - intro H. destruct (Z.lt_trichotomy (area a b c) 0) as [A|[A|A]]; [rewrite ccwz_neg in H by exact A; discriminate| |now left]. right.
    rewrite ccwz_line in H by assumption. destruct (Z.ltb_spec (along a b c) 0); [discriminate|]. destruct (Z.leb_spec (along a b c) (len2 a b)); [discriminate|].
    destruct (line_point a b c A) as [Ex Ey]. exists (len2 a b), (along a b c). split; [exact LP|]. split; [lia|]. now split.
  - intros [H|(n & t & Hn & Ht & Ex & Ey)]; [now apply ccwz_pos|].
    assert (A : area a b c = 0). { unfold area. set (x := fst b - fst a) in *. set (y := snd b - snd a) in *. set (u := fst c - fst a) in *. set (v := snd c - snd a) in *.
      clearbody x y u v. assert (n * (x * v - y * u) = 0); [|nia]. transitivity (x * (n * v) - y * (n * u)); [ring|]. rewrite Ex, Ey. ring. }
    pose proof (param_along a b c n t Ex Ey) as E. rewrite ccwz_line by assumption.
    assert (G : len2 a b < along a b c) by nia. destruct (Z.ltb_spec (along a b c) 0); [lia|]. destruct (Z.leb_spec (along a b c) (len2 a b)); [lia|reflexivity].
Qed.
Lemma ccwz_before : forall a b c, a <> b -> (ccwz a b c = -1 <-> area a b c < 0 \/ before a b c).
Proof.
  intros a b c N. pose proof (len2_pos a b N) as LP. split.
  - intro H. destruct (Z.lt_trichotomy (area a b c) 0) as [A|[A|A]]; [now left| |rewrite ccwz_pos in H by exact A; discriminate]. right.
    rewrite ccwz_line in H by assumption. destruct (Z.ltb_spec (along a b c) 0); [|destruct (Z.leb_spec (along a b c) (len2 a b)); discriminate].
    destruct (line_point a b c A) as [Ex Ey]. exists (len2 a b), (along a b c). split; [exact LP|]. split; [lia|]. now split.
  - intros [H|(n & t & Hn & Ht & Ex & Ey)]; [now apply ccwz_neg|].
    assert (A : area a b c = 0). { unfold area. set (x := fst b - fst a) in *. set (y := snd b - snd a) in *. set (u := fst c - fst a) in *. set (v := snd c - snd a) in *.
      clearbody x y u v. assert (n * (x * v - y * u) = 0); [|nia]. transitivity (x * (n * v) - y * (n * u)); [ring|]. rewrite Ex, Ey. ring. }
    pose proof (param_along a b c n t Ex Ey) as E. rewrite ccwz_line by assumption.
    assert (G : along a b c < 0) by nia. destruct (Z.ltb_spec (along a b c) 0); [reflexivity|lia].
Qed.

(* --- segments --- *)
Definition test (s o : segment) : bool := ccwz (fst s) (snd s) (fst o) * ccwz (fst s) (snd s) (snd o) <=? 0.
Lemma area_join : forall a b c d n t u, n * fst a + t * (fst b - fst a) = n * fst c + u * (fst d - fst c) ->
  n * snd a + t * (snd b - snd a) = n * snd c + u * (snd d - snd c) ->
  (n - u) * area a b c + u * area a b d = 0 /\ (n - u) * along a b c + u * along a b d = t * len2 a b.
Proof.
  intros [ax ay] [bx by_] [cx cy] [dx dy] n t u Ex Ey. unfold area, along, len2. cbn [fst snd] in *. split.
  - transitivity ((bx - ax) * (n * cy + u * (dy - cy) - n * ay) - (by_ - ay) * (n * cx + u * (dx - cx) - n * ax)); [ring|]. rewrite <- Ex, <- Ey. ring.
  - transitivity ((bx - ax) * (n * cx + u * (dx - cx) - n * ax) + (by_ - ay) * (n * cy + u * (dy - cy) - n * ay)); [ring|]. rewrite <- Ex, <- Ey. ring.
Qed.
Lemma meet_sym : forall s o, meet s o -> meet o s.
Proof. intros s o (n & t & u & H1 & H2 & H3 & H4 & H5). exists n, u, t. repeat split; try lia; now symmetry. Qed.
Lemma meet_test : forall s o, fst s <> snd s -> meet s o -> test s o = true.
Proof.
  intros [a b] [c d] N (n & t & u & Hn & Ht & Hu & Ex & Ey). unfold test. cbn [fst snd] in *. apply Z.leb_le.
  destruct (area_join a b c d n t u Ex Ey) as [A1 A2]. pose proof (len2_pos a b N) as LP.
  destruct (Z.eq_dec (area a b c) 0) as [C0|C0].
  - destruct (Z.eq_dec (area a b d) 0) as [D0|D0].
    + rewrite !ccwz_line by assumption.
      set (p := along a b c) in *. set (q := along a b d) in *. set (L := len2 a b) in *. clearbody p q L.
      destruct (Z.ltb_spec p 0), (Z.ltb_spec q 0), (Z.leb_spec p L), (Z.leb_spec q L); try lia; exfalso; nia.
    + assert (u = 0) by nia. subst u. assert (S : on_segment a b c). { exists n, t. split; [exact Hn|]. split; [exact Ht|]. split; lia. }
      apply ccwz_zero in S. rewrite S. lia.
  - destruct (Z.eq_dec (area a b d) 0) as [D0|D0].
    + assert (u = n) by nia. subst u. assert (S : on_segment a b d). { exists n, t. split; [exact Hn|]. split; [exact Ht|]. split; lia. }
      apply ccwz_zero in S. rewrite S. lia.
    + destruct (Z.lt_ge_cases (area a b c) 0) as [C1|C1]; destruct (Z.lt_ge_cases (area a b d) 0) as [D1|D1].
      * exfalso. nia.
      * rewrite (ccwz_neg a b c), (ccwz_pos a b d) by lia. lia.
      * rewrite (ccwz_pos a b c), (ccwz_neg a b d) by lia. lia.
      * exfalso. nia.
Qed.
Lemma test_area : forall s o, test s o = true -> area (fst s) (snd s) (fst o) * area (fst s) (snd s) (snd o) <= 0.
Proof.
  intros [a b] [c d] H. unfold test in H. cbn [fst snd] in *. apply Z.leb_le in H.
  destruct (Z.lt_trichotomy (area a b c) 0) as [C|[C|C]]; destruct (Z.lt_trichotomy (area a b d) 0) as [D|[D|D]]; try (rewrite C; lia); try (rewrite D; lia).
  - rewrite (ccwz_neg a b c), (ccwz_neg a b d) in H by assumption. lia.
  - nia.
  - nia.
  - rewrite (ccwz_pos a b c), (ccwz_pos a b d) in H by assumption. lia.
Qed.
Lemma test_meet : forall s o, fst s <> snd s -> fst o <> snd o -> test s o = true -> test o s = true -> meet s o.
Proof.
  intros [a b] [c d] N1 N2 T1 T2. pose proof (test_area _ _ T1) as A1. pose proof (test_area _ _ T2) as A2. cbn [fst snd] in *.
  set (D := (fst b - fst a) * (snd d - snd c) - (snd b - snd a) * (fst d - fst c)).
  assert (I1 : area a b d - area a b c = D) by (unfold area, D; ring). assert (I2 : area c d a - area c d b = D) by (unfold area, D; ring).
  destruct (Z.eq_dec D 0) as [D0|D0].
  - (* parallel *)
    assert (C0 : area a b c = 0) by nia. assert (E0 : area a b d = 0) by lia. unfold test in T1. cbn [fst snd] in T1. apply Z.leb_le in T1.
    destruct (line_point a b c C0) as [Cx Cy]. destruct (line_point a b d E0) as [Dx Dy]. pose proof (len2_pos a b N1) as LP.
    rewrite !ccwz_line in T1 by assumption. set (p := along a b c) in *. set (q := along a b d) in *. set (L := len2 a b) in *.
    assert (Sc : 0 <= p <= L -> meet (a, b) (c, d)).
    { intro H. exists L, p, 0. split; [exact LP|]. split; [exact H|]. split; [lia|]. cbn [fst snd]. split; lia. }
    assert (Sd : 0 <= q <= L -> meet (a, b) (c, d)).
    { intro H. exists L, q, L. split; [exact LP|]. split; [exact H|]. split; [lia|]. cbn [fst snd]. split; lia. }
    assert (B : p < 0 -> L < q -> meet (a, b) (c, d)).
    { intros H1 H2. exists (q - p), 0, (- p). split; [lia|]. split; [lia|]. split; [lia|]. cbn [fst snd].
      assert (G : forall g h k l, L * (h - g) = p * (k - g) -> L * (l - g) = q * (k - g) -> (q - p) * g + 0 * (k - g) = (q - p) * h + - p * (l - h)).
      { clear - LP. intros g h k l G1 G2. apply (Z.mul_reg_l _ _ L); [lia|].
        transitivity (L * (q - p) * h - (q - p) * (L * (h - g))); [ring|]. rewrite G1.
        transitivity (L * (q - p) * h + - p * (L * (l - g) - L * (h - g))); [rewrite G1, G2; ring|ring]. }
      split; (eapply G; eassumption). }
    assert (B' : q < 0 -> L < p -> meet (a, b) (c, d)).
    { intros H1 H2. exists (p - q), 0, p. split; [lia|]. split; [lia|]. split; [lia|]. cbn [fst snd].
      assert (G : forall g h k l, L * (h - g) = p * (k - g) -> L * (l - g) = q * (k - g) -> (p - q) * g + 0 * (k - g) = (p - q) * h + p * (l - h)).
      { clear - LP. intros g h k l G1 G2. apply (Z.mul_reg_l _ _ L); [lia|].
        transitivity (L * (p - q) * h - (p - q) * (L * (h - g))); [ring|]. rewrite G1.
        transitivity (L * (p - q) * h + p * (L * (l - g) - L * (h - g))); [rewrite G1, G2; ring|ring]. }
      split; (eapply G; eassumption). }
    clearbody p q L. destruct (Z.ltb_spec p 0), (Z.ltb_spec q 0), (Z.leb_spec p L), (Z.leb_spec q L); try lia; auto.
  - (* one common point of the lines *)
    assert (K : forall e, D * (e - e) = 0) by (intros; ring). clear K.
    assert (X : D * fst a + area c d a * (fst b - fst a) = D * fst c + - area a b c * (fst d - fst c)) by (unfold area, D; ring).
    assert (Y : D * snd a + area c d a * (snd b - snd a) = D * snd c + - area a b c * (snd d - snd c)) by (unfold area, D; ring).
    set (p := area c d a) in *. set (q := area a b c) in *. assert (P2 : area c d b = p - D) by lia. assert (Q2 : area a b d = q + D) by lia. rewrite P2 in A2. rewrite Q2 in A1.
    clearbody p q D. destruct (Z.lt_ge_cases D 0) as [Dn|Dp].
    + exists (- D), (- p), q. cbn [fst snd]. split; [lia|]. split; [nia|]. split; [nia|]. split; lia.
    + exists D, p, (- q). cbn [fst snd]. split; [lia|]. split; [nia|]. split; [nia|]. split; lia.
Qed.
