(* A ring buffer holds the window, rotated by its index. *)
From Verif Require Import Base WindowSpec.

Lemma last_n_all {A} n (l : list A) : (length l <= n)%nat -> last_n n l = l.
Proof. intro H. unfold last_n. replace (length l - n)%nat with 0%nat by lia. reflexivity. Qed.
Lemma window_length {A} n (v : A) h : length (window n v h) = n.
Proof. unfold window, last_n. rewrite skipn_length, app_length, repeat_length. lia. Qed.
Lemma window_nil {A} n (v : A) : window n v [] = repeat v n.
Proof. unfold window. rewrite app_nil_r, last_n_all by (rewrite repeat_length; lia). reflexivity. Qed.
Lemma skipn_S_tl {A} k (l : list A) : skipn (S k) l = tl (skipn k l).
Proof. revert l; induction k; intros [|x l]; try reflexivity. apply IHk. Qed.
Lemma window_snoc {A} n (v : A) h x : (0 < n)%nat -> window n v (h ++ [x]) = tl (window n v h) ++ [x].
Proof.
  intro Hn. unfold window, last_n. rewrite !app_length, !repeat_length. cbn [length].
  replace (n + (length h + 1) - n)%nat with (S (length h)) by lia. replace (n + length h - n)%nat with (length h) by lia.
  rewrite app_assoc. rewrite skipn_app. rewrite app_length, repeat_length.
  replace (S (length h) - (n + length h))%nat with 0%nat by lia. rewrite skipn_S_tl. reflexivity.
Qed.
Lemma tl_app {A} (l1 l2 : list A) : l1 <> [] -> tl (l1 ++ l2) = tl l1 ++ l2.
Proof. destruct l1; [congruence|reflexivity]. Qed.

(* [ring i b w]: buffer b with write position i holds w, oldest first *)
Definition ring {A} (i : Z) (b w : list A) : Prop :=
  0 <= i < zlen b /\ skipn (Z.to_nat i) b ++ firstn (Z.to_nat i) b = w.

Lemma split_at {A} (b : list A) (i : nat) : (i < length b)%nat ->
  exists l x r, b = l ++ x :: r /\ length l = i.
Proof.
  revert b; induction i; intros [|y b] H; cbn in H; try lia.
  - exists [], y, b. auto.
  - destruct (IHi b) as (l & x & r & -> & L); [lia|]. exists (y :: l), x, r. split; [reflexivity|cbn; lia].
Qed.
Lemma upd_nat_app {A} (l : list A) x r y : upd_nat (l ++ x :: r) (length l) y = Some (l ++ y :: r).
Proof. induction l; cbn; [reflexivity|]. rewrite IHl. reflexivity. Qed.
Lemma zupd_app {A} (l : list A) x r y i : i = zlen l -> zupd (l ++ x :: r) i y = Some (l ++ y :: r).
Proof.
  intros ->. unfold zupd, zlen. replace (Z.of_nat (length l) <? 0) with false by lia. rewrite Nat2Z.id. apply upd_nat_app.
Qed.
Lemma znth_app_mid {A} (l : list A) x r i : i = zlen l -> znth (l ++ x :: r) i = Some x.
Proof. intros ->. rewrite znth_app_r by lia. rewrite Z.sub_diag. reflexivity. Qed.
Lemma skipn_length_app {A} (l r : list A) : skipn (length l) (l ++ r) = r.
Proof. rewrite skipn_app, skipn_all, Nat.sub_diag. reflexivity. Qed.
Lemma firstn_length_app {A} (l r : list A) : firstn (length l) (l ++ r) = l.
Proof. rewrite firstn_app, firstn_all, Nat.sub_diag. cbn. apply app_nil_r. Qed.

Lemma ring_push {A} i (b w : list A) x : ring i b w ->
  exists o b', znth b i = Some o /\ hd_error w = Some o /\ zupd b i x = Some b' /\ zlen b' = zlen b /\
    ring (if zlen b <=? i + 1 then 0 else i + 1) b' (tl w ++ [x]).
Proof.
  intros (Hi & Hw). destruct (split_at b (Z.to_nat i)) as (l & o & r & -> & L); [unfold zlen in Hi; lia|].
  assert (i = zlen l) as Ei by (unfold zlen; lia).
  rewrite <- L, skipn_length_app, firstn_length_app in Hw.
  exists o, (l ++ x :: r). rewrite (znth_app_mid l o r i Ei), (zupd_app l o r x i Ei).
  split; [reflexivity|]. split; [subst w; reflexivity|]. split; [reflexivity|].
  split; [rewrite !zlen_app, !zlen_cons; reflexivity|].
  subst w. cbn [tl app].
  rewrite zlen_app, zlen_cons. pose proof (zlen_nonneg r). pose proof (zlen_nonneg l).
  destruct (zlen l + (1 + zlen r) <=? i + 1) eqn:E.
  - assert (r = []) as -> by (apply zlen_0_nil; lia). split.
    + rewrite zlen_app, zlen_cons. lia.
    + cbn. rewrite app_nil_r. reflexivity.
  - split.
    + rewrite zlen_app, zlen_cons. lia.
    + replace (Z.to_nat (i + 1)) with (length (l ++ [x])) by (rewrite app_length; unfold zlen in *; cbn; lia).
      replace (l ++ x :: r) with ((l ++ [x]) ++ r) by (rewrite <- app_assoc; reflexivity).
      rewrite skipn_length_app, firstn_length_app. rewrite <- app_assoc. reflexivity.
Qed.
