From Coq Require Import Permutation.
From Verif Require Import Base FdModel FdSpec.

(** *** Transmission *)
Section Tx.
Variable A : Type.
Variable cap : Z.
Notation txs := (txs A).

Definition rest (i : ipc A) (q : list A) : list A := match i with IPop => tl q | _ => q end.
Definition moving (s : txs) : Prop := boxes s <> [] \/ tc s = true.
Definition isr_ok (i : ipc A) (q : list A) (b : list (Z * A)) (t : bool) : Prop :=
  match i with
  | INone => q <> [] -> b <> [] \/ t = true
  | IClear | ICheck => True
  | ISend m => exists q', q = m :: q'
  | IPut m k => (exists q', q = m :: q') /\ free k b
  | IPop => q <> [] /\ (b <> [] \/ t = true)
  end.
Definition pc_ok (p : tpc A) (i : ipc A) (b : list (Z * A)) (t l : bool) : Prop :=
  match p with
  | TIdle => l = true
  | TRead _ fl => l = true /\ fl = true
  | TLocked _ fl => l = false /\ fl = true /\ i = INone
  | TFull _ fl => l = false /\ fl = true /\ i = INone /\ (b <> [] \/ t = true)
  | TSpace _ fl => l = false /\ fl = true /\ i = INone /\ full b = false
  | TPut _ fl k => l = false /\ fl = true /\ i = INone /\ free k b
  | TUnlock fl => l = false /\ fl = true /\ i = INone
  end.
Definition tinv (s : txs) : Prop :=
  NoDup (map fst (boxes s)) /\ Forall (fun x => 0 <= fst x < 3) (boxes s) /\ zlen (queue s) <= cap /\
  Permutation (accepted s) (sent s ++ map snd (boxes s) ++ rest (ip s) (queue s)) /\
  isr_ok (ip s) (queue s) (boxes s) (tc s) /\ pc_ok (tp s) (ip s) (boxes s) (tc s) (ile0 s).

Lemma full_ne (b : list (Z * A)) : full b = true -> b <> [].
Proof. intros F ->. discriminate F. Qed.
Lemma full_len (b1 b2 : list (Z * A)) x : full (b1 ++ x :: b2) = false -> full (b1 ++ b2) = false.
Proof. unfold full. rewrite !zlen_app, zlen_cons. lia. Qed.
Lemma free_sub k (b1 b2 : list (Z * A)) x : free k (b1 ++ x :: b2) -> free k (b1 ++ b2).
Proof. unfold free. rewrite !map_app. cbn [map]. intros [R N]. split; [exact R|]. intro I. apply N. apply in_app_iff in I. apply in_app_iff. cbn. tauto. Qed.
Lemma perm_sent (s b1 b2 q : list A) (a : list A) m : Permutation a (s ++ (b1 ++ m :: b2) ++ q) -> Permutation a ((s ++ [m]) ++ (b1 ++ b2) ++ q).
Proof.
  intro P. rewrite P. rewrite <- !app_assoc. apply Permutation_app_head. cbn [app]. symmetry. apply Permutation_middle.
Qed.
Lemma pc_isr p i i' (b b' : list (Z * A)) t t' l : i <> INone -> pc_ok p i b t l -> pc_ok p i' b' t' l.
Proof. intros N C. destruct p; cbn [pc_ok] in *; tauto. Qed.
Lemma tinv_init : 0 <= cap -> tinv tx_init.
Proof. intro C. unfold tinv, tx_init. cbn. repeat split; auto; try constructor; try contradiction. Qed.
Lemma tinv_step s s' : tinv s -> tstep cap s s' -> tinv s'.
Proof.
  intros (N & K & Q & P & O & C) H. destruct H; unfold tinv in *; cbn [queue boxes tc ile0 tp ip sent accepted] in *.
  - (* sent *) rewrite map_app in N, P. cbn [map] in N, P. split; [rewrite map_app; apply NoDup_remove_1 in N; exact N|]. split; [apply Forall_app in K; destruct K as [K1 K2]; apply Forall_app; split; [exact K1|inversion K2; assumption]|].
    split; [exact Q|]. split; [rewrite map_app; apply perm_sent; exact P|]. split.
    + destruct i; cbn [isr_ok] in *; try exact O; try tauto. destruct O as [O1 O2]. split; [exact O1|]. eapply free_sub. exact O2.
    + destruct p; cbn [pc_ok] in *; try tauto.
      * destruct C as (C1 & C2 & C3 & C4). repeat split; auto. eapply full_len. exact C4.
      * destruct C as (C1 & C2 & C3 & C4). repeat split; auto; apply free_sub in C4; apply C4.
  - cbn [pc_ok] in *. tauto.
  - cbn [pc_ok] in *. tauto.
  - destruct (full b) eqn:E; cbn [pc_ok] in *; [pose proof (full_ne _ E)|]; tauto.
  - cbn [pc_ok] in *. tauto.
  - cbn [pc_ok rest isr_ok] in *. split; [exact N|]. split; [exact K|]. split; [rewrite zlen_app; unfold zlen at 2; cbn; lia|]. split; [|split; [intros _; tauto|tauto]].
    rewrite P. rewrite <- !app_assoc. reflexivity.
  - cbn [pc_ok] in *. tauto.
  - cbn [pc_ok] in *. tauto.
  - cbn [pc_ok rest isr_ok map fst snd] in *. destruct C as (C1 & C2 & C3 & (F1 & F2)). split; [constructor; assumption|]. split; [constructor; assumption|]. split; [exact Q|].
    split; [|split; [intros _; left; discriminate|tauto]]. rewrite P. rewrite <- Permutation_app_comm. cbn [app]. apply Permutation_middle.
  - cbn [pc_ok] in *. tauto.
  - cbn [pc_ok] in *. tauto.
  - cbn [pc_ok rest isr_ok] in *. split; [exact N|]. split; [exact K|]. split; [exact Q|]. split; [exact P|]. split; [exact I|]. destruct p; cbn [pc_ok] in *; try tauto; destruct C as [C _]; discriminate C.
  - cbn [rest isr_ok] in *. split; [exact N|]. split; [exact K|]. split; [exact Q|]. split; [exact P|]. split; [exact I|]. refine (pc_isr _ _ _ _ _ _ _ _ _ C); discriminate.
  - split; [exact N|]. split; [exact K|]. split; [exact Q|]. split; [destruct q; exact P|]. split; [destruct q as [|m q]; cbn [isr_ok]; [congruence|eexists; reflexivity]|]. refine (pc_isr _ _ _ _ _ _ _ _ _ C); discriminate.
  - cbn [rest isr_ok] in *. split; [exact N|]. split; [exact K|]. split; [exact Q|]. split; [exact P|]. split; [intros _; left; apply full_ne; assumption|]. refine (pc_isr _ _ _ _ _ _ _ _ _ C); discriminate.
  - cbn [rest isr_ok] in *. split; [exact N|]. split; [exact K|]. split; [exact Q|]. split; [exact P|]. split; [split; assumption|]. refine (pc_isr _ _ _ _ _ _ _ _ _ C); discriminate.
  - cbn [rest isr_ok map fst snd] in *. destruct O as [(q' & ->) (F1 & F2)]. split; [constructor; assumption|]. split; [constructor; assumption|]. split; [exact Q|].
    split; [rewrite P; cbn [tl app]; apply Permutation_app_head; symmetry; apply Permutation_middle|]. split; [split; [discriminate|left; discriminate]|]. refine (pc_isr _ _ _ _ _ _ _ _ _ C); discriminate.
  - cbn [rest isr_ok] in *. split; [exact N|]. split; [exact K|]. destruct O as [O1 O2]. split; [destruct q; [exact Q|rewrite zlen_cons in Q; cbn [tl]; lia]|]. split; [exact P|]. split; [intros _; exact O2|]. refine (pc_isr _ _ _ _ _ _ _ _ _ C); discriminate.
Qed.
Lemma treach_inv s : 0 <= cap -> treach cap s -> tinv s.
Proof. intros C R. induction R as [|s s' R IH H]; [apply tinv_init; exact C|]. eapply tinv_step; eassumption. Qed.

Lemma back_trans (s1 s2 s3 : txs) : back cap s1 s2 -> back cap s2 s3 -> back cap s1 s3.
Proof. intros H1 H2. induction H2 as [|x y H IH S1 E1 E2]; [exact H1|]. eapply back_step; eassumption. Qed.
Lemma back_reach (s s' : txs) : treach cap s -> back cap s s' -> treach cap s'.
Proof. intros R B. induction B as [|s1 s2 B IH H _ _]; [exact R|]. eapply tr_step; eassumption. Qed.
Lemma drain_boxes (q a : list A) b : forall s1 t1, exists s2 t2, back cap (Tx q b t1 true TIdle INone s1 a) (Tx q [] t2 true TIdle INone s2 a) /\ (b <> [] \/ t1 = true -> t2 = true).
Proof.
  induction b as [|[k m] b IH]; intros s1 t1.
  - exists s1, t1. split; [constructor|]. intros [H|H]; [congruence|exact H].
  - destruct (IH (s1 ++ [m]) true) as (s2 & t2 & B & E). exists s2, t2. split; [|intros _; apply E; right; reflexivity].
    eapply back_trans; [|exact B]. eapply back_step; [constructor|exact (hw_sent A cap q [] k m b t1 true TIdle INone s1 a)|reflexivity|reflexivity].
Qed.
Lemma drain_queue (a q : list A) : forall s1, exists s2 t2, back cap (Tx q [] true true TIdle INone s1 a) (Tx [] [] t2 true TIdle INone s2 a).
Proof.
  induction q as [|m q IH]; intro s1; [exists s1, true; constructor|].
  destruct (IH (s1 ++ [m])) as (s2 & t2 & B). exists s2, t2. eapply back_trans; [|exact B].
  eapply back_step; [|exact (hw_sent A cap q [] 0 m [] false true TIdle INone s1 a)|reflexivity|reflexivity]. cbn [app].
  eapply back_step; [|exact (isr_pop A cap (m :: q) [(0, m)] false true TIdle s1 a)|reflexivity|reflexivity].
  eapply back_step; [|exact (isr_put A cap (m :: q) [] false true TIdle m 0 s1 a)|reflexivity|reflexivity].
  eapply back_step; [|refine (isr_index A cap (m :: q) [] false true TIdle m 0 s1 a _ _); [reflexivity|split; [lia|intros []]]|reflexivity|reflexivity].
  eapply back_step; [|exact (isr_check A cap (m :: q) [] false true TIdle s1 a)|reflexivity|reflexivity].
  eapply back_step; [|exact (isr_clear A cap (m :: q) [] true true TIdle s1 a)|reflexivity|reflexivity].
  eapply back_step; [|exact (isr_enter A cap (m :: q) [] TIdle s1 a)|reflexivity|reflexivity].
  constructor.
Qed.
Lemma drain (s : txs) : 0 <= cap -> treach cap s -> tp s = TIdle -> ip s = INone ->
  exists s', back cap s s' /\ queue s' = [] /\ boxes s' = [] /\ Permutation (accepted s) (sent s').
Proof.
  intros C R T I. pose proof (treach_inv s C R) as (N & K & Q & P & O & PC). destruct s as [q b t l p i sn a]. cbn [queue boxes tc ile0 tp ip sent accepted] in *. subst p i.
  cbn [pc_ok isr_ok] in *. subst l. destruct (drain_boxes q a b sn t) as (s2 & t2 & B & E).
  assert (Z : exists s3 t3, back cap (Tx q b t true TIdle INone sn a) (Tx [] [] t3 true TIdle INone s3 a)).
  { destruct q as [|m q]; [exists s2, t2; exact B|]. rewrite (E (O ltac:(discriminate))) in B. destruct (drain_queue a (m :: q) s2) as (s3 & t3 & B3). exists s3, t3. eapply back_trans; eassumption. }
  destruct Z as (s3 & t3 & B3). exists (Tx [] [] t3 true TIdle INone s3 a). split; [exact B3|]. split; [reflexivity|]. split; [reflexivity|].
  pose proof (treach_inv _ C (back_reach _ _ R B3)) as (_ & _ & _ & P3 & _). cbn [queue boxes sent accepted ip rest map app] in P3 |- *. rewrite app_nil_r in P3. exact P3.
Qed.
End Tx.

(** *** Reception *)
Section Rx.
Variable A : Type.
Variable cap : Z.
Notation rxs := (rxs A).

Definition held (p : rpc A) (k : bool) : list A := match p with RPush j _ x => if Bool.eqb j k then [x] else [] | _ => [] end.
Definition rp_ok (p : rpc A) (f : bool -> list A) (r l : bool) (q : list (bool * A)) : Prop :=
  match p with
  | RIdle => True
  | RLoop k n => 0 <= n /\ n + zlen q = cap /\ r = true /\ l = true
  | RRead k n x => 0 < n /\ n + zlen q = cap /\ r = true /\ l = true /\ exists y, f k = x :: y
  | RPush k n x => 0 < n /\ n + zlen q = cap /\ r = true /\ l = true
  | REnd => r = true /\ l = true
  end.
Definition mp_ok (m : mpc) (r l : bool) (q : list (bool * A)) : Prop :=
  match m with
  | MIdle => l = false -> r = true /\ zlen q = cap
  | MPopped => l = false -> r = true
  | MRead fl => (l = false -> r = true /\ zlen q = cap) /\ (fl = false -> l = false)
  | MLocked fl => l = false /\ (fl = false -> r = true /\ zlen q = cap)
  end.
Definition rinv (s : rxs) : Prop :=
  (forall k, zlen (fifo s k) <= 3) /\ dropped s = [] /\ zlen (rq s) <= cap /\
  (forall k, stored s k = from k (delivered s ++ rq s) ++ held (rp s) k ++ fifo s k) /\
  rp_ok (rp s) (fifo s) (rf s) (ile1 s) (rq s) /\ mp_ok (mp s) (rf s) (ile1 s) (rq s).
Lemma from_app k (l1 l2 : list (bool * A)) : from k (l1 ++ l2) = from k l1 ++ from k l2.
Proof. unfold from. rewrite filter_app, map_app. reflexivity. Qed.
Lemma rinv_init : 0 <= cap -> rinv rx_init.
Proof. intro C. unfold rinv, rx_init. cbn. split; [intros; lia|]. split; [reflexivity|]. split; [exact C|]. split; [reflexivity|]. split; [exact I|]. discriminate. Qed.
Lemma rinv_step s s' : rinv s -> rstep cap s s' -> rinv s'.
Proof.
  intros (F & D & Q & S & P & M) H. destruct H; unfold rinv in *; cbn [fifo rf ile1 rq rp mp delivered stored dropped] in *.
  - (* received *) split; [intro j; unfold upd; destruct (Bool.eqb j k); [rewrite zlen_app; unfold zlen at 2; cbn; lia|apply F]|]. split; [exact D|]. split; [exact Q|]. split; [|split].
    + intro j. unfold upd. destruct (Bool.eqb j k) eqn:E; [|apply S]. apply eqb_prop in E. subst j. rewrite S, <- !app_assoc. reflexivity.
    + destruct p; cbn [rp_ok] in *; try tauto. destruct P as (P1 & P2 & _ & P4 & y & P5). do 3 (split; [auto|]). split; [exact P4|]. unfold upd. destruct (Bool.eqb k0 k) eqn:E; [|exists y; exact P5]. apply eqb_prop in E. subst k0. rewrite P5. exists (y ++ [x]). reflexivity.
    + destruct m; cbn [mp_ok] in *; tauto.
  - cbn [rp_ok held] in *. split; [exact F|]. split; [exact D|]. split; [exact Q|]. split; [exact S|]. split; [split; [lia|split; [lia|auto]]|exact M].
  - cbn [rp_ok held] in *. split; [exact F|]. split; [exact D|]. split; [exact Q|]. split; [exact S|]. split; [|exact M]. destruct P as (P1 & P2 & P3 & P4). split; [assumption|]. split; [exact P2|]. split; [exact P3|]. split; [exact P4|]. exists y. assumption.
  - cbn [rp_ok held] in *. destruct P as (P1 & P2 & P3 & P4 & y & P5). split; [intro j; unfold upd; destruct (Bool.eqb j k) eqn:E; [specialize (F k); rewrite P5 in *; rewrite zlen_cons in F; cbn [tl]; lia|apply F]|].
    split; [exact D|]. split; [exact Q|]. split; [|split; [auto|exact M]]. intro j. rewrite S. unfold upd. destruct (Bool.eqb j k) eqn:E.
    + apply eqb_prop in E. subst j. rewrite Bool.eqb_reflx, P5. reflexivity.
    + destruct j, k; try discriminate; reflexivity.
  - cbn [rp_ok held] in *. split; [exact F|]. split; [exact D|]. split; [rewrite zlen_app; unfold zlen at 2; cbn; lia|]. split; [|split].
    + intro j. rewrite S. rewrite app_assoc, !from_app, <- !app_assoc. do 2 f_equal. unfold from. cbn [filter fst]. destruct (Bool.eqb k j); reflexivity.
    + rewrite zlen_app. unfold zlen at 2. cbn. destruct P as (P1 & P2 & P3 & P4). split; [lia|]. split; [lia|]. auto.
    + destruct P as (_ & _ & _ & ->). destruct m; cbn [mp_ok] in *; try (intro; discriminate); try tauto. split; [intro; discriminate|]. apply M. destruct M; discriminate.
  - cbn [rp_ok held] in *. lia.
  - assert (E : held (if k then REnd else RLoop true n) = held (RLoop k n)) by (destruct k; reflexivity). split; [exact F|]. split; [exact D|]. split; [exact Q|]. split; [rewrite E; exact S|]. split; [|exact M]. destruct k; cbn [rp_ok] in *; tauto.
  - cbn [rp_ok held] in *. split; [exact F|]. split; [exact D|]. split; [exact Q|]. split; [exact S|]. split; [exact I|]. destruct P as [-> ->]. assert (E : zlen q = cap) by lia. destruct m; cbn [mp_ok] in *.
    + auto.
    + auto.
    + split; [auto|]. auto.
    + destruct M; discriminate.
  - cbn [rp_ok held] in *. split; [exact F|]. split; [exact D|]. split; [exact Q|]. split; [exact S|]. split; [exact I|]. destruct P as [-> ->]. destruct m; cbn [mp_ok] in *; try (intro; discriminate).
    + split; [intro; discriminate|]. tauto.
    + destruct M; discriminate.
  - cbn [rp_ok held mp_ok] in *. rewrite zlen_cons in Q, M. split; [exact F|]. split; [exact D|]. split; [lia|]. split; [intro j; rewrite S, <- app_assoc; reflexivity|]. split; [exact I|]. intro E. apply M. exact E.
  - cbn [rp_ok held mp_ok] in *. split; [exact F|]. split; [exact D|]. split; [exact Q|]. split; [exact S|]. split; [exact I|]. discriminate.
  - cbn [rp_ok held mp_ok] in *. tauto.
  - cbn [rp_ok held mp_ok] in *. split; [exact F|]. split; [exact D|]. split; [exact Q|]. split; [exact S|]. split; [exact I|]. tauto.
  - cbn [rp_ok held mp_ok] in *. split; [exact F|]. split; [exact D|]. split; [exact Q|]. split; [exact S|]. split; [exact I|]. tauto.
Qed.
Lemma rreach_inv s : 0 <= cap -> rreach cap s -> rinv s.
Proof. intros C R. induction R as [|s s' R IH H]; [apply rinv_init; exact C|]. eapply rinv_step; eassumption. Qed.
End Rx.
