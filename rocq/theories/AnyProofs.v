From Coq Require Import ZArith List Bool Lia.
From Verif Require Import Base AnyModel AnySpec.
Import ListNotations.
Open Scope Z_scope.

Definition cell_ok (a : any) : Prop :=
  match storage a, handler a with
  | Some o, Some t => oty o = t
  | None, None => True
  | _, _ => False
  end.

Record INV (s : st) : Prop := {
  inv_cell : forall i a, cells s i = Some a -> cell_ok a;
  inv_one : forall i j id, inside s i id -> inside s j id -> i = j;
  inv_alive : forall i id, inside s i id -> In (Ctor id) (log s) /\ ~ In (Dtor id) (log s);
  inv_fresh : forall id, In (Ctor id) (log s) -> id < fresh s;
  inv_held : forall id, In (Ctor id) (log s) -> ~ In (Dtor id) (log s) -> exists i, inside s i id;
  inv_nodup : NoDup (log s);
  inv_order : forall l1 id l2, log s = l1 ++ Dtor id :: l2 -> In (Ctor id) l1 }.

Lemma inv_start : INV start.
Proof.
  constructor; cbn; intros; try contradiction; try discriminate.
  - destruct H as (a & o & H & _). discriminate.
  - destruct H as (a & o & H & _). discriminate.
  - constructor.
  - destruct l1; discriminate.
Qed.

Definition same (c d : Z -> content) : Prop := forall k, c k = d k.

Lemma contents_nothing s i : contents s i = Nothing -> cells s i = None.
Proof. unfold contents. destruct (cells s i) as [a|]; [|reflexivity]. destruct (storage a); discriminate. Qed.
Lemma contents_empty s i : INV s -> contents s i = Empty -> cells s i = Some (Any None None).
Proof.
  intros I. unfold contents. destruct (cells s i) as [a|] eqn:E; [|discriminate]. pose proof (inv_cell s I i a E) as C.
  destruct a as [[o|] [t|]]; cbn in *; try contradiction; try discriminate. reflexivity.
Qed.
Lemma contents_holds s i t v : INV s -> contents s i = Holds t v -> exists id, cells s i = Some (Any (Some (Obj id t v)) (Some t)).
Proof.
  intros I. unfold contents. destruct (cells s i) as [a|] eqn:E; [|discriminate]. pose proof (inv_cell s I i a E) as C.
  destruct a as [[[id t' v']|] [t2|]]; cbn in *; try contradiction; try discriminate. intro H. injection H as -> ->. subst t2. exists id. reflexivity.
Qed.

Lemma nodup_snoc {A} (l : list A) x : NoDup l -> ~ In x l -> NoDup (l ++ [x]).
Proof.
  intros N X. induction N as [|y l Y N IH]; cbn; [constructor; [exact X|constructor]|]. constructor.
  - rewrite in_app_iff. cbn. intros [H|[H|[]]]; [contradiction|]. subst. apply X. left. reflexivity.
  - apply IH. intro H. apply X. right. exact H.
Qed.

Lemma snoc_split {A} (l : list A) x l1 y l2 : l ++ [x] = l1 ++ y :: l2 -> (l1 = l /\ y = x) \/ exists l2', l = l1 ++ y :: l2'.
Proof.
  destruct (rev l2) as [|z r] eqn:E.
  - apply (f_equal (@rev A)) in E. rewrite rev_involutive in E. cbn in E. subst l2. intro H. apply app_inj_tail in H. left. split; [symmetry|symmetry]; apply H.
  - apply (f_equal (@rev A)) in E. rewrite rev_involutive in E. cbn in E. subst l2. intro H. right. exists (rev r).
    rewrite app_comm_cons, app_assoc in H. apply app_inj_tail in H. apply H.
Qed.

(** *** Primitive steps *)
Lemma inside_put s i x k id fr lg : inside (St (cells (put s i x)) fr lg) k id <->
  (k = i /\ exists a o, x = Some a /\ storage a = Some o /\ oid o = id) \/ (k <> i /\ inside s k id).
Proof.
  unfold inside, put. cbn [cells]. destruct (k =? i) eqn:E.
  - apply Z.eqb_eq in E. split; [intro H; left; split; assumption|]. intros [[_ H]|[H _]]; [exact H|contradiction].
  - apply Z.eqb_neq in E. split; [intro H; right; split; assumption|]. intros [[H _]|[_ H]]; [contradiction|exact H].
Qed.

Lemma contents_put s i x fr lg k : contents (St (cells (put s i x)) fr lg) k =
  if k =? i then match x with None => Nothing | Some a => match storage a with None => Empty | Some o => Holds (oty o) (oval o) end end else contents s k.
Proof. unfold contents, put. cbn [cells]. destruct (k =? i); reflexivity. Qed.

(** Destroying the content of a holding cell. *)
Lemma prim_drop s i id t v : INV s -> cells s i = Some (Any (Some (Obj id t v)) (Some t)) ->
  exists s', (do s1 <- act_destruct t i s; clear_handler i s1) = Some s' /\ INV s' /\ same (contents s') (upd (contents s) i Empty).
Proof.
  intros I E. unfold act_destruct. rewrite E. cbn [obind storage oty handler oid]. rewrite Z.eqb_refl. cbn [obind].
  unfold clear_handler, put at 1. cbn [cells]. rewrite Z.eqb_refl. cbn [obind storage].
  eexists. split; [reflexivity|].
  assert (HI : inside s i id) by (exists (Any (Some (Obj id t v)) (Some t)), (Obj id t v); auto).
  destruct (inv_alive s I i id HI) as [CI DI].
  set (s1 := put _ _ _). assert (S1 : s1 = St (cells s1) (fresh s) (log s ++ [Dtor id])) by reflexivity.
  assert (CE : forall k, cells s1 k = cells (put s i (Some (Any None None))) k).
  { intro k. unfold s1, put. cbn [cells]. destruct (k =? i); reflexivity. }
  assert (INS : forall k x, inside s1 k x <-> k <> i /\ inside s k x).
  { intros k x.
    unfold inside. rewrite CE. unfold put. cbn [cells]. destruct (k =? i) eqn:K.
    - apply Z.eqb_eq in K. split; [intros (a & o & H1 & H2 & _); injection H1 as <-; discriminate|intros [H _]; contradiction].
    - apply Z.eqb_neq in K. split; [intro H; split; assumption|intros [_ H]; exact H]. }
  split.
  - constructor.
    + intros k a. rewrite CE. unfold put. cbn [cells]. destruct (k =? i); [intro H; injection H as <-; exact Logic.I|apply (inv_cell s I)].
    + intros k j x H1 H2. apply INS in H1, H2. exact (inv_one s I k j x (proj2 H1) (proj2 H2)).
    + intros k x H. apply INS in H. destruct H as [K H]. destruct (inv_alive s I k x H) as [A B]. rewrite S1. cbn [log].
      rewrite !in_app_iff. split; [left; exact A|]. cbn. intros [D|[D|[]]]; [contradiction|]. injection D as <-. apply K. exact (inv_one s I k i id H HI).
    + rewrite S1. cbn [log fresh]. intros x H. rewrite in_app_iff in H. destruct H as [H|[H|[]]]; [|discriminate]. exact (inv_fresh s I x H).
    + rewrite S1. cbn [log]. intros x. rewrite !in_app_iff. cbn. intros [H|[H|[]]] D; [|discriminate].
      destruct (inv_held s I x H) as [k K]; [intro Q; apply D; left; exact Q|]. exists k. change (inside s1 k x). apply INS. split; [|exact K].
      intros ->. apply D. right. left. f_equal. destruct K as (a & o & K1 & K2 & K3). rewrite E in K1. injection K1 as <-. cbn in K2. injection K2 as <-. exact K3.
    + rewrite S1. cbn [log]. apply nodup_snoc; [exact (inv_nodup s I)|exact DI].
    + rewrite S1. cbn [log]. intros l1 x l2 H. apply snoc_split in H. destruct H as [[-> H]|[l2' H]].
      * injection H as ->. exact CI.
      * exact (inv_order s I l1 x l2' H).
  - intro k. unfold contents. rewrite CE. unfold put, upd, contents. cbn [cells]. destruct (k =? i); reflexivity.
Qed.

(** Constructing an object in an empty cell. *)
Lemma prim_construct s i t v : INV s -> cells s i = Some (Any None None) ->
  exists s', h_construct t v i s = Some s' /\ INV s' /\ same (contents s') (upd (contents s) i (Holds t v)) /\
   cells s' i = Some (Any (Some (Obj (fresh s) t v)) (Some t)) /\ (forall k, k <> i -> cells s' k = cells s k).
Proof.
  intros I E. unfold h_construct. rewrite E. cbn [obind]. eexists. split; [reflexivity|].
  set (nw := Any (Some (Obj (fresh s) t v)) (Some t)).
  assert (FR : forall x, In (Ctor x) (log s) -> x <> fresh s) by (intros x X; apply (inv_fresh s I) in X; lia).
  assert (DF : ~ In (Dtor (fresh s)) (log s)).
  { intro D. apply in_split in D. destruct D as (l1 & l2 & D). pose proof (inv_order s I _ _ _ D) as C.
    apply (FR (fresh s)); [|reflexivity]. rewrite D, in_app_iff. left. exact C. }
  assert (CN : forall x, inside s i x -> False) by (intros x (a & o & H1 & H2 & _); rewrite E in H1; injection H1 as <-; discriminate).
  split; [|split; [|split]].
  - constructor.
    + cbn [cells put]. intros k a. unfold put. cbn [cells]. destruct (k =? i); [intro H; injection H as <-; reflexivity|apply (inv_cell s I)].
    + intros k j x H1 H2. rewrite inside_put in H1, H2.
      destruct H1 as [[-> (a & o & A1 & A2 & A3)]|[K1 H1]]; destruct H2 as [[-> (b & p & B1 & B2 & B3)]|[K2 H2]]; try reflexivity.
      * injection A1 as <-. cbn in A2. injection A2 as <-. cbn in A3. subst x. destruct (inv_alive s I j (fresh s) H2) as [C _]. exfalso. exact (FR _ C eq_refl).
      * injection B1 as <-. cbn in B2. injection B2 as <-. cbn in B3. subst x. destruct (inv_alive s I k (fresh s) H1) as [C _]. exfalso. exact (FR _ C eq_refl).
      * exact (inv_one s I k j x H1 H2).
    + intros k x H. rewrite inside_put in H. cbn [log]. rewrite !in_app_iff. cbn.
      destruct H as [[-> (a & o & A1 & A2 & A3)]|[K1 H1]].
      * injection A1 as <-. cbn in A2. injection A2 as <-. cbn in A3. subst x. split; [right; left; reflexivity|]. intros [D|[D|[]]]; [contradiction|discriminate].
      * destruct (inv_alive s I k x H1) as [A B]. split; [left; exact A|]. intros [D|[D|[]]]; [contradiction|discriminate].
    + cbn [log fresh]. intros x H. rewrite in_app_iff in H. destruct H as [H|[H|[]]]; [apply (inv_fresh s I) in H; lia|]. injection H as <-. lia.
    + cbn [log]. intros x H D. rewrite in_app_iff in H, D. destruct H as [H|[H|[]]].
      * destruct (inv_held s I x H) as [k K]; [intro Q; apply D; left; exact Q|]. exists k. apply inside_put. right. split; [|exact K]. intros ->. exact (CN x K).
      * injection H as <-. exists i. apply inside_put. left. split; [reflexivity|]. exists nw, (Obj (fresh s) t v). auto.
    + cbn [log]. apply nodup_snoc; [exact (inv_nodup s I)|]. intro C. exact (FR _ C eq_refl).
    + cbn [log]. intros l1 x l2 H. apply snoc_split in H. destruct H as [[-> H]|[l2' H]]; [discriminate|]. exact (inv_order s I l1 x l2' H).
  - intro k. rewrite contents_put. unfold upd. reflexivity.
  - unfold put. cbn [cells]. rewrite Z.eqb_refl. reflexivity.
  - intros k K. unfold put. cbn [cells]. apply Z.eqb_neq in K. rewrite K. reflexivity.
Qed.

(** A step that keeps identities, handlers and the ledger. *)
Lemma inv_revalue s i id t v v' : INV s -> cells s i = Some (Any (Some (Obj id t v)) (Some t)) ->
  INV (put s i (Some (Any (Some (Obj id t v')) (Some t)))) /\
  same (contents (put s i (Some (Any (Some (Obj id t v')) (Some t))))) (upd (contents s) i (Holds t v')).
Proof.
  intros I E. set (s' := put _ _ _).
  assert (INS : forall k x, inside s' k x <-> inside s k x).
  { intros k x. unfold s', inside, put. cbn [cells]. destruct (k =? i) eqn:K; [|reflexivity]. apply Z.eqb_eq in K. subst k. rewrite E.
    split; intros (a & o & H1 & H2 & H3); injection H1 as <-; cbn in H2; injection H2 as <-; cbn in H3; subst x;
    [exists (Any (Some (Obj id t v)) (Some t)), (Obj id t v)|exists (Any (Some (Obj id t v')) (Some t)), (Obj id t v')]; auto. }
  split.
  - constructor.
    + intros k a. unfold s', put. cbn [cells]. destruct (k =? i); [intro H; injection H as <-; reflexivity|apply (inv_cell s I)].
    + intros k j x H1 H2. apply INS in H1, H2. exact (inv_one s I k j x H1 H2).
    + intros k x H. apply INS in H. exact (inv_alive s I k x H).
    + exact (inv_fresh s I).
    + intros x C D. destruct (inv_held s I x C D) as [k K]. exists k. apply INS. exact K.
    + exact (inv_nodup s I).
    + exact (inv_order s I).
  - intro k. unfold s', contents, upd, put. cbn [cells]. destruct (k =? i); reflexivity.
Qed.

(** Creating or removing an empty cell. *)
Lemma inv_cell_change s i x : INV s -> (cells s i = None \/ cells s i = Some (Any None None)) -> (x = None \/ x = Some (Any None None)) ->
  INV (put s i x) /\ same (contents (put s i x)) (upd (contents s) i (match x with None => Nothing | Some _ => Empty end)).
Proof.
  intros I E X. set (s' := put s i x).
  assert (INS : forall k y, inside s' k y <-> inside s k y).
  { intros k y. unfold s', inside, put. cbn [cells]. destruct (k =? i) eqn:K; [|reflexivity]. apply Z.eqb_eq in K. subst k.
    split; intros (a & o & H1 & H2 & H3); exfalso.
    - destruct X as [-> | ->]; [discriminate|]. injection H1 as <-. discriminate.
    - destruct E as [E|E]; rewrite E in H1; [discriminate|]. injection H1 as <-. discriminate. }
  split.
  - constructor.
    + intros k a. unfold s', put. cbn [cells]. destruct (k =? i); [|apply (inv_cell s I)]. intro H. subst x. destruct X as [X|X]; [discriminate|]. injection X as ->. exact Logic.I.
    + intros k j y H1 H2. apply INS in H1, H2. exact (inv_one s I k j y H1 H2).
    + intros k y H. apply INS in H. exact (inv_alive s I k y H).
    + exact (inv_fresh s I).
    + intros y C D. destruct (inv_held s I y C D) as [k K]. exists k. apply INS. exact K.
    + exact (inv_nodup s I).
    + exact (inv_order s I).
  - intro k. pose proof (contents_put s i x (fresh s) (log s) k) as P. unfold s'. change (put s i x) with (St (cells (put s i x)) (fresh s) (log s)). rewrite P.
    unfold upd. destruct (k =? i); [|reflexivity]. destruct X as [-> | ->]; reflexivity.
Qed.

(** *** Member functions *)
Lemma destruct_ok s i : INV s -> contents s i <> Nothing ->
  exists s', destruct i s = Some s' /\ INV s' /\ same (contents s') (upd (contents s) i Empty).
Proof.
  intros I N. unfold destruct. destruct (contents s i) as [| |t v] eqn:C; [contradiction| |].
  - rewrite (contents_empty s i I C). cbn [obind handler]. exists s. split; [reflexivity|]. split; [exact I|].
    intro k. unfold upd. destruct (k =? i) eqn:K; [|reflexivity]. apply Z.eqb_eq in K. subst. exact C.
  - destruct (contents_holds s i t v I C) as [id E]. rewrite E. cbn [obind handler]. exact (prim_drop s i id t v I E).
Qed.

Lemma drop_target_eq i s : drop_target i s = destruct i s.
Proof. reflexivity. Qed.

Lemma create_ok s i : INV s -> contents s i = Nothing ->
  exists s', create i s = Some s' /\ INV s' /\ same (contents s') (upd (contents s) i Empty).
Proof.
  intros I C. apply contents_nothing in C. unfold create. rewrite C. eexists. split; [reflexivity|].
  exact (inv_cell_change s i (Some (Any None None)) I (or_introl C) (or_intror eq_refl)).
Qed.

Lemma construct_ok s i t v : INV s -> contents s i = Empty ->
  exists s', h_construct t v i s = Some s' /\ INV s' /\ same (contents s') (upd (contents s) i (Holds t v)).
Proof.
  intros I C. destruct (prim_construct s i t v I (contents_empty s i I C)) as (s' & A & B & D & _). eauto.
Qed.

Lemma upd_same c i x : upd c i x i = x.
Proof. unfold upd. rewrite Z.eqb_refl. reflexivity. Qed.
Lemma upd_other c i x k : k <> i -> upd c i x k = c k.
Proof. intro H. unfold upd. apply Z.eqb_neq in H. rewrite H. reflexivity. Qed.

Lemma copy_from_ok s i j : INV s -> i <> j -> contents s i <> Nothing -> contents s j <> Nothing ->
  exists s', copy_from i j s = Some s' /\ INV s' /\
   same (contents s') (match contents s j with Holds t v => upd (contents s) i (Holds t v) | _ => contents s end).
Proof.
  intros I IJ CI CJ. unfold copy_from. destruct (contents s j) as [| |t v] eqn:C; [contradiction| |].
  - rewrite (contents_empty s j I C). cbn [obind handler]. exists s. split; [reflexivity|]. split; [exact I|]. intro; reflexivity.
  - destruct (contents_holds s j t v I C) as [id E]. rewrite E. cbn [obind handler]. unfold act_copy. rewrite drop_target_eq.
    destruct (destruct_ok s i I CI) as (s1 & R & I1 & C1). rewrite R. cbn [obind].
    assert (CJ1 : contents s1 j = Holds t v) by (rewrite C1, upd_other by auto; exact C).
    destruct (contents_holds s1 j t v I1 CJ1) as [id1 E1]. rewrite E1. cbn [obind storage oty oval]. rewrite Z.eqb_refl.
    assert (CI1 : contents s1 i = Empty) by (rewrite C1; apply upd_same).
    destruct (construct_ok s1 i t v I1 CI1) as (s2 & R2 & I2 & C2). exists s2. split; [exact R2|]. split; [exact I2|].
    intro k. rewrite C2. unfold upd. destruct (k =? i) eqn:K; [reflexivity|]. rewrite C1. unfold upd. rewrite K. reflexivity.
Qed.

Lemma move_from_ok mf s i j : INV s -> i <> j -> contents s i <> Nothing -> contents s j <> Nothing ->
  exists s', move_from mf i j s = Some s' /\ INV s' /\
   same (contents s') (match contents s j with Holds t v => upd (upd (contents s) j (Holds t (mf t v))) i (Holds t v) | _ => contents s end).
Proof.
  intros I IJ CI CJ. unfold move_from. destruct (contents s j) as [| |t v] eqn:C; [contradiction| |].
  - rewrite (contents_empty s j I C). cbn [obind handler]. exists s. split; [reflexivity|]. split; [exact I|]. intro; reflexivity.
  - destruct (contents_holds s j t v I C) as [id E]. rewrite E. cbn [obind handler]. unfold act_move. rewrite drop_target_eq.
    destruct (destruct_ok s i I CI) as (s1 & R & I1 & C1). rewrite R. cbn [obind].
    assert (CJ1 : contents s1 j = Holds t v) by (rewrite C1, upd_other by auto; exact C).
    destruct (contents_holds s1 j t v I1 CJ1) as [id1 E1]. rewrite E1. cbn [obind storage oty oval oid]. rewrite Z.eqb_refl.
    assert (CI1 : contents s1 i = Empty) by (rewrite C1; apply upd_same).
    destruct (prim_construct s1 i t v I1 (contents_empty s1 i I1 CI1)) as (s2 & R2 & I2 & C2 & X2 & K2). rewrite R2. cbn [obind].
    assert (E2 : cells s2 j = Some (Any (Some (Obj id1 t v)) (Some t))) by (rewrite K2 by auto; exact E1). rewrite E2. cbn [obind handler].
    destruct (inv_revalue s2 j id1 t v (mf t v) I2 E2) as [I3 C3]. eexists. split; [reflexivity|]. split; [exact I3|].
    intro k. rewrite C3. unfold upd. destruct (k =? j) eqn:KJ.
    + apply Z.eqb_eq in KJ. subst k. replace (j =? i) with false by lia. reflexivity.
    + rewrite C2. unfold upd. destruct (k =? i) eqn:K; [reflexivity|]. rewrite C1. unfold upd. rewrite K. reflexivity.
Qed.

Lemma destroy_ok s i : INV s -> contents s i <> Nothing ->
  exists s', destroy i s = Some s' /\ INV s' /\ same (contents s') (upd (contents s) i Nothing).
Proof.
  intros I N. unfold destroy. destruct (destruct_ok s i I N) as (s1 & R & I1 & C1). rewrite R. cbn [obind].
  assert (E : contents s1 i = Empty) by (rewrite C1; apply upd_same). apply contents_empty in E; [|exact I1].
  destruct (inv_cell_change s1 i None I1 (or_intror E) (or_introl eq_refl)) as [I2 C2]. eexists. split; [reflexivity|]. split; [exact I2|].
  intro k. rewrite C2. unfold upd. destruct (k =? i) eqn:K; [reflexivity|]. rewrite C1. unfold upd. rewrite K. reflexivity.
Qed.

(** What swap really does. *)
Definition real_effect (mf : Z -> Z -> Z) (o : op) (c : Z -> content) : Z -> content :=
  match o with
  | OSwap i j _ =>
      if i =? j then c else
      match c i, c j with
      | Holds t v, Empty => upd (upd c i (Holds t (mf t v))) j (Holds t v)
      | Empty, Holds t v => upd (upd c j (Holds t (mf t v))) i (Holds t v)
      | x, y => upd (upd c i y) j x
      end
  | _ => effect mf o c
  end.

Lemma upd_eq_self c i : same (upd c i (c i)) c.
Proof. intro k. unfold upd. destruct (k =? i) eqn:K; [|reflexivity]. apply Z.eqb_eq in K. subst. reflexivity. Qed.

Ltac casek := repeat match goal with |- context [?a =? ?b] => destruct (Z.eqb_spec a b); subst; try contradiction; try congruence end.

Lemma exec_ok mf s o : INV s -> legal (contents s) o ->
  exists s', exec mf o s = Some s' /\ INV s' /\ same (contents s') (real_effect mf o (contents s)).
Proof.
  intros I L. destruct o as [i|i j|i j|i t v|i|i j|i j|i j|i j|i t v|i j t|i|i j tmp]; cbn [exec legal real_effect effect] in *; unfold exists_at in *.
  - exact (create_ok s i I L).
  - destruct L as [L1 L2]. unfold create_copy. destruct (create_ok s i I L1) as (s1 & R & I1 & C1). rewrite R. cbn [obind].
    assert (IJ : i <> j) by (intros ->; contradiction).
    destruct (copy_from_ok s1 i j I1 IJ) as (s2 & R2 & I2 & C2); [rewrite C1, upd_same; discriminate|rewrite C1, upd_other by auto; exact L2|].
    exists s2. split; [exact R2|]. split; [exact I2|]. intro k. rewrite C2. rewrite (C1 j), upd_other by auto.
    destruct (contents s j) as [| |t v] eqn:C; [contradiction| |]; [rewrite C1|]; unfold upd; try rewrite C1; unfold upd; casek; reflexivity.
  - destruct L as [L1 L2]. unfold create_move. destruct (create_ok s i I L1) as (s1 & R & I1 & C1). rewrite R. cbn [obind].
    assert (IJ : i <> j) by (intros ->; contradiction).
    destruct (move_from_ok mf s1 i j I1 IJ) as (s2 & R2 & I2 & C2); [rewrite C1, upd_same; discriminate|rewrite C1, upd_other by auto; exact L2|].
    exists s2. split; [exact R2|]. split; [exact I2|]. intro k. rewrite C2. rewrite (C1 j), upd_other by auto.
    destruct (contents s j) as [| |t v] eqn:C; [contradiction| |]; cbn [moved]; [rewrite C1|]; unfold upd; try rewrite C1; unfold upd; casek; reflexivity.
  - unfold create_value. destruct (create_ok s i I L) as (s1 & R & I1 & C1). rewrite R. cbn [obind].
    destruct (construct_ok s1 i t v I1) as (s2 & R2 & I2 & C2); [rewrite C1; apply upd_same|]. exists s2. split; [exact R2|]. split; [exact I2|].
    intro k. rewrite C2. unfold upd. rewrite C1. unfold upd. casek; reflexivity.
  - exact (destroy_ok s i I L).
  - destruct L as [L1 L2]. unfold copy_assign. destruct (Z.eqb_spec i j) as [->|IJ].
    + destruct (cells s j) as [a|] eqn:E; [|exfalso; apply L2; unfold contents; rewrite E; reflexivity]. cbn [obind]. exists s. split; [reflexivity|]. split; [exact I|].
      intro k. symmetry. apply upd_eq_self.
    + destruct (destruct_ok s i I L1) as (s1 & R & I1 & C1). rewrite R. cbn [obind].
      destruct (copy_from_ok s1 i j I1 IJ) as (s2 & R2 & I2 & C2); [rewrite C1, upd_same; discriminate|rewrite C1, upd_other by auto; exact L2|].
      exists s2. split; [exact R2|]. split; [exact I2|]. intro k. rewrite C2. rewrite (C1 j), upd_other by auto.
      destruct (contents s j) as [| |t v] eqn:C; [contradiction| |]; [rewrite C1|]; unfold upd; try rewrite C1; unfold upd; casek; reflexivity.
  - destruct L as [L1 L2]. unfold move_assign. destruct (Z.eqb_spec i j) as [->|IJ].
    + destruct (cells s j) as [a|] eqn:E; [|exfalso; apply L2; unfold contents; rewrite E; reflexivity]. cbn [obind]. exists s. split; [reflexivity|]. split; [exact I|].
      intro k. reflexivity.
    + destruct (destruct_ok s i I L1) as (s1 & R & I1 & C1). rewrite R. cbn [obind].
      destruct (move_from_ok mf s1 i j I1 IJ) as (s2 & R2 & I2 & C2); [rewrite C1, upd_same; discriminate|rewrite C1, upd_other by auto; exact L2|].
      exists s2. split; [exact R2|]. split; [exact I2|]. intro k. rewrite C2. rewrite (C1 j), upd_other by auto.
      destruct (contents s j) as [| |t v] eqn:C; [contradiction| |]; cbn [moved]; [rewrite C1|]; unfold upd; try rewrite C1; unfold upd; casek; reflexivity.
  - destruct L as (L1 & L2 & IJ). unfold copy_assign_other. destruct (destruct_ok s i I L1) as (s1 & R & I1 & C1). rewrite R. cbn [obind].
    destruct (copy_from_ok s1 i j I1 IJ) as (s2 & R2 & I2 & C2); [rewrite C1, upd_same; discriminate|rewrite C1, upd_other by auto; exact L2|].
    exists s2. split; [exact R2|]. split; [exact I2|]. intro k. rewrite C2. rewrite (C1 j), upd_other by auto.
    destruct (contents s j) as [| |t v] eqn:C; [contradiction| |]; [rewrite C1|]; unfold upd; try rewrite C1; unfold upd; casek; reflexivity.
  - destruct L as (L1 & L2 & IJ). unfold move_assign_other. destruct (destruct_ok s i I L1) as (s1 & R & I1 & C1). rewrite R. cbn [obind].
    destruct (move_from_ok mf s1 i j I1 IJ) as (s2 & R2 & I2 & C2); [rewrite C1, upd_same; discriminate|rewrite C1, upd_other by auto; exact L2|].
    exists s2. split; [exact R2|]. split; [exact I2|]. intro k. rewrite C2. rewrite (C1 j), upd_other by auto.
    replace (i =? j) with false by lia.
    destruct (contents s j) as [| |t v] eqn:C; [contradiction| |]; cbn [moved]; [rewrite C1|]; unfold upd; try rewrite C1; unfold upd; casek; reflexivity.
  - unfold assign_value. destruct (destruct_ok s i I L) as (s1 & R & I1 & C1). rewrite R. cbn [obind].
    destruct (construct_ok s1 i t v I1) as (s2 & R2 & I2 & C2); [rewrite C1; apply upd_same|]. exists s2. split; [exact R2|]. split; [exact I2|].
    intro k. rewrite C2. unfold upd. rewrite C1. unfold upd. casek; reflexivity.
  - destruct L as (L1 & IJ & v & L2). unfold assign_from, any_cast_ref. destruct (contents_holds s j t v I L2) as [id E]. rewrite E. cbn [obind handler]. rewrite Z.eqb_refl. cbn [obind].
    destruct (destruct_ok s i I L1) as (s1 & R & I1 & C1). rewrite R. cbn [obind].
    assert (CJ1 : contents s1 j = Holds t v) by (rewrite C1, upd_other by auto; exact L2).
    destruct (contents_holds s1 j t v I1 CJ1) as [id1 E1]. rewrite E1. cbn [obind storage oval].
    destruct (construct_ok s1 i t v I1) as (s2 & R2 & I2 & C2); [rewrite C1; apply upd_same|]. exists s2. split; [exact R2|]. split; [exact I2|].
    intro k. rewrite C2, L2. unfold upd. rewrite C1. unfold upd. casek; reflexivity.
  - exact (destruct_ok s i I L).
  - destruct L as (L1 & L2 & L3). unfold swap. destruct (Z.eqb_spec i j) as [->|IJ].
    + destruct (cells s j) as [a|] eqn:E; [|exfalso; apply L2; unfold contents; rewrite E; reflexivity]. cbn [obind]. exists s. split; [reflexivity|]. split; [exact I|]. intro k. reflexivity.
    + destruct (contents s i) as [| |ti vi] eqn:Ci; [contradiction| |]; destruct (contents s j) as [| |tj vj] eqn:Cj; try contradiction.
      * rewrite (contents_empty s i I Ci), (contents_empty s j I Cj). cbn [obind handler].
        destruct (move_from_ok mf s i j I IJ) as (s2 & R2 & I2 & C2); [rewrite Ci; discriminate|rewrite Cj; discriminate|].
        exists s2. split; [exact R2|]. split; [exact I2|]. intro k. rewrite C2, Cj. unfold upd. casek; assumption || reflexivity.
      * rewrite (contents_empty s i I Ci). destruct (contents_holds s j tj vj I Cj) as [id E]. rewrite E. cbn [obind handler].
        destruct (move_from_ok mf s i j I IJ) as (s2 & R2 & I2 & C2); [rewrite Ci; discriminate|rewrite Cj; discriminate|].
        exists s2. split; [exact R2|]. split; [exact I2|]. intro k. rewrite C2, Cj. unfold upd. casek; reflexivity.
      * rewrite (contents_empty s j I Cj). destruct (contents_holds s i ti vi I Ci) as [id E]. rewrite E. cbn [obind handler].
        destruct (move_from_ok mf s j i I ltac:(auto)) as (s2 & R2 & I2 & C2); [rewrite Cj; discriminate|rewrite Ci; discriminate|].
        exists s2. split; [exact R2|]. split; [exact I2|]. intro k. rewrite C2, Ci. unfold upd. casek; reflexivity.
      * destruct (contents_holds s i ti vi I Ci) as [idi Ei]. rewrite Ei. destruct (contents_holds s j tj vj I Cj) as [idj Ej]. rewrite Ej. cbn [obind handler].
        assert (TI : tmp <> i) by (intros ->; congruence). assert (TJ : tmp <> j) by (intros ->; congruence).
        destruct (create_ok s tmp I L3) as (s1 & R1 & I1 & C1). rewrite R1. cbn [obind].
        assert (C1j : contents s1 j = Holds tj vj) by (rewrite C1, upd_other by auto; exact Cj).
        assert (C1i : contents s1 i = Holds ti vi) by (rewrite C1, upd_other by auto; exact Ci).
        destruct (move_from_ok mf s1 tmp j I1 TJ) as (s2 & R2 & I2 & C2); [rewrite C1, upd_same; discriminate|rewrite C1j; discriminate|]. rewrite R2. cbn [obind]. rewrite C1j in C2.
        assert (C2i : contents s2 i = Holds ti vi) by (rewrite C2, upd_other, upd_other by auto; exact C1i).
        assert (C2t : contents s2 tmp = Holds tj vj) by (rewrite C2; apply upd_same).
        destruct (move_from_ok mf s2 j i I2 ltac:(auto)) as (s3 & R3 & I3 & C3); [rewrite C2, upd_other, upd_same by auto; discriminate|rewrite C2i; discriminate|]. rewrite R3. cbn [obind]. rewrite C2i in C3.
        assert (C3t : contents s3 tmp = Holds tj vj) by (rewrite C3, upd_other, upd_other by auto; exact C2t).
        destruct (move_from_ok mf s3 i tmp I3 ltac:(auto)) as (s4 & R4 & I4 & C4); [rewrite C3, upd_other, upd_same by auto; discriminate|rewrite C3t; discriminate|]. rewrite R4. cbn [obind]. rewrite C3t in C4.
        destruct (destroy_ok s4 tmp I4) as (s5 & R5 & I5 & C5); [rewrite C4, upd_other, upd_same by auto; discriminate|].
        exists s5. split; [exact R5|]. split; [exact I5|]. intro k. rewrite C5. unfold upd.
        destruct (Z.eqb_spec k tmp) as [->|Kt].
        -- replace (tmp =? j) with false by lia. replace (tmp =? i) with false by lia. symmetry. exact L3.
        -- rewrite C4. unfold upd. destruct (Z.eqb_spec k i) as [->|Ki]; [replace (i =? j) with false by lia; reflexivity|].
           replace (k =? tmp) with false by lia. rewrite C3. unfold upd. destruct (Z.eqb_spec k j) as [->|Kj]; [reflexivity|].
           replace (k =? i) with false by lia. rewrite C2. unfold upd. replace (k =? tmp) with false by lia. replace (k =? j) with false by lia. rewrite C1. unfold upd. replace (k =? tmp) with false by lia. reflexivity.
Qed.

Lemma reach_inv mf s : reach mf s -> INV s.
Proof.
  induction 1 as [|s o s' R IH L E]; [exact inv_start|]. destruct (exec_ok mf s o IH L) as (s2 & E2 & I2 & _). congruence.
Qed.

(** *** Checking a concrete program *)
Definition existsb_at (c : Z -> content) (i : Z) : bool := match c i with Nothing => false | _ => true end.
Definition nothingb (c : Z -> content) (i : Z) : bool := match c i with Nothing => true | _ => false end.
Definition legalb (c : Z -> content) (o : op) : bool :=
  match o with
  | OCreate i => nothingb c i
  | OCreateCopy i j | OCreateMove i j => nothingb c i && existsb_at c j
  | OCreateValue i _ _ => nothingb c i
  | ODestroy i | OReset i | OValue i _ _ => existsb_at c i
  | OCopy i j | OMove i j => existsb_at c i && existsb_at c j
  | OCopyOther i j | OMoveOther i j => existsb_at c i && existsb_at c j && negb (i =? j)
  | OFrom i j t => existsb_at c i && negb (i =? j) && match c j with Holds t' _ => t' =? t | _ => false end
  | OSwap i j tmp => existsb_at c i && existsb_at c j && nothingb c tmp
  end.
Lemma legalb_ok c o : legalb c o = true -> legal c o.
Proof.
  assert (A : forall i, nothingb c i = true -> c i = Nothing) by (intro i; unfold nothingb; destruct (c i); try discriminate; reflexivity).
  assert (B : forall i, existsb_at c i = true -> exists_at c i) by (intro i; unfold existsb_at, exists_at; destruct (c i); try discriminate).
  destruct o; cbn [legalb legal]; rewrite ?andb_true_iff, ?negb_true_iff, ?Z.eqb_neq; intuition auto.
  destruct (c j) as [| |t' v]; try discriminate. exists v. f_equal. lia.
Qed.
Fixpoint run_checked (mf : Z -> Z -> Z) (ops : list op) (s : st) : option st :=
  match ops with
  | [] => Some s
  | o :: ops => if legalb (contents s) o then do s <- exec mf o s; run_checked mf ops s else None
  end.
Lemma run_checked_reach mf ops s s' : reach mf s -> run_checked mf ops s = Some s' -> reach mf s' /\ run mf ops s = Some s' /\ legal_run mf ops s.
Proof.
  revert s. induction ops as [|o ops IH]; intros s R E; cbn [run_checked run legal_run] in *.
  - injection E as <-. auto.
  - destruct (legalb (contents s) o) eqn:L; [|discriminate]. apply legalb_ok in L. destruct (exec mf o s) as [s1|] eqn:X; [|discriminate]. cbn [obind] in *.
    destruct (IH s1 (reach_step mf s o s1 R L X) E) as (A & B & C). split; [exact A|]. split; [exact B|]. split; [exact L|]. intros s2 H. injection H as <-. exact C.
Qed.
Definition result (mf : Z -> Z -> Z) (ops : list op) (s : st) : st := match run_checked mf ops s with Some s' => s' | None => start end.
Definition succeeds (mf : Z -> Z -> Z) (ops : list op) (s : st) : bool := match run_checked mf ops s with Some _ => true | None => false end.
Lemma result_reach mf ops s : reach mf s -> succeeds mf ops s = true -> reach mf (result mf ops s) /\ run mf ops s = Some (result mf ops s) /\ legal_run mf ops s.
Proof.
  unfold succeeds, result. intros R S. destruct (run_checked mf ops s) as [s'|] eqn:E; [|discriminate]. exact (run_checked_reach mf ops s s' R E).
Qed.
