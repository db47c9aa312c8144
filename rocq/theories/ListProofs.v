(* Proofs about the linked lists. *)
From Coq Require Import Permutation.
From Verif Require Import Base PtrHeap ListSpec ListModel.

(* the calls of a client on the models; the second component is what the call returns *)
Definition ll_call {V} (s : llist V) (c : call V) : option (llist V * answer V) :=
  match c with
  | CPrepend p v => do (s, b) <- ll_prepend s p v; Some (s, ABool b)
  | CAppend p v => do (s, b) <- ll_append s p v; Some (s, ABool b)
  | CInsert pos p v => do (s, b) <- ll_insert s pos p v; Some (s, ABool b)
  | CRemoveFront => do s <- ll_removeFront s; Some (s, AVoid)
  | CRemove pos => do (s, it) <- ll_remove s pos; Some (s, AIter it)
  | CRemoveAll => do s <- ll_removeAll s; Some (s, AVoid)
  | CGetFront => do v <- ll_getFront s; Some (s, AVal v)
  | CGetBack => do v <- ll_getBack s; Some (s, AVal v)
  | CIsEmpty => Some (s, ABool (ll_isEmpty s))
  | CGetSize => do n <- ll_getSize s; Some (s, ASize n)
  | CIterate => do l <- ll_traverse s; Some (s, AValues l)
  | CBegin => Some (s, AIter (ll_begin s))
  | CInc pos => do p <- ll_inc s pos; Some (s, AIter p)
  | CDeref pos => do v <- ll_deref s pos; Some (s, AVal v)
  | CRemoveBack | CDec _ => None
  end.
Fixpoint ll_calls {V} (s : llist V) (cs : list (call V)) : option (llist V * list (answer V)) :=
  match cs with
  | [] => Some (s, [])
  | c :: cs => do (s, a) <- ll_call s c; do (s, ans) <- ll_calls s cs; Some (s, a :: ans)
  end.
Definition dl_call {V} (s : dlist V) (c : call V) : option (dlist V * answer V) :=
  match c with
  | CPrepend p v => do (s, b) <- dl_prepend s p v; Some (s, ABool b)
  | CAppend p v => do s <- dl_append s p v; Some (s, AVoid)
  | CRemoveFront => do s <- dl_removeFront s; Some (s, AVoid)
  | CRemoveBack => do s <- dl_removeBack s; Some (s, AVoid)
  | CRemove pos => do (s, it) <- dl_erase s pos; Some (s, AIter it)
  | CGetFront => do v <- dl_getFront s; Some (s, AVal v)
  | CGetBack => do v <- dl_getBack s; Some (s, AVal v)
  | CIsEmpty => Some (s, ABool (dl_isEmpty s))
  | CGetSize => do n <- dl_getSize s; Some (s, ASize n)
  | CIterate => do l <- dl_traverse s; Some (s, AValues l)
  | CBegin => Some (s, AIter (dl_begin s))
  | CInc pos => do p <- dl_inc s pos; Some (s, AIter p)
  | CDec pos => do p <- dl_dec s pos; Some (s, AIter p)
  | CDeref pos => do v <- dl_deref s pos; Some (s, AVal v)
  | CInsert _ _ _ | CRemoveAll => None
  end.
Fixpoint dl_calls {V} (s : dlist V) (cs : list (call V)) : option (dlist V * list (answer V)) :=
  match cs with
  | [] => Some (s, [])
  | c :: cs => do (s, a) <- dl_call s c; do (s, ans) <- dl_calls s cs; Some (s, a :: ans)
  end.

Lemma NoDup_right (a b : list Z) : NoDup (a ++ b) -> NoDup b.
Proof. induction a as [|x t IH]; [tauto|]. cbn. intro H. inversion H. auto. Qed.
Lemma NoDup_left (a b : list Z) : NoDup (a ++ b) -> NoDup a.
Proof.
  induction a as [|x t IH]; [constructor|]. cbn. intro H. inversion_clear H as [|? ? A B]. constructor; [|auto].
  intro I. apply A, in_or_app. auto.
Qed.

Section Proofs.
Context {V : Type}.
Implicit Types (l : list (Z * V)).

Lemma ids_app l1 l2 : ids (l1 ++ l2) = ids l1 ++ ids l2.
Proof. apply map_app. Qed.
Lemma ids_cons p v l : ids ((p, v) :: l) = p :: ids l.
Proof. reflexivity. Qed.
Lemma ids_snoc l p v : ids (l ++ [(p, v)]) = ids l ++ [p].
Proof. apply ids_app. Qed.

(* identity of the first element of a list followed by e *)
Definition hd0 (e : Z) l : Z := match l with [] => e | (q, _) :: _ => q end.
Lemma first_hd0 l : first l = hd0 0 l.
Proof. destruct l as [|[]]; reflexivity. Qed.
Lemma hd0_app e l1 l2 : hd0 e (l1 ++ l2) = hd0 (hd0 e l2) l1.
Proof. destruct l1 as [|[]]; reflexivity. Qed.
Lemma hd0_In l : l <> [] -> forall e, In (hd0 e l) (ids l).
Proof. destruct l as [|[]]; [congruence|]. intros _ e. left. reflexivity. Qed.
Lemma final_snoc l p v : final (l ++ [(p, v)]) = p.
Proof. unfold final. rewrite ids_snoc. apply last_last. Qed.
Lemma final_app l1 p v l2 : final (l1 ++ (p, v) :: l2) = final ((p, v) :: l2).
Proof.
  unfold final. rewrite ids_app, ids_cons. induction (ids l1) as [|x t IH]; [reflexivity|].
  rewrite <- IH. destruct t; reflexivity.
Qed.
Lemma final_In l : l <> [] -> In (final l) (ids l).
Proof.
  intro H. destruct (exists_last H) as (l' & [p v] & ->). rewrite final_snoc, ids_snoc. apply in_or_app. right. left. reflexivity.
Qed.
Lemma nil_or_snoc l : l = [] \/ exists l' p v, l = l' ++ [(p, v)].
Proof. destruct l as [|x l]; [left; reflexivity|right]. destruct (@exists_last _ (x :: l)) as (l' & [p v] & ->); [congruence|eauto]. Qed.

Lemma NoDup_mid l1 q w l2 : NoDup (ids (l1 ++ (q, w) :: l2)) ->
  ~ In q (ids l1) /\ ~ In q (ids l2) /\ NoDup (ids (l1 ++ l2)) /\ (forall x, In x (ids l1) -> ~ In x (ids l2)).
Proof.
  rewrite !ids_app, ids_cons. intro H. pose proof (NoDup_remove_1 _ _ _ H) as H1. pose proof (NoDup_remove_2 _ _ _ H) as H2.
  split; [intro; apply H2, in_or_app; auto|]. split; [intro; apply H2, in_or_app; auto|]. split; [exact H1|].
  clear - H1. induction (ids l1) as [|y t IH]; [intros x []|]. cbn in H1. inversion_clear H1 as [|? ? A B].
  intros x [->|Hx] Hi; [apply A, in_or_app; auto|]. exact (IH B x Hx Hi).
Qed.

(* ---- singly linked ---- *)
Fixpoint seg (h : list (Z * node V)) l (e : Z) : Prop :=
  match l with
  | [] => True
  | (p, v) :: r => hget h p = Some (mkN v (hd0 e r)) /\ seg h r e
  end.

Lemma seg_app h l1 l2 e : seg h (l1 ++ l2) e <-> seg h l1 (hd0 e l2) /\ seg h l2 e.
Proof.
  induction l1 as [|[p v] r IH]; cbn [app seg]; [tauto|]. rewrite IH, hd0_app. tauto.
Qed.
Lemma seg_frame h h' l e : (forall q, In q (ids l) -> hget h' q = hget h q) -> seg h l e -> seg h' l e.
Proof.
  induction l as [|[p v] r IH]; cbn [seg]; [tauto|]. intros F [H1 H2]. split.
  - rewrite F; [exact H1|left; reflexivity].
  - apply IH; [|exact H2]. intros q Hq. apply F. right. exact Hq.
Qed.

Definition lrep (s : llist V) l : Prop :=
  Permutation (keys (ll_heap s)) (ids l) /\ NoDup (ids l) /\ ~ In 0 (ids l) /\
  ll_front s = first l /\ ll_back s = final l /\ seg (ll_heap s) l 0.

Lemma lrep_empty : lrep ll_empty [].
Proof. repeat split; try constructor. intros []. Qed.

Lemma first_0 l : ~ In 0 (ids l) -> (first l =? 0) = match l with [] => true | _ => false end.
Proof. destruct l as [|[p v] r]; [reflexivity|]. cbn. intro H. apply Z.eqb_neq. intro. apply H. auto. Qed.
Lemma final_0 l : ~ In 0 (ids l) -> (final l =? 0) = match l with [] => true | _ => false end.
Proof.
  destruct (nil_or_snoc l) as [->|(l' & p & v & ->)]; [reflexivity|]. rewrite final_snoc, ids_snoc. intro H.
  assert ((p =? 0) = false) as -> by (apply Z.eqb_neq; intro; apply H, in_or_app; right; left; auto).
  destruct l'; reflexivity.
Qed.

(* store to next *)
Lemma set_next_ok h l1 q w l2 e e' : NoDup (ids (l1 ++ (q, w) :: l2)) -> hget h q = Some (mkN w e) ->
  exists h', set_next h q e' = Some h' /\ keys h' = keys h /\ hget h' q = Some (mkN w e') /\
   (forall x, x <> q -> hget h' x = hget h x).
Proof.
  intros D G. unfold set_next. rewrite G. cbn [obind n_value]. apply (hset_ok _ _ (mkN w e') _ G).
Qed.

Lemma Permutation_NoDup' (a b : list Z) : Permutation a b -> NoDup b -> NoDup a.
Proof. intro P. apply Permutation_NoDup. symmetry. exact P. Qed.

Lemma prepend_ok s l p v : lrep s l -> fresh p l ->
  exists s', ll_prepend s p v = Some (s', true) /\ lrep s' ((p, v) :: l).
Proof.
  intros (P & D & Z0 & F & B & S) [Hp Hn]. unfold ll_prepend.
  destruct (hnew_ok (ll_heap s) p (mkN v (ll_front s)) Hp) as (E & G & R).
  { intro I. apply Hn. eapply Permutation_in; [exact P|exact I]. }
  rewrite E. cbn [obind]. eexists. split; [reflexivity|]. unfold lrep. cbn [ll_heap ll_front ll_back].
  split; [cbn; constructor; exact P|]. split; [constructor; assumption|]. split; [intros [|]; auto|].
  split; [reflexivity|]. split.
  - rewrite B, final_0 by exact Z0. destruct l as [|x r]; reflexivity.
  - cbn [seg]. split; [rewrite G, F, first_hd0; reflexivity|].
    eapply seg_frame; [|exact S]. intros q Hq. apply R. intros ->. contradiction.
Qed.

Lemma append_ok s l p v : lrep s l -> fresh p l ->
  exists s', ll_append s p v = Some (s', true) /\ lrep s' (l ++ [(p, v)]).
Proof.
  intros (P & D & Z0 & F & B & S) [Hp Hn]. unfold ll_append.
  destruct (hnew_ok (ll_heap s) p (mkN v 0) Hp) as (E & G & R).
  { intro I. apply Hn. eapply Permutation_in; [exact P|exact I]. }
  rewrite E. cbn [obind]. rewrite F, first_0 by exact Z0.
  assert (NoDup (ids (l ++ [(p, v)]))) as D'.
  { rewrite ids_snoc. eapply Permutation_NoDup; [apply Permutation_cons_append|]. constructor; assumption. }
  assert (~ In 0 (ids (l ++ [(p, v)]))) as Z0'.
  { rewrite ids_snoc. intro I. apply in_app_or in I. destruct I as [I|[I|[]]]; auto. }
  assert (Permutation (p :: keys (ll_heap s)) (ids (l ++ [(p, v)]))) as P'.
  { rewrite ids_snoc. etransitivity; [constructor; exact P|]. apply Permutation_cons_append. }
  destruct (nil_or_snoc l) as [->|(l' & q & w & ->)].
  - eexists. split; [reflexivity|]. unfold lrep. cbn [ll_heap ll_front ll_back].
    split; [exact P'|]. split; [exact D'|]. split; [exact Z0'|]. split; [reflexivity|]. split; [reflexivity|].
    cbn. cbn in G. rewrite G. auto.
  - replace (match l' ++ [(q, w)] with [] => true | _ => false end) with false by (destruct l'; reflexivity).
    rewrite final_snoc in B. rewrite B. apply seg_app in S. destruct S as [S1 [S2 _]]. cbn [hd0] in S1, S2.
    destruct (NoDup_mid _ _ _ _ D) as (N1 & N2 & N3 & _).
    assert (q <> p) as Hqp. { intros ->. apply Hn. rewrite ids_snoc. apply in_or_app. right. left. reflexivity. }
    destruct (set_next_ok ((p, mkN v 0) :: ll_heap s) l' q w [] 0 p D) as (h' & E' & K & G' & R'). { rewrite R by exact Hqp. exact S2. }
    rewrite E'. cbn [obind]. eexists. split; [reflexivity|]. unfold lrep. cbn [ll_heap ll_front ll_back].
    split; [rewrite K; exact P'|]. split; [exact D'|]. split; [exact Z0'|].
    split; [rewrite <- app_assoc, !first_hd0, !hd0_app; reflexivity|]. split; [rewrite final_snoc; reflexivity|].
    apply seg_app. split; [|cbn [seg hd0]; split; [rewrite R' by auto; exact G|exact I]].
    apply seg_app. cbn [hd0]. split; [|cbn [seg hd0]; split; [exact G'|exact I]].
    eapply seg_frame; [|exact S1]. intros x Hx. rewrite R', R; [reflexivity| |].
    + intros ->. apply Hn. rewrite ids_snoc. apply in_or_app. auto.
    + intros ->. contradiction.
Qed.

Lemma insert_ok s l1 q w l2 p v : lrep s (l1 ++ (q, w) :: l2) -> fresh p (l1 ++ (q, w) :: l2) ->
  exists s', ll_insert s q p v = Some (s', true) /\ lrep s' (l1 ++ (q, w) :: (p, v) :: l2).
Proof.
  intros (P & D & Z0 & F & B & S) [Hp Hn]. unfold ll_insert.
  destruct (q =? 0) eqn:Q0. { exfalso. apply Z0. rewrite ids_app. apply in_or_app. right. left. cbn. lia. }
  apply seg_app in S. destruct S as [S1 [S2 S3]]. cbn [hd0] in S1.
  destruct (NoDup_mid _ _ _ _ D) as (N1 & N2 & N3 & _).
  rewrite S2. cbn [obind n_next].
  destruct (hnew_ok (ll_heap s) p (mkN v (hd0 0 l2)) Hp) as (E & G & R).
  { intro I. apply Hn. eapply Permutation_in; [exact P|exact I]. }
  rewrite E. cbn [obind].
  assert (q <> p) as Hqp. { intros ->. apply Hn. rewrite ids_app. apply in_or_app. right. left. reflexivity. }
  destruct (set_next_ok ((p, mkN v (hd0 0 l2)) :: ll_heap s) l1 q w l2 (hd0 0 l2) p D) as (h' & E' & K & G' & R').
  { rewrite R by exact Hqp. exact S2. }
  rewrite E'. cbn [obind]. eexists. split; [reflexivity|]. unfold lrep. cbn [ll_heap ll_front ll_back].
  assert (Permutation (p :: ids (l1 ++ (q, w) :: l2)) (ids (l1 ++ (q, w) :: (p, v) :: l2))) as PP.
  { rewrite !ids_app, !ids_cons. etransitivity; [apply Permutation_middle|].
    apply Permutation_app_head, perm_swap. }
  split; [rewrite K; cbn; etransitivity; [constructor; exact P|exact PP]|].
  split; [eapply Permutation_NoDup; [exact PP|constructor; assumption]|].
  split. { intro I. eapply Permutation_in in I; [|symmetry; exact PP]. destruct I as [I|I]; auto. }
  split; [rewrite F, !first_hd0, !hd0_app; reflexivity|]. split.
  - rewrite B, !final_app. destruct l2 as [|[x y] r].
    + cbn. rewrite Z.eqb_refl. reflexivity.
    + assert (final ((q, w) :: (x, y) :: r) = final ((x, y) :: r)) as -> by reflexivity.
      assert (final ((q, w) :: (p, v) :: (x, y) :: r) = final ((x, y) :: r)) as -> by reflexivity.
      destruct (final ((x, y) :: r) =? q) eqn:E1; [|reflexivity]. exfalso. apply N2.
      replace q with (final ((x, y) :: r)) by lia. apply final_In. congruence.
  - apply seg_app. cbn [seg hd0]. split; [|split; [exact G'|split]].
    + eapply seg_frame; [|exact S1]. intros x Hx. rewrite R', R; [reflexivity| |].
      * intros ->. apply Hn. rewrite ids_app. apply in_or_app. auto.
      * intros ->. contradiction.
    + rewrite R' by auto. exact G.
    + eapply seg_frame; [|exact S3]. intros x Hx. rewrite R', R; [reflexivity| |].
      * intros ->. apply Hn. rewrite ids_app. apply in_or_app. right. right. exact Hx.
      * intros ->. contradiction.
Qed.

Lemma removeFront_ok s q w l : lrep s ((q, w) :: l) -> exists s', ll_removeFront s = Some s' /\ lrep s' l.
Proof.
  intros (P & D & Z0 & F & B & S). unfold ll_removeFront. cbn in F. rewrite F. destruct S as [S1 S2].
  rewrite S1. cbn [obind n_next]. destruct (NoDup_mid [] _ _ _ D) as (_ & N2 & N3 & _). cbn [app] in N3.
  destruct (hdel_ok (ll_heap s) q _ (Permutation_NoDup' _ _ P D) S1) as (h' & E & P' & R).
  assert (lrep (mkLL h' (first l) (final l)) l) as L.
  { unfold lrep. cbn [ll_heap ll_front ll_back]. split.
    - eapply Permutation_cons_inv. etransitivity; [symmetry; exact P'|exact P].
    - split; [exact N3|]. split; [intro; apply Z0; right; assumption|]. split; [reflexivity|]. split; [reflexivity|].
      eapply seg_frame; [|exact S2]. intros x Hx. apply R. intros ->. contradiction. }
  assert (~ In 0 (ids l)) as Z0' by (intro; apply Z0; right; assumption).
  rewrite <- first_hd0, first_0 by exact Z0'. destruct l as [|[x y] r]; rewrite E; cbn [obind].
  - eexists. split; [reflexivity|exact L].
  - eexists. split; [reflexivity|]. cbn in B. rewrite B. exact L.
Qed.

Lemma removeAll_loop_ok l : forall fuel s, (length l < fuel)%nat -> lrep s l ->
  exists s', ll_removeAll_loop fuel s = Some s' /\ lrep s' [].
Proof.
  induction l as [|[q w] l IH]; intros fuel s Hf L; destruct fuel as [|f]; try (cbn in Hf; lia);
    cbn [ll_removeAll_loop]; unfold ll_isEmpty.
  - pose proof L as (_ & _ & _ & F & _). rewrite F. cbn. eauto.
  - pose proof L as (_ & _ & Z0 & F & _). rewrite F, first_0 by exact Z0. cbn [negb].
    destruct (removeFront_ok _ _ _ _ L) as (s' & -> & L'). cbn [obind]. apply IH; [cbn in Hf; lia|exact L'].
Qed.

Lemma lrep_length s l : lrep s l -> length (ll_heap s) = length l.
Proof.
  intros (P & _). apply Permutation_length in P. unfold keys, ids in P. rewrite !map_length in P. exact P.
Qed.

Lemma removeAll_ok s l : lrep s l -> exists s', ll_removeAll s = Some s' /\ lrep s' [].
Proof. intro L. unfold ll_removeAll. apply (removeAll_loop_ok l); [rewrite (lrep_length _ _ L); lia|exact L]. Qed.

(* the loop of remove, standing on the last element of l1 *)
Lemma remove_loop_found : forall l1 l0 x y q w l2 fuel s, (length l1 < fuel)%nat ->
  lrep s (l0 ++ (x, y) :: l1 ++ (q, w) :: l2) ->
  exists s', ll_remove_loop fuel s x q = Some (s', first l2) /\ lrep s' (l0 ++ (x, y) :: l1 ++ l2).
Proof.
  induction l1 as [|[a b] l1 IH]; intros l0 x y q w l2 fuel s Hf L; destruct fuel as [|f]; try (cbn in Hf; lia).
  - clear Hf. pose proof L as (P & D & Z0 & F & B & S). cbn [ll_remove_loop app] in *.
    apply seg_app in S. cbn [seg hd0] in S. destruct S as (S1 & S2 & S3 & S4). rewrite S2. cbn [obind n_next].
    destruct (q =? 0) eqn:Q0.
    { exfalso. apply Z0. rewrite ids_app. apply in_or_app. right. right. left. cbn. lia. }
    rewrite Z.eqb_refl, S3. cbn [obind n_next].
    replace (l0 ++ (x, y) :: (q, w) :: l2) with ((l0 ++ [(x, y)]) ++ (q, w) :: l2) in * by (rewrite <- app_assoc; reflexivity).
    destruct (NoDup_mid _ _ _ _ D) as (N1 & N2 & N3 & N4).
    assert (x <> q) as Hxq. { intros ->. apply N1. rewrite ids_snoc. apply in_or_app. right. left. reflexivity. }
    assert (NoDup (ids (l0 ++ (x, y) :: l2))) as N3' by (rewrite <- app_assoc in N3; exact N3).
    destruct (NoDup_mid _ _ _ _ N3') as (M1 & M2 & _ & M4).
    destruct (set_next_ok (ll_heap s) l0 x y l2 q (hd0 0 l2) N3' S2) as (h' & E & K & G & R).
    rewrite E. cbn [obind].
    destruct (hdel_ok h' q (mkN w (hd0 0 l2))) as (h'' & E' & P' & R').
    { rewrite K. exact (Permutation_NoDup' _ _ P D). }
    { rewrite R by auto. exact S3. }
    rewrite E'. cbn [obind]. rewrite R', G by exact Hxq. cbn [obind n_next]. rewrite <- first_hd0.
    eexists. split; [reflexivity|]. unfold lrep. cbn [ll_heap ll_front ll_back].
    split.
    { eapply Permutation_cons_inv. rewrite <- P', K, P, (ids_app (l0 ++ _)), ids_cons, <- Permutation_middle.
      rewrite !ids_app, <- app_assoc. reflexivity. }
    split; [exact N3'|]. split.
    { intro I. apply Z0. rewrite !ids_app in *. cbn [ids map fst In] in *. apply in_app_or in I.
      rewrite !in_app_iff. cbn. cbn in I. tauto. }
    split; [rewrite F, <- app_assoc, !first_hd0, !hd0_app; reflexivity|]. split.
    { rewrite B, !final_app. destruct l2 as [|[u v] r].
      - cbn. rewrite Z.eqb_refl. reflexivity.
      - assert (final ((q, w) :: (u, v) :: r) = final ((u, v) :: r)) as -> by reflexivity.
        assert (final ((x, y) :: (u, v) :: r) = final ((u, v) :: r)) as -> by reflexivity.
        destruct (q =? final ((u, v) :: r)) eqn:E1; [|reflexivity]. exfalso. apply N2.
        replace q with (final ((u, v) :: r)) by lia. apply final_In. congruence. }
    apply seg_app. cbn [seg hd0]. split; [|split].
    + eapply seg_frame; [|exact S1]. intros z Hz. rewrite R', R; [reflexivity| |].
      * intros ->. contradiction.
      * intros ->. apply N1. rewrite ids_snoc. apply in_or_app. auto.
    + rewrite R' by auto. exact G.
    + eapply seg_frame; [|exact S4]. intros z Hz. rewrite R', R; [reflexivity| |].
      * intros ->. contradiction.
      * intros ->. contradiction.
  - pose proof L as (P & D & Z0 & F & B & S). cbn [ll_remove_loop app] in *.
    apply seg_app in S. cbn [seg hd0] in S. destruct S as (S1 & S2 & _). rewrite S2. cbn [obind n_next].
    destruct (a =? 0) eqn:A0.
    { exfalso. apply Z0. rewrite ids_app. apply in_or_app. right. right. left. cbn. lia. }
    destruct (a =? q) eqn:Aq.
    { exfalso. rewrite ids_app in D. apply NoDup_right in D. rewrite !ids_cons, ids_app, ids_cons in D.
      inversion_clear D as [|? ? _ D']. inversion_clear D' as [|? ? D'' _]. apply D''. apply in_or_app. right. left. lia. }
    specialize (IH (l0 ++ [(x, y)]) a b q w l2 f s). rewrite <- !app_assoc in IH. cbn [app] in IH.
    apply IH; [cbn in Hf; lia|exact L].
Qed.

Lemma remove_loop_none : forall l1 l0 x y q fuel s, (length l1 < fuel)%nat ->
  lrep s (l0 ++ (x, y) :: l1) -> ~ In q (ids l1) -> ll_remove_loop fuel s x q = Some (s, q).
Proof.
  induction l1 as [|[a b] l1 IH]; intros l0 x y q fuel s Hf L Hq; destruct fuel as [|f]; try (cbn in Hf; lia).
  - pose proof L as (P & D & Z0 & F & B & S). cbn [ll_remove_loop].
    apply seg_app in S. cbn [seg hd0] in S. destruct S as (S1 & S2 & _). rewrite S2. reflexivity.
  - pose proof L as (P & D & Z0 & F & B & S). cbn [ll_remove_loop].
    apply seg_app in S. cbn [seg hd0] in S. destruct S as (S1 & S2 & _). rewrite S2. cbn [obind n_next].
    destruct (a =? 0) eqn:A0.
    { exfalso. apply Z0. rewrite ids_app. apply in_or_app. right. right. left. cbn. lia. }
    destruct (a =? q) eqn:Aq. { exfalso. apply Hq. left. cbn. lia. }
    specialize (IH (l0 ++ [(x, y)]) a b q f s). rewrite <- !app_assoc in IH. cbn [app] in IH.
    apply IH; [cbn in Hf; lia|exact L|]. intro I. apply Hq. right. exact I.
Qed.

Lemma remove_ok s l1 q w l2 : lrep s (l1 ++ (q, w) :: l2) ->
  exists s', ll_remove s q = Some (s', first l2) /\ lrep s' (l1 ++ l2).
Proof.
  intro L. pose proof L as (P & D & Z0 & F & _). unfold ll_remove, ll_isEmpty. rewrite F, first_0 by exact Z0.
  destruct l1 as [|[x y] l1]; cbn [app first ids map fst hd].
  - rewrite Z.eqb_refl. destruct (removeFront_ok _ _ _ _ L) as (s' & -> & L'). cbn [obind].
    exists s'. split; [|exact L']. unfold ll_begin. destruct L' as (_ & _ & _ & F' & _). rewrite F'. reflexivity.
  - destruct (q =? x) eqn:E.
    { exfalso. cbn in D. inversion_clear D as [|? ? D' _]. apply D'. fold (ids (l1 ++ (q, w) :: l2)).
      rewrite ids_app. apply in_or_app. right. left. cbn. lia. }
    destruct (remove_loop_found l1 [] x y q w l2 (S (length (ll_heap s))) s) as (s' & H1 & H2).
    { rewrite (lrep_length _ _ L). cbn [length app]. rewrite app_length. lia. }
    { exact L. }
    exists s'. split; [exact H1|exact H2].
Qed.

Lemma remove_none s l q : lrep s l -> ~ In q (ids l) ->
  ll_remove s q = Some (s, match l with [] => 0 | _ => q end).
Proof.
  intros L Hq. pose proof L as (P & D & Z0 & F & _). unfold ll_remove, ll_isEmpty. rewrite F, first_0 by exact Z0.
  destruct l as [|[x y] l].
  - unfold ll_begin. rewrite F. reflexivity.
  - cbn [first ids map fst hd]. destruct (q =? x) eqn:E. { exfalso. apply Hq. left. cbn. lia. }
    apply (remove_loop_none l [] x y); [rewrite (lrep_length _ _ L); cbn; lia|exact L|]. intro; apply Hq; right; assumption.
Qed.

Lemma ll_loop_ok s l : forall l0 l1 fuel, l = l0 ++ l1 -> (length l1 < fuel)%nat -> lrep s l ->
  ll_loop fuel s (first l1) = Some (values l1).
Proof.
  intros l0 l1 fuel -> Hf L. revert l0 fuel Hf L. induction l1 as [|[p v] r IH]; intros l0 fuel Hf L;
    destruct fuel as [|f]; try (cbn in Hf; lia); [reflexivity|].
  pose proof L as (P & D & Z0 & F & B & S). cbn [ll_loop first ids map fst hd]. unfold ll_end.
  destruct (p =? 0) eqn:E. { exfalso. apply Z0. rewrite ids_app. apply in_or_app. right. left. cbn. lia. }
  apply seg_app in S. cbn [seg hd0] in S. destruct S as (S1 & S2 & _). unfold ll_deref, ll_inc. rewrite S2. cbn [obind n_next n_value].
  rewrite <- first_hd0. specialize (IH (l0 ++ [(p, v)]) f). rewrite <- app_assoc in IH. cbn [app] in IH.
  rewrite IH; [reflexivity|cbn in Hf; lia|exact L].
Qed.

Lemma ll_traverse_ok s l : lrep s l -> ll_traverse s = Some (values l).
Proof.
  intro L. unfold ll_traverse, ll_begin. pose proof L as (_ & _ & _ & F & _). rewrite F.
  apply (ll_loop_ok s l []); [reflexivity|rewrite (lrep_length _ _ L); lia|exact L].
Qed.

Lemma lrep_get s l1 q w l2 : lrep s (l1 ++ (q, w) :: l2) -> hget (ll_heap s) q = Some (mkN w (first l2)).
Proof. intros (_ & _ & _ & _ & _ & S). apply seg_app in S. destruct S as [_ [S _]]. rewrite first_hd0. exact S. Qed.

Lemma ll_call_ok s l c a l' : lrep s l -> single l c a l' -> exists s', ll_call s c = Some (s', a) /\ lrep s' l'.
Proof.
  intros L H. destruct H as [l c a l' H|l p v Hf|l p v Hf|l1 q w l2 p v Hf|l|l pos Hn]; [destruct H as [l p v Hf|q w l|q w l|q w l| |q w l|l|l|l|l1 q w l2|l1 q w l2|l1 q w l2]| | | | |]; cbn [ll_call].
  - destruct (prepend_ok s l p v L Hf) as (s' & -> & L'). cbn. eauto.
  - destruct (removeFront_ok _ _ _ _ L) as (s' & -> & L'). cbn. eauto.
  - pose proof (lrep_get s [] q w l L) as G. pose proof L as (_ & _ & _ & F & _). unfold ll_getFront. rewrite F. cbn [first ids map fst hd].
    rewrite G. cbn. eauto.
  - pose proof (lrep_get s l q w [] L) as G. pose proof L as (_ & _ & _ & _ & B & _). unfold ll_getBack. rewrite B, final_snoc.
    rewrite G. cbn. eauto.
  - pose proof L as (_ & _ & _ & F & _). unfold ll_isEmpty. rewrite F. cbn. eauto.
  - pose proof L as (_ & _ & Z0 & F & _). unfold ll_isEmpty. rewrite F, first_0 by exact Z0. eauto.
  - unfold ll_getSize. rewrite (ll_traverse_ok _ _ L). cbn [obind]. unfold zlen, values. rewrite map_length. eauto.
  - rewrite (ll_traverse_ok _ _ L). cbn [obind]. eauto.
  - pose proof L as (_ & _ & Z0 & F & _). unfold ll_begin. rewrite F. eauto.
  - unfold ll_inc. rewrite (lrep_get _ _ _ _ _ L). cbn. eauto.
  - unfold ll_deref. rewrite (lrep_get _ _ _ _ _ L). cbn. eauto.
  - destruct (remove_ok _ _ _ _ _ L) as (s' & -> & L'). cbn. eauto.
  - destruct (append_ok s l p v L Hf) as (s' & -> & L'). cbn. eauto.
  - unfold ll_insert. cbn [Z.eqb]. destruct (append_ok s l p v L Hf) as (s' & -> & L'). cbn. eauto.
  - destruct (insert_ok s l1 q w l2 p v L Hf) as (s' & -> & L'). cbn. eauto.
  - destruct (removeAll_ok _ _ L) as (s' & -> & L'). cbn. eauto.
  - rewrite (remove_none _ _ _ L Hn). cbn. eauto.
Qed.

Lemma ll_calls_ok l cs ans l' : calls single l cs ans l' -> forall s, lrep s l ->
  exists s', ll_calls s cs = Some (s', ans) /\ lrep s' l'.
Proof.
  induction 1 as [l|l c a l1 cs ans l2 H1 H2 IH]; intros s L; cbn [ll_calls]; [eauto|].
  destruct (ll_call_ok _ _ _ _ _ L H1) as (s1 & -> & L1). cbn [obind].
  destruct (IH _ L1) as (s2 & -> & L2). cbn [obind]. eauto.
Qed.

Lemma ll_destroy_loop_ok l : forall fuel h, (length l < fuel)%nat -> Permutation (keys h) (ids l) -> NoDup (ids l) ->
  ~ In 0 (ids l) -> seg h l 0 -> ll_destroy_loop fuel h (first l) = Some [].
Proof.
  induction l as [|[q w] l IH]; intros fuel h Hf P D Z0 S; destruct fuel as [|f]; try (cbn in Hf; lia); cbn [ll_destroy_loop].
  - cbn. apply Permutation_sym, Permutation_nil in P. destruct h; [reflexivity|discriminate].
  - rewrite first_0 by exact Z0. cbn [first ids map fst hd]. destruct S as [S1 S2]. rewrite S1. cbn [obind n_next].
    destruct (hdel_ok h q _ (Permutation_NoDup' _ _ P D) S1) as (h' & -> & P' & R). cbn [obind]. rewrite <- first_hd0.
    destruct (NoDup_mid [] _ _ _ D) as (_ & N2 & N3 & _). cbn [app] in N3.
    apply IH; [cbn in Hf; lia| |exact N3|intro; apply Z0; right; assumption|].
    + eapply Permutation_cons_inv. etransitivity; [symmetry; exact P'|exact P].
    + eapply seg_frame; [|exact S2]. intros x Hx. apply R. intros ->. contradiction.
Qed.

Lemma ll_destroy_ok s l : lrep s l -> ll_destroy s = Some [].
Proof.
  intros L. pose proof L as (P & D & Z0 & F & B & S). unfold ll_destroy. rewrite F.
  apply ll_destroy_loop_ok; try assumption. rewrite (lrep_length _ _ L). lia.
Qed.

(* ---- doubly linked ---- *)
Fixpoint dseg (h : list (Z * dnode V)) (prev : Z) l (e : Z) : Prop :=
  match l with
  | [] => True
  | (p, v) :: r => hget h p = Some (mkD v prev (hd0 e r)) /\ dseg h p r e
  end.
Definition last0 (prev : Z) l : Z := last (ids l) prev.
Lemma last0_cons prev p v l : last0 prev ((p, v) :: l) = last0 p l.
Proof.
  unfold last0. rewrite ids_cons. revert p. induction (ids l) as [|x t IH]; intro p; [reflexivity|].
  change (last (x :: t) prev = last (x :: t) p). clear IH. revert x. induction t as [|y t IH]; intro x; [reflexivity|].
  exact (IH y).
Qed.
Lemma last0_snoc prev l p v : last0 prev (l ++ [(p, v)]) = p.
Proof. unfold last0. rewrite ids_snoc. apply last_last. Qed.
Lemma dseg_app h prev l1 l2 e : dseg h prev (l1 ++ l2) e <-> dseg h prev l1 (hd0 e l2) /\ dseg h (last0 prev l1) l2 e.
Proof.
  revert prev. induction l1 as [|[p v] r IH]; intro prev; cbn [app dseg]; [tauto|]. rewrite IH, hd0_app, last0_cons. tauto.
Qed.
Lemma dseg_frame h h' prev l e : (forall q, In q (ids l) -> hget h' q = hget h q) -> dseg h prev l e -> dseg h' prev l e.
Proof.
  revert prev. induction l as [|[p v] r IH]; intro prev; cbn [dseg]; [tauto|]. intros F [H1 H2]. split.
  - rewrite F; [exact H1|left; reflexivity].
  - apply IH; [|exact H2]. intros q Hq. apply F. right. exact Hq.
Qed.

Definition drep (s : dlist V) l : Prop :=
  Permutation (keys (dl_heap s)) (ids l) /\ NoDup (ids l) /\ ~ In 0 (ids l) /\
  dl_front s = first l /\ dl_back s = final l /\ dseg (dl_heap s) 0 l 0.

Lemma drep_empty : drep dl_empty [].
Proof. repeat split; try constructor. intros []. Qed.

Lemma set_dnext_ok (h : list (Z * dnode V)) q w pr e e' : hget h q = Some (mkD w pr e) ->
  exists h', set_dnext h q e' = Some h' /\ keys h' = keys h /\ hget h' q = Some (mkD w pr e') /\
   (forall x, x <> q -> hget h' x = hget h x).
Proof. intros G. unfold set_dnext. rewrite G. cbn [obind d_value d_previous]. apply (hset_ok _ _ (mkD w pr e') _ G). Qed.
Lemma set_dprevious_ok (h : list (Z * dnode V)) q w pr e pr' : hget h q = Some (mkD w pr e) ->
  exists h', set_dprevious h q pr' = Some h' /\ keys h' = keys h /\ hget h' q = Some (mkD w pr' e) /\
   (forall x, x <> q -> hget h' x = hget h x).
Proof. intros G. unfold set_dprevious. rewrite G. cbn [obind d_value d_next]. apply (hset_ok _ _ (mkD w pr' e) _ G). Qed.

Lemma dprepend_ok s l p v : drep s l -> fresh p l ->
  exists s', dl_prepend s p v = Some (s', true) /\ drep s' ((p, v) :: l).
Proof.
  intros (P & D & Z0 & F & B & S) [Hp Hn]. unfold dl_prepend.
  destruct (hnew_ok (dl_heap s) p (mkD v 0 (dl_front s)) Hp) as (E & G & R).
  { intro I. apply Hn. eapply Permutation_in; [exact P|exact I]. }
  rewrite E. cbn [obind]. rewrite F, first_0 by exact Z0.
  assert (Permutation (p :: keys (dl_heap s)) (ids ((p, v) :: l))) as P' by (constructor; exact P).
  assert (NoDup (ids ((p, v) :: l))) as D' by (constructor; assumption).
  assert (~ In 0 (ids ((p, v) :: l))) as Z0' by (intros [|]; auto).
  destruct l as [|[q w] r].
  - eexists. split; [reflexivity|]. unfold drep. cbn [dl_heap dl_front dl_back].
    split; [exact P'|]. split; [exact D'|]. split; [exact Z0'|]. split; [reflexivity|]. split; [reflexivity|].
    split; [rewrite F in G; exact G|exact I].
  - assert (q <> p) as Hqp. { intros ->. apply Hn. left. reflexivity. }
    destruct S as [S1 S2]. destruct (NoDup_mid [] _ _ _ D) as (_ & N2 & _ & _). cbn [first ids map fst hd].
    destruct (set_dprevious_ok ((p, mkD v 0 (dl_front s)) :: dl_heap s) q w 0 (hd0 0 r) p) as (h' & E' & K & G' & R').
    { rewrite R by exact Hqp. exact S1. }
    rewrite F in E'. cbn [first ids map fst hd] in E'. rewrite E'. cbn [obind]. eexists. split; [reflexivity|].
    unfold drep. cbn [dl_heap dl_front dl_back].
    split; [rewrite K; exact P'|]. split; [exact D'|]. split; [exact Z0'|]. split; [reflexivity|]. split; [rewrite B; reflexivity|].
    split; [|split].
    + rewrite R', G by auto. rewrite F. reflexivity.
    + exact G'.
    + eapply dseg_frame; [|exact S2]. intros x Hx. rewrite R', R; [reflexivity| |].
      * intros ->. apply Hn. right. exact Hx.
      * intros ->. contradiction.
Qed.

Lemma dappend_ok s l p v : drep s l -> fresh p l ->
  exists s', dl_append s p v = Some s' /\ drep s' (l ++ [(p, v)]).
Proof.
  intros (P & D & Z0 & F & B & S) [Hp Hn]. unfold dl_append.
  destruct (hnew_ok (dl_heap s) p (mkD v (dl_back s) 0) Hp) as (E & G & R).
  { intro I. apply Hn. eapply Permutation_in; [exact P|exact I]. }
  rewrite E. cbn [obind].
  assert (NoDup (ids (l ++ [(p, v)]))) as D'.
  { rewrite ids_snoc. eapply Permutation_NoDup; [apply Permutation_cons_append|]. constructor; assumption. }
  assert (~ In 0 (ids (l ++ [(p, v)]))) as Z0'.
  { rewrite ids_snoc. intro I. apply in_app_or in I. destruct I as [I|[I|[]]]; auto. }
  assert (Permutation (p :: keys (dl_heap s)) (ids (l ++ [(p, v)]))) as P'.
  { rewrite ids_snoc. etransitivity; [constructor; exact P|]. apply Permutation_cons_append. }
  destruct (dl_back s =? 0) eqn:B0; rewrite B, final_0 in B0 by exact Z0;
    destruct (nil_or_snoc l) as [->|(l' & q & w & ->)]; try discriminate; try (destruct l'; discriminate).
  - eexists. split; [reflexivity|]. unfold drep. cbn [dl_heap dl_front dl_back].
    split; [exact P'|]. split; [exact D'|]. split; [exact Z0'|]. split; [reflexivity|]. split; [reflexivity|].
    split; [rewrite G, B; reflexivity|exact I].
  - clear B0. rewrite final_snoc in B. rewrite B in *. apply dseg_app in S. destruct S as [S1 [S2 _]]. cbn [hd0] in S1, S2.
    destruct (NoDup_mid _ _ _ _ D) as (N1 & N2 & N3 & _).
    assert (q <> p) as Hqp. { intros ->. apply Hn. rewrite ids_snoc. apply in_or_app. right. left. reflexivity. }
    destruct (set_dnext_ok ((p, mkD v q 0) :: dl_heap s) q w (last0 0 l') 0 p) as (h' & E' & K & G' & R').
    { rewrite R by exact Hqp. exact S2. }
    rewrite E'. cbn [obind]. eexists. split; [reflexivity|]. unfold drep. cbn [dl_heap dl_front dl_back].
    split; [rewrite K; exact P'|]. split; [exact D'|]. split; [exact Z0'|].
    split; [rewrite F, <- app_assoc, !first_hd0, !hd0_app; reflexivity|]. split; [rewrite final_snoc; reflexivity|].
    apply dseg_app. rewrite last0_snoc. split; [|cbn [dseg hd0]; split; [rewrite R' by auto; exact G|exact I]].
    apply dseg_app. cbn [hd0]. split; [|cbn [dseg hd0]; split; [exact G'|exact I]].
    eapply dseg_frame; [|exact S1]. intros x Hx. rewrite R', R; [reflexivity| |].
    + intros ->. apply Hn. rewrite ids_snoc. apply in_or_app. auto.
    + intros ->. contradiction.
Qed.

Lemma dremoveFront_ok s q w l : drep s ((q, w) :: l) -> exists s', dl_removeFront s = Some s' /\ drep s' l.
Proof.
  intros (P & D & Z0 & F & B & S). unfold dl_removeFront. cbn in F. rewrite F. destruct S as [S1 S2].
  rewrite S1. cbn [obind d_next]. destruct (NoDup_mid [] _ _ _ D) as (_ & N2 & N3 & _). cbn [app] in N3.
  assert (~ In 0 (ids l)) as Z0' by (intro; apply Z0; right; assumption).
  rewrite <- first_hd0, first_0 by exact Z0'. destruct l as [|[x y] r].
  - cbn [obind]. destruct (hdel_ok (dl_heap s) q _ (Permutation_NoDup' _ _ P D) S1) as (h' & E & P' & R).
    rewrite E. cbn [obind]. eexists. split; [reflexivity|]. unfold drep. cbn [dl_heap dl_front dl_back].
    split; [eapply Permutation_cons_inv; etransitivity; [symmetry; exact P'|exact P]|].
    repeat split; auto.
  - cbn [first ids map fst hd]. destruct S2 as [S2 S3]. destruct (NoDup_mid [] _ _ _ N3) as (_ & M2 & _ & _).
    destruct (set_dprevious_ok (dl_heap s) x y q (hd0 0 r) 0 S2) as (h1 & E1 & K1 & G1 & R1). rewrite E1. cbn [obind].
    assert (q <> x) as Hqx. { intros ->. apply N2. left. reflexivity. }
    destruct (hdel_ok h1 q (mkD w 0 x)) as (h' & E & P' & R).
    { rewrite K1. exact (Permutation_NoDup' _ _ P D). } { rewrite R1 by exact Hqx. exact S1. }
    rewrite E. cbn [obind]. eexists. split; [reflexivity|]. unfold drep. cbn [dl_heap dl_front dl_back].
    split; [eapply Permutation_cons_inv; etransitivity; [symmetry; exact P'|rewrite K1; exact P]|].
    split; [exact N3|]. split; [exact Z0'|]. split; [reflexivity|]. split; [rewrite B; reflexivity|]. split.
    + rewrite R by auto. exact G1.
    + eapply dseg_frame; [|exact S3]. intros z Hz. rewrite R, R1; [reflexivity| |].
      * intros ->. contradiction.
      * intros ->. apply N2. right. exact Hz.
Qed.

Lemma final_last0 l : final l = last0 0 l.
Proof. reflexivity. Qed.

Lemma dremoveBack_ok s q w l : drep s (l ++ [(q, w)]) -> exists s', dl_removeBack s = Some s' /\ drep s' l.
Proof.
  intros (P & D & Z0 & F & B & S). unfold dl_removeBack. rewrite final_snoc in B. rewrite B.
  apply dseg_app in S. destruct S as [S1 [S2 _]]. cbn [hd0] in S1, S2. rewrite <- final_last0 in S2.
  rewrite S2. cbn [obind d_previous]. destruct (NoDup_mid _ _ _ _ D) as (N1 & _ & N3 & _). rewrite app_nil_r in N3.
  assert (~ In 0 (ids l)) as Z0' by (intro; apply Z0; rewrite ids_app; apply in_or_app; left; assumption).
  assert (Permutation (keys (dl_heap s)) (q :: ids l)) as PQ.
  { rewrite P, ids_snoc. symmetry. apply Permutation_cons_append. }
  rewrite final_0 by exact Z0'. destruct (nil_or_snoc l) as [->|(l' & x & y & ->)].
  - cbn [obind]. destruct (hdel_ok (dl_heap s) q _ (Permutation_NoDup' _ _ P D) S2) as (h' & E & P' & R).
    rewrite E. cbn [obind]. eexists. split; [reflexivity|]. unfold drep. cbn [dl_heap dl_front dl_back].
    split; [eapply Permutation_cons_inv; etransitivity; [symmetry; exact P'|exact PQ]|].
    repeat split; auto.
  - replace (match l' ++ [(x, y)] with [] => true | _ => false end) with false by (destruct l'; reflexivity).
    rewrite final_snoc in *. apply dseg_app in S1. destruct S1 as [S1 [S3 _]]. cbn [hd0] in S1, S3.
    destruct (NoDup_mid _ _ _ _ N3) as (M1 & _ & _ & _).
    destruct (set_dnext_ok (dl_heap s) x y (last0 0 l') q 0 S3) as (h1 & E1 & K1 & G1 & R1). rewrite E1. cbn [obind].
    assert (q <> x) as Hqx. { intros ->. apply N1. rewrite ids_snoc. apply in_or_app. right. left. reflexivity. }
    destruct (hdel_ok h1 q (mkD w x 0)) as (h' & E & P' & R).
    { rewrite K1. exact (Permutation_NoDup' _ _ P D). } { rewrite R1 by exact Hqx. exact S2. }
    rewrite E. cbn [obind]. eexists. split; [reflexivity|]. unfold drep. cbn [dl_heap dl_front dl_back].
    split; [eapply Permutation_cons_inv; etransitivity; [symmetry; exact P'|rewrite K1; exact PQ]|].
    split; [exact N3|]. split; [exact Z0'|].
    split; [rewrite F, <- app_assoc, !first_hd0, !hd0_app; reflexivity|]. split; [rewrite final_snoc; reflexivity|].
    apply dseg_app. cbn [hd0 dseg]. split; [|split; [rewrite R by auto; exact G1|exact I]].
    eapply dseg_frame; [|exact S1]. intros z Hz. rewrite R, R1; [reflexivity| |].
      * intros ->. contradiction.
      * intros ->. apply N1. rewrite ids_snoc. apply in_or_app. auto.
Qed.

Lemma drep_get s l1 q w l2 : drep s (l1 ++ (q, w) :: l2) -> hget (dl_heap s) q = Some (mkD w (final l1) (first l2)).
Proof. intros (_ & _ & _ & _ & _ & S). apply dseg_app in S. destruct S as [_ [S _]]. rewrite first_hd0. exact S. Qed.

Lemma derase_ok s l1 q w l2 : drep s (l1 ++ (q, w) :: l2) ->
  exists s', dl_erase s q = Some (s', first l2) /\ drep s' (l1 ++ l2).
Proof.
  intros L. pose proof L as (P & D & Z0 & F & B & S). unfold dl_erase. rewrite (drep_get _ _ _ _ _ L). cbn [obind d_previous d_next].
  assert (~ In 0 (ids l1)) as Z1 by (intro; apply Z0; rewrite ids_app; apply in_or_app; left; assumption).
  assert (~ In 0 (ids l2)) as Z2 by (intro; apply Z0; rewrite ids_app; apply in_or_app; right; right; assumption).
  rewrite final_0, first_0 by assumption. destruct (nil_or_snoc l1) as [->|(l1' & x & y & ->)].
  - destruct (dremoveFront_ok _ _ _ _ L) as (s' & -> & L'). cbn [obind app]. unfold dl_begin.
    exists s'. split; [|exact L']. destruct L' as (_ & _ & _ & F' & _). rewrite F'. reflexivity.
  - replace (match l1' ++ [(x, y)] with [] => true | _ => false end) with false by (destruct l1'; reflexivity).
    destruct l2 as [|[u v] r].
    + destruct (dremoveBack_ok _ _ _ _ L) as (s' & -> & L'). cbn [obind]. exists s'. rewrite app_nil_r. split; [reflexivity|exact L'].
    + rewrite final_snoc. cbn [first ids map fst hd].
      destruct (NoDup_mid _ _ _ _ D) as (N1 & N2 & N3 & N4).
      assert (x <> q) as Hxq. { intros ->. apply N1. rewrite ids_snoc. apply in_or_app. right. left. reflexivity. }
      assert (u <> q) as Huq. { intros ->. apply N2. left. reflexivity. }
      assert (x <> u) as Hxu. { intros ->. apply (N4 u). rewrite ids_snoc. apply in_or_app. right. left. reflexivity. left. reflexivity. }
      assert (~ In x (ids r)) as Hxr. { intro I. apply (N4 x). rewrite ids_snoc. apply in_or_app. right. left. reflexivity. right. exact I. }
      apply dseg_app in S. destruct S as [S1 [S2 [S3 S4]]]. rewrite last0_snoc in S2. cbn [hd0] in S1, S2.
      apply dseg_app in S1. destruct S1 as [S0 [S1 _]]. cbn [hd0] in S0, S1.
      assert (~ In x (ids l1') /\ ~ In u (ids r)) as [Hxl Hur].
      { rewrite ids_app in N3. split.
        - apply NoDup_left in N3. rewrite ids_snoc in N3. apply NoDup_remove_2 in N3. rewrite app_nil_r in N3. exact N3.
        - apply NoDup_right in N3. inversion N3. assumption. }
      destruct (set_dnext_ok (dl_heap s) x y (last0 0 l1') q u S1) as (h1 & E1 & K1 & G1 & R1). rewrite E1. cbn [obind].
      rewrite R1, S2 by auto. cbn [obind d_next d_previous].
      destruct (set_dprevious_ok h1 u v q (hd0 0 r) x) as (h2 & E2 & K2 & G2 & R2). { rewrite R1 by auto. exact S3. }
      rewrite E2. cbn [obind]. rewrite R2, R1, S2 by auto. cbn [obind d_next].
      destruct (hdel_ok h2 q (mkD w x u)) as (h' & E & P' & R).
      { rewrite K2, K1. exact (Permutation_NoDup' _ _ P D). } { rewrite R2, R1 by auto. exact S2. }
      rewrite E. cbn [obind]. eexists. split; [reflexivity|]. unfold drep. cbn [dl_heap dl_front dl_back].
      split. { eapply Permutation_cons_inv. rewrite <- P', K2, K1, P, !ids_app, !ids_cons. symmetry. apply Permutation_middle. }
      split; [exact N3|]. split.
      { intro I. apply Z0. rewrite ids_app in I |- *. apply in_app_or in I. apply in_or_app. cbn in *. tauto. }
      split; [rewrite F, <- !app_assoc, !first_hd0, !hd0_app; reflexivity|]. split; [rewrite B, !final_app; reflexivity|].
      apply dseg_app. rewrite last0_snoc. split; [|split].
      * apply dseg_app. cbn [hd0 dseg]. split; [|split; [rewrite R, R2 by auto; exact G1|exact I]].
        eapply dseg_frame; [|exact S0]. intros z Hz.
        assert (In z (ids (l1' ++ [(x, y)]))) as Hz' by (rewrite ids_snoc; apply in_or_app; auto).
        rewrite R, R2, R1; [reflexivity| | |]; intros ->; try contradiction. apply (N4 u Hz'). left. reflexivity.
      * rewrite R by auto. exact G2.
      * eapply dseg_frame; [|exact S4]. intros z Hz. rewrite R, R2, R1; [reflexivity| | |]; intros ->; try contradiction.
        apply N2. right. exact Hz.
Qed.

Lemma drep_length s l : drep s l -> length (dl_heap s) = length l.
Proof. intros (P & _). apply Permutation_length in P. unfold keys, ids in P. rewrite !map_length in P. exact P. Qed.

Lemma dl_loop_ok s : forall l1 l0 fuel, (length l1 < fuel)%nat -> drep s (l0 ++ l1) ->
  dl_loop fuel s (first l1) = Some (values l1).
Proof.
  induction l1 as [|[p v] r IH]; intros l0 fuel Hf L;
    destruct fuel as [|f]; try (cbn in Hf; lia); [reflexivity|].
  pose proof L as (P & D & Z0 & _). cbn [dl_loop first ids map fst hd]. unfold dl_end.
  destruct (p =? 0) eqn:E. { exfalso. apply Z0. rewrite ids_app. apply in_or_app. right. left. cbn. lia. }
  unfold dl_deref, dl_inc. rewrite (drep_get _ _ _ _ _ L). cbn [obind d_next d_value].
  specialize (IH (l0 ++ [(p, v)]) f). rewrite <- app_assoc in IH. cbn [app] in IH.
  rewrite IH; [reflexivity|cbn in Hf; lia|exact L].
Qed.
Lemma dl_back_loop_ok s : forall l1 l2 fuel, (length l1 < fuel)%nat -> drep s (l1 ++ l2) ->
  dl_back_loop fuel s (final l1) = Some (rev (values l1)).
Proof.
  induction l1 as [|[p v] r IH] using rev_ind; intros l2 fuel Hf L.
  - destruct fuel as [|f]; [cbn in Hf; lia|]. reflexivity.
  - destruct fuel as [|f]; [cbn in Hf; lia|]. pose proof L as (P & D & Z0 & _). cbn [dl_back_loop]. rewrite final_snoc. unfold dl_end.
    destruct (p =? 0) eqn:E.
    { exfalso. apply Z0. rewrite ids_app, ids_snoc. apply in_or_app. left. apply in_or_app. right. left. lia. }
    rewrite <- app_assoc in L. cbn [app] in L.
    unfold dl_deref, dl_dec. rewrite (drep_get _ _ _ _ _ L). cbn [obind d_previous d_value].
    rewrite (IH ((p, v) :: l2) f); [|rewrite app_length in Hf; cbn in Hf; lia|exact L]. cbn [obind].
    unfold values. rewrite map_app, rev_app_distr. reflexivity.
Qed.
Lemma dl_traverse_ok s l : drep s l -> dl_traverse s = Some (values l).
Proof.
  intro L. unfold dl_traverse, dl_begin. pose proof L as (_ & _ & _ & F & _). rewrite F.
  apply (dl_loop_ok s l []); [rewrite (drep_length _ _ L); lia|exact L].
Qed.
Lemma dl_backward_ok s l : drep s l -> dl_back_loop (S (length (dl_heap s))) s (dl_back s) = Some (rev (values l)).
Proof.
  intro L. pose proof L as (_ & _ & _ & _ & B & _). rewrite B.
  apply (dl_back_loop_ok s l []); [rewrite (drep_length _ _ L); lia|rewrite app_nil_r; exact L].
Qed.

Lemma dl_call_ok s l c a l' : drep s l -> double l c a l' -> exists s', dl_call s c = Some (s', a) /\ drep s' l'.
Proof.
  intros L H. destruct H as [l c a l' H|l p v Hf|q w l|l1 q w l2]; [destruct H as [l p v Hf|q w l|q w l|q w l| |q w l|l|l|l|l1 q w l2|l1 q w l2|l1 q w l2]| | |]; cbn [dl_call].
  - destruct (dprepend_ok s l p v L Hf) as (s' & -> & L'). cbn. eauto.
  - destruct (dremoveFront_ok _ _ _ _ L) as (s' & -> & L'). cbn. eauto.
  - pose proof (drep_get s [] q w l L) as G. pose proof L as (_ & _ & _ & F & _). unfold dl_getFront. rewrite F. cbn [first ids map fst hd].
    rewrite G. cbn. eauto.
  - pose proof (drep_get s l q w [] L) as G. pose proof L as (_ & _ & _ & _ & B & _). unfold dl_getBack. rewrite B, final_snoc.
    rewrite G. cbn. eauto.
  - pose proof L as (_ & _ & _ & F & _). unfold dl_isEmpty. rewrite F. cbn. eauto.
  - pose proof L as (_ & _ & Z0 & F & _). unfold dl_isEmpty. rewrite F, first_0 by exact Z0. eauto.
  - unfold dl_getSize. rewrite (dl_traverse_ok _ _ L). cbn [obind]. unfold zlen, values. rewrite map_length. eauto.
  - rewrite (dl_traverse_ok _ _ L). cbn [obind]. eauto.
  - pose proof L as (_ & _ & Z0 & F & _). unfold dl_begin. rewrite F. eauto.
  - unfold dl_inc. rewrite (drep_get _ _ _ _ _ L). cbn. eauto.
  - unfold dl_deref. rewrite (drep_get _ _ _ _ _ L). cbn. eauto.
  - destruct (derase_ok _ _ _ _ _ L) as (s' & -> & L'). cbn. eauto.
  - destruct (dappend_ok s l p v L Hf) as (s' & -> & L'). cbn. eauto.
  - destruct (dremoveBack_ok _ _ _ _ L) as (s' & -> & L'). cbn. eauto.
  - unfold dl_dec. rewrite (drep_get _ _ _ _ _ L). cbn. eauto.
Qed.

Lemma dl_calls_ok l cs ans l' : calls double l cs ans l' -> forall s, drep s l ->
  exists s', dl_calls s cs = Some (s', ans) /\ drep s' l'.
Proof.
  induction 1 as [l|l c a l1 cs ans l2 H1 H2 IH]; intros s L; cbn [dl_calls]; [eauto|].
  destruct (dl_call_ok _ _ _ _ _ L H1) as (s1 & -> & L1). cbn [obind].
  destruct (IH _ L1) as (s2 & -> & L2). cbn [obind]. eauto.
Qed.

Lemma dl_destroy_loop_ok l : forall fuel prev h, (length l < fuel)%nat -> Permutation (keys h) (ids l) -> NoDup (ids l) ->
  ~ In 0 (ids l) -> dseg h prev l 0 -> dl_destroy_loop fuel h (first l) = Some [].
Proof.
  induction l as [|[q w] l IH]; intros fuel prev h Hf P D Z0 S; destruct fuel as [|f]; try (cbn in Hf; lia); cbn [dl_destroy_loop].
  - cbn. apply Permutation_sym, Permutation_nil in P. destruct h; [reflexivity|discriminate].
  - rewrite first_0 by exact Z0. cbn [first ids map fst hd]. destruct S as [S1 S2]. rewrite S1. cbn [obind d_next].
    destruct (hdel_ok h q _ (Permutation_NoDup' _ _ P D) S1) as (h' & -> & P' & R). cbn [obind]. rewrite <- first_hd0.
    destruct (NoDup_mid [] _ _ _ D) as (_ & N2 & N3 & _). cbn [app] in N3.
    apply (IH f q); [cbn in Hf; lia| |exact N3|intro; apply Z0; right; assumption|].
    + eapply Permutation_cons_inv. etransitivity; [symmetry; exact P'|exact P].
    + eapply dseg_frame; [|exact S2]. intros x Hx. apply R. intros ->. contradiction.
Qed.
Lemma dl_destroy_ok s l : drep s l -> dl_destroy s = Some [].
Proof.
  intros L. pose proof L as (P & D & Z0 & F & B & S). unfold dl_destroy. rewrite F.
  apply (dl_destroy_loop_ok l _ 0); try assumption. rewrite (drep_length _ _ L). lia.
Qed.

End Proofs.
