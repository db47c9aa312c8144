From Verif Require Import Base FnModel FnSpec.

(** *** The ledger *)
Record LED (s : st) : Prop := {
  l_one : forall i j id, inside s i id -> inside s j id -> i = j;
  l_alive : forall i id, inside s i id -> In (Ctor id) (log s) /\ ~ In (Dtor id) (log s);
  l_next : forall id, In (Ctor id) (log s) -> id < next s;
  l_held : forall id, In (Ctor id) (log s) -> ~ In (Dtor id) (log s) -> exists i, inside s i id;
  l_nodup : NoDup (log s);
  l_order : forall l1 id l2, log s = l1 ++ Dtor id :: l2 -> In (Ctor id) l1 }.

Lemma nodup_snoc {A} (l : list A) x : NoDup l -> ~ In x l -> NoDup (l ++ [x]).
Proof.
  intros N X. induction N as [|y l Y N IH]; cbn; [constructor; [exact X|constructor]|]. constructor.
  - rewrite in_app_iff. cbn. intros [H|[H|[]]]; [contradiction|]. subst. apply X. left. reflexivity.
  - apply IH. intro H. apply X. right. exact H.
Qed.
Lemma snoc_split {A} (l : list A) x l1 y l2 : l ++ [x] = l1 ++ y :: l2 -> (l1 = l /\ y = x) \/ exists l2', l = l1 ++ y :: l2'.
Proof.
  destruct (rev l2) as [|z r] eqn:E.
  - apply (f_equal (@rev A)) in E. rewrite rev_involutive in E. cbn in E. subst l2. intro H. apply app_inj_tail in H. left. split; symmetry; apply H.
  - apply (f_equal (@rev A)) in E. rewrite rev_involutive in E. cbn in E. subst l2. intro H. right. exists (rev r).
    rewrite app_comm_cons, app_assoc in H. apply app_inj_tail in H. apply H.
Qed.

Lemma led_start : LED start.
Proof.
  constructor; cbn; try tauto.
  - intros i j id (o & H & _). discriminate.
  - intros i id (o & H & _). discriminate.
  - constructor.
  - intros l1 id l2 H. destruct l1; discriminate.
Qed.
Lemma inside_new t v i s k id : inside (new_at t v i s) k id <-> (k = i /\ id = next s) \/ (k <> i /\ inside s k id).
Proof.
  unfold inside, new_at. cbn [stor]. destruct (Z.eqb_spec k i) as [->|N].
  - split; [intros (o & H & <-); injection H as <-; left; auto|]. intros [[_ ->]|[H _]]; [|contradiction]. eexists. split; reflexivity.
  - split; [intro H; right; auto|]. intros [[H _]|[_ H]]; [contradiction|exact H].
Qed.
Lemma led_new t v i s : LED s -> stor s i = None -> LED (new_at t v i s).
Proof.
  intros L E. assert (FR : forall x, In (Ctor x) (log s) -> x <> next s) by (intros x X; apply (l_next s L) in X; lia).
  assert (DF : ~ In (Dtor (next s)) (log s)).
  { intro D. apply in_split in D. destruct D as (l1 & l2 & D). apply (FR (next s)); [|reflexivity]. rewrite D, in_app_iff. left. exact (l_order s L _ _ _ D). }
  constructor; cbn [log next new_at].
  - intros k j x H1 H2. rewrite inside_new in H1, H2. destruct H1 as [[-> ->]|[K1 H1]], H2 as [[-> E2]|[K2 H2]]; try reflexivity.
    + destruct (l_alive s L j _ H2) as [C _]. elim (FR _ C eq_refl).
    + subst x. destruct (l_alive s L k _ H1) as [C _]. elim (FR _ C eq_refl).
    + exact (l_one s L k j x H1 H2).
  - intros k x H. rewrite inside_new in H. rewrite !in_app_iff. cbn. destruct H as [[-> ->]|[K H]].
    + split; [auto|]. intros [D|[D|[]]]; [contradiction|discriminate].
    + destruct (l_alive s L k x H) as [A B]. split; [auto|]. intros [D|[D|[]]]; [contradiction|discriminate].
  - intros x H. rewrite in_app_iff in H. destruct H as [H|[H|[]]]; [apply (l_next s L) in H; lia|injection H as <-; lia].
  - intros x H D. rewrite in_app_iff in H, D. destruct H as [H|[H|[]]].
    + destruct (l_held s L x H) as [k K]; [intro Q; apply D; left; exact Q|]. exists k. apply inside_new. right. split; [|exact K].
      intros ->. destruct K as (o & K & _). congruence.
    + injection H as <-. exists i. apply inside_new. left. auto.
  - apply nodup_snoc; [exact (l_nodup s L)|]. intro C. elim (FR _ C eq_refl).
  - intros l1 x l2 H. apply snoc_split in H. destruct H as [[-> H]|[l2' H]]; [discriminate|]. exact (l_order s L l1 x l2' H).
Qed.
Lemma led_del s s' i o : LED s -> stor s i = Some o -> (forall k, stor s' k = if k =? i then None else stor s k) -> next s' = next s -> log s' = log s ++ [Dtor (oid o)] -> LED s'.
Proof.
  intros L E SE NE LE. assert (HI : inside s i (oid o)) by (exists o; auto). destruct (l_alive s L i _ HI) as [CI DI].
  assert (INS : forall k x, inside s' k x <-> k <> i /\ inside s k x).
  { intros k x. unfold inside. rewrite SE. destruct (Z.eqb_spec k i) as [->|N]; [split; [intros (? & H & _); discriminate|intros [H _]; contradiction]|tauto]. }
  constructor; rewrite ?LE, ?NE.
  - intros k j x H1 H2. apply INS in H1, H2. exact (l_one s L k j x (proj2 H1) (proj2 H2)).
  - intros k x H. apply INS in H. destruct H as [K H]. destruct (l_alive s L k x H) as [A B]. rewrite !in_app_iff. split; [left; exact A|]. cbn. intros [D|[D|[]]]; [contradiction|].
    injection D as <-. apply K. exact (l_one s L k i _ H HI).
  - intros x H. rewrite in_app_iff in H. destruct H as [H|[H|[]]]; [|discriminate]. exact (l_next s L x H).
  - intros x. rewrite !in_app_iff. cbn. intros [H|[H|[]]] D; [|discriminate]. destruct (l_held s L x H) as [k K]; [intro Q; apply D; left; exact Q|]. exists k. apply INS. split; [|exact K].
    intros ->. apply D. right. left. f_equal. destruct K as (o' & K & <-). congruence.
  - apply nodup_snoc; [exact (l_nodup s L)|exact DI].
  - intros l1 x l2 H. apply snoc_split in H. destruct H as [[-> H]|[l2' H]]; [injection H as ->; exact CI|exact (l_order s L l1 x l2' H)].
Qed.
Lemma led_same s s' : LED s -> (forall k id, inside s' k id <-> inside s k id) -> next s' = next s -> log s' = log s -> LED s'.
Proof.
  intros L INS NE LE. constructor; rewrite ?LE, ?NE.
  - intros k j x H1 H2. apply INS in H1, H2. exact (l_one s L k j x H1 H2).
  - intros k x H. apply INS in H. exact (l_alive s L k x H).
  - exact (l_next s L).
  - intros x C D. destruct (l_held s L x C D) as [k K]. exists k. apply INS. exact K.
  - exact (l_nodup s L).
  - exact (l_order s L).
Qed.

(** *** The state without identities *)
Definition obs (s : st) (i : Z) : option (Z * Z) := option_map (fun o => (oty o, oval o)) (stor s i).
(* what the vtable pointers and storages are *)
Definition is (s : st) (V : Z -> option (option Z)) (O : Z -> option (Z * Z)) : Prop := LED s /\ (forall k, vt s k = V k) /\ forall k, obs s k = O k.
Definition up {T} (f : Z -> T) (i : Z) (x : T) : Z -> T := fun k => if k =? i then x else f k.

Lemma is_vt s V O i x : is s V O -> is (set_vt s i x) (up V i x) O.
Proof.
  intros (L & HV & HO). split; [|split].
  - apply (led_same s); [exact L|intros; reflexivity|reflexivity|reflexivity].
  - intro k. cbn. unfold up. rewrite HV. reflexivity.
  - exact HO.
Qed.
Lemma is_new s V O t v i : is s V O -> O i = None -> is (new_at t v i s) V (up O i (Some (t, v))).
Proof.
  intros (L & HV & HO) E. assert (SE : stor s i = None) by (specialize (HO i); rewrite E in HO; unfold obs in HO; destruct (stor s i); [discriminate|reflexivity]). split; [|split].
  - apply led_new; assumption.
  - exact HV.
  - intro k. unfold obs, up. cbn. destruct (k =? i); [reflexivity|apply HO].
Qed.
Lemma is_del s V O t v i : is s V O -> O i = Some (t, v) -> exists s', del_at t i s = Some s' /\ is s' V (up O i None).
Proof.
  intros (L & HV & HO) E. specialize (HO i) as Hi. rewrite E in Hi. unfold obs in Hi. unfold del_at. destruct (stor s i) as [o|] eqn:SE; [|discriminate]. cbn in Hi. injection Hi as T W.
  cbn [obind]. rewrite T, Z.eqb_refl. eexists. split; [reflexivity|]. split; [|split].
  - apply (led_del s _ i o L SE); cbn; auto.
  - exact HV.
  - intro k. unfold obs, up. cbn. destruct (k =? i); [reflexivity|apply HO].
Qed.
Lemma is_stor s V O i t v : is s V O -> O i = Some (t, v) -> exists o, stor s i = Some o /\ oty o = t /\ oval o = v.
Proof. intros (_ & _ & HO) E. specialize (HO i). rewrite E in HO. unfold obs in HO. destruct (stor s i) as [o|]; [|discriminate]. injection HO as A B. eauto. Qed.

(* a vtable pointer that agrees with the storage *)
Definition fits (w : option Z) (x : option (Z * Z)) : Prop := match w, x with None, None => True | Some t, Some (t', _) => t = t' | _, _ => False end.
Lemma is_copy s V O w i j : is s V O -> fits w (O j) -> O i = None -> exists s', copy_ptr w i j s = Some s' /\ is s' V (up O i (O j)).
Proof.
  intros I FT E. unfold copy_ptr. destruct w as [t|], (O j) as [[t' v]|] eqn:EJ; cbn in FT; try contradiction.
  - subst t'. destruct (is_stor s V O j t v I EJ) as (o & -> & T & W). cbn [obind]. rewrite T, Z.eqb_refl, W. eexists. split; [reflexivity|]. apply is_new; assumption.
  - exists s. split; [reflexivity|]. destruct I as (L & HV & HO). split; [exact L|]. split; [exact HV|]. intro k. unfold up. rewrite HO. destruct (Z.eqb_spec k i) as [->|]; auto.
Qed.
Lemma is_relocate s V O w i j : is s V O -> fits w (O j) -> O i = None -> i <> j -> exists s', relocate_ptr w i j s = Some s' /\ is s' V (up (up O i (O j)) j None).
Proof.
  intros I FT E N. unfold relocate_ptr. destruct w as [t|], (O j) as [[t' v]|] eqn:EJ; cbn in FT; try contradiction.
  - subst t'. destruct (is_stor s V O j t v I EJ) as (o & -> & T & W). cbn [obind]. rewrite T, Z.eqb_refl, W.
    apply (is_del _ V (up O i (Some (t, v))) t v); [apply is_new; assumption|]. unfold up. replace (j =? i) with false by lia. exact EJ.
  - exists s. split; [reflexivity|]. destruct I as (L & HV & HO). split; [exact L|]. split; [exact HV|]. intro k. unfold up. rewrite HO. destruct (Z.eqb_spec k j) as [->|]; [auto|]. destruct (Z.eqb_spec k i) as [->|]; auto.
Qed.
Lemma is_destruct s V O w i : is s V O -> fits w (O i) -> exists s', destructor_ptr w i s = Some s' /\ is s' V (up O i None).
Proof.
  intros I FT. unfold destructor_ptr. destruct w as [t|], (O i) as [[t' v]|] eqn:EI; cbn in FT; try contradiction.
  - subst t'. apply (is_del s V O t v); assumption.
  - exists s. split; [reflexivity|]. destruct I as (L & HV & HO). split; [exact L|]. split; [exact HV|]. intro k. unfold up. rewrite HO. destruct (Z.eqb_spec k i) as [->|]; auto.
Qed.

(** *** Well-formed states *)
Definition good (V : Z -> option (option Z)) (O : Z -> option (Z * Z)) : Prop := forall k, match V k with None => O k = None | Some w => fits w (O k) end.
Definition WF (s : st) : Prop := is s (vt s) (obs s) /\ good (vt s) (obs s).
Definition cont (V : Z -> option (option Z)) (O : Z -> option (Z * Z)) (k : Z) : content :=
  match V k with None => Nothing | Some _ => match O k with None => Empty | Some (t, v) => Holds t v end end.

Lemma contents_cont s V O : is s V O -> forall k, contents s k = cont V O k.
Proof. intros (_ & HV & HO) k. unfold contents, cont. rewrite <- HV, <- HO. unfold obs. destruct (vt s k), (stor s k) as [[]|]; reflexivity. Qed.
Lemma good_WF s V O : is s V O -> good V O -> WF s.
Proof.
  intros (L & HV & HO) G. split; [split; [exact L|split; reflexivity]|]. intro k. rewrite HV, HO. apply G.
Qed.
Lemma WF_start : WF start.
Proof. split; [split; [exact led_start|split; reflexivity]|]. intro k. reflexivity. Qed.
Lemma exists_vt s i : exists_at s i -> exists w, vt s i = Some w.
Proof. unfold exists_at, contents. destruct (vt s i) as [w|]; [eauto|congruence]. Qed.
Lemma unused_obs s i : unused s i -> vt s i = None /\ obs s i = None.
Proof. intros [A B]. unfold obs. rewrite B. auto. Qed.
Lemma good_at V O k w : good V O -> V k = Some w -> fits w (O k).
Proof. intros G E. specialize (G k). rewrite E in G. exact G. Qed.

Ltac cases := unfold up in *; repeat match goal with |- context [?a =? ?b] => destruct (Z.eqb_spec a b); subst; try contradiction; try congruence end.
(* assignment from a temporary: p is the parameter *)
Lemma assign_ok s V O i p w wp : is s V O -> good V O -> V i = Some w -> V p = Some wp -> i <> p ->
  exists s', (do s <- assign i p s; destroy p s) = Some s' /\ is s' (up (up V i (Some wp)) p None) (up (up O i (O p)) p None).
Proof.
  intros I G EI EP N. unfold assign. pose proof I as (_ & HV & _). rewrite HV, EI. cbn [obind].
  destruct (is_destruct s V O w i I (good_at V O i w G EI)) as (s1 & -> & I1). cbn [obind]. pose proof I1 as (_ & HV1 & _). rewrite HV1, EP. cbn [obind].
  pose proof (is_vt _ _ _ i (Some wp) (is_vt s1 V _ p (Some None) I1)) as I2.
  destruct (is_relocate _ _ _ wp i p I2) as (s3 & -> & I3); [unfold up; replace (p =? i) with false by lia; exact (good_at V O p wp G EP)|unfold up; rewrite Z.eqb_refl; reflexivity|exact N|].
  cbn [obind]. unfold destroy. pose proof I3 as (_ & HV3 & _). rewrite HV3. unfold up at 1 2. replace (p =? i) with false by lia. rewrite Z.eqb_refl. cbn [obind destructor_ptr].
  eexists. split; [reflexivity|]. pose proof (is_vt _ _ _ p None I3) as (L4 & HV4 & HO4). split; [exact L4|]. split.
  - intro k. rewrite HV4. cases.
  - intro k. rewrite HO4. cases.
Qed.


Lemma create_copy_ok s V O i j w : is s V O -> good V O -> V j = Some w -> O i = None -> i <> j ->
  exists s', create_copy i j s = Some s' /\ is s' (up V i (Some w)) (up O i (O j)).
Proof.
  intros I G EJ LO N. unfold create_copy. pose proof I as (_ & HV & _). rewrite HV, EJ. cbn [obind].
  exact (is_copy _ _ _ w i j (is_vt s V O i (Some w) I) (good_at V O j w G EJ) LO).
Qed.
Lemma create_move_ok s V O i j w : is s V O -> good V O -> V j = Some w -> O i = None -> i <> j ->
  exists s', create_move i j s = Some s' /\ is s' (up (up V j (Some None)) i (Some w)) (up (up O i (O j)) j None).
Proof.
  intros I G EJ LO N. unfold create_move. pose proof I as (_ & HV & _). rewrite HV, EJ. cbn [obind].
  exact (is_relocate _ _ _ w i j (is_vt _ _ _ i (Some w) (is_vt s V O j (Some None) I)) (good_at V O j w G EJ) LO N).
Qed.
Lemma create_move_other_ok s V O i j w : is s V O -> good V O -> V j = Some w -> O i = None -> i <> j ->
  exists s', create_move_other i j s = Some s' /\ is s' (up (up V j (Some None)) i (Some w)) (up (up O i (O j)) j None).
Proof.
  intros I G EJ LO N. unfold create_move_other. pose proof I as (_ & HV & _). rewrite HV, EJ. cbn [obind].
  destruct (is_relocate _ _ _ w i j (is_vt s V O i (Some w) I) (good_at V O j w G EJ) LO N) as (s' & -> & I'). cbn [obind]. eexists. split; [reflexivity|].
  pose proof (is_vt _ _ _ j (Some None) I') as (L4 & HV4 & HO4). split; [exact L4|]. split; [|exact HO4]. intro k. rewrite HV4. cases.
Qed.
Lemma good_up V O i w x : good V O -> fits w x -> good (up V i (Some w)) (up O i x).
Proof. intros G F k. specialize (G k). cases; exact F. Qed.
Lemma good_none V O i : good V O -> good (up V i None) (up O i None).
Proof. intros G k. specialize (G k). cases; reflexivity. Qed.
Lemma good_moved V O i j w : good V O -> V j = Some w -> i <> j -> good (up (up V j (Some None)) i (Some w)) (up (up O i (O j)) j None).
Proof. intros G E N k. pose proof (good_at V O j w G E) as F. specialize (G k). cases; exact Logic.I. Qed.
Lemma fits_some t v : fits (Some t) (Some (t, v)).
Proof. reflexivity. Qed.

(* what the contents become *)
Lemma cont_up V O i w x k : cont (up V i (Some w)) (up O i x) k = if k =? i then match x with None => Empty | Some (t, v) => Holds t v end else cont V O k.
Proof. unfold cont. cases; reflexivity. Qed.
Lemma cont_some V O i w : V i = Some w -> match O i with None => Empty | Some (t, v) => Holds t v end = cont V O i.
Proof. intro E. unfold cont. rewrite E. reflexivity. Qed.

Lemma exec_ok run s o : WF s -> legal s o -> exists s', exec run o s = Some s' /\ WF s' /\ forall k, contents s' k = effect run o (contents s) k.
Proof.
  intros [I G] L. pose proof (contents_cont s _ _ I) as CS.
  assert (UN : forall i, unused s i -> vt s i = None /\ obs s i = None) by (intro; apply unused_obs).
  assert (EX : forall i, exists_at s i -> exists w, vt s i = Some w) by (intro; apply exists_vt).
  assert (FIN : forall s' V' O', is s' V' O' -> good V' O' -> (forall k, cont V' O' k = effect run o (contents s) k) ->
    WF s' /\ forall k, contents s' k = effect run o (contents s) k).
  { intros s' V' O' I' G' C. split; [exact (good_WF s' V' O' I' G')|]. intro k. rewrite (contents_cont s' V' O' I'). apply C. }
  destruct o as [i|i t v|i j|i j|i j|i|i|i j p|i j p|i j p|i t v p|i j tmp|i arg]; cbn [exec legal effect] in *.
  - destruct (UN i L) as [LV LO]. eexists. split; [reflexivity|]. apply (FIN _ _ _ (is_vt s _ _ i (Some None) I)).
    + intro k. specialize (G k). cases; rewrite LO. exact Logic.I.
    + intro k. unfold FnSpec.upd. rewrite CS. unfold cont. cases; rewrite LO. reflexivity.
  - destruct (UN i L) as [LV LO]. eexists. split; [reflexivity|]. apply (FIN _ _ _ (is_new _ _ _ t v i (is_vt s _ _ i (Some (Some t)) I) LO)).
    + apply good_up; [exact G|reflexivity].
    + intro k. unfold FnSpec.upd. rewrite cont_up, CS. reflexivity.
  - destruct L as [L1 L2]. destruct (UN i L1) as [LV LO]. destruct (EX j L2) as (w & EJ). assert (N : i <> j) by congruence.
    destruct (create_copy_ok s _ _ i j w I G EJ LO N) as (s' & -> & I'). eexists. split; [reflexivity|]. apply (FIN _ _ _ I').
    + apply good_up; [exact G|exact (good_at _ _ j w G EJ)].
    + intro k. unfold FnSpec.upd. rewrite cont_up, !CS, (cont_some _ _ j w EJ). reflexivity.
  - destruct L as [L1 L2]. destruct (UN i L1) as [LV LO]. destruct (EX j L2) as (w & EJ). assert (N : i <> j) by congruence.
    destruct (create_move_ok s _ _ i j w I G EJ LO N) as (s' & -> & I'). eexists. split; [reflexivity|]. apply (FIN _ _ _ I').
    + apply good_moved; assumption.
    + intro k. unfold FnSpec.upd. rewrite !CS, <- (cont_some _ _ j w EJ). unfold cont. cases; reflexivity.
  - destruct L as [L1 L2]. destruct (UN i L1) as [LV LO]. destruct (EX j L2) as (w & EJ). assert (N : i <> j) by congruence.
    destruct (create_move_other_ok s _ _ i j w I G EJ LO N) as (s' & -> & I'). eexists. split; [reflexivity|]. apply (FIN _ _ _ I').
    + apply good_moved; assumption.
    + intro k. unfold FnSpec.upd. rewrite !CS, <- (cont_some _ _ j w EJ). unfold cont. cases; reflexivity.
  - destruct (EX i L) as (w & EI). unfold destroy. rewrite EI. cbn [obind]. destruct (is_destruct s _ _ w i I (good_at _ _ i w G EI)) as (s1 & -> & I1). cbn [obind]. eexists. split; [reflexivity|].
    apply (FIN _ _ _ (is_vt _ _ _ i None I1)).
    + apply good_none. exact G.
    + intro k. unfold FnSpec.upd. rewrite CS. unfold cont. cases; reflexivity.
  - destruct (EX i L) as (w & EI). unfold assign_null. rewrite EI. cbn [obind]. destruct (is_destruct s _ _ w i I (good_at _ _ i w G EI)) as (s1 & -> & I1). cbn [obind]. eexists. split; [reflexivity|].
    apply (FIN _ _ _ (is_vt _ _ _ i (Some None) I1)).
    + apply good_up; [exact G|exact Logic.I].
    + intro k. unfold FnSpec.upd. rewrite CS. unfold cont. cases; reflexivity.
  - destruct L as (L1 & L2 & L3). destruct (EX i L1) as (wi & EI). destruct (EX j L2) as (w & EJ). destruct (UN p L3) as [LV LO]. assert (N : p <> j) by congruence. assert (N' : i <> p) by congruence.
    destruct (create_copy_ok s _ _ p j w I G EJ LO N) as (s1 & -> & I1). cbn [obind].
    destruct (assign_ok s1 _ _ i p wi w I1) as (s2 & -> & I2);
      [apply good_up; [exact G|exact (good_at _ _ j w G EJ)]|cases|cases|exact N'|]. eexists. split; [reflexivity|]. apply (FIN _ _ _ I2).
    + apply good_none, good_up; [apply good_up; [exact G|exact (good_at _ _ j w G EJ)]|]. unfold up. rewrite Z.eqb_refl. exact (good_at _ _ j w G EJ).
    + intro k. unfold FnSpec.upd. rewrite !CS, <- (cont_some _ _ j w EJ). unfold cont. cases; try reflexivity. rewrite LV. reflexivity.
  - destruct L as (L1 & L2 & L3). destruct (EX i L1) as (wi & EI). destruct (EX j L2) as (w & EJ). destruct (UN p L3) as [LV LO]. assert (N : p <> j) by congruence. assert (N' : i <> p) by congruence.
    destruct (create_move_ok s _ _ p j w I G EJ LO N) as (s1 & -> & I1). cbn [obind].
    assert (G1 := good_moved _ _ p j w G EJ N). assert (E1 : exists w1, up (up (vt s) j (Some None)) p (Some w) i = Some w1) by (unfold up; replace (i =? p) with false by lia; destruct (i =? j); eauto). destruct E1 as (w1 & E1).
    destruct (assign_ok s1 _ _ i p w1 w I1 G1 E1) as (s2 & -> & I2); [cases|exact N'|]. eexists. split; [reflexivity|]. apply (FIN _ _ _ I2).
    + apply good_none, good_up; [exact G1|]. unfold up. replace (p =? j) with false by lia. rewrite Z.eqb_refl. exact (good_at _ _ j w G EJ).
    + intro k. unfold FnSpec.upd. rewrite !CS, <- (cont_some _ _ j w EJ). unfold cont. cases; try reflexivity. rewrite LV. reflexivity.
  - destruct L as (L1 & L2 & L3 & L4). destruct (EX i L1) as (wi & EI). destruct (EX j L2) as (w & EJ). destruct (UN p L3) as [LV LO]. assert (N : p <> j) by congruence. assert (N' : i <> p) by congruence.
    destruct (create_move_other_ok s _ _ p j w I G EJ LO N) as (s1 & -> & I1). cbn [obind].
    assert (G1 := good_moved _ _ p j w G EJ N). assert (E1 : exists w1, up (up (vt s) j (Some None)) p (Some w) i = Some w1) by (unfold up; replace (i =? p) with false by lia; destruct (i =? j); eauto). destruct E1 as (w1 & E1).
    destruct (assign_ok s1 _ _ i p w1 w I1 G1 E1) as (s2 & -> & I2); [cases|exact N'|]. eexists. split; [reflexivity|]. apply (FIN _ _ _ I2).
    + apply good_none, good_up; [exact G1|]. unfold up. replace (p =? j) with false by lia. rewrite Z.eqb_refl. exact (good_at _ _ j w G EJ).
    + intro k. unfold FnSpec.upd. rewrite !CS, <- (cont_some _ _ j w EJ). unfold cont. cases; try reflexivity. rewrite LV. reflexivity.
  - destruct L as (L1 & L3). destruct (EX i L1) as (wi & EI). destruct (UN p L3) as [LV LO]. assert (N' : i <> p) by congruence. unfold create_closure. cbn [obind].
    pose proof (is_new _ _ _ t v p (is_vt s _ _ p (Some (Some t)) I) LO) as I1.
    assert (G1 := good_up _ _ p (Some t) (Some (t, v)) G (fits_some t v)).
    destruct (assign_ok _ _ _ i p wi (Some t) I1 G1) as (s2 & -> & I2); [cases|cases|exact N'|]. eexists. split; [reflexivity|]. apply (FIN _ _ _ I2).
    + apply good_none, good_up; [exact G1|]. unfold up. rewrite Z.eqb_refl. reflexivity.
    + intro k. unfold FnSpec.upd. rewrite !CS. unfold cont. cases; try reflexivity. rewrite LV. reflexivity.
  - destruct L as (L1 & L2 & L3). destruct (EX i L1) as (w & EI). destruct (EX j L2) as (w' & EJ). destruct (UN tmp L3) as [LV LO]. unfold swap. destruct (Z.eqb_spec i j) as [->|N].
    + eexists. split; [reflexivity|]. apply (FIN _ _ _ I G). intro k. unfold FnSpec.upd. rewrite !CS. destruct (Z.eqb_spec k j) as [->|]; reflexivity.
    + rewrite EI, EJ. cbn [obind]. assert (Ni : tmp <> i) by congruence. assert (Nj : tmp <> j) by congruence.
      pose proof (good_at _ _ i w G EI) as Fi. pose proof (good_at _ _ j w' G EJ) as Fj.
      destruct (is_relocate s _ _ w tmp i I Fi LO Ni) as (s1 & -> & I1). cbn [obind].
      destruct (is_relocate s1 _ _ w' i j I1) as (s2 & -> & I2); [cases|cases|exact N|]. cbn [obind].
      destruct (is_relocate s2 _ _ w j tmp I2) as (s3 & -> & I3); [cases|cases|congruence|]. cbn [obind]. eexists. split; [reflexivity|].
      pose proof (is_vt _ _ _ j (Some w) (is_vt _ _ _ i (Some w') I3)) as I4.
      apply (FIN _ _ _ I4).
      * intro k. specialize (G k). cases; rewrite LV. reflexivity.
      * intro k. unfold FnSpec.upd. rewrite !CS, <- (cont_some _ _ j w' EJ), <- (cont_some _ _ i w EI). unfold cont. cases; try reflexivity. rewrite LV. reflexivity.
  - destruct L as (t & v & C). pose proof (CS i) as Ci. rewrite C in Ci. unfold cont in Ci. destruct (vt s i) as [w|] eqn:EI; [|discriminate]. destruct (obs s i) as [[t' v']|] eqn:OI; [|discriminate]. injection Ci as <- <-.
    pose proof (good_at _ _ i w G EI) as F. rewrite OI in F. destruct w as [t'|]; [|contradiction]. cbn in F. subst t'. unfold call. rewrite EI. cbn [obind invoke_ptr].
    destruct (is_stor s _ _ i t v I OI) as (ob & SE & T & W). rewrite SE. cbn [obind]. rewrite T, Z.eqb_refl, W. destruct (run t v arg) as [r v2] eqn:R. cbn [obind fst]. eexists. split; [reflexivity|].
    rewrite C. rewrite R in *. cbn [snd]. 
    destruct I as (LE & _ & _).
    assert (I2 : is (St (vt s) (fun k => if k =? i then Some (Obj (oid ob) t v2) else stor s k) (next s) (log s)) (vt s) (up (obs s) i (Some (t, v2)))).
    { split; [|split; [reflexivity|]].
      - apply (led_same s); [exact LE| |reflexivity|reflexivity]. intros k id. unfold inside. cbn [stor]. destruct (Z.eqb_spec k i) as [->|]; [|tauto]. rewrite SE. split; intros (o' & H & <-); injection H as <-; eexists; split; reflexivity.
      - intro k. unfold obs, up. cbn [stor]. destruct (k =? i); reflexivity. }
    split; [apply (good_WF _ _ _ I2)|].
    + intro k. specialize (G k). cases; rewrite EI. reflexivity.
    + intro k. rewrite (contents_cont _ _ _ I2). unfold FnSpec.upd. rewrite CS. unfold cont. cases; try reflexivity; rewrite EI; reflexivity.
Qed.

Lemma reach_WF run s : reach run s -> WF s.
Proof.
  induction 1 as [|s o s' R IH L E]; [exact WF_start|]. destruct (exec_ok run s o IH L) as (s2 & E2 & W & _). congruence.
Qed.
