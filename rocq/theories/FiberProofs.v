From Coq Require Import ZArith List Bool Lia.
From Verif Require Import Base FiberModel FiberSpec.
Import ListNotations.
Open Scope Z_scope.

Fixpoint links (nx : Z -> option Z) (l : list Z) (e : Z) : Prop :=
  match l with
  | [] => True
  | x :: l' => nx x = Some (match l' with [] => e | y :: _ => y end) /\ links nx l' e
  end.

Lemma links_ext nx nx' l e : (forall x, In x l -> nx' x = nx x) -> links nx l e -> links nx' l e.
Proof.
  induction l as [|x l IH]; intros E L; [exact Logic.I|]. destruct L as [L1 L2]. split; [rewrite E by (left; reflexivity); exact L1|]. apply IH; [intros y Y; apply E; right; exact Y|exact L2].
Qed.

Lemma links_app nx a y l e : links nx (a ++ y :: l) e <-> links nx a y /\ links nx (y :: l) e.
Proof.
  induction a as [|x a IH]; [cbn; tauto|]. cbn [app]. split.
  - intros [L1 L2]. apply IH in L2. destruct L2 as [L2 L3]. split; [split; [destruct a; exact L1|exact L2]|exact L3].
  - intros [[L1 L2] L3]. split; [destruct a; exact L1|]. apply IH. split; assumption.
Qed.

Lemma links_snoc nx a y e : links nx (a ++ [y]) e <-> links nx a y /\ nx y = Some e.
Proof. rewrite links_app. cbn. tauto. Qed.

(** The ring: [q] the fibers, first one next to run. *)
Definition ring (s : st) (q : list Z) : Prop :=
  match q with
  | [] => last s = None
  | f :: r => links (next s) q f /\ last s = Some (List.last q f)
  end.

Record rep (s : st) (a : abs) : Prop := {
  rep_ring : ring s (map fst (queue a));
  rep_nodup : NoDup (map fst (queue a));
  rep_att : forall t, attached s t = started a t;
  rep_cur : current s = if active a then match queue a with e :: _ => Some (fst e) | [] => None end else None;
  rep_act : active a = true -> queue a <> [];
  rep_fresh : forall t b, In (t, b) (if active a then tl (queue a) else queue a) -> fresh s t = b;
  rep_log : log s = runs a }.

Lemma started_In a t : started a t = true <-> In t (map fst (queue a)).
Proof.
  unfold started. rewrite existsb_exists. rewrite in_map_iff. split; intros (e & H1 & H2); exists e; [split; [lia|exact H1]|split; [exact H2|lia]].
Qed.

Lemma rep_init g : rep (initial g) nothing.
Proof. constructor; cbn; try reflexivity; [constructor|discriminate|intros ? ? []]. Qed.

Lemma fupd_same {A} (f : Z -> A) a v : fupd f a v a = v.
Proof. unfold fupd. rewrite Z.eqb_refl. reflexivity. Qed.
Lemma fupd_other {A} (f : Z -> A) a v x : x <> a -> fupd f a v x = f x.
Proof. intro H. unfold fupd. replace (x =? a) with false by lia. reflexivity. Qed.

Lemma last_cons_any {A} (l : list A) : forall g d d', List.last (g :: l) d = List.last (g :: l) d'.
Proof. induction l as [|h l IH]; intros g d d'; [reflexivity|]. change (List.last (h :: l) d = List.last (h :: l) d'). apply IH. Qed.

Lemma last_snoc {A} (l : list A) x d : List.last (l ++ [x]) d = x.
Proof. apply last_last. Qed.

Lemma start_ok t s a : rep s a -> exists s', exec1 (Start t) s = Some s' /\ rep s' (astep (Start t) a) /\
  task_start t s = Some (negb (started a t), s').
Proof.
  intro R. unfold exec1, task_start, isRunning. rewrite (rep_att s a R t). cbn [astep]. destruct (started a t) eqn:S.
  - exists s. split; [reflexivity|]. split; [exact R|reflexivity].
  - assert (NI : ~ In t (map fst (queue a))) by (intro H; apply started_In in H; congruence).
    pose proof (rep_ring s a R) as RG. unfold add. cbn [last next attached fresh current log].
    assert (TA : forall x, fupd (attached s) t true x = started (Abs (queue a ++ [(t, true)]) (active a) (runs a)) x).
    { intro x. unfold started. cbn [queue]. rewrite existsb_app. cbn. unfold fupd. rewrite (rep_att s a R x). unfold started. rewrite orb_false_r. destruct (Z.eqb_spec x t) as [->|N]; [rewrite Z.eqb_refl, orb_true_r; reflexivity|]. replace (t =? x) with false by lia. rewrite orb_false_r. reflexivity. }
    assert (TF : forall x b, In (x, b) (if active a then tl (queue a ++ [(t, true)]) else queue a ++ [(t, true)]) -> fupd (fresh s) t true x = b).
    { intros x b H. assert (H' : In (x, b) ((if active a then tl (queue a) else queue a) ++ [(t, true)])).
      { destruct (active a) eqn:A; [|exact H]. destruct (queue a) eqn:QQ; [exfalso; apply (rep_act s a R A); exact QQ|exact H]. }
      apply in_app_or in H'. destruct H' as [H'|[H'|[]]]; [|injection H' as <- <-; apply fupd_same].
      assert (IX : In x (map fst (queue a))).
      { apply in_map_iff. exists (x, b). split; [reflexivity|]. destruct (active a); [|exact H']. destruct (queue a); [destruct H'|right; exact H']. }
      rewrite fupd_other by (intros ->; contradiction). apply (rep_fresh s a R). exact H'. }
    assert (TC : current s = if active a then match queue a ++ [(t, true)] with e :: _ => Some (fst e) | [] => None end else None).
    { rewrite (rep_cur s a R). destruct (active a) eqn:A; [|reflexivity]. destruct (queue a) eqn:QQ; [exfalso; apply (rep_act s a R A); exact QQ|reflexivity]. }
    assert (TQ : active a = true -> queue a ++ [(t, true)] <> []) by (intros _ H; destruct (queue a); discriminate).
    assert (TN : NoDup (map fst (queue a ++ [(t, true)]))).
    { rewrite map_app. cbn [map fst]. apply NoDup_Add with (a := t) (l := map fst (queue a)); [|split; [apply (rep_nodup s a R)|exact NI]]. rewrite <- (app_nil_r (map fst (queue a))) at 1. apply Add_app. }
    destruct (queue a) as [|[f fb] q] eqn:Q.
    + cbn in RG. rewrite RG. cbn [obind snd]. eexists. split; [reflexivity|]. split; [|reflexivity].
      constructor; cbn [queue active runs next attached fresh last current log app map fst]; try assumption; [|apply (rep_log s a R)].
      cbn. rewrite fupd_same. repeat split; reflexivity.
    + cbn [map fst] in RG. destruct RG as [L LA]. rewrite LA. unfold runLast. cbn [last next attached fresh current log obind snd].
      eexists. split; [reflexivity|]. split; [|reflexivity].
      constructor; cbn [queue active runs next attached fresh last current log app map fst]; try assumption; [|apply (rep_log s a R)].
      set (l := List.last (f :: map fst q) f) in *. rewrite map_app. cbn [map fst].
      assert (EX : f :: map fst q = removelast (f :: map fst q) ++ [l]) by (apply app_removelast_last; discriminate).
      pose proof (rep_nodup s a R) as ND. rewrite Q in ND. cbn [map fst] in ND.
      assert (NI' : ~ In t (f :: map fst q)) by exact NI.
      split; [|change (f :: map fst q ++ [t]) with ((f :: map fst q) ++ [t]); rewrite last_snoc; reflexivity].
      change (f :: map fst q ++ [t]) with ((f :: map fst q) ++ [t]). rewrite EX in *. clearbody l.
      rewrite links_snoc in L. destruct L as [L1 L2]. rewrite <- app_assoc. cbn [app]. rewrite links_app.
      assert (LT : l <> t) by (intros ->; apply NI'; apply in_or_app; right; left; reflexivity).
      assert (NL : ~ In l (removelast (f :: map fst q))) by (apply NoDup_remove_2 in ND; rewrite app_nil_r in ND; exact ND).
      split; [|cbn; split; [apply fupd_same|split; [|exact Logic.I]]].
      * apply (links_ext (next s)); [|exact L1]. intros x X. cbn [next]. rewrite fupd_other by (intros ->; contradiction). rewrite fupd_other; [reflexivity|]. intros ->. apply NI'. apply in_or_app. left. exact X.
      * cbn [next]. rewrite fupd_other by congruence. rewrite fupd_same. exact L2.
Qed.

Lemma yield_ok s a : rep s a -> exists s', exec1 Yield s = Some s' /\ rep s' (astep Yield a).
Proof.
  intro R. cbn [exec1 astep]. unfold yield. rewrite (rep_cur s a R). destruct (active a) eqn:A; [|exists s; split; [reflexivity|exact R]].
  pose proof (rep_ring s a R) as RG. pose proof (rep_nodup s a R) as ND. pose proof (rep_fresh s a R) as RF. rewrite A in RF.
  destruct (queue a) as [|[f fb] q] eqn:Q; [exfalso; apply (rep_act s a R A); exact Q|]. cbn [map fst] in RG, ND. destruct RG as [L LA]. cbn [fst tl firstn map].
  destruct q as [|[g gb] q].
  - cbn in L. destruct L as [L _]. rewrite L. cbn [same]. rewrite Z.eqb_refl. eexists. split; [reflexivity|].
    constructor; cbn [app dispatch queue active runs next attached fresh last current log map fst tl]; try discriminate; try reflexivity.
    + split; [split; [exact L|exact Logic.I]|exact LA].
    + exact ND.
    + intro t. rewrite (rep_att s a R t). unfold started. rewrite Q. reflexivity.
    + intros ? ? [].
    + rewrite (rep_log s a R). reflexivity.
  - cbn [map fst links] in L. destruct L as (L1 & L2). rewrite L1. cbn [same]. inversion ND as [|? ? N1 N2]; subst.
    assert (GF : g <> f) by (intros ->; apply N1; left; reflexivity). replace (g =? f) with false by lia.
    unfold jump. cbn [current obind next attached fresh last log fst]. eexists. split; [reflexivity|].
    constructor; cbn [app dispatch queue active runs next attached fresh last current log map fst tl]; try discriminate; try reflexivity.
    + rewrite map_app. cbn [map fst]. split.
      * change (g :: map fst q ++ [f]) with ((g :: map fst q) ++ [f]). apply links_snoc. split; [exact L2|exact L1].
      * change (g :: map fst q ++ [f]) with ((g :: map fst q) ++ [f]). rewrite last_snoc. reflexivity.
    + rewrite map_app. cbn [map fst]. change (g :: map fst q ++ [f]) with ((g :: map fst q) ++ [f]). apply NoDup_Add with (a := f) (l := g :: map fst q); [|split; assumption]. rewrite <- (app_nil_r (g :: map fst q)) at 1. apply Add_app.
    + intro t. rewrite (rep_att s a R t). unfold started. cbn [queue]. rewrite Q. rewrite (app_comm_cons q). rewrite existsb_app. cbn. destruct (f =? t), (g =? t), (existsb (fun e => fst e =? t) q); reflexivity.
    + intros t b H. apply in_app_or in H. destruct H as [H|[H|[]]]; [|injection H as <- <-; apply fupd_same].
      rewrite fupd_other; [apply RF; right; exact H|]. intros ->. apply N1. right. apply in_map_iff. exists (f, b). split; [reflexivity|exact H].
    + rewrite fupd_other by exact GF. rewrite (RF g gb); [|left; reflexivity]. rewrite (rep_log s a R). reflexivity.
Qed.

Lemma end_ok s a : rep s a -> active a = true -> exists s', exec1 End s = Some s' /\ rep s' (astep End a).
Proof.
  intros R A. cbn [exec1 astep]. unfold unschedule. rewrite (rep_cur s a R), A.
  pose proof (rep_ring s a R) as RG. pose proof (rep_nodup s a R) as ND. pose proof (rep_fresh s a R) as RF. rewrite A in RF.
  destruct (queue a) as [|[f fb] q] eqn:Q; [exfalso; apply (rep_act s a R A); exact Q|]. cbn [map fst] in RG, ND. destruct RG as [L LA]. cbn [fst tl obind].
  inversion ND as [|? ? N1 N2]; subst.
  assert (AT : forall t, fupd (attached s) f false t = existsb (fun e => fst e =? t) q).
  { intro t. unfold fupd. rewrite (rep_att s a R t). unfold started. rewrite Q. cbn [existsb fst]. destruct (Z.eqb_spec t f) as [->|N].
    - destruct (existsb (fun e => fst e =? f) q) eqn:E; [|reflexivity]. exfalso. apply N1. apply existsb_exists in E. destruct E as (e & E1 & E2). apply in_map_iff. exists e. split; [lia|exact E1].
    - replace (f =? t) with false by lia. reflexivity. }
  unfold removeCurrent. rewrite (rep_cur s a R), A, Q. cbn [obind fst]. rewrite LA.
  destruct q as [|[g gb] q].
  - cbn [map List.last same]. rewrite Z.eqb_refl. cbn [obind next attached fresh last current log empty same]. eexists. split; [reflexivity|].
    constructor; cbn [dispatch queue active runs next attached fresh last current log map fst tl ring]; try discriminate; try reflexivity; try (constructor).
    + exact AT.
    + intros ? ? [].
    + apply (rep_log s a R).
  - cbn [map fst] in *. set (l := List.last (f :: g :: map fst q) f) in *. assert (LE : l = List.last (g :: map fst q) g).
    { unfold l. change (List.last (f :: g :: map fst q) f) with (List.last (g :: map fst q) f). apply last_cons_any. }
    assert (EX : g :: map fst q = removelast (g :: map fst q) ++ [l]) by (rewrite LE; apply app_removelast_last; discriminate).
    assert (LF : l <> f). { intros E. apply N1. rewrite <- E, EX. apply in_or_app. right. left. reflexivity. }
    cbn [same]. replace (f =? l) with false by lia. cbn [obind next attached fresh last current log empty same].
    cbn [links] in L. destruct L as (L1 & L2). rewrite L1.
    unfold jump. cbn [current obind next attached fresh last log fst].
    eexists. split; [reflexivity|].
    constructor; cbn [dispatch queue active runs next attached fresh last current log map fst tl]; try discriminate; try reflexivity.
    + split; [|rewrite LE; reflexivity]. rewrite EX in *. clearbody l. rewrite links_snoc. assert (L2' : links (next s) (removelast (g :: map fst q)) l).
      { change (links (next s) (g :: map fst q) f) in L2. rewrite EX in L2. rewrite links_snoc in L2. apply L2. }
      assert (NL : ~ In l (removelast (g :: map fst q))) by (apply NoDup_remove_2 in N2; rewrite app_nil_r in N2; exact N2).
      split.
      * apply (links_ext (next s)); [|exact L2']. intros x X. cbn [next]. rewrite fupd_other by (intros ->; apply N1; apply in_or_app; left; exact X). apply fupd_other. intros ->. contradiction.
      * cbn [next]. rewrite fupd_other by exact LF. apply fupd_same.
    + exact N2.
    + intro t. rewrite AT. reflexivity.
    + intros t b H. rewrite fupd_other; [apply RF; right; exact H|]. intros ->. apply N1. right. apply in_map_iff. exists (f, b). split; [reflexivity|exact H].
    + rewrite fupd_other by (intros ->; apply N1; left; reflexivity). rewrite (RF g gb); [|left; reflexivity]. rewrite (rep_log s a R). reflexivity.
Qed.

Lemma run_ok s a : rep s a -> active a = false -> exists s', exec1 Run s = Some s' /\ rep s' (astep Run a).
Proof.
  intros R A. cbn [exec1 astep]. unfold start, empty. pose proof (rep_ring s a R) as RG. pose proof (rep_fresh s a R) as RF. rewrite A in RF.
  destruct (queue a) as [|[f fb] q] eqn:Q; cbn [map fst] in RG.
  - cbn in RG. rewrite RG. cbn [same obind snd dispatch]. exists s. split; [reflexivity|]. constructor; cbn [queue active runs map fst tl]; try discriminate; try assumption; [constructor|..].
    + intro t. rewrite (rep_att s a R t). unfold started. rewrite Q. reflexivity.
    + rewrite (rep_cur s a R), A. reflexivity.
    + apply (rep_log s a R).
  - destruct RG as [L LA]. rewrite LA. cbn [same obind]. assert (NX : next s (List.last (f :: map fst q) f) = Some f).
    { assert (EX : f :: map fst q = removelast (f :: map fst q) ++ [List.last (f :: map fst q) f]) by (apply app_removelast_last; discriminate).
      rewrite EX in L at 1. apply links_snoc in L. apply L. }
    rewrite NX. cbn [obind snd]. eexists. split; [reflexivity|]. cbn [dispatch].
    constructor; cbn [queue active runs next attached fresh last current log map fst tl]; try discriminate; try reflexivity.
    + split; [exact L|reflexivity].
    + pose proof (rep_nodup s a R) as ND. rewrite Q in ND. exact ND.
    + intro t. rewrite (rep_att s a R t). unfold started. rewrite Q. reflexivity.
    + intros t b H. apply RF. right. exact H.
    + rewrite (RF f fb); [|left; reflexivity]. rewrite (rep_log s a R). reflexivity.
Qed.

Lemma exec1_ok o s a : rep s a -> allowed o a -> exists s', exec1 o s = Some s' /\ rep s' (astep o a).
Proof.
  intros R A. destruct o as [t| | |].
  - destruct (start_ok t s a R) as (s' & E & R' & _). exists s'. split; assumption.
  - apply yield_ok. exact R.
  - apply end_ok; assumption.
  - apply run_ok; assumption.
Qed.

Lemma exec_ok ops : forall s a, rep s a -> all_allowed ops a -> exists s', exec ops s = Some s' /\ rep s' (asteps ops a).
Proof.
  induction ops as [|o ops IH]; intros s a R A; [exists s; split; [reflexivity|exact R]|]. destruct A as [A1 A2]. destruct (exec1_ok o s a R A1) as (s1 & E1 & R1).
  cbn [exec]. rewrite E1. cbn [obind]. destruct (IH s1 _ R1 A2) as (s2 & E2 & R2). exists s2. split; [exact E2|exact R2].
Qed.

Lemma exec_app a b s : exec (a ++ b) s = do s <- exec a s; exec b s.
Proof. revert s. induction a as [|o a IH]; intro s; [reflexivity|]. cbn [app exec]. destruct (exec1 o s); cbn [obind]; [apply IH|reflexivity]. Qed.
Lemma asteps_app a b s : asteps (a ++ b) s = asteps b (asteps a s).
Proof. apply fold_left_app. Qed.
Lemma allowed_app a b s : all_allowed (a ++ b) s <-> all_allowed a s /\ all_allowed b (asteps a s).
Proof. revert s. induction a as [|o a IH]; intro s; [cbn; tauto|]. cbn [app all_allowed]. rewrite IH. cbn [asteps fold_left]. unfold asteps. tauto. Qed.

(** *** Round robin on the queue *)
Lemma runs_grow ops : forall a, exists more, runs (asteps ops a) = runs a ++ more.
Proof.
  assert (D : forall q r, exists more, runs (dispatch q r) = r ++ more).
  { intros [|e q] r; cbn; [exists []; rewrite app_nil_r; reflexivity|exists [e]; reflexivity]. }
  induction ops as [|o ops IH]; intro a; [exists []; rewrite app_nil_r; reflexivity|]. cbn [asteps fold_left]. destruct (IH (astep o a)) as [m E]. unfold asteps in E. rewrite E.
  assert (S : exists m1, runs (astep o a) = runs a ++ m1).
  { destruct o as [t| | |]; cbn [astep]; try apply D.
    - exists []. rewrite app_nil_r. destruct (started a t); reflexivity.
    - destruct (active a); [apply D|exists []; rewrite app_nil_r; reflexivity]. }
  destruct S as [m1 E1]. rewrite E1, <- app_assoc. eexists. reflexivity.
Qed.

(** [x] has been put behind [r]; [h] is running.  The fibers that get the
    processor before [x] are those of [r], in that order. *)
Lemma queue_order x : forall ops h hb r more tr xb b log0, 
  NoDup (h :: map fst r ++ x :: map fst more) ->
  all_allowed ops (Abs ((h, hb) :: r ++ (x, xb) :: more) true log0) ->
  runs (asteps ops (Abs ((h, hb) :: r ++ (x, xb) :: more) true log0)) = log0 ++ tr ++ [(x, b)] ->
  ~ In x (map fst tr) -> tr = r /\ b = xb.
Proof.
  induction ops as [|o ops IH]; intros h hb r more tr xb b log0 ND AL E NX.
  - cbn in E. exfalso. assert (L : length (log0 ++ tr ++ [(x, b)]) = length log0) by congruence. rewrite !app_length in L. cbn in L. lia.
  - destruct AL as [A1 A2]. change (asteps (o :: ops) ?a) with (asteps ops (astep o a)) in E.
    assert (STEP : forall rest, NoDup (map fst (r ++ (x, xb) :: rest)) -> astep o (Abs ((h, hb) :: r ++ (x, xb) :: more) true log0) = dispatch (r ++ (x, xb) :: rest) log0 -> tr = r /\ b = xb).
    { intros rest ND' SE. rewrite SE in A2, E. destruct r as [|[g gb] r].
      - cbn [app dispatch] in E. destruct (runs_grow ops (Abs ((x, xb) :: rest) true (log0 ++ [(x, xb)]))) as [m M]. rewrite M in E. cbn [runs] in E. rewrite <- app_assoc in E. apply app_inv_head in E.
        destruct tr as [|[t tb] tr]; cbn [app] in E; [injection E as E1 E2; split; [reflexivity|congruence]|].
        injection E as E1 E2 _. exfalso. apply NX. left. cbn. congruence.
      - cbn [app dispatch] in A2, E. destruct (runs_grow ops (Abs ((g, gb) :: r ++ (x, xb) :: rest) true (log0 ++ [(g, gb)]))) as [m M].
        pose proof E as E0. rewrite M in E. cbn [runs] in E. rewrite <- app_assoc in E. apply app_inv_head in E.
        cbn [app map fst] in ND'. rewrite map_app in ND'. cbn [map fst] in ND'.
        destruct tr as [|[t tb] tr]; cbn [app] in E.
        + injection E as E1 E2 _. exfalso. apply NoDup_remove_2 with (l := g :: map fst r) in ND'. apply ND'. left. congruence.
        + injection E as E1 E2 _. subst t tb. destruct (IH g gb r rest tr xb b (log0 ++ [(g, gb)])) as [I1 I2]; [exact ND'|exact A2| |intro H; apply NX; right; exact H|split; congruence].
          rewrite E0. rewrite <- app_assoc. reflexivity. }
    cbn [map fst app] in ND. 
    assert (NDQ : NoDup (map fst (r ++ (x, xb) :: more))) by (rewrite map_app; cbn [map fst]; inversion ND; assumption).
    destruct o as [t| | |].
    + cbn [astep started queue] in *. unfold astep in A2, E. destruct (started _ t) eqn:ST.
      * apply (IH h hb r more tr xb b log0); assumption.
      * cbn [queue active runs] in A2, E. apply (IH h hb r (more ++ [(t, true)]) tr xb b log0).
        -- rewrite map_app. cbn [map fst]. rewrite (app_comm_cons (map fst more)). rewrite app_assoc. change (h :: (map fst r ++ x :: map fst more) ++ [t]) with ((h :: map fst r ++ x :: map fst more) ++ [t]).
           apply NoDup_Add with (a := t) (l := h :: map fst r ++ x :: map fst more); [rewrite <- (app_nil_r (h :: map fst r ++ x :: map fst more)) at 1; apply Add_app|]. split; [exact ND|].
           intro H. assert (Q : started (Abs ((h, hb) :: r ++ (x, xb) :: more) true log0) t = true); [|congruence]. apply started_In. cbn [queue map fst]. rewrite map_app. exact H.
        -- cbn [app] in A2. rewrite <- app_assoc in A2. exact A2.
        -- cbn [app] in E. rewrite <- app_assoc in E. exact E.
        -- exact NX.
    + apply (STEP (more ++ [(h, false)])); [|cbn [astep active queue tl firstn map fst runs]; rewrite <- app_assoc; reflexivity].
      rewrite map_app. cbn [map fst]. rewrite map_app. cbn [map fst]. rewrite (app_comm_cons (map fst more)), app_assoc.
      apply NoDup_Add with (a := h) (l := map fst r ++ x :: map fst more); [rewrite <- (app_nil_r (map fst r ++ x :: map fst more)) at 1; apply Add_app|]. inversion ND; split; assumption.
    + apply (STEP more); [exact NDQ|reflexivity].
    + cbn in A1. discriminate.
Qed.

Lemma round_robin ops x xb r log0 tr b : NoDup (x :: map fst r) -> all_allowed (Yield :: ops) (Abs ((x, xb) :: r) true log0) ->
  runs (asteps (Yield :: ops) (Abs ((x, xb) :: r) true log0)) = log0 ++ tr ++ [(x, b)] -> ~ In x (map fst tr) -> tr = r /\ b = false.
Proof.
  intros ND AL E NX. destruct AL as [_ A2]. change (asteps (Yield :: ops) ?a) with (asteps ops (astep Yield a)) in E. cbn [astep active queue tl firstn map fst runs] in A2, E.
  destruct r as [|[g gb] r].
  - cbn [app dispatch] in E. destruct (runs_grow ops (Abs [(x, false)] true (log0 ++ [(x, false)]))) as [m M]. rewrite M in E. cbn [runs] in E. rewrite <- app_assoc in E. apply app_inv_head in E.
    destruct tr as [|[t tb] tr]; cbn [app] in E; [injection E as E1 E2; split; [reflexivity|congruence]|]. injection E as E1 E2 _. exfalso. apply NX. left. cbn. congruence.
  - cbn [app dispatch] in A2, E. destruct (runs_grow ops (Abs ((g, gb) :: r ++ [(x, false)]) true (log0 ++ [(g, gb)]))) as [m M].
    pose proof E as E0. rewrite M in E. cbn [runs] in E. rewrite <- app_assoc in E. apply app_inv_head in E. cbn [map fst] in ND. inversion ND as [|? ? N1 N2]; subst.
    destruct tr as [|[t tb] tr]; cbn [app] in E.
    + injection E as E1 E2 _. exfalso. apply N1. left. congruence.
    + injection E as E1 E2 _. subst t tb. destruct (queue_order x ops g gb r [] tr false b (log0 ++ [(g, gb)])) as [I1 I2]; [|exact A2| |intro H; apply NX; right; exact H|split; congruence].
      * cbn [map]. change (g :: map fst r ++ [x]) with ((g :: map fst r) ++ [x]). apply NoDup_Add with (a := x) (l := g :: map fst r); [rewrite <- (app_nil_r (g :: map fst r)) at 1; apply Add_app|]. split; assumption.
      * rewrite E0. rewrite <- app_assoc. reflexivity.
Qed.

(** *** Ended fibers *)
Lemma absent_step x o a : ~ In x (map fst (queue a)) -> o <> Start x ->
  ~ In x (map fst (queue (astep o a))) /\ exists more, runs (astep o a) = runs a ++ more /\ ~ In x (map fst more).
Proof.
  intros N O. assert (D : forall q, ~ In x (map fst q) -> ~ In x (map fst (queue (dispatch q (runs a)))) /\ exists more, runs (dispatch q (runs a)) = runs a ++ more /\ ~ In x (map fst more)).
  { intros [|e q] H; cbn [dispatch queue runs]; [split; [exact H|exists []; rewrite app_nil_r; split; [reflexivity|intros []]]|]. split; [exact H|]. exists [e]. split; [reflexivity|]. intros [E|[]]. apply H. left. exact E. }
  destruct o as [t| | |]; cbn [astep].
  - destruct (started a t); [split; [exact N|exists []; rewrite app_nil_r; split; [reflexivity|intros []]]|]. cbn [queue runs]. split; [|exists []; rewrite app_nil_r; split; [reflexivity|intros []]].
    rewrite map_app. intro H. apply in_app_or in H. destruct H as [H|[H|[]]]; [contradiction|]. apply O. cbn in H. congruence.
  - destruct (active a); [apply D|split; [exact N|exists []; rewrite app_nil_r; split; [reflexivity|intros []]]].
    rewrite map_app. intro H. apply in_app_or in H. destruct (queue a) as [|e q]; [destruct H as [[]|[]]|]. cbn [tl firstn map fst] in H. apply N. destruct H as [H|[H|[]]]; [right; exact H|left; exact H].
  - apply D. intro H. apply N. destruct (queue a); [exact H|right; exact H].
  - apply D. exact N.
Qed.

Lemma absent_steps x ops : forall a, ~ In x (map fst (queue a)) -> ~ In (Start x) ops ->
  ~ In x (map fst (queue (asteps ops a))) /\ exists more, runs (asteps ops a) = runs a ++ more /\ ~ In x (map fst more).
Proof.
  induction ops as [|o ops IH]; intros a N O; [split; [exact N|exists []; rewrite app_nil_r; split; [reflexivity|intros []]]|].
  destruct (absent_step x o a N) as [N1 (m1 & E1 & M1)]; [intros ->; apply O; left; reflexivity|].
  change (asteps (o :: ops) a) with (asteps ops (astep o a)). destruct (IH (astep o a) N1) as [N2 (m2 & E2 & M2)]; [intro H; apply O; right; exact H|].
  split; [exact N2|]. exists (m1 ++ m2). rewrite E2, E1, <- app_assoc. split; [reflexivity|]. rewrite map_app. intro H. apply in_app_or in H. tauto.
Qed.
