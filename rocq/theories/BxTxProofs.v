From Coq Require Import Permutation.
From Verif Require Import Base CanModel BxModel BxSpec.

(** *** Transmission *)
Definition anyrq (s : tx) : bool := rqcp s 0 || rqcp s 1 || rqcp s 2.
Record BASE (s : tx) : Prop := {
  b_nodup : NoDup (order s);
  b_order : forall k, In k (order s) <-> box s k <> None;
  b_range : forall k, In k (order s) -> 0 <= k < 3;
  b_rq : forall k, rqcp s k = true -> box s k = None /\ 0 <= k < 3;
  b_pend : pend s = anyrq s;
  b_put : forall m k, prog s = Put m k -> box s k = None /\ rqcp s k = false /\ 0 <= k < 3 }.

Definition boxes_of (bx : Z -> option can_msg) (l : list Z) : list can_msg := flat_map (fun k => match bx k with Some m => [m] | None => [] end) l.
Lemma boxes_ext bx by' l : (forall k, In k l -> bx k = by' k) -> boxes_of bx l = boxes_of by' l.
Proof. intro H. induction l as [|k l IH]; [reflexivity|]. cbn. rewrite (H k) by (left; reflexivity). f_equal. apply IH. intros j J. apply H. right. exact J. Qed.
Lemma range3 k : 0 <= k < 3 -> k = 0 \/ k = 1 \/ k = 2.
Proof. lia. Qed.

Lemma write_box_ok s k m : NoDup (order s) -> (forall k, In k (order s) <-> box s k <> None) -> (forall k, In k (order s) -> 0 <= k < 3) -> 0 <= k < 3 -> box s k = None ->
  exists s', write_box k m s = s' /\ NoDup (order s') /\ (forall j, In j (order s') <-> box s' j <> None) /\ (forall j, In j (order s') -> 0 <= j < 3) /\
    (forall j, box s' j = if j =? k then Some m else box s j) /\ (forall j, rqcp s' j = if j =? k then false else rqcp s j) /\
    in_boxes s' = in_boxes s ++ [m] /\ queue s' = queue s /\ pend s' = pend s /\ prog s' = prog s /\ sent s' = sent s /\ accepted s' = accepted s.
Proof.
  intros N O R K E. eexists. split; [reflexivity|]. unfold write_box. rewrite E. cbn [order box rqcp queue pend prog sent accepted].
  assert (NI : ~ In k (order s)) by (rewrite O, E; tauto).
  split; [|split; [|split; [|split; [|split; [|split; [|repeat split]]]]]].
  - apply Permutation_NoDup with (l := k :: order s); [apply Permutation_cons_append|]. constructor; assumption.
  - intro j. rewrite in_app_iff, O. cbn. destruct (Z.eqb_spec j k) as [->|D]; [split; [discriminate|auto]|]. split; [intros [H|[H|[]]]; [exact H|congruence]|auto].
  - intros j J. rewrite in_app_iff in J. destruct J as [J|[<-|[]]]; auto.
  - reflexivity.
  - reflexivity.
  - unfold in_boxes. cbn [order box]. rewrite flat_map_app. cbn. rewrite Z.eqb_refl. f_equal. apply boxes_ext. intros j J. destruct (Z.eqb_spec j k) as [->|]; [contradiction|reflexivity].
Qed.
Lemma hw_boxes s k r m : NoDup (order s) -> order s = k :: r -> box s k = Some m -> in_boxes s = m :: boxes_of (fun j => if j =? k then None else box s j) r.
Proof.
  intros N E B. unfold in_boxes. rewrite E. cbn. rewrite B. cbn. f_equal. apply boxes_ext. intros j J. destruct (Z.eqb_spec j k) as [->|]; [|reflexivity]. rewrite E in N. apply NoDup_cons_iff in N. elim (proj1 N J).
Qed.

(* the state after the interrupt *)
Lemma isr_ok s : BASE s -> pend s = true -> exists k, 0 <= k < 3 /\ rqcp s k = true /\ box s k = None /\
  BASE (tx_isr s) /\ prog (tx_isr s) = prog s /\ sent (tx_isr s) = sent s /\ accepted (tx_isr s) = accepted s /\
  match queue s with
  | [] => queue (tx_isr s) = [] /\ in_boxes (tx_isr s) = in_boxes s /\ (forall j, box (tx_isr s) j = box s j) /\ (forall j, rqcp (tx_isr s) j = if j =? k then false else rqcp s j)
  | m :: q => queue (tx_isr s) = q /\ in_boxes (tx_isr s) = in_boxes s ++ [m] /\ (forall j, box (tx_isr s) j = if j =? k then Some m else box s j) /\ (forall j, rqcp (tx_isr s) j = if j =? k then false else rqcp s j)
  end.
Proof.
  intros [N O R Q P U] PE. unfold tx_isr. set (k := if rqcp s 2 then 2 else if rqcp s 1 then 1 else 0). exists k.
  assert (RK : rqcp s k = true). { rewrite PE in P. unfold anyrq in P. unfold k. destruct (rqcp s 2) eqn:E2; [exact E2|]. destruct (rqcp s 1) eqn:E1; [exact E1|]. destruct (rqcp s 0); [reflexivity|discriminate]. }
  destruct (Q k RK) as [BK KR]. split; [exact KR|]. split; [exact RK|]. split; [exact BK|].
  assert (UK : forall m, prog s <> Put m k) by (intros m E; destruct (U m k E) as (_ & H & _); congruence).
  cbn zeta. cbn [queue]. destruct (queue s) as [|m q] eqn:QE.
  - cbn [queue box rqcp order pend prog sent accepted]. split; [|repeat split]. constructor; cbn [queue box rqcp order pend prog sent accepted]; auto.
    + intros j J. destruct (j =? k); [discriminate|auto].
    + intros m' k' E. destruct (U m' k' E) as (A & B & C). destruct (k' =? k); auto.
  - set (s1 := Tx (m :: q) (box s) (fun j => if j =? k then false else rqcp s j) (order s) false (prog s) (sent s) (accepted s)).
    destruct (write_box_ok s1 k m N O R KR BK) as (s2 & -> & N2 & O2 & R2 & B2 & Q2 & I2 & QE2 & P2 & G2 & S2 & A2).
    cbn [queue box rqcp order pend prog sent accepted]. assert (RQ : forall j, rqcp s2 j = if j =? k then false else rqcp s j) by (intro j; rewrite Q2; cbn [s1 rqcp]; destruct (j =? k); reflexivity). split; [|].
    + constructor; cbn [queue box rqcp order pend prog sent accepted]; auto.
      * intros j J. rewrite RQ in J. rewrite B2. destruct (Z.eqb_spec j k); [discriminate|]. exact (Q j J).
      * intros m' k' E. rewrite G2 in E. cbn [s1 prog] in E. destruct (U m' k' E) as (A & B & C). rewrite B2, RQ. destruct (Z.eqb_spec k' k) as [->|]; [elim (UK m' E)|]. auto.
    + rewrite G2, S2, A2. split; [reflexivity|]. split; [reflexivity|]. split; [reflexivity|]. split; [reflexivity|]. split; [exact I2|]. split; [exact B2|exact RQ].
Qed.

Lemma base_start : BASE tx_start.
Proof. constructor; cbn; try tauto; try discriminate. constructor. Qed.
Lemma base_step cap allowed s s' : BASE s -> tx_step cap false allowed s s' -> BASE s'.
Proof.
  intros B T. pose proof B as [N O R Q P U]. destruct T as [s k r m E BK AL|s PE|s m F I|s m F I|s m k F I KR BK|s m k F I].
  - assert (KI : In k (order s)) by (rewrite E; left; reflexivity). pose proof (R k KI) as KR. rewrite E in N. apply NoDup_cons_iff in N. destruct N as [NI N].
    constructor; cbn [queue box rqcp order pend prog sent accepted]; auto.
    + intro j. destruct (Z.eqb_spec j k) as [->|D]; [tauto|]. rewrite <- O, E. cbn. split; [auto|]. intros [H|H]; [congruence|exact H].
    + intros j J. apply R. rewrite E. right. exact J.
    + intro j. destruct (Z.eqb_spec j k) as [JK|D]; intro J; [subst j; auto|]. exact (Q j J).
    + unfold anyrq. cbn [rqcp]. destruct (range3 k KR) as [-> |[-> | ->]]; cbn; rewrite ?orb_true_r; reflexivity.
    + intros m' k' E'. destruct (U m' k' E') as (A & C & D). destruct (Z.eqb_spec k' k) as [->|]; [congruence|auto].
  - destruct (isr_ok s B PE) as (k & _ & _ & _ & B' & _). exact B'.
  - constructor; cbn [check queue box rqcp order pend prog sent accepted]; auto. intros m' k'. destruct (box s 0), (box s 1), (box s 2); discriminate.
  - unfold push. destruct (zlen (queue s) <? cap); constructor; cbn [queue box rqcp order pend prog sent accepted]; auto; discriminate.
  - destruct F as [F|F]; [|discriminate]. constructor; cbn [code queue box rqcp order pend prog sent accepted]; auto. intros m' k' E. injection E as <- <-. split; [exact BK|]. split; [|exact KR].
    rewrite F in P. unfold anyrq in P. symmetry in P. apply orb_false_iff in P. destruct P as [P P2]. apply orb_false_iff in P. destruct P as [P0 P1]. destruct (range3 k KR) as [-> |[-> | ->]]; assumption.
  - destruct (U m k I) as (BK & RK & KR). unfold put. destruct (write_box_ok s k m N O R KR BK) as (s2 & -> & N2 & O2 & R2 & B2 & Q2 & I2 & QE2 & P2 & G2 & S2 & A2).
    assert (RQ : forall j, rqcp s2 j = rqcp s j) by (intro j; rewrite Q2; destruct (Z.eqb_spec j k) as [->|]; congruence).
    constructor; cbn [queue box rqcp order pend prog sent accepted]; auto; [| |discriminate].
    + intros j J. rewrite RQ in J. rewrite B2. destruct (Z.eqb_spec j k) as [->|]; [congruence|]. exact (Q j J).
    + rewrite P2, P. unfold anyrq. cbn [rqcp]. rewrite !RQ. reflexivity.
Qed.
Lemma base_reach cap allowed s : tx_reach cap false allowed s -> BASE s.
Proof. induction 1 as [|s s' R IH T]; [exact base_start|]. exact (base_step cap allowed s s' IH T). Qed.

(* nothing is lost or sent twice *)
Lemma perm_step cap allowed s s' : BASE s -> Permutation (accepted s) (sent s ++ in_boxes s ++ queue s) -> tx_step cap false allowed s s' -> Permutation (accepted s') (sent s' ++ in_boxes s' ++ queue s').
Proof.
  intros B PM T. pose proof B as [N O R Q P U]. destruct T as [s k r m E BK AL|s PE|s m F I|s m F I|s m k F I KR BK|s m k F I].
  - cbn [queue box rqcp order pend prog sent accepted]. rewrite (hw_boxes s k r m N E BK) in PM. unfold in_boxes at 1. cbn [order box]. rewrite <- app_assoc. exact PM.
  - destruct (isr_ok s B PE) as (k & _ & _ & _ & _ & _ & S' & A' & M). rewrite S', A'. destruct (queue s) as [|m q].
    + destruct M as (-> & -> & _). exact PM.
    + destruct M as (-> & -> & _). rewrite <- app_assoc. exact PM.
  - exact PM.
  - unfold push. destruct (zlen (queue s) <? cap); cbn [queue accepted sent]; [|exact PM]. change (in_boxes (Tx (queue s ++ [m]) (box s) (rqcp s) (order s) (pend s) Idle (sent s) (accepted s ++ [m]))) with (in_boxes s).
    rewrite !app_assoc. apply Permutation_app_tail. rewrite <- app_assoc. exact PM.
  - exact PM.
  - destruct (U m k I) as (BK & RK & KR). unfold put. destruct (write_box_ok s k m N O R KR BK) as (s2 & -> & N2 & O2 & R2 & B2 & Q2 & I2 & QE2 & P2 & G2 & S2 & A2).
    cbn [queue accepted sent]. rewrite QE2, S2, A2. change (in_boxes (Tx (queue s) (box s2) (rqcp s2) (order s2) (pend s2) Idle (sent s) (accepted s ++ [m]))) with (in_boxes s2). rewrite I2.
    eapply Permutation_trans; [apply Permutation_app_tail; exact PM|]. rewrite <- !app_assoc. apply Permutation_app_head, Permutation_app_head. apply Permutation_app_comm.
Qed.
Lemma perm_reach cap allowed s : tx_reach cap false allowed s -> Permutation (accepted s) (sent s ++ in_boxes s ++ queue s).
Proof. induction 1 as [|s s' R IH T]; [constructor|]. exact (perm_step cap allowed s s' (base_reach _ _ _ R) IH T). Qed.

(* order *)
Record ORD (s : tx) : Prop := {
  o_seq : accepted s = sent s ++ in_boxes s ++ queue s;
  o_full : queue s <> [] -> forall k, 0 <= k < 3 -> box s k <> None \/ rqcp s k = true;
  o_free : forall m k, prog s = Free m \/ prog s = Put m k -> queue s = [];
  o_check : forall m, prog s = Full m -> pend s = false /\ forall k, 0 <= k < 3 -> box s k <> None }.
Lemma no_rq s : BASE s -> pend s = false -> forall k, 0 <= k < 3 -> rqcp s k = false.
Proof.
  intros B F k KR. pose proof (b_pend s B) as P. rewrite F in P. unfold anyrq in P. symmetry in P. apply orb_false_iff in P. destruct P as [P P2]. apply orb_false_iff in P. destruct P as [P0 P1]. destruct (range3 k KR) as [-> |[-> | ->]]; assumption.
Qed.
Lemma ord_step cap s s' : BASE s -> ORD s -> tx_step cap false not_between s s' -> ORD s'.
Proof.
  intros B [A FU FR CH] T. pose proof B as [N O R Q P U]. destruct T as [s k r m E BK AL|s PE|s m F I|s m F I|s m k F I KR BK|s m k F I].
  - constructor; cbn [queue box rqcp order pend prog sent accepted]; auto.
    + rewrite (hw_boxes s k r m N E BK) in A. unfold in_boxes. cbn [order box]. rewrite <- app_assoc. exact A.
    + intros NE j J. destruct (Z.eqb_spec j k) as [->|]; [auto|]. exact (FU NE j J).
    + intros m' E'. elim (AL m' E').
  - destruct (isr_ok s B PE) as (k & KR & RK & BK & _ & G' & S' & A' & M). constructor; rewrite ?S', ?A', ?G'.
    + destruct (queue s) as [|m q]; destruct M as (-> & -> & _); [exact A|]. rewrite <- app_assoc. exact A.
    + destruct (queue s) as [|m q] eqn:QE; destruct M as (-> & _ & MB & MR); [congruence|]. intros NE j J. rewrite MB, MR. destruct (Z.eqb_spec j k) as [->|]; [left; discriminate|]. apply FU; [discriminate|exact J].
    + intros m' k' E'. specialize (FR m' k' E'). rewrite FR in M. apply M.
    + intros m' E'. destruct (CH m' E') as [C _]. congruence.
  - destruct F as [F|F]; [|discriminate]. constructor; cbn [check queue box rqcp order pend prog sent accepted]; auto.
    + intros m' k'. assert (K0 : box s 0 = None -> queue s = []) by (intro X; destruct (queue s) eqn:QE; [reflexivity|]; destruct (FU ltac:(discriminate) 0 ltac:(lia)) as [H|H]; [contradiction|rewrite (no_rq s B F 0 ltac:(lia)) in H; discriminate]).
      assert (K1 : box s 1 = None -> queue s = []) by (intro X; destruct (queue s) eqn:QE; [reflexivity|]; destruct (FU ltac:(discriminate) 1 ltac:(lia)) as [H|H]; [contradiction|rewrite (no_rq s B F 1 ltac:(lia)) in H; discriminate]).
      assert (K2 : box s 2 = None -> queue s = []) by (intro X; destruct (queue s) eqn:QE; [reflexivity|]; destruct (FU ltac:(discriminate) 2 ltac:(lia)) as [H|H]; [contradiction|rewrite (no_rq s B F 2 ltac:(lia)) in H; discriminate]).
      destruct (box s 0), (box s 1), (box s 2); auto; intros [H|H]; discriminate.
    + intros m' H. split; [exact F|]. intros k KR. destruct (box s 0) eqn:E0, (box s 1) eqn:E1, (box s 2) eqn:E2; try discriminate. destruct (range3 k KR) as [-> |[-> | ->]]; congruence.
  - destruct (CH m I) as [C1 C2]. unfold push. destruct (zlen (queue s) <? cap); constructor; cbn [queue box rqcp order pend prog sent accepted]; auto; try discriminate; try (intros m' k' [H|H]; discriminate).
    + change (in_boxes (Tx (queue s ++ [m]) (box s) (rqcp s) (order s) (pend s) Idle (sent s) (accepted s ++ [m]))) with (in_boxes s). rewrite A, <- !app_assoc. reflexivity.
  - constructor; cbn [code queue box rqcp order pend prog sent accepted]; auto; try discriminate. intros _ _ _. exact (FR m 0 (or_introl I)).
  - destruct (U m k I) as (BK & RK & KR). unfold put. destruct (write_box_ok s k m N O R KR BK) as (s2 & -> & N2 & O2 & R2 & B2 & Q2 & I2 & QE2 & P2 & G2 & S2 & A2).
    pose proof (FR m k (or_intror I)) as QN. constructor; cbn [queue box rqcp order pend prog sent accepted]; rewrite ?QE2, ?S2, ?A2, ?QN; try discriminate; auto.
    + change (in_boxes (Tx [] (box s2) (rqcp s2) (order s2) (pend s2) Idle (sent s) (accepted s ++ [m]))) with (in_boxes s2). rewrite I2, A, QN, !app_nil_r, app_assoc. reflexivity.
Qed.
Lemma ord_reach cap s : tx_reach cap false not_between s -> ORD s.
Proof.
  induction 1 as [|s s' R IH T]; [constructor; cbn; try discriminate; try tauto; intros m k [H|H]; discriminate|]. exact (ord_step cap s s' (base_reach _ _ _ R) IH T).
Qed.
