From Verif Require Import Base AtomicQueueModel AtomicQueueSpec.

Section Proofs.
Context {A : Type}.
Variable N : Z.
Hypothesis HN : 0 <= N <= 65535.

Lemma next_index_eq i : 0 <= i <= N -> next_index N i = if i =? N then 0 else i + 1.
Proof.
  intro Hi. unfold next_index, index_bits, wrap.
  destruct (254 <=? N) eqn:E; change (2 ^ 16) with 65536; change (2 ^ 8) with 256;
  destruct (i =? N) eqn:E1.
  - destruct (Z.eq_dec N 65535).
    + replace ((i + 1) mod 65536) with 0 by lia. destruct (N + 1 <=? 0) eqn:?; reflexivity.
    + rewrite Z.mod_small by lia. destruct (N + 1 <=? i + 1) eqn:?; lia.
  - rewrite Z.mod_small by lia. destruct (N + 1 <=? i + 1) eqn:?; lia.
  - rewrite Z.mod_small by lia. destruct (N + 1 <=? i + 1) eqn:?; lia.
  - rewrite Z.mod_small by lia. destruct (N + 1 <=? i + 1) eqn:?; lia.
Qed.

Definition cell (t i : Z) : Z := if t + i <=? N then t + i else t + i - (N + 1).
Definition dist (h t : Z) : Z := if t <=? h then h - t else N + 1 - t + h.

(* the ring holds the list q *)
Record Ring (s : @queue A) (q : list A) : Prop := {
  r_h : 0 <= q_head s <= N;
  r_t : 0 <= q_tail s <= N;
  r_len : zlen (q_buf s) = N + 1;
  r_dist : zlen q = dist (q_head s) (q_tail s);
  r_cells : forall i x, znth q i = Some x -> znth (q_buf s) (cell (q_tail s) i) = Some (Some x)
}.

Lemma ring_init : Ring (q_init N) [].
Proof.
  constructor; cbn [q_init q_head q_tail q_buf]; try lia.
  - rewrite zlen_repeat. lia.
  - reflexivity.
  - intros i x H. apply znth_Some in H. cbn in H. lia.
Qed.

Lemma ring_bound s q : Ring s q -> 0 <= zlen q <= N.
Proof. intros [Hh Ht _ Hd _]. unfold dist in Hd. pose proof (zlen_nonneg q). destruct (_ <=? _) eqn:?; lia. Qed.

Lemma ring_full s q : Ring s q -> (next_index N (q_head s) =? q_tail s) = (zlen q =? N).
Proof.
  intros [Hh Ht _ Hd _]. rewrite next_index_eq by lia. unfold dist in Hd.
  destruct (q_head s =? N) eqn:?; destruct (q_tail s <=? q_head s) eqn:?; lia.
Qed.

Lemma ring_empty s q : Ring s q -> (q_head s =? q_tail s) = (zlen q =? 0).
Proof. intros [Hh Ht _ Hd _]. unfold dist in Hd. destruct (q_tail s <=? q_head s) eqn:?; lia. Qed.

(* writing the free cell at head does not disturb the stored elements *)
Lemma ring_write s q b w : Ring s q -> zlen q < N -> zupd (q_buf s) (q_head s) w = Some b ->
  Ring (mkQueue (q_head s) (q_tail s) b) q /\ znth b (q_head s) = Some w.
Proof.
  intros [Hh Ht Hl Hd Hc] Hlt Hu. apply zupd_Some in Hu as (Hr & Hlen & G). split.
  - constructor; cbn [q_head q_tail q_buf]; try assumption; [lia|].
    intros i x Hx. rewrite G. pose proof (znth_Some _ _ _ Hx) as Hi.
    unfold cell, dist in *. destruct (_ =? q_head s) eqn:E; [|apply Hc; exact Hx].
    exfalso. destruct (q_tail s <=? q_head s) eqn:?; destruct (q_tail s + i <=? N) eqn:?; lia.
  - rewrite G, Z.eqb_refl. reflexivity.
Qed.

Lemma ring_push s q v t : Ring s q -> zlen q < N -> t = next_index N (q_head s) ->
  znth (q_buf s) (q_head s) = Some (Some v) -> Ring (mkQueue t (q_tail s) (q_buf s)) (q ++ [v]).
Proof.
  intros [Hh Ht Hl Hd Hc] Hlt -> Hv. rewrite next_index_eq by lia.
  constructor; cbn [q_head q_tail q_buf]; try assumption.
  - destruct (q_head s =? N) eqn:?; lia.
  - rewrite zlen_app, zlen_cons, zlen_nil. unfold dist in *.
    destruct (q_head s =? N) eqn:?; destruct (q_tail s <=? q_head s) eqn:?;
    match goal with |- context [?a <=? ?b] => destruct (a <=? b) eqn:? end; lia.
  - intros i x Hx. pose proof (znth_Some _ _ _ Hx) as Hi.
    rewrite zlen_app, zlen_cons, zlen_nil in Hi.
    destruct (Z_lt_dec i (zlen q)) as [Hl1|Hl1].
    + rewrite znth_app_l in Hx by lia. apply Hc; exact Hx.
    + assert (i = zlen q) as -> by lia. rewrite znth_app_r, Z.sub_diag in Hx by lia.
      cbn in Hx. injection Hx as <-. rewrite <- Hv. f_equal. unfold cell, dist in *.
      destruct (q_tail s <=? q_head s) eqn:?; destruct (q_tail s + zlen q <=? N) eqn:?; lia.
Qed.

Lemma ring_pop s x r t : Ring s (x :: r) -> t = next_index N (q_tail s) ->
  Ring (mkQueue (q_head s) t (q_buf s)) r.
Proof.
  intros [Hh Ht Hl Hd Hc] ->. rewrite next_index_eq by lia.
  rewrite zlen_cons in Hd. pose proof (zlen_nonneg r).
  constructor; cbn [q_head q_tail q_buf]; try assumption.
  - destruct (q_tail s =? N) eqn:?; lia.
  - unfold dist in *.
    destruct (q_tail s =? N) eqn:?; destruct (q_tail s <=? q_head s) eqn:?;
    match goal with |- context [?a <=? ?b] => destruct (a <=? b) eqn:? end; lia.
  - intros i y Hy. pose proof (znth_Some _ _ _ Hy) as Hi.
    assert (znth (x :: r) (i + 1) = Some y) as Hy1.
    { rewrite znth_cons by lia. rewrite <- Hy. f_equal. lia. }
    apply Hc in Hy1. rewrite <- Hy1. f_equal. unfold cell.
    assert (zlen r < N) as Hr by (unfold dist in Hd; destruct (q_tail s <=? q_head s) eqn:?; lia).
    destruct (q_tail s =? N) eqn:?; destruct (q_tail s + (i + 1) <=? N) eqn:?;
    match goal with |- context [?a <=? ?b] => destruct (a <=? b) eqn:? end; lia.
Qed.

Lemma ring_front s x r : Ring s (x :: r) -> znth (q_buf s) (q_tail s) = Some (Some x).
Proof.
  intros [Hh Ht Hl Hd Hc]. specialize (Hc 0 x (znth_0 _ _)). rewrite <- Hc. f_equal.
  unfold cell. destruct (_ <=? _) eqn:?; lia.
Qed.

(* ---------------- sequential ---------------- *)

Lemma q_push_ring s q v : Ring s q -> exists s', 
   q_push N s v = Some (s', negb (zlen q =? N)) /\ Ring s' (if zlen q =? N then q else q ++ [v]).
Proof.
  intro R. unfold q_push. rewrite (ring_full _ _ R). pose proof (ring_bound _ _ R).
  destruct (zlen q =? N) eqn:E; [eexists; split; [reflexivity|exact R]|].
  destruct (zupd_in_range (q_buf s) (q_head s) (Some v)) as (b & Eb & _).
  { pose proof (r_h _ _ R). pose proof (r_len _ _ R). lia. }
  rewrite Eb. cbn [obind]. eexists; split; [reflexivity|].
  destruct (ring_write _ _ _ _ R ltac:(lia) Eb) as [R1 Hw].
  apply (ring_push (mkQueue (q_head s) (q_tail s) b) q v _ R1); [lia|reflexivity|exact Hw].
Qed.

Lemma qrun_refines os : forall s q q' out, Ring s q -> seq_spec N q os = Some (q', out) ->
  exists s', qrun N s os = Some (s', out) /\ Ring s' q'.
Proof.
  induction os as [|o os IH]; intros s q q' out R H.
  - cbn in H. injection H as <- <-. exists s. split; [reflexivity|exact R].
  - cbn [seq_spec] in H. destruct o as [v|]; cbn [seq_spec_step] in H.
    + destruct (q_push_ring s q v R) as (s1 & E1 & R1).
      cbn [qrun qstep]. rewrite E1. cbn [obind].
      destruct (zlen q =? N); cbn [obind negb] in *;
      match type of H with context [seq_spec N ?q1 os] => destruct (seq_spec N q1 os) as [[q2 xs]|] eqn:E2 end;
        cbn [obind] in H; try discriminate; injection H as <- <-;
        destruct (IH _ _ _ _ R1 E2) as (s2 & E3 & R2); rewrite E3; cbn [obind];
        eexists; (split; [reflexivity|exact R2]).
    + destruct q as [|x r]; [discriminate|]. cbn [obind] in H.
      destruct (seq_spec N r os) as [[q2 xs]|] eqn:E2; cbn [obind] in H; [|discriminate].
      injection H as <- <-. cbn [qrun qstep obind].
      destruct (IH _ _ _ _ (ring_pop _ _ _ _ R eq_refl) E2) as (s2 & E3 & R2).
      unfold q_pop. rewrite E3. cbn [obind]. eexists; split; [reflexivity|exact R2].
Qed.

Lemma ring_size s q : Ring s q -> q_getSize N s = zlen q.
Proof.
  intro R. pose proof (ring_bound _ _ R). destruct R as [Hh Ht _ Hd _]. unfold q_getSize, index_bits, wrap.
  unfold dist in Hd. destruct (254 <=? N) eqn:?; change (2 ^ 16) with 65536; change (2 ^ 8) with 256;
  destruct (q_tail s <=? q_head s) eqn:?; rewrite Z.mod_small; lia.
Qed.

Lemma seq_queries s q : Ring s q ->
  q_isEmpty s = (zlen q =? 0) /\ q_isFull N s = (zlen q =? N) /\ q_getSize N s = zlen q /\
    (3 < N -> q_isNearlyFull N s = (N - zlen q <? 3)) /\
    q_isNearlyEmpty N s = (zlen q <? 3) /\
    (forall x r, q = x :: r -> q_get s = Some (Some x)).
Proof.
  intro R. unfold q_isEmpty, q_isFull, q_isNearlyFull, q_isNearlyEmpty, q_get.
  rewrite (ring_size _ _ R), (ring_full _ _ R), (ring_empty _ _ R).
  repeat split; try lia. intros x r ->. eapply ring_front; eassumption.
Qed.

(* ---------------- concurrent ---------------- *)

Definition PInv (m : @machine A) (w : @view A) : Prop :=
  let s := m_q m in
  match m_p m with
  | PIdle => True
  | PReadHead v => zlen (v_q w) = N -> v_wasFull w = true
  | PReadTail v t => t = next_index N (q_head s) /\ (zlen (v_q w) = N -> v_wasFull w = true)
  | PReadHead2 v t => t = next_index N (q_head s) /\ zlen (v_q w) < N
  | PStartWrite v t h => t = next_index N (q_head s) /\ zlen (v_q w) < N /\ h = q_head s
  | PEndWrite v t h => t = next_index N (q_head s) /\ zlen (v_q w) < N /\ h = q_head s
  | PWriteHead v t => t = next_index N (q_head s) /\ zlen (v_q w) < N /\
      znth (q_buf s) (q_head s) = Some (Some v)
  end.

Definition CInv (m : @machine A) (w : @view A) : Prop :=
  let s := m_q m in
  match m_c m with
  | CIdle => True
  | CHeadFirst | CTailFirst => v_q w = [] -> v_wasEmpty w = true
  | CTailSecond h => if h =? q_tail s then v_wasEmpty w = true else v_q w <> []
  | CHeadSecond t => t = q_tail s /\ (v_q w = [] -> v_wasEmpty w = true)
  | CReady | CGetTail | CPopTail => v_q w <> []
  | CGetCell t => t = q_tail s /\ v_q w <> []
  | CPopWrite t => t = next_index N (q_tail s) /\ v_q w <> []
  end.

Definition MInv (m : @machine A) (tr : list (@event A)) : Prop :=
  exists w, legal N tr w /\ Ring (m_q m) (v_q w) /\ PInv m w /\ CInv m w.

Lemma empty_iff (q : list A) : zlen q = 0 <-> q = [].
Proof. split; [apply zlen_0_nil|intros ->; reflexivity]. Qed.

Lemma pstep_inv m tr v : MInv m tr ->
  exists m' e, pstep N m v = Some (m', e) /\ MInv m' (tr ++ e).
Proof.
  intros (w & L & R & P & C). unfold pstep, PInv in *. destruct m as [s p c]; cbn [m_q m_p m_c] in *.
  pose proof (ring_bound _ _ R) as HB.
  destruct p as [|u|u t|u t|u t h|u t h|u t].
  - (* call *) eexists _, _; split; [reflexivity|].
    exists (mkView (v_q w) (fullb N (v_q w)) (v_wasEmpty w)).
    split; [constructor; exact L|]. split; [exact R|]. split.
    + cbn. unfold fullb. lia.
    + unfold CInv in *; cbn in *. exact C.
  - eexists _, _; split; [reflexivity|]. rewrite app_nil_r. exists w.
    split; [exact L|]. split; [exact R|]. split; [|exact C]. cbn. split; [reflexivity|exact P].
  - destruct P as [-> P]. rewrite (ring_full _ _ R).
    destruct (zlen (v_q w) =? N) eqn:E.
    + eexists _, _; split; [reflexivity|]. exists w.
      split; [apply legal_refuse; [exact L|apply P; lia]|]. split; [exact R|]. split; [exact I|exact C].
    + eexists _, _; split; [reflexivity|]. rewrite app_nil_r. exists w.
      split; [exact L|]. split; [exact R|]. split; [|exact C]. cbn. split; [reflexivity|lia].
  - eexists _, _; split; [reflexivity|]. rewrite app_nil_r. exists w.
    split; [exact L|]. split; [exact R|]. split; [|exact C]. cbn. tauto.
  - destruct P as (-> & Hlt & ->).
    destruct (zupd_in_range (q_buf s) (q_head s) (@None A)) as (b & Eb & _).
    { pose proof (r_h _ _ R). pose proof (r_len _ _ R). lia. }
    rewrite Eb. cbn [obind]. eexists _, _; split; [reflexivity|]. rewrite app_nil_r. exists w.
    destruct (ring_write _ _ _ _ R Hlt Eb) as [R1 _].
    split; [exact L|]. split; [exact R1|]. split; [cbn; tauto|exact C].
  - destruct P as (-> & Hlt & ->).
    destruct (zupd_in_range (q_buf s) (q_head s) (Some u)) as (b & Eb & _).
    { pose proof (r_h _ _ R). pose proof (r_len _ _ R). lia. }
    rewrite Eb. cbn [obind]. eexists _, _; split; [reflexivity|]. rewrite app_nil_r. exists w.
    destruct (ring_write _ _ _ _ R Hlt Eb) as [R1 Hv].
    split; [exact L|]. split; [exact R1|]. split; [cbn; tauto|exact C].
  - destruct P as (-> & Hlt & Hv).
    eexists _, _; split; [reflexivity|].
    exists (mkView (v_q w ++ [u]) (fullb N (v_q w ++ [u])) (v_wasEmpty w)).
    split; [apply legal_accept; [exact L|exact Hlt]|].
    split; [apply (ring_push s _ u); [exact R|exact Hlt|reflexivity|exact Hv]|].
    split; [exact I|].
    assert (v_q w ++ [u] <> []) as Hne by (destruct (v_q w); discriminate).
    unfold CInv in *; cbn [m_q m_c m_p q_head q_tail v_q v_wasEmpty] in *.
    destruct c; try exact C; try (intro HH; contradiction); try tauto.
    destruct (h =? q_tail s); tauto.
Qed.

Lemma cstep_inv m tr ch : MInv m tr ->
  exists m' e, cstep N m ch = Some (m', e) /\ MInv m' (tr ++ e).
Proof.
  intros (w & L & R & P & C). unfold cstep. destruct m as [s p c]; cbn [m_q m_p m_c] in *.
  pose proof (ring_bound _ _ R) as HB.
  assert (forall c', c' = CHeadFirst \/ c' = CTailFirst ->
     MInv (mkMachine s p c') (tr ++ [EEmptyCall])) as Hcall.
  { intros c' Hc'. exists (mkView (v_q w) (v_wasFull w) (emptyb (v_q w))).
    split; [constructor; exact L|]. split; [exact R|]. split; [exact P|].
    unfold CInv; cbn. destruct Hc' as [->| ->]; intros ->; reflexivity. }
  unfold CInv in C; cbn [m_c m_q] in C.
  assert (forall b, (b = true -> v_wasEmpty w = true) -> (b = false -> v_q w <> []) ->
     MInv (mkMachine s p (ready_of b)) (tr ++ [EEmptyRet b])) as Hret.
  { intros b Ht Hf. exists w. split.
    - destruct b; [apply legal_isempty; auto|apply legal_isnotempty; auto].
    - split; [exact R|]. split; [exact P|]. unfold CInv; cbn [m_c]. destruct b; cbn; auto. }
  destruct c as [| |h| |t| | |t| |t].
  - destruct ch; eexists _, _; (split; [reflexivity|]); apply Hcall; auto.
  - eexists _, _; split; [reflexivity|]. rewrite app_nil_r. exists w.
    split; [exact L|]. split; [exact R|]. split; [exact P|]. unfold CInv; cbn.
    rewrite (ring_empty _ _ R). destruct (zlen (v_q w) =? 0) eqn:E.
    + apply C. apply empty_iff. lia.
    + intro E1. rewrite E1 in E. discriminate.
  - eexists _, _; split; [reflexivity|]. cbn [m_q].
    destruct (h =? q_tail s); apply Hret; intro; try discriminate; assumption.
  - eexists _, _; split; [reflexivity|]. rewrite app_nil_r. exists w.
    split; [exact L|]. split; [exact R|]. split; [exact P|]. unfold CInv; cbn. split; [reflexivity|exact C].
  - destruct C as [-> C]. eexists _, _; split; [reflexivity|].
    rewrite (ring_empty _ _ R). apply Hret; intro E.
    + apply C. apply empty_iff. lia.
    + intro E1. rewrite E1 in E. discriminate.
  - assert (forall c', c' = CGetTail \/ c' = CPopTail -> MInv (mkMachine s p c') (tr ++ [])) as Hgo.
    { intros c' Hc'. rewrite app_nil_r. exists w. split; [exact L|]. split; [exact R|]. split; [exact P|].
      unfold CInv; cbn. destruct Hc' as [->| ->]; exact C. }
    destruct ch; eexists _, _; (split; [reflexivity|]); first [apply Hcall; solve [auto] | apply Hgo; solve [auto]].
  - eexists _, _; split; [reflexivity|]. rewrite app_nil_r. exists w.
    split; [exact L|]. split; [exact R|]. split; [exact P|]. unfold CInv; cbn. split; [reflexivity|exact C].
  - destruct C as [-> C]. destruct (v_q w) as [|x r] eqn:Eq; [contradiction|].
    rewrite (ring_front _ _ _ R). cbn [obind]. eexists _, _; split; [reflexivity|]. exists w.
    split; [eapply legal_got; [exact L|exact Eq]|]. rewrite Eq. split; [exact R|]. split; [exact P|].
    unfold CInv; cbn. rewrite Eq. discriminate.
  - eexists _, _; split; [reflexivity|]. rewrite app_nil_r. exists w.
    split; [exact L|]. split; [exact R|]. split; [exact P|]. unfold CInv; cbn. split; [reflexivity|exact C].
  - destruct C as [-> C]. destruct (v_q w) as [|x r] eqn:Eq; [contradiction|].
    eexists _, _; split; [reflexivity|].
    exists (mkView r (v_wasFull w) (emptyb r || v_wasEmpty w)).
    split; [eapply legal_pop; [exact L|exact Eq]|]. split; [eapply ring_pop; [exact R|reflexivity]|].
    rewrite zlen_cons in HB. pose proof (zlen_nonneg r).
    split; [|exact I]. unfold PInv in *; cbn [m_p m_q q_head q_buf v_q v_wasFull] in *.
    rewrite Eq, zlen_cons in P. destruct p; intuition lia.
Qed.

Lemma mrun_inv s : forall m tr, MInv m tr ->
  exists m' e, mrun N m s = Some (m', e) /\ MInv m' (tr ++ e).
Proof.
  induction s as [|ch s IH]; intros m tr H.
  - exists m, []. split; [reflexivity|]. rewrite app_nil_r. exact H.
  - cbn [mrun].
    assert (exists m1 e1, mstep N m ch = Some (m1, e1) /\ MInv m1 (tr ++ e1)) as (m1 & e1 & E1 & H1).
    { unfold mstep. destruct ch; first [apply pstep_inv; exact H | apply cstep_inv; exact H]. }
    rewrite E1. cbn [obind]. destruct (IH _ _ H1) as (m2 & e2 & E2 & H2).
    rewrite E2. cbn [obind]. exists m2, (e1 ++ e2). split; [reflexivity|].
    rewrite app_assoc. exact H2.
Qed.

Lemma minv_init : MInv (m_init N) [].
Proof.
  exists (mkView [] (fullb N (@nil A)) true). split; [constructor|]. split; [apply ring_init|]. split; exact I.
Qed.

Lemma every_schedule_legal s : exists (m : @machine A) tr w, mrun N (m_init N) s = Some (m, tr) /\ legal N tr w.
Proof.
  destruct (mrun_inv s _ _ minv_init) as (m & tr & E & w & L & _). cbn in L. eauto.
Qed.

(* ---------------- reading a legal trace ---------------- *)
Lemma accepted_app (t1 t2 : list (@event A)) : accepted (t1 ++ t2) = accepted t1 ++ accepted t2.
Proof. induction t1 as [|e t IH]; [reflexivity|]. destruct e as [|? []| | | |]; cbn; rewrite ?IH; reflexivity. Qed.

(* the value pending after a trace *)
Fixpoint cur_of (cur : option (option A)) (tr : list (@event A)) : option (option A) :=
  match tr with
  | [] => cur
  | EGot x :: r => cur_of (Some x) r
  | EPopped :: r => cur_of None r
  | _ :: r => cur_of cur r
  end.
Lemma taken_app cur (t1 t2 : list (@event A)) :
  taken_aux cur (t1 ++ t2) = taken_aux cur t1 ++ taken_aux (cur_of cur t1) t2.
Proof. revert cur. induction t1 as [|e t IH]; intro cur; [reflexivity|]. destruct e; cbn; rewrite ?IH; reflexivity. Qed.
Lemma cur_app cur (t1 t2 : list (@event A)) : cur_of cur (t1 ++ t2) = cur_of (cur_of cur t1) t2.
Proof. revert cur. induction t1 as [|e t IH]; intro cur; [reflexivity|]. destruct e; cbn; apply IH. Qed.

Definition agrees (o : option (option A)) (x : A) : Prop := o = None \/ o = Some (Some x).

Lemma legal_reading tr w : legal N tr w -> exists popped,
  accepted tr = popped ++ v_q w /\ Forall2 agrees (taken tr) popped /\
  (cur_of None tr = None \/ exists x r, v_q w = x :: r /\ cur_of None tr = Some (Some x)) /\
  zlen (v_q w) <= N.
Proof.
  unfold taken. induction 1 as [|tr w v H IH|tr w v H IH HN1|tr w v H IH HN1|tr w H IH|tr w H IH HN1|tr w H IH HN1|tr w x r H IH E|tr w x r H IH E].
  1: { exists []. cbn. repeat split; auto. unfold zlen; cbn; lia. }
  all: destruct IH as (pp & Ha & Hf & Hc & Hb).
  all: rewrite ?accepted_app, ?taken_app, ?cur_app; cbn [accepted taken_aux cur_of v_q]; rewrite ?app_nil_r.
  - exists pp. auto.
  - exists pp. rewrite Ha, <- app_assoc. repeat split; auto.
    + destruct Hc as [Hc|(x & r & E & Hc)]; [auto|right]. exists x, (r ++ [v]). rewrite E. auto.
    + rewrite zlen_app, zlen_cons, zlen_nil. lia.
  - exists pp. auto.
  - exists pp. auto.
  - exists pp. auto.
  - exists pp. auto.
  - exists pp. repeat split; auto. right. eauto.
  - exists (pp ++ [x]). rewrite Ha, E, <- app_assoc. split; [reflexivity|].
    rewrite E, zlen_cons in Hb. repeat split; auto; [|lia].
    apply Forall2_app; [exact Hf|]. constructor; [|constructor].
    destruct Hc as [Hc|(y & r' & E' & Hc)]; [left; exact Hc|right]. rewrite E in E'. injection E' as <- <-. exact Hc.
Qed.

Lemma taken_prefix s m tr : mrun N (m_init N) s = Some (m, tr) ->
  exists rest popped, accepted tr = popped ++ rest /\ Forall2 agrees (taken tr) popped /\ zlen rest <= N.
Proof.
  intro H. destruct (every_schedule_legal s) as (m' & tr' & w & E & L).
  rewrite H in E. injection E as <- <-.
  destruct (legal_reading _ _ L) as (pp & Ha & Hf & _ & Hb). exists (v_q w), pp. auto.
Qed.

End Proofs.

(* capacity beyond the index type *)
Section TooLarge.
Context {A : Type}.
Variable N : Z.
Hypothesis HN : 65536 <= N.
Variable v : A.

Lemma next_index_big i : 0 <= i < 65536 -> next_index N i = if i =? 65535 then 0 else i + 1.
Proof.
  intro H. unfold next_index, index_bits, wrap. destruct (254 <=? N) eqn:?; [|lia].
  change (2 ^ 16) with 65536. destruct (i =? 65535) eqn:E.
  - replace ((i + 1) mod 65536) with 0 by lia. destruct (N + 1 <=? 0) eqn:?; lia.
  - rewrite Z.mod_small by lia. destruct (N + 1 <=? i + 1) eqn:?; lia.
Qed.

Lemma push_many k : Z.of_nat k <= 65535 -> exists q,
  qrun N (q_init N) (repeat (QPush v) k) = Some (q, repeat (OPushed true) k)
  /\ q_head q = Z.of_nat k /\ q_tail q = 0 /\ zlen (q_buf q) = N + 1.
Proof.
  assert (forall k q, 0 <= q_head q -> q_head q + Z.of_nat k <= 65535 -> q_tail q = 0 -> zlen (q_buf q) = N + 1 ->
    exists q', qrun (A:=A) N q (repeat (QPush v) k) = Some (q', repeat (OPushed true) k)
     /\ q_head q' = q_head q + Z.of_nat k /\ q_tail q' = 0 /\ zlen (q_buf q') = N + 1) as G.
  { clear k. induction k as [|k IH]; intros q H0 H1 H2 H3.
    - exists q. cbn. repeat split; auto; lia.
    - cbn [repeat qrun qstep]. unfold q_push. rewrite next_index_big by lia.
      destruct (q_head q =? 65535) eqn:E; [lia|]. rewrite H2. destruct (q_head q + 1 =? 0) eqn:E1; [lia|].
      destruct (zupd_in_range (q_buf q) (q_head q) (Some v)) as (b & Eb & Lb & _); [lia|]. rewrite Eb. cbn [obind].
      destruct (IH (mkQueue (q_head q + 1) 0 b)) as (q' & Eq & Hh & Ht & Hl); cbn [q_head q_tail q_buf]; try lia.
      rewrite Eq. cbn [obind]. exists q'. repeat split; auto. cbn [q_head] in Hh. lia. }
  intro H. destruct (G k (q_init N)) as (q' & E & Hh & Ht & Hl); cbn [q_init q_head q_tail q_buf]; try lia.
  - rewrite zlen_repeat. lia.
  - exists q'. cbn [q_init q_head] in Hh. auto.
Qed.

Lemma too_large_refuses_early : exists q,
  qrun N (q_init N) (repeat (QPush v) (Z.to_nat 65535)) = Some (q, repeat (OPushed true) (Z.to_nat 65535))
  /\ q_push N q v = Some (q, false).
Proof.
  destruct (push_many (Z.to_nat 65535)) as (q & E & Hh & Ht & Hl); [lia|].
  exists q. split; [exact E|]. unfold q_push. rewrite next_index_big by lia.
  destruct (q_head q =? 65535) eqn:E1; [|lia]. rewrite Ht. reflexivity.
Qed.
End TooLarge.
