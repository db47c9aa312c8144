From Coq Require Import ZArith List Bool Lia.
From Verif Require Import Base AtomicQueueModel AtomicQueueSpec AtomicQueueProofs UartModel UartSpec.
Import ListNotations.
Open Scope Z_scope.

Section Uart.
Variables (NT NR : Z) (ext : bool).
Hypothesis HT : 1 <= NT <= 65535.
Hypothesis HR : 0 <= NR <= 65535.
Lemma HT0 : 0 <= NT <= 65535. Proof. lia. Qed.

(** *** Transmission *)
Definition pend (m : pc) : list Z := match m with WEnable b => [b] | _ => [] end.
Definition tx_pc (s : state) (l : list Z) : Prop :=
  match mp s with
  | WTxe _ | FTxe => l = []
  | WDirect b => l = [] /\ dr s = None
  | PCell b => zlen l < NT
  | PHead b => zlen l < NT /\ znth (q_buf (txq s)) (q_head (txq s)) = Some (Some b)
  | BWait _ | BWrite _ | DDisable | DEmpty _ | DRead _ | DWrite _ _ => False
  | _ => True
  end.
Definition tx_inv (s : state) (l : list Z) : Prop :=
  Ring NT (txq s) l /\ line s ++ opt (sh s) ++ opt (dr s) ++ l = acc s ++ pend (mp s) /\ tx_pc s l /\
  (ip s = IQueue -> dr s = None) /\ (l <> [] -> txeie s = true \/ exists b, mp s = WEnable b).

Lemma empty_eq s l : Ring NT (txq s) l -> (q_head (txq s) =? q_tail (txq s)) = true -> l = [].
Proof. intros R E. rewrite (ring_empty NT _ _ R) in E. apply zlen_0_nil. lia. Qed.

Lemma main_tx s l : tx_inv s l -> ip s = INone ->
  match main_step NT NR s with
  | Some s' => exists l', tx_inv s' l'
  | None => mp s = RGet
  end.
Proof.
  intros (R & E & P & IQ & TI) IN. destruct s as [tq rq d h ln te rd rn m i ac gt rc dp rt]. cbn [txq rxq dr sh line txeie rdr rxne mp ip acc got recvd drops ret] in *. subst i.
  assert (SAME : forall m', tx_pc (State tq rq d h ln te rd rn m' INone ac gt rc dp rt) l -> pend m' = pend m -> (forall b, m <> WEnable b) -> tx_inv (State tq rq d h ln te rd rn m' INone ac gt rc dp rt) l).
  { intros m' PC PE NW. split; [exact R|]. split; [cbn; rewrite PE; exact E|]. split; [exact PC|]. split; [exact IQ|]. intro L. destruct (TI L) as [A|[b A]]; [left; exact A|]. exfalso. exact (NW b A). }
  assert (FIN : forall r g q, (forall b, m <> WEnable b) -> pend m = [] -> tx_inv (State tq q d h ln te rd rn Idle INone (ac ++ []) (gt ++ g) rc dp r) l).
  { intros r g q NW PN. split; [exact R|]. split; [cbn; rewrite !app_nil_r; rewrite PN, app_nil_r in E; exact E|]. split; [exact Logic.I|]. split; [exact IQ|]. intro L. destruct (TI L) as [A|[b A]]; [left; exact A|]. exfalso. exact (NW b A). }
  destruct m; cbn [main_step mp txq rxq dr sh line txeie rdr rxne ip acc got recvd drops ret] in *.
  - (* Idle *) exists l. split; [exact R|]. split; [exact E|]. split; [exact P|]. split; assumption.
  - (* WEmpty *) exists l. destruct (q_head tq =? q_tail tq) eqn:Q; apply SAME; cbn; try reflexivity; try discriminate; try exact Logic.I.
    rewrite (ring_empty NT _ _ R) in Q. apply zlen_0_nil. lia.
  - (* WTxe *) exists l. cbn in P. destruct d; apply SAME; cbn; try reflexivity; try discriminate; try exact Logic.I. split; [exact P|reflexivity].
  - (* WDirect *) cbn in P. destruct P as [-> ->]. exists []. cbn. split; [exact R|]. cbn in E. rewrite !app_nil_r in *. split; [rewrite <- E; cbn; rewrite <- app_assoc; reflexivity|]. split; [exact Logic.I|]. split; [discriminate|]. intro C; destruct C; reflexivity.
  - (* PCheck *) rewrite (ring_full NT HT0 _ _ R). pose proof (ring_bound NT _ _ R). destruct (zlen l =? NT) eqn:F; exists l.
    + apply FIN; [discriminate|reflexivity].
    + apply SAME; cbn; try reflexivity; try discriminate. lia.
  - (* PCell *) cbn in P. destruct (zupd_in_range (q_buf tq) (q_head tq) (Some b)) as (c & Eb & _). { pose proof (r_h _ _ _ R). pose proof (r_len _ _ _ R). lia. }
    rewrite Eb. cbn [obind]. destruct (ring_write NT _ _ _ _ R P Eb) as [R1 W]. exists l. split; [exact R1|]. split; [exact E|]. split; [split; [exact P|exact W]|]. split; [exact IQ|]. intro L. destruct (TI L) as [A|[b' A]]; [left; exact A|discriminate].
  - (* PHead *) destruct P as [P W]. exists (l ++ [b]). split; [apply (ring_push NT HT0 tq l b _ R P eq_refl W)|]. split; [cbn; cbn in E; rewrite app_nil_r in E; rewrite <- E; rewrite <- !app_assoc; reflexivity|]. split; [exact Logic.I|]. split; [exact IQ|]. intros _. right. exists b. reflexivity.
  - (* WEnable *) exists l. split; [exact R|]. split; [cbn; rewrite app_nil_r; exact E|]. split; [exact Logic.I|]. split; [exact IQ|]. intros _. left. reflexivity.
  - destruct P.
  - destruct P.
  - (* FEmpty *) exists l. destruct (q_head tq =? q_tail tq) eqn:Q.
    + apply SAME; cbn; try reflexivity; try discriminate. rewrite (ring_empty NT _ _ R) in Q. apply zlen_0_nil. lia.
    + apply FIN; [discriminate|reflexivity].
  - (* FTxe *) exists l. apply FIN; [discriminate|reflexivity].
  - destruct P.
  - destruct P.
  - destruct P.
  - destruct P.
  - (* REmpty *) exists l. destruct (q_head rq =? q_tail rq).
    + apply FIN; [discriminate|reflexivity].
    + apply SAME; cbn; try reflexivity; try discriminate; exact Logic.I.
  - (* RGet *) destruct (q_get rq) as [[x|]|]; cbn [obind]; try reflexivity. exists l. apply SAME; cbn; try reflexivity; try discriminate; exact Logic.I.
  - (* RPop *) exists l. apply FIN; [discriminate|reflexivity].
  - (* RTest *) exists l. destruct rn; [apply SAME; cbn; try reflexivity; try discriminate; exact Logic.I|]. apply FIN; [discriminate|reflexivity].
  - (* RTake *) exists l. split; [exact R|]. split; [cbn; rewrite !app_nil_r in *; exact E|]. split; [exact Logic.I|]. split; [exact IQ|]. intro L. destruct (TI L) as [A|[b' A]]; [left; exact A|discriminate].
Qed.

Lemma isr_tx s l : tx_inv s l ->
  match isr_step NT NR ext s with
  | Some s' => exists l', tx_inv s' l'
  | None => ip s = IRead
  end.
Proof.
  intros (R & E & P & IQ & TI). destruct s as [tq rq d h ln te rd rn m i ac gt rc dp rt]. cbn [txq rxq dr sh line txeie rdr rxne mp ip acc got recvd drops ret] in *.
  destruct i; cbn [isr_step ip txq rxq dr sh line txeie rdr rxne mp acc got recvd drops ret].
  - exists l. split; [exact R|]. split; [exact E|]. split; [exact P|]. split; assumption.
  - exists l. split; [exact R|]. split; [exact E|]. split; [exact P|]. split; [destruct rn; discriminate|exact TI].
  - destruct (q_push NR rq rd) as [[q ok]|]; cbn [obind]; [|reflexivity]. exists l. destruct ok; (split; [exact R|]; split; [exact E|]; split; [exact P|]; split; [discriminate|exact TI]).
  - exists l. split; [exact R|]. split; [exact E|]. split; [exact P|]. split; [destruct d; [discriminate|reflexivity]|exact TI].
  - specialize (IQ eq_refl). subst d. unfold q_isEmpty. rewrite (ring_empty NT _ _ R). destruct (zlen l =? 0) eqn:Z0.
    + exists l. split; [exact R|]. split; [exact E|]. split; [exact P|]. split; [discriminate|]. intro L. exfalso. apply L. apply zlen_0_nil. lia.
    + destruct l as [|x l]; [discriminate|]. unfold q_get. rewrite (ring_front NT HT0 tq x l R). cbn [obind]. exists l. split; [unfold q_pop; apply (ring_pop NT HT0 tq x l _ R eq_refl)|].
      split; [cbn; cbn in E; exact E|]. split.
      * unfold tx_pc in *. cbn [mp txq q_pop q_buf q_head dr set_ip set_txq set_dr] in *. destruct m; try exact P; try discriminate P; try (exfalso; discriminate (proj1 P)).
        -- rewrite zlen_cons in P. lia.
        -- destruct P as [P1 P2]. rewrite zlen_cons in P1. split; [lia|exact P2].
      * split; [discriminate|]. intros _. apply TI. discriminate.
  - exists l. destruct ext; (split; [exact R|]; split; [exact E|]; split; [exact P|]; split; [discriminate|exact TI]).
Qed.

(** *** Reception *)
Definition take (m : pc) : bool := match m with RTake => true | _ => false end.
Definition in_rdr (s : state) : list Z := if rxne s || take (mp s) then [rdr s] else [].
Definition rx_pc (s : state) (l : list Z) : Prop :=
  match mp s with
  | RGet => l <> []
  | RPop x => exists r, l = x :: r
  | RTest => NR = 0
  | RTake => NR = 0 /\ (ext = true -> rxne s = true)
  | _ => True
  end.
Definition rx_inv (s : state) (l : list Z) : Prop :=
  Ring NR (rxq s) l /\ subseq (got s ++ l ++ in_rdr s) (recvd s) /\ rx_pc s l /\
  (ip s = IRead -> rxne s = true) /\ (ip s = IRxne \/ ip s = IRead -> NR <> 0) /\
  (ext = true -> zlen (got s ++ l ++ in_rdr s) + drops s = zlen (recvd s)).

Lemma subseq_app_tail a l r x : subseq (a ++ l) r -> subseq (a ++ l ++ [x]) (r ++ [x]).
Proof.
  rewrite app_assoc. generalize (a ++ l). intros u H. induction H; cbn; [repeat constructor|constructor; assumption|constructor; assumption].
Qed.
Lemma subseq_more u r x : subseq u r -> subseq u (r ++ [x]).
Proof. intro H. induction H; cbn; [repeat constructor|constructor; assumption|constructor; assumption]. Qed.
Lemma subseq_drop_last u x r : subseq (u ++ [x]) r -> subseq u r.
Proof.
  revert u. induction r as [|y r IH]; intros u H; [inversion H; destruct u; discriminate|].
  inversion H; subst.
  - destruct u as [|z u]; [cbn in *; constructor; clear; induction r; constructor; assumption|]. cbn in H0. injection H0 as -> ->. constructor. apply IH. assumption.
  - constructor. apply IH. assumption.
Qed.

Lemma main_rx s l : rx_inv s l -> ip s = INone ->
  match main_step NT NR s with
  | Some s' => exists l', rx_inv s' l'
  | None => exists b, mp s = PCell b
  end.
Proof.
  intros (R & E & P & IR & IZ & CT) IN. destruct s as [tq rq d h ln te rd rn m i ac gt rc dp rt]. unfold in_rdr in *. cbn [txq rxq dr sh line txeie rdr rxne mp ip acc got recvd drops ret] in *. subst i.
  assert (SAME : forall tq' d' te' m' ac' rt', take m = false -> take m' = false -> rx_pc (State tq' rq d' h ln te' rd rn m' INone ac' gt rc dp rt') l -> rx_inv (State tq' rq d' h ln te' rd rn m' INone ac' gt rc dp rt') l).
  { intros tq' d' te' m' ac' rt' T1 T2 PC. rewrite T1 in *. unfold rx_inv, in_rdr. cbn [txq rxq dr sh line txeie rdr rxne mp ip acc got recvd drops ret]. rewrite T2. split; [exact R|]. split; [exact E|]. split; [exact PC|]. split; [discriminate|]. split; [intros [A|A]; discriminate|exact CT]. }
  destruct m; cbn [main_step mp txq rxq dr sh line txeie rdr rxne ip acc got recvd drops ret take] in *; unfold finish, set_mp, set_txq, set_dr, set_txeie, set_rxq; cbn [main_step mp txq rxq dr sh line txeie rdr rxne ip acc got recvd drops ret take]; rewrite ?(app_nil_r gt);
    try (exists l; apply SAME; [reflexivity|reflexivity|exact Logic.I]).
  - exists l. destruct (_ =? _); apply SAME; reflexivity || exact Logic.I.
  - exists l. destruct d; apply SAME; reflexivity || exact Logic.I.
  - destruct (_ =? _); exists l; rewrite ?app_nil_r; apply SAME; reflexivity || exact Logic.I.
  - destruct (zupd _ _ _); cbn [obind]; [|exists b; reflexivity]. exists l. apply SAME; reflexivity || exact Logic.I.
  - exists l. destruct d; apply SAME; reflexivity || exact Logic.I.
  - exists l. destruct (_ =? _); rewrite ?app_nil_r; apply SAME; reflexivity || exact Logic.I.
  - exists l. destruct (_ =? _); rewrite ?app_nil_r; apply SAME; reflexivity || exact Logic.I.
  - (* REmpty *) exists l. rewrite (ring_empty NR _ _ R). destruct (zlen l =? 0) eqn:Z0; rewrite ?app_nil_r; apply SAME; try reflexivity; try exact Logic.I. cbn. intros ->. discriminate.
  - (* RGet *) cbn in P. destruct l as [|x l]; [exfalso; apply P; reflexivity|]. unfold q_get. rewrite (ring_front NR HR rq x l R). cbn [obind]. exists (x :: l). apply SAME; try reflexivity. exists l. reflexivity.
  - (* RPop *) cbn in P. destruct P as [r ->]. exists r. unfold rx_inv, in_rdr. cbn [txq rxq dr sh line txeie rdr rxne mp ip acc got recvd drops ret take]. split; [apply (ring_pop NR HR rq x r _ R eq_refl)|]. rewrite <- (app_assoc gt [x]). split; [exact E|]. split; [exact Logic.I|]. split; [discriminate|]. split; [intros [A|A]; discriminate|exact CT].
  - (* RTest *) cbn in P. exists l. destruct rn; rewrite ?app_nil_r.
    + unfold rx_inv, in_rdr. cbn [txq rxq dr sh line txeie rdr rxne mp ip acc got recvd drops ret take orb]. split; [exact R|]. split; [exact E|]. split; [split; [exact P|reflexivity]|]. split; [discriminate|]. split; [intros [A|A]; discriminate|exact CT].
    + apply SAME; reflexivity || exact Logic.I.
  - (* RTake *) cbn in P. destruct P as [P PE]. pose proof (ring_bound NR _ _ R). assert (l = []) as -> by (apply zlen_0_nil; lia). exists []. unfold rx_inv, in_rdr, set_rxne. cbn [txq rxq dr sh line txeie rdr rxne mp ip acc got recvd drops ret take orb]. rewrite orb_true_r in *. rewrite !app_nil_r. cbn [app] in *. split; [exact R|]. split; [exact E|]. split; [exact Logic.I|]. split; [discriminate|]. split; [intros [A|A]; discriminate|exact CT].
Qed.

Lemma isr_rx s l : rx_inv s l ->
  match isr_step NT NR ext s with
  | Some s' => exists l', rx_inv s' l'
  | None => ip s = IQueue
  end.
Proof.
  intros (R & E & P & IR & IZ & CT). destruct s as [tq rq d h ln te rd rn m i ac gt rc dp rt]. cbn [txq rxq dr sh line txeie rdr rxne mp ip acc got recvd drops ret] in *.
  destruct i; cbn [isr_step ip txq rxq dr sh line txeie rdr rxne mp acc got recvd drops ret].
  - exists l. split; [exact R|]. split; [exact E|]. split; [exact P|]. split; [|split]; assumption.
  - exists l. split; [exact R|]. split; [exact E|]. split; [exact P|]. split; [destruct rn; [reflexivity|discriminate]|]. split; [|exact CT]. intros _. apply IZ. left. reflexivity.
  - specialize (IR eq_refl). specialize (IZ (or_intror eq_refl)). subst rn. assert (T : take m = false) by (destruct m; try reflexivity; destruct P as [P _]; contradiction).
    destruct (q_push_ring NR HR rq l rd R) as (q & -> & R1). cbn [obind]. unfold in_rdr in *. cbn [rxne rdr got recvd orb drops mp] in *. destruct (zlen l =? NR) eqn:FU; cbn [negb].
    + exists l. split; [exact R1|]. unfold in_rdr. cbn [rxne rdr got recvd drop set_ip set_rxne set_rxq drops mp orb ip]. rewrite T. rewrite app_nil_r. rewrite app_assoc in E. split; [apply (subseq_drop_last _ rd); exact E|]. split; [unfold rx_pc in *; cbn [mp] in *; destruct m; try exact P; destruct P as [P _]; contradiction|]. split; [discriminate|]. split; [intros [A|A]; discriminate|]. intro X. specialize (CT X). rewrite app_assoc, !zlen_app, zlen_cons, zlen_nil in *. lia.
    + exists (l ++ [rd]). split; [exact R1|]. unfold in_rdr. cbn [rxne rdr got recvd drop set_ip set_rxne set_rxq drops mp orb ip]. rewrite T, app_nil_r. split; [exact E|]. split; [|split; [discriminate|split; [intros [A|A]; discriminate|exact CT]]].
      unfold rx_pc in *; cbn [mp] in *; destruct m; try exact P; try (destruct P as [P _]; contradiction).
      * cbn in *. destruct l; discriminate.
      * cbn in *. destruct P as [r ->]. exists (r ++ [rd]). reflexivity.
  - exists l. split; [exact R|]. split; [exact E|]. split; [exact P|]. split; [destruct d; discriminate|]. split; [destruct d; intros [A|A]; discriminate|exact CT].
  - destruct (q_isEmpty tq).
    + exists l. split; [exact R|]. split; [exact E|]. split; [exact P|]. split; [discriminate|]. split; [intros [A|A]; discriminate|exact CT].
    + destruct (q_get tq) as [[x|]|]; cbn [obind]; try reflexivity. exists l. split; [exact R|]. split; [exact E|]. split; [exact P|]. split; [discriminate|]. split; [intros [A|A]; discriminate|exact CT].
  - exists l. destruct ext eqn:X.
    + split; [exact R|]. split; [exact E|]. split; [exact P|]. split; [discriminate|]. split; [intros [A|A]; discriminate|rewrite X; exact CT].
    + split; [exact R|]. unfold in_rdr in *. cbn [rxne rdr got recvd set_ip set_rxne drops mp orb ip] in *. split.
      { destruct (take m); cbn [orb]; [rewrite orb_true_r in E; exact E|]. rewrite orb_false_r in E. rewrite app_nil_r. destruct rn; [rewrite app_assoc in E; apply (subseq_drop_last _ rd); exact E|rewrite app_nil_r in E; exact E]. }
      split; [unfold rx_pc in *; cbn [mp rxne] in *; destruct m; try exact P; destruct P as [P _]; split; [exact P|rewrite X; discriminate]|]. split; [discriminate|]. split; [intros [A|A]; discriminate|rewrite X; discriminate].
Qed.

(** *** Runs *)
Lemma step_tx a s l : tx_inv s l -> gentle a ->
  match step NT NR ext a s with
  | Some s' => exists l', tx_inv s' l'
  | None => (a = AMain /\ ip s = INone /\ mp s = RGet) \/ (a = AIsr /\ ip s = IRead)
  end.
Proof.
  intros I G. destruct a as [o| | | | | |b]; cbn [step].
  - destruct I as (R & E & P & IQ & TI). destruct s as [tq rq d h ln te rd rn m i ac gt rc dp rt]. cbn [txq rxq dr sh line txeie rdr rxne mp ip acc got recvd drops ret] in *.
    destruct m; try (exists l; split; [exact R|split; [exact E|split; [exact P|split; assumption]]]). destruct i; try (exists l; split; [exact R|split; [exact E|split; [exact P|split; assumption]]]).
    exists l. split; [exact R|]. split; [cbn; destruct o; cbn; try exact E; destruct (NR =? 0); exact E|]. split; [unfold tx_pc; cbn; destruct o; cbn in G; cbn; try exact Logic.I; try contradiction; destruct (NR =? 0); exact Logic.I|].
    split; [exact IQ|]. intro L. destruct (TI L) as [A|[b A]]; [left; exact A|discriminate].
  - destruct (ip s) eqn:IN; try (exists l; exact I). pose proof (main_tx s l I IN) as H. destruct (main_step NT NR s); [exact H|left; auto].
  - destruct (ip s) eqn:IN; try (exists l; exact I). exists l. destruct (pending NR s); [|exact I]. destruct I as (R & E & P & IQ & TI). split; [exact R|]. split; [exact E|]. split; [exact P|]. split; [cbn; unfold isr_entry; destruct (NR =? 0); discriminate|exact TI].
  - pose proof (isr_tx s l I) as H. destruct (isr_step NT NR ext s); [exact H|right; auto].
  - destruct (dr s) as [x|] eqn:D; [|exists l; exact I]. destruct (sh s) as [y|] eqn:H; [exists l; exact I|].
    destruct I as (R & E & P & IQ & TI). rewrite D, H in *.
    exists l. split; [exact R|]. split; [cbn; cbn in E; exact E|]. split; [unfold tx_pc in *; cbn; destruct (mp s); try exact P; destruct P as [P1 P2]; split; [exact P1|reflexivity || exact P2]|]. split; [reflexivity|exact TI].
  - destruct (sh s) as [y|] eqn:H; [|exists l; exact I].
    destruct I as (R & E & P & IQ & TI). rewrite H in *. exists l. split; [exact R|]. split; [cbn; rewrite <- app_assoc; exact E|]. split; [exact P|]. split; [exact IQ|exact TI].
  - destruct I as (R & E & P & IQ & TI). destruct (rxne s); (exists l; split; [exact R|]; split; [exact E|]; split; [exact P|]; split; [exact IQ|exact TI]).
Qed.

Lemma step_rx a s l : rx_inv s l ->
  match step NT NR ext a s with
  | Some s' => exists l', rx_inv s' l'
  | None => (a = AMain /\ exists b, mp s = PCell b) \/ (a = AIsr /\ ip s = IQueue)
  end.
Proof.
  intros I. destruct a as [o| | | | | |b]; cbn [step].
  - destruct (mp s) eqn:M; try (exists l; exact I). destruct (ip s) eqn:IP; try (exists l; exact I).
    destruct I as (R & E & P & IR & IZ & CT). exists l. unfold rx_inv, in_rdr in *. rewrite M in *. cbn [take] in *.
    assert (T : take (entry NR o) = false) by (destruct o; try reflexivity; cbn; destruct (NR =? 0); reflexivity).
    cbn [txq rxq dr sh line txeie rdr rxne mp ip acc got recvd drops ret set_mp]. rewrite T. split; [exact R|]. split; [exact E|]. split; [unfold rx_pc; cbn; destruct o; try exact Logic.I; cbn; destruct (NR =? 0) eqn:Z; [lia|exact Logic.I]|]. rewrite IP. split; [discriminate|]. split; [intros [A|A]; discriminate|exact CT].
  - destruct (ip s) eqn:IN; try (exists l; exact I). pose proof (main_rx s l I IN) as H. destruct (main_step NT NR s); [apply H|left; auto].
  - destruct (ip s) eqn:IN; try (exists l; exact I). exists l. destruct (pending NR s); [|exact I]. destruct I as (R & E & P & IR & IZ & CT). split; [exact R|]. split; [exact E|]. split; [exact P|]. cbn [set_ip ip rxne]. unfold isr_entry. destruct (NR =? 0) eqn:Z; (split; [discriminate|]); (split; [intros [A|A]; try discriminate; lia|exact CT]).
  - pose proof (isr_rx s l I) as H. destruct (isr_step NT NR ext s); [exact H|right; auto].
  - destruct (dr s), (sh s); exists l; exact I.
  - destruct (sh s); exists l; exact I.
  - destruct I as (R & E & P & IR & IZ & CT). destruct (rxne s) eqn:RN; exists l; (split; [exact R|]); unfold in_rdr in *; cbn [rxne rdr got recvd drops rxq mp ip] in *; rewrite ?RN in *; cbn [orb] in *.
    + split; [apply subseq_more; exact E|]. split; [unfold rx_pc in *; cbn [mp rxne] in *; rewrite ?RN in *; exact P|]. split; [exact IR|]. split; [exact IZ|]. intro X. specialize (CT X). rewrite !zlen_app, !zlen_cons, !zlen_nil in *. lia.
    + split. { destruct (take (mp s)); [|rewrite app_nil_r in E]; apply subseq_app_tail; [rewrite app_assoc in E; apply (subseq_drop_last _ (rdr s)); exact E|exact E]. }
      split; [unfold rx_pc in *; cbn [mp rxne] in *; destruct (mp s); try exact P; split; [apply P|reflexivity]|]. split; [reflexivity|]. split; [exact IZ|]. intro X. specialize (CT X). assert (T : take (mp s) = false). { unfold rx_pc in P. rewrite RN in P. destruct (mp s); try reflexivity. destruct P as [_ P]. specialize (P X). discriminate. } rewrite T in CT. rewrite !zlen_app, !zlen_cons, !zlen_nil in *. lia.
Qed.

Definition inv (s : state) : Prop := (exists l, tx_inv s l) /\ (exists l, rx_inv s l).
Lemma inv_start : inv (start NT NR).
Proof.
  split; exists [].
  - split; [apply ring_init; lia|]. split; [reflexivity|]. split; [exact Logic.I|]. split; [discriminate|]. intro H; destruct H; reflexivity.
  - split; [apply ring_init; lia|]. split; [constructor|]. split; [exact Logic.I|]. split; [discriminate|]. split; [intros [A|A]; discriminate|reflexivity].
Qed.
Lemma inv_step a s : inv s -> gentle a -> exists s', step NT NR ext a s = Some s' /\ inv s'.
Proof.
  intros [[l T] [k X]] G. pose proof (step_tx a s l T G) as A. pose proof (step_rx a s k X) as B. destruct (step NT NR ext a s) as [s'|]; [exists s'; split; [reflexivity|split; assumption]|].
  exfalso. destruct A as [(A1 & A2 & A3)|(A1 & A2)], B as [(B1 & b & B2)|(B1 & B2)]; congruence.
Qed.
Lemma inv_run l : forall s, inv s -> Forall gentle l -> exists s', run NT NR ext l s = Some s' /\ inv s'.
Proof.
  induction l as [|a l IH]; intros s I G; [exists s; split; [reflexivity|exact I]|].
  destruct (inv_step a s I (Forall_inv G)) as (s1 & E & I1). destruct (IH s1 I1 (Forall_inv_tail G)) as (s2 & E2 & I2). exists s2. cbn [run]. rewrite E. split; assumption.
Qed.

(** *** The transmitter finishes *)
Definition b2z (b : bool) : Z := if b then 1 else 0.
Definition left_of (i : ipc) : Z := match i with INone => 0 | IAck => 1 | IQueue => 2 | ITxe => 3 | IRead => 4 | IRxne => 5 end.
Definition none (d : option Z) : bool := match d with None => true | Some _ => false end.
Definition commit (s : state) : bool :=
  match ip s with
  | IRxne => (txeie s && none (dr s)) || (negb (NR =? 0) && rxne s)
  | IRead => (txeie s && none (dr s)) || negb (NR =? 0)
  | ITxe | IQueue => txeie s && none (dr s)
  | _ => false
  end.
Definition measure (s : state) (n : Z) : Z :=
  left_of (ip s) + 6 * (n + b2z (txeie s) + b2z (negb (NR =? 0) && rxne s) - b2z (commit s)) + 3 * n + 2 * (1 - b2z (none (dr s))) + (1 - b2z (none (sh s))).

Lemma background_gentle a : background a -> gentle a.
Proof. destruct a; cbn; try contradiction; intros _; exact Logic.I. Qed.
Lemma back_step a s l k : tx_inv s l -> rx_inv s k -> mp s = Idle -> background a -> forall t, step NT NR ext a s = Some t -> t <> s ->
  exists l', tx_inv t l' /\ mp t = Idle /\ acc t = acc s /\ measure t (zlen l') < measure s (zlen l).
Proof.
  intros T X MI B t E NE. pose proof (step_tx a s l T (background_gentle a B)) as ST. rewrite E in ST. destruct ST as [l' T'].
  exists l'. split; [exact T'|].
  destruct T as (R & EQ & P & IQ & TI). destruct T' as (R' & EQ' & _). destruct X as (_ & _ & _ & IR & _).
  assert (L : zlen l' = zlen (line s) + zlen (opt (sh s)) + zlen (opt (dr s)) + zlen l - (zlen (line t) + zlen (opt (sh t)) + zlen (opt (dr t))) + (zlen (acc t) + zlen (pend (mp t)) - (zlen (acc s) + zlen (pend (mp s))))).
  { apply (f_equal (@zlen Z)) in EQ. apply (f_equal (@zlen Z)) in EQ'. rewrite !zlen_app in EQ, EQ'. lia. }
  clear EQ EQ'. destruct s as [tq rq d h ln te rd rn m i ac gt rc dp rt]. cbn [txq rxq dr sh line txeie rdr rxne mp ip acc got recvd drops ret] in *. subst m.
  assert (TE : l <> [] -> te = true). { intro A. destruct (TI A) as [C|[b C]]; [exact C|discriminate]. }
  assert (TQ : te = false -> zlen l = 0). { intro F. destruct l; [reflexivity|]. rewrite TE in F by discriminate. discriminate. }
  pose proof (ring_bound NT _ _ R) as BD. pose proof (ring_bound NT _ _ R') as BD'.
  destruct a; cbn in B; try contradiction; cbn [step ip mp dr sh] in E.
  - (* AIrq *) destruct i; try (injection E as <-; congruence). unfold pending in E. cbn [txeie dr rxne] in E.
    destruct ((te && match d with None => true | Some _ => false end) || (negb (NR =? 0) && rn)) eqn:PE; [|injection E as <-; congruence].
    injection E as <-. cbn [txq rxq dr sh line txeie rdr rxne mp ip acc got recvd drops ret set_ip set_txq set_dr set_rxne set_rxq drop set_txeie opt pend] in L. split; [reflexivity|]. split; [reflexivity|]. unfold measure, commit, isr_entry. cbn [set_ip ip txeie dr rxne sh].
    change (match d with None => true | Some _ => false end) with (none d) in PE. destruct (NR =? 0) eqn:Z0; cbn [negb andb left_of b2z] in *; rewrite ?orb_false_r in *; [rewrite PE|rewrite PE]; cbn [b2z]; lia.
  - (* AIsr *) destruct i; cbn [isr_step ip txq rxq dr sh line txeie rdr rxne mp acc got recvd drops ret] in E.
    + injection E as <-. congruence.
    + injection E as <-. cbn [txq rxq dr sh line txeie rdr rxne mp ip acc got recvd drops ret set_ip set_txq set_dr set_rxne set_rxq drop set_txeie opt pend] in L. split; [reflexivity|]. split; [reflexivity|]. unfold measure, commit. cbn [set_ip ip txeie dr rxne sh]. destruct rn, te, (none d), (NR =? 0); cbn [b2z andb orb negb left_of none]; lia.
    + rewrite (IR eq_refl) in *. destruct (q_push NR rq rd) as [[q ok]|]; cbn [obind] in E; [|discriminate]. injection E as <-. destruct ok; cbn [txq rxq dr sh line txeie rdr rxne mp ip acc got recvd drops ret set_ip set_txq set_dr set_rxne set_rxq drop set_txeie opt pend] in L; (split; [reflexivity|]); (split; [reflexivity|]); unfold measure, commit; cbn [set_ip set_rxne set_rxq drop ip txeie dr rxne sh]; destruct te, (none d), (NR =? 0); cbn [b2z andb orb negb left_of none]; lia.
    + injection E as <-. cbn [txq rxq dr sh line txeie rdr rxne mp ip acc got recvd drops ret set_ip set_txq set_dr set_rxne set_rxq drop set_txeie opt pend] in L. split; [reflexivity|]. split; [reflexivity|]. unfold measure, commit. cbn [set_ip ip txeie dr rxne sh]. destruct d; cbn [none]; destruct te; cbn [b2z andb orb negb left_of none]; lia.
    + specialize (IQ eq_refl). subst d. unfold q_isEmpty in E. rewrite (ring_empty NT _ _ R) in E. destruct (zlen l =? 0) eqn:Z0.
      * injection E as <-. cbn [txq rxq dr sh line txeie rdr rxne mp ip acc got recvd drops ret set_ip set_txq set_dr set_rxne set_rxq drop set_txeie opt pend] in L. split; [reflexivity|]. split; [reflexivity|]. unfold measure, commit. cbn [set_ip set_txeie ip txeie dr rxne sh none]. destruct te; cbn [b2z andb orb negb left_of none]; lia.
      * destruct te; [|specialize (TQ eq_refl); lia]. destruct (q_get tq) as [[x|]|]; cbn [obind] in E; try discriminate. injection E as <-. cbn [txq rxq dr sh line txeie rdr rxne mp ip acc got recvd drops ret set_ip set_txq set_dr set_rxne set_rxq drop set_txeie opt pend] in L. split; [reflexivity|]. split; [reflexivity|]. unfold measure, commit. cbn [set_ip set_txq set_dr ip txeie dr rxne sh none andb b2z left_of]. rewrite zlen_nil, zlen_cons, zlen_nil in L. lia.
    + injection E as <-. destruct ext; cbn [txq rxq dr sh line txeie rdr rxne mp ip acc got recvd drops ret set_ip set_txq set_dr set_rxne set_rxq drop set_txeie opt pend] in L; (split; [reflexivity|]); (split; [reflexivity|]); unfold measure, commit; cbn [set_ip set_rxne ip txeie dr rxne sh]; destruct rn, (NR =? 0); cbn [b2z andb orb negb left_of none]; lia.
  - (* AShift *) destruct d as [x|]; [|injection E as <-; congruence]. destruct h; [injection E as <-; congruence|]. injection E as <-. cbn [txq rxq dr sh line txeie rdr rxne mp ip acc got recvd drops ret set_ip set_txq set_dr set_rxne set_rxq drop set_txeie opt pend] in L. split; [reflexivity|]. split; [reflexivity|]. unfold measure, commit. cbn [ip txeie dr rxne sh none]. rewrite ?zlen_nil, ?zlen_cons, ?zlen_nil in L.
    destruct i, te, rn, (NR =? 0); cbn [b2z andb orb negb left_of none]; lia.
  - (* ASend *) destruct h as [x|]; [|injection E as <-; congruence]. injection E as <-. cbn [txq rxq dr sh line txeie rdr rxne mp ip acc got recvd drops ret set_ip set_txq set_dr set_rxne set_rxq drop set_txeie opt pend] in L. split; [reflexivity|]. split; [reflexivity|]. unfold measure, commit. cbn [ip txeie dr rxne sh none]. rewrite zlen_app, ?zlen_nil, ?zlen_cons, ?zlen_nil in L. change (b2z true) with 1; change (b2z false) with 0; lia.
Qed.
Lemma measure_bound s l k : tx_inv s l -> rx_inv s k -> 0 <= measure s (zlen l) <= 9 * zlen l + 20.
Proof.
  intros (R & _) (_ & _ & _ & IR & _). pose proof (ring_bound NT _ _ R). unfold measure, commit. destruct (ip s); try rewrite (IR eq_refl); destruct (txeie s), (rxne s), (NR =? 0), (dr s), (sh s); cbn [b2z andb orb negb left_of none]; lia.
Qed.
Lemma works_bound s l s' : works NT NR ext s l s' -> forall q k, tx_inv s q -> rx_inv s k -> mp s = Idle ->
  (exists q' k', tx_inv s' q' /\ rx_inv s' k') /\ mp s' = Idle /\ acc s' = acc s /\ zlen l <= measure s (zlen q).
Proof.
  intro W. induction W as [s|a l s t u B E NE W IH]; intros q k T X M.
  - split; [exists q, k; split; assumption|]. split; [exact M|]. split; [reflexivity|]. rewrite zlen_nil. apply (measure_bound s q k T X).
  - destruct (back_step a s q k T X M B t E NE) as (q1 & T1 & M1 & A1 & L1). pose proof (step_rx a s k X) as SX. rewrite E in SX. destruct SX as [k1 X1].
    destruct (IH q1 k1 T1 X1 M1) as (EX & M2 & A2 & L2). split; [exact EX|]. split; [exact M2|]. split; [congruence|]. rewrite zlen_cons. lia.
Qed.
Lemma quiet_done s q : tx_inv s q -> mp s = Idle -> quiet NT NR ext s -> line s = acc s.
Proof.
  intros (R & EQ & P & IQ & TI) M Q. pose proof (Q AIrq Logic.I) as Q1. pose proof (Q AIsr Logic.I) as Q2. pose proof (Q AShift Logic.I) as Q3. pose proof (Q ASend Logic.I) as Q4.
  destruct s as [tq rq d h ln te rd rn m i ac gt rc dp rt]. cbn [txq rxq dr sh line txeie rdr rxne mp ip acc got recvd drops ret step] in *. subst m.
  assert (I0 : i = INone).
  { destruct i; try reflexivity; cbn [isr_step ip txq rxq dr sh line txeie rdr rxne mp acc got recvd drops ret] in Q2; exfalso.
    - destruct rn; discriminate.
    - destruct (q_push NR rq rd) as [[q' ok]|]; cbn [obind] in Q2; [|discriminate]. destruct ok; discriminate.
    - destruct d; discriminate.
    - destruct (q_isEmpty tq); [discriminate|]. destruct (q_get tq) as [[x|]|]; cbn [obind] in Q2; discriminate.
    - destruct ext; discriminate. }
  subst i. destruct h as [x|].
  { discriminate Q4. }
  destruct d as [x|]; [discriminate|]. destruct te.
  { exfalso. unfold pending in Q1. cbn in Q1. unfold isr_entry in Q1. destruct (NR =? 0); discriminate. }
  destruct q as [|x q].
  - cbn in EQ. rewrite !app_nil_r in EQ. exact EQ.
  - exfalso. destruct (TI ltac:(discriminate)) as [A|[b A]]; discriminate.
Qed.

Lemma rx_run l : forall s k, rx_inv s k -> forall s', run NT NR ext l s = Some s' -> exists k', rx_inv s' k'.
Proof.
  induction l as [|a l IH]; intros s k X s' E; [injection E as <-; exists k; exact X|].
  cbn [run] in E. pose proof (step_rx a s k X) as SX. destruct (step NT NR ext a s) as [t|]; [|discriminate]. destruct SX as [k1 X1]. exact (IH t k1 X1 s' E).
Qed.
End Uart.
