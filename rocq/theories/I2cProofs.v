From Coq Require Import ZArith List Bool Arith Lia.
From Verif Require Import Base SliceLemmas I2cModel I2cSpec.
From Verif Require SpiModel SpiProofs TlcProofs.
Import ListNotations.
Open Scope Z_scope.

(** * Any environment, any transaction *)
Section Any.
Variable W : Type.
Variable scl sda : bool -> W -> W.
Variable rdScl rdSda : W -> bool * W.
Variable delay4 : W -> W.
Variable T : Type.
Variable attaching : T -> bool * T.
Variable starting : T -> (Z * op) * T.
Variable writing reading : T -> xfer * T.
Variable detaching : cause -> T -> T.
Notation M := (M W T).
Notation t := (t W T). Notation att := (att W T). Notation err := (err W T). Notation sadr := (sadr W T). Notation mem := (mem W T). Notation w := (w W T).

Definition quiet (m m' : M) : Prop := t m' = t m /\ att m' = att m /\ err m' = err m /\ sadr m' = sadr m /\ mem m' = mem m.
Definition failed (m m' : M) : Prop :=
  att m' = false /\ err m' <> NoError /\ t m' = (if att m then detaching ErrorCondition (t m) else t m) /\ mem m' = mem m.
Lemma quiet_refl m : quiet m m.
Proof. repeat split. Qed.
Lemma quiet_trans a b c : quiet a b -> quiet b c -> quiet a c.
Proof. unfold quiet. intros [A1 [A2 [A3 [A4 A5]]]] [B1 [B2 [B3 [B4 B5]]]]. repeat split; congruence. Qed.
Lemma quiet_on f m : quiet m (on_w W T f m).
Proof. repeat split. Qed.
Lemma quiet_failed a b c : quiet a b -> failed b c -> failed a c.
Proof.
  unfold quiet, failed. intros [A1 [A2 [A3 [A4 A5]]]] [B1 [B2 [B3 B4]]]. rewrite A1, A2 in B3. repeat split; congruence.
Qed.
Lemma rd_quiet f m b m' : rd W T f m = (b, m') -> quiet m m'.
Proof. unfold rd. intro H. injection H as _ <-. apply quiet_on. Qed.
Lemma wait_quiet : forall d m b m', wait_scl W rdScl delay4 T d m = (b, m') -> quiet m m'.
Proof.
  induction d as [|d IH]; intros m b m' H; cbn [wait_scl] in H; destruct (rd W T rdScl m) as [h m1] eqn:R1; pose proof (rd_quiet _ _ _ _ R1) as Q1.
  - destruct h; injection H as _ <-; exact Q1.
  - destruct h; [injection H as _ <-; exact Q1|].
    destruct (rd W T rdScl (on_w W T delay4 m1)) as [h m2] eqn:R2. pose proof (rd_quiet _ _ _ _ R2) as Q2.
    assert (quiet m m2) as Q by (apply (quiet_trans _ _ _ Q1), (quiet_trans _ _ _ (quiet_on delay4 m1)); exact Q2).
    destruct h; [injection H as _ <-; exact Q|]. apply IH in H. apply (quiet_trans _ _ _ Q), (quiet_trans _ _ _ (quiet_on delay4 m2)). exact H.
Qed.
Lemma up_quiet m b m' : sclSetAndWait W scl rdScl delay4 T m = (b, m') -> quiet m m'.
Proof. intro H. apply wait_quiet in H. apply (quiet_trans _ _ _ (quiet_on (scl true) m)). exact H. Qed.
Lemma detach_err e m : e <> NoError -> failed m (detach W T detaching ErrorCondition (set_err W T e m)).
Proof.
  intro E. unfold detach. change (att (set_err W T e m)) with (att m). unfold failed. destruct (att m) eqn:A.
  - repeat split. exact E.
  - repeat split; [exact A|exact E].
Qed.
Ltac up H m' Q := match type of H with context [sclSetAndWait W scl rdScl delay4 T ?m] =>
  let b := fresh "b" in let R := fresh "R" in destruct (sclSetAndWait W scl rdScl delay4 T m) as [b m'] eqn:R; pose proof (up_quiet _ _ _ R) as Q; clear R end.
Ltac rdq H m' Q := match type of H with context [rd W T ?f ?m] =>
  let b := fresh "b" in let R := fresh "R" in destruct (rd W T f m) as [b m'] eqn:R; pose proof (rd_quiet _ _ _ _ R) as Q; clear R end.
Lemma stop_any m b m' : stopCondition W scl sda rdScl rdSda delay4 T detaching m = (b, m') -> if b then quiet m m' else failed m m'.
Proof.
  unfold stopCondition. intro H. up H m1 Q1. destruct b0; cbn [negb] in H.
  - rdq H m2 Q2. assert (quiet m m2) as Q by (apply (quiet_trans _ _ _ Q1), Q2).
    destruct b0; cbn [negb] in H; injection H as <- <-; [exact Q|]. apply (quiet_failed _ _ _ Q), detach_err. discriminate.
  - injection H as <- <-. apply (quiet_failed _ _ _ Q1), detach_err. discriminate.
Qed.
Lemma start_any m b m' : startCondition W scl sda rdScl rdSda delay4 T detaching m = (b, m') -> if b then quiet m m' else failed m m'.
Proof.
  unfold startCondition. intro H. rdq H m1 Q1. destruct b0; cbn [negb] in H.
  - up H m2 Q2. assert (quiet m m2) as Q by (apply (quiet_trans _ _ _ Q1), Q2).
    destruct b0; cbn [negb] in H; injection H as <- <-; [exact Q|]. apply (quiet_failed _ _ _ Q), detach_err. discriminate.
  - injection H as <- <-. apply (quiet_failed _ _ _ Q1), detach_err. discriminate.
Qed.
Lemma error_any e m : e <> NoError -> failed m (do_error W scl sda rdScl rdSda delay4 T detaching e m).
Proof.
  intro E. unfold do_error.
  match goal with |- context [stopCondition _ _ _ _ _ _ _ _ ?x] => set (m0 := x) end.
  destruct (stopCondition W scl sda rdScl rdSda delay4 T detaching m0) as [b m1] eqn:R. apply stop_any in R.
  assert (quiet m m0) as Q0 by (unfold m0; repeat split). destruct b; cbn [negb].
  - apply (quiet_failed _ _ _ Q0), (quiet_failed _ _ _ R). apply (quiet_failed _ (on_w W T (sda true) (on_w W T (scl true) m1))); [repeat split|]. apply detach_err. exact E.
  - apply (quiet_failed _ _ _ Q0). destruct R as [R1 [R2 [R3 R4]]]. repeat split; assumption.
Qed.
Lemma writeBit_any x m b m' : writeBit W scl sda rdScl rdSda delay4 T x m = (b, m') -> quiet m m'.
Proof.
  unfold writeBit. intro H. rdq H m1 Q1. destruct (Bool.eqb b0 x); [|injection H as _ <-; exact Q1].
  up H m2 Q2. assert (quiet m m2) as Q by (apply (quiet_trans _ _ _ Q1), Q2). destruct b1; injection H as _ <-; exact Q.
Qed.
Lemma readBit_any d m b d' m' : readBit W scl rdScl rdSda delay4 T d m = (b, (d', m')) -> quiet m m'.
Proof.
  unfold readBit. intro H. up H m1 Q1. destruct b0; [|injection H as _ _ <-; exact Q1].
  rdq H m2 Q2. injection H as _ _ <-. apply (quiet_trans _ _ _ Q1), Q2.
Qed.
Lemma write_bits_any : forall n d m b m', write_bits W scl sda rdScl rdSda delay4 T detaching n d m = (b, m') -> if b then quiet m m' else failed m m'.
Proof.
  induction n as [|n IH]; intros d m b m' H; cbn [write_bits] in H; [injection H as <- <-; apply quiet_refl|].
  destruct (writeBit W scl sda rdScl rdSda delay4 T _ m) as [ok m1] eqn:R. apply writeBit_any in R. destruct ok.
  - apply IH in H. destruct b; [apply (quiet_trans _ _ _ R H)|apply (quiet_failed _ _ _ R H)].
  - injection H as <- <-. apply (quiet_failed _ _ _ R), error_any. discriminate.
Qed.
Lemma write_any d m b m' : write W scl sda rdScl rdSda delay4 T detaching d m = (b, m') -> if b then quiet m m' else failed m m'.
Proof.
  unfold write. intro H. destruct (write_bits W scl sda rdScl rdSda delay4 T detaching 8 d m) as [ok m1] eqn:R. apply write_bits_any in R.
  destruct ok; cbn [negb] in H; [|injection H as <- <-; exact R].
  up H m2 Q2. assert (quiet m m2) as Q by (apply (quiet_trans _ _ _ R), Q2). destruct b0; cbn [negb] in H.
  - rdq H m3 Q3. assert (quiet m m3) as Q' by (apply (quiet_trans _ _ _ Q), Q3). destruct b0; injection H as <- <-.
    + apply (quiet_failed _ _ _ Q'), error_any. destruct (sadr m3 =? 0); discriminate.
    + exact Q'.
  - injection H as <- <-. apply (quiet_failed _ _ _ Q), error_any. discriminate.
Qed.
Lemma read_bits_any : forall n d m b d' m', read_bits W scl sda rdScl rdSda delay4 T detaching n d m = (b, (d', m')) -> if b then quiet m m' else failed m m'.
Proof.
  induction n as [|n IH]; intros d m b d' m' H; cbn [read_bits] in H; [injection H as <- _ <-; apply quiet_refl|].
  destruct (readBit W scl rdScl rdSda delay4 T _ m) as [ok [d1 m1]] eqn:R. apply readBit_any in R. destruct ok.
  - apply IH in H. destruct b; [apply (quiet_trans _ _ _ R H)|apply (quiet_failed _ _ _ R H)].
  - injection H as <- _ <-. apply (quiet_failed _ _ _ R), error_any. discriminate.
Qed.
(** The same up to the memory. *)
Definition quiet_m (m m' : M) : Prop := t m' = t m /\ att m' = att m /\ err m' = err m.
Definition failed_m (m m' : M) : Prop := att m' = false /\ err m' <> NoError /\ t m' = (if att m then detaching ErrorCondition (t m) else t m).
Lemma qm m m' : quiet m m' -> quiet_m m m'.
Proof. unfold quiet, quiet_m. tauto. Qed.
Lemma fm m m' : failed m m' -> failed_m m m'.
Proof. unfold failed, failed_m. tauto. Qed.
Lemma quiet_m_trans a b c : quiet_m a b -> quiet_m b c -> quiet_m a c.
Proof. unfold quiet_m. intros [A1 [A2 A3]] [B1 [B2 B3]]. repeat split; congruence. Qed.
Lemma quiet_m_failed a b c : quiet_m a b -> failed_m b c -> failed_m a c.
Proof. unfold quiet_m, failed_m. intros [A1 [A2 A3]] [B1 [B2 B3]]. rewrite A1, A2 in B3. repeat split; assumption. Qed.
Lemma read_any p a m b m' : read W scl sda rdScl rdSda delay4 T detaching p a m = Some (b, m') -> (if b then quiet_m m m' else failed_m m m') /\ zlen (mem m') = zlen (mem m).
Proof.
  unfold read. destruct p as [p|]; cbn [obind]; [|discriminate].
  destruct (read_bits W scl sda rdScl rdSda delay4 T detaching 8 0 (on_w W T (sda true) m)) as [ok [d m1]] eqn:R. apply read_bits_any in R.
  destruct (zupd (mem m1) p d) as [mm|] eqn:U; cbn [obind]; [|discriminate]. apply zupd_Some in U.
  assert (zlen mm = zlen (mem m)) as L. { destruct ok; [destruct R as [_ [_ [_ [_ R]]]]|destruct R as [_ [_ [_ R]]]]; rewrite R in U; apply U. }
  destruct ok; cbn [negb].
  - apply qm in R. destruct (writeBit W scl sda rdScl rdSda delay4 T (negb a) (set_mem W T mm m1)) as [ok m2] eqn:R2. apply writeBit_any in R2.
    assert (mem m2 = mm) as E2 by (apply R2). apply qm in R2.
    assert (quiet_m m m2) as Q by (apply (quiet_m_trans _ _ _ R), R2). destruct ok; cbn [negb]; intro H; injection H as <- <-.
    + split; [exact Q|]. change (zlen (mem m2) = zlen (mem m)). congruence.
    + pose proof (error_any ArbitrationLost m2 ltac:(discriminate)) as F. split; [apply (quiet_m_failed _ _ _ Q), fm, F|]. destruct F as [_ [_ [_ F]]]. rewrite F. congruence.
  - intro H. injection H as <- <-. apply fm in R. split; [exact R|exact L].
Qed.
Lemma read_all_any : forall n p m b m', read_all W scl sda rdScl rdSda delay4 T detaching n p m = Some (b, m') -> (if b then quiet_m m m' else failed_m m m') /\ zlen (mem m') = zlen (mem m).
Proof.
  induction n as [|n IH]; intros p m b m' H; cbn [read_all] in H; [apply read_any in H; exact H|].
  destruct (read W scl sda rdScl rdSda delay4 T detaching p true m) as [[ok m1]|] eqn:R; cbn [obind] in H; [|discriminate].
  apply read_any in R. destruct R as [R L]. cbn [fst snd] in H. destruct ok.
  - apply IH in H. destruct H as [H L2]. split; [|lia]. destruct b; [apply (quiet_m_trans _ _ _ R H)|apply (quiet_m_failed _ _ _ R H)].
  - injection H as <- <-. split; assumption.
Qed.
Lemma write_all_any : forall n p m b m', write_all W scl sda rdScl rdSda delay4 T detaching n p m = Some (b, m') -> (if b then quiet_m m m' else failed_m m m') /\ mem m' = mem m.
Proof.
  induction n as [|n IH]; intros p m b m' H; cbn [write_all] in H; [injection H as <- <-; repeat split|].
  destruct p as [p|]; cbn [obind] in H; [|discriminate]. destruct (znth (mem m) p) as [x|]; cbn [obind] in H; [|discriminate].
  destruct (write W scl sda rdScl rdSda delay4 T detaching x m) as [ok m1] eqn:R. apply write_any in R. destruct ok.
  - apply IH in H. destruct H as [H L]. split; [|rewrite L; apply R]. apply qm in R. destruct b; [apply (quiet_m_trans _ _ _ R H)|apply (quiet_m_failed _ _ _ R H)].
  - injection H as <- <-. split; [apply fm, R|apply R].
Qed.
End Any.

(** * The calls *)
Section Calls.
Variable W : Type.
Variable scl sda : bool -> W -> W.
Variable rdScl rdSda : W -> bool * W.
Variable delay4 : W -> W.
Variable T : Type.
Variable attaching : T -> bool * T.
Variable starting : T -> (Z * op) * T.
Variable writing reading : T -> xfer * T.
Variable detaching : cause -> T -> T.
Notation LT := (T * list call)%type.
Notation la := (logged_attaching T attaching). Notation ls := (logged T CStarting starting). Notation lw := (logged T CWriting writing). Notation lr := (logged T CReading reading). Notation ld := (logged_detaching T detaching).
Notation t := (t W LT). Notation att := (att W LT). Notation err := (err W LT).
Definition ended (L : list call) (m' : M W LT) : Prop :=
  att m' = false /\ exists body c, snd (t m') = L ++ body ++ [CDetach c] /\ Forall inner body /\ (c = NormalStop \/ c = ErrorCondition /\ err m' <> NoError).
Lemma ended_failed m m' : att m = true -> failed_m W LT ld m m' -> ended (snd (t m)) m'.
Proof.
  intros A [F1 [F2 F3]]. split; [exact F1|]. exists [], ErrorCondition. rewrite F3, A. split; [reflexivity|]. split; [constructor|]. right. split; [reflexivity|exact F2].
Qed.
Lemma ended_more L x m' : Forall inner x -> ended (L ++ x) m' -> ended L m'.
Proof.
  intros X [E1 [body [c [E2 [E3 E4]]]]]. split; [exact E1|]. exists (x ++ body), c. split; [rewrite E2, <- !app_assoc; reflexivity|]. split; [apply Forall_app; split; assumption|exact E4].
Qed.
Lemma operations_calls : forall fuel nx m b m', att m = true -> operations W scl sda rdScl rdSda delay4 LT lw lr ld fuel nx m = Some (b, m') ->
  if b then att m' = true /\ exists body, snd (t m') = snd (t m) ++ body /\ Forall inner body else ended (snd (t m)) m'.
Proof.
  induction fuel as [|fuel IH]; intros nx m b m' A H; [discriminate|]. cbn [operations] in H. destruct nx.
  - injection H as <- <-. unfold detach. change (att m) with (I2cModel.att W LT m) in A. rewrite A.
    match goal with |- context [stopCondition _ _ _ _ _ _ _ _ ?x] => set (m0 := x); destruct (stopCondition W scl sda rdScl rdSda delay4 LT ld m0) as [ok m1] eqn:R end. cbn [snd].
    apply stop_any in R. assert (t m1 = t m0 /\ att m1 = false) as [E1 E2].
    { destruct ok; [destruct R as [R1 [R2 _]]; split; assumption|destruct R as [R1 [R2 [R3 R4]]]; split; assumption]. }
    split; [exact E2|]. exists [], NormalStop. rewrite E1. split; [reflexivity|]. split; [constructor|]. left; reflexivity.
  - injection H as <- <-. split; [exact A|]. exists []. rewrite app_nil_r. split; [reflexivity|constructor].
  - unfold logged at 1 in H. destruct (writing (fst (t m))) as [x y] eqn:Y. fold lw in H.
    match type of H with context [write_all _ _ _ _ _ _ _ _ _ _ ?z] => set (m1 := z) in H end.
    destruct (write_all W scl sda rdScl rdSda delay4 LT ld (Z.to_nat (length x)) (buffer x) m1) as [[ok m2]|] eqn:R; cbn [obind fst snd] in H; [|discriminate].
    apply write_all_any in R. destruct R as [R _]. destruct ok.
    + destruct R as [R1 [R2 R3]]. apply IH in H; [|rewrite R2; exact A]. rewrite R1 in H. change (snd (t m1)) with (snd (t m) ++ [CWriting]) in H. destruct b.
      * destruct H as [H1 [body [H2 H3]]]. split; [exact H1|]. exists (CWriting :: body). split; [rewrite H2, <- app_assoc; reflexivity|constructor; [exact Logic.I|exact H3]].
      * apply (ended_more _ [CWriting]); [repeat constructor|exact H].
    + injection H as <- <-. apply (ended_more _ [CWriting]); [repeat constructor|]. apply (ended_failed m1); [exact A|exact R].
  - unfold logged at 1 in H. destruct (reading (fst (t m))) as [x y] eqn:Y. fold lr in H.
    match type of H with context [read_all _ _ _ _ _ _ _ _ _ _ ?z] => set (m1 := z) in H end.
    destruct (read_all W scl sda rdScl rdSda delay4 LT ld (Z.to_nat (length x - 1)) (buffer x) m1) as [[ok m2]|] eqn:R; cbn [obind fst snd] in H; [|discriminate].
    apply read_all_any in R. destruct R as [R _]. destruct ok.
    + destruct R as [R1 [R2 R3]]. apply IH in H; [|rewrite R2; exact A]. rewrite R1 in H. change (snd (t m1)) with (snd (t m) ++ [CReading]) in H. destruct b.
      * destruct H as [H1 [body [H2 H3]]]. split; [exact H1|]. exists (CReading :: body). split; [rewrite H2, <- app_assoc; reflexivity|constructor; [exact Logic.I|exact H3]].
      * apply (ended_more _ [CReading]); [repeat constructor|exact H].
    + injection H as <- <-. apply (ended_more _ [CReading]); [repeat constructor|]. apply (ended_failed m1); [exact A|exact R].
Qed.
Lemma sessions_calls : forall fuel m m', att m = true -> sessions W scl sda rdScl rdSda delay4 LT ls lw lr ld fuel m = Some m' -> ended (snd (t m)) m'.
Proof.
  induction fuel as [|fuel IH]; intros m m' A H; [discriminate|]. cbn [sessions] in H.
  destruct (startCondition W scl sda rdScl rdSda delay4 LT ld m) as [ok m1] eqn:R. apply start_any in R. destruct ok; cbn [negb] in H.
  - unfold logged at 1 in H. destruct (starting (fst (t m1))) as [[a nx] y] eqn:Y. cbn [fst snd] in H.
    match type of H with context [write _ _ _ _ _ _ _ _ ?d ?z] => set (m2 := z) in H; destruct (write W scl sda rdScl rdSda delay4 LT ld d m2) as [ok m3] eqn:R2 end.
    destruct R as [Q1 [Q2 [Q3 [Q4 Q5]]]]. assert (att m2 = true) as A2 by (change (att m1 = true); congruence).
    assert (snd (t m2) = snd (t m) ++ [CStarting]) as L2 by (unfold m2; cbn; rewrite Q1; reflexivity).
    apply write_any in R2. apply (ended_more _ [CStarting]); [repeat constructor|]. rewrite <- L2. destruct ok; cbn [negb] in H.
    + destruct R2 as [P1 [P2 _]].
      destruct (operations W scl sda rdScl rdSda delay4 LT lw lr ld fuel _ (set_sadr W LT 0 m3)) as [[r m4]|] eqn:R4; cbn [obind fst snd] in H; [|discriminate].
      apply operations_calls in R4; [|change (att m3 = true); congruence]. change (snd (t (set_sadr W LT 0 m3))) with (snd (t m3)) in R4. rewrite P1 in R4. destruct r.
      * destruct R4 as [A4 [body [E4 F4]]]. apply IH in H; [|exact A4]. rewrite E4 in H. apply (ended_more _ body); assumption.
      * injection H as <-. exact R4.
    + injection H as <-. apply (ended_failed m2); [exact A2|apply fm; exact R2].
  - injection H as <-. apply ended_failed; [exact A|apply fm; exact R].
Qed.
Lemma start_calls fuel m r m' : att m = false -> start W scl sda rdScl rdSda delay4 LT la ls lw lr ld fuel m = Some (r, m') ->
  att m' = false /\
  ((r = false /\ snd (t m') = snd (t m) ++ [CAttach; CDetach FailedToAttach] /\ err m' = err m) \/
   (r = true /\ exists body c, snd (t m') = snd (t m) ++ CAttach :: body ++ [CDetach c] /\ Forall inner body /\ (c = NormalStop \/ c = ErrorCondition /\ err m' <> NoError))).
Proof.
  intros A H. unfold start in H. change (I2cModel.att W LT m) with (att m) in H. rewrite A in H. unfold logged_attaching at 1 in H.
  destruct (attaching (fst (t m))) as [ok y] eqn:Y. destruct ok; cbn [negb] in H.
  - destruct (sessions W scl sda rdScl rdSda delay4 LT ls lw lr ld fuel _) as [m1|] eqn:R; cbn [obind] in H; [|discriminate]. injection H as <- <-.
    apply sessions_calls in R; [|reflexivity]. destruct R as [R1 [body [c [R2 [R3 R4]]]]]. split; [exact R1|]. right. split; [reflexivity|]. exists body, c.
    split; [rewrite R2; cbn; rewrite <- app_assoc; reflexivity|]. split; assumption.
  - injection H as <- <-. split; [exact A|]. left. split; [reflexivity|]. split; [|reflexivity]. cbn. rewrite <- app_assoc. reflexivity.
Qed.
End Calls.

(** * It returns *)
Section Total.
Variable W : Type.
Variable scl sda : bool -> W -> W.
Variable rdScl rdSda : W -> bool * W.
Variable delay4 : W -> W.
Section T.
Variable T : Type.
Variable detaching : cause -> T -> T.
Notation mem := (mem W T).
Lemma read_total p a m : 0 <= p < zlen (mem m) -> exists r, read W scl sda rdScl rdSda delay4 T detaching (Some p) a m = Some r.
Proof.
  intro P. unfold read. cbn [obind]. destruct (read_bits W scl sda rdScl rdSda delay4 T detaching 8 0 (on_w W T (sda true) m)) as [ok [d m1]] eqn:R. apply read_bits_any in R.
  assert (mem m1 = mem m) as E. { destruct ok; [destruct R as [_ [_ [_ [_ R]]]]|destruct R as [_ [_ [_ R]]]]; exact R. } rewrite E.
  destruct (zupd_in_range (mem m) p d P) as [mm [-> _]]. cbn [obind]. destruct ok; cbn [negb]; [|eexists; reflexivity].
  destruct (writeBit W scl sda rdScl rdSda delay4 T (negb a) _) as [ok m2]. destruct ok; eexists; reflexivity.
Qed.
Lemma read_all_total : forall n p m, 0 <= p -> p + Z.of_nat n < zlen (mem m) -> exists r, read_all W scl sda rdScl rdSda delay4 T detaching n (Some p) m = Some r.
Proof.
  induction n as [|n IH]; intros p m P L; cbn [read_all]; [apply read_total; lia|].
  destruct (read_total p true m ltac:(lia)) as [[ok m1] R]. rewrite R. cbn [obind fst snd]. destruct ok; [|eexists; reflexivity].
  apply read_any in R. destruct R as [_ R]. replace (option_map (Z.add 1) (Some p)) with (Some (p + 1)) by (unfold option_map; rewrite (Z.add_comm p 1); reflexivity). apply IH; lia.
Qed.
Lemma write_all_total : forall n p m, 0 <= p -> p + Z.of_nat n <= zlen (mem m) -> exists r, write_all W scl sda rdScl rdSda delay4 T detaching n (Some p) m = Some r.
Proof.
  induction n as [|n IH]; intros p m P L; cbn [write_all]; [eexists; reflexivity|]. cbn [obind].
  destruct (znth_in_range (mem m) p ltac:(lia)) as [x ->]. cbn [obind].
  destruct (write W scl sda rdScl rdSda delay4 T detaching x m) as [ok m1] eqn:R. destruct ok; [|eexists; reflexivity].
  apply write_any in R. destruct R as [_ [_ [_ [_ R]]]]. apply IH; [lia|]. fold mem. rewrite R. lia.
Qed.
End T.
Notation sess := (sessions W scl sda rdScl rdSda delay4 wr wr_starting wr_writing wr_reading wr_detaching).
Notation oper := (operations W scl sda rdScl rdSda delay4 wr wr_writing wr_reading wr_detaching).
Notation t := (t W wr). Notation mem := (mem W wr).
Lemma stop_total fuel m : exists m', oper (S fuel) Stop m = Some (false, m').
Proof. cbn [operations]. eexists; reflexivity. Qed.
Lemma oper_read_total fuel m : buffer_ok (readBuffer (t m)) (readSize (t m)) (zlen (mem m)) -> 0 < readSize (t m) -> exists m', oper (S (S fuel)) Read m = Some (false, m').
Proof.
  intros B N. unfold buffer_ok in B. destruct (readBuffer (t m)) as [p|] eqn:P; [|lia]. remember (S fuel) as f eqn:F. cbn [operations]. unfold wr_reading at 1. unfold mk_xfer. fold t. rewrite P. cbn [buffer length next].
  destruct (read_all_total wr wr_detaching (Z.to_nat (readSize (t m) - 1)) p (set_t W wr (t m) m) ltac:(lia) ltac:(change (I2cModel.mem W wr (set_t W wr (t m) m)) with (mem m); lia)) as [[ok m1] R].
  rewrite R. cbn [obind fst snd]. destruct ok; [|eexists; reflexivity]. subst f. apply stop_total.
Qed.
Lemma sess_read_total fuel m : buffer_ok (readBuffer (t m)) (readSize (t m)) (zlen (mem m)) -> isReading (t m) = true -> exists m', sess (S (S (S fuel))) m = Some m'.
Proof.
  intros B N. remember (S (S fuel)) as f eqn:F. cbn [sessions].
  destruct (startCondition W scl sda rdScl rdSda delay4 wr wr_detaching m) as [ok m1] eqn:R. apply start_any in R. destruct ok; cbn [negb]; [|eexists; reflexivity].
  destruct R as [Q1 [Q2 [Q3 [Q4 Q5]]]]. unfold wr_starting at 1. cbn [fst snd]. fold t. rewrite Q1, N.
  match goal with |- context [write _ _ _ _ _ _ _ _ ?d ?z] => set (m2 := z); destruct (write W scl sda rdScl rdSda delay4 wr wr_detaching d m2) as [ok m3] eqn:R2 end. apply write_any in R2.
  destruct ok; cbn [negb]; [|eexists; reflexivity]. destruct R2 as [P1 [P2 [P3 [P4 P5]]]].
  destruct (readSize (t m) =? 0) eqn:Z0.
  - subst f. destruct (stop_total (S fuel) (set_sadr W wr 0 m3)) as [m4 H4]. rewrite H4. cbn [obind fst snd]. eexists; reflexivity.
  - apply Z.eqb_neq in Z0. subst f. destruct (oper_read_total fuel (set_sadr W wr 0 m3)) as [m4 H4].
    + change (t (set_sadr W wr 0 m3)) with (t m3). change (mem (set_sadr W wr 0 m3)) with (mem m3). rewrite P1, P5. unfold m2. cbn [I2cModel.t I2cModel.mem set_sadr set_t]. fold mem. rewrite Q5. exact B.
    + change (t (set_sadr W wr 0 m3)) with (t m3). rewrite P1. unfold m2. cbn [I2cModel.t set_sadr set_t]. unfold buffer_ok in B. destruct (readBuffer (t m)); lia.
    + rewrite H4. cbn [obind fst snd]. eexists; reflexivity.
Qed.
Lemma sess_total fuel m : buffer_ok (readBuffer (t m)) (readSize (t m)) (zlen (mem m)) -> buffer_ok (writeBuffer (t m)) (writeSize (t m)) (zlen (mem m)) ->
  exists m', sess (S (S (S (S fuel)))) m = Some m'.
Proof.
  intros B B'. destruct (isReading (t m)) eqn:N; [apply sess_read_total; assumption|].
  remember (S (S (S fuel))) as f eqn:F. cbn [sessions].
  destruct (startCondition W scl sda rdScl rdSda delay4 wr wr_detaching m) as [ok m1] eqn:R. apply start_any in R. destruct ok; cbn [negb]; [|eexists; reflexivity].
  destruct R as [Q1 [Q2 [Q3 [Q4 Q5]]]]. unfold wr_starting at 1. cbn [fst snd]. fold t. rewrite Q1, N.
  match goal with |- context [write _ _ _ _ _ _ _ _ ?d ?z] => set (m2 := z); destruct (write W scl sda rdScl rdSda delay4 wr wr_detaching d m2) as [ok m3] eqn:R2 end. apply write_any in R2.
  destruct ok; cbn [negb]; [|eexists; reflexivity]. destruct R2 as [P1 [P2 [P3 [P4 P5]]]].
  assert (t m3 = t m) as T3 by exact P1. assert (mem m3 = mem m) as M3 by (rewrite P5; exact Q5).
  destruct (writeSize (t m) =? 0) eqn:Z0.
  - subst f. destruct (stop_total (S (S fuel)) (set_sadr W wr 0 m3)) as [m4 H4]. rewrite H4. cbn [obind fst snd]. eexists; reflexivity.
  - assert (exists b m4, oper f Write (set_sadr W wr 0 m3) = Some (b, m4) /\ (b = true -> readBuffer (t m4) = readBuffer (t m) /\ readSize (t m4) = readSize (t m) /\ isReading (t m4) = true /\ mem m4 = mem m)) as [b [m4 [H4 G]]].
    { rewrite F. remember (S (S fuel)) as f' eqn:F'. cbn [operations]. unfold wr_writing at 1. cbn [buffer length next mk_xfer]. change (I2cModel.t W wr (set_sadr W wr 0 m3)) with (t m3). rewrite T3.
      match goal with |- context [write_all _ _ _ _ _ _ _ _ _ _ ?z] => set (m4 := z) end.
      assert (exists r, write_all W scl sda rdScl rdSda delay4 wr wr_detaching (Z.to_nat match writeBuffer (t m) with Some _ => writeSize (t m) | None => 0 end) (writeBuffer (t m)) m4 = Some r) as [[ok m5] R5].
      { unfold buffer_ok in B'. destruct (writeBuffer (t m)) as [p|] eqn:P; [|eexists; reflexivity]. apply write_all_total; [lia|]. change (I2cModel.mem W wr m4) with (mem m3). rewrite M3. lia. }
      rewrite R5. cbn [obind fst snd]. apply write_all_any in R5. destruct R5 as [R5 R6]. destruct ok; [|eexists false, _; split; [reflexivity|discriminate]].
      subst f'. destruct (readSize (t m) =? 0) eqn:Z1; cbn [negb].
      + destruct (stop_total (S fuel) m5) as [m6 H6]. exists false, m6. split; [exact H6|discriminate].
      + exists true, m5. split; [reflexivity|]. intros _. destruct R5 as [R5 _]. change (t m5 = t m4) in R5. rewrite R5, R6. unfold m4. cbn [I2cModel.t I2cModel.mem set_t readBuffer readSize isReading]. repeat split. exact M3. }
    rewrite H4. cbn [obind fst snd]. destruct b; [|eexists; reflexivity]. destruct (G eq_refl) as [G1 [G2 [G3 G4]]]. subst f. apply sess_read_total; [|exact G3]. rewrite G1, G2, G4. exact B.
Qed.
Lemma start_total fuel m : buffer_ok (readBuffer (t m)) (readSize (t m)) (zlen (mem m)) -> buffer_ok (writeBuffer (t m)) (writeSize (t m)) (zlen (mem m)) ->
  exists r, start W scl sda rdScl rdSda delay4 wr wr_attaching wr_starting wr_writing wr_reading wr_detaching (S (S (S (S fuel)))) m = Some r.
Proof.
  intros B B'. unfold start. destruct (att W wr m); [eexists; reflexivity|]. unfold wr_attaching at 1. fold t.
  set (x := Wr (address (t m)) TBusy (readSize (t m)) (writeSize (t m)) (readBuffer (t m)) (writeBuffer (t m)) (isReading (t m))).
  destruct (sess_total fuel (Mk W wr (w W wr (set_t W wr x m)) x true NoError (sadr W wr (set_t W wr x m)) (I2cModel.mem W wr (set_t W wr x m))) B B') as [m' H].
  destruct (state (t m)); cbn [negb]; try (eexists; reflexivity); rewrite H; cbn [obind]; eexists; reflexivity.
Qed.
End Total.

(** * The slave *)
Section OnBus.
Variable own : Z.
Section T.
Variable T : Type.
Variable detaching : cause -> T -> T.
Notation scl := (set_scl own).
Definition put (b : bus) (m : M bus T) : M bus T := Mk bus T b (t _ _ m) (att _ _ m) (err _ _ m) (sadr _ _ m) (mem _ _ m).
Lemma on_put f b m : on_w bus T f (put b m) = put (f b) m.
Proof. reflexivity. Qed.
Lemma rd_scl_put b m : rd bus T get_scl (put b m) = (sclLine b, put b m).
Proof. reflexivity. Qed.
Lemma rd_sda_put b m : rd bus T get_sda (put b m) = (sdaLine b, put b m).
Proof. reflexivity. Qed.
Lemma rise_high da sd p ac st oq lg : exists p', rise (Bus true da sd 0 p ac st oq lg) = Bus true da sd 0 p' ac st oq lg.
Proof. unfold rise; cbn [ph]. destruct p as [|a l|a y ok|y l|y [d|]|]; eexists; reflexivity. Qed.
Lemma tick0 x da sd p ac st oq lg : tick (Bus x da sd 0 p ac st oq lg) = Bus x da sd 0 p ac st oq lg.
Proof. reflexivity. Qed.
Lemma tick_low da sd h p ac st oq lg : tick (Bus false da sd h p ac st oq lg) = Bus false da sd (h - 1) p ac st oq lg.
Proof. destruct h as [|h]; [reflexivity|]. unfold tick; cbn [hold mscl]. rewrite andb_false_r. rewrite Nat.sub_1_r. reflexivity. Qed.
Lemma wait_ok : forall d da sd h p ac st oq lg m, (h < 2 * d)%nat ->
  wait_scl bus get_scl tick T d (put (Bus true da sd h p ac st oq lg) m) =
  (true, put (if (h =? 0)%nat then Bus true da sd 0 p ac st oq lg else rise (Bus true da sd 0 p ac st oq lg)) m).
Proof.
  induction d as [|d IH]; intros da sd h p ac st oq lg m H; [lia|]. cbn [wait_scl]. rewrite rd_scl_put. unfold sclLine; cbn [mscl hold andb].
  destruct h as [|h]; [reflexivity|]. cbn [Nat.eqb]. rewrite on_put. unfold tick at 1; cbn [hold mscl msda ssda ph acks strs outq log]. rewrite andb_true_r.
  destruct h as [|h]; cbn [Nat.eqb].
  - rewrite rd_scl_put. destruct (rise_high da sd p ac st oq lg) as [p' ->]. reflexivity.
  - rewrite rd_scl_put. unfold sclLine; cbn [mscl hold andb Nat.eqb]. rewrite on_put. unfold tick at 2; cbn [hold mscl msda ssda ph acks strs outq log]. rewrite andb_true_r.
    destruct h as [|h]; cbn [Nat.eqb].
    + destruct (rise_high da sd p ac st oq lg) as [p' ->]. rewrite IH by lia. reflexivity.
    + rewrite IH by lia. reflexivity.
Qed.
Lemma up_ok da sd h p ac st oq lg m : (h <= 499)%nat ->
  sclSetAndWait bus scl get_scl tick T (put (Bus false da sd h p ac st oq lg) m) = (true, put (rise (Bus true da sd 0 p ac st oq lg)) m).
Proof.
  intro H. unfold sclSetAndWait. rewrite on_put. unfold set_scl, sclLine; cbn [mscl hold andb msda ssda ph acks strs outq log].
  destruct h as [|h]; cbn [Nat.eqb].
  - destruct (rise_high da sd p ac st oq lg) as [p' ->]. rewrite wait_ok by lia. reflexivity.
  - rewrite wait_ok by lia. reflexivity.
Qed.
Lemma up_high da sd p ac st oq lg m :
  sclSetAndWait bus scl get_scl tick T (put (Bus true da sd 0 p ac st oq lg) m) = (true, put (Bus true da sd 0 p ac st oq lg) m).
Proof. unfold sclSetAndWait. rewrite on_put. change (set_scl own true (Bus true da sd 0 p ac st oq lg)) with (Bus true da sd 0 p ac st oq lg). rewrite wait_ok by lia. reflexivity. Qed.
Lemma delay2_low da sd h p ac st oq lg m : on_w bus T (delay2 bus tick) (put (Bus false da sd h p ac st oq lg) m) = put (Bus false da sd (h - 1 - 1) p ac st oq lg) m.
Proof. rewrite on_put. unfold delay2. rewrite !tick_low. reflexivity. Qed.
Lemma delay2_high x da sd p ac st oq lg m : on_w bus T (delay2 bus tick) (put (Bus x da sd 0 p ac st oq lg) m) = put (Bus x da sd 0 p ac st oq lg) m.
Proof. reflexivity. Qed.
Lemma sda_low x da sd h p ac st oq lg m : on_w bus T (set_sda x) (put (Bus false da sd h p ac st oq lg) m) = put (Bus false x sd h p ac st oq lg) m.
Proof. reflexivity. Qed.
Lemma scl_low da sd h p ac st oq lg m : on_w bus T (scl false) (put (Bus false da sd h p ac st oq lg) m) = put (Bus false da sd h p ac st oq lg) m.
Proof. reflexivity. Qed.
Lemma scl_fall da sd p ac st oq lg m : on_w bus T (scl false) (put (Bus true da sd 0 p ac st oq lg) m) = put (fall own (Bus false da sd 0 p ac st oq lg)) m.
Proof. reflexivity. Qed.

Lemma bit_ok x da sd h p ac st oq lg m : (h <= 499)%nat -> (x = true -> sd = true) ->
  writeBit bus scl set_sda get_scl get_sda tick T x (put (Bus false da sd h p ac st oq lg) m) =
  (true, put (fall own (Bus false x sd 0 (ph (rise (Bus true x sd 0 p ac st oq lg))) ac st oq lg)) m).
Proof.
  intros H E. unfold writeBit. rewrite sda_low, delay2_low, rd_sda_put. unfold sdaLine; cbn [msda ssda].
  replace (Bool.eqb (x && sd) x) with true by (destruct x; [rewrite (E eq_refl); reflexivity|reflexivity]).
  rewrite up_ok by lia. destruct (rise_high x sd p ac st oq lg) as [p' ->]. rewrite delay2_high, scl_fall. reflexivity.
Qed.
Lemma rbit_ok d sd h y l ac st oq lg m : (h <= 499)%nat ->
  readBit bus scl get_scl get_sda tick T d (put (Bus false true sd h (Send y l) ac st oq lg) m) =
  (true, (if sd then Z.lor d 1 else d, put (fall own (Bus false true sd 0 (Send y l) ac st oq lg)) m)).
Proof.
  intros H. unfold readBit. rewrite delay2_low, up_ok by lia. unfold rise; cbn [ph].
  rewrite rd_sda_put. unfold sdaLine; cbn [msda ssda andb]. rewrite delay2_high, scl_fall. reflexivity.
Qed.

(** A low clock, held by the slave for not too long. *)
Definition lowbus (b : bus) (sd : bool) (p : phase) (ac : list bool) (oq : list Z) (lg : list event) : Prop :=
  exists da h st, b = Bus false da sd h p ac st oq lg /\ (h <= 499)%nat /\ Forall (fun n => (n <= 499)%nat) st.
Lemma hd_le st : Forall (fun n => (n <= 499)%nat) st -> (hd O st <= 499)%nat /\ Forall (fun n => (n <= 499)%nat) (tl st).
Proof. intro F. destruct F; cbn; [split; [lia|constructor]|split; assumption]. Qed.
Lemma stretch_low da sd h p ac st oq lg : Forall (fun n => (n <= 499)%nat) st -> lowbus (stretch (Bus false da sd h p ac st oq lg)) sd p ac oq lg.
Proof. intro F. destruct (hd_le st F) as [F1 F2]. exists da, (hd O st), (tl st). split; [reflexivity|split; assumption]. Qed.

Lemma start_low b p ac oq lg m : lowbus b true p ac oq lg ->
  exists b', startCondition bus scl set_sda get_scl get_sda tick T detaching (put b m) = (true, put b' m) /\ lowbus b' true (Recv true []) ac oq (lg ++ [EStart]).
Proof.
  intros [da [h [st [-> [H F]]]]]. unfold startCondition. rewrite sda_low, on_put, tick_low, rd_sda_put. unfold sdaLine; cbn [msda ssda andb negb].
  rewrite up_ok by lia. destruct (rise_high true true p ac st oq lg) as [p' ->]. cbn [negb].
  change (on_w bus T (set_sda false) (put (Bus true true true 0 p' ac st oq lg) m)) with (put (Bus true false true 0 (Recv true []) ac st oq (lg ++ [EStart])) m).
  rewrite delay2_high, scl_fall. unfold fall; cbn [ph List.length Nat.eqb]. destruct (hd_le st F) as [F1 F2]. unfold stretch; cbn [mscl msda ssda ph acks strs outq log]. rewrite delay2_low.
  eexists. split; [reflexivity|]. do 3 eexists. split; [reflexivity|]. split; [lia|exact F2].
Qed.
Lemma start_free b m : free b -> patient b ->
  exists b', startCondition bus scl set_sda get_scl get_sda tick T detaching (put b m) = (true, put b' m) /\ lowbus b' true (Recv true []) (acks b) (outq b) (log b ++ [EStart]).
Proof.
  intros [E1 [E2 [E3 [E4 E5]]]] [_ F]. destruct b as [mc da sd h p ac st oq lg]. cbn [mscl msda ssda hold ph acks strs outq log] in *. subst. unfold startCondition.
  change (on_w bus T (set_sda true) (put (Bus true true true 0 Idle ac st oq lg) m)) with (put (Bus true true true 0 Idle ac st oq lg) m).
  rewrite on_put, tick0, rd_sda_put. unfold sdaLine; cbn [msda ssda andb negb]. rewrite up_high. cbn [negb].
  change (on_w bus T (set_sda false) (put (Bus true true true 0 Idle ac st oq lg) m)) with (put (Bus true false true 0 (Recv true []) ac st oq (lg ++ [EStart])) m).
  rewrite delay2_high, scl_fall. unfold fall; cbn [ph List.length Nat.eqb]. destruct (hd_le st F) as [F1 F2]. unfold stretch; cbn [mscl msda ssda ph acks strs outq log]. rewrite delay2_low.
  eexists. split; [reflexivity|]. do 3 eexists. split; [reflexivity|]. split; [lia|exact F2].
Qed.
(** The bus at rest. *)
Definition rest (b : bus) (ac : list bool) (oq : list Z) (lg : list event) : Prop :=
  exists st, b = Bus true true true 0 Idle ac st oq lg /\ Forall (fun n => (n <= 499)%nat) st.
Lemma stop_low b p ac oq lg m : lowbus b true p ac oq lg ->
  exists b', stopCondition bus scl set_sda get_scl get_sda tick T detaching (put b m) = (true, put b' m) /\ rest b' ac oq (lg ++ [EStop]).
Proof.
  intros [da [h [st [-> [H F]]]]]. unfold stopCondition. rewrite scl_low, sda_low, up_ok by lia. destruct (rise_high false true p ac st oq lg) as [p' ->]. cbn [negb].
  rewrite delay2_high. change (on_w bus T (set_sda true) (put (Bus true false true 0 p' ac st oq lg) m)) with (put (Bus true true true 0 Idle ac st oq (lg ++ [EStop])) m).
  rewrite on_put, tick0, rd_sda_put. eexists. split; [reflexivity|]. exists st. split; [reflexivity|exact F].
Qed.
(** Sending a byte: the acknowledge is on the line. *)
Definition hit (a : bool) (y : Z) (ac : list bool) : bool := if a then ack_of own y ac else hd true ac.
Definition used (a : bool) (y : Z) (ac : list bool) : list bool := if a then acks_of own y ac else tl ac.
Lemma answer_eq a y da sd h p ac st oq lg : answer own a y (Bus false da sd h p ac st oq lg) = Bus false da (negb (hit a y ac)) h (Ack a y (hit a y ac)) (used a y ac) st oq lg.
Proof.
  unfold answer, hit, used, ack_of, acks_of. destruct a; cbn [andb].
  - destruct (y / 2 =? own); cbn [negb andb]; reflexivity.
  - reflexivity.
Qed.
Lemma step_ok b a1 a2 a3 a4 a5 a6 a7 n bb a l ac oq lg m : lowbus bb true (Recv a l) ac oq lg -> (List.length l < 7)%nat ->
  exists b', write_bits bus scl set_sda get_scl get_sda tick T detaching (S n) (val [b; a1; a2; a3; a4; a5; a6; a7]) (put bb m) =
             write_bits bus scl set_sda get_scl get_sda tick T detaching n (val [a1; a2; a3; a4; a5; a6; a7; false]) (put b' m) /\
    lowbus b' true (Recv a (l ++ [b])) ac oq lg.
Proof.
  intros [da [h [st [-> [H F]]]]] L. cbn [write_bits]. destruct (SpiProofs.msb_step b a1 a2 a3 a4 a5 a6 a7 false) as [S1 S2]. cbn zeta in S2.
  unfold SpiModel.on in S1. change SpiProofs.val with val in S1, S2. rewrite S1, S2. rewrite bit_ok by (trivial; lia).
  unfold rise, with_ph, sdaLine; cbn [ph msda ssda]. rewrite andb_true_r. unfold fall; cbn [ph]. rewrite app_length. cbn [List.length].
  replace ((List.length l + 1 =? 8)%nat) with false by (symmetry; apply Nat.eqb_neq; lia).
  eexists. split; [reflexivity|]. apply stretch_low, F.
Qed.
Lemma last_ok b a1 a2 a3 a4 a5 a6 a7 bb a l ac oq lg m : lowbus bb true (Recv a l) ac oq lg -> (List.length l = 7)%nat ->
  exists b', write_bits bus scl set_sda get_scl get_sda tick T detaching 1 (val [b; a1; a2; a3; a4; a5; a6; a7]) (put bb m) = (true, put b' m) /\
    let y := val (l ++ [b]) in lowbus b' (negb (hit a y ac)) (Ack a y (hit a y ac)) (used a y ac) oq lg.
Proof.
  intros [da [h [st [-> [H F]]]]] L. cbn [write_bits]. destruct (SpiProofs.msb_step b a1 a2 a3 a4 a5 a6 a7 false) as [S1 S2].
  unfold SpiModel.on in S1. change SpiProofs.val with val in S1. rewrite S1. rewrite bit_ok by (trivial; lia).
  unfold rise, with_ph, sdaLine; cbn [ph msda ssda]. rewrite andb_true_r. unfold fall; cbn [ph]. rewrite app_length. cbn [List.length]. rewrite L. cbn [Nat.add Nat.eqb].
  rewrite answer_eq. eexists. split; [reflexivity|]. apply stretch_low, F.
Qed.
Lemma val_bits y : 0 <= y < 256 -> val (bits_of y) = y.
Proof. exact (SpiProofs.val_bits y). Qed.
Lemma byte_ok y bb a ac oq lg m : 0 <= y < 256 -> lowbus bb true (Recv a []) ac oq lg ->
  exists b', write_bits bus scl set_sda get_scl get_sda tick T detaching 8 y (put bb m) = (true, put b' m) /\
    lowbus b' (negb (hit a y ac)) (Ack a y (hit a y ac)) (used a y ac) oq lg.
Proof.
  intros Y L0. pose proof (val_bits y Y) as V. unfold bits_of in V. cbn [map] in V.
  set (b7 := Z.testbit y 7) in V. set (b6 := Z.testbit y 6) in V. set (b5 := Z.testbit y 5) in V. set (b4 := Z.testbit y 4) in V.
  set (b3 := Z.testbit y 3) in V. set (b2 := Z.testbit y 2) in V. set (b1 := Z.testbit y 1) in V. set (b0 := Z.testbit y 0) in V.
  clearbody b7 b6 b5 b4 b3 b2 b1 b0. subst y.
  edestruct (step_ok b7 b6 b5 b4 b3 b2 b1 b0 7) as [x1 [E1 L1]]; [exact L0|cbn; lia|]. rewrite E1. cbn [app] in L1.
  edestruct (step_ok b6 b5 b4 b3 b2 b1 b0 false 6) as [x2 [E2 L2]]; [exact L1|cbn; lia|]. rewrite E2. cbn [app] in L2.
  edestruct (step_ok b5 b4 b3 b2 b1 b0 false false 5) as [x3 [E3 L3]]; [exact L2|cbn; lia|]. rewrite E3. cbn [app] in L3.
  edestruct (step_ok b4 b3 b2 b1 b0 false false false 4) as [x4 [E4 L4]]; [exact L3|cbn; lia|]. rewrite E4. cbn [app] in L4.
  edestruct (step_ok b3 b2 b1 b0 false false false false 3) as [x5 [E5 L5]]; [exact L4|cbn; lia|]. rewrite E5. cbn [app] in L5.
  edestruct (step_ok b2 b1 b0 false false false false false 2) as [x6 [E6 L6]]; [exact L5|cbn; lia|]. rewrite E6. cbn [app] in L6.
  edestruct (step_ok b1 b0 false false false false false false 1) as [x7 [E7 L7]]; [exact L6|cbn; lia|]. rewrite E7. cbn [app] in L7.
  edestruct (last_ok b0 false false false false false false false) as [x8 [E8 L8]]; [exact L7|reflexivity|]. rewrite E8. cbn zeta in L8. cbn [app] in L8.
  exists x8. split; [reflexivity|exact L8].
Qed.
Definition word (a : bool) (y : Z) (k : bool) : event := if a then EAddr y k else EWr y k.
(** The bus after an acknowledged byte. *)
Definition after (a : bool) (y : Z) (ac : list bool) (oq : list Z) (lg : list event) (b : bus) : Prop :=
  if a && Z.odd y then lowbus b (Z.testbit (hd 0xff oq) 7) (Send (hd 0xff oq) (bits_of (hd 0xff oq))) ac (tl oq) lg else lowbus b true (Recv false []) ac oq lg.
Lemma write_ok y bb a ac oq lg m : 0 <= y < 256 -> lowbus bb true (Recv a []) ac oq lg ->
  if hit a y ac then exists b', write bus scl set_sda get_scl get_sda tick T detaching y (put bb m) = (true, put b' m) /\ after a y (used a y ac) oq (lg ++ [word a y true]) b'
  else exists b', write bus scl set_sda get_scl get_sda tick T detaching y (put bb m) =
                    (false, detach bus T detaching ErrorCondition (put b' (set_err bus T (if sadr _ _ m =? 0 then DataNack else AddressNack) m))) /\
                  rest b' (used a y ac) oq (lg ++ [word a y false; EStop]).
Proof.
  intros Y L0. unfold write. destruct (byte_ok y bb a ac oq lg m Y L0) as [x [E L]]. rewrite E. cbn [negb].
  destruct L as [da [h [st [-> [H F]]]]]. rewrite sda_low, delay2_low, up_ok by lia. unfold rise; cbn [ph]. cbn [negb]. rewrite rd_sda_put. unfold sdaLine; cbn [msda ssda andb].
  destruct (hit a y ac) eqn:K; cbn [negb].
  - rewrite delay2_high, scl_fall. unfold fall; cbn [ph negb]. unfold after. change (if a then EAddr y true else EWr y true) with (word a y true).
    eexists. split; [reflexivity|]. destruct (a && Z.odd y).
    + unfold load, say; cbn [outq mscl msda hold acks strs log]. apply stretch_low, F.
    + unfold with_ph, say; cbn [outq mscl msda hold acks strs log]. apply stretch_low, F.
  - unfold do_error. rewrite delay2_high, scl_fall. unfold fall; cbn [ph negb]. change (if a then EAddr y false else EWr y false) with (word a y false).
    unfold with_ph, say; cbn [outq mscl msda hold acks strs log].
    destruct (stretch_low true true 0 Deaf (used a y ac) st oq (lg ++ [word a y false]) F) as [da' [h' [st' [E' [H' F']]]]]. rewrite E', sda_low, delay2_low.
    edestruct (stop_low (Bus false false true (h' - 1 - 1) Deaf (used a y ac) st' oq (lg ++ [word a y false]))) as [z [E2 [st2 [-> F2]]]]; [do 3 eexists; split; [reflexivity|split; [lia|exact F']]|].
    rewrite E2. cbn [negb]. eexists. split; [reflexivity|]. exists st2. split; [|exact F2]. rewrite <- app_assoc. reflexivity.
Qed.

(** Receiving a byte. *)
Definition lowhi (b : bus) (sd : bool) (p : phase) (ac : list bool) (oq : list Z) (lg : list event) : Prop :=
  exists h st, b = Bus false true sd h p ac st oq lg /\ (h <= 499)%nat /\ Forall (fun n => (n <= 499)%nat) st.
Lemma stretch_hi sd h p ac st oq lg : Forall (fun n => (n <= 499)%nat) st -> lowhi (stretch (Bus false true sd h p ac st oq lg)) sd p ac oq lg.
Proof. intro F. destruct (hd_le st F) as [F1 F2]. exists (hd O st), (tl st). split; [reflexivity|split; assumption]. Qed.
Lemma rstep_ok x0 x1 x2 x3 x4 x5 x6 x7 n bb b c l y ac oq lg m : lowhi bb b (Send y (b :: c :: l)) ac oq lg ->
  exists b', read_bits bus scl set_sda get_scl get_sda tick T detaching (S n) (val [x0; x1; x2; x3; x4; x5; x6; x7]) (put bb m) =
             read_bits bus scl set_sda get_scl get_sda tick T detaching n (val [x1; x2; x3; x4; x5; x6; x7; b]) (put b' m) /\
    lowhi b' c (Send y (c :: l)) ac oq lg.
Proof.
  intros [h [st [-> [H F]]]]. cbn [read_bits]. rewrite rbit_ok by exact H. destruct (SpiProofs.msb_step x0 x1 x2 x3 x4 x5 x6 x7 b) as [_ S2]. cbn zeta in S2. change SpiProofs.val with val in S2. rewrite S2.
  eexists. split; [reflexivity|]. unfold fall; cbn [ph tl]. apply stretch_hi, F.
Qed.
Lemma rlast_ok x0 x1 x2 x3 x4 x5 x6 x7 bb b y ac oq lg m : lowhi bb b (Send y [b]) ac oq lg ->
  exists b', read_bits bus scl set_sda get_scl get_sda tick T detaching 1 (val [x0; x1; x2; x3; x4; x5; x6; x7]) (put bb m) =
             (true, (val [x1; x2; x3; x4; x5; x6; x7; b], put b' m)) /\
    lowhi b' true (Answer y None) ac oq lg.
Proof.
  intros [h [st [-> [H F]]]]. cbn [read_bits]. rewrite rbit_ok by exact H. destruct (SpiProofs.msb_step x0 x1 x2 x3 x4 x5 x6 x7 b) as [_ S2]. cbn zeta in S2. change SpiProofs.val with val in S2. rewrite S2.
  eexists. split; [reflexivity|]. unfold fall; cbn [ph tl]. apply stretch_hi, F.
Qed.
Lemma rbyte_ok y bb ac oq lg m : 0 <= y < 256 -> lowhi bb (Z.testbit y 7) (Send y (bits_of y)) ac oq lg ->
  exists b', read_bits bus scl set_sda get_scl get_sda tick T detaching 8 0 (put bb m) = (true, (y, put b' m)) /\ lowhi b' true (Answer y None) ac oq lg.
Proof.
  intros Y L0. pose proof (val_bits y Y) as V. unfold bits_of in V, L0. cbn [map] in V, L0.
  set (b7 := Z.testbit y 7) in V, L0. set (b6 := Z.testbit y 6) in V, L0. set (b5 := Z.testbit y 5) in V, L0. set (b4 := Z.testbit y 4) in V, L0.
  set (b3 := Z.testbit y 3) in V, L0. set (b2 := Z.testbit y 2) in V, L0. set (b1 := Z.testbit y 1) in V, L0. set (b0 := Z.testbit y 0) in V, L0.
  clearbody b7 b6 b5 b4 b3 b2 b1 b0. change 0 with (val [false; false; false; false; false; false; false; false]).
  edestruct (rstep_ok false false false false false false false false 7) as [z1 [E1 L1]]; [exact L0|]. rewrite E1.
  edestruct (rstep_ok false false false false false false false b7 6) as [z2 [E2 L2]]; [exact L1|]. rewrite E2.
  edestruct (rstep_ok false false false false false false b7 b6 5) as [z3 [E3 L3]]; [exact L2|]. rewrite E3.
  edestruct (rstep_ok false false false false false b7 b6 b5 4) as [z4 [E4 L4]]; [exact L3|]. rewrite E4.
  edestruct (rstep_ok false false false false b7 b6 b5 b4 3) as [z5 [E5 L5]]; [exact L4|]. rewrite E5.
  edestruct (rstep_ok false false false b7 b6 b5 b4 b3 2) as [z6 [E6 L6]]; [exact L5|]. rewrite E6.
  edestruct (rstep_ok false false b7 b6 b5 b4 b3 b2 1) as [z7 [E7 L7]]; [exact L6|]. rewrite E7.
  edestruct (rlast_ok false b7 b6 b5 b4 b3 b2 b1) as [z8 [E8 L8]]; [exact L7|]. rewrite E8.
  exists z8. rewrite V. split; [reflexivity|exact L8].
Qed.
Definition sending (b : bus) (ac : list bool) (oq : list Z) (lg : list event) : Prop :=
  lowbus b (Z.testbit (hd 0xff oq) 7) (Send (hd 0xff oq) (bits_of (hd 0xff oq))) ac (tl oq) lg.
Definition bytes (l : list Z) : Prop := Forall (fun y => 0 <= y < 256) l.
Lemma bytes_hd l : bytes l -> 0 <= hd 0xff l < 256 /\ bytes (tl l).
Proof. intro F. destruct F; cbn; [split; [lia|constructor]|split; assumption]. Qed.
Lemma read_ok p k bb ac oq lg m : bytes oq -> 0 <= p < zlen (mem _ _ m) -> sending bb ac oq lg ->
  exists b' mm, read bus scl set_sda get_scl get_sda tick T detaching (Some p) k (put bb m) = Some (true, put b' (set_mem bus T mm m)) /\ zupd (mem _ _ m) p (hd 0xff oq) = Some mm /\
    if k then sending b' ac (tl oq) (lg ++ [ERd (hd 0xff oq) true]) else lowbus b' true Deaf ac (tl oq) (lg ++ [ERd (hd 0xff oq) false]).
Proof.
  intros B P [da [h [st [-> [H F]]]]]. unfold read. cbn [obind]. rewrite sda_low. set (y := hd 0xff oq). destruct (bytes_hd oq B) as [B1 B2].
  edestruct (rbyte_ok y) as [z [E [h1 [st1 [-> [H1 F1]]]]]]; [exact B1|do 2 eexists; split; [reflexivity|split; [exact H|exact F]]|]. rewrite E.
  destruct (zupd_in_range (mem bus T m) p y P) as [mm [U _]]. change (mem bus T (put ?b m)) with (mem bus T m). rewrite U. cbn [obind negb].
  change (set_mem bus T mm (put ?b m)) with (put b (set_mem bus T mm m)). rewrite bit_ok by (trivial; lia). cbn [negb].
  unfold rise, with_ph, sdaLine; cbn [ph msda ssda]. rewrite andb_true_r. unfold fall; cbn [ph]. rewrite negb_involutive.
  destruct k; cbn [negb].
  - unfold load, say; cbn [mscl msda hold acks strs outq log]. destruct (hd_le st1 F1) as [G1 G2]. unfold stretch; cbn [mscl msda ssda ph acks strs outq log]. rewrite sda_low.
    do 2 eexists. split; [reflexivity|]. split; [reflexivity|]. do 3 eexists. split; [reflexivity|split; assumption].
  - unfold with_ph, say; cbn [mscl msda hold acks strs outq log]. destruct (hd_le st1 F1) as [G1 G2]. unfold stretch; cbn [mscl msda ssda ph acks strs outq log]. rewrite sda_low.
    do 2 eexists. split; [reflexivity|]. split; [reflexivity|]. do 3 eexists. split; [reflexivity|split; assumption].
Qed.
Lemma read_all_ok : forall n p bb ac oq lg m, bytes oq -> 0 <= p -> p + Z.of_nat n < zlen (mem _ _ m) -> sending bb ac oq lg ->
  let '(l, ys, q) := recv (S n) oq in
  exists b' mm, read_all bus scl set_sda get_scl get_sda tick T detaching n (Some p) (put bb m) = Some (true, put b' (set_mem bus T mm m)) /\
    zwrite (mem _ _ m) p ys = Some mm /\ lowbus b' true Deaf ac q (lg ++ l).
Proof.
  induction n as [|n IH]; intros p bb ac oq lg m B P N S0.
  - cbn [recv read_all Nat.eqb negb]. destruct (read_ok p false bb ac oq lg m B ltac:(lia) S0) as [b' [mm [E [U L]]]]. exists b', mm. rewrite E. split; [reflexivity|]. split; [cbn [zwrite]; rewrite U; reflexivity|exact L].
  - remember (S n) as n1 eqn:N1. cbn [recv]. subst n1. cbn [read_all]. destruct (bytes_hd oq B) as [B1 B2].
    destruct (read_ok p true bb ac oq lg m B ltac:(lia) S0) as [b' [mm [E [U L]]]]. rewrite E. cbn [obind fst snd].
    replace (option_map (Z.add 1) (Some p)) with (Some (p + 1)) by (unfold option_map; rewrite (Z.add_comm p 1); reflexivity).
    specialize (IH (p + 1) b' ac (tl oq) (lg ++ [ERd (hd 0xff oq) true]) (set_mem bus T mm m) B2 ltac:(lia)).
    change (mem bus T (set_mem bus T mm m)) with mm in IH. specialize (IH ltac:(rewrite (zupd_len _ _ _ _ U); lia) L).
    destruct (recv (S n) (tl oq)) as [[l ys] q]. destruct IH as [b2 [mm2 [E2 [Z2 L2]]]]. exists b2, mm2. split; [exact E2|]. split.
    + cbn [zwrite]. rewrite U. cbn [obind]. exact Z2.
    + cbn [Nat.eqb negb]. rewrite <- app_assoc in L2. exact L2.
Qed.
Lemma write_all_ok : forall ws pre post p bb ac oq lg m, bytes ws -> mem _ _ m = pre ++ ws ++ post -> zlen pre = p -> sadr _ _ m = 0 -> lowbus bb true (Recv false []) ac oq lg ->
  let '(l, ac', ok) := send ws ac in
  exists b', if ok then write_all bus scl set_sda get_scl get_sda tick T detaching (List.length ws) (Some p) (put bb m) = Some (true, put b' m) /\ lowbus b' true (Recv false []) ac' oq (lg ++ l)
    else write_all bus scl set_sda get_scl get_sda tick T detaching (List.length ws) (Some p) (put bb m) = Some (false, detach bus T detaching ErrorCondition (put b' (set_err bus T DataNack m))) /\
         rest b' ac' oq (lg ++ l ++ [EStop]).
Proof.
  induction ws as [|x ws IH]; intros pre post p bb ac oq lg m B E P A L; cbn [send].
  - exists bb. cbn [List.length write_all]. split; [reflexivity|rewrite app_nil_r; exact L].
  - cbn [List.length write_all obind]. change (mem bus T (put bb m)) with (mem bus T m). rewrite E. replace (znth (pre ++ (x :: ws) ++ post) p) with (Some x) by (symmetry; apply TlcProofs.znth_at; exact P). cbn [obind].
    pose proof (Forall_inv B) as Bx. cbv beta in Bx. pose proof (write_ok x bb false ac oq lg m Bx L) as W. unfold hit, used in W. destruct (hd true ac).
    + destruct W as [b' [W1 W2]]. rewrite W1. unfold after in W2. cbn [andb word] in W2.
      specialize (IH (pre ++ [x]) post (p + 1) b' (tl ac) oq (lg ++ [EWr x true]) m (Forall_inv_tail B)). rewrite E in IH. specialize (IH ltac:(rewrite <- app_assoc; reflexivity) ltac:(rewrite zlen_app, zlen_cons, (zlen_nil Z); lia) A W2).
      destruct (send ws (tl ac)) as [[l ac'] ok]. destruct IH as [b2 IH]. exists b2. destruct ok; rewrite <- app_assoc in IH; exact IH.
    + destruct W as [b' [W1 W2]]. rewrite W1, A. exists b'. split; [reflexivity|]. exact W2.
Qed.
Lemma detach_put c b m : detach bus T detaching c (put b m) = put b (detach bus T detaching c m).
Proof. unfold detach. change (att bus T (put b m)) with (att bus T m). destruct (att bus T m); reflexivity. Qed.
End T.
Notation scl := (set_scl own).
Notation sess := (sessions bus scl set_sda get_scl get_sda tick wr wr_starting wr_writing wr_reading wr_detaching).
Notation oper := (operations bus scl set_sda get_scl get_sda tick wr wr_writing wr_reading wr_detaching).
Notation t := (t bus wr). Notation mem := (mem bus wr). Notation att := (att bus wr). Notation err := (err bus wr). Notation w := (w bus wr).
Definition startable (b : bus) (ac : list bool) (oq : list Z) (lg : list event) : Prop := (exists p, lowbus b true p ac oq lg) \/ rest b ac oq lg.
Lemma start_ok b ac oq lg m : startable b ac oq lg ->
  exists b', startCondition bus scl set_sda get_scl get_sda tick wr wr_detaching (put wr b m) = (true, put wr b' m) /\ lowbus b' true (Recv true []) ac oq (lg ++ [EStart]).
Proof.
  intros [[p L]|[st [-> F]]]; [eapply start_low; exact L|].
  apply (start_free wr wr_detaching (Bus true true true 0 Idle ac st oq lg) m); [repeat split|split; [cbn [hold]; lia|exact F]].
Qed.
Lemma addr_sweep a : 0 <= a < 128 -> Z.land (2 * a) 0xfe = 2 * a /\ Z.lor (2 * a) 1 = 2 * a + 1 /\ Z.odd (2 * a) = false /\ Z.odd (2 * a + 1) = true /\ (2 * a) / 2 = a /\ (2 * a + 1) / 2 = a.
Proof.
  intro R. repeat split.
  - assert (forallb (fun n => Z.land (2 * Z.of_nat n) 0xfe =? 2 * Z.of_nat n) (seq 0 128) = true) as H by (vm_compute; reflexivity).
    rewrite forallb_forall in H. specialize (H (Z.to_nat a)). rewrite in_seq, Z2Nat.id in H by lia. apply Z.eqb_eq, H. lia.
  - assert (forallb (fun n => Z.lor (2 * Z.of_nat n) 1 =? 2 * Z.of_nat n + 1) (seq 0 128) = true) as H by (vm_compute; reflexivity).
    rewrite forallb_forall in H. specialize (H (Z.to_nat a)). rewrite in_seq, Z2Nat.id in H by lia. apply Z.eqb_eq, H. lia.
  - rewrite Z.odd_mul. reflexivity.
  - rewrite Z.odd_add, Z.odd_mul. reflexivity.
  - rewrite Z.mul_comm. apply Z.div_mul. lia.
  - symmetry. apply (Z.div_unique (2 * a + 1) 2 a 1); lia.
Qed.
(** What is left at the end of start(). *)
Definition ended_with (r : result) (lg : list event) (x : wr) (mm : list Z) (m' : M bus wr) : Prop :=
  rest (w m') (r_acks r) (r_out r) (lg ++ r_log r) /\ att m' = false /\ err m' = r_err r /\ mem m' = mm /\
  t m' = wr_detaching (match r_err r with NoError => NormalStop | _ => ErrorCondition end) x.
Lemma oper_stop fuel b p ac oq lg m : lowbus b true p ac oq lg -> att m = true -> err m = NoError ->
  exists m', oper (S fuel) Stop (put wr b m) = Some (false, m') /\ rest (w m') ac oq (lg ++ [EStop]) /\ att m' = false /\ err m' = NoError /\ mem m' = mem m /\ t m' = wr_detaching NormalStop (t m).
Proof.
  intros L A E. cbn [operations]. rewrite detach_put. destruct (stop_low wr wr_detaching b p ac oq lg (detach bus wr wr_detaching NormalStop m) L) as [b' [H R]]. rewrite H. cbn [snd].
  eexists. split; [reflexivity|]. split; [exact R|]. unfold detach. fold att. rewrite A. cbn. fold err. rewrite E. repeat split.
Qed.
Lemma sess_reading fuel b ac oq lg a p m : 0 < a < 128 -> bytes oq -> startable b ac oq lg -> att m = true -> err m = NoError ->
  address (t m) = 2 * a -> isReading (t m) = true -> 0 < readSize (t m) -> readBuffer (t m) = Some p -> 0 <= p -> p + readSize (t m) <= zlen (mem m) ->
  exists m' mm, let r := reading_part own a (Z.to_nat (readSize (t m))) ac oq in
    sess (S (S (S fuel))) (put wr b m) = Some m' /\ zwrite (mem m) p (r_read r) = Some mm /\ ended_with r lg (t m) mm m'.
Proof.
  intros R B S0 A E0 Ad Re N P P0 P1. destruct (addr_sweep a ltac:(lia)) as [W1 [W2 [W3 [W4 [W5 W6]]]]].
  remember (S (S fuel)) as f eqn:F. cbn [sessions]. destruct (start_ok b ac oq lg m S0) as [b1 [H1 L1]]. rewrite H1. cbn [negb]. clear H1.
  unfold wr_starting at 1. change (I2cModel.t bus wr (put wr b1 m)) with (t m). cbn [fst snd]. rewrite Re, Ad. destruct (readSize (t m) =? 0) eqn:Z0; [lia|].
  rewrite W1, W2. change (set_sadr bus wr (2 * a) (set_t bus wr (t m) (put wr b1 m))) with (put wr b1 (set_sadr bus wr (2 * a) m)).
  pose proof (write_ok wr wr_detaching (2 * a + 1) b1 true ac oq (lg ++ [EStart]) (set_sadr bus wr (2 * a) m) ltac:(lia) L1) as H. unfold hit, used, word in H. unfold reading_part.
  destruct (ack_of own (2 * a + 1) ac).
  - destruct H as [b2 [H2 L2]]. rewrite H2. clear H2. cbn [negb]. unfold after in L2. cbn [andb] in L2. rewrite W4 in L2. fold (sending b2 (acks_of own (2 * a + 1) ac) oq ((lg ++ [EStart]) ++ [EAddr (2 * a + 1) true])) in L2.
    change (set_sadr bus wr 0 (put wr b2 (set_sadr bus wr (2 * a) m))) with (put wr b2 (set_sadr bus wr 0 m)). subst f. remember (S fuel) as f eqn:F. cbn [operations].
    unfold wr_reading at 1. change (I2cModel.t bus wr (put wr b2 (set_sadr bus wr 0 m))) with (t m). unfold mk_xfer. rewrite P. cbn [buffer length next].
    change (set_t bus wr (t m) (put wr b2 (set_sadr bus wr 0 m))) with (put wr b2 (set_sadr bus wr 0 m)).
    pose proof (read_all_ok wr wr_detaching (Z.to_nat (readSize (t m) - 1)) p b2 (acks_of own (2 * a + 1) ac) oq ((lg ++ [EStart]) ++ [EAddr (2 * a + 1) true]) (set_sadr bus wr 0 m) B P0 ltac:(change (I2cModel.mem bus wr (set_sadr bus wr 0 m)) with (mem m); lia) L2) as H.
    replace (S (Z.to_nat (readSize (t m) - 1))) with (Z.to_nat (readSize (t m))) in H by lia.
    destruct (recv (Z.to_nat (readSize (t m))) oq) as [[l ys] q]. destruct H as [b3 [mm [H3 [Z3 L3]]]]. rewrite H3. clear H3. cbn [obind fst snd]. subst f.
    destruct (oper_stop fuel b3 Deaf (acks_of own (2 * a + 1) ac) q (((lg ++ [EStart]) ++ [EAddr (2 * a + 1) true]) ++ l) (set_mem bus wr mm (set_sadr bus wr 0 m)) L3 A E0) as [m' [H4 [G1 [G2 [G3 [G4 G5]]]]]].
    rewrite H4. cbn [obind fst snd]. exists m', mm. split; [reflexivity|]. split; [exact Z3|]. unfold ended_with. cbn [r_acks r_out r_log r_err].
    split; [|split; [exact G2|split; [exact G3|split; [exact G4|exact G5]]]]. rewrite <- !app_assoc in G1. exact G1.
  - destruct H as [b2 [H2 L2]]. rewrite H2. clear H2. cbn [negb]. rewrite detach_put. eexists _, (mem m). split; [reflexivity|]. split; [reflexivity|].
    unfold ended_with, detach. cbn [r_acks r_out r_log r_err]. change (I2cModel.att bus wr (set_err bus wr _ (set_sadr bus wr (2 * a) m))) with (att m). rewrite A. change (I2cModel.sadr bus wr (set_sadr bus wr (2 * a) m)) with (2 * a). destruct (2 * a =? 0) eqn:Z1; [lia|].
    cbn [put I2cModel.w I2cModel.att I2cModel.err I2cModel.mem I2cModel.t set_err set_sadr]. rewrite <- app_assoc in L2. split; [exact L2|repeat split].
Qed.
Lemma sess_ok fuel b lg ws n wb rb a m : 0 < a < 128 -> bytes (outq b) -> bytes ws -> rest b (acks b) (outq b) lg -> att m = true -> err m = NoError ->
  address (t m) = 2 * a -> isReading (t m) = (writeSize (t m) =? 0) -> writeSize (t m) = zlen ws -> readSize (t m) = Z.of_nat n -> writeBuffer (t m) = wb -> readBuffer (t m) = rb ->
  match wb with Some p => zsub (mem m) p (zlen ws) = Some ws | None => ws = [] end -> buffer_ok rb (Z.of_nat n) (zlen (mem m)) ->
  exists m' mm x, let r := exchange own a ws n (acks b) (outq b) in
    sess (S (S (S (S fuel)))) (put wr b m) = Some m' /\ zwrite (mem m) (match rb with Some p => p | None => 0 end) (r_read r) = Some mm /\
    address x = 2 * a /\ readSize x = Z.of_nat n /\ writeSize x = zlen ws /\ readBuffer x = rb /\ writeBuffer x = wb /\ (n = O \/ ws = [] -> isReading x = (zlen ws =? 0)) /\ ended_with r lg x mm m'.
Proof.
  intros R B Bw S0 A E0 Ad Re Ws N Wb Rb Hw Hr. destruct (addr_sweep a ltac:(lia)) as [W1 [W2 [W3 [W4 [W5 W6]]]]].
  destruct ws as [|x0 ws0] eqn:Ews.
  - change (zlen (@nil Z)) with 0 in *. rewrite Ws, Z.eqb_refl in Re. destruct n as [|n].
    + (* ping *)
      remember (S (S (S fuel))) as f eqn:F. cbn [sessions]. destruct (start_ok b (acks b) (outq b) lg m (or_intror S0)) as [b1 [H1 L1]]. rewrite H1. cbn [negb]. clear H1.
      unfold wr_starting at 1. change (I2cModel.t bus wr (put wr b1 m)) with (t m). cbn [fst snd]. rewrite Re, Ad, N. change (Z.of_nat 0 =? 0) with true. cbv iota.
      rewrite W1. change (set_sadr bus wr (2 * a) (set_t bus wr (t m) (put wr b1 m))) with (put wr b1 (set_sadr bus wr (2 * a) m)).
      pose proof (write_ok wr wr_detaching (2 * a) b1 true (acks b) (outq b) (lg ++ [EStart]) (set_sadr bus wr (2 * a) m) ltac:(lia) L1) as H. unfold hit, used, word in H. cbn [exchange send].
      destruct (ack_of own (2 * a) (acks b)).
      * destruct H as [b2 [H2 L2]]. rewrite H2. clear H2. cbn [negb]. unfold after in L2. cbn [andb] in L2. rewrite W3 in L2.
        change (set_sadr bus wr 0 (put wr b2 (set_sadr bus wr (2 * a) m))) with (put wr b2 (set_sadr bus wr 0 m)). subst f.
        destruct (oper_stop (S (S fuel)) b2 _ _ _ _ (set_sadr bus wr 0 m) L2 A E0) as [m' [H4 [G1 [G2 [G3 [G4 G5]]]]]]. rewrite H4. cbn [obind fst snd].
        exists m', (mem m), (t m). split; [reflexivity|]. split; [reflexivity|]. do 5 (split; [assumption|]). split; [intros _; first [exact Re|rewrite Re, Ws; reflexivity]|]. unfold ended_with. cbn [r_acks r_out r_log r_err negb].
        split; [|split; [exact G2|split; [exact G3|split; [exact G4|exact G5]]]]. rewrite <- !app_assoc in G1. exact G1.
      * destruct H as [b2 [H2 L2]]. rewrite H2. clear H2. cbn [negb]. rewrite detach_put. eexists _, (mem m), (t m). split; [reflexivity|]. split; [reflexivity|]. do 5 (split; [assumption|]). split; [intros _; first [exact Re|rewrite Re, Ws; reflexivity]|].
        unfold ended_with, detach. cbn [r_acks r_out r_log r_err]. change (I2cModel.att bus wr (set_err bus wr _ (set_sadr bus wr (2 * a) m))) with (att m). rewrite A. change (I2cModel.sadr bus wr (set_sadr bus wr (2 * a) m)) with (2 * a). destruct (2 * a =? 0) eqn:Z1; [lia|].
        cbn [put I2cModel.w I2cModel.att I2cModel.err I2cModel.mem I2cModel.t set_err set_sadr]. rewrite <- app_assoc in L2. split; [exact L2|repeat split].
    + (* read only *)
      unfold buffer_ok in Hr. destruct rb as [p|]; [|lia].
      destruct (sess_reading (S fuel) b (acks b) (outq b) lg a p m R B (or_intror S0) A E0 Ad Re ltac:(lia) Rb ltac:(lia) ltac:(rewrite N; lia)) as [m' [mm [H1 [H2 H3]]]].
      rewrite N, Nat2Z.id in H2, H3. exists m', mm, (t m). cbn zeta. unfold exchange. split; [exact H1|]. split; [exact H2|]. do 5 (split; [assumption|]). split; [intros _; first [exact Re|rewrite Re, Ws; reflexivity]|]. exact H3.
  - rewrite <- Ews in *. assert (zlen ws > 0) as Wpos by (rewrite Ews, zlen_cons; pose proof (zlen_nonneg ws0); lia).
    destruct wb as [p|]; [|rewrite Ews in Hw; discriminate].
    assert (isReading (t m) = false) as Re' by (rewrite Re, Ws; apply Z.eqb_neq; lia).
    remember (S (S (S fuel))) as f eqn:F. cbn [sessions]. destruct (start_ok b (acks b) (outq b) lg m (or_intror S0)) as [b1 [H1 L1]]. rewrite H1. cbn [negb]. clear H1.
    unfold wr_starting at 1. change (I2cModel.t bus wr (put wr b1 m)) with (t m). cbn [fst snd]. rewrite Re', Ad, Ws. destruct (zlen ws =? 0) eqn:Z0; [lia|]. cbv iota.
    rewrite W1. change (set_sadr bus wr (2 * a) (set_t bus wr (t m) (put wr b1 m))) with (put wr b1 (set_sadr bus wr (2 * a) m)).
    pose proof (write_ok wr wr_detaching (2 * a) b1 true (acks b) (outq b) (lg ++ [EStart]) (set_sadr bus wr (2 * a) m) ltac:(lia) L1) as H. unfold hit, used, word in H.
    assert (exchange own a ws n (acks b) (outq b) =
      (let byte := 2 * a in
      if ack_of own byte (acks b) then
        let '(l, acks, ok) := send ws (acks_of own byte (acks b)) in
        if negb ok then Res acks (outq b) (EStart :: EAddr byte true :: l ++ [EStop]) [] DataNack
        else match n with
             | O => Res acks (outq b) (EStart :: EAddr byte true :: l ++ [EStop]) [] NoError
             | _ => let r := reading_part own a n acks (outq b) in
                    Res (r_acks r) (r_out r) (EStart :: EAddr byte true :: l ++ r_log r) (r_read r) (r_err r)
             end
      else Res (acks_of own byte (acks b)) (outq b) [EStart; EAddr byte false; EStop] [] AddressNack)) as EX by (rewrite Ews; reflexivity).
    cbn zeta in EX. rewrite EX. clear EX. destruct (ack_of own (2 * a) (acks b)).
    + destruct H as [b2 [H2 L2]]. rewrite H2. clear H2. cbn [negb]. unfold after in L2. cbn [andb] in L2. rewrite W3 in L2.
      change (set_sadr bus wr 0 (put wr b2 (set_sadr bus wr (2 * a) m))) with (put wr b2 (set_sadr bus wr 0 m)). subst f. remember (S (S fuel)) as f eqn:F. cbn [operations].
      unfold wr_writing at 1. change (I2cModel.t bus wr (put wr b2 (set_sadr bus wr 0 m))) with (t m). unfold mk_xfer. rewrite Wb, N. cbn [buffer length next].
      rewrite Ws. set (x := Wr (address (t m)) (state (t m)) (Z.of_nat n) (zlen ws) (readBuffer (t m)) (Some p) (negb (Z.of_nat n =? 0))).
      change (set_t bus wr x (put wr b2 (set_sadr bus wr 0 m))) with (put wr b2 (set_t bus wr x (set_sadr bus wr 0 m))).
      destruct (zsub_inv _ _ _ _ Hw) as [I1 [I2 [I3 I4]]].
      assert (0 <= p /\ p + zlen ws <= zlen (mem m)) as [_ I5]. { unfold zsub in Hw. destruct ((0 <=? p) && (0 <=? zlen ws) && (p + zlen ws <=? zlen (mem m))) eqn:C; [|discriminate]. lia. }
      pose proof (write_all_ok wr wr_detaching ws (firstn (Z.to_nat p) (mem m)) (skipn (Z.to_nat (p + zlen ws)) (mem m)) p b2 (acks_of own (2 * a) (acks b)) (outq b) ((lg ++ [EStart]) ++ [EAddr (2 * a) true]) (set_t bus wr x (set_sadr bus wr 0 m)) Bw I4 ltac:(apply firstn_zlen; lia) eq_refl L2) as H.
      replace (Z.to_nat (zlen ws)) with (List.length ws) by (unfold zlen; lia).
      destruct (send ws (acks_of own (2 * a) (acks b))) as [[l ac'] ok]. destruct H as [b3 H]. destruct ok; cbn [negb].
      * destruct H as [H3 L3]. rewrite H3. clear H3. cbn [obind fst snd]. destruct n as [|n].
        -- change (Z.of_nat 0 =? 0) with true. cbn [negb]. subst f.
           destruct (oper_stop (S fuel) b3 _ _ _ _ (set_t bus wr x (set_sadr bus wr 0 m)) L3 A E0) as [m' [H4 [G1 [G2 [G3 [G4 G5]]]]]]. rewrite H4. cbn [obind fst snd].
           exists m', (mem m), x. split; [reflexivity|]. split; [reflexivity|]. do 5 (split; [first [assumption|reflexivity]|]). split; [intros [On|Ow]; [first [discriminate On|reflexivity|unfold x; cbn [isReading]; rewrite On; reflexivity|exact Re']|rewrite Ow in Ews; discriminate Ews]|]. unfold ended_with. cbn [r_acks r_out r_log r_err].
           split; [|split; [exact G2|split; [exact G3|split; [exact G4|exact G5]]]]. rewrite <- !app_assoc in G1. exact G1.
        -- destruct (Z.of_nat (S n) =? 0) eqn:Z1; [lia|]. cbn [negb]. subst f. cbn [operations obind fst snd].
           unfold buffer_ok in Hr. destruct rb as [p2|]; [|lia].
           destruct (sess_reading fuel b3 ac' (outq b) (((lg ++ [EStart]) ++ [EAddr (2 * a) true]) ++ l) a p2 (set_t bus wr x (set_sadr bus wr 0 m)) R B (or_introl (ex_intro (fun q => lowbus b3 true q ac' (outq b) (((lg ++ [EStart]) ++ [EAddr (2 * a) true]) ++ l)) (Recv false []) L3)) A E0 Ad eq_refl ltac:(change (0 < Z.of_nat (S n)); lia) Rb ltac:(lia) ltac:(change (p2 + Z.of_nat (S n) <= zlen (mem m)); lia)) as [m' [mm [H4 [H5 H6]]]].
           change (readSize (t (set_t bus wr x (set_sadr bus wr 0 m)))) with (Z.of_nat (S n)) in H5, H6. rewrite Nat2Z.id in H5, H6.
           rewrite H4. exists m', mm, x. split; [reflexivity|]. split; [exact H5|]. do 5 (split; [first [assumption|reflexivity]|]). split; [intros [On|Ow]; [first [discriminate On|reflexivity|unfold x; cbn [isReading]; rewrite On; reflexivity|exact Re']|rewrite Ow in Ews; discriminate Ews]|].
           destruct H6 as [G1 G2]. split; [|exact G2]. cbn zeta. cbn [r_acks r_out r_log]. rewrite <- !app_assoc in G1. exact G1.
      * destruct H as [H3 L3]. rewrite H3. clear H3. cbn [obind fst snd]. rewrite detach_put. eexists _, (mem m), x. split; [reflexivity|]. split; [reflexivity|]. do 5 (split; [first [assumption|reflexivity]|]). split; [intros [On|Ow]; [first [discriminate On|reflexivity|unfold x; cbn [isReading]; rewrite On; reflexivity|exact Re']|rewrite Ow in Ews; discriminate Ews]|].
        unfold ended_with, detach. cbn [r_acks r_out r_log r_err]. change (I2cModel.att bus wr (set_err bus wr _ (set_t bus wr x (set_sadr bus wr 0 m)))) with (att m). rewrite A.
        cbn [put I2cModel.w I2cModel.att I2cModel.err I2cModel.mem I2cModel.t set_err set_sadr set_t]. rewrite <- !app_assoc in L3. split; [exact L3|repeat split].
    + destruct H as [b2 [H2 L2]]. rewrite H2. clear H2. cbn [negb]. rewrite detach_put. eexists _, (mem m), (t m). split; [reflexivity|]. split; [reflexivity|]. do 5 (split; [assumption|]). split; [intros _; first [exact Re'|exact Re|rewrite Re, Ws; reflexivity]|].
      unfold ended_with, detach. cbn [r_acks r_out r_log r_err]. change (I2cModel.att bus wr (set_err bus wr _ (set_sadr bus wr (2 * a) m))) with (att m). rewrite A. change (I2cModel.sadr bus wr (set_sadr bus wr (2 * a) m)) with (2 * a). destruct (2 * a =? 0) eqn:Z1; [lia|].
      cbn [put I2cModel.w I2cModel.att I2cModel.err I2cModel.mem I2cModel.t set_err set_sadr]. rewrite <- app_assoc in L2. split; [exact L2|repeat split].
Qed.
End OnBus.
Lemma recv_len : forall n q, List.length (snd (fst (recv n q))) = n.
Proof. induction n as [|n IH]; intro q; [reflexivity|]. cbn [recv]. specialize (IH (tl q)). destruct (recv n (tl q)) as [[l ys] q']. cbn [fst snd List.length] in *. lia. Qed.
Lemma reading_len own a n ac q : (List.length (r_read (reading_part own a n ac q)) <= n)%nat.
Proof. unfold reading_part. destruct (ack_of own _ _); [|cbn; lia]. pose proof (recv_len n q) as H. destruct (recv n q) as [[l ys] q']. cbn [r_read fst snd] in *. lia. Qed.
Lemma exchange_len own a ws n ac q : (List.length (r_read (exchange own a ws n ac q)) <= n)%nat.
Proof.
  unfold exchange. pose proof (fun ac => reading_len own a n ac q) as R.
  destruct ws as [|x ws]; destruct n as [|n]; try apply R; (destruct (ack_of own _ _); [|cbn; lia]); destruct (send _ _) as [[l ac'] ok]; destruct ok; cbn [negb]; try (cbn; lia); apply R.
Qed.
Lemma configured_busy a wb ws rb n x : configured a wb ws rb n x -> state x <> TBusy /\ address x = 2 * a /\ readSize x = Z.of_nat n /\ writeSize x = zlen ws /\ readBuffer x = rb /\ writeBuffer x = wb /\ isReading x = (zlen ws =? 0).
Proof. intros [x0 [S0 [A0 ->]]]. unfold wr_configure. destruct (state x0) eqn:E; [|congruence|]; cbn [snd state address readSize writeSize readBuffer writeBuffer isReading]; (split; [discriminate|]); repeat split; assumption. Qed.
Lemma configured_intro a wb ws rb n x : state x <> TBusy -> address x = 2 * a -> readSize x = Z.of_nat n -> writeSize x = zlen ws -> readBuffer x = rb -> writeBuffer x = wb -> isReading x = (zlen ws =? 0) -> configured a wb ws rb n x.
Proof.
  intros S0 A0 R0 W0 RB WB IR. exists x. split; [exact S0|]. split; [exact A0|]. destruct x as [ad st rs ws' rb' wb' ir]. cbn [state address readSize writeSize readBuffer writeBuffer isReading] in *. subst. unfold wr_configure. cbn [snd state address readSize writeSize readBuffer writeBuffer isReading]. destruct st; [reflexivity|congruence|reflexivity].
Qed.
Lemma exchange_run own a wb ws rb n fuel (m : M bus wr) : 0 < a < 128 -> all_bytes ws -> all_bytes (outq (w _ _ m)) -> configured a wb ws rb n (t _ _ m) -> buffers wb ws rb n (mem _ _ m) ->
  att _ _ m = false -> free (w _ _ m) -> patient (w _ _ m) ->
  exists m', start bus (set_scl own) set_sda get_scl get_sda tick wr wr_attaching wr_starting wr_writing wr_reading wr_detaching (S (S (S (S fuel)))) m = Some (true, m') /\
    let r := exchange own a ws n (acks (w _ _ m)) (outq (w _ _ m)) in
    free (w _ _ m') /\ patient (w _ _ m') /\ log (w _ _ m') = log (w _ _ m) ++ r_log r /\ acks (w _ _ m') = r_acks r /\ outq (w _ _ m') = r_out r /\
    err _ _ m' = r_err r /\ mem _ _ m' = stored rb (r_read r) (mem _ _ m) /\ att _ _ m' = false /\
    state (t _ _ m') = (match r_err r with NoError => TIdle | _ => TError end) /\ (n = O \/ ws = [] -> configured a wb ws rb n (t _ _ m')).
Proof.
  intros R Bw Bq C [Hw Hr] A Fr Pa. destruct (configured_busy _ _ _ _ _ _ C) as [S0 [Ad [Rs [Ws [Rb [Wb Re]]]]]].
  unfold start. rewrite A. unfold wr_attaching at 1.
  set (x := Wr (address (t _ _ m)) TBusy (readSize (t _ _ m)) (writeSize (t _ _ m)) (readBuffer (t _ _ m)) (writeBuffer (t _ _ m)) (isReading (t _ _ m))).
  replace (match state (t _ _ m) with TBusy => (false, t _ _ m) | _ => (true, x) end) with (true, x) by (destruct (state (t _ _ m)); [reflexivity|congruence|reflexivity]). cbn [negb].
  change (Mk bus wr (w _ _ (set_t _ _ x m)) x true NoError (sadr _ _ (set_t _ _ x m)) (mem _ _ (set_t _ _ x m))) with (put wr (w _ _ m) (Mk bus wr (w _ _ m) x true NoError (sadr _ _ m) (mem _ _ m))).
  assert (rest (w _ _ m) (acks (w _ _ m)) (outq (w _ _ m)) (log (w _ _ m))) as Re0.
  { destruct Fr as [F1 [F2 [F3 [F4 F5]]]]. destruct Pa as [_ P]. destruct (w _ _ m) as [mc da sd h p ac st oq lg]. cbn [mscl msda ssda hold ph acks strs outq log] in *. subst. exists st. split; [reflexivity|exact P]. }
  destruct (sess_ok own fuel (w _ _ m) (log (w _ _ m)) ws n wb rb a (Mk bus wr (w _ _ m) x true NoError (sadr _ _ m) (mem _ _ m)) R Bq Bw Re0 eq_refl eq_refl Ad ltac:(cbn; rewrite Ws; exact Re) Ws Rs Wb Rb Hw Hr)
    as [m' [mm [x' [H1 [H2 [X1 [X2 [X3 [X4 [X5 [X6 H3]]]]]]]]]]].
  rewrite H1. cbn [obind]. exists m'. split; [reflexivity|]. cbn zeta. pose proof (exchange_len own a ws n (acks (w _ _ m)) (outq (w _ _ m))) as Len. set (r := exchange own a ws n (acks (w _ _ m)) (outq (w _ _ m))) in *.
  destruct H3 as [[st [H3 F]] [G1 [G2 [G3 G4]]]]. rewrite H3. cbn [acks outq log]. change (mem _ _ (Mk bus wr (w _ _ m) x true NoError (sadr _ _ m) (mem _ _ m))) with (mem _ _ m) in H2.
  split; [repeat split|]. split; [split; [cbn [hold]; lia|exact F]|]. split; [reflexivity|]. split; [reflexivity|]. split; [reflexivity|]. split; [exact G2|].
  split; [|split; [exact G1|split]].
  - rewrite G3. unfold stored. unfold buffer_ok in Hr. destruct rb as [p|].
    + rewrite zwrite_ok in H2 by (unfold zlen in *; lia). congruence.
    + destruct (r_read r) as [|y ys]; [cbn in H2; congruence|]. cbn [List.length] in Len. lia.
  - rewrite G4. destruct (r_err r); reflexivity.
  - intro O. apply configured_intro; rewrite G4; try assumption; try (exact (X6 O)). destruct (r_err r); discriminate.
Qed.
Lemma all_bytes_tl q : all_bytes q -> all_bytes (tl q).
Proof. intro F. destruct F; [constructor|assumption]. Qed.
Lemma recv_out : forall n q, all_bytes q -> all_bytes (snd (recv n q)).
Proof. induction n as [|n IH]; intros q F; [exact F|]. cbn [recv]. specialize (IH (tl q) (all_bytes_tl q F)). destruct (recv n (tl q)) as [[l ys] q']. exact IH. Qed.
Lemma reading_out own a n ac q : all_bytes q -> all_bytes (r_out (reading_part own a n ac q)).
Proof. intro F. unfold reading_part. destruct (ack_of own _ _); [|exact F]. pose proof (recv_out n q F) as H. destruct (recv n q) as [[l ys] q']. exact H. Qed.
Lemma exchange_out own a ws n ac q : all_bytes q -> all_bytes (r_out (exchange own a ws n ac q)).
Proof.
  intro F. unfold exchange. pose proof (fun ac => reading_out own a n ac q F) as R.
  destruct ws as [|x ws]; destruct n as [|n]; try apply R; (destruct (ack_of own _ _); [|exact F]); destruct (send _ _) as [[l ac'] ok]; destruct ok; cbn [negb]; try exact F; apply R.
Qed.
