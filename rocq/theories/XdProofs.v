From Coq Require Import Permutation.
From Verif Require Import Base XpccModel XdModel XdSpec.

Lemma count_snoc f t e : count f (t ++ [e]) = count f t + (if f e then 1 else 0).
Proof. unfold count. rewrite filter_app, zlen_app. cbn [filter]. destruct (f e); rewrite ?zlen_cons, zlen_nil; lia. Qed.
Lemma count_nonneg f t : 0 <= count f t. Proof. apply zlen_nonneg. Qed.
Lemma headerFits_ok h0 h : headerFits h0 h = true -> h_src h = h_dest h0 /\ h_dest h = h_src h0 /\ h_pid h = h_pid h0.
Proof. unfold headerFits. lia. Qed.

Definition good (t : list dev) (n : Z) (e : dentry) : Prop :=
  e_key e < n /\ In (TAdd (e_key e) (e_cb e) (e_header e) (e_payload e)) t /\ calls t (e_key e) = 0 /\
  match e_state e with
  | TransmissionPending => sends t (e_key e) = 0 /\ e_tries e = 0
  | WaitForACK => sends t (e_key e) = e_tries e + 1 /\ 0 <= e_tries e <= 2
  | WaitForResponse => True
  end.
Definition dinv (t : list dev) (l : list dentry) (n : Z) : Prop :=
  ok_trace t /\ NoDup (map e_key l) /\ Forall (good t n) l /\ forall k, n <= k -> adds t k = 0 /\ sends t k = 0 /\ calls t k = 0.
Lemma dinv_perm t l l' n : Permutation l l' -> dinv t l n -> dinv t l' n.
Proof.
  intros P (O & D & F & N). split; [exact O|]. split; [apply (Permutation_NoDup (Permutation_map e_key P) D)|]. split; [|exact N].
  apply Forall_forall. intros x X. rewrite Forall_forall in F. apply F. apply (Permutation_in _ (Permutation_sym P) X).
Qed.
Lemma dinv_tail t e l n : dinv t (e :: l) n -> dinv t l n.
Proof. intros (O & D & F & N). inversion D; subst. inversion F; subst. split; [exact O|]. split; [assumption|]. split; [assumption|exact N]. Qed.
Lemma dinv_mid t a e b n : dinv t (a ++ e :: b) n -> dinv t (e :: a ++ b) n.
Proof. apply dinv_perm. apply Permutation_sym, Permutation_middle. Qed.
Lemma dinv_mid' t a e b n : dinv t (e :: a ++ b) n -> dinv t (a ++ e :: b) n.
Proof. apply dinv_perm. apply Permutation_middle. Qed.
Lemma dinv_head t e l n : dinv t (e :: l) n -> good t n e. Proof. intros (_ & _ & F & _). inversion F; assumption. Qed.

Definition plain (e : dev) : Prop := match e with TRx _ _ | TAck _ | TDeliver _ _ => True | _ => False end.
Lemma good_other t n e x : good t n e -> match x with TSend k _ _ | TCall k _ _ => k <> e_key e | _ => True end -> good (t ++ [x]) n e.
Proof.
  intros (A & B & C & D) X. split; [exact A|]. split; [apply in_or_app; left; exact B|]. unfold calls, sends in *. rewrite !count_snoc.
  assert (match x with TCall j _ _ => j =? e_key e | _ => false end = false) as -> by (destruct x; try reflexivity; lia).
  assert (match x with TSend j _ _ => j =? e_key e | _ => false end = false) as -> by (destruct x; try reflexivity; lia).
  split; [lia|]. destruct (e_state e); lia.
Qed.
Lemma dinv_plain t l n x : dinv t l n -> plain x -> allowed t x -> dinv (t ++ [x]) l n.
Proof.
  intros (O & D & F & N) P A. split; [apply ok_snoc; assumption|]. split; [exact D|]. split.
  - revert F. apply Forall_impl. intros e G. apply good_other; [exact G|]. destruct x; try exact I; destruct P.
  - intros k K. destruct (N k K) as (N1 & N2 & N3). unfold adds, sends, calls in *. rewrite !count_snoc. destruct x; try destruct P; lia.
Qed.
Lemma dinv_add t l n cb h p : dinv t l n -> dinv (t ++ [TAdd n cb h p]) (mkE n cb h p TransmissionPending 0 :: l) (n + 1).
Proof.
  intros (O & D & F & N). destruct (N n ltac:(lia)) as (N1 & N2 & N3). split; [apply ok_snoc; [exact O|exact N1]|]. split; [|split].
  - cbn [map e_key]. apply NoDup_cons; [|exact D]. intro I. apply in_map_iff in I. destruct I as (x & E & X). rewrite Forall_forall in F. destruct (F x X) as (A & _). lia.
  - apply Forall_cons.
    + split; [cbn; lia|]. split; [apply in_or_app; right; left; reflexivity|]. cbn [e_key e_state e_tries]. unfold sends, calls in *. rewrite !count_snoc. lia.
    + revert F. apply Forall_impl. intros e G. assert (good t (n + 1) e) as G'. { destruct G as (A & B & C). split; [lia|]. split; assumption. } apply good_other; [exact G'|exact I].
  - intros k K. destruct (N k ltac:(lia)) as (M1 & M2 & M3). unfold adds, sends, calls in *. rewrite !count_snoc. assert ((n =? k) = false) as -> by lia. lia.
Qed.
Lemma dinv_call t e l n h p : dinv t (e :: l) n -> e_cb e = true ->
  ((answers (e_header e) h /\ (In (TRx h p) t \/ exists j cb, In (TAdd j cb h p) t)) \/ (h = timeoutHeader (e_header e) /\ p = e_payload e /\ sends t (e_key e) = 3)) ->
  dinv (t ++ [TCall (e_key e) h p]) l n.
Proof.
  intros I C Q. pose proof (dinv_head _ _ _ _ I) as (G1 & G2 & G3 & _). destruct I as (O & D & F & N). cbn [map] in D. inversion D as [|? ? D1 D2]; subst. inversion F as [|? ? _ F2]; subst.
  split; [apply ok_snoc; [exact O|]|split; [exact D2|split]].
  - cbn [allowed]. exists (e_header e), (e_payload e). rewrite C in G2. split; [exact G2|]. split; [exact G3|exact Q].
  - apply Forall_forall. intros x X. rewrite Forall_forall in F2. apply good_other; [exact (F2 x X)|]. intro E. apply D1. rewrite E. apply in_map. exact X.
  - intros k K. destruct (N k K) as (N1 & N2 & N3). unfold adds, sends, calls in *. rewrite !count_snoc. assert ((e_key e =? k) = false) as -> by lia. lia.
Qed.
Lemma dinv_send t e l n : dinv t (e :: l) n -> sends t (e_key e) < 3 ->
  dinv (t ++ [TSend (e_key e) (e_header e) (e_payload e)]) l n /\
  forall st tr, match st with TransmissionPending => False | WaitForACK => sends t (e_key e) = tr /\ 0 <= tr <= 2 | _ => True end ->
    dinv (t ++ [TSend (e_key e) (e_header e) (e_payload e)]) (mkE (e_key e) (e_cb e) (e_header e) (e_payload e) st tr :: l) n.
Proof.
  intros I S3. pose proof (dinv_head _ _ _ _ I) as (G1 & G2 & G3 & _). destruct I as (O & D & F & N). cbn [map] in D. inversion D as [|? ? D1 D2]; subst. inversion F as [|? ? _ F2]; subst.
  assert (ok_trace (t ++ [TSend (e_key e) (e_header e) (e_payload e)])) as Ok. { apply ok_snoc; [exact O|]. cbn [allowed]. split; [exists (e_cb e); exact G2|]. split; [exact S3|exact G3]. }
  assert (Forall (good (t ++ [TSend (e_key e) (e_header e) (e_payload e)]) n) l) as Fl.
  { apply Forall_forall. intros x X. rewrite Forall_forall in F2. apply good_other; [exact (F2 x X)|]. intro E. apply D1. rewrite E. apply in_map. exact X. }
  assert (forall k, n <= k -> adds (t ++ [TSend (e_key e) (e_header e) (e_payload e)]) k = 0 /\ sends (t ++ [TSend (e_key e) (e_header e) (e_payload e)]) k = 0 /\ calls (t ++ [TSend (e_key e) (e_header e) (e_payload e)]) k = 0) as Nk.
  { intros k K. destruct (N k K) as (N1 & N2 & N3). unfold adds, sends, calls in *. rewrite !count_snoc. assert ((e_key e =? k) = false) as -> by lia. lia. }
  split; [split; [exact Ok|]; split; [exact D2|]; split; [exact Fl|exact Nk]|].
  intros st tr Q. split; [exact Ok|]. split; [cbn [map e_key]; apply NoDup_cons; assumption|]. split; [|exact Nk]. apply Forall_cons; [|exact Fl].
  split; [exact G1|]. split; [apply in_or_app; left; exact G2|]. cbn [e_key e_state e_tries]. unfold sends, calls in *. rewrite !count_snoc. rewrite Z.eqb_refl.
  split; [lia|]. destruct st; lia || exact Logic.I.
Qed.
(* changing the state only *)
Lemma dinv_wait t e l n : dinv t (e :: l) n -> dinv t (mkE (e_key e) (e_cb e) (e_header e) (e_payload e) WaitForResponse (e_tries e) :: l) n.
Proof.
  intro I. pose proof (dinv_head _ _ _ _ I) as (G1 & G2 & G3 & _). destruct I as (O & D & F & N). inversion F as [|? ? _ F2]; subst. split; [exact O|]. split; [exact D|]. split; [|exact N].
  apply Forall_cons; [|exact F2]. split; [exact G1|]. split; [exact G2|]. split; [exact G3|exact I].
Qed.
Lemma dinv_adds l : forall t f m b n f' b' n' ev, d_adds f b n l = (f', b', n', ev) -> dinv t (m ++ f ++ b) n -> dinv (t ++ ev) (m ++ f' ++ b') n'.
Proof.
  induction l as [|x l IH]; intros t f m b n f' b' n' ev E I; cbn [d_adds] in E.
  - injection E as <- <- <- <-. rewrite app_nil_r. exact I.
  - assert (forall cb h p f1 b1, Permutation (mkE n cb h p TransmissionPending 0 :: f ++ b) (f1 ++ b1) ->
      (let '(f, b, k, t) := d_adds f1 b1 (n + 1) l in (f, b, k, TAdd n cb h p :: t)) = (f', b', n', ev) -> dinv (t ++ ev) (m ++ f' ++ b') n') as Go.
    { intros cb h p f1 b1 P Ed. destruct (d_adds f1 b1 (n + 1) l) as [[[fa ba] k] ta] eqn:Ea. injection Ed as <- <- <- <-.
      replace (t ++ TAdd n cb h p :: ta) with ((t ++ [TAdd n cb h p]) ++ ta) by (rewrite <- app_assoc; reflexivity).
      apply (IH _ f1 m b1 (n + 1) _ _ _ _ Ea). apply (dinv_perm _ (mkE n cb h p TransmissionPending 0 :: m ++ f ++ b)); [|apply dinv_add; exact I].
      eapply Permutation_trans; [apply Permutation_middle|]. apply Permutation_app_head. exact P. }
    destruct x as [h p|h p|h p].
    + apply (Go false h p f (b ++ [mkE n false h p TransmissionPending 0])); [|exact E]. rewrite app_assoc. apply Permutation_cons_append.
    + apply (Go true h p f (b ++ [mkE n true h p TransmissionPending 0])); [|exact E]. rewrite app_assoc. apply Permutation_cons_append.
    + apply (Go false h p (mkE n false h p TransmissionPending 0 :: f) b); [|exact E]. apply Permutation_refl.
Qed.

Lemma d_fit_ok l h a e b : d_fit l h = Some (a, e, b) -> l = a ++ e :: b /\ headerFits (e_header e) h = true.
Proof.
  revert a e b. induction l as [|x l IH]; intros a e b E; cbn [d_fit] in E; [discriminate|]. destruct (headerFits (e_header x) h) eqn:H.
  - injection E as <- <- <-. split; [reflexivity|exact H].
  - destruct (d_fit l h) as [[[a' e'] b']|] eqn:D; [|discriminate]. injection E as <- <- <-. destruct (IH _ _ _ eq_refl) as [-> Q]. split; [reflexivity|exact Q].
Qed.
Lemma d_request_ok l h a e b : d_request l h = Some (a, e, b) -> l = a ++ e :: b /\ headerFits (e_header e) h = true /\ e_state e <> TransmissionPending.
Proof.
  revert a e b. induction l as [|x l IH]; intros a e b E; cbn [d_request] in E; [discriminate|].
  destruct (xtype_eqb (h_type (e_header x)) XRequest && match e_state x with TransmissionPending => false | _ => true end && headerFits (e_header x) h) eqn:H.
  - injection E as <- <- <-. apply andb_prop in H. destruct H as [H1 H2]. apply andb_prop in H1. destruct H1 as [_ H1]. split; [reflexivity|]. split; [exact H2|]. intro K. rewrite K in H1. discriminate.
  - destruct (d_request l h) as [[[a' e'] b']|] eqn:D; [|discriminate]. injection E as <- <- <-. destruct (IH _ _ _ eq_refl) as [-> Q]. split; [reflexivity|exact Q].
Qed.

Section Board.
Variable E : Type.
Variable deliver : E -> xheader -> list Z -> E * bool * list addition.
Variable available : E -> Z -> bool.
Variable callback : E -> dentry -> xheader -> list Z -> E * list addition.
Variable expired : E -> dentry -> E * bool.
Definition sinv (t : list dev) (s : dstate E) : Prop := dinv t (d_entries E s) (d_next E s).

Lemma handlePacket_inv t s h p s' t' r : sinv t s -> In (TRx h p) t -> d_handlePacket E callback s h p = (s', t', r) -> sinv (t ++ t') s'.
Proof.
  intros I X Ed. unfold d_handlePacket in Ed. destruct (d_fit (d_entries E s) h) as [[[a e] b]|] eqn:Df; [|injection Ed as <- <- <-; rewrite app_nil_r; exact I].
  destruct (d_fit_ok _ _ _ _ _ Df) as [El Fi]. unfold sinv in *. rewrite El in I. apply dinv_mid in I.
  assert (sinv (t ++ []) (mkD E (a ++ b) (d_next E s) (d_env E s))) as Rm by (rewrite app_nil_r; apply dinv_tail in I; exact I).
  destruct (e_cb e) eqn:Cb; cbn [negb] in Ed; [|injection Ed as <- <- <-; exact Rm].
  assert (h_type h <> XRequest -> (if negb (h_ack h) then let (v, l) := callback (d_env E s) e h p in let '(a, b, n, t) := d_adds a b (d_next E s) l in (mkD E (a ++ b) n v, TCall (e_key e) h p :: t, true)
      else (mkD E (a ++ b) (d_next E s) (d_env E s), [], false)) = (s', t', r) -> dinv (t ++ t') (d_entries E s') (d_next E s')) as Resp.
  { intros Nr. destruct (h_ack h); cbn [negb]; [intro K; injection K as <- <- <-; exact Rm|]. destruct (callback (d_env E s) e h p) as [v l]. destruct (d_adds a b (d_next E s) l) as [[[fa ba] n] ta] eqn:Ea.
    intro K. injection K as <- <- <-. cbn [d_entries d_next]. replace (t ++ TCall (e_key e) h p :: ta) with ((t ++ [TCall (e_key e) h p]) ++ ta) by (rewrite <- app_assoc; reflexivity).
    apply (dinv_adds _ _ a [] b _ _ _ _ _ Ea). cbn [app]. apply dinv_call; [exact I|exact Cb|]. left. split; [|left; exact X]. split; [exact Nr|]. apply headerFits_ok. exact Fi. }
  destruct (h_type h) eqn:Th; try (apply Resp; [congruence|exact Ed]).
  destruct (h_ack h); injection Ed as <- <- <-; rewrite app_nil_r; [|rewrite El; apply dinv_mid'; exact I]. cbn [d_entries d_next]. apply dinv_mid'. rewrite <- Cb. apply dinv_wait. exact I.
Qed.
Lemma receive_inv t s h p s' t' : sinv t s -> d_receive E deliver available callback s h p = (s', t') -> sinv (t ++ t') s'.
Proof.
  intros I Ed. unfold d_receive in Ed. assert (sinv (t ++ [TRx h p]) s) as I1 by (apply dinv_plain; [exact I|exact Logic.I|exact Logic.I]).
  assert (In (TRx h p) (t ++ [TRx h p])) as X by (apply in_or_app; right; left; reflexivity).
  assert (forall u s, sinv u s -> In (TRx h p) u -> h_ack h = false -> h_dest h <> 0 -> sinv (u ++ [TAck (ackHeader h)]) s) as Ack.
  { intros u s0 Iu Xu A D. apply dinv_plain; [exact Iu|exact Logic.I|]. cbn [allowed]. exists h, p. split; [exact Xu|]. split; [exact A|]. split; [exact D|reflexivity]. }
  destruct (xtype_eqb (h_type h) XRequest && negb (h_ack h)) eqn:Q.
  - destruct (deliver (d_env E s) h p) as [[v ok] l]. destruct (d_adds [] (d_entries E s) (d_next E s) l) as [[[fa ba] n] ta] eqn:Ea. injection Ed as <- <-.
    assert (sinv ((t ++ [TRx h p]) ++ [TDeliver h p]) s) as I2 by (apply dinv_plain; [exact I1|exact Logic.I|exact Logic.I]).
    pose proof (dinv_adds _ _ [] [] _ _ _ _ _ _ Ea I2) as I3. cbn [app] in I3.
    assert (sinv (((t ++ [TRx h p]) ++ [TDeliver h p]) ++ ta) (mkD E (fa ++ ba) n v)) as I4 by exact I3.
    replace (t ++ TRx h p :: TDeliver h p :: ta ++ (if ok && negb (h_dest h =? 0) then [TAck (ackHeader h)] else [])) with
      ((((t ++ [TRx h p]) ++ [TDeliver h p]) ++ ta) ++ (if ok && negb (h_dest h =? 0) then [TAck (ackHeader h)] else [])) by (rewrite <- !app_assoc; reflexivity).
    destruct (ok && negb (h_dest h =? 0)) eqn:Q2; [|rewrite app_nil_r; exact I4]. apply Ack; [exact I4| |destruct (h_ack h); [rewrite andb_false_r in Q; discriminate|reflexivity]|lia].
    apply in_or_app. left. apply in_or_app. left. exact X.
  - destruct (d_handlePacket E callback s h p) as [[s1 t1] r] eqn:Eh. injection Ed as <- <-. pose proof (handlePacket_inv _ _ _ _ _ _ _ I1 X Eh) as I2.
    match goal with |- sinv (t ++ TRx h p :: t1 ++ ?z) _ => replace (t ++ TRx h p :: t1 ++ z) with (((t ++ [TRx h p]) ++ t1) ++ z) by (rewrite <- !app_assoc; reflexivity) end.
    destruct (negb (h_ack h) && negb (h_dest h =? 0) && (r || available (d_env E s1) (h_dest h))) eqn:Q2; [|rewrite app_nil_r; exact I2].
    apply Ack; [exact I2|apply in_or_app; left; exact X|destruct (h_ack h); [discriminate|reflexivity]|lia].
Qed.

Lemma inner_inv t f e b n v f' b' n' v' t' : dinv t (f ++ e :: b) n -> e_state e = TransmissionPending -> d_inner E deliver callback f e b n v = (f', b', n', v', t') -> dinv (t ++ t') (f' ++ b') n'.
Proof.
  intros I St Ed. apply dinv_mid in I. pose proof (dinv_head _ _ _ _ I) as (_ & Ad & _ & G). rewrite St in G. destruct (dinv_send _ _ _ _ I) as [S1 S2]; [lia|]. unfold d_inner in Ed.
  assert (h_type (e_header e) <> XRequest -> (match d_request b (e_header e) with
      | None => (f, b, n, v, [TSend (e_key e) (e_header e) (e_payload e)])
      | Some (b1, r, b2) =>
          if e_cb r then
            let (v, l) := callback v r (e_header e) (e_payload e) in
            let '(f, b2, n, t) := d_adds f b2 n l in
            (f, b1 ++ b2, n, v, TSend (e_key e) (e_header e) (e_payload e) :: TCall (e_key r) (e_header e) (e_payload e) :: t)
          else (f, b1 ++ b2, n, v, [TSend (e_key e) (e_header e) (e_payload e)])
      end) = (f', b', n', v', t') -> dinv (t ++ t') (f' ++ b') n') as Resp.
  { intros Nr. destruct (d_request b (e_header e)) as [[[b1 r] b2]|] eqn:Dr; [|intro K; injection K as <- <- <- <- <-; exact S1].
    destruct (d_request_ok _ _ _ _ _ Dr) as (Eb & Fi & _). rewrite Eb, app_assoc in S1. apply dinv_mid in S1. destruct (e_cb r) eqn:Cb.
    - destruct (callback v r (e_header e) (e_payload e)) as [v1 l]. destruct (d_adds f b2 n l) as [[[fa ba] n1] ta] eqn:Ea. intro K. injection K as <- <- <- <- <-.
      replace (t ++ TSend (e_key e) (e_header e) (e_payload e) :: TCall (e_key r) (e_header e) (e_payload e) :: ta) with
        (((t ++ [TSend (e_key e) (e_header e) (e_payload e)]) ++ [TCall (e_key r) (e_header e) (e_payload e)]) ++ ta) by (rewrite <- !app_assoc; reflexivity).
      apply (dinv_perm _ (b1 ++ fa ++ ba)). { rewrite !app_assoc. apply Permutation_app_tail. apply Permutation_app_comm. }
      apply (dinv_adds _ _ f b1 b2 _ _ _ _ _ Ea). apply (dinv_perm _ ((f ++ b1) ++ b2)). { rewrite !app_assoc. apply Permutation_app_tail. apply Permutation_app_comm. }
      apply dinv_call; [exact S1|exact Cb|]. left. split; [split; [exact Nr|apply headerFits_ok; exact Fi]|]. right. exists (e_key e), (e_cb e). apply in_or_app. left. exact Ad.
    - intro K. injection K as <- <- <- <- <-. rewrite app_assoc. apply dinv_tail in S1. exact S1. }
  destruct (h_type (e_header e)) eqn:Th; try (apply Resp; [congruence|exact Ed]). clear Resp.
  destruct (deliver v (e_header e) (e_payload e)) as [[v1 ok] l]. destruct (d_adds f b n l) as [[[fa ba] n1] ta] eqn:Ea. injection Ed as <- <- <- <- <-.
  replace (t ++ TSend (e_key e) (e_header e) (e_payload e) :: TDeliver (e_header e) (e_payload e) :: ta) with
    (((t ++ [TSend (e_key e) (e_header e) (e_payload e)]) ++ [TDeliver (e_header e) (e_payload e)]) ++ ta) by (rewrite <- !app_assoc; reflexivity).
  destruct (e_cb e) eqn:Cb.
  - apply dinv_mid'. apply (dinv_adds _ _ f [mkE (e_key e) true (e_header e) (e_payload e) WaitForResponse (e_tries e)] b _ _ _ _ _ Ea). apply dinv_plain; [|exact Logic.I|exact Logic.I]. apply S2. exact Logic.I.
  - apply (dinv_adds _ _ f [] b _ _ _ _ _ Ea). apply dinv_plain; [exact S1|exact Logic.I|exact Logic.I].
Qed.
Lemma round_inv t f e b n v f' b' n' v' t' : dinv t (f ++ e :: b) n -> d_round E deliver available callback expired f e b n v = (f', b', n', v', t') -> dinv (t ++ t') (f' ++ b') n'.
Proof.
  intros I Ed. unfold d_round in Ed. destruct (e_state e) eqn:St.
  - destruct (h_dest (e_header e) =? 0).
    + destruct (deliver v (e_header e) (e_payload e)) as [[v1 ok] l]. destruct (d_adds f b n l) as [[[fa ba] n1] ta] eqn:Ea. injection Ed as <- <- <- <- <-.
      replace (t ++ TDeliver (e_header e) (e_payload e) :: ta ++ [TSend (e_key e) (e_header e) (e_payload e)]) with
        (((t ++ [TDeliver (e_header e) (e_payload e)]) ++ ta) ++ [TSend (e_key e) (e_header e) (e_payload e)]) by (rewrite <- !app_assoc; reflexivity).
      apply dinv_mid in I. assert (dinv ((t ++ [TDeliver (e_header e) (e_payload e)]) ++ ta) ([e] ++ fa ++ ba) n1) as I2.
      { apply (dinv_adds _ _ f [e] b _ _ _ _ _ Ea). apply dinv_plain; [exact I|exact Logic.I|exact Logic.I]. }
      pose proof (dinv_head _ _ _ _ I2) as (_ & _ & _ & G). rewrite St in G. destruct (dinv_send _ _ _ _ I2) as [S1 _]; [lia|exact S1].
    + destruct (available v (h_dest (e_header e))); [apply (inner_inv _ _ _ _ _ _ _ _ _ _ _ I St Ed)|]. injection Ed as <- <- <- <- <-.
      apply dinv_mid in I. pose proof (dinv_head _ _ _ _ I) as (_ & _ & _ & G). rewrite St in G. destruct (dinv_send _ _ _ _ I) as [_ S2]; [lia|].
      rewrite <- app_assoc. cbn [app]. apply dinv_mid'. apply S2. lia.
  - destruct (expired v e) as [v1 x]. destruct x.
    + apply dinv_mid in I. pose proof (dinv_head _ _ _ _ I) as (_ & _ & _ & G). rewrite St in G. destruct (2 <=? e_tries e) eqn:T2.
      * destruct (e_cb e) eqn:Cb; [|injection Ed as <- <- <- <- <-; rewrite app_nil_r; apply dinv_tail in I; exact I].
        destruct (callback v1 e (timeoutHeader (e_header e)) (e_payload e)) as [v2 l]. destruct (d_adds f b n l) as [[[fa ba] n1] ta] eqn:Ea. injection Ed as <- <- <- <- <-.
        match goal with |- dinv (t ++ ?x :: ta) _ _ => replace (t ++ x :: ta) with ((t ++ [x]) ++ ta) by (rewrite <- app_assoc; reflexivity) end.
        apply (dinv_adds _ _ f [] b _ _ _ _ _ Ea). apply dinv_call; [exact I|exact Cb|]. right. split; [reflexivity|]. split; [reflexivity|lia].
      * injection Ed as <- <- <- <- <-. destruct (dinv_send _ _ _ _ I) as [_ S2]; [lia|]. rewrite <- app_assoc. cbn [app]. apply dinv_mid'. apply S2.
        assert (u8 (e_tries e + 1) = e_tries e + 1) as -> by (unfold u8; apply Z.mod_small; lia). lia.
    + injection Ed as <- <- <- <- <-. rewrite app_nil_r, <- app_assoc. exact I.
  - injection Ed as <- <- <- <- <-. rewrite app_nil_r, <- app_assoc. exact I.
Qed.
Lemma loop_inv fuel : forall t f b n v s t' x, dinv t (f ++ b) n -> d_loop E deliver available callback expired fuel f b n v = (s, t', x) -> sinv (t ++ t') s.
Proof.
  induction fuel as [|fuel IH]; intros t f b n v s t' x I Ed; destruct b as [|e b]; cbn [d_loop] in Ed.
  - injection Ed as <- <- <-. rewrite app_nil_r in I |- *. exact I.
  - injection Ed as <- <- <-. rewrite app_nil_r. exact I.
  - injection Ed as <- <- <-. rewrite app_nil_r in I |- *. exact I.
  - destruct (d_round E deliver available callback expired f e b n v) as [[[[f1 b1] n1] v1] t1] eqn:Er. destruct (d_loop E deliver available callback expired fuel f1 b1 n1 v1) as [[s2 t2] x2] eqn:El.
    injection Ed as <- <- <-. rewrite app_assoc. apply (IH _ _ _ _ _ _ _ _ (round_inv _ _ _ _ _ _ _ _ _ _ _ I Er) El).
Qed.
Lemma call_inv t s c s' t' : sinv t s -> d_call E deliver available callback expired s c = (s', t') -> sinv (t ++ t') s'.
Proof.
  intros I Ed. destruct c as [x|h p|k]; cbn [d_call] in Ed.
  - destruct (d_adds [] (d_entries E s) (d_next E s) [x]) as [[[a b] n] ta] eqn:Ea. injection Ed as <- <-. apply (dinv_adds _ _ [] [] _ _ _ _ _ _ Ea I).
  - apply (receive_inv _ _ _ _ _ _ I Ed).
  - destruct (d_handleWaitingMessages E deliver available callback expired k s) as [[s1 t1] x] eqn:El. injection Ed as <- <-. apply (loop_inv k _ [] _ _ _ _ _ _ I El).
Qed.
Lemma run_inv l : forall t s s' t', sinv t s -> d_run E deliver available callback expired s l = (s', t') -> sinv (t ++ t') s'.
Proof.
  induction l as [|c l IH]; intros t s s' t' I Ed; cbn [d_run] in Ed; [injection Ed as <- <-; rewrite app_nil_r; exact I|].
  destruct (d_call E deliver available callback expired s c) as [s1 t1] eqn:Ec. destruct (d_run E deliver available callback expired s1 l) as [s2 t2] eqn:Er. injection Ed as <- <-.
  rewrite app_assoc. apply (IH _ _ _ _ (call_inv _ _ _ _ _ I Ec) Er).
Qed.
Lemma init_inv v : sinv [] (mkD E [] 0 v).
Proof. split; [apply ok_nil|]. split; [apply NoDup_nil|]. split; [apply Forall_nil|]. intros k K. split; [reflexivity|]. split; reflexivity. Qed.
End Board.

(* ---- consequences of ok_trace ---- *)
Lemma ok_counts t : ok_trace t -> forall k, adds t k <= 1 /\ sends t k <= 3 /\ calls t k <= 1.
Proof.
  induction 1 as [|t e O IH A]; intro k; [unfold adds, sends, calls, count; cbn [filter]; rewrite !zlen_nil; lia|].
  specialize (IH k). unfold adds, sends, calls in *. rewrite !count_snoc. pose proof (count_nonneg (fun e => match e with TAdd j _ _ _ => j =? k | _ => false end) t).
  destruct e as [j cb h p|h p|j h p|h|h p|j h p]; try lia; destruct (j =? k) eqn:J; try lia; assert (j = k) by lia; subst j; cbn [allowed] in A.
  - unfold adds in A. lia.
  - destruct A as (_ & A & _). unfold sends in A. lia.
  - destruct A as (h0 & p0 & _ & A & _). unfold calls in A. lia.
Qed.
Lemma ok_split t : ok_trace t -> forall a e b, t = a ++ e :: b -> allowed a e.
Proof.
  induction 1 as [|t e O IH A]; intros a x b E; [destruct a; discriminate|]. destruct b as [|y b] using rev_ind.
  - apply app_inj_tail in E. destruct E as [-> ->]. exact A.
  - replace (a ++ x :: b ++ [y]) with ((a ++ x :: b) ++ [y]) in E by (rewrite <- app_assoc; reflexivity). apply app_inj_tail in E. destruct E as [-> ->]. apply (IH a x b). reflexivity.
Qed.

(* ---- a message that waits for its response only, or is gone, is not sent any more ---- *)
Definition done_with (k n : Z) (l : list dentry) : Prop := k < n /\ Forall (fun e => e_key e = k -> e_state e = WaitForResponse) l.
Lemma done_mid k n a e b : done_with k n (a ++ e :: b) <-> (e_key e = k -> e_state e = WaitForResponse) /\ done_with k n (a ++ b).
Proof.
  unfold done_with. rewrite !Forall_app. split.
  - intros (K & A & B). inversion B; subst. split; [assumption|]. split; [exact K|]. split; assumption.
  - intros (Q & K & A & B). split; [exact K|]. split; [exact A|]. apply Forall_cons; assumption.
Qed.
Lemma sends_app t u k : sends (t ++ u) k = sends t k + sends u k. Proof. unfold sends, count. rewrite filter_app, zlen_app. reflexivity. Qed.
Lemma sends_cons e u k : sends (e :: u) k = match e with TSend j _ _ => if j =? k then 1 else 0 | _ => 0 end + sends u k.
Proof. unfold sends, count. cbn [filter]. destruct e as [j cb h p|h p|j h p|h|h p|j h p]; try lia. destruct (j =? k); rewrite ?zlen_cons; lia. Qed.
Lemma sends_nil k : sends [] k = 0. Proof. reflexivity. Qed.
Lemma done_adds k l : forall f b n f' b' n' ev, d_adds f b n l = (f', b', n', ev) -> done_with k n (f ++ b) -> done_with k n' (f' ++ b') /\ sends ev k = 0.
Proof.
  induction l as [|x l IH]; intros f b n f' b' n' ev E D; cbn [d_adds] in E; [injection E as <- <- <- <-; split; [exact D|reflexivity]|].
  destruct D as [K D]. apply Forall_app in D. destruct D as [D1 D2].
  assert (forall cb h p f1 b1, Forall (fun e => e_key e = k -> e_state e = WaitForResponse) (f1 ++ b1) ->
    (let '(f, b, k, t) := d_adds f1 b1 (n + 1) l in (f, b, k, TAdd n cb h p :: t)) = (f', b', n', ev) -> done_with k n' (f' ++ b') /\ sends ev k = 0) as Go.
  { intros cb h p f1 b1 F Ed. destruct (d_adds f1 b1 (n + 1) l) as [[[fa ba] m] ta] eqn:Ea. injection Ed as <- <- <- <-. rewrite sends_cons. apply (IH _ _ _ _ _ _ _ Ea). split; [lia|exact F]. }
  destruct x as [h p|h p|h p]; (eapply Go; [|exact E]); cbn [app].
  - rewrite !Forall_app. split; [exact D1|]. split; [exact D2|]. apply Forall_cons; [cbn [e_key]; lia|apply Forall_nil].
  - rewrite !Forall_app. split; [exact D1|]. split; [exact D2|]. apply Forall_cons; [cbn [e_key]; lia|apply Forall_nil].
  - apply Forall_cons; [cbn [e_key]; lia|]. apply Forall_app. split; assumption.
Qed.
Section Done.
Variable E : Type.
Variable deliver : E -> xheader -> list Z -> E * bool * list addition.
Variable available : E -> Z -> bool.
Variable callback : E -> dentry -> xheader -> list Z -> E * list addition.
Variable expired : E -> dentry -> E * bool.
Variable k : Z.
Definition sdone (s : dstate E) : Prop := done_with k (d_next E s) (d_entries E s).

Lemma handlePacket_done s h p s' t' r : sdone s -> d_handlePacket E callback s h p = (s', t', r) -> sdone s' /\ sends t' k = 0.
Proof.
  intros D Ed. unfold d_handlePacket in Ed. destruct (d_fit (d_entries E s) h) as [[[a e] b]|] eqn:Df; [|injection Ed as <- <- <-; split; [exact D|reflexivity]].
  destruct (d_fit_ok _ _ _ _ _ Df) as [El _]. unfold sdone in *. pose proof D as D0. rewrite El in D0. apply done_mid in D0. destruct D0 as [De D1].
  destruct (negb (e_cb e)); [injection Ed as <- <- <-; split; [exact D1|reflexivity]|].
  assert ((if negb (h_ack h) then let (v, l) := callback (d_env E s) e h p in let '(a, b, n, t) := d_adds a b (d_next E s) l in (mkD E (a ++ b) n v, TCall (e_key e) h p :: t, true)
      else (mkD E (a ++ b) (d_next E s) (d_env E s), [], false)) = (s', t', r) -> done_with k (d_next E s') (d_entries E s') /\ sends t' k = 0) as Resp.
  { destruct (h_ack h); cbn [negb]; [intro K; injection K as <- <- <-; split; [exact D1|reflexivity]|]. destruct (callback (d_env E s) e h p) as [v l]. destruct (d_adds a b (d_next E s) l) as [[[fa ba] n] ta] eqn:Ea.
    intro K. injection K as <- <- <-. rewrite sends_cons. apply (done_adds _ _ _ _ _ _ _ _ _ Ea D1). }
  destruct (h_type h); try (apply Resp; exact Ed). destruct (h_ack h); injection Ed as <- <- <-; (split; [|reflexivity]); [|exact D]. cbn [d_entries d_next]. apply done_mid. split; [reflexivity|exact D1].
Qed.
Lemma receive_done s h p s' t' : sdone s -> d_receive E deliver available callback s h p = (s', t') -> sdone s' /\ sends t' k = 0.
Proof.
  intros D Ed. unfold d_receive in Ed. destruct (xtype_eqb (h_type h) XRequest && negb (h_ack h)).
  - destruct (deliver (d_env E s) h p) as [[v ok] l]. destruct (d_adds [] (d_entries E s) (d_next E s) l) as [[[fa ba] n] ta] eqn:Ea. injection Ed as <- <-.
    destruct (done_adds _ _ _ _ _ _ _ _ _ Ea D) as [D1 S1]. split; [exact D1|]. rewrite !sends_cons, sends_app, S1. destruct (ok && negb (h_dest h =? 0)); reflexivity.
  - destruct (d_handlePacket E callback s h p) as [[s1 t1] r] eqn:Eh. injection Ed as <- <-. destruct (handlePacket_done _ _ _ _ _ _ D Eh) as [D1 S1]. split; [exact D1|].
    rewrite !sends_cons, sends_app, S1. destruct (negb (h_ack h) && negb (h_dest h =? 0) && (r || available (d_env E s1) (h_dest h))); reflexivity.
Qed.
Lemma round_done f e b n v f' b' n' v' t' : done_with k n (f ++ e :: b) -> d_round E deliver available callback expired f e b n v = (f', b', n', v', t') -> done_with k n' (f' ++ b') /\ sends t' k = 0.
Proof.
  intros D Ed. pose proof D as D0. apply done_mid in D0. destruct D0 as [De D1]. unfold d_round in Ed. destruct (e_state e) eqn:St.
  - assert ((e_key e =? k) = false) as Kn. { destruct (e_key e =? k) eqn:K; [|reflexivity]. specialize (De ltac:(lia)). discriminate. }
    destruct (h_dest (e_header e) =? 0).
    + destruct (deliver v (e_header e) (e_payload e)) as [[v1 ok] l]. destruct (d_adds f b n l) as [[[fa ba] n1] ta] eqn:Ea. injection Ed as <- <- <- <- <-.
      destruct (done_adds _ _ _ _ _ _ _ _ _ Ea D1) as [D2 S1]. split; [exact D2|]. rewrite sends_cons, sends_app, S1, sends_cons, Kn, sends_nil. reflexivity.
    + destruct (available v (h_dest (e_header e))).
      * unfold d_inner in Ed.
        assert ((match d_request b (e_header e) with
          | None => (f, b, n, v, [TSend (e_key e) (e_header e) (e_payload e)])
          | Some (b1, r, b2) =>
              if e_cb r then
                let (v, l) := callback v r (e_header e) (e_payload e) in
                let '(f, b2, n, t) := d_adds f b2 n l in
                (f, b1 ++ b2, n, v, TSend (e_key e) (e_header e) (e_payload e) :: TCall (e_key r) (e_header e) (e_payload e) :: t)
              else (f, b1 ++ b2, n, v, [TSend (e_key e) (e_header e) (e_payload e)])
          end) = (f', b', n', v', t') -> done_with k n' (f' ++ b') /\ sends t' k = 0) as Resp.
        { destruct (d_request b (e_header e)) as [[[b1 r] b2]|] eqn:Dr; [|intro K; injection K as <- <- <- <- <-; split; [exact D1|rewrite sends_cons, Kn; reflexivity]].
          destruct (d_request_ok _ _ _ _ _ Dr) as (Eb & _ & _). rewrite Eb, app_assoc in D1. apply done_mid in D1. destruct D1 as [_ D1]. destruct (e_cb r).
          - destruct (callback v r (e_header e) (e_payload e)) as [v1 l]. destruct (d_adds f b2 n l) as [[[fa ba] n1] ta] eqn:Ea. intro K. injection K as <- <- <- <- <-.
            assert (done_with k n (f ++ b2) /\ Forall (fun e => e_key e = k -> e_state e = WaitForResponse) b1) as [D2 D3].
            { destruct D1 as [Kn' D1]. rewrite !Forall_app in D1. destruct D1 as [[A B] C]. split; [split; [exact Kn'|apply Forall_app; split; assumption]|exact B]. }
            destruct (done_adds _ _ _ _ _ _ _ _ _ Ea D2) as [[Kn2 D4] S1]. split; [|rewrite !sends_cons, S1, Kn; reflexivity]. split; [exact Kn2|]. rewrite !Forall_app in *. destruct D4. split; [assumption|]. split; assumption.
          - intro K. injection K as <- <- <- <- <-. rewrite app_assoc. split; [exact D1|]. rewrite sends_cons, Kn. reflexivity. }
        destruct (h_type (e_header e)); try (apply Resp; exact Ed).
        destruct (deliver v (e_header e) (e_payload e)) as [[v1 ok] l]. destruct (d_adds f b n l) as [[[fa ba] n1] ta] eqn:Ea. injection Ed as <- <- <- <- <-.
        destruct (done_adds _ _ _ _ _ _ _ _ _ Ea D1) as [D2 S1]. split; [|rewrite !sends_cons, S1, Kn; reflexivity]. destruct (e_cb e); [apply done_mid; split; [reflexivity|exact D2]|exact D2].
      * injection Ed as <- <- <- <- <-. split; [|rewrite sends_cons, Kn; reflexivity]. rewrite <- app_assoc. cbn [app]. apply done_mid. split; [cbn [e_key]; lia|exact D1].
  - assert ((e_key e =? k) = false) as Kn. { destruct (e_key e =? k) eqn:K; [|reflexivity]. specialize (De ltac:(lia)). discriminate. }
    destruct (expired v e) as [v1 x]. destruct x.
    + destruct (2 <=? e_tries e).
      * destruct (e_cb e); [|injection Ed as <- <- <- <- <-; split; [exact D1|reflexivity]].
        destruct (callback v1 e (timeoutHeader (e_header e)) (e_payload e)) as [v2 l]. destruct (d_adds f b n l) as [[[fa ba] n1] ta] eqn:Ea. injection Ed as <- <- <- <- <-. rewrite sends_cons. apply (done_adds _ _ _ _ _ _ _ _ _ Ea D1).
      * injection Ed as <- <- <- <- <-. split; [|rewrite sends_cons, Kn; reflexivity]. rewrite <- app_assoc. cbn [app]. apply done_mid. split; [cbn [e_key]; lia|exact D1].
    + injection Ed as <- <- <- <- <-. split; [rewrite <- app_assoc; exact D|reflexivity].
  - injection Ed as <- <- <- <- <-. split; [rewrite <- app_assoc; exact D|reflexivity].
Qed.
Lemma loop_done fuel : forall f b n v s t' x, done_with k n (f ++ b) -> d_loop E deliver available callback expired fuel f b n v = (s, t', x) -> sdone s /\ sends t' k = 0.
Proof.
  induction fuel as [|fuel IH]; intros f b n v s t' x D Ed; destruct b as [|e b]; cbn [d_loop] in Ed.
  - injection Ed as <- <- <-. rewrite app_nil_r in D. split; [exact D|reflexivity].
  - injection Ed as <- <- <-. split; [exact D|reflexivity].
  - injection Ed as <- <- <-. rewrite app_nil_r in D. split; [exact D|reflexivity].
  - destruct (d_round E deliver available callback expired f e b n v) as [[[[f1 b1] n1] v1] t1] eqn:Er. destruct (d_loop E deliver available callback expired fuel f1 b1 n1 v1) as [[s2 t2] x2] eqn:El.
    injection Ed as <- <- <-. destruct (round_done _ _ _ _ _ _ _ _ _ _ D Er) as [D1 S1]. destruct (IH _ _ _ _ _ _ _ D1 El) as [D2 S2]. split; [exact D2|]. rewrite sends_app. lia.
Qed.
Lemma run_done l : forall s s' t', sdone s -> d_run E deliver available callback expired s l = (s', t') -> sdone s' /\ sends t' k = 0.
Proof.
  induction l as [|c l IH]; intros s s' t' D Ed; cbn [d_run] in Ed; [injection Ed as <- <-; split; [exact D|reflexivity]|].
  destruct (d_call E deliver available callback expired s c) as [s1 t1] eqn:Ec. destruct (d_run E deliver available callback expired s1 l) as [s2 t2] eqn:Er. injection Ed as <- <-.
  assert (sdone s1 /\ sends t1 k = 0) as [D1 S1].
  { destruct c as [x|h p|m]; cbn [d_call] in Ec.
    - destruct (d_adds [] (d_entries E s) (d_next E s) [x]) as [[[a b] n] ta] eqn:Ea. injection Ec as <- <-. apply (done_adds _ _ _ _ _ _ _ _ _ Ea D).
    - apply (receive_done _ _ _ _ _ D Ec).
    - destruct (d_handleWaitingMessages E deliver available callback expired m s) as [[s3 t3] x] eqn:El. injection Ec as <- <-. apply (loop_done m [] _ _ _ _ _ _ D El). }
  destruct (IH _ _ _ D1 Er) as [D2 S2]. split; [exact D2|]. rewrite sends_app. lia.
Qed.
End Done.

(* ---- a board that answers nothing ---- *)
Definition remote (e : dentry) : Prop := h_dest (e_header e) <> 0.
Definition q_deliver (_ : unit) (_ : xheader) (_ : list Z) : unit * bool * list addition := (tt, false, []).
Definition q_available (_ : unit) (_ : Z) : bool := false.
Definition q_callback (_ : unit) (_ : dentry) (_ : xheader) (_ : list Z) : unit * list addition := (tt, []).
Definition q_expired (x : dentry -> bool) (_ : unit) (e : dentry) : unit * bool := (tt, x e).
Definition sent_event (e : dentry) : dev := TSend (e_key e) (e_header e) (e_payload e).
Definition pass_entry (x : dentry -> bool) (e : dentry) : list dentry :=
  match e_state e with
  | TransmissionPending => [mkE (e_key e) (e_cb e) (e_header e) (e_payload e) WaitForACK (e_tries e)]
  | WaitForACK => if x e then if 2 <=? e_tries e then [] else [mkE (e_key e) (e_cb e) (e_header e) (e_payload e) WaitForACK (u8 (e_tries e + 1))] else [e]
  | WaitForResponse => [e]
  end.
Definition pass_event (x : dentry -> bool) (e : dentry) : list dev :=
  match e_state e with
  | TransmissionPending => [sent_event e]
  | WaitForACK => if x e then if 2 <=? e_tries e then if e_cb e then [TCall (e_key e) (timeoutHeader (e_header e)) (e_payload e)] else [] else [sent_event e] else []
  | WaitForResponse => []
  end.
Lemma quiet_loop x l : forall fuel f n, Forall remote l -> (length l <= fuel)%nat ->
  d_loop unit q_deliver q_available q_callback (q_expired x) fuel f l n tt = (mkD unit (f ++ flat_map (pass_entry x) l) n tt, flat_map (pass_event x) l, true).
Proof.
  induction l as [|e l IH]; intros fuel f n R L; destruct fuel as [|fuel]; cbn [length] in L; try lia; cbn [d_loop flat_map]; rewrite ?app_nil_r; try reflexivity.
  inversion R as [|? ? Re Rl]; subst. unfold remote in Re.
  assert (d_round unit q_deliver q_available q_callback (q_expired x) f e l n tt = (f ++ pass_entry x e, l, n, tt, pass_event x e)) as ->.
  { unfold d_round, pass_entry, pass_event. destruct (e_state e).
    - assert ((h_dest (e_header e) =? 0) = false) as -> by lia. reflexivity.
    - cbn [q_expired]. destruct (x e); [|reflexivity]. destruct (2 <=? e_tries e); [|reflexivity]. destruct (e_cb e); cbn [q_callback d_adds]; rewrite app_nil_r; reflexivity.
    - reflexivity. }
  rewrite IH by (assumption || lia). rewrite <- app_assoc. reflexivity.
Qed.
