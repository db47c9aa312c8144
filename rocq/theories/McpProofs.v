(* Proofs about the MCP2515 driver: messages. *)
From Verif Require Import Base CanModel McpModel McpSpec.
From Coq Require Import Permutation.

Lemma fupd_eq {A : Type} (f : Z -> A) n v : fupd f n v n = v.
Proof. unfold fupd. rewrite Z.eqb_refl. reflexivity. Qed.
Lemma fupd_neq {A : Type} (f : Z -> A) n v x : x <> n -> fupd f n v x = f x.
Proof. unfold fupd. intros. destruct (Z.eqb_spec x n); congruence. Qed.

(** *** Executions *)

Lemma events_trans c1 c2 c3 : events c1 c2 -> events c2 c3 -> events c1 c3.
Proof. induction 1; eauto using evs_1. Qed.
Lemma inv_ret {A : Type} (a : A) c c' o : run (PRet a) c c' o -> events c c' /\ o = Some a.
Proof.
  remember (PRet a) as p. induction 1; try discriminate.
  - injection Heqp as ->. split; [apply evs_0 | reflexivity].
  - destruct (IHrun Heqp) as [He Ho]. split; [eapply evs_1; eauto | exact Ho].
Qed.
Lemma inv_fault {A : Type} c c' (o : option A) : run PFault c c' o -> events c c' /\ o = None.
Proof.
  remember PFault as p. induction 1; try discriminate.
  - split; [apply evs_0 | reflexivity].
  - destruct (IHrun Heqp) as [He Ho]. split; [eapply evs_1; eauto | exact Ho].
Qed.
Lemma inv_sel {A : Type} (k : prog A) c c' o : run (PSel k) c c' o -> exists c1, events c c1 /\ run k (set_ph c1 Cmd) c' o.
Proof.
  remember (PSel k) as p. induction 1; try discriminate.
  - destruct (IHrun Heqp) as (c3 & He & Hr). exists c3. split; [eapply evs_1; eauto | exact Hr].
  - injection Heqp as ->. exists c. split; [apply evs_0 | assumption].
Qed.
Lemma inv_desel {A : Type} (k : prog A) c c' o : run (PDesel k) c c' o -> exists c1, events c c1 /\ run k (desel c1) c' o.
Proof.
  remember (PDesel k) as p. induction 1; try discriminate.
  - destruct (IHrun Heqp) as (c3 & He & Hr). exists c3. split; [eapply evs_1; eauto | exact Hr].
  - injection Heqp as ->. exists c. split; [apply evs_0 | assumption].
Qed.
Lemma inv_xfer {A : Type} b (k : Z -> prog A) c c' o : run (PXfer b k) c c' o ->
  exists c1, events c c1 /\ ((exists c2 v, xfer c1 b = Some (c2, v) /\ run (k v) c2 c' o) \/ (xfer c1 b = None /\ o = None /\ c' = c1)).
Proof.
  remember (PXfer b k) as p. induction 1; try discriminate.
  - destruct (IHrun Heqp) as (c3 & He & Hr). exists c3. split; [eapply evs_1; eauto | exact Hr].
  - injection Heqp as -> ->. exists c. split; [apply evs_0 | left; eauto].
  - injection Heqp as -> ->. exists c. split; [apply evs_0 | right; auto].
Qed.

(** *** What events leave alone *)

Definition acct (acc del : list frame) (c : chip) : Prop :=
  chip_ok c /\ Permutation acc (sent c ++ pending c) /\ Permutation (recv c) (del ++ waiting c).
Record later (c c1 : chip) : Prop := {
  l_ph : ph c1 = ph c;
  l_tx : forall n, t_req (tx c n) = false -> tx c1 n = tx c n;
  l_rx : forall n, r_full (rx c n) = true -> rx c1 n = rx c n;
  l_cfg : cfg c1 = cfg c;
  l_acct : forall acc del, acct acc del c -> acct acc del c1 }.

Lemma perm_take {A : Type} (s a b : list A) f : Permutation (s ++ a ++ f :: b) ((s ++ [f]) ++ a ++ b).
Proof. rewrite <- app_assoc. apply Permutation_app_head. simpl. symmetry. apply Permutation_middle. Qed.
Lemma perm_put {A : Type} (s a b : list A) f : Permutation ((s ++ a ++ b) ++ [f]) (s ++ a ++ f :: b).
Proof.
  rewrite <- app_assoc. apply Permutation_app_head. rewrite <- app_assoc. apply Permutation_app_head.
  symmetry. apply Permutation_cons_append.
Qed.
Definition tx_opt (c : chip) (n : Z) : list frame := if t_req (tx c n) then [tx_frame (t_b (tx c n))] else [].
Definition rx_opt (c : chip) (n : Z) : list frame := if r_full (rx c n) then [rx_frame (r_b (rx c n)) (r_rtr (rx c n))] else [].
Lemma pending_eq c : pending c = tx_opt c 0 ++ tx_opt c 1 ++ tx_opt c 2.
Proof. unfold pending, tx_opt. cbn [map concat]. rewrite app_nil_r. reflexivity. Qed.
Lemma waiting_eq c : waiting c = rx_opt c 0 ++ rx_opt c 1.
Proof. unfold waiting, rx_opt. cbn [map concat]. rewrite app_nil_r. reflexivity. Qed.

(* the waiting transmissions around buffer n *)
Lemma pending_split c n : 0 <= n <= 2 -> exists a b, pending c = a ++ tx_opt c n ++ b /\
  (forall c1, (forall k, k <> n -> tx c1 k = tx c k) -> pending c1 = a ++ tx_opt c1 n ++ b).
Proof.
  intros Hn. rewrite pending_eq. assert (n = 0 \/ n = 1 \/ n = 2) as [-> | [-> | -> ]] by lia.
  - exists [], (tx_opt c 1 ++ tx_opt c 2). split; [reflexivity |]. intros c1 H. rewrite pending_eq. unfold tx_opt.
    rewrite (H 1), (H 2) by lia. reflexivity.
  - exists (tx_opt c 0), (tx_opt c 2). split; [reflexivity |]. intros c1 H. rewrite pending_eq. unfold tx_opt.
    rewrite (H 0), (H 2) by lia. reflexivity.
  - exists (tx_opt c 0 ++ tx_opt c 1), []. split; [rewrite app_nil_r, <- app_assoc; reflexivity |]. intros c1 H. rewrite pending_eq. unfold tx_opt.
    rewrite (H 0), (H 1) by lia. rewrite app_nil_r, <- app_assoc. reflexivity.
Qed.
Lemma waiting_split c n : 0 <= n <= 1 -> exists a b, waiting c = a ++ rx_opt c n ++ b /\
  (forall c1, (forall k, k <> n -> rx c1 k = rx c k) -> waiting c1 = a ++ rx_opt c1 n ++ b).
Proof.
  intros Hn. rewrite waiting_eq. assert (n = 0 \/ n = 1) as [-> | -> ] by lia.
  - exists [], (rx_opt c 1). split; [reflexivity |]. intros c1 H. rewrite waiting_eq. unfold rx_opt. rewrite (H 1) by lia. reflexivity.
  - exists (rx_opt c 0), []. split; [rewrite app_nil_r; reflexivity |]. intros c1 H. rewrite waiting_eq. unfold rx_opt.
    rewrite (H 0) by lia. rewrite app_nil_r. reflexivity.
Qed.
Lemma waiting_same c c1 : (forall n, rx c1 n = rx c n) -> waiting c1 = waiting c.
Proof. intros H. rewrite !waiting_eq. unfold rx_opt. rewrite !H. reflexivity. Qed.
Lemma pending_same c c1 : (forall n, tx c1 n = tx c n) -> pending c1 = pending c.
Proof. intros H. rewrite !pending_eq. unfold tx_opt. rewrite !H. reflexivity. Qed.
(* what accounting depends on *)
Lemma acct_same acc del c c1 : (forall n, tx c1 n = tx c n) -> (forall n, rx c1 n = rx c n) -> sent c1 = sent c -> recv c1 = recv c ->
  acct acc del c -> acct acc del c1.
Proof.
  intros Ht Hr Hs Hv ((Ok1 & Ok2) & P1 & P2). split; [| split].
  - split; intros n; [rewrite Ht; apply Ok1 | rewrite Hr; apply Ok2].
  - rewrite Hs, (pending_same c c1 Ht). exact P1.
  - rewrite Hv, (waiting_same c c1 Hr). exact P2.
Qed.

Lemma event_later c c1 : event c c1 -> later c c1.
Proof.
  destruct 1 as [c n Hn Hq | c n b rtr Hn Hf Hl Hb | c]; split; cbn [ph cfg tx rx]; try reflexivity; try (intros; reflexivity).
  - intros m Hm. rewrite fupd_neq; [reflexivity | congruence].
  - intros acc del ((Ok1 & Ok2) & P1 & P2). destruct (pending_split c n Hn) as (a & b & E & K).
    set (c1 := Chip (ph c) (fupd (tx c) n (Txb false (t_b (tx c n)))) (rx c) (mode c) (cfg c) (sent c ++ [tx_frame (t_b (tx c n))]) (recv c)).
    split; [| split].
    + split; [| exact Ok2]. intros m. unfold c1; cbn [tx]. unfold fupd. destruct (m =? n); apply Ok1.
    + rewrite (K c1) by (intros k Hk; unfold c1; cbn [tx]; apply fupd_neq, Hk).
      rewrite E in P1. unfold tx_opt in *. rewrite Hq in P1. unfold c1 at 2. cbn [tx]. rewrite fupd_eq. cbn [t_req].
      cbn [app] in *. unfold c1; cbn [sent]. eapply Permutation_trans; [exact P1 | apply perm_take].
    + rewrite (waiting_same c c1) by reflexivity. exact P2.
  - intros m Hm. rewrite fupd_neq; [reflexivity | congruence].
  - intros acc del ((Ok1 & Ok2) & P1 & P2). destruct (waiting_split c n Hn) as (a & d & E & K).
    set (c1 := Chip (ph c) (tx c) (fupd (rx c) n (Rxb true rtr b)) (mode c) (cfg c) (sent c) (recv c ++ [rx_frame b rtr])).
    split; [| split].
    + split; [exact Ok1 |]. intros m. unfold c1; cbn [rx]. unfold fupd. destruct (m =? n); [split; assumption | apply Ok2].
    + rewrite (pending_same c c1) by reflexivity. exact P1.
    + rewrite (K c1) by (intros k Hk; unfold c1; cbn [rx]; apply fupd_neq, Hk).
      rewrite E in P2. unfold rx_opt in *. rewrite Hf in P2. unfold c1 at 2. cbn [rx]. rewrite fupd_eq. cbn [r_full].
      unfold c1; cbn [rx recv]. rewrite fupd_eq. cbn [r_b r_rtr]. cbn [app] in *.
      eapply Permutation_trans; [apply Permutation_app_tail; exact P2 | apply perm_put].
  - intros acc del. apply acct_same; reflexivity.
Qed.
Lemma later_refl c : later c c.
Proof. split; auto. Qed.
Lemma later_trans c1 c2 c3 : later c1 c2 -> later c2 c3 -> later c1 c3.
Proof.
  intros [A1 A2 A3 A4 A5] [B1 B2 B3 B4 B5]. split.
  - congruence.
  - intros n H. rewrite B2; [apply A2, H | rewrite A2; assumption].
  - intros n H. rewrite B3; [apply A3, H | rewrite A3; assumption].
  - congruence.
  - auto.
Qed.
Lemma events_later c c1 : events c c1 -> later c c1.
Proof. induction 1; [apply later_refl | eapply later_trans; [apply event_later; eassumption | assumption]]. Qed.
Lemma later_not_req c c1 n : later c c1 -> t_req (tx c n) = false -> t_req (tx c1 n) = false.
Proof. intros L H. rewrite (l_tx _ _ L n H). exact H. Qed.
Lemma later_full c c1 n : later c c1 -> r_full (rx c n) = true -> r_full (rx c1 n) = true.
Proof. intros L H. rewrite (l_rx _ _ L n H). exact H. Qed.

(** *** Status *)

(* an execution of readStatus: the byte is that of a chip reached by events *)
Lemma inv_status {A : Type} ty (f : Z -> prog A) c c' o p g : ph c = Idle ->
  (ty = 160 /\ p = Stat /\ g = status_byte \/ ty = 176 /\ p = RxStat /\ g = rxstatus_byte) ->
  run (pbind (readStatus ty) f) c c' o ->
  exists c1 c2, later c c1 /\ later c1 c2 /\ ph c2 = Idle /\ run (f (g c1)) c2 c' o.
Proof.
  intros Hi Hty H. unfold readStatus in H. cbn [pbind] in H.
  apply inv_sel in H. destruct H as (c1 & E1 & H). apply events_later in E1.
  apply inv_xfer in H. destruct H as (c2 & E2 & H). apply events_later in E2.
  assert (P2 : ph c2 = Cmd) by apply (l_ph _ _ E2).
  assert (X2 : xfer c2 ty = Some (set_ph c2 p, 0)).
  { unfold xfer. rewrite P2. destruct Hty as [(-> & -> & _) | (-> & -> & _)]; reflexivity. }
  destruct H as [(c3 & v & X & H) | (X & _)]; [| congruence]. assert (c3 = set_ph c2 p) by congruence. subst c3.
  apply inv_xfer in H. destruct H as (c3 & E3 & H). apply events_later in E3.
  assert (P3 : ph c3 = p) by apply (l_ph _ _ E3).
  assert (X3 : xfer c3 255 = Some (c3, g c3)).
  { unfold xfer. rewrite P3. destruct Hty as [(-> & -> & ->) | (-> & -> & ->)]; reflexivity. }
  destruct H as [(c4 & w & X' & H) | (X' & _)]; [| congruence].
  rewrite X3 in X'. assert (c4 = c3 /\ w = g c3) as [-> -> ] by (split; congruence).
  apply inv_desel in H. destruct H as (c4 & E4 & H). apply events_later in E4.
  exists (set_ph c3 Idle), (set_ph c4 Idle).
  assert (D4 : desel c4 = set_ph c4 Idle).
  { unfold desel. rewrite (l_ph _ _ E4), P3. destruct Hty as [(-> & -> & ->) | (-> & -> & ->)]; reflexivity. }
  rewrite D4 in H.
  assert (Gk : forall k, g (set_ph c3 k) = g c3) by (destruct Hty as [(-> & -> & ->) | (-> & -> & ->)]; reflexivity).
  split; [| split; [| split; [reflexivity |]]].
  - assert (Hs : forall x k, (forall acc del, acct acc del x -> acct acc del (set_ph x k)) /\ (forall acc del, acct acc del (set_ph x k) -> acct acc del x)).
    { intros x k. split; intros acc del; apply acct_same; reflexivity. }
    destruct E1 as [A1 A2 A3 A4 A5], E2 as [B1 B2 B3 B4 B5], E3 as [C1 C2 C3 C4 C5]. cbn in *. split; cbn.
    + congruence.
    + intros n H1. rewrite C2; [rewrite B2; [apply A2, H1 |] |]; rewrite ?B2; rewrite ?A2; auto.
    + intros n H1. rewrite C3; [rewrite B3; [apply A3, H1 |] |]; rewrite ?B3; rewrite ?A3; auto.
    + congruence.
    + intros acc del H1. apply Hs. apply C5. apply Hs. apply B5. apply Hs. apply A5. exact H1.
  - destruct E4 as [A1 A2 A3 A4 A5]. split; cbn; auto.
  - rewrite Gk. exact H.
Qed.

(** *** Loading a transmit buffer *)

Definition loading (n i : Z) (pre : list Z) (c : chip) : Prop :=
  ph c = Load n i /\ t_req (tx c n) = false /\ firstn (Z.to_nat i) (t_b (tx c n)) = pre /\ Z.of_nat (length pre) = i.
Lemma loading_later n i pre c c1 : later c c1 -> loading n i pre c -> loading n i pre c1.
Proof.
  intros L (H1 & H2 & H3 & H4). unfold loading. rewrite (l_ph _ _ L), (l_tx _ _ L n H2). auto.
Qed.
Lemma upd_byte_length b i v : 0 <= i < Z.of_nat (length b) -> length (upd_byte b i v) = length b.
Proof.
  intros H. unfold upd_byte. rewrite app_length, firstn_length. cbn [length]. rewrite skipn_length. lia.
Qed.
Lemma upd_byte_firstn b i v : 0 <= i < Z.of_nat (length b) -> firstn (Z.to_nat (i + 1)) (upd_byte b i v) = firstn (Z.to_nat i) b ++ [v].
Proof.
  intros H. unfold upd_byte. rewrite firstn_app, firstn_length. rewrite Nat.min_l by lia.
  replace (Z.to_nat (i + 1) - Z.to_nat i)%nat with 1%nat by lia. cbn [firstn].
  rewrite firstn_all2; [reflexivity |]. rewrite firstn_length. lia.
Qed.
Lemma load_acct acc del c n b p : 0 <= n <= 2 -> t_req (tx c n) = false -> length b = 13%nat ->
  acct acc del c -> acct acc del (set_ph (set_tx c n (Txb false b)) p).
Proof.
  intros Hn Hr Hl ((Ok1 & Ok2) & P1 & P2). destruct (pending_split c n Hn) as (a & d & E & K).
  set (c1 := set_ph (set_tx c n (Txb false b)) p). split; [| split].
  - split; [| exact Ok2]. intros m. unfold c1, set_ph, set_tx; cbn [tx]. unfold fupd. destruct (m =? n); [exact Hl | apply Ok1].
  - rewrite (K c1) by (intros k Hk; unfold c1, set_ph, set_tx; cbn [tx]; apply fupd_neq, Hk).
    rewrite E in P1. unfold tx_opt in *. rewrite Hr in P1.
    replace (t_req (tx c1 n)) with false by (unfold c1, set_ph, set_tx; cbn [tx]; rewrite fupd_eq; reflexivity). exact P1.
  - rewrite (waiting_same c c1) by reflexivity. exact P2.
Qed.
Lemma load_step {A : Type} acc del n i pre b (k : Z -> prog A) c c' o : 0 <= n <= 2 -> i < 13 -> loading n i pre c -> acct acc del c ->
  run (PXfer b k) c c' o -> exists c1, loading n (i + 1) (pre ++ [b]) c1 /\ acct acc del c1 /\ run (k 0) c1 c' o.
Proof.
  intros Hn Hi HL HA H. apply inv_xfer in H. destruct H as (c1 & E1 & H). apply events_later in E1.
  apply (loading_later _ _ _ _ _ E1) in HL. apply (l_acct _ _ E1) in HA. destruct HL as (L1 & L2 & L3 & L4).
  assert (Hl : length (t_b (tx c1 n)) = 13%nat) by apply HA.
  assert (X : xfer c1 b = Some (set_ph (set_tx c1 n (Txb false (upd_byte (t_b (tx c1 n)) i b))) (Load n (i + 1)), 0)).
  { unfold xfer. rewrite L1. replace (i <? 13) with true by lia. rewrite L2. reflexivity. }
  destruct H as [(c2 & v & X' & H) | (X' & _)]; [| congruence].
  rewrite X in X'. assert (c2 = set_ph (set_tx c1 n (Txb false (upd_byte (t_b (tx c1 n)) i b))) (Load n (i + 1)) /\ v = 0) as [-> -> ]
    by (split; congruence).
  eexists. split; [| split; [| exact H]].
  - unfold loading, set_ph, set_tx; cbn [ph tx]. rewrite fupd_eq. cbn [t_req t_b]. split; [reflexivity |]. split; [reflexivity |].
    split; [| rewrite app_length; cbn [length]; lia]. rewrite upd_byte_firstn by lia. rewrite L3. reflexivity.
  - apply load_acct; auto. rewrite upd_byte_length; lia.
Qed.
Lemma load_bad {A : Type} n i pre b (k : Z -> prog A) c c' o : 13 <= i -> loading n i pre c -> run (PXfer b k) c c' o -> o = None.
Proof.
  intros Hi HL H. apply inv_xfer in H. destruct H as (c1 & E1 & H). apply events_later in E1.
  apply (loading_later _ _ _ _ _ E1) in HL. destruct HL as (L1 & L2 & L3 & L4).
  assert (X : xfer c1 b = None). { unfold xfer. rewrite L1. replace (i <? 13) with false by lia. reflexivity. }
  destruct H as [(c2 & v & X' & H) | (X' & -> & _)]; [congruence | reflexivity].
Qed.
Lemma firstn_snoc (l : list Z) i x : znth l i = Some x -> firstn (Z.to_nat (i + 1)) l = firstn (Z.to_nat i) l ++ [x].
Proof.
  intros H. pose proof (znth_Some _ _ _ H) as R. unfold znth in H. replace (i <? 0) with false in H by lia.
  replace (Z.to_nat (i + 1)) with (S (Z.to_nat i)) by lia. revert H. generalize (Z.to_nat i) as k. clear R. intros k. revert l.
  induction k; intros [| y l] H; cbn in *; try discriminate.
  - congruence.
  - f_equal. apply IHk, H.
Qed.
(* the data loop *)
Lemma load_data {A : Type} acc del n d (f : unit -> prog A) c' o : 0 <= n <= 2 -> forall k j pre c, 0 <= j -> j + Z.of_nat k <= zlen d ->
  Z.of_nat (length pre) + Z.of_nat k <= 13 -> loading n (Z.of_nat (length pre)) pre c -> acct acc del c ->
  run (pbind (writeData k j d) f) c c' o ->
  exists c1, loading n (Z.of_nat (length pre) + Z.of_nat k) (pre ++ firstn k (skipn (Z.to_nat j) d)) c1 /\ acct acc del c1 /\ run (f tt) c1 c' o.
Proof.
  intros Hn. induction k as [| k IH]; intros j pre c Hj Hd Hp HL HA H; cbn [writeData pbind] in H.
  - exists c. rewrite firstn_O, app_nil_r. replace (Z.of_nat (length pre) + Z.of_nat 0) with (Z.of_nat (length pre)) by lia. auto.
  - destruct (znth d j) as [v |] eqn:Ev; [| apply znth_None in Ev; lia]. cbn [pbind] in H.
    destruct (load_step acc del n (Z.of_nat (length pre)) pre v _ c c' o Hn ltac:(lia) HL HA H) as (c1 & HL1 & HA1 & H1).
    assert (El : Z.of_nat (length (pre ++ [v])) = Z.of_nat (length pre) + 1) by (rewrite app_length; cbn [length]; lia).
    rewrite <- El in HL1.
    destruct (IH (j + 1) (pre ++ [v]) c1 ltac:(lia) ltac:(lia) ltac:(lia) HL1 HA1 H1) as (c2 & HL2 & HA2 & H2).
    exists c2. split; [| split; assumption].
    replace (firstn (S k) (skipn (Z.to_nat j) d)) with (v :: firstn k (skipn (Z.to_nat (j + 1)) d)).
    + rewrite <- app_assoc in HL2. cbn [app] in HL2. replace (Z.of_nat (length pre) + Z.of_nat (S k)) with (Z.of_nat (length (pre ++ [v])) + Z.of_nat k) by lia.
      exact HL2.
    + replace (Z.to_nat (j + 1)) with (S (Z.to_nat j)) by lia. clear -Ev Hj. unfold znth in Ev. replace (j <? 0) with false in Ev by lia.
      revert Ev. generalize (Z.to_nat j). intros q. revert d. induction q; intros [| y d] Ev; cbn in *; try discriminate; [congruence | apply IHq, Ev].
Qed.
Lemma load_data_bad {A : Type} acc del n d (f : unit -> prog A) c' o : 0 <= n <= 2 -> forall k j pre c, (0 < k)%nat ->
  13 < Z.of_nat (length pre) + Z.of_nat k -> Z.of_nat (length pre) <= 13 -> loading n (Z.of_nat (length pre)) pre c -> acct acc del c ->
  run (pbind (writeData k j d) f) c c' o -> o = None.
Proof.
  intros Hn. induction k as [| k IH]; intros j pre c Hk Hp Hp2 HL HA H; cbn [writeData pbind] in H; [lia |].
  destruct (znth d j) as [v |] eqn:Ev; cbn [pbind] in H; [| apply inv_fault in H; apply H].
  destruct (Z.eq_dec (Z.of_nat (length pre)) 13) as [E | E].
  - eapply (load_bad n _ pre v); [| exact HL | exact H]. lia.
  - destruct (load_step acc del n (Z.of_nat (length pre)) pre v _ c c' o Hn ltac:(lia) HL HA H) as (c1 & HL1 & HA1 & H1).
    assert (El : Z.of_nat (length (pre ++ [v])) = Z.of_nat (length pre) + 1) by (rewrite app_length; cbn [length]; lia).
    rewrite <- El in HL1. apply (IH (j + 1) (pre ++ [v]) c1); auto; lia.
Qed.

(** *** Sending *)

Lemma status_tx c : (Z.land (status_byte c) 4 =? 0) = negb (t_req (tx c 0)) /\ (Z.land (status_byte c) 16 =? 0) = negb (t_req (tx c 1))
  /\ (Z.land (status_byte c) 64 =? 0) = negb (t_req (tx c 2)) /\
  (Z.land (status_byte c) 84 =? 84) = t_req (tx c 0) && t_req (tx c 1) && t_req (tx c 2).
Proof.
  unfold status_byte. generalize (t_req (tx c 0)) (t_req (tx c 1)) (t_req (tx c 2)) (r_full (rx c 0)) (r_full (rx c 1))
    (Z.testbit (cfg c 44) 2) (Z.testbit (cfg c 44) 3) (Z.testbit (cfg c 44) 4).
  intros [] [] [] [] [] [] [] []; cbv; auto.
Qed.
Lemma request_acct acc del c n p : 0 <= n <= 2 -> t_req (tx c n) = false -> acct acc del c ->
  acct (acc ++ [tx_frame (t_b (tx c n))]) del (set_ph (request c (2 ^ n)) p).
Proof.
  intros Hn Hr ((Ok1 & Ok2) & P1 & P2). destruct (pending_split c n Hn) as (a & d & E & K).
  set (c1 := set_ph (request c (2 ^ n)) p).
  assert (T : forall k, tx c1 k = if k =? n then Txb true (t_b (tx c n)) else tx c k).
  { intros k. unfold c1, set_ph, request; cbn [tx]. destruct (Z.eqb_spec k n) as [-> | Hk].
    - replace ((0 <=? n) && (n <=? 2)) with true by lia. rewrite Z.pow2_bits_true by lia. rewrite orb_true_r. reflexivity.
    - destruct ((0 <=? k) && (k <=? 2)); [| reflexivity]. rewrite Z.pow2_bits_false by lia. rewrite orb_false_r. destruct (tx c k); reflexivity. }
  split; [| split].
  - split; [| exact Ok2]. intros m. rewrite T. destruct (m =? n); [apply Ok1 | apply Ok1].
  - rewrite (K c1) by (intros k Hk; rewrite T; destruct (Z.eqb_spec k n); congruence).
    rewrite E in P1. unfold tx_opt in *. rewrite Hr in P1. rewrite T, Z.eqb_refl. cbn [t_req t_b app] in *.
    unfold c1, set_ph, request; cbn [sent]. eapply Permutation_trans; [apply Permutation_app_tail; exact P1 | apply perm_put].
  - rewrite (waiting_same c c1) by reflexivity. exact P2.
Qed.

(* bytes and bits of an identifier *)
Definition s1_ok (b2 : Z) : bool :=
  let s := Z.lor (Z.lor (Z.land (Z.shiftl b2 3) 224) 8) (Z.land b2 3) in
  (s / 32 =? (b2 / 4) mod 8) && (s mod 4 =? b2 mod 4) && Z.testbit s 3.
Lemma s1_all : forallb s1_ok (map Z.of_nat (seq 0 256)) = true.
Proof. vm_compute. reflexivity. Qed.
Lemma s1_bits b2 : 0 <= b2 < 256 -> let s := Z.lor (Z.lor (Z.land (Z.shiftl b2 3) 224) 8) (Z.land b2 3) in
  s / 32 = (b2 / 4) mod 8 /\ s mod 4 = b2 mod 4 /\ Z.testbit s 3 = true.
Proof.
  intros H. pose proof s1_all as A. rewrite forallb_forall in A. specialize (A b2). unfold s1_ok in A.
  cbv zeta. assert (I : In b2 (map Z.of_nat (seq 0 256))).
  { apply in_map_iff. exists (Z.to_nat b2). split; [lia |]. apply in_seq. lia. }
  specialize (A I). apply andb_true_iff in A. destruct A as [A A3]. apply andb_true_iff in A. destruct A as [A1 A2].
  apply Z.eqb_eq in A1. apply Z.eqb_eq in A2. auto.
Qed.
Lemma ext_id id : 0 <= id < 536870912 -> let b2 := u8 (Z.shiftr id 16) in
  2097152 * u8 (Z.shiftr (u16 (Z.shiftr id 16)) 5) + 262144 * ((b2 / 4) mod 8) + 65536 * (b2 mod 4) + 256 * u8 (Z.shiftr id 8) + u8 id = id.
Proof.
  intros H b2. unfold b2, u8, u16. rewrite !Z.shiftr_div_pow2 by lia.
  change (2 ^ 16) with 65536. change (2 ^ 5) with 32. change (2 ^ 8) with 256. clear b2.
  assert (E1 : id / 65536 mod 65536 / 32 mod 256 = id / 2097152) by lia.
  assert (E2 : id / 65536 mod 256 / 4 mod 8 = id / 262144 mod 8) by lia.
  assert (E3 : (id / 65536 mod 256) mod 4 = id / 65536 mod 4) by lia.
  rewrite E1, E2, E3. clear E1 E2 E3. lia.
Qed.
Lemma std_id id : 0 <= id < 2048 ->
  8 * u8 (Z.shiftr (u16 id) 3) + u8 (Z.shiftl (u8 id) 5) / 32 = id /\ Z.testbit (u8 (Z.shiftl (u8 id) 5)) 3 = false.
Proof.
  intros H. unfold u8, u16. rewrite Z.shiftr_div_pow2, Z.shiftl_mul_pow2 by lia. change (2 ^ 3) with 8. change (2 ^ 5) with 32.
  assert (E : (id mod 256 * 32) mod 256 = 32 * (id mod 8)) by lia. rewrite E. split; [lia |].
  replace 32 with (2 ^ 5) by reflexivity. rewrite Z.mul_comm. apply Z.mul_pow2_bits_low. lia.
Qed.
Lemma dlc_bits len : 0 <= len <= 8 -> Z.testbit len 6 = false /\ len mod 16 = len /\ Z.testbit (u8 (Z.lor 64 len)) 6 = true /\ u8 (Z.lor 64 len) mod 16 = len.
Proof.
  intros H. assert (len = 0 \/ len = 1 \/ len = 2 \/ len = 3 \/ len = 4 \/ len = 5 \/ len = 6 \/ len = 7 \/ len = 8) as
    [-> | [-> | [-> | [-> | [-> | [-> | [-> | [-> | -> ]]]]]]]] by lia; cbv; auto.
Qed.

(* the bytes written are those of the frame *)
Definition id_bytes (m : can_msg) : list Z :=
  if c_ext m then
    let b2 := u8 (Z.shiftr (c_id m) 16) in
    [u8 (Z.shiftr (u16 (Z.shiftr (c_id m) 16)) 5); Z.lor (Z.lor (Z.land (Z.shiftl b2 3) 224) 8) (Z.land b2 3); u8 (Z.shiftr (c_id m) 8); u8 (c_id m)]
  else [u8 (Z.shiftr (u16 (c_id m)) 3); u8 (Z.shiftl (u8 (c_id m)) 5); 0; 0].
Lemma nth_firstn (b : list Z) k j : (j < k)%nat -> nth j (firstn k b) 0 = nth j b 0.
Proof. revert k j. induction b as [| x b IH]; intros [| k] [| j] H; cbn; try lia; auto. apply IH. lia. Qed.
Lemma skipn_firstn (b : list Z) k j : firstn k (skipn j b) = skipn j (firstn (j + k) b).
Proof. revert b. induction j as [| j IH]; intros b; [reflexivity |]. destruct b as [| x b]; [rewrite firstn_nil; reflexivity |]. cbn. apply IH. Qed.
Lemma tx_frame_msg m b : msg_ok m -> length b = 13%nat ->
  (if c_rtr m then firstn 5 b = id_bytes m ++ [u8 (Z.lor 64 (c_len m))]
   else firstn (5 + Z.to_nat (c_len m)) b = id_bytes m ++ c_len m :: firstn (Z.to_nat (c_len m)) (c_data m)) ->
  tx_frame b = msg_frame m.
Proof.
  intros (Hid & Hlen & Hcap & _) Hl Hb. destruct (dlc_bits (c_len m) Hlen) as (D1 & D2 & D3 & D4).
  assert (Hlen4 : length (id_bytes m) = 4%nat) by (unfold id_bytes; destruct (c_ext m); reflexivity).
  assert (B : (forall j, (j < 4)%nat -> bt b j = nth j (id_bytes m) 0) /\ bt b 4 = (if c_rtr m then u8 (Z.lor 64 (c_len m)) else c_len m)
     /\ (c_rtr m = false -> firstn (Z.to_nat (c_len m)) (skipn 5 b) = firstn (Z.to_nat (c_len m)) (c_data m))).
  { unfold bt. destruct (c_rtr m).
    - split; [| split; [| discriminate]].
      + intros j Hj. rewrite <- (nth_firstn b 5) by lia. rewrite Hb. rewrite app_nth1 by lia. reflexivity.
      + rewrite <- (nth_firstn b 5) by lia. rewrite Hb. rewrite app_nth2 by lia. rewrite Hlen4. reflexivity.
    - split; [| split].
      + intros j Hj. rewrite <- (nth_firstn b (5 + Z.to_nat (c_len m))) by lia. rewrite Hb. rewrite app_nth1 by lia. reflexivity.
      + rewrite <- (nth_firstn b (5 + Z.to_nat (c_len m))) by lia. rewrite Hb. rewrite app_nth2 by lia. rewrite Hlen4. reflexivity.
      + intros _. rewrite skipn_firstn, Hb. rewrite skipn_app, Hlen4. replace (5 - 4)%nat with 1%nat by lia.
        rewrite skipn_all2 by lia. reflexivity. }
  destruct B as (B1 & B2 & B3).
  assert (E : b_ext b = c_ext m /\ b_id b = c_id m).
  { unfold b_id, b_ext. rewrite (B1 0%nat), (B1 1%nat), (B1 2%nat), (B1 3%nat) by lia. unfold id_bytes. destruct (c_ext m); cbn [nth].
    - destruct (s1_bits (u8 (Z.shiftr (c_id m) 16)) ltac:(unfold u8; lia)) as (S1 & S2 & S3). cbv zeta in *.
      rewrite S1, S2, S3. split; [reflexivity |]. apply ext_id, Hid.
    - destruct (std_id (c_id m) Hid) as (S1 & S2). rewrite S2. split; [reflexivity | exact S1]. }
  destruct E as [E1 E2]. unfold tx_frame, msg_frame, b_data. cbv zeta. rewrite E1, E2, B2. destruct (c_rtr m).
  - rewrite D3, D4. reflexivity.
  - rewrite D1, D2. rewrite Z.min_l by lia. rewrite B3 by reflexivity. reflexivity.
Qed.

Lemma acct_ph acc del c p : acct acc del c -> acct acc del (set_ph c p).
Proof. apply acct_same; reflexivity. Qed.
Lemma bind_id {A : Type} acc del n m (f : unit -> prog A) c c' o : 0 <= n <= 2 -> loading n 0 [] c -> acct acc del c ->
  run (pbind (writeIdentifier (c_id m) (c_ext m)) f) c c' o ->
  exists c1, loading n 4 (id_bytes m) c1 /\ acct acc del c1 /\ run (f tt) c1 c' o.
Proof.
  intros Hn HL HA H. unfold writeIdentifier in H. unfold id_bytes. destruct (c_ext m); cbv zeta in H; cbn [pbind] in H.
  - apply (load_step acc del n _ _ _ _ _ _ _ Hn (eq_refl : 0 < 13) HL HA) in H. destruct H as (c1 & L1 & A1 & H).
    apply (load_step acc del n _ _ _ _ _ _ _ Hn (eq_refl : 0 + 1 < 13) L1 A1) in H. destruct H as (c2 & L2 & A2 & H).
    apply (load_step acc del n _ _ _ _ _ _ _ Hn (eq_refl : 0 + 1 + 1 < 13) L2 A2) in H. destruct H as (c3 & L3 & A3 & H).
    apply (load_step acc del n _ _ _ _ _ _ _ Hn (eq_refl : 0 + 1 + 1 + 1 < 13) L3 A3) in H. destruct H as (c4 & L4 & A4 & H).
    exists c4. split; [exact L4 | split; [exact A4 | exact H]].
  - apply (load_step acc del n _ _ _ _ _ _ _ Hn (eq_refl : 0 < 13) HL HA) in H. destruct H as (c1 & L1 & A1 & H).
    apply (load_step acc del n _ _ _ _ _ _ _ Hn (eq_refl : 0 + 1 < 13) L1 A1) in H. destruct H as (c2 & L2 & A2 & H).
    apply (load_step acc del n _ _ _ _ _ _ _ Hn (eq_refl : 0 + 1 + 1 < 13) L2 A2) in H. destruct H as (c3 & L3 & A3 & H).
    apply (load_step acc del n _ _ _ _ _ _ _ Hn (eq_refl : 0 + 1 + 1 + 1 < 13) L3 A3) in H. destruct H as (c4 & L4 & A4 & H).
    exists c4. split; [exact L4 | split; [exact A4 | exact H]].
Qed.
(* up to the identifier *)
Lemma send_start {A : Type} acc del n m (f : unit -> prog A) c c' o : 0 <= n <= 2 -> t_req (tx c n) = false -> acct acc del c ->
  run (PSel (PXfer (Z.lor 64 (2 * n)) (fun _ => pbind (writeIdentifier (c_id m) (c_ext m)) f))) c c' o ->
  exists c1, loading n 4 (id_bytes m) c1 /\ acct acc del c1 /\ run (f tt) c1 c' o.
Proof.
  intros Hn Hr HA H. apply inv_sel in H. destruct H as (c1 & E1 & H). apply events_later in E1.
  apply (l_acct _ _ E1) in HA. apply (later_not_req _ _ n E1) in Hr.
  apply (acct_ph _ _ _ Cmd) in HA.
  apply inv_xfer in H. destruct H as (c2 & E2 & H). apply events_later in E2.
  apply (l_acct _ _ E2) in HA. apply (later_not_req _ _ n E2) in Hr.
  assert (P : ph c2 = Cmd) by apply (l_ph _ _ E2).
  assert (X : xfer c2 (Z.lor 64 (2 * n)) = Some (set_ph c2 (Load n 0), 0)).
  { unfold xfer. rewrite P. assert (n = 0 \/ n = 1 \/ n = 2) as [-> | [-> | -> ]] by lia; reflexivity. }
  destruct H as [(c3 & v & X' & H) | (X' & _)]; [| congruence]. assert (c3 = set_ph c2 (Load n 0)) by congruence. subst c3.
  eapply (bind_id acc del n m f); [exact Hn | | apply acct_ph, HA | exact H].
  split; [reflexivity |]. split; [exact Hr |]. split; reflexivity.
Qed.
Lemma send_body acc del n m c c' o : 0 <= n <= 2 -> t_req (tx c n) = false -> acct acc del c -> msg_ok m ->
  run (sendTo m (2 * n)) c c' o -> o = Some true /\ acct (acc ++ [msg_frame m]) del c' /\ ph c' = Idle.
Proof.
  intros Hn Hr HA Hm H. unfold sendTo in H.
  apply (send_start acc del n m) in H; [| exact Hn | exact Hr | exact HA]. destruct H as (c1 & L1 & A1 & H).
  (* length and data *)
  assert (exists c2, loading n (if c_rtr m then 5 else 5 + c_len m)
     (if c_rtr m then id_bytes m ++ [u8 (Z.lor 64 (c_len m))] else id_bytes m ++ c_len m :: firstn (Z.to_nat (c_len m)) (c_data m)) c2 /\
     acct acc del c2 /\
     run (PDesel (PSel (let address := if 2 * n =? 0 then 1 else 2 * n in
       PXfer (Z.lor 128 address) (fun _ => PDesel (PRet (negb (address =? 0))))))) c2 c' o) as (c2 & L2 & A2 & H2).
  { destruct Hm as (_ & Hlen & Hcap & _). destruct (c_rtr m); cbn [pbind] in H.
    - apply (load_step acc del n _ _ _ _ _ _ _ Hn (eq_refl : 4 < 13) L1 A1) in H. destruct H as (c2 & L2 & A2 & H). exists c2. auto.
    - apply (load_step acc del n _ _ _ _ _ _ _ Hn (eq_refl : 4 < 13) L1 A1) in H. destruct H as (c2 & L2 & A2 & H).
      assert (El : length (id_bytes m ++ [c_len m]) = 5%nat).
      { rewrite app_length. unfold id_bytes. destruct (c_ext m); reflexivity. }
      apply (load_data acc del n (c_data m)) with (pre := id_bytes m ++ [c_len m]) in H; try lia; try assumption.
      + destruct H as (c3 & L3 & A3 & H). exists c3. rewrite El in L3. rewrite <- app_assoc in L3. cbn [app] in L3.
        change (skipn (Z.to_nat 0) (c_data m)) with (c_data m) in L3.
        replace (Z.of_nat 5 + Z.of_nat (Z.to_nat (c_len m))) with (5 + c_len m) in L3 by lia. auto.
      + rewrite El. exact L2. }
  clear H L1 A1 c1.
  apply inv_desel in H2. destruct H2 as (c3 & E3 & H). apply events_later in E3.
  apply (loading_later _ _ _ _ _ E3) in L2. apply (l_acct _ _ E3) in A2. destruct L2 as (L1 & L3 & L4 & L5).
  assert (D : desel c3 = set_ph c3 Idle) by (unfold desel; rewrite L1; reflexivity). rewrite D in H.
  assert (HF : tx_frame (t_b (tx c3 n)) = msg_frame m).
  { apply tx_frame_msg; [exact Hm | apply A2 |]. destruct (c_rtr m); [exact L4 |].
    rewrite <- L4. f_equal. pose proof (proj1 (proj2 Hm)). lia. }
  apply (acct_ph _ _ _ Idle) in A2.
  assert (R3 : t_req (tx (set_ph c3 Idle) n) = false /\ tx_frame (t_b (tx (set_ph c3 Idle) n)) = msg_frame m) by (split; assumption).
  revert R3 A2 H. generalize (set_ph c3 Idle). clear -Hn. intros c3 [R3 F3] A2 H.
  apply inv_sel in H. destruct H as (c4 & E4 & H). apply events_later in E4. apply (l_acct _ _ E4) in A2.
  rewrite <- (l_tx _ _ E4 n R3) in F3. apply (later_not_req _ _ n E4) in R3. apply (acct_ph _ _ _ Cmd) in A2.
  assert (R4 : t_req (tx (set_ph c4 Cmd) n) = false /\ tx_frame (t_b (tx (set_ph c4 Cmd) n)) = msg_frame m /\ ph (set_ph c4 Cmd) = Cmd) by (split; [| split]; auto).
  revert R4 A2 H. generalize (set_ph c4 Cmd). clear -Hn. intros c4 (R4 & F4 & P4) A4 H.
  cbv zeta in H. apply inv_xfer in H. destruct H as (c5 & E5 & H). apply events_later in E5. apply (l_acct _ _ E5) in A4.
  rewrite <- (l_tx _ _ E5 n R4) in F4. apply (later_not_req _ _ n E5) in R4. rewrite <- (l_ph _ _ E5) in P4.
  assert (X : xfer c5 (Z.lor 128 (if 2 * n =? 0 then 1 else 2 * n)) = Some (set_ph (request c5 (2 ^ n)) Done, 0)).
  { unfold xfer. rewrite P4. assert (n = 0 \/ n = 1 \/ n = 2) as [-> | [-> | -> ]] by lia; reflexivity. }
  destruct H as [(c6 & v & X' & H) | (X' & _)]; [| congruence].
  assert (c6 = set_ph (request c5 (2 ^ n)) Done) by congruence. subst c6. clear X X'.
  apply (request_acct _ _ _ n Done Hn R4) in A4. rewrite F4 in A4.
  assert (P : ph (set_ph (request c5 (2 ^ n)) Done) = Done) by reflexivity.
  revert A4 P H. generalize (set_ph (request c5 (2 ^ n)) Done). intros c6 A6 P6 H.
  apply inv_desel in H. destruct H as (c7 & E7 & H). apply events_later in E7. apply (l_acct _ _ E7) in A6. rewrite <- (l_ph _ _ E7) in P6.
  apply inv_ret in H. destruct H as (E8 & ->). apply events_later in E8.
  assert (D : desel c7 = set_ph c7 Idle) by (unfold desel; rewrite P6; reflexivity). rewrite D in E8.
  split; [| split].
  - assert (n = 0 \/ n = 1 \/ n = 2) as [-> | [-> | -> ]] by lia; reflexivity.
  - apply (l_acct _ _ E8), acct_ph, A6.
  - apply (l_ph _ _ E8).
Qed.
(* sendMessage: the first free buffer takes the message *)
Lemma send_run acc del m c c' o : ph c = Idle -> acct acc del c -> msg_ok m -> run (sendMessage m) c c' o ->
  ph c' = Idle /\ (o = Some true /\ acct (acc ++ [msg_frame m]) del c' \/
    o = Some false /\ acct acc del c' /\ (forall n, 0 <= n <= 2 -> t_req (tx c n) = true)).
Proof.
  intros Hi HA Hm H. unfold sendMessage in H.
  apply (inv_status 160 _ _ _ _ Stat status_byte Hi) in H; [| left; auto]. destruct H as (c1 & c2 & E1 & E2 & P2 & H).
  apply (l_acct _ _ E1) in HA. apply (l_acct _ _ E2) in HA.
  destruct (status_tx c1) as (S0 & S1 & S2 & _). rewrite S0, S1, S2 in H.
  destruct (t_req (tx c1 0)) eqn:R0; cbn [negb] in H.
  - destruct (t_req (tx c1 1)) eqn:R1; cbn [negb] in H.
    + destruct (t_req (tx c1 2)) eqn:R2; cbn [negb] in H.
      * apply inv_ret in H. destruct H as (E3 & ->). apply events_later in E3. split; [rewrite (l_ph _ _ E3); exact P2 |]. right.
        split; [reflexivity |]. split; [apply (l_acct _ _ E3), HA |]. intros n Hn.
        destruct (t_req (tx c n)) eqn:Q; [reflexivity |]. apply (later_not_req _ _ n E1) in Q.
        assert (n = 0 \/ n = 1 \/ n = 2) as [-> | [-> | -> ]] by lia; congruence.
      * apply (later_not_req _ _ 2 E2) in R2. apply (send_body acc del 2 m c2 c' o ltac:(lia) R2 HA Hm) in H. tauto.
    + apply (later_not_req _ _ 1 E2) in R1. apply (send_body acc del 1 m c2 c' o ltac:(lia) R1 HA Hm) in H. tauto.
  - apply (later_not_req _ _ 0 E2) in R0. apply (send_body acc del 0 m c2 c' o ltac:(lia) R0 HA Hm) in H. tauto.
Qed.
(* more than eight bytes *)
Lemma send_long_body acc del n m c c' o : 0 <= n <= 2 -> t_req (tx c n) = false -> acct acc del c -> c_rtr m = false -> 8 < c_len m ->
  run (sendTo m (2 * n)) c c' o -> o = None.
Proof.
  intros Hn Hr HA Hrtr Hlen H. unfold sendTo in H.
  apply (send_start acc del n m) in H; [| exact Hn | exact Hr | exact HA]. destruct H as (c1 & L1 & A1 & H).
  rewrite Hrtr in H. cbn [pbind] in H.
  apply (load_step acc del n _ _ _ _ _ _ _ Hn (eq_refl : 4 < 13) L1 A1) in H. destruct H as (c2 & L2 & A2 & H).
  assert (El : length (id_bytes m ++ [c_len m]) = 5%nat).
  { rewrite app_length. unfold id_bytes. destruct (c_ext m); reflexivity. }
  eapply (load_data_bad acc del n) with (pre := id_bytes m ++ [c_len m]); [exact Hn | | | | | exact A2 | exact H]; rewrite ?El; try lia. exact L2.
Qed.

(** *** Receiving *)

Definition reading (n i : Z) (R : rxb) (c : chip) : Prop := ph c = Read n i /\ rx c n = R /\ r_full R = true.
Lemma reading_later n i R c c1 : later c c1 -> reading n i R c -> reading n i R c1.
Proof.
  intros L (H1 & H2 & H3). unfold reading. rewrite (l_ph _ _ L). rewrite (l_rx _ _ L n) by congruence. auto.
Qed.
Lemma read_step {A : Type} acc del n i R b (k : Z -> prog A) c c' o : reading n i R c -> acct acc del c ->
  run (PXfer b k) c c' o -> exists c1 v, reading n (i + 1) R c1 /\ acct acc del c1 /\ (i < 13 -> v = bt (r_b R) (Z.to_nat i)) /\ run (k v) c1 c' o.
Proof.
  intros HL HA H. apply inv_xfer in H. destruct H as (c1 & E1 & H). apply events_later in E1.
  apply (reading_later _ _ _ _ _ E1) in HL. apply (l_acct _ _ E1) in HA. destruct HL as (L1 & L2 & L3).
  assert (X : xfer c1 b = Some (set_ph c1 (Read n (i + 1)), if i <? 13 then bt (r_b R) (Z.to_nat i) else cfg c1 (97 + 16 * n + i) mod 256)).
  { unfold xfer. rewrite L1, L2. reflexivity. }
  destruct H as [(c2 & v & X' & H) | (X' & _)]; [| congruence].
  rewrite X in X'. assert (c2 = set_ph c1 (Read n (i + 1))) by congruence. subst c2.
  assert (V : v = if i <? 13 then bt (r_b R) (Z.to_nat i) else cfg c1 (97 + 16 * n + i) mod 256) by congruence.
  exists (set_ph c1 (Read n (i + 1))), v. split; [split; [reflexivity | split; assumption] |]. split; [apply acct_ph, HA |]. split; [| exact H].
  intros Hi. rewrite V. replace (i <? 13) with true by lia. reflexivity.
Qed.
Lemma upd_firstn (l l2 : list Z) i v k : zupd l i v = Some l2 -> Z.of_nat k <= i -> firstn k l2 = firstn k l.
Proof.
  intros H Hk. unfold zupd in H. destruct (i <? 0) eqn:E; [discriminate |]. assert (Hk' : (k <= Z.to_nat i)%nat) by lia.
  revert H Hk'. generalize (Z.to_nat i). clear. intros n. revert l l2 k. induction n; intros [| x l] l2 k H Hk; cbn in H; try discriminate.
  - injection H as <-. replace k with O by lia. reflexivity.
  - destruct (upd_nat l n v) as [t |] eqn:Et; [| discriminate]. injection H as <-. destruct k; [reflexivity |]. cbn. f_equal. eapply IHn; [exact Et | lia].
Qed.
Lemma upd_firstn_snoc (l l2 : list Z) i v : zupd l i v = Some l2 -> firstn (Z.to_nat (i + 1)) l2 = firstn (Z.to_nat i) l ++ [v].
Proof.
  intros H. unfold zupd in H. destruct (i <? 0) eqn:E; [discriminate |]. replace (Z.to_nat (i + 1)) with (S (Z.to_nat i)) by lia.
  revert H. generalize (Z.to_nat i). clear. intros n. revert l l2. induction n; intros [| x l] l2 H; cbn in H; try discriminate.
  - injection H as <-. reflexivity.
  - destruct (upd_nat l n v) as [t |] eqn:Et; [| discriminate]. injection H as <-. cbn. f_equal. apply IHn, Et.
Qed.
Lemma upd_zlen (l l2 : list Z) i v : zupd l i v = Some l2 -> zlen l2 = zlen l.
Proof.
  intros H. unfold zupd in H. destruct (i <? 0); [discriminate |]. revert H. generalize (Z.to_nat i). clear. intros n. revert l l2.
  induction n; intros [| x l] l2 H; cbn in H; try discriminate.
  - injection H as <-. rewrite !zlen_cons. reflexivity.
  - destruct (upd_nat l n v) as [t |] eqn:Et; [| discriminate]. injection H as <-. rewrite !zlen_cons. f_equal. eapply IHn, Et.
Qed.
Lemma bt_skip b j : length b = 13%nat -> 0 <= j < 8 ->
  firstn (Z.to_nat (j + 1)) (skipn 5 b) = firstn (Z.to_nat j) (skipn 5 b) ++ [bt b (Z.to_nat (5 + j))].
Proof.
  intros H Hj. apply firstn_snoc. unfold znth, bt. replace (j <? 0) with false by lia.
  replace (Z.to_nat (5 + j)) with (5 + Z.to_nat j)%nat by lia.
  do 13 (destruct b as [| ?x b]; [cbn in H; lia |]). cbn [skipn].
  assert (j = 0 \/ j = 1 \/ j = 2 \/ j = 3 \/ j = 4 \/ j = 5 \/ j = 6 \/ j = 7) as [-> | [-> | [-> | [-> | [-> | [-> | [-> | -> ]]]]]]] by lia; reflexivity.
Qed.
(* the data loop: all or nothing *)
Definition agree (j : Z) (d b : list Z) : Prop := firstn (Z.to_nat (Z.min j 8)) d = firstn (Z.to_nat (Z.min j 8)) (skipn 5 b).
Lemma read_data {A : Type} acc del n R (f : list Z -> prog A) c' o : length (r_b R) = 13%nat -> forall k j d c, 0 <= j ->
  reading n (5 + j) R c -> acct acc del c -> agree j d (r_b R) ->
  run (pbind (readData k j d) f) c c' o ->
  (j + Z.of_nat k <= Z.max j (zlen d) /\ exists c1 d1, reading n (5 + j + Z.of_nat k) R c1 /\ acct acc del c1 /\ zlen d1 = zlen d /\ agree (j + Z.of_nat k) d1 (r_b R)
     /\ run (f d1) c1 c' o) \/
  (zlen d < j + Z.of_nat k /\ o = None).
Proof.
  intros Hb. induction k as [| k IH]; intros j d c Hj HL HA HG H; cbn [readData pbind] in H.
  - left. split; [lia |]. exists c, d. rewrite !Z.add_0_r. auto.
  - apply (read_step acc del n (5 + j) R) in H; [| exact HL | exact HA]. destruct H as (c1 & v & L1 & A1 & V & H).
    destruct (zupd d j v) as [d1 |] eqn:Eu.
    + cbn [pbind] in H. assert (HG1 : agree (j + 1) d1 (r_b R)).
      { unfold agree in *. destruct (Z.leb_spec 8 j) as [H8 | H8].
        - rewrite Z.min_r in * by lia. rewrite (upd_firstn d d1 j v) by (auto; lia). exact HG.
        - rewrite Z.min_l in * by lia. rewrite (upd_firstn_snoc _ _ _ _ Eu), HG, (bt_skip _ j Hb) by lia. rewrite V by lia. reflexivity. }
      assert (Hz : j < zlen d). { destruct (Z.ltb_spec j (zlen d)) as [|Hz]; [lia |]. rewrite (proj2 (zupd_None d j v)) in Eu by lia. discriminate. }
      replace (5 + j + 1) with (5 + (j + 1)) in L1 by lia.
      destruct (IH (j + 1) d1 c1 ltac:(lia) L1 A1 HG1 H) as [(K1 & c2 & d2 & L2 & A2 & Z2 & G2 & H2) | (K1 & ->)].
      * left. rewrite (upd_zlen _ _ _ _ Eu) in K1, Z2. split; [lia |]. exists c2, d2.
        replace (5 + j + Z.of_nat (S k)) with (5 + (j + 1) + Z.of_nat k) by lia. replace (j + Z.of_nat (S k)) with (j + 1 + Z.of_nat k) by lia. auto.
      * right. rewrite (upd_zlen _ _ _ _ Eu) in K1. split; [lia | reflexivity].
    + cbn [pbind] in H. apply inv_fault in H. destruct H as (_ & ->). right. apply zupd_None in Eu. split; [lia | reflexivity].
Qed.

Definition idx_ok (p : Z) : bool :=
  let f := p / 256 in let s := p mod 256 in
  (Z.lor (Z.lor (32 * f) (Z.land (Z.shiftr s 3) 28)) (Z.land s 3) =? 32 * f + 4 * (s / 32) + s mod 4)
  && (negb (Z.land s 8 =? 0) && Z.testbit s 3 || (Z.land s 8 =? 0) && negb (Z.testbit s 3))
  && (Z.land s 15 =? s mod 16).
Lemma idx_all : forallb idx_ok (map Z.of_nat (seq 0 2048)) = true.
Proof. vm_compute. reflexivity. Qed.
Lemma idx_bits f s : 0 <= f < 8 -> 0 <= s < 256 -> Z.lor (Z.lor (32 * f) (Z.land (Z.shiftr s 3) 28)) (Z.land s 3) = 32 * f + 4 * (s / 32) + s mod 4
  /\ negb (Z.land s 8 =? 0) = Z.testbit s 3 /\ Z.land s 15 = s mod 16.
Proof.
  intros Hf Hs. pose proof idx_all as A. rewrite forallb_forall in A. specialize (A (256 * f + s)). unfold idx_ok in A.
  assert (I : In (256 * f + s) (map Z.of_nat (seq 0 2048))).
  { apply in_map_iff. exists (Z.to_nat (256 * f + s)). split; [lia |]. apply in_seq. lia. }
  specialize (A I). replace ((256 * f + s) / 256) with f in A by lia. replace ((256 * f + s) mod 256) with s in A by lia.
  apply andb_true_iff in A. destruct A as [A A3]. apply andb_true_iff in A. destruct A as [A1 A2]. apply Z.eqb_eq in A1. apply Z.eqb_eq in A3.
  split; [exact A1 |]. split; [| exact A3]. destruct (Z.land s 8 =? 0), (Z.testbit s 3); cbn in A2 |- *; congruence.
Qed.
Lemma std_lor f s : 0 <= f < 256 -> 0 <= s < 8 -> Z.lor (u8 (u16 (Z.shiftl f 3))) s = 8 * (f mod 32) + s.
Proof.
  intros Hf Hs. unfold u8, u16. rewrite Z.shiftl_mul_pow2 by lia. change (2 ^ 3) with 8.
  replace ((f * 8) mod 65536 mod 256) with (Z.shiftl (f mod 32) 3) by (rewrite Z.shiftl_mul_pow2 by lia; change (2 ^ 3) with 8; lia).
  assert (L : Z.land (Z.shiftl (f mod 32) 3) s = 0).
  { apply Z.bits_inj'. intros k Hk. rewrite Z.land_spec, Z.bits_0. destruct (Z.ltb_spec k 3).
    - rewrite Z.shiftl_spec_low by lia. reflexivity.
    - rewrite (Z.bits_above_log2 s k); [apply andb_false_r | lia |]. destruct (Z.eq_dec s 0) as [-> |]; [cbn; lia |]. apply Z.log2_lt_pow2; [lia |].
      eapply Z.lt_le_trans; [| apply (Z.pow_le_mono_r 2 3 k); lia]. change (2 ^ 3) with 8. lia. }
  rewrite <- Z.lxor_lor by exact L. rewrite <- Z.add_nocarry_lxor by exact L. rewrite Z.shiftl_mul_pow2 by lia. change (2 ^ 3) with 8. lia.
Qed.
Lemma bt_byte b n : length b = 13%nat -> Forall byte b -> (n < 13)%nat -> 0 <= bt b n < 256.
Proof. intros Hl Hb Hn. unfold bt. rewrite Forall_forall in Hb. apply Hb. apply nth_In. lia. Qed.
Lemma read_id {A : Type} acc del n R (f : bool * Z -> prog A) c c' o : length (r_b R) = 13%nat -> Forall byte (r_b R) ->
  reading n 0 R c -> acct acc del c -> run (pbind readIdentifier f) c c' o ->
  exists c1, reading n 4 R c1 /\ acct acc del c1 /\ run (f (b_ext (r_b R), b_id (r_b R))) c1 c' o.
Proof.
  intros Hl Hb HL HA H. unfold readIdentifier in H. cbn [pbind] in H.
  apply (read_step acc del n 0 R) in H; [| exact HL | exact HA]. destruct H as (c1 & v1 & L1 & A1 & V1 & H).
  specialize (V1 eq_refl). cbv beta in H. cbn [pbind] in H.
  apply (read_step acc del n (0 + 1) R) in H; [| exact L1 | exact A1]. destruct H as (c2 & v2 & L2 & A2 & V2 & H).
  specialize (V2 eq_refl). cbv beta in H.
  pose proof (bt_byte _ 0 Hl Hb ltac:(lia)) as Y0. pose proof (bt_byte _ 1 Hl Hb ltac:(lia)) as Y1.
  change (Z.to_nat 0) with 0%nat in V1. change (Z.to_nat (0 + 1)) with 1%nat in V2. subst v1 v2.
  unfold b_id, b_ext. destruct (idx_bits (bt (r_b R) 0 mod 8) (bt (r_b R) 1) ltac:(lia) Y1) as (I1 & I2 & _).
  rewrite I2 in H. destruct (Z.testbit (bt (r_b R) 1) 3) eqn:Ex; cbn [pbind] in H.
  - apply (read_step acc del n (0 + 1 + 1) R) in H; [| exact L2 | exact A2]. destruct H as (c3 & v3 & L3 & A3 & V3 & H). specialize (V3 eq_refl).
    cbv beta in H. cbn [pbind] in H.
    apply (read_step acc del n (0 + 1 + 1 + 1) R) in H; [| exact L3 | exact A3]. destruct H as (c4 & v4 & L4 & A4 & V4 & H). specialize (V4 eq_refl).
    exists c4. split; [exact L4 |]. split; [exact A4 |]. cbn [pbind] in H. cbv zeta in H.
    change (Z.to_nat (0 + 1 + 1)) with 2%nat in V3. change (Z.to_nat (0 + 1 + 1 + 1)) with 3%nat in V4. subst v3 v4.
    assert (E1 : u8 (u16 (Z.shiftl (bt (r_b R) 0) 5)) = 32 * (bt (r_b R) 0 mod 8)).
    { clear -Y0. unfold u8, u16. rewrite Z.shiftl_mul_pow2 by lia. change (2 ^ 5) with 32. lia. }
    rewrite E1, I1 in H.
    assert (E2 : Z.shiftr (u16 (Z.shiftl (bt (r_b R) 0) 5)) 8 = bt (r_b R) 0 / 8).
    { clear -Y0. unfold u16. rewrite Z.shiftl_mul_pow2, Z.shiftr_div_pow2 by lia. change (2 ^ 5) with 32. change (2 ^ 8) with 256. lia. }
    rewrite E2 in H. clear -H.
    match type of H with run (f (true, ?x)) _ _ _ => replace x with (2097152 * bt (r_b R) 0 + 262144 * (bt (r_b R) 1 / 32) + 65536 * (bt (r_b R) 1 mod 4) + 256 * bt (r_b R) 2 + bt (r_b R) 3) in H end.
    + exact H.
    + pose proof (Z.div_mod (bt (r_b R) 0) 8 ltac:(lia)) as D. revert D.
      generalize (bt (r_b R) 0 / 8) (bt (r_b R) 0 mod 8) (bt (r_b R) 1 / 32) (bt (r_b R) 1 mod 4). intros. lia.
  - apply (read_step acc del n (0 + 1 + 1) R) in H; [| exact L2 | exact A2]. destruct H as (c3 & v3 & L3 & A3 & V3 & H).
    cbv beta in H. cbn [pbind] in H.
    apply (read_step acc del n (0 + 1 + 1 + 1) R) in H; [| exact L3 | exact A3]. destruct H as (c4 & v4 & L4 & A4 & V4 & H).
    exists c4. split; [exact L4 |]. split; [exact A4 |]. cbn [pbind] in H. cbv zeta in H.
    rewrite std_lor in H; [| exact Y0 | rewrite Z.shiftr_div_pow2 by lia; change (2 ^ 5) with 32; clear -Y1; lia].
    match type of H with run (f (false, ?x)) _ _ _ => replace x with (8 * bt (r_b R) 0 + bt (r_b R) 1 / 32) in H end.
    + exact H.
    + clear -Y0 Y1. unfold u16. rewrite Z.shiftl_mul_pow2, !Z.shiftr_div_pow2 by lia. change (2 ^ 3) with 8. change (2 ^ 8) with 256. change (2 ^ 5) with 32. lia.
Qed.

Lemma rxstatus_bits c : (Z.land (rxstatus_byte c) 64 =? 0) = negb (r_full (rx c 0)) /\ (Z.land (rxstatus_byte c) 128 =? 0) = negb (r_full (rx c 1))
  /\ (Z.land (rxstatus_byte c) 8 =? 0) = negb (r_rtr (if r_full (rx c 0) then rx c 0 else rx c 1)).
Proof.
  unfold rxstatus_byte. cbv zeta. generalize (if r_full (rx c 0) then rx c 0 else rx c 1) as b. intros b.
  generalize (r_rtr b) (b_ext (r_b b)) (r_full (rx c 0)) (r_full (rx c 1)). clear b.
  assert (H : 0 <= cfg c 96 mod 8 < 8) by (apply Z.mod_pos_bound; lia). revert H. generalize (cfg c 96 mod 8) as x. clear. intros x H.
  assert (x = 0 \/ x = 1 \/ x = 2 \/ x = 3 \/ x = 4 \/ x = 5 \/ x = 6 \/ x = 7) as [-> | [-> | [-> | [-> | [-> | [-> | [-> | -> ]]]]]]] by lia;
    intros [] [] [] []; vm_compute; auto.
Qed.
(* what is known about the message returned for a receive buffer *)
Definition received (m : can_msg) (R : rxb) (m1 : can_msg) : Prop :=
  c_ext m1 = b_ext (r_b R) /\ c_id m1 = b_id (r_b R) /\ c_rtr m1 = r_rtr R /\ c_len m1 = bt (r_b R) 4 mod 16 /\
  c_dlc m1 = c_dlc m /\ c_fd m1 = c_fd m /\ c_brs m1 = c_brs m /\ zlen (c_data m1) = zlen (c_data m) /\
  agree (bt (r_b R) 4 mod 16) (c_data m1) (r_b R).
Lemma received_frame m R m1 : received m R m1 -> bt (r_b R) 4 mod 16 <= 8 -> msg_frame m1 = rx_frame (r_b R) (r_rtr R).
Proof.
  intros (H1 & H2 & H3 & H4 & _ & _ & _ & _ & G) Hd. unfold msg_frame, rx_frame, b_data. cbv zeta. rewrite H1, H2, H3, H4.
  unfold agree in G. rewrite Z.min_l in * by assumption. rewrite G. reflexivity.
Qed.
Lemma desel_acct acc del c n i R : 0 <= n <= 1 -> reading n i R c -> acct acc del c -> acct acc (del ++ [rx_frame (r_b R) (r_rtr R)]) (desel c).
Proof.
  intros Hn (L1 & L2 & L3) ((Ok1 & Ok2) & P1 & P2). destruct (waiting_split c n Hn) as (a & d & E & K).
  unfold desel. rewrite L1. set (c1 := set_ph (set_rx c n (Rxb false (r_rtr (rx c n)) (r_b (rx c n)))) Idle).
  assert (T : forall k, rx c1 k = if k =? n then Rxb false (r_rtr R) (r_b R) else rx c k).
  { intros k. unfold c1, set_ph, set_rx; cbn [rx]. unfold fupd. rewrite L2. reflexivity. }
  split; [| split].
  - split; [exact Ok1 |]. intros m. rewrite T. destruct (m =? n); [cbn [r_b]; rewrite <- L2; apply Ok2 | apply Ok2].
  - rewrite (pending_same c c1) by reflexivity. exact P1.
  - rewrite (K c1) by (intros k Hk; rewrite T; destruct (Z.eqb_spec k n); congruence).
    rewrite E in P2. unfold rx_opt in *. rewrite L2, L3 in P2. rewrite T, Z.eqb_refl. cbn [r_full app] in *.
    unfold c1, set_ph, set_rx; cbn [recv]. eapply Permutation_trans; [exact P2 | apply perm_take].
Qed.
Lemma receive_body acc del n m status c c' o : 0 <= n <= 1 -> r_full (rx c n) = true -> (Z.land status 8 =? 0) = negb (r_rtr (rx c n)) ->
  acct acc del c -> run (receiveFrom m status (Z.lor 144 (4 * n))) c c' o ->
  let R := rx c n in let len := bt (r_b R) 4 mod 16 in
  (zlen (c_data m) < len /\ o = None) \/
  (len <= zlen (c_data m) /\ exists m1, o = Some (true, m1) /\ received m R m1 /\ acct acc (del ++ [rx_frame (r_b R) (r_rtr R)]) c' /\ ph c' = Idle).
Proof.
  intros Hn Hf Hs HA H R len.
  assert (Hok : length (r_b R) = 13%nat /\ Forall byte (r_b R)) by apply HA. destruct Hok as [Hl Hb].
  unfold receiveFrom in H. apply inv_sel in H. destruct H as (c1 & E1 & H). apply events_later in E1.
  apply (l_acct _ _ E1) in HA. assert (R1 : rx c1 n = R) by apply (l_rx _ _ E1 n Hf). apply (acct_ph _ _ _ Cmd) in HA.
  apply inv_xfer in H. destruct H as (c2 & E2 & H). apply events_later in E2. apply (l_acct _ _ E2) in HA.
  assert (R2 : rx c2 n = R). { rewrite (l_rx _ _ E2 n); cbn [rx set_ph]; rewrite R1; [reflexivity | exact Hf]. }
  assert (P : ph c2 = Cmd) by apply (l_ph _ _ E2).
  assert (X : xfer c2 (Z.lor 144 (4 * n)) = Some (set_ph c2 (Read n 0), 0)).
  { unfold xfer. rewrite P. assert (n = 0 \/ n = 1) as [-> | -> ] by lia; reflexivity. }
  destruct H as [(c3 & v & X' & H) | (X' & _)]; [| congruence]. assert (c3 = set_ph c2 (Read n 0)) by congruence. subst c3.
  apply (read_id acc del n R) in H; [| exact Hl | exact Hb | split; [reflexivity | split; [exact R2 | exact Hf]] | apply acct_ph, HA].
  destruct H as (c4 & L4 & A4 & H). clear X X' v. cbv zeta in H. cbn [fst snd] in H.
  apply (read_step acc del n 4 R) in H; [| exact L4 | exact A4]. destruct H as (c5 & v & L5 & A5 & V & H). specialize (V eq_refl).
  change (Z.to_nat 4) with 4%nat in V. subst v.
  assert (Hd : Z.land (bt (r_b R) 4) 15 = len).
  { apply (idx_bits 0); [lia |]. apply (bt_byte _ 4 Hl Hb). lia. }
  rewrite Hd in H. assert (Hlen : 0 <= len < 16) by (apply Z.mod_pos_bound; lia).
  apply (read_data acc del n R) with (j := 0) in H; [| exact Hl | lia | exact L5 | exact A5 | reflexivity].
  rewrite Z2Nat.id in H by lia.
  destruct H as [(K & c6 & d1 & L6 & A6 & Z6 & G6 & H) | (K & ->)]; [right | left; split; [lia | reflexivity]].
  split; [pose proof (zlen_nonneg (c_data m)); lia |].
  apply inv_desel in H. destruct H as (c7 & E7 & H). apply events_later in E7.
  apply (reading_later _ _ _ _ _ E7) in L6. apply (l_acct _ _ E7) in A6.
  apply inv_ret in H. destruct H as (E8 & ->). apply events_later in E8.
  eexists. split; [reflexivity |]. split; [| split].
  - unfold received. cbn [c_ext c_id c_rtr c_len c_dlc c_fd c_brs c_data].
    split; [reflexivity |]. split; [reflexivity |]. split; [rewrite Hs; apply negb_involutive |]. split; [reflexivity |].
    split; [reflexivity |]. split; [reflexivity |]. split; [reflexivity |]. split; [exact Z6 |]. exact G6.
  - apply (l_acct _ _ E8). eapply desel_acct; [exact Hn | exact L6 | exact A6].
  - rewrite (l_ph _ _ E8). unfold desel. rewrite (proj1 L6). reflexivity.
Qed.
(* getMessage; n is the buffer it reads *)
Lemma get_run acc del m c c' o : ph c = Idle -> acct acc del c -> run (getMessage m) c c' o ->
  (o = Some (false, m) /\ acct acc del c' /\ ph c' = Idle /\ forall n, 0 <= n <= 1 -> r_full (rx c n) = false) \/
  (exists n R, 0 <= n <= 1 /\ r_full R = true /\ (r_full (rx c n) = true -> rx c n = R) /\ (n = 1 -> r_full (rx c 0) = false) /\
    let len := bt (r_b R) 4 mod 16 in
    ((zlen (c_data m) < len /\ o = None) \/
     (len <= zlen (c_data m) /\ exists m1, o = Some (true, m1) /\ received m R m1 /\ acct acc (del ++ [rx_frame (r_b R) (r_rtr R)]) c' /\ ph c' = Idle))).
Proof.
  intros Hi HA H. unfold getMessage in H.
  apply (inv_status 176 _ _ _ _ RxStat rxstatus_byte Hi) in H; [| right; auto]. destruct H as (c1 & c2 & E1 & E2 & P2 & H).
  apply (l_acct _ _ E1) in HA. apply (l_acct _ _ E2) in HA.
  destruct (rxstatus_bits c1) as (S0 & S1 & S2). rewrite S0, S1 in H. rewrite !negb_involutive in H.
  destruct (r_full (rx c1 0)) eqn:F0.
  - right. exists 0, (rx c1 0). split; [lia |]. split; [exact F0 |].
    split; [intros Q; symmetry; apply (l_rx _ _ E1 0 Q) |]. split; [lia |].
    pose proof (later_full _ _ 0 E2 F0) as F'. rewrite <- (l_rx _ _ E2 0 F0) in S2 |- *. apply (receive_body acc del 0 m _ c2 c' o ltac:(lia) F' S2 HA H).
  - destruct (r_full (rx c1 1)) eqn:F1.
    + right. exists 1, (rx c1 1). split; [lia |]. split; [exact F1 |].
      split; [intros Q; symmetry; apply (l_rx _ _ E1 1 Q) |].
      split. { intros _. destruct (r_full (rx c 0)) eqn:Q; [| reflexivity]. apply (later_full _ _ 0 E1) in Q. congruence. }
      pose proof (later_full _ _ 1 E2 F1) as F'. rewrite <- (l_rx _ _ E2 1 F1) in S2 |- *. apply (receive_body acc del 1 m _ c2 c' o ltac:(lia) F' S2 HA H).
    + left. apply inv_ret in H. destruct H as (E3 & ->). apply events_later in E3. split; [reflexivity |].
      split; [apply (l_acct _ _ E3), HA |]. split; [rewrite (l_ph _ _ E3); exact P2 |]. intros n Hn.
      destruct (r_full (rx c n)) eqn:Q; [| reflexivity]. apply (later_full _ _ n E1) in Q.
      assert (n = 0 \/ n = 1) as [-> | -> ] by lia; congruence.
Qed.

(* the chip was sent nothing but valid frames *)
Definition short (f : frame) : Prop := f_dlc f <= 8.
Lemma event_recv c c1 : event c c1 -> exists l, recv c1 = recv c ++ l.
Proof.
  destruct 1 as [c n Hn Hq | c n b rtr Hn Hf Hl Hb | c]; cbn [recv].
  - exists []. rewrite app_nil_r. reflexivity.
  - exists [rx_frame b rtr]. reflexivity.
  - exists []. rewrite app_nil_r. reflexivity.
Qed.
Lemma set_recv_xfer c b c1 v : xfer c b = Some (c1, v) -> recv c1 = recv c.
Proof.
  unfold xfer. destruct (ph c); intros H; try discriminate;
    repeat match type of H with (if ?x then _ else _) = _ => destruct x; try discriminate end;
    injection H as <- _; try reflexivity; unfold set_ph, write_reg; destruct (_ || _); reflexivity.
Qed.
Lemma run_recv {A : Type} (p : prog A) c c1 o : run p c c1 o -> exists l, recv c1 = recv c ++ l.
Proof.
  induction 1.
  - exists []. rewrite app_nil_r. reflexivity.
  - exists []. rewrite app_nil_r. reflexivity.
  - destruct (event_recv _ _ H) as (l & E). destruct IHrun as (l2 & E2). exists (l ++ l2). rewrite E2, E, app_assoc. reflexivity.
  - exact IHrun.
  - destruct IHrun as (l & E). exists l. rewrite E. unfold desel. destruct (ph c); reflexivity.
  - destruct IHrun as (l & E). exists l. rewrite E. rewrite (set_recv_xfer _ _ _ _ H). reflexivity.
  - exists []. rewrite app_nil_r. reflexivity.
Qed.
Lemma waiting_in_recv acc del c n : acct acc del c -> 0 <= n <= 1 -> r_full (rx c n) = true -> In (rx_frame (r_b (rx c n)) (r_rtr (rx c n))) (recv c).
Proof.
  intros (_ & _ & P) Hn Hf. eapply Permutation_in; [symmetry; exact P |]. apply in_or_app. right. rewrite waiting_eq.
  assert (n = 0 \/ n = 1) as [-> | -> ] by lia; apply in_or_app; [left | right]; unfold rx_opt; rewrite Hf; left; reflexivity.
Qed.

Lemma usage_inv c acc del : usage c acc del -> ph c = Idle /\ exists del', acct acc del' c /\ (Forall short (recv c) -> del' = del).
Proof.
  induction 1 as [c Hi Hok Hp Hw Hs Hr | c c1 acc del H IH He | c acc del m c1 b H IH Hm Hrun | c acc del m c1 b m1 H IH Hrun].
  - split; [exact Hi |]. exists []. split; [| reflexivity]. split; [exact Hok |]. rewrite Hp, Hw, Hs, Hr. split; apply Permutation_refl.
  - destruct IH as (IH & del' & IA & ID). pose proof (event_later _ _ He) as L. split; [rewrite (l_ph _ _ L); exact IH |].
    exists del'. split; [apply (l_acct _ _ L), IA |]. destruct (event_recv _ _ He) as (l & ->). intros F. apply ID. apply Forall_app in F. apply F.
  - destruct IH as (IH & del' & IA & ID). destruct (run_recv _ _ _ _ Hrun) as (l & El).
    assert (F : Forall short (recv c1) -> del' = del). { rewrite El. intros F. apply ID. apply Forall_app in F. apply F. }
    destruct (send_run acc del' m c c1 _ IH IA Hm Hrun) as (Hi & [(Eb & HA) | (Eb & HA & _)]); injection Eb as ->; split; try exact Hi; exists del'; auto.
  - destruct IH as (IH & del' & IA & ID). destruct (run_recv _ _ _ _ Hrun) as (l & El).
    assert (F : Forall short (recv c1) -> del' = del). { rewrite El. intros F. apply ID. apply Forall_app in F. apply F. }
    destruct (get_run acc del' m c c1 _ IH IA Hrun) as [(Eb & HA & Hi & _) | (n & R & Hn & Hf & _ & _ & [(_ & Eb) | (Hl & m2 & Eb & Hm & HA & Hi)])];
      [| discriminate |].
    + injection Eb as -> ->. split; [exact Hi |]. exists del'. auto.
    + injection Eb as -> ->. split; [exact Hi |]. exists (del' ++ [rx_frame (r_b R) (r_rtr R)]). split; [exact HA |]. intros Fs.
      rewrite (F Fs). f_equal. f_equal. symmetry. apply (received_frame m R m2 Hm).
      destruct HA as (_ & _ & P). rewrite Forall_forall in Fs. apply (Fs (rx_frame (r_b R) (r_rtr R))).
      eapply Permutation_in; [symmetry; exact P |]. apply in_or_app. left. apply in_or_app. right. left. reflexivity.
Qed.

(* getMessage fails only for a frame that is longer than the message object *)
Lemma get_none acc del m c c' : ph c = Idle -> acct acc del c -> run (getMessage m) c c' None ->
  exists f, In f (recv c') /\ zlen (c_data m) < f_dlc f.
Proof.
  intros Hi HA H. unfold getMessage in H.
  apply (inv_status 176 _ _ _ _ RxStat rxstatus_byte Hi) in H; [| right; auto]. destruct H as (c1 & c2 & E1 & E2 & P2 & H).
  apply (l_acct _ _ E1) in HA. apply (l_acct _ _ E2) in HA.
  destruct (rxstatus_bits c1) as (S0 & S1 & S2). rewrite S0, S1 in H. rewrite !negb_involutive in H.
  assert (K : forall n, 0 <= n <= 1 -> r_full (rx c1 n) = true -> r_rtr (rx c1 n) = r_rtr (if r_full (rx c1 0) then rx c1 0 else rx c1 1) ->
    run (receiveFrom m (rxstatus_byte c1) (Z.lor 144 (4 * n))) c2 c' None -> exists f, In f (recv c') /\ zlen (c_data m) < f_dlc f).
  { intros n Hn Fn Rn Hr. pose proof (later_full _ _ n E2 Fn) as F'. rewrite <- Rn in S2. rewrite <- (l_rx _ _ E2 n Fn) in S2.
    destruct (receive_body acc del n m _ c2 c' None Hn F' S2 HA Hr) as [(Hl & _) | (_ & m1 & E & _)]; [| discriminate].
    exists (rx_frame (r_b (rx c2 n)) (r_rtr (rx c2 n))). split; [| exact Hl].
    destruct (run_recv _ _ _ _ Hr) as (l & ->). apply in_or_app. left. apply (waiting_in_recv acc del c2 n HA Hn F'). }
  destruct (r_full (rx c1 0)) eqn:F0; [apply (K 0 ltac:(lia) F0 eq_refl H) |].
  destruct (r_full (rx c1 1)) eqn:F1; [apply (K 1 ltac:(lia) F1 eq_refl H) |].
  apply inv_ret in H. destruct H as (_ & H). discriminate.
Qed.
Lemma send_long acc del m c c' o : ph c = Idle -> acct acc del c -> c_rtr m = false -> 8 < c_len m -> run (sendMessage m) c c' o ->
  o = None \/ (o = Some false /\ forall n, 0 <= n <= 2 -> t_req (tx c n) = true).
Proof.
  intros Hi HA Hr Hl H. unfold sendMessage in H.
  apply (inv_status 160 _ _ _ _ Stat status_byte Hi) in H; [| left; auto]. destruct H as (c1 & c2 & E1 & E2 & P2 & H).
  apply (l_acct _ _ E1) in HA. apply (l_acct _ _ E2) in HA.
  destruct (status_tx c1) as (S0 & S1 & S2 & _). rewrite S0, S1, S2 in H.
  destruct (t_req (tx c1 0)) eqn:R0; cbn [negb] in H.
  - destruct (t_req (tx c1 1)) eqn:R1; cbn [negb] in H.
    + destruct (t_req (tx c1 2)) eqn:R2; cbn [negb] in H.
      * right. apply inv_ret in H. destruct H as (E3 & ->). split; [reflexivity |]. intros n Hn.
        destruct (t_req (tx c n)) eqn:Q; [reflexivity |]. apply (later_not_req _ _ n E1) in Q.
        assert (n = 0 \/ n = 1 \/ n = 2) as [-> | [-> | -> ]] by lia; congruence.
      * left. apply (later_not_req _ _ 2 E2) in R2. apply (send_long_body acc del 2 m c2 c' o ltac:(lia) R2 HA Hr Hl H).
    + left. apply (later_not_req _ _ 1 E2) in R1. apply (send_long_body acc del 1 m c2 c' o ltac:(lia) R1 HA Hr Hl H).
  - left. apply (later_not_req _ _ 0 E2) in R0. apply (send_long_body acc del 0 m c2 c' o ltac:(lia) R0 HA Hr Hl H).
Qed.
Lemma ready_run c c' o : ph c = Idle -> run isReadyToSend c c' o -> exists b, o = Some b /\ (b = false -> forall n, 0 <= n <= 2 -> t_req (tx c n) = true).
Proof.
  intros Hi H. unfold isReadyToSend in H.
  apply (inv_status 160 _ _ _ _ Stat status_byte Hi) in H; [| left; auto]. destruct H as (c1 & c2 & E1 & E2 & P2 & H).
  apply inv_ret in H. destruct H as (_ & ->). eexists. split; [reflexivity |]. intros Hb n Hn.
  destruct (t_req (tx c n)) eqn:Q; [reflexivity |]. apply (later_not_req _ _ n E1) in Q.
  assert (A : Z.land (status_byte c1) 84 = 84) by (destruct (Z.eqb_spec (Z.land (status_byte c1) 84) 84); [assumption | discriminate]).
  destruct (status_tx c1) as (S0 & S1 & S2 & _).
  assert (K : forall k, In k [4; 16; 64] -> Z.land (status_byte c1) k = k).
  { intros k Hk. replace k with (Z.land 84 k) at 1 by (destruct Hk as [<- | [<- | [<- | []]]]; reflexivity).
    rewrite Z.land_assoc, A. destruct Hk as [<- | [<- | [<- | []]]]; reflexivity. }
  assert (n = 0 \/ n = 1 \/ n = 2) as [-> | [-> | -> ]] by lia;
    [rewrite (K 4) in S0 by (cbn; auto); rewrite Q in S0 | rewrite (K 16) in S1 by (cbn; auto); rewrite Q in S1 | rewrite (K 64) in S2 by (cbn; auto); rewrite Q in S2]; discriminate.
Qed.
(* a chip without events apart from those of the mode, for examples *)
Fixpoint exec {A : Type} (p : prog A) (c : chip) : option (chip * A) :=
  match p with
  | PRet a => Some (c, a)
  | PFault => None
  | PSel k => exec k (set_ph (Chip (ph c) (tx c) (rx c) (cfg c 15 / 32) (cfg c) (sent c) (recv c)) Cmd)
  | PDesel k => exec k (desel c)
  | PXfer b k => match xfer c b with Some (c1, v) => exec (k v) c1 | None => None end
  end.
Lemma exec_run {A : Type} (p : prog A) : forall c c1 a, exec p c = Some (c1, a) -> run p c c1 (Some a).
Proof.
  induction p as [a | | k IH | k IH | b k IH]; intros c c1 x H; cbn [exec] in H.
  - injection H as <- <-. apply r_ret.
  - discriminate.
  - eapply r_ev; [apply ev_mode |]. apply r_sel, IH, H.
  - apply r_desel, IH, H.
  - destruct (xfer c b) as [[c2 v] |] eqn:X; [| discriminate]. eapply r_xfer; [exact X |]. apply IH, H.
Qed.
Definition after {A : Type} (p : prog A) (c : chip) : chip := match exec p c with Some (c1, _) => c1 | None => c end.
Definition res {A : Type} (p : prog A) (c : chip) : option A := match exec p c with Some (_, a) => Some a | None => None end.
Lemma after_run {A : Type} (p : prog A) c a : res p c = Some a -> run p c (after p c) (Some a).
Proof. unfold res, after. intros H. destruct (exec p c) as [[c1 x] |] eqn:E; [| discriminate]. injection H as ->. apply exec_run, E. Qed.
Lemma run_total {A : Type} (p : prog A) : forall c, exists c1 o, run p c c1 o.
Proof.
  induction p as [a | | k IH | k IH | b k IH]; intros c.
  - eexists; eexists; apply r_ret.
  - eexists; eexists; apply r_fault.
  - destruct (IH (set_ph c Cmd)) as (c1 & o & H). eexists; eexists; apply r_sel, H.
  - destruct (IH (desel c)) as (c1 & o & H). eexists; eexists; apply r_desel, H.
  - destruct (xfer c b) as [[c2 v] |] eqn:X; [destruct (IH v c2) as (c1 & o & H); eexists; eexists; eapply r_xfer; eassumption |].
    eexists; eexists; apply r_bad, X.
Qed.
