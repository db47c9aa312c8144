(* Proofs about the MCP2515 driver: modes, filters and bit timing. *)
From Verif Require Import Base CanModel McpModel McpSpec McpProofs.

(** *** Registers *)

(* what events do to the registers *)
Record quiet (c c1 : chip) : Prop := { q_ph : ph c1 = ph c; q_cfg : cfg c1 = cfg c; q_mode : mode c1 = mode c \/ mode c1 = cfg c 15 / 32 }.
Lemma quiet_refl c : quiet c c.
Proof. split; auto. Qed.
Lemma quiet_trans c1 c2 c3 : quiet c1 c2 -> quiet c2 c3 -> quiet c1 c3.
Proof. intros [A1 A2 A3] [B1 B2 B3]. split; [congruence | congruence |]. rewrite A2 in B3. destruct B3 as [-> | -> ]; [exact A3 | right; reflexivity]. Qed.
Lemma events_quiet c c1 : events c c1 -> quiet c c1.
Proof.
  induction 1 as [c | c c1 c2 He _ IH]; [apply quiet_refl |]. eapply quiet_trans; [| exact IH]. destruct He; split; cbn; auto.
Qed.
(* a chip at rest whose mode is M and stays so *)
Definition busy (p : phase) (M : Z) (g : Z -> Z) (c : chip) : Prop := ph c = p /\ cfg c = g /\ g 15 / 32 = M /\ mode c = M.
Lemma busy_quiet p M g c c1 : quiet c c1 -> busy p M g c -> busy p M g c1.
Proof.
  intros [A1 A2 A3] (B1 & B2 & B3 & B4). unfold busy. rewrite A1, A2. split; [exact B1 |]. split; [exact B2 |]. split; [exact B3 |].
  rewrite B2, B3, B4 in A3. tauto.
Qed.
Lemma busy_ph p q M g c : busy p M g c -> busy q M g (set_ph c q).
Proof. unfold busy. cbn. tauto. Qed.
Lemma step_sel {A : Type} p M g (k : prog A) c c' o : busy p M g c -> run (PSel k) c c' o -> exists c1, busy Cmd M g c1 /\ run k c1 c' o.
Proof.
  intros B H. apply inv_sel in H. destruct H as (c1 & E & H). apply events_quiet in E. eexists. split; [| exact H].
  eapply busy_ph, busy_quiet; eassumption.
Qed.
Lemma step_desel {A : Type} p M g (k : prog A) c c' o : (forall n i, p <> Read n i) -> busy p M g c -> run (PDesel k) c c' o ->
  exists c1, busy Idle M g c1 /\ run k c1 c' o.
Proof.
  intros Hp B H. apply inv_desel in H. destruct H as (c1 & E & H). apply events_quiet in E.
  apply (busy_quiet _ _ _ _ _ E) in B. exists (desel c1). split; [| exact H].
  replace (desel c1) with (set_ph c1 Idle); [eapply busy_ph, B |]. unfold desel. rewrite (proj1 B).
  destruct p; try reflexivity. exfalso. eapply Hp. reflexivity.
Qed.
(* a transfer, given what the chip does with it in this phase *)
Lemma step_xfer {A : Type} p M g b (k : Z -> prog A) c c' o p1 g1 (v : chip -> Z) :
  (forall c1, busy p M g c1 -> exists c2, xfer c1 b = Some (c2, v c1) /\ busy p1 M g1 c2) ->
  busy p M g c -> run (PXfer b k) c c' o -> exists c1 c2, busy p M g c1 /\ busy p1 M g1 c2 /\ run (k (v c1)) c2 c' o.
Proof.
  intros Hx B H. apply inv_xfer in H. destruct H as (c1 & E & H). apply events_quiet in E. apply (busy_quiet _ _ _ _ _ E) in B.
  destruct (Hx c1 B) as (c2 & X & B2). destruct H as [(c3 & w & X' & H) | (X' & _)]; [| congruence].
  rewrite X in X'. assert (c3 = c2 /\ w = v c1) as [-> -> ] by (split; congruence). exists c1, c2. auto.
Qed.
Lemma x_cmd M g c b p : (b = 2 /\ p = WAddr \/ b = 3 /\ p = RAddr \/ b = 5 /\ p = BAddr) -> busy Cmd M g c ->
  exists c2, xfer c b = Some (c2, 0) /\ busy p M g c2.
Proof.
  intros Hb B. exists (set_ph c p). split; [| eapply busy_ph, B]. unfold xfer. rewrite (proj1 B).
  destruct Hb as [(-> & ->) | [(-> & ->) | (-> & ->)]]; reflexivity.
Qed.
Lemma x_waddr M g c a : plain a = true -> busy WAddr M g c -> exists c2, xfer c a = Some (c2, 0) /\ busy (WData a) M g c2.
Proof. intros Ha B. exists (set_ph c (WData a)). split; [| eapply busy_ph, B]. unfold xfer. rewrite (proj1 B), Ha. reflexivity. Qed.
Lemma x_raddr M g c a : plain a = true -> busy RAddr M g c -> exists c2, xfer c a = Some (c2, 0) /\ busy (RData a) M g c2.
Proof. intros Ha B. exists (set_ph c (RData a)). split; [| eapply busy_ph, B]. unfold xfer. rewrite (proj1 B), Ha. reflexivity. Qed.
(* a register that can be written in this mode and does not ask for another *)
Definition writable (M a : Z) : Prop := plain a = true /\ a <> 14 /\ a <> 15 /\ (config_only a = true -> M = 4).
Lemma x_wdata M g c a b : writable M a -> busy (WData a) M g c -> exists c2, xfer c b = Some (c2, 0) /\ busy (WData (a + 1)) M (fupd g a b) c2.
Proof.
  intros (Ha & H14 & H15 & Hc) (B1 & B2 & B3 & B4). exists (set_ph (write_reg c a b) (WData (a + 1))). split.
  - unfold xfer. rewrite B1, Ha. reflexivity.
  - assert (E : write_reg c a b = set_cfg c a b).
    { unfold write_reg. replace (a =? 14) with false by lia. rewrite B4. destruct (config_only a); [rewrite Hc by reflexivity |]; reflexivity. }
    rewrite E. unfold busy, set_ph, set_cfg. cbn. rewrite B2. rewrite fupd_neq by congruence. auto.
Qed.
Lemma x_rdata M g c a b : plain a = true -> busy (RData a) M g c -> exists c2, xfer c b = Some (c2, read_reg c a) /\ busy (RData (a + 1)) M g c2.
Proof. intros Ha B. exists (set_ph c (RData (a + 1))). split; [| eapply busy_ph, B]. unfold xfer. rewrite (proj1 B), Ha. reflexivity. Qed.

Lemma step_write {A : Type} M g a v (f : unit -> prog A) c c' o : writable M a -> busy Idle M g c ->
  run (pbind (writeRegister a v) f) c c' o -> exists c1, busy Idle M (fupd g a v) c1 /\ run (f tt) c1 c' o.
Proof.
  intros Ha B H. unfold writeRegister in H. cbn [pbind] in H.
  apply (step_sel _ _ _ _ _ _ _ B) in H. destruct H as (c1 & B1 & H).
  apply (step_xfer Cmd M g 2 _ _ _ _ WAddr g (fun _ => 0)) in H; [| intros; apply x_cmd; auto | exact B1]. destruct H as (_ & c2 & _ & B2 & H).
  apply (step_xfer WAddr M g a _ _ _ _ (WData a) g (fun _ => 0)) in H; [| intros; apply x_waddr; [apply Ha | assumption] | exact B2]. destruct H as (_ & c3 & _ & B3 & H).
  apply (step_xfer (WData a) M g v _ _ _ _ (WData (a + 1)) (fupd g a v) (fun _ => 0)) in H; [| intros; apply x_wdata; assumption | exact B3].
  destruct H as (_ & c4 & _ & B4 & H). cbn [pbind] in H.
  apply (step_desel (WData (a + 1)) M (fupd g a v) _ _ _ _ ltac:(intros; discriminate) B4) in H. exact H.
Qed.
Lemma step_read {A : Type} M g a (f : Z -> prog A) c c' o : plain a = true -> busy Idle M g c ->
  run (pbind (readRegister a) f) c c' o -> exists v c1, busy Idle M g c1 /\ v = (if a =? 14 then 32 * M + g 14 mod 32 else g a) /\ run (f v) c1 c' o.
Proof.
  intros Ha B H. unfold readRegister in H. cbn [pbind] in H.
  apply (step_sel _ _ _ _ _ _ _ B) in H. destruct H as (c1 & B1 & H).
  apply (step_xfer Cmd M g 3 _ _ _ _ RAddr g (fun _ => 0)) in H; [| intros; apply x_cmd; auto | exact B1]. destruct H as (_ & c2 & _ & B2 & H).
  apply (step_xfer RAddr M g a _ _ _ _ (RData a) g (fun _ => 0)) in H; [| intros; apply x_raddr; assumption | exact B2]. destruct H as (_ & c3 & _ & B3 & H).
  apply (step_xfer (RData a) M g 255 _ _ _ _ (RData (a + 1)) g (fun x => read_reg x a)) in H; [| intros; apply x_rdata; assumption | exact B3].
  destruct H as (c3' & c4 & B3' & B4 & H). cbn [pbind] in H.
  apply (step_desel (RData (a + 1)) M g _ _ _ _ ltac:(intros; discriminate) B4) in H. destruct H as (c5 & B5 & H).
  eexists. exists c5. split; [exact B5 |]. split; [| exact H]. unfold read_reg. destruct B3' as (_ & -> & _ & ->). reflexivity.
Qed.
(* a table of bytes into consecutive registers *)
Fixpoint wr (g : Z -> Z) (a : Z) (l : list Z) : Z -> Z := match l with [] => g | x :: r => wr (fupd g a x) (a + 1) r end.
Lemma wr_out l : forall g a k, k < a \/ a + zlen l <= k -> wr g a l k = g k.
Proof.
  induction l as [| x l IH]; intros g a k H; [reflexivity |]. cbn [wr]. rewrite zlen_cons in H. pose proof (zlen_nonneg l).
  rewrite IH by lia. apply fupd_neq. lia.
Qed.
Lemma wr_in l : forall g a k, a <= k < a + zlen l -> wr g a l k = nth (Z.to_nat (k - a)) l 0.
Proof.
  induction l as [| x l IH]; intros g a k H; [rewrite zlen_nil in H; lia |]. cbn [wr]. rewrite zlen_cons in H.
  destruct (Z.eq_dec k a) as [-> | Hk].
  - rewrite wr_out by lia. rewrite fupd_eq, Z.sub_diag. reflexivity.
  - rewrite IH by lia. replace (Z.to_nat (k - a)) with (S (Z.to_nat (k - (a + 1)))) by lia. reflexivity.
Qed.
Lemma skipn_cons (l : list Z) j x : znth l j = Some x -> skipn (Z.to_nat j) l = x :: skipn (Z.to_nat (j + 1)) l.
Proof.
  intros H. pose proof (znth_Some _ _ _ H) as R. unfold znth in H. replace (j <? 0) with false in H by lia.
  replace (Z.to_nat (j + 1)) with (S (Z.to_nat j)) by lia. revert H. generalize (Z.to_nat j). clear. intros n. revert l.
  induction n; intros [| y l] H; cbn in *; try discriminate; [congruence |]. apply IHn, H.
Qed.
Lemma step_table {A : Type} M t (f : unit -> prog A) c' o : forall n j a g c, 0 <= j -> j + Z.of_nat n <= zlen t ->
  (forall k, a <= k < a + Z.of_nat n -> writable M k) -> busy (WData a) M g c ->
  run (pbind (writeTable n j t) f) c c' o ->
  exists c1, busy (WData (a + Z.of_nat n)) M (wr g a (firstn n (skipn (Z.to_nat j) t))) c1 /\ run (f tt) c1 c' o.
Proof.
  induction n as [| n IH]; intros j a g c Hj Hl Hw B H; cbn [writeTable pbind] in H.
  - exists c. rewrite firstn_O. rewrite Z.add_0_r. auto.
  - destruct (znth t j) as [v |] eqn:Ev; [| apply znth_None in Ev; lia]. cbn [pbind] in H.
    apply (step_xfer (WData a) M g v _ _ _ _ (WData (a + 1)) (fupd g a v) (fun _ => 0)) in H; [| intros; apply x_wdata; [apply Hw; lia | assumption] | exact B].
    destruct H as (_ & c1 & _ & B1 & H).
    destruct (IH (j + 1) (a + 1) (fupd g a v) c1 ltac:(lia) ltac:(lia) ltac:(intros; apply Hw; lia) B1 H) as (c2 & B2 & H2).
    exists c2. rewrite (skipn_cons _ _ _ Ev). cbn [firstn wr]. replace (a + Z.of_nat (S n)) with (a + 1 + Z.of_nat n) by lia. auto.
Qed.

(** *** Changing the mode *)

(* a bitModify of CANCTRL asks for mode w *)
Definition ctrl (old w : Z) : Z := Z.lor (Z.land old (Z.lxor 224 255)) (Z.land w 224).
Lemma ctrl_mode old w : In w [0; 64; 96; 128] -> ctrl old w / 32 = w / 32.
Proof.
  intros Hw. unfold ctrl. change 32 with (2 ^ 5). rewrite <- !Z.shiftr_div_pow2 by lia.
  rewrite Z.shiftr_lor, !Z.shiftr_land. change (Z.shiftr (Z.lxor 224 255) 5) with 0. rewrite Z.land_0_r.
  destruct Hw as [<- | [<- | [<- | [<- | []]]]]; reflexivity.
Qed.
Lemma step_modify {A : Type} w (f : unit -> prog A) c c' o : ph c = Idle -> run (pbind (bitModify 15 224 w) f) c c' o ->
  exists c1, ph c1 = Idle /\ cfg c1 = fupd (cfg c) 15 (ctrl (cfg c 15) w) /\
    (mode c1 = mode c \/ mode c1 = cfg c 15 / 32 \/ mode c1 = ctrl (cfg c 15) w / 32) /\ run (f tt) c1 c' o.
Proof.
  intros Hi H. unfold bitModify in H. cbn [pbind] in H.
  apply inv_sel in H. destruct H as (c1 & E1 & H). apply events_quiet in E1.
  apply inv_xfer in H. destruct H as (c2 & E2 & H). apply events_quiet in E2.
  assert (P2 : ph c2 = Cmd) by apply (q_ph _ _ E2). assert (G2 : cfg c2 = cfg c) by (rewrite (q_cfg _ _ E2); apply (q_cfg _ _ E1)).
  assert (X2 : xfer c2 5 = Some (set_ph c2 BAddr, 0)) by (unfold xfer; rewrite P2; reflexivity).
  destruct H as [(c3 & v & X' & H) | (X' & _)]; [| congruence]. assert (c3 = set_ph c2 BAddr) by congruence. subst c3. clear X' X2 v.
  apply inv_xfer in H. destruct H as (c3 & E3 & H). apply events_quiet in E3.
  assert (P3 : ph c3 = BAddr) by apply (q_ph _ _ E3). assert (G3 : cfg c3 = cfg c) by (rewrite (q_cfg _ _ E3); exact G2).
  assert (X3 : xfer c3 15 = Some (set_ph c3 (BMask 15), 0)) by (unfold xfer; rewrite P3; reflexivity).
  destruct H as [(c4 & v & X' & H) | (X' & _)]; [| congruence]. assert (c4 = set_ph c3 (BMask 15)) by congruence. subst c4. clear X' X3 v.
  apply inv_xfer in H. destruct H as (c4 & E4 & H). apply events_quiet in E4.
  assert (P4 : ph c4 = BMask 15) by apply (q_ph _ _ E4). assert (G4 : cfg c4 = cfg c) by (rewrite (q_cfg _ _ E4); exact G3).
  assert (X4 : xfer c4 224 = Some (set_ph c4 (BData 15 224), 0)) by (unfold xfer; rewrite P4; reflexivity).
  destruct H as [(c5 & v & X' & H) | (X' & _)]; [| congruence]. assert (c5 = set_ph c4 (BData 15 224)) by congruence. subst c5. clear X' X4 v.
  apply inv_xfer in H. destruct H as (c5 & E5 & H). apply events_quiet in E5.
  assert (P5 : ph c5 = BData 15 224) by apply (q_ph _ _ E5). assert (G5 : cfg c5 = cfg c) by (rewrite (q_cfg _ _ E5); exact G4).
  assert (X5 : xfer c5 w = Some (set_ph (set_cfg c5 15 (ctrl (cfg c5 15) w)) Done, 0)) by (unfold xfer; rewrite P5; reflexivity).
  destruct H as [(c6 & v & X' & H) | (X' & _)]; [| congruence].
  assert (c6 = set_ph (set_cfg c5 15 (ctrl (cfg c5 15) w)) Done) by congruence. subst c6. clear X' X5 v.
  cbn [pbind] in H. apply inv_desel in H. destruct H as (c6 & E6 & H). apply events_quiet in E6.
  exists (desel c6). assert (P6 : ph c6 = Done) by apply (q_ph _ _ E6).
  split; [unfold desel; rewrite P6; reflexivity |]. unfold desel. rewrite P6. cbn [cfg set_ph].
  split; [| split; [| unfold desel in H; rewrite P6 in H; exact H]].
  - rewrite (q_cfg _ _ E6). cbn [cfg set_ph set_cfg]. rewrite G5. reflexivity.
  - pose proof (q_mode _ _ E6) as M6. cbn [mode set_ph set_cfg cfg] in M6 |- *. rewrite fupd_eq, G5 in M6.
    pose proof (q_mode _ _ E5) as M5. cbn [mode set_ph cfg] in M5. rewrite G4 in M5.
    pose proof (q_mode _ _ E4) as M4. cbn [mode set_ph cfg] in M4. rewrite G3 in M4.
    pose proof (q_mode _ _ E3) as M3. cbn [mode set_ph cfg] in M3. rewrite G2 in M3.
    pose proof (q_mode _ _ E2) as M2. cbn [mode set_ph cfg] in M2. rewrite (q_cfg _ _ E1) in M2.
    pose proof (q_mode _ _ E1) as M1. clear -M1 M2 M3 M4 M5 M6.
    destruct M6 as [-> | -> ]; [| auto]. destruct M5 as [-> | -> ]; [| auto]. destruct M4 as [-> | -> ]; [| auto].
    destruct M3 as [-> | -> ]; [| auto]. destruct M2 as [-> | -> ]; [| auto]. destruct M1 as [-> | -> ]; auto.
Qed.
(* waiting for a mode asked for *)
Lemma land224 M x : 0 <= M < 8 -> 0 <= x < 32 -> Z.land (32 * M + x) 224 = 32 * M.
Proof.
  intros HM Hx. assert (A : forallb (fun k => Z.land k 224 =? 32 * (k / 32)) (map Z.of_nat (seq 0 256)) = true) by (vm_compute; reflexivity).
  rewrite forallb_forall in A. specialize (A (32 * M + x)). rewrite Z.eqb_eq in A. rewrite A; [lia |].
  apply in_map_iff. exists (Z.to_nat (32 * M + x)). split; [lia |]. apply in_seq. lia.
Qed.
Lemma step_wait {A : Type} g w (k : prog (option A)) c' o : 0 <= w < 8 -> g 15 / 32 = w -> forall n c, 0 <= mode c < 8 -> ph c = Idle -> cfg c = g ->
  run (waitMode n (32 * w) k) c c' o -> o = Some None \/ exists c1, busy Idle w g c1 /\ run k c1 c' o.
Proof.
  intros Hw Hg. induction n as [| n IH]; intros c Hm Hi Hc H; cbn [waitMode] in H; [apply inv_ret in H; left; apply H |].
  unfold readRegister in H. cbn [pbind] in H.
  assert (Q : forall x, cfg x = g -> 0 <= mode x < 8 -> forall y, quiet x y -> cfg y = g /\ 0 <= mode y < 8 /\ (mode x = w -> mode y = w)).
  { intros x X1 X2 y [Y1 Y2 Y3]. rewrite Y2, X1. split; [reflexivity |]. rewrite X1, Hg in Y3. destruct Y3 as [-> | -> ]; auto. }
  apply inv_sel in H. destruct H as (c1 & E1 & H). apply events_quiet in E1. destruct (Q _ Hc Hm _ E1) as (G1 & M1 & _).
  apply inv_xfer in H. destruct H as (c2 & E2 & H). apply events_quiet in E2. destruct (Q (set_ph c1 Cmd) G1 M1 _ E2) as (G2 & M2 & _).
  assert (X2 : xfer c2 3 = Some (set_ph c2 RAddr, 0)) by (unfold xfer; rewrite (q_ph _ _ E2); reflexivity).
  destruct H as [(c3 & v & X' & H) | (X' & _)]; [| congruence]. assert (c3 = set_ph c2 RAddr) by congruence. subst c3. clear X' X2 v.
  apply inv_xfer in H. destruct H as (c3 & E3 & H). apply events_quiet in E3. destruct (Q (set_ph c2 RAddr) G2 M2 _ E3) as (G3 & M3 & _).
  assert (X3 : xfer c3 14 = Some (set_ph c3 (RData 14), 0)) by (unfold xfer; rewrite (q_ph _ _ E3); reflexivity).
  destruct H as [(c4 & v & X' & H) | (X' & _)]; [| congruence]. assert (c4 = set_ph c3 (RData 14)) by congruence. subst c4. clear X' X3 v.
  apply inv_xfer in H. destruct H as (c4 & E4 & H). apply events_quiet in E4. destruct (Q (set_ph c3 (RData 14)) G3 M3 _ E4) as (G4 & M4 & _).
  assert (X4 : xfer c4 255 = Some (set_ph c4 (RData 15), 32 * mode c4 + g 14 mod 32)).
  { unfold xfer. rewrite (q_ph _ _ E4). cbn [ph set_ph]. unfold read_reg. rewrite G4. reflexivity. }
  destruct H as [(c5 & v & X' & H) | (X' & _)]; [| congruence].
  rewrite X4 in X'. assert (c5 = set_ph c4 (RData 15) /\ v = 32 * mode c4 + g 14 mod 32) as [-> -> ] by (split; congruence). clear X' X4.
  cbn [pbind] in H. apply inv_desel in H. destruct H as (c5 & E5 & H). apply events_quiet in E5.
  destruct (Q (set_ph c4 (RData 15)) G4 M4 _ E5) as (G5 & M5 & K5).
  assert (D : desel c5 = set_ph c5 Idle) by (unfold desel; rewrite (q_ph _ _ E5); reflexivity). rewrite D in H.
  rewrite land224 in H; [| exact M4 | apply Z.mod_pos_bound; lia].
  destruct (Z.eqb_spec (32 * mode c4) (32 * w)) as [Em | Em].
  - right. exists (set_ph c5 Idle). split; [| exact H]. unfold busy. cbn [ph cfg mode set_ph]. split; [reflexivity |]. split; [exact G5 |].
    split; [exact Hg |]. apply K5. cbn [mode set_ph]. lia.
  - apply (IH (set_ph c5 Idle)) in H; auto.
Qed.

(** *** Filters *)

Definition regs_ok (c : chip) : Prop := 0 <= mode c < 8 /\ 0 <= cfg c 15 < 256.
Lemma ctrl_range old w : 0 <= old < 256 -> In w [0; 64; 96; 128] -> 0 <= ctrl old w < 256.
Proof.
  intros Ho Hw. unfold ctrl. split.
  - apply Z.lor_nonneg. split; apply Z.land_nonneg; [left; lia | right; lia].
  - set (x := Z.land old (Z.lxor 224 255)). set (y := Z.land w 224).
    assert (Hx : 0 <= x < 2 ^ 8).
    { split; [apply Z.land_nonneg; left; lia |]. unfold x. destruct (Z.eq_dec (Z.land old (Z.lxor 224 255)) 0) as [-> | N]; [reflexivity |].
      apply Z.log2_lt_pow2; [pose proof (proj2 (Z.land_nonneg old (Z.lxor 224 255)) (or_introl (proj1 Ho))); lia |].
      eapply Z.le_lt_trans; [apply Z.log2_land; [lia | vm_compute; discriminate] |]. apply Z.min_lt_iff. right. reflexivity. }
    assert (Hy : 0 <= y < 2 ^ 8) by (unfold y; destruct Hw as [<- | [<- | [<- | [<- | []]]]]; vm_compute; split; congruence).
    destruct (Z.eq_dec (Z.lor x y) 0) as [-> | N]; [lia |]. change 256 with (2 ^ 8). apply Z.log2_lt_pow2.
    + pose proof (proj2 (Z.lor_nonneg x y) (conj (proj1 Hx) (proj1 Hy))). lia.
    + rewrite Z.log2_lor by lia. apply Z.max_lub_lt.
      * destruct (Z.eq_dec x 0) as [-> |]; [reflexivity | apply Z.log2_lt_pow2; lia].
      * destruct (Z.eq_dec y 0) as [-> |]; [reflexivity | apply Z.log2_lt_pow2; lia].
Qed.
Lemma after_modify w c c1 : In w [0; 64; 96; 128] -> regs_ok c -> cfg c1 = fupd (cfg c) 15 (ctrl (cfg c 15) w) ->
  (mode c1 = mode c \/ mode c1 = cfg c 15 / 32 \/ mode c1 = ctrl (cfg c 15) w / 32) -> 0 <= mode c1 < 8 /\ cfg c1 15 / 32 = w / 32.
Proof.
  intros Hw (H1 & H2) Hc Hm. pose proof (ctrl_range _ _ H2 Hw) as R. split.
  - destruct Hm as [-> | [-> | -> ]]; [exact H1 | |]; split; try (apply Z.div_pos; lia); apply Z.div_lt_upper_bound; lia.
  - rewrite Hc, fupd_eq. apply ctrl_mode, Hw.
Qed.
Lemma run_events {A : Type} (p : prog A) c c1 c2 o : events c c1 -> run p c1 c2 o -> run p c c2 o.
Proof. induction 1; eauto using r_ev. Qed.
Lemma run_assoc {A B C : Type} (f : A -> prog B) (h : B -> prog C) c' o p : forall c,
  run (pbind (pbind p f) h) c c' o -> run (pbind p (fun a => pbind (f a) h)) c c' o.
Proof.
  induction p as [a | | k IH | k IH | b k IH]; intros c H; cbn [pbind] in *.
  - exact H.
  - exact H.
  - apply inv_sel in H. destruct H as (c1 & E & H). eapply run_events; [exact E |]. apply r_sel, IH, H.
  - apply inv_desel in H. destruct H as (c1 & E & H). eapply run_events; [exact E |]. apply r_desel, IH, H.
  - apply inv_xfer in H. destruct H as (c1 & E & [(c2 & v & X & H) | (X & -> & ->)]); eapply run_events; try exact E.
    + eapply r_xfer; [exact X |]. apply IH, H.
    + apply r_bad, X.
Qed.
Lemma step_block {A : Type} g i j t (f : unit -> prog A) c c' o : In i [0; 16; 32] -> 0 <= j ->
  j + (if i =? 32 then 8 else 12) <= zlen t -> busy Idle 4 g c -> run (pbind (writeBlock i j t) f) c c' o ->
  exists c1, busy Idle 4 (wr g i (firstn (if i =? 32 then 8%nat else 12%nat) (skipn (Z.to_nat j) t))) c1 /\ run (f tt) c1 c' o.
Proof.
  intros Hi Hj Hl B H. unfold writeBlock in H. cbn [pbind] in H.
  apply (step_sel _ _ _ _ _ _ _ B) in H. destruct H as (c1 & B1 & H).
  apply (step_xfer Cmd 4 g 2 _ _ _ _ WAddr g (fun _ => 0)) in H; [| intros; apply x_cmd; auto | exact B1]. destruct H as (_ & c2 & _ & B2 & H).
  assert (Hp : plain i = true) by (destruct Hi as [<- | [<- | [<- | []]]]; reflexivity).
  apply (step_xfer WAddr 4 g i _ _ _ _ (WData i) g (fun _ => 0)) in H; [| intros; apply x_waddr; assumption | exact B2]. destruct H as (_ & c3 & _ & B3 & H).
  set (n := if i =? 32 then 8%nat else 12%nat) in *.
  assert (En : Z.of_nat n = if i =? 32 then 8 else 12) by (unfold n; destruct (i =? 32); reflexivity).
  apply run_assoc in H. cbn [pbind] in H.
  apply (step_table 4 t _ c' o n j i g c3) in H; [| exact Hj | lia | | exact B3].
  - destruct H as (c4 & B4 & H). apply (step_desel (WData (i + Z.of_nat n)) 4 _ _ _ _ _ ltac:(intros; discriminate) B4) in H. exact H.
  - intros k Hk. rewrite En in Hk. unfold writable, plain, config_only.
    assert (Hr : (0 <= k < 12) \/ (16 <= k < 28) \/ (32 <= k < 40)) by (destruct Hi as [<- | [<- | [<- | []]]]; cbn in Hk; lia).
    split; [| split; [| split; [| auto]]]; clear -Hr; lia.
Qed.
Lemma writable4 a : a = 96 \/ a = 112 \/ a = 12 \/ a = 13 -> writable 4 a.
Proof. intros [-> | [-> | [-> | -> ]]]; split; try (split; [| split]); try reflexivity; try lia; auto. Qed.
(* the registers after setFilter *)
Definition filtered (g : Z -> Z) (t : list Z) : Z -> Z :=
  wr (wr (wr (fupd (fupd (fupd g 15 (ctrl (g 15) 128)) 96 4) 112 0) 0 (firstn 12 (skipn 0 t))) 16 (firstn 12 (skipn 12 t))) 32 (firstn 8 (skipn 24 t)).
Lemma setFilter_run n t c c' o : ph c = Idle -> regs_ok c -> zlen t = 32 -> run (setFilter n t) c c' o ->
  o = Some None \/ (o = Some (Some tt) /\ ph c' = Idle /\ cfg c' 15 / 32 = 0 /\ forall k, k <> 15 -> cfg c' k = filtered (cfg c) t k).
Proof.
  intros Hi Hr Ht H. unfold setFilter in H.
  apply step_modify in H; [| exact Hi]. destruct H as (c1 & P1 & G1 & M1 & H).
  destruct (after_modify 128 c c1 ltac:(cbn; auto) Hr G1 M1) as (R1 & W1).
  apply (step_wait (cfg c1) 4 _ c' o ltac:(lia) W1 n c1 R1 P1 eq_refl) in H. destruct H as [H | (c2 & B2 & H)]; [left; exact H | right].
  apply step_write with (M := 4) (g := cfg c1) in H; [| apply writable4; auto | exact B2]. destruct H as (c3 & B3 & H).
  apply step_write with (M := 4) (g := fupd (cfg c1) 96 4) in H; [| apply writable4; auto | exact B3]. destruct H as (c4 & B4 & H).
  apply (fun a b d => step_block _ 0 0 t _ _ _ _ a b d B4) in H; [| cbn; auto | lia | cbn; lia]. destruct H as (c5 & B5 & H).
  apply (fun a b d => step_block _ 16 12 t _ _ _ _ a b d B5) in H; [| cbn; auto | lia | cbn; lia]. destruct H as (c6 & B6 & H).
  apply (fun a b d => step_block _ 32 24 t _ _ _ _ a b d B6) in H; [| cbn; auto | lia | cbn; lia]. destruct H as (c7 & B7 & H).
  apply step_modify in H; [| apply B7]. destruct H as (c8 & P8 & G8 & M8 & H).
  apply inv_ret in H. destruct H as (E9 & ->). apply events_quiet in E9. split; [reflexivity |].
  split; [rewrite (q_ph _ _ E9); exact P8 |].
  split; [rewrite (q_cfg _ _ E9), G8, fupd_eq; apply ctrl_mode; cbn; auto |]. intros k Hk. rewrite (q_cfg _ _ E9), G8. rewrite fupd_neq by exact Hk.
  destruct B7 as (_ & -> & _). unfold filtered. rewrite G1. reflexivity.
Qed.
Lemma setMode_run n md c c' o : ph c = Idle -> regs_ok c -> run (setMode n md) c c' o ->
  o = Some None \/ (o = Some (Some tt) /\ ph c' = Idle /\ mode c' = match md with MListenOnly => 3 | MLoopBack => 2 | _ => 0 end /\ regs_ok c').
Proof.
  intros Hi Hr H. unfold setMode in H. cbv zeta in H. set (w := match md with MListenOnly => 96 | MLoopBack => 64 | _ => 0 end) in *.
  assert (Hw : In w [0; 64; 96; 128]) by (unfold w; destruct md; cbn; auto).
  apply step_modify in H; [| exact Hi]. destruct H as (c1 & P1 & G1 & M1 & H).
  destruct (after_modify w c c1 Hw Hr G1 M1) as (R1 & W1).
  assert (Ew : w = 32 * (w / 32) /\ 0 <= w / 32 < 8 /\ w / 32 = match md with MListenOnly => 3 | MLoopBack => 2 | _ => 0 end).
  { unfold w; destruct md; vm_compute; repeat split; congruence. }
  destruct Ew as (Ew1 & Ew2 & Ew3). rewrite Ew1 in H.
  apply (step_wait (cfg c1) (w / 32) _ c' o Ew2 W1 n c1 R1 P1 eq_refl) in H. destruct H as [H | (c2 & B2 & H)]; [left; exact H | right].
  apply inv_ret in H. destruct H as (E9 & ->). apply events_quiet in E9. apply (busy_quiet _ _ _ _ _ E9) in B2.
  destruct B2 as (B1 & B3 & B4 & B5). split; [reflexivity |]. split; [exact B1 |]. split; [rewrite B5; exact Ew3 |].
  split; [rewrite B5; exact Ew2 |]. rewrite B3, G1, fupd_eq. apply ctrl_range; [apply Hr | exact Hw].
Qed.

(** *** Acceptance *)

Lemma land_shift v M k : 0 <= k -> Z.land v (Z.shiftl M k) = Z.shiftl (Z.land (Z.shiftr v k) M) k.
Proof.
  intros Hk. apply Z.bits_inj'. intros n Hn. rewrite Z.land_spec. destruct (Z.ltb_spec n k) as [H | H].
  - rewrite !Z.shiftl_spec_low by assumption. apply andb_false_r.
  - rewrite !Z.shiftl_spec_high by lia. rewrite Z.land_spec, Z.shiftr_spec by lia. f_equal. f_equal. lia.
Qed.
Lemma land_7x x : Z.land x 224 = 32 * ((x / 32) mod 8).
Proof.
  change 224 with (Z.shiftl 7 5). rewrite land_shift by lia. rewrite Z.shiftl_mul_pow2, Z.shiftr_div_pow2 by lia.
  change 7 with (Z.ones 3). rewrite Z.land_ones by lia. change (2 ^ 5) with 32. change (2 ^ 3) with 8. lia.
Qed.
Lemma land_3 x : Z.land x 3 = x mod 4.
Proof. change 3 with (Z.ones 2). rewrite Z.land_ones by lia. reflexivity. Qed.
Lemma sidl_bits p q : 0 <= p < 8 -> 0 <= q < 4 -> let s := u8 (Z.lor (Z.lor (32 * p) 8) q) in s / 32 = p /\ s mod 4 = q /\ Z.testbit s 3 = true.
Proof.
  intros Hp Hq. assert (p = 0 \/ p = 1 \/ p = 2 \/ p = 3 \/ p = 4 \/ p = 5 \/ p = 6 \/ p = 7) as [-> | [-> | [-> | [-> | [-> | [-> | [-> | -> ]]]]]]] by lia;
    (assert (q = 0 \/ q = 1 \/ q = 2 \/ q = 3) as [-> | [-> | [-> | -> ]]] by lia); vm_compute; auto.
Qed.
Lemma ext_table id : 0 <= id -> let b := MCP2515_FILTER_EXTENDED id in mask_id b = id mod 536870912 /\ b_ext b = true.
Proof.
  intros H b. unfold b, mask_id, b_ext, MCP2515_FILTER_EXTENDED, bt. cbn [nth].
  rewrite land_7x, land_3. rewrite !Z.shiftr_div_pow2 by lia.
  change (2 ^ 21) with 2097152. change (2 ^ 13) with 8192. change (2 ^ 16) with 65536. change (2 ^ 8) with 256.
  destruct (sidl_bits ((id / 8192 / 32) mod 8) ((id / 65536) mod 4)) as (S1 & S2 & S3); [apply Z.mod_pos_bound; lia | apply Z.mod_pos_bound; lia |].
  rewrite S1, S2, S3. split; [| reflexivity]. unfold u8. rewrite Z.div_div by lia. change (8192 * 32) with 262144. clear -H. lia.
Qed.
Lemma std_table id : 0 <= id -> let b := MCP2515_FILTER id in mask_id b = 262144 * (id mod 2048) /\ b_ext b = false.
Proof.
  intros H b. unfold b, mask_id, b_ext, MCP2515_FILTER, bt. cbn [nth].
  rewrite Z.shiftr_div_pow2, Z.shiftl_mul_pow2 by lia. change (2 ^ 3) with 8. change (2 ^ 5) with 32.
  assert (E : u8 (u32 (id * 32)) = 32 * (id mod 8)) by (unfold u8, u32; lia). rewrite E. split.
  - unfold u8. lia.
  - change 32 with (2 ^ 5). rewrite Z.mul_comm. apply Z.mul_pow2_bits_low. lia.
Qed.
Lemma match_wants ext id m f : frame_ok f -> 0 <= id -> 0 <= m -> filter_match (mk_filter ext id) (mk_mask ext m) f = wants ext id m f.
Proof.
  intros (Hf & Hd) Hi Hm. unfold filter_match, wants, mk_filter, mk_mask. destruct ext.
  - change (MCP2515_MASK_EXTENDED m) with (MCP2515_FILTER_EXTENDED m).
    destruct (ext_table id Hi) as (E1 & E2). destruct (ext_table m Hm) as (E3 & _). rewrite E1, E2, E3.
    destruct (f_ext f); reflexivity.
  - change (MCP2515_MASK m) with (MCP2515_FILTER m).
    destruct (std_table id Hi) as (E1 & E2). destruct (std_table m Hm) as (E3 & _). rewrite E1, E2, E3.
    destruct (f_ext f); [reflexivity |]. cbn [Bool.eqb andb].
    assert (B : forall n, 0 <= nth n (f_data f) 0 < 256).
    { intros n. destruct (Nat.lt_ge_cases n (length (f_data f))) as [L | L]; [| rewrite nth_overflow by assumption; lia].
      rewrite Forall_forall in Hd. apply Hd, nth_In, L. }
    pose proof (B 0%nat) as B0. pose proof (B 1%nat) as B1. revert B0 B1. generalize (nth 0 (f_data f) 0) (nth 1 (f_data f) 0). intros d0 d1 B0 B1.
    replace (262144 * (m mod 2048)) with (Z.shiftl (m mod 2048) 18) by (rewrite Z.shiftl_mul_pow2 by lia; change (2 ^ 18) with 262144; ring).
    rewrite !land_shift by lia. rewrite !Z.shiftr_div_pow2, !Z.shiftl_mul_pow2 by lia. change (2 ^ 18) with 262144.
    replace ((262144 * f_id f + 256 * d0 + d1) / 262144) with (f_id f) by (clear -B0 B1; lia).
    replace (262144 * (id mod 2048) / 262144) with (id mod 2048) by (rewrite Z.mul_comm, Z.div_mul; lia).
    generalize (Z.land (f_id f) (m mod 2048)) (Z.land (id mod 2048) (m mod 2048)). clear. intros x y.
    destruct (Z.eqb_spec x y) as [-> | N]; [apply Z.eqb_refl | apply Z.eqb_neq; lia].
Qed.

(** *** Initialization *)

Lemma step_ctrl {A : Type} M g v (f : unit -> prog A) c c' o : busy Idle M g c -> run (pbind (writeRegister 15 v) f) c c' o ->
  exists c1, ph c1 = Idle /\ cfg c1 = fupd g 15 v /\ (mode c1 = M \/ mode c1 = v / 32) /\ run (f tt) c1 c' o.
Proof.
  intros B H. unfold writeRegister in H. cbn [pbind] in H.
  apply (step_sel _ _ _ _ _ _ _ B) in H. destruct H as (c1 & B1 & H).
  apply (step_xfer Cmd M g 2 _ _ _ _ WAddr g (fun _ => 0)) in H; [| intros; apply x_cmd; auto | exact B1]. destruct H as (_ & c2 & _ & B2 & H).
  apply (step_xfer WAddr M g 15 _ _ _ _ (WData 15) g (fun _ => 0)) in H; [| intros; apply x_waddr; [reflexivity | assumption] | exact B2]. destruct H as (_ & c3 & _ & B3 & H).
  apply inv_xfer in H. destruct H as (c4 & E4 & H). apply events_quiet in E4. apply (busy_quiet _ _ _ _ _ E4) in B3. destruct B3 as (P4 & G4 & W4 & M4).
  assert (X : xfer c4 v = Some (set_ph (set_cfg c4 15 v) (WData 16), 0)) by (unfold xfer; rewrite P4; reflexivity).
  destruct H as [(c5 & w & X' & H) | (X' & _)]; [| congruence]. assert (c5 = set_ph (set_cfg c4 15 v) (WData 16)) by congruence. subst c5. clear X X' w.
  cbn [pbind] in H. apply inv_desel in H. destruct H as (c5 & E5 & H). apply events_quiet in E5.
  assert (D : desel c5 = set_ph c5 Idle) by (unfold desel; rewrite (q_ph _ _ E5); reflexivity). rewrite D in H.
  exists (set_ph c5 Idle). cbn [ph cfg mode set_ph]. split; [reflexivity |]. split; [rewrite (q_cfg _ _ E5); cbn [cfg set_ph set_cfg]; rewrite G4; reflexivity |].
  split; [| exact H]. pose proof (q_mode _ _ E5) as Q. cbn [mode set_ph set_cfg cfg] in Q. rewrite fupd_eq, M4 in Q. exact Q.
Qed.
Lemma init_run n t c c' o : ph c = Idle -> run (initializeWithPrescaler n t) c c' o ->
  o = Some None \/ (o = Some (Some true) /\ ph c' = Idle /\ mode c' = 0 /\ [cfg c' 40; cfg c' 41; cfg c' 42] = cnf t /\ cfg c' 43 = 3 /\ cfg c' 15 = 0 /\
    forall k, k <> 12 -> k <> 13 -> k <> 15 -> ~ (40 <= k <= 43) -> cfg c' k = cfg c k).
Proof.
  intros Hi H. unfold initializeWithPrescaler in H.
  apply inv_sel in H. destruct H as (c1 & E1 & H). apply events_quiet in E1.
  apply inv_xfer in H. destruct H as (c2 & E2 & H). apply events_quiet in E2.
  assert (P2 : ph c2 = Cmd) by apply (q_ph _ _ E2). assert (G2 : cfg c2 = cfg c) by (rewrite (q_cfg _ _ E2); apply (q_cfg _ _ E1)).
  assert (X2 : xfer c2 192 = Some (reset c2, 0)) by (unfold xfer; rewrite P2; reflexivity).
  destruct H as [(c3 & v & X' & H) | (X' & _)]; [| congruence]. assert (c3 = reset c2) by congruence. subst c3. clear X' X2 v.
  set (g0 := fupd (cfg c) 15 135) in *.
  assert (B3 : busy Done 4 g0 (reset c2)) by (unfold busy, reset; cbn [ph cfg mode]; rewrite G2; auto).
  apply (step_desel Done 4 _ _ _ _ _ ltac:(intros; discriminate) B3) in H. destruct H as (c4 & B4 & H).
  apply (step_sel _ _ _ _ _ _ _ B4) in H. destruct H as (c5 & B5 & H).
  apply (step_xfer Cmd 4 g0 2 _ _ _ _ WAddr g0 (fun _ => 0)) in H; [| intros; apply x_cmd; auto | exact B5]. destruct H as (_ & c6 & _ & B6 & H).
  apply (step_xfer WAddr 4 g0 40 _ _ _ _ (WData 40) g0 (fun _ => 0)) in H; [| intros; apply x_waddr; [reflexivity | assumption] | exact B6]. destruct H as (_ & c7 & _ & B7 & H).
  apply (step_table 4 (cnf t) _ c' o 3 0 40 g0 c7) in H; [| lia | cbn; lia | | exact B7].
  2: { intros k Hk. assert (Hr : k = 40 \/ k = 41 \/ k = 42) by lia. clear -Hr. destruct Hr as [-> | [-> | -> ]]; (split; [reflexivity | split; [lia | split; [lia | auto]]]). }
  destruct H as (c8 & B8 & H). set (g1 := wr g0 40 (firstn 3 (skipn (Z.to_nat 0) (cnf t)))) in *. change (40 + Z.of_nat 3) with 43 in B8.
  apply (step_xfer (WData 43) 4 g1 3 _ _ _ _ (WData (43 + 1)) (fupd g1 43 3) (fun _ => 0)) in H; [| intros; apply x_wdata; [| assumption] | exact B8].
  2: { split; [reflexivity | split; [lia | split; [lia | discriminate]]]. }
  destruct H as (_ & c9 & _ & B9 & H).
  apply (step_desel (WData 44) 4 _ _ _ _ _ ltac:(intros; discriminate) B9) in H. destruct H as (c10 & B10 & H).
  apply (fun a => step_write 4 (fupd g1 43 3) 13 0 _ c10 c' o a B10) in H; [| apply writable4; auto]. destruct H as (c11 & B11 & H).
  apply (fun a => step_write 4 _ 12 0 _ c11 c' o a B11) in H; [| apply writable4; auto]. destruct H as (c12 & B12 & H).
  set (g2 := fupd (fupd (fupd g1 43 3) 13 0) 12 0) in *.
  apply (fun a => step_read 4 g2 41 _ c12 c' o a B12) in H; [| reflexivity]. destruct H as (v & c13 & B13 & V & H).
  change (v = nth 1 (cnf t) 0) in V. rewrite V, Z.eqb_refl in H. cbn [negb] in H.
  apply (step_ctrl 4 g2 0 _ c13 c' o B13) in H. destruct H as (c14 & P14 & G14 & M14 & H).
  assert (R14 : 0 <= mode c14 < 8) by (destruct M14 as [-> | -> ]; [lia | cbn; lia]).
  change 0 with (32 * 0) in H at 1.
  apply (step_wait (cfg c14) 0 _ c' o ltac:(lia) ltac:(rewrite G14; reflexivity) n c14 R14 P14 eq_refl) in H. destruct H as [H | (c15 & B15 & H)]; [left; exact H | right].
  apply inv_ret in H. destruct H as (E9 & ->). apply events_quiet in E9. apply (busy_quiet _ _ _ _ _ E9) in B15.
  destruct B15 as (D1 & D2 & D3 & D4). split; [reflexivity |]. split; [exact D1 |]. split; [exact D4 |]. rewrite D2, G14.
  split; [reflexivity |]. split; [reflexivity |]. split; [reflexivity |].
  intros k K1 K2 K3 K4. rewrite fupd_neq by exact K3. unfold g2. rewrite !fupd_neq by lia. unfold g1. rewrite wr_out by (cbn; lia).
  unfold g0. apply fupd_neq, K3.
Qed.

(** *** Bit timing *)

Lemma low6_sweep : forallb (fun q => (u8 (Z.lor (Z.shiftl 0 6) (Z.land q 63)) mod 64 =? q) && (u8 (Z.lor (Z.shiftl 2 6) (Z.land q 63)) mod 64 =? q)) (map Z.of_nat (seq 0 64)) = true.
Proof. vm_compute. reflexivity. Qed.
Lemma low6 s q : s = 0 \/ s = 2 -> 0 <= q < 64 -> u8 (Z.lor (Z.shiftl s 6) (Z.land q 63)) mod 64 = q.
Proof.
  intros Hs Hq. pose proof low6_sweep as A. rewrite forallb_forall in A. specialize (A q).
  assert (I : In q (map Z.of_nat (seq 0 64))) by (apply in_map_iff; exists (Z.to_nat q); split; [lia | apply in_seq; lia]).
  apply A, andb_true_iff in I. destruct I as (I1 & I2). apply Z.eqb_eq in I1. apply Z.eqb_eq in I2. destruct Hs as [-> | -> ]; assumption.
Qed.
Lemma best_cases clk br t : bestConfig clk br = Some t ->
  2 <= bt_prescaler t <= 128 /\
  (exists sp, (clk = 8000000 /\ br = 1000000 /\ t = Bt 1 1 1 1 (bt_prescaler t) /\ sp = 4 \/
    clk = 8000000 /\ br <> 1000000 /\ t = Bt 1 1 4 2 (bt_prescaler t) /\ sp = 8 \/
    clk = 16000000 /\ br = 1000000 /\ t = Bt 1 1 4 2 (bt_prescaler t) /\ sp = 8 \/
    clk = 16000000 /\ br <> 1000000 /\ t = Bt 1 3 8 4 (bt_prescaler t) /\ sp = 16 \/
    clk = 20000000 /\ br = 1000000 /\ t = Bt 1 3 4 2 (bt_prescaler t) /\ sp = 10 \/
    clk = 20000000 /\ br <> 1000000 /\ t = Bt 3 5 8 4 (bt_prescaler t) /\ sp = 20) /\
   Z.quot (Z.quot clk (bt_prescaler t)) sp = br).
Proof.
  unfold bestConfig. cbv zeta. destruct (calcPrescaler _ _ _ _ _ _) as [p |]; [| discriminate]. cbn [obind]. intros H.
  match type of H with (if ?b then _ else _) = _ => destruct b eqn:E; [| discriminate] end.
  assert (Ht : t = Bt (calcSJW clk br) (calcProp clk br) (calcPS1 clk br) (calcPS2 clk br) p) by congruence. clear H.
  repeat (apply andb_true_iff in E; destruct E as [E ?HE]). apply Z.eqb_eq in HE1.
  assert (Hp : 2 <= p <= 128) by (clear -HE3 HE4; lia). subst t. cbn [bt_prescaler]. split; [exact Hp |].
  exists (calcSJW clk br + calcProp clk br + calcPS1 clk br + calcPS2 clk br). split; [| exact HE1].
  clear -E. unfold calcSJW, calcProp, calcPS1, calcPS2 in *.
  destruct (Z.eqb_spec clk 8000000) as [-> | N1]; [| destruct (Z.eqb_spec clk 16000000) as [-> | N2]; [| destruct (Z.eqb_spec clk 20000000) as [-> | N3]; [| discriminate]]];
    destruct (Z.eqb_spec br 1000000) as [-> | N]; cbn; auto 12.
Qed.
(* the clocks of a bit *)
Lemma clocks_of clk br t : bestConfig clk br = Some t ->
  exists p sp, p = bt_prescaler t /\ 2 <= p <= 128 /\ 0 < sp /\ (clk / p) / sp = br /\
    bit_clocks (nth 2 (cnf t) 0) (nth 1 (cnf t) 0) (nth 0 (cnf t) 0) = 2 * (p / 2) * (if (clk =? 20000000) && negb (br =? 1000000) then 18 else sp) /\
    ((clk = 20000000 /\ br <> 1000000) -> sp = 20).
Proof.
  intros H. apply best_cases in H. destruct H as (Hp & sp & Hc & Hq). set (p := bt_prescaler t) in *. exists p, sp.
  split; [reflexivity |]. split; [exact Hp |].
  assert (Hsp : 0 < sp /\ 0 <= clk) by (clear -Hc; destruct Hc as [(-> & _ & _ & ->) | [(-> & _ & _ & ->) | [(-> & _ & _ & ->) | [(-> & _ & _ & ->) | [(-> & _ & _ & ->) | (-> & _ & _ & ->)]]]]]; lia).
  split; [apply Hsp |]. split.
  - rewrite <- Hq. rewrite Z.quot_div_nonneg; [rewrite Z.quot_div_nonneg by lia; reflexivity | apply Z.quot_pos; lia | lia].
  - assert (Hq6 : 0 <= p / 2 - 1 < 64) by (clear -Hp; lia).
    unfold bit_clocks, tq_clocks, cnf. cbn [nth].
    destruct Hc as [(-> & -> & Ht & ->) | [(-> & Hb & Ht & ->) | [(-> & -> & Ht & ->) | [(-> & Hb & Ht & ->) | [(-> & -> & Ht & ->) | (-> & Hb & Ht & ->)]]]]];
      rewrite Ht; cbn [bt_sjw bt_prop bt_ps1 bt_ps2 bt_prescaler]; (split; [| intros (E1 & E2); first [lia | congruence]]).
    all: try (change (1 - 1) with 0; rewrite low6 by (auto; lia)); try (change (3 - 1) with 2; rewrite low6 by (auto; lia)).
    all: try (replace (br =? 1000000) with false by (symmetry; apply Z.eqb_neq; exact Hb)).
    all: match goal with |- _ * ?x = _ * ?y => let a := eval vm_compute in x in let b := eval vm_compute in y in change x with a; change y with b end.
    all: clear; lia.
Qed.

(** *** A table of filters *)

Lemma wr_table g t k : zlen t = 32 -> 0 <= k < 40 -> k <> 15 -> filtered g t k =
  if k <? 12 then nth (Z.to_nat k) t 0 else if k <? 16 then g k else if k <? 28 then nth (Z.to_nat (k - 4)) t 0
  else if k <? 32 then g k else nth (Z.to_nat (k - 8)) t 0.
Proof.
  intros Ht Hk H15. unfold filtered.
  assert (L1 : zlen (firstn 12 (skipn 0 t)) = 12 /\ zlen (firstn 12 (skipn 12 t)) = 12 /\ zlen (firstn 8 (skipn 24 t)) = 8).
  { unfold zlen in *. rewrite !firstn_length, !skipn_length. lia. }
  destruct L1 as (L1 & L2 & L3).
  assert (N : forall a b i, (i < a)%nat -> nth i (firstn a (skipn b t)) 0 = nth (b + i) t 0).
  { clear. intros a b i Hi. revert b t. induction a as [| a IH] in i, Hi |- *; [lia |]. intros b t.
    assert (E : nth i (firstn (S a) (skipn b t)) 0 = nth i (skipn b t) 0).
    { clear IH. generalize (skipn b t). intros l. revert i Hi l. generalize (S a). induction n as [| n IHn]; intros i Hi l; [lia |].
      destruct l; [reflexivity |]. destruct i; [reflexivity |]. cbn. apply IHn. lia. }
    rewrite E. clear. revert t. induction b as [| b IHb]; intros t; [reflexivity |]. destruct t; [destruct i; reflexivity |]. cbn. apply IHb. }
  destruct (Z.ltb_spec k 12).
  - rewrite wr_out by lia. rewrite wr_out by lia. rewrite wr_in by lia. rewrite N by lia. f_equal. lia.
  - destruct (Z.ltb_spec k 16); [rewrite !wr_out by lia; rewrite !fupd_neq by lia; reflexivity |].
    destruct (Z.ltb_spec k 28); [rewrite wr_out by lia; rewrite wr_in by lia; rewrite N by lia; f_equal; lia |].
    destruct (Z.ltb_spec k 32); [rewrite !wr_out by lia; rewrite !fupd_neq by lia; reflexivity |].
    rewrite wr_in by lia. rewrite N by lia. f_equal. lia.
Qed.
Lemma mk_len e i : exists a b d h, mk_filter e i = [a; b; d; h].
Proof. unfold mk_filter. destruct e; repeat eexists. Qed.
Lemma mk_mask_len e i : exists a b d h, mk_mask e i = [a; b; d; h].
Proof. unfold mk_mask. destruct e; repeat eexists. Qed.
Lemma table_accepts c c' e0 e1 i0 i1 i2 i3 i4 i5 m0 m1 f : 0 <= i0 -> 0 <= i1 -> 0 <= i2 -> 0 <= i3 -> 0 <= i4 -> 0 <= i5 -> 0 <= m0 -> 0 <= m1 ->
  let t := filter_table e0 e1 i0 i1 i2 i3 i4 i5 m0 m1 in
  (forall k, k <> 15 -> cfg c' k = filtered (cfg c) t k) -> frame_ok f ->
  accepts0 c' f = wants e0 i0 m0 f || wants e0 i1 m0 f /\
  accepts1 c' f = wants e1 i2 m1 f || wants e1 i3 m1 f || wants e1 i4 m1 f || wants e1 i5 m1 f.
Proof.
  intros H0 H1 H2 H3 H4 H5 H6 H7 t Hc Hf.
  rewrite <- !match_wants by assumption. unfold accepts0, accepts1.
  assert (R : forall a, In a [0; 4; 8; 16; 20; 24; 32; 36] -> regs4 c' a = regs4 (Chip Idle (tx c) (rx c) 0 (filtered (cfg c) t) [] []) a).
  { intros a Ha. unfold regs4. cbn [cfg]. cbn [In] in Ha. rewrite !Hc by lia. reflexivity. }
  rewrite !R by (cbn; auto 12). clear R Hc. unfold regs4. cbn [cfg].
  unfold t, filter_table. clear t.
  destruct (mk_len e0 i0) as (a0 & b0 & d0 & h0 & ->). destruct (mk_len e0 i1) as (a1 & b1 & d1 & h1 & ->).
  destruct (mk_len e1 i2) as (a2 & b2 & d2 & h2 & ->). destruct (mk_len e1 i3) as (a3 & b3 & d3 & h3 & ->).
  destruct (mk_len e1 i4) as (a4 & b4 & d4 & h4 & ->). destruct (mk_len e1 i5) as (a5 & b5 & d5 & h5 & ->).
  destruct (mk_mask_len e0 m0) as (a6 & b6 & d6 & h6 & ->). destruct (mk_mask_len e1 m1) as (a7 & b7 & d7 & h7 & ->).
  match goal with |- context [filtered (cfg c) ?x] => set (t := x) end. rewrite !(wr_table (cfg c) t) by (reflexivity || lia). split; reflexivity.
Qed.
(** *** Bit rate *)

Lemma rate_exact clk br t : bestConfig clk br = Some t -> ~ (clk = 20000000 /\ br <> 1000000) -> bt_prescaler t mod 2 = 0 ->
  clk / bit_clocks (nth 2 (cnf t) 0) (nth 1 (cnf t) 0) (nth 0 (cnf t) 0) = br.
Proof.
  intros H Hn He. destruct (clocks_of _ _ _ H) as (p & sp & -> & Hp & Hsp & Hq & -> & _).
  replace ((clk =? 20000000) && negb (br =? 1000000)) with false by (clear -Hn; destruct (Z.eqb_spec clk 20000000), (Z.eqb_spec br 1000000); try reflexivity; tauto).
  rewrite <- Hq. rewrite Z.div_div by lia. f_equal. f_equal. clear -He. lia.
Qed.
Lemma rate_odd clk br t : bestConfig clk br = Some t -> bt_prescaler t mod 2 = 1 ->
  let p := bt_prescaler t in 0 < p - 1 /\ br * bit_clocks (nth 2 (cnf t) 0) (nth 1 (cnf t) 0) (nth 0 (cnf t) 0) * p <= (p - 1) * clk.
Proof.
  intros H Ho. destruct (clocks_of _ _ _ H) as (p & sp & -> & Hp & Hsp & Hq & -> & K). cbv zeta. set (p := bt_prescaler t) in *.
  split; [lia |]. replace (2 * (p / 2)) with (p - 1) by (clear -Ho; lia).
  assert (B : br * (p * sp) <= clk) by (rewrite <- Hq, Z.div_div, Z.mul_comm by lia; apply Z.mul_div_le; nia).
  assert (Hbr : 0 <= br).
  { rewrite <- Hq. apply best_cases in H. destruct H as (_ & s & Hc & _). apply Z.div_pos; [apply Z.div_pos; [| lia] | lia].
    clear -Hc. destruct Hc as [(-> & _) | [(-> & _) | [(-> & _) | [(-> & _) | [(-> & _) | (-> & _)]]]]]; lia. }
  assert (S : (if (clk =? 20000000) && negb (br =? 1000000) then 18 else sp) <= sp).
  { destruct (Z.eqb_spec clk 20000000), (Z.eqb_spec br 1000000); cbn [andb negb]; try lia. }
  revert S. generalize (if (clk =? 20000000) && negb (br =? 1000000) then 18 else sp) as s. clear -B Hbr Hp. intros s S. clearbody p.
  apply Z.le_trans with (br * ((p - 1) * sp) * p); [| nia]. apply Z.mul_le_mono_nonneg_r; [lia |]. apply Z.mul_le_mono_nonneg_l; [exact Hbr |]. nia.
Qed.
Lemma rate_20 br t : bestConfig 20000000 br = Some t -> br <> 1000000 ->
  br * bit_clocks (nth 2 (cnf t) 0) (nth 1 (cnf t) 0) (nth 0 (cnf t) 0) * 10 <= 9 * 20000000 /\ 0 < br.
Proof.
  intros H Hn. assert (Hb0 : br <> 0). { intros ->. vm_compute in H. discriminate. }
  destruct (clocks_of _ _ _ H) as (p & sp & -> & Hp & Hsp & Hq & -> & K). set (p := bt_prescaler t) in *.
  specialize (K (conj eq_refl Hn)). subst sp. replace (br =? 1000000) with false by (symmetry; apply Z.eqb_neq, Hn). cbn [negb andb Z.eqb Pos.eqb].
  assert (B : br * (p * 20) <= 20000000) by (rewrite <- Hq, Z.div_div, Z.mul_comm by lia; apply Z.mul_div_le; lia).
  assert (Hbr : 0 <= br) by (rewrite <- Hq; apply Z.div_pos; [apply Z.div_pos; lia | lia]).
  assert (Q : 2 * (p / 2) <= p) by (clear; lia). split; [| lia]. revert Q. generalize (2 * (p / 2)). clear -B Hbr. clearbody p. intros q Q. nia.
Qed.
