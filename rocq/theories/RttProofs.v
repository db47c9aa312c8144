From Coq Require Import ZArith List Bool Lia.
From Verif Require Import Base RttModel RttSpec.
Import ListNotations.
Open Scope Z_scope.

Lemma mod_apart N i a : 1 <= N -> i < a -> a - i < N -> i mod N <> a mod N.
Proof.
  intros HN L B E. pose proof (Z.div_mod i N ltac:(lia)). pose proof (Z.div_mod a N ltac:(lia)). rewrite E in H.
  assert (a - i = N * (a / N - i / N)) by nia. assert (a / N - i / N <= 0 \/ 1 <= a / N - i / N) by lia. nia.
Qed.
Lemma mod_same N i a : 1 <= N -> i <= a -> a - i < N -> i mod N = a mod N -> i = a.
Proof. intros HN L B E. destruct (Z.eq_dec i a) as [|NE]; [assumption|]. exfalso. apply (mod_apart N i a HN); [lia|assumption|assumption]. Qed.
Lemma mod_full N a r : 1 <= N -> (a + 1) mod N <> r mod N -> a - r <= N - 1 -> a + 1 - r <= N - 1.
Proof.
  intros HN E B. destruct (Z.eq_dec (a + 1 - r) N) as [EQ|]; [|lia]. exfalso. apply E. replace (a + 1) with (r + 1 * N) by lia. apply Z.mod_add. lia.
Qed.

Ltac qlia := repeat match goal with H : context [_ mod _] |- _ => clear H end; lia.
Section Rtt.
Variable N : Z.
Hypothesis HN : 1 <= N <= 65536.

Lemma next_mod x : next N (x mod N) = Some ((x + 1) mod N).
Proof.
  unfold next. replace (N =? 0) with false by qlia. f_equal. pose proof (Z.mod_pos_bound x N ltac:(qlia)). unfold u32. rewrite (Z.mod_small (x mod N + 1)) by qlia. apply Zplus_mod_idemp_l.
Qed.

Definition wpc_ok (s : tx) : Prop :=
  let a := zlen (acc s) in let r := zlen (out s) in
  match wp s with
  | WIdle => reported (calls s) = acc s
  | WHead l n => reported (calls s) ++ firstn (Z.to_nat n) (cur s) = acc s /\ 0 <= n /\ l = skipn (Z.to_nat n) (cur s)
  | WTail l n h => reported (calls s) ++ firstn (Z.to_nat n) (cur s) = acc s /\ 0 <= n /\ l = skipn (Z.to_nat n) (cur s) /\ l <> [] /\ h = a mod N
  | WCell l n h h' => reported (calls s) ++ firstn (Z.to_nat n) (cur s) = acc s /\ 0 <= n /\ l = skipn (Z.to_nat n) (cur s) /\ l <> [] /\ h = a mod N /\ h' = (a + 1) mod N /\ a + 1 - r <= N - 1
  | WStore l n h' => reported (calls s) ++ firstn (Z.to_nat n) (cur s) = acc s /\ 0 <= n /\ l = skipn (Z.to_nat n) (cur s) /\ l <> [] /\ h' = (a + 1) mod N /\ a + 1 - r <= N - 1 /\ znth (buf (tc s)) (a mod N) = Some (hd 0 l)
  end.
Record txi (s : tx) (v : Z) : Prop := {
  t_head : head (tc s) = zlen (acc s) mod N;
  t_tail : tail (tc s) = zlen (out s) mod N;
  t_pos : hpos s = (zlen (out s) + zlen (hcopy s)) mod N;
  t_seen : hseen s = v mod N;
  t_v : zlen (out s) + zlen (hcopy s) <= v <= zlen (acc s);
  t_cap : zlen (acc s) - zlen (out s) <= N - 1;
  t_len : zlen (buf (tc s)) = N;
  t_pre : exists rest, acc s = out s ++ hcopy s ++ rest;
  t_cells : forall i, zlen (out s) <= i < zlen (acc s) -> znth (buf (tc s)) (i mod N) = znth (acc s) i;
  t_pc : wpc_ok s }.

Lemma reported_app l m : reported (l ++ m) = reported l ++ reported m.
Proof. induction l as [|[a n] l IH]; cbn; [reflexivity|]. rewrite IH, app_assoc. reflexivity. Qed.
Lemma firstn_succ_hd (l : list Z) k : skipn k l <> [] -> firstn (S k) l = firstn k l ++ [hd 0 (skipn k l)] /\ tl (skipn k l) = skipn (S k) l.
Proof.
  revert l. induction k as [|k IH]; intros l H.
  - destruct l; [contradiction|]. cbn. split; reflexivity.
  - destruct l as [|x l]; [cbn in H; contradiction|]. cbn in H. destruct (IH l H) as [A B]. split; [change (firstn (S (S k)) (x :: l)) with (x :: firstn (S k) l); rewrite A; reflexivity|exact B].
Qed.

Lemma tx_ok a s v : txi s v -> exists s' v', tx_step N a s = Some s' /\ txi s' v'.
Proof.
  intro I. pose proof (t_pc _ _ I) as P. unfold wpc_ok in P. destruct a as [l| | | |]; cbn [tx_step].
  - destruct (wp s) eqn:W; try (exists s, v; split; [reflexivity|exact I]). eexists; exists v; split; [reflexivity|]. destruct I; constructor; cbn; try assumption. unfold wpc_ok. cbn. split; [rewrite app_nil_r; exact P|]. split; [qlia|reflexivity].
  - unfold w_step. destruct (wp s) as [|l n|l n h|l n h h'|l n h'] eqn:W.
    + exists s, v. split; [reflexivity|exact I].
    + destruct P as (P1 & P2 & P3). destruct l as [|x l].
      * eexists; exists v; split; [reflexivity|]. destruct I; constructor; cbn; try assumption. unfold wpc_ok. cbn. rewrite reported_app. cbn. rewrite app_nil_r. exact P1.
      * eexists; exists v; split; [reflexivity|]. pose proof (t_head _ _ I) as TH. destruct I; constructor; cbn; try assumption. unfold wpc_ok. cbn. split; [exact P1|]. split; [exact P2|]. split; [exact P3|]. split; [discriminate|exact TH].
    + destruct P as (P1 & P2 & P3 & P4 & ->). rewrite next_mod. cbn [obind]. replace (N =? 0) with false by qlia. cbn [orb]. pose proof (t_tail _ _ I) as TT. rewrite TT.
      destruct ((zlen (acc s) + 1) mod N =? zlen (out s) mod N) eqn:F.
      * eexists; exists v; split; [reflexivity|]. destruct I; constructor; cbn; try assumption. unfold wpc_ok. cbn. rewrite reported_app. cbn. rewrite app_nil_r. exact P1.
      * pose proof (mod_full N (zlen (acc s)) (zlen (out s)) ltac:(qlia) (proj1 (Z.eqb_neq _ _) F) (t_cap _ _ I)) as CP. eexists; exists v; split; [reflexivity|]. destruct I; constructor; cbn; try assumption. unfold wpc_ok. cbn. repeat (split; [first [assumption|reflexivity]|]). exact CP.
    + destruct P as (P1 & P2 & P3 & P4 & -> & -> & CP). pose proof (Z.mod_pos_bound (zlen (acc s)) N ltac:(qlia)) as MB. destruct (zupd_in_range (buf (tc s)) (zlen (acc s) mod N) (hd 0 l)) as (c & E & _). { rewrite (t_len _ _ I). exact MB. }
      rewrite E. cbn [obind]. apply zupd_Some in E as (_ & LN & G). eexists; exists v; split; [reflexivity|]. destruct I; constructor; cbn; try assumption.
      * congruence.
      * intros i Hi. rewrite G. destruct (_ =? _) eqn:Q; [|apply t_cells0; exact Hi]. exfalso. apply Z.eqb_eq in Q. revert Q. apply mod_apart; qlia.
      * unfold wpc_ok. cbn. repeat (split; [first [assumption|reflexivity]|]). rewrite G, Z.eqb_refl. reflexivity.
    + destruct P as (P1 & P2 & P3 & P4 & -> & CP & CE). eexists; exists v; split; [reflexivity|]. pose proof (zlen_nonneg (acc s)). pose proof (zlen_nonneg (out s)). destruct I; constructor; cbn; try assumption.
      * rewrite zlen_app. reflexivity.
      * rewrite zlen_app, zlen_cons, zlen_nil. qlia.
      * rewrite zlen_app, zlen_cons, zlen_nil. qlia.
      * destruct t_pre0 as [rest ->]. exists (rest ++ [hd 0 l]). rewrite <- !app_assoc. reflexivity.
      * intros i Hi. rewrite zlen_app, zlen_cons, zlen_nil in Hi. destruct (Z.eq_dec i (zlen (acc s))) as [->|NE].
        -- rewrite CE. rewrite znth_app_r by qlia. rewrite Z.sub_diag. reflexivity.
        -- rewrite znth_app_l by qlia. apply t_cells0. qlia.
      * unfold wpc_ok. cbn. rewrite P3 in P4. destruct (firstn_succ_hd (cur s) (Z.to_nat n) P4) as [A B]. replace (Z.to_nat (n + 1)) with (S (Z.to_nat n)) by qlia. rewrite A, app_assoc, P1, <- P3. split; [reflexivity|]. split; [qlia|]. rewrite P3. exact B.
  - exists (Tx (tc s) (wp s) (head (tc s)) (hpos s) (hcopy s) (acc s) (out s) (cur s) (calls s)), (zlen (acc s)). split; [reflexivity|]. pose proof (t_v _ _ I). destruct I; constructor; cbn; try assumption. qlia.
  - pose proof (t_pos _ _ I) as TP. pose proof (t_seen _ _ I) as TS. pose proof (t_v _ _ I) as TV. pose proof (t_cap _ _ I) as TC. pose proof (zlen_nonneg (hcopy s)). pose proof (zlen_nonneg (out s)). destruct (hpos s =? hseen s) eqn:Q; [exists s, v; split; [reflexivity|exact I]|].
    assert (LT : zlen (out s) + zlen (hcopy s) < v). { destruct (Z.eq_dec (zlen (out s) + zlen (hcopy s)) v) as [EQ|]; [|qlia]. exfalso. rewrite TP, TS, EQ, Z.eqb_refl in Q. discriminate. }
    rewrite TP, (t_cells _ _ I) by qlia. destruct (t_pre _ _ I) as [rest PR]. destruct rest as [|x rest].
    { exfalso. apply (f_equal (@zlen Z)) in PR. rewrite !zlen_app, zlen_nil in PR. qlia. }
    assert (ZX : znth (acc s) (zlen (out s) + zlen (hcopy s)) = Some x). { rewrite PR, app_assoc. rewrite znth_app_r by (rewrite zlen_app; qlia). rewrite zlen_app, Z.sub_diag. reflexivity. }
    rewrite ZX. cbn [obind]. rewrite next_mod. cbn [obind]. eexists; exists v; split; [reflexivity|]. destruct I; constructor; cbn; try assumption.
    + rewrite zlen_app, zlen_cons, zlen_nil. f_equal. qlia.
    + rewrite zlen_app, zlen_cons, zlen_nil. qlia.
    + exists rest. rewrite PR, <- !app_assoc. reflexivity.
  - eexists; exists v; split; [reflexivity|]. pose proof (zlen_nonneg (hcopy s)). destruct I; constructor; cbn; try assumption; rewrite ?zlen_app, ?zlen_nil, ?Z.add_0_r; try assumption; try qlia.
    + destruct t_pre0 as [rest ->]. exists rest. rewrite <- app_assoc. reflexivity.
    + intros i Hi. apply t_cells0. qlia.
    + unfold wpc_ok in *. cbn. destruct (wp s); try exact P.
      * destruct P as (P1 & P2 & P3 & P4 & P5 & P6 & P7). repeat (split; [assumption|]). rewrite zlen_app. qlia.
      * destruct P as (P1 & P2 & P3 & P4 & P5 & P6 & P7). repeat (split; [assumption|]). split; [rewrite zlen_app; qlia|assumption].
Qed.
Lemma tx_start_ok : txi (tx_start N) 0.
Proof.
  constructor; cbn; try (rewrite Z.mod_0_l by qlia; reflexivity); try qlia.
  - rewrite zlen_repeat. qlia.
  - exists []. reflexivity.
  - reflexivity.
Qed.
Lemma tx_run_ok l : forall s v, txi s v -> exists s' v', tx_run N l s = Some s' /\ txi s' v'.
Proof.
  induction l as [|a l IH]; intros s v I; [exists s, v; split; [reflexivity|exact I]|].
  destruct (tx_ok a s v I) as (s1 & v1 & E & I1). destruct (IH s1 v1 I1) as (s2 & v2 & E2 & I2). exists s2, v2. cbn [tx_run]. rewrite E. split; assumption.
Qed.
Lemma copy_all k : forall s v, txi s v -> v - (zlen (out s) + zlen (hcopy s)) <= Z.of_nat k ->
  exists s', tx_run N (repeat HCopy k) s = Some s' /\ txi s' v /\ zlen (out s') + zlen (hcopy s') = v /\ acc s' = acc s /\ out s' = out s.
Proof.
  induction k as [|k IH]; intros s v I B.
  - exists s. pose proof (t_v _ _ I). split; [reflexivity|]. split; [exact I|]. split; [qlia|split; reflexivity].
  - cbn [repeat tx_run]. destruct (Z.eq_dec (zlen (out s) + zlen (hcopy s)) v) as [EQ|NE].
    + assert (Q : tx_step N HCopy s = Some s). { cbn [tx_step]. rewrite (t_pos _ _ I), (t_seen _ _ I), EQ, Z.eqb_refl. reflexivity. } rewrite Q. cbn [obind]. apply IH; [exact I|qlia].
    + pose proof (t_v _ _ I) as TV. pose proof (t_cap _ _ I) as TC. pose proof (zlen_nonneg (hcopy s)).
      destruct (tx_ok HCopy s v I) as (s1 & v1 & E & I1). pose proof E as E'. cbn [tx_step] in E'.
      rewrite (t_pos _ _ I), (t_seen _ _ I) in E'. replace (_ =? v mod N) with false in E' by (symmetry; apply Z.eqb_neq; apply mod_apart; qlia).
      rewrite (t_cells _ _ I) in E' by qlia. rewrite next_mod in E'. destruct (znth (acc s) _) as [x|]; cbn [obind] in E'; [|discriminate]. injection E' as <-.
      rewrite E. cbn [obind]. assert (I2 : txi (Tx (tc s) (wp s) (v mod N) ((zlen (out s) + zlen (hcopy s) + 1) mod N) (hcopy s ++ [x]) (acc s) (out s) (cur s) (calls s)) v).
      { destruct I, I1. constructor; cbn in *; try assumption; try reflexivity. rewrite zlen_app, zlen_cons, zlen_nil. qlia. }
      destruct (IH _ v I2) as (s' & E2 & I3 & L3 & A3 & O3). { cbn. rewrite zlen_app, zlen_cons, zlen_nil. qlia. }
      exists s'. split; [exact E2|]. split; [exact I3|]. split; [exact L3|]. split; [exact A3|exact O3].
Qed.

Definition rpc_ok (s : rx) : Prop :=
  let g := zlen (got s) in let v := zlen (sent s) in
  match rp s with
  | RIdle | RHead _ => True
  | RTail _ h => exists u, h = u mod N /\ g <= u <= v
  | RCell _ t => t = g mod N /\ g < v
  | RStore _ t x => t = g mod N /\ znth (sent s) g = Some x
  end.
Record rxi (s : rx) (f : Z) : Prop := {
  x_head : head (rc s) = zlen (sent s) mod N;
  x_tail : tail (rc s) = zlen (got s) mod N;
  x_put : hput s = (zlen (sent s) + zlen (hnew s)) mod N;
  x_free : hfree s = f mod N;
  x_f : 0 <= f <= zlen (got s);
  x_cap : zlen (sent s) + zlen (hnew s) - f <= N - 1;
  x_len : zlen (buf (rc s)) = N;
  x_pre : exists rest, sent s = got s ++ rest;
  x_cells : forall i, zlen (got s) <= i < zlen (sent s) + zlen (hnew s) -> znth (buf (rc s)) (i mod N) = znth (sent s ++ hnew s) i;
  x_pc : rpc_ok s }.
Lemma rx_start_ok : rxi (rx_start N) 0.
Proof.
  constructor; cbn; try (rewrite Z.mod_0_l by qlia; reflexivity); try qlia; try exact Logic.I.
  - rewrite zlen_repeat. qlia.
  - exists []. reflexivity.
Qed.
Lemma got_sent s f : rxi s f -> zlen (got s) <= zlen (sent s).
Proof. intro I. destruct (x_pre _ _ I) as [rest E]. apply (f_equal (@zlen Z)) in E. rewrite zlen_app in E. pose proof (zlen_nonneg rest). qlia. Qed.
Lemma rx_ok a s f : rxi s f -> exists s' f', rx_step N a s = Some s' /\ rxi s' f'.
Proof.
  intro I. pose proof (x_pc _ _ I) as P. unfold rpc_ok in P. pose proof (got_sent s f I) as GS. pose proof (x_f _ _ I) as XF. pose proof (x_cap _ _ I) as XC. pose proof (zlen_nonneg (hnew s)) as HW.
  destruct a as [k| | |b|]; cbn [rx_step].
  - destruct (rp s) eqn:W; try (exists s, f; split; [reflexivity|exact I]). eexists; exists f; split; [reflexivity|]. destruct I; constructor; cbn; try assumption; exact Logic.I.
  - unfold r_step. destruct (rp s) as [|[|k]|k h|k t|k t x] eqn:W.
    + exists s, f. split; [reflexivity|exact I].
    + eexists; exists f; split; [reflexivity|]. destruct I; constructor; cbn; try assumption; exact Logic.I.
    + eexists; exists f; split; [reflexivity|]. pose proof (x_head _ _ I) as XH. destruct I; constructor; cbn; try assumption. unfold rpc_ok. cbn. exists (zlen (sent s)). split; [exact XH|qlia].
    + replace (N =? 0) with false by qlia. cbn [orb]. destruct P as (u & -> & U). pose proof (x_tail _ _ I) as XT. destruct (tail (rc s) =? u mod N) eqn:Q.
      * eexists; exists f; split; [reflexivity|]. destruct I; constructor; cbn; try assumption; exact Logic.I.
      * eexists; exists f; split; [reflexivity|]. destruct I; constructor; cbn; try assumption. unfold rpc_ok. cbn. split; [exact XT|]. destruct (Z.eq_dec (zlen (got s)) u) as [EQ|]; [|qlia]. exfalso. rewrite XT, EQ, Z.eqb_refl in Q. discriminate.
    + destruct P as [-> LT]. rewrite (x_cells _ _ I) by qlia. rewrite znth_app_l by qlia. destruct (znth (sent s) (zlen (got s))) as [x|] eqn:ZX.
      * cbn [obind]. eexists; exists f; split; [reflexivity|]. destruct I; constructor; cbn; try assumption. unfold rpc_ok. cbn. split; [reflexivity|exact ZX].
      * exfalso. destruct (x_pre _ _ I) as [rest E]. destruct rest as [|y rest]; [rewrite app_nil_r in E; rewrite E in LT; lia|]. rewrite E, znth_app_r, Z.sub_diag in ZX by qlia. discriminate.
    + destruct P as [-> ZX]. rewrite next_mod. cbn [obind]. eexists; exists f; split; [reflexivity|]. destruct I; constructor; cbn; try assumption; rewrite ?zlen_app, ?zlen_cons, ?zlen_nil; try reflexivity; try qlia; try exact Logic.I.
      * destruct x_pre0 as [rest E]. destruct rest as [|y rest]; [rewrite app_nil_r in E; rewrite E in ZX; apply znth_Some in ZX; lia|]. rewrite E, znth_app_r, Z.sub_diag in ZX by qlia. injection ZX as ->. exists rest. rewrite <- app_assoc. exact E.
      * intros i Hi. apply x_cells0. qlia.
  - exists (Rx (rc s) (rp s) (tail (rc s)) (hput s) (hnew s) (sent s) (got s) (refused s)), (zlen (got s)). split; [reflexivity|]. destruct I; constructor; cbn; try assumption; qlia.
  - replace (N =? 0) with false by qlia. pose proof (x_put _ _ I) as XP. pose proof (x_free _ _ I) as XR. rewrite XP, next_mod. cbn [obind]. rewrite XR. destruct (_ =? f mod N) eqn:Q; [exists s, f; split; [reflexivity|exact I]|].
    pose proof (mod_full N (zlen (sent s) + zlen (hnew s)) f ltac:(qlia) (proj1 (Z.eqb_neq _ _) Q) XC) as CP. destruct (zupd_in_range (buf (rc s)) ((zlen (sent s) + zlen (hnew s)) mod N) b) as (c & E & _). { rewrite (x_len _ _ I). apply Z.mod_pos_bound. qlia. }
    rewrite E. cbn [obind]. apply zupd_Some in E as (_ & LN & G). exists (Rx (Chan (head (rc s)) (tail (rc s)) c) (rp s) (f mod N) ((zlen (sent s) + zlen (hnew s) + 1) mod N) (hnew s ++ [b]) (sent s) (got s) (refused s)), f. split; [reflexivity|].
    pose proof (zlen_nonneg (got s)). destruct I; constructor; cbn; try assumption; rewrite ?zlen_app, ?zlen_cons, ?zlen_nil; try qlia.
    + f_equal. qlia.
    + intros i Hi. rewrite G, app_assoc. destruct (Z.eq_dec i (zlen (sent s) + zlen (hnew s))) as [->|NE].
      * rewrite Z.eqb_refl. rewrite znth_app_r, zlen_app, Z.sub_diag by (rewrite zlen_app; qlia). reflexivity.
      * replace (i mod N =? _) with false by (symmetry; apply Z.eqb_neq; apply mod_apart; qlia). rewrite znth_app_l by (rewrite zlen_app; qlia). apply x_cells0. qlia.
  - eexists; exists f; split; [reflexivity|]. destruct I; constructor; cbn; try assumption; rewrite ?zlen_app, ?zlen_nil, ?Z.add_0_r, ?app_nil_r; try assumption; try qlia.
    + destruct x_pre0 as [rest ->]. exists (rest ++ hnew s). rewrite <- app_assoc. reflexivity.
    + unfold rpc_ok. cbn. destruct (rp s); try exact P; rewrite ?zlen_app.
      * destruct P as (u & E & U). exists u. split; [exact E|qlia].
      * destruct P as [E L]. split; [exact E|qlia].
      * destruct P as [E ZX]. split; [exact E|]. rewrite znth_app_l by (apply znth_Some in ZX; qlia). exact ZX.
Qed.
Lemma rx_run_ok l : forall s v, rxi s v -> exists s' v', rx_run N l s = Some s' /\ rxi s' v'.
Proof.
  induction l as [|a l IH]; intros s v I; [exists s, v; split; [reflexivity|exact I]|].
  destruct (rx_ok a s v I) as (s1 & v1 & E & I1). destruct (IH s1 v1 I1) as (s2 & v2 & E2 & I2). exists s2, v2. cbn [rx_run]. rewrite E. split; assumption.
Qed.
Lemma host_run l : Forall host l -> forall s s', rx_run N l s = Some s' -> rp s' = rp s /\ got s' = got s /\ tail (rc s') = tail (rc s).
Proof.
  induction l as [|a l IH]; intros F s s' E; [injection E as <-; repeat split|].
  cbn [rx_run] in E. destruct (rx_step N a s) as [s1|] eqn:E1; [|discriminate]. cbn [obind] in E. destruct (IH (Forall_inv_tail F) s1 s' E) as (A & B & C).
  rewrite A, B, C. pose proof (Forall_inv F) as H. destruct a; cbn in H; try contradiction; cbn [rx_step] in E1.
  - injection E1 as <-. repeat split.
  - destruct (N =? 0); [injection E1 as <-; repeat split|]. destruct (next N (hput s)); cbn [obind] in E1; [|discriminate]. destruct (_ =? _); [injection E1 as <-; repeat split|]. destruct (zupd _ _ _); cbn [obind] in E1; [|discriminate]. injection E1 as <-. repeat split.
  - injection E1 as <-. repeat split.
Qed.
End Rtt.
