(** C69 — the RTT channels (src/modm/platform/uart/rtt/rtt.cpp.in): for every
    interleaving of the target with the debug host. *)
From Coq Require Import ZArith List Bool Lia.
From Verif Require Import Base RttModel RttSpec RttProofs.
Import ListNotations.
Open Scope Z_scope.

(** Up channel: no access is outside the buffer; the host has taken exactly the first of
    the accepted bytes, in order; at most N - 1 bytes wait; while no call is running the
    accepted bytes are the ones reported by the results of write(). *)
Theorem C69_transmit N l : 1 <= N <= 65536 ->
  exists s rest, tx_run N l (tx_start N) = Some s /\ acc s = out s ++ hcopy s ++ rest /\
    zlen (acc s) - zlen (out s) <= N - 1 /\ (wp s = WIdle -> reported (calls s) = acc s).
Proof.
  intros HN. destruct (tx_run_ok N HN l _ _ (tx_start_ok N HN)) as (s & v & E & I).
  destruct (t_pre _ _ _ I) as [rest PR]. exists s, rest. split; [exact E|]. split; [exact PR|]. split; [exact (t_cap _ _ _ I)|].
  intro W. pose proof (t_pc _ _ _ I) as P. unfold wpc_ok in P. rewrite W in P. exact P.
Qed.
(** Three bytes into a buffer for two; the host copies one byte while the second is stored. *)
Example C69_transmit_ex : match tx_run 3 [TCall [7; 8; 9]; TStep; TStep; TStep; TStep; HLook; TStep; TStep; TStep; HCopy; TStep; HFree; TStep; TStep; TStep; TStep; TStep; HLook; HCopy] (tx_start 3) with
  | Some s => (acc s, out s, hcopy s, calls s, wp s) = ([7; 8; 9], [7], [8], [([7; 8; 9], 3)], WIdle) | None => False end.
Proof. vm_compute. reflexivity. Qed.

(** write() stops short only when N - 1 bytes are waiting for the host. *)
Theorem C69_refused N l s t : 1 <= N <= 65536 -> tx_run N l (tx_start N) = Some s ->
  tx_step N TStep s = Some t -> wp s <> WIdle -> wp t = WIdle ->
  exists n, calls t = calls s ++ [(cur s, n)] /\ 0 <= n /\ (zlen (cur s) <= n \/ (n < zlen (cur s) /\ zlen (acc s) - zlen (out s) = N - 1)).
Proof.
  intros HN E ST NI TI. destruct (tx_run_ok N HN l _ _ (tx_start_ok N HN)) as (s1 & v & E1 & I). rewrite E in E1. injection E1 as <-.
  pose proof (t_pc _ _ _ I) as P. unfold wpc_ok in P. cbn [tx_step] in ST. unfold w_step in ST. destruct (wp s) as [|k n|k n h|k n h h'|k n h'].
  - contradiction.
  - destruct P as (_ & P2 & P3). destruct k as [|x k]; injection ST as <-; [|discriminate TI]. exists n. split; [reflexivity|]. split; [exact P2|]. left. symmetry in P3. apply (f_equal (@length Z)) in P3. rewrite skipn_length in P3. unfold zlen. cbn in P3. lia.
  - destruct P as (_ & P2 & P3 & P4 & ->). rewrite (next_mod N HN) in ST. cbn [obind] in ST. replace (N =? 0) with false in ST by lia. cbn [orb] in ST. rewrite (t_tail _ _ _ I) in ST.
    destruct (_ =? _) eqn:F in ST; injection ST as <-; [|discriminate TI]. exists n. split; [reflexivity|]. split; [exact P2|]. right. split.
    + destruct (Z_lt_le_dec n (zlen (cur s))) as [|C]; [assumption|]. exfalso. apply P4. rewrite P3. apply skipn_all2. unfold zlen in C. lia.
    + apply Z.eqb_eq in F. pose proof (t_cap _ _ _ I) as CP. destruct (t_pre _ _ _ I) as [rest PR]. apply (f_equal (@zlen Z)) in PR. rewrite !zlen_app in PR. pose proof (zlen_nonneg rest). pose proof (zlen_nonneg (hcopy s)).
      destruct (Z_lt_le_dec (zlen (acc s) + 1 - zlen (out s)) N) as [C|C]; [|lia]. exfalso. apply (mod_apart N (zlen (out s)) (zlen (acc s) + 1)); try lia.
  - destruct (zupd _ _ _); cbn [obind] in ST; [injection ST as <-; discriminate TI|discriminate].
  - injection ST as <-. discriminate TI.
Qed.
Example C69_refused_ex : match tx_run 3 [TCall [7; 8; 9]; TStep; TStep; TStep; TStep; TStep; TStep; TStep; TStep; TStep] (tx_start 3) with
  | Some s => match tx_step 3 TStep s with Some t => (wp s, wp t, calls t) = (WTail [9] 2 2, WIdle, [([7; 8; 9], 2)]) | None => False end | None => False end.
Proof. vm_compute. reflexivity. Qed.

(** A host which looks once, copies up to N bytes and releases them has taken
    everything accepted before it looked. *)
Theorem C69_delivered N l s k : 1 <= N <= 65536 -> tx_run N l (tx_start N) = Some s -> N <= Z.of_nat k ->
  exists t, tx_run N (HLook :: repeat HCopy k ++ [HFree]) s = Some t /\ out t = acc s /\ acc t = acc s /\ isEmpty (tc t) = true.
Proof.
  intros HN E K. destruct (tx_run_ok N HN l _ _ (tx_start_ok N HN)) as (s1 & v & E1 & I). rewrite E in E1. injection E1 as <-.
  cbn [tx_run tx_step obind].
  set (s1 := Tx (tc s) (wp s) (head (tc s)) (hpos s) (hcopy s) (acc s) (out s) (cur s) (calls s)).
  assert (I1 : txi N s1 (zlen (acc s))). { pose proof (t_v _ _ _ I). pose proof (t_head _ _ _ I). destruct I; constructor; cbn; try assumption. lia. }
  destruct (copy_all N HN k s1 _ I1) as (s2 & E2 & I2 & L2 & A2 & O2). { cbn. pose proof (t_cap _ _ _ I). pose proof (zlen_nonneg (hcopy s)). lia. }
  assert (RA : forall a b u, tx_run N (a ++ b) u = do w <- tx_run N a u; tx_run N b w).
  { induction a as [|x a IH]; intros b u; [reflexivity|]. cbn [tx_run app]. destruct (tx_step N x u); [apply IH|reflexivity]. }
  rewrite RA, E2. cbn [obind tx_run tx_step]. eexists. split; [reflexivity|]. cbn [out acc tc].
  destruct (t_pre _ _ _ I2) as [rest PR]. assert (rest = []) as ->. { apply zlen_0_nil. apply (f_equal (@zlen Z)) in PR. rewrite !zlen_app, A2 in PR. change (acc s1) with (acc s) in PR. lia. }
  rewrite app_nil_r in PR. rewrite <- PR, A2. split; [reflexivity|]. split; [reflexivity|].
  unfold isEmpty. cbn [head tail]. rewrite (t_head _ _ _ I2), (t_pos _ _ _ I2), L2, A2. apply Z.eqb_refl.
Qed.
Example C69_delivered_ex : match tx_run 3 [TCall [7; 8]; TStep; TStep; TStep; TStep; TStep; TStep; TStep; TStep] (tx_start 3) with
  | Some s => match tx_run 3 [HLook; HCopy; HCopy; HCopy; HFree] s with Some t => out t = [7; 8] | None => False end | None => False end.
Proof. vm_compute. reflexivity. Qed.

(** transmitBufferSize() and isWriteFinished(), as long as something is waiting. *)
Theorem C69_size N l s : 1 <= N <= 65536 -> tx_run N l (tx_start N) = Some s ->
  (isEmpty (tc s) = true <-> acc s = out s) /\ (acc s <> out s -> getSize N (tc s) = zlen (acc s) - zlen (out s)).
Proof.
  intros HN E. destruct (tx_run_ok N HN l _ _ (tx_start_ok N HN)) as (s1 & v & E1 & I). rewrite E in E1. injection E1 as <-.
  pose proof (t_cap _ _ _ I) as CP. pose proof (t_head _ _ _ I) as TH. pose proof (t_tail _ _ _ I) as TT. destruct (t_pre _ _ _ I) as [rest PR]. rewrite app_assoc in PR.
  pose proof (zlen_nonneg (out s)) as O0. assert (LE : zlen (out s) <= zlen (acc s)). { pose proof (t_v _ _ _ I). pose proof (zlen_nonneg (hcopy s)). lia. }
  assert (EQ : zlen (out s) = zlen (acc s) -> acc s = out s).
  { intro L. pose proof (t_v _ _ _ I). pose proof (zlen_nonneg (hcopy s)). rewrite PR in L. rewrite !zlen_app in L. pose proof (zlen_nonneg rest). assert (hcopy s = []) as HH1 by (apply zlen_0_nil; lia). assert (rest = []) as HH2 by (apply zlen_0_nil; lia). rewrite PR, HH1, HH2, !app_nil_r. reflexivity. }
  unfold isEmpty, getSize. rewrite TH, TT. split.
  - split; intro H; [apply EQ|rewrite H; apply Z.eqb_refl]. apply Z.eqb_eq in H. symmetry in H. apply (mod_same N); [lia|lia|lia|exact H].
  - intro NE. assert (LT : zlen (out s) < zlen (acc s)). { destruct (Z.eq_dec (zlen (out s)) (zlen (acc s))) as [L|]; [|lia]. contradiction (NE (EQ L)). }
    revert LT CP O0. generalize (zlen (out s)) as r. generalize (zlen (acc s)) as a. clear - HN. intros a r LT CP O0.
    pose proof (Z.mod_pos_bound a N ltac:(lia)) as MA. pose proof (Z.mod_pos_bound r N ltac:(lia)) as MR. pose proof (Z.div_mod a N ltac:(lia)) as DA. pose proof (Z.div_mod r N ltac:(lia)) as DR.
    revert MA MR DA DR. generalize (a mod N) as x. generalize (r mod N) as y. generalize (a / N) as qa. generalize (r / N) as qr. intros qr qa y x MA MR DA DR.
    assert (D : x - y = a - r \/ x - y = a - r - N). { assert (qa = qr \/ qa = qr + 1) as [->| ->] by nia; [left; lia|right; lia]. }
    unfold u32. destruct (y <? x) eqn:C; rewrite Z.mod_small; lia.
Qed.
Example C69_size_ex : match tx_run 3 [TCall [7; 8]; TStep; TStep; TStep; TStep; TStep; TStep; TStep; TStep; HLook; HCopy; HFree; TStep; TCall [9]; TStep; TStep; TStep; TStep] (tx_start 3) with
  | Some s => acc s <> out s /\ head (tc s) < tail (tc s) /\ getSize 3 (tc s) = 2 | None => False end.
Proof. vm_compute. split; [discriminate|]. split; reflexivity. Qed.
(** Of an empty buffer transmitBufferSize() and receiveBufferSize() return the size of
    the buffer. *)
Theorem C69_size_refuted : exists l s, tx_run 512 l (tx_start 512) = Some s /\ acc s = out s /\ getSize 512 (tc s) = 512.
Proof. exists []. eexists. split; [reflexivity|]. split; reflexivity. Qed.

(** module.lb:22-27 allows a size of 0 (the default of the receive buffers); write() then
    divides by 0 before it tests the size. *)
Theorem C69_zero_undefined l x s : wp s = WHead (x :: l) 0 -> tx_run 0 [TStep; TStep] s = None.
Proof. intro W. cbn [tx_run tx_step]. unfold w_step. rewrite W. cbn. reflexivity. Qed.
Example C69_zero_undefined_ex : match tx_run 0 [TCall [1]] (tx_start 0) with Some s => wp s = WHead [1] 0 | None => False end.
Proof. reflexivity. Qed.

(** Down channel: read() delivers exactly the first of the published bytes, in order, and
    reads no cell outside the buffer. *)
Theorem C69_receive N l : 1 <= N <= 65536 ->
  exists s rest, rx_run N l (rx_start N) = Some s /\ sent s = got s ++ rest /\ zlen rest <= N - 1.
Proof.
  intros HN. destruct (rx_run_ok N HN l _ _ (rx_start_ok N HN)) as (s & f & E & I). destruct (x_pre _ _ _ I) as [rest PR].
  exists s, rest. split; [exact E|]. split; [exact PR|]. pose proof (x_cap _ _ _ I) as CP. pose proof (x_f _ _ _ I). pose proof (zlen_nonneg (hnew s)). rewrite PR, zlen_app in CP. lia.
Qed.
Example C69_receive_ex : match rx_run 3 [HStore 1; HPublish; RCall 2; RStep; HStore 2; RStep; RStep; RStep; HTail; HPublish; RStep; RStep; RStep; HStore 3; RStep; RStep] (rx_start 3) with
  | Some s => (got s, sent s, hnew s, rp s, refused s) = ([1; 2], [1; 2], [3], RIdle, 0) | None => False end.
Proof. vm_compute. reflexivity. Qed.

(** read() finds nothing only if everything published before it read the head was
    delivered; whatever the host does between its two index accesses. *)
Theorem C69_read_empty N l s k s1 hs s2 t : 1 <= N <= 65536 -> rx_run N l (rx_start N) = Some s -> rp s = RHead (S k) ->
  rx_step N RStep s = Some s1 -> Forall host hs -> rx_run N hs s1 = Some s2 -> rx_step N RStep s2 = Some t ->
  (rp t = RIdle <-> got s = sent s) /\ (rp t = RIdle -> got t = got s).
Proof.
  intros HN E W E1 F E2 E3. destruct (rx_run_ok N HN l _ _ (rx_start_ok N HN)) as (s0 & f & E0 & I). rewrite E in E0. injection E0 as <-.
  cbn [rx_step] in E1. unfold r_step in E1. rewrite W in E1. injection E1 as <-. destruct (host_run N hs F _ _ E2) as (A & B & C). cbn [rp got rc tail set_rp] in A, B, C.
  cbn [rx_step] in E3. unfold r_step in E3. rewrite A, C in E3. replace (N =? 0) with false in E3 by lia. cbn [orb] in E3. rewrite (x_head _ _ _ I), (x_tail _ _ _ I) in E3.
  destruct (x_pre _ _ _ I) as [rest PR]. pose proof (x_cap _ _ _ I) as CP. pose proof (x_f _ _ _ I) as XF. pose proof (zlen_nonneg (hnew s)) as HW. pose proof (zlen_nonneg rest) as RN. pose proof (got_sent N s f I) as GS.
  destruct (_ =? _) eqn:Q in E3; injection E3 as <-; cbn [rp got].
  - split; [|intros _; exact B]. split; [intros _|reflexivity]. apply Z.eqb_eq in Q. apply (mod_same N) in Q; [|lia|exact GS|lia].
    rewrite PR in Q. rewrite zlen_app in Q. rewrite PR. assert (rest = []) as -> by (apply zlen_0_nil; lia). symmetry. apply app_nil_r.
  - split; [|intro X; discriminate X]. split; [intro X; discriminate X|]. intro X. rewrite X, Z.eqb_refl in Q. discriminate.
Qed.
Example C69_read_empty_ex : match rx_run 3 [RCall 1] (rx_start 3) with
  | Some s => rp s = RHead 1 /\ match rx_run 3 [RStep; HStore 5; HPublish; RStep] s with Some t => rp t = RIdle /\ got t = [] /\ sent t = [5] | None => False end | None => False end.
Proof. vm_compute. repeat split. Qed.

Print Assumptions C69_transmit.
Print Assumptions C69_refused.
Print Assumptions C69_delivered.
Print Assumptions C69_size.
Print Assumptions C69_size_refuted.
Print Assumptions C69_zero_undefined.
Print Assumptions C69_receive.
Print Assumptions C69_read_empty.
