(* C47: the XPCC dispatcher *)
From Verif Require Import Base XpccModel XdModel XdSpec XdProofs.

(* a board with component 1; its handlers answer every request with a response of one byte *)
Definition ex_deliver (_ : unit) (h : xheader) (_ : list Z) : unit * bool * list addition := (tt, true, [AResponse (mkH XResponse false (h_src h) (h_dest h) (h_pid h)) [7]]).
Definition ex_available (_ : unit) (c : Z) : bool := c =? 1.
Definition ex_callback (_ : unit) (_ : dentry) (_ : xheader) (_ : list Z) : unit * list addition := (tt, []).
Definition ex_expired (_ : unit) (_ : dentry) : unit * bool := (tt, true).
Definition ex_run (l : list dcall) : dstate unit * list dev := d_run unit ex_deliver ex_available ex_callback ex_expired (mkD unit [] 0 tt) l.
Definition ex_req : xheader := mkH XRequest false 2 1 5.
Definition ex_other : xheader := mkH XRequest false 1 2 5.

(* Every event of every execution is allowed after the events before it: messages are sent as they were handed over, at most three times
   and not after their callback; the callback is called once, for a request handed over with one, with a response that was received or
   handed over and fits, or with the timeout header after exactly three transmissions; acknowledges only for received packets. *)
Theorem C47_events (E : Type) deliver available callback expired v l s t before e after :
  d_run E deliver available callback expired (mkD E [] 0 v) l = (s, t) -> t = before ++ e :: after -> allowed before e.
Proof. intros R S. pose proof (run_inv E deliver available callback expired l [] _ _ _ (init_inv E v) R) as (O & _). cbn [app] in O. apply (ok_split t O before e after S). Qed.
Theorem C47_at_most (E : Type) deliver available callback expired v l s t k :
  d_run E deliver available callback expired (mkD E [] 0 v) l = (s, t) -> adds t k <= 1 /\ sends t k <= 3 /\ calls t k <= 1.
Proof. intro R. pose proof (run_inv E deliver available callback expired l [] _ _ _ (init_inv E v) R) as (O & _). cbn [app] in O. apply (ok_counts t O). Qed.
Example C47_events_example : snd (ex_run [DAdd (ACallback ex_req [1; 2]); DWait 5; DRx ex_other []; DWait 9; DRx (mkH XResponse false 1 2 5) [9]; DRx (mkH XResponse false 1 2 5) [9]; DWait 9; DWait 9]) =
  [TAdd 0 true ex_req [1; 2]; TSend 0 ex_req [1; 2]; TRx ex_other []; TDeliver ex_other []; TAdd 1 false (mkH XResponse false 2 1 5) [7]; TAck (mkH XRequest true 2 1 5);
   TSend 1 (mkH XResponse false 2 1 5) [7]; TSend 0 ex_req [1; 2]; TRx (mkH XResponse false 1 2 5) [9]; TAck (mkH XResponse true 2 1 5);
   TRx (mkH XResponse false 1 2 5) [9]; TCall 0 (mkH XResponse false 1 2 5) [9]; TAck (mkH XResponse true 2 1 5)].
Proof. vm_compute. reflexivity. Qed.
Print Assumptions C47_events.
Print Assumptions C47_at_most.

(* Once the acknowledge of a request reaches its entry, the request is not sent again, whatever happens; without callback its entry is gone. *)
Theorem C47_acknowledged (E : Type) deliver available callback expired v l0 s0 t0 h p a e b s t l s' t' :
  d_run E deliver available callback expired (mkD E [] 0 v) l0 = (s0, t0) ->
  h_type h = XRequest -> h_ack h = true -> d_fit (d_entries E s0) h = Some (a, e, b) -> d_receive E deliver available callback s0 h p = (s, t) ->
  d_run E deliver available callback expired s l = (s', t') -> sends t (e_key e) = 0 /\ sends t' (e_key e) = 0 /\ (e_cb e = false -> d_entries E s = a ++ b).
Proof.
  intros R0 Th Ah Df Er R. pose proof (run_inv E deliver available callback expired l0 [] _ _ _ (init_inv E v) R0) as I. destruct (d_fit_ok _ _ _ _ _ Df) as [El _].
  unfold sinv in I. rewrite El in I. apply dinv_mid in I. pose proof (dinv_head _ _ _ _ I) as (Kn & _). destruct I as (_ & D & _). cbn [map] in D. inversion D as [|? ? D1 _]; subst.
  assert (done_with (e_key e) (d_next E s0) (a ++ b)) as Dn. { split; [exact Kn|]. apply Forall_forall. intros x X Ex. exfalso. apply D1. rewrite <- Ex. apply in_map. exact X. }
  unfold d_receive in Er. rewrite Th, Ah in Er. cbn [xtype_eqb negb andb] in Er. destruct (d_handlePacket E callback s0 h p) as [[s1 t1] r] eqn:Eh. injection Er as <- <-.
  unfold d_handlePacket in Eh. rewrite Df, Th, Ah in Eh. destruct (e_cb e); cbn [negb] in Eh; injection Eh as <- <- <-.
  - split; [reflexivity|]. split; [|discriminate]. eapply run_done; [|exact R]. unfold sdone. cbn [d_next d_entries]. apply done_mid. split; [reflexivity|exact Dn].
  - split; [reflexivity|]. split; [|reflexivity]. eapply run_done; [|exact R]. exact Dn.
Qed.
Example C47_acknowledged_example : exists a e b, d_fit (d_entries unit (fst (ex_run [DAdd (ACallback ex_req [1; 2]); DWait 5]))) (mkH XRequest true 1 2 5) = Some (a, e, b) /\ e_key e = 0 /\ e_state e = WaitForACK.
Proof. do 3 eexists. split; [vm_compute; reflexivity|]. split; reflexivity. Qed.
Print Assumptions C47_acknowledged.

(* Nobody answers: messages for components that are not on the board are sent three times, then the callbacks are called, and the list is empty. *)
Theorem C47_gives_up l : Forall (fun e => h_dest (e_header e) <> 0 /\ e_state e = TransmissionPending /\ e_tries e = 0) l -> forall n rounds, (length l <= rounds)%nat ->
  let s := map (fun e => TSend (e_key e) (e_header e) (e_payload e)) l in
  d_run unit q_deliver q_available q_callback (q_expired (fun _ => true)) (mkD unit l n tt) [DWait rounds; DWait rounds; DWait rounds; DWait rounds] =
  (mkD unit [] n tt, s ++ s ++ s ++ map (fun e => TCall (e_key e) (timeoutHeader (e_header e)) (e_payload e)) (filter e_cb l)).
Proof.
  intros F n rounds L. cbv zeta. set (x := fun _ : dentry => true). set (st := fun (tr : Z) (e : dentry) => mkE (e_key e) (e_cb e) (e_header e) (e_payload e) WaitForACK tr).
  assert (forall m, Forall remote m -> (length m <= rounds)%nat -> d_call unit q_deliver q_available q_callback (q_expired x) (mkD unit m n tt) (DWait rounds) = (mkD unit (flat_map (pass_entry x) m) n tt, flat_map (pass_event x) m)) as Pass.
  { intros m R Lm. cbn [d_call]. unfold d_handleWaitingMessages. cbn [d_entries d_next d_env]. rewrite (quiet_loop x m rounds [] n R Lm). reflexivity. }
  assert (forall tr, Forall remote (map (st tr) l)) as Rm. { intro tr. apply Forall_forall. intros y Y. apply in_map_iff in Y. destruct Y as (e & <- & Ie). rewrite Forall_forall in F. exact (proj1 (F e Ie)). }
  assert (forall tr, length (map (st tr) l) = length l) as Lm by (intro tr; apply map_length).
  assert (flat_map (pass_entry x) l = map (st 0) l /\ flat_map (pass_event x) l = map sent_event l) as [P1 E1].
  { clear - F. induction l as [|e l IH]; [split; reflexivity|]. inversion F as [|? ? (_ & S & T) Fl]; subst. destruct (IH Fl) as [I1 I2]. cbn [flat_map map]. rewrite I1, I2. unfold pass_entry, pass_event. rewrite S. split; [|reflexivity]. unfold st. rewrite T. reflexivity. }
  assert (forall tr, (2 <=? tr) = false -> flat_map (pass_entry x) (map (st tr) l) = map (st (u8 (tr + 1))) l /\ flat_map (pass_event x) (map (st tr) l) = map sent_event l) as P2.
  { intros tr T. clear - T. induction l as [|e l [I1 I2]]; [split; reflexivity|]. cbn [flat_map map]. rewrite I1, I2. unfold pass_entry, pass_event, st, x. cbn [e_state e_tries e_key e_cb e_header e_payload]. rewrite T. split; reflexivity. }
  assert (flat_map (pass_entry x) (map (st 2) l) = [] /\ flat_map (pass_event x) (map (st 2) l) = map (fun e => TCall (e_key e) (timeoutHeader (e_header e)) (e_payload e)) (filter e_cb l)) as [P3 E3].
  { clear. induction l as [|e l [I1 I2]]; [split; reflexivity|]. cbn [flat_map map filter]. rewrite I1, I2. unfold pass_entry, pass_event, st, x. cbn [e_state e_tries e_key e_cb e_header e_payload]. destruct (e_cb e); split; reflexivity. }
  cbn [d_run]. rewrite Pass; [|apply Forall_forall; intros y Y; rewrite Forall_forall in F; exact (proj1 (F y Y))|exact L]. rewrite P1, E1.
  rewrite Pass by (rewrite ?Lm; [apply Rm || exact L]; auto). destruct (P2 0 eq_refl) as [-> ->]. change (u8 (0 + 1)) with 1.
  rewrite Pass by (rewrite ?Lm; [apply Rm || exact L]; auto). destruct (P2 1 eq_refl) as [-> ->]. change (u8 (1 + 1)) with 2.
  rewrite Pass by (rewrite ?Lm; [apply Rm || exact L]; auto). rewrite P3, E3. rewrite app_nil_r. reflexivity.
Qed.
Example C47_gives_up_example : let l := [mkE 0 true ex_req [1] TransmissionPending 0; mkE 1 false (mkH XRequest false 3 1 6) [] TransmissionPending 0] in
  Forall (fun e => h_dest (e_header e) <> 0 /\ e_state e = TransmissionPending /\ e_tries e = 0) l /\
  exists t, d_run unit q_deliver q_available q_callback (q_expired (fun _ => true)) (mkD unit l 2 tt) [DWait 2; DWait 2; DWait 2; DWait 2] = (mkD unit [] 2 tt, t) /\ sends t 0 = 3 /\ sends t 1 = 3 /\ calls t 0 = 1 /\ calls t 1 = 0.
Proof.
  cbv zeta. split; [repeat (apply Forall_cons; [cbn; split; [congruence|split; reflexivity]|]); apply Forall_nil|].
  exists [TSend 0 ex_req [1]; TSend 1 (mkH XRequest false 3 1 6) []; TSend 0 ex_req [1]; TSend 1 (mkH XRequest false 3 1 6) []; TSend 0 ex_req [1]; TSend 1 (mkH XRequest false 3 1 6) []; TCall 0 (timeoutHeader ex_req) [1]].
  split; [vm_compute; reflexivity|]. repeat split.
Qed.
Print Assumptions C47_gives_up.

(* But an acknowledged request with a callback waits for its response for ever: no number of calls of update() reports a timeout. *)
Theorem C47_waits_for_ever (E : Type) deliver available callback expired s rounds : Forall (fun e => e_state e = WaitForResponse) (d_entries E s) -> (length (d_entries E s) <= rounds)%nat ->
  d_handleWaitingMessages E deliver available callback expired rounds s = (s, [], true).
Proof.
  intros F L. destruct s as [l n v]. unfold d_handleWaitingMessages. cbn [d_entries d_next d_env] in *.
  enough (forall f, d_loop E deliver available callback expired rounds f l n v = (mkD E (f ++ l) n v, [], true)) as H by exact (H []).
  revert rounds L. induction l as [|e l IH]; intros rounds L f; destruct rounds as [|r]; cbn [length] in L; try lia; cbn [d_loop]; rewrite ?app_nil_r; try reflexivity.
  inversion F as [|? ? Fe Fl]; subst. unfold d_round. rewrite Fe. rewrite (IH Fl r ltac:(lia)). rewrite <- app_assoc. reflexivity.
Qed.
Example C47_waits_example : let s := fst (ex_run [DAdd (ACallback ex_req [1; 2]); DWait 5; DRx (mkH XRequest true 1 2 5) []]) in map e_state (d_entries unit s) = [WaitForResponse].
Proof. reflexivity. Qed.
Print Assumptions C47_waits_for_ever.

(* And entries are found by addresses and packet identifier only. Two components that call the same action of each other: the acknowledge
   of the request removes the response, so the acknowledge of the response removes the request, and its callback is never called, though
   the response to it arrives. *)
Theorem C47_callback_lost_refuted : exists l s t,
  ex_run l = (s, t) /\ In (TAdd 0 true ex_req [1]) t /\ In (TSend 0 ex_req [1]) t /\ In (TRx (mkH XRequest true 1 2 5) []) t /\ In (TRx (mkH XResponse false 1 2 5) [9]) t /\
  d_entries unit s = [] /\ calls t 0 = 0.
Proof.
  exists [DAdd (ACallback ex_req [1]); DWait 5; DRx ex_other []; DWait 1; DRx (mkH XRequest true 1 2 5) []; DRx (mkH XResponse true 1 2 5) []; DRx (mkH XResponse false 1 2 5) [9]; DWait 5].
  do 2 eexists. split; [vm_compute; reflexivity|]. split; [cbn; tauto|]. split; [cbn; tauto|]. split; [cbn; tauto|]. split; [cbn; tauto|]. split; vm_compute; reflexivity.
Qed.
Print Assumptions C47_callback_lost_refuted.
