(* C10, C11, C12, C13: software timers *)
From Verif Require Import Base TimeoutModel TimeoutSpec TimeoutProofs.

(* C10/C11. Under the polling contract every call returns what an ideal timeout on unbounded real
   time returns, wherever the w bit clock wraps: expired exactly from T0+d on, execute() true exactly
   once per restart, armed/expired/stopped mutually exclusive. *)
Theorem C10_timeout_equals_ideal_across_wrap :
  forall (w : Z) (T : Z) (os : list (Z * top)), 0 < w -> contract w T Idle os ->
  snd (trun w t_default os) = snd (ideal_run Idle os).
Proof. exact (fun w T os H => run_from_default w H os T). Qed.
Print Assumptions C10_timeout_equals_ideal_across_wrap.

(* C10/C11 without any polling contract (time only has to be monotone): an expiry is never reported
   before T0+d, and execute() never reports the same start twice. *)
Theorem C10_C11_never_early_never_twice :
  forall (w : Z) (T : Z) (os : list (Z * top)), 0 < w -> monotone w T os ->
  never_early w None false os (snd (trun w t_default os)).
Proof. exact (fun w T os H => weak_from_default w H os T). Qed.
Print Assumptions C10_C11_never_early_never_twice.

(* 16 bit timer started 100 ticks before the counter wraps *)
Example C10_example :
  let os := [(65436, TRestart 200); (65600, TIsExpired); (65635, TExecute); (65636, TExecute); (65700, TExecute);
             (65700, TIsExpired); (200000, TIsExpired); (200000, TStop); (200001, TIsStopped); (200002, TExecute)] in
  contract 16 0 Idle os /\
  snd (trun 16 t_default os) = [TVoid; TBool false; TBool false; TBool true; TBool false; TBool true; TBool true; TVoid; TBool true; TBool false].
Proof. cbv zeta. split; [cbn; lia|vm_compute; reflexivity]. Qed.

(* C11. At any state reached under the contract exactly one of isStopped, isArmed, isExpired holds. *)
Theorem C11_states_exclusive :
  forall (w T T' : Z) (os : list (Z * top)), 0 < w ->
  contract w T Idle (os ++ [(T', TIsStopped); (T', TIsArmed); (T', TIsExpired)]) ->
  exists t l a b c, trun w t_default (os ++ [(T', TIsStopped); (T', TIsArmed); (T', TIsExpired)])
     = (t, l ++ [TBool a; TBool b; TBool c]) /\
    ((a = true /\ b = false /\ c = false) \/ (a = false /\ b = true /\ c = false) \/ (a = false /\ b = false /\ c = true)).
Proof. exact (fun w T T' os H => states_exclusive w H os T T'). Qed.
Print Assumptions C11_states_exclusive.

(* C12. No drift: the activation instant always is T0 + k*p on real time, and after every poll it is
   the last grid point not after the poll; the returned counts add up to k except that a poll hitting
   a grid point exactly, two or more periods late, reports one period too few. *)
Theorem C12_periodic_no_drift :
  forall (w : Z) (fuel : nat) (p T0 : Z) (polls : list (Z * Z)), 0 < w -> 0 < p < 2 ^ w ->
  poll_contract w fuel p T0 T0 polls ->
  exists t cs m, p_run w fuel (t_restart w t_default p T0) polls = Some (t, cs) /\
    m = zsum cs + exact_late p T0 polls /\
    t_start t = clock w (T0 + p * m) /\ t_interval t = p /\ t_state t = ARMED /\
    ((forall T1 T2, In (T1, T2) polls -> T1 = T2) -> m = (snd (last polls (T0, T0)) - T0) / p).
Proof. exact (fun w fuel p T0 polls H => periodic_history w H fuel p T0 polls). Qed.
Print Assumptions C12_periodic_no_drift.

(* C12 for schedules that never hit such a point: counts sum up to the number of elapsed periods. *)
Theorem C12_counts_elapsed_periods_partial :
  forall (w : Z) (fuel : nat) (p T0 : Z) (polls : list Z), 0 < w -> 0 < p < 2 ^ w ->
  poll_contract w fuel p T0 T0 (map (fun t => (t, t)) polls) ->
  exact_late p T0 (map (fun t => (t, t)) polls) = 0 ->
  exists t cs, p_run w fuel (t_restart w t_default p T0) (map (fun t => (t, t)) polls) = Some (t, cs) /\
    zsum cs = (last polls T0 - T0) / p.
Proof. exact (fun w fuel p T0 polls H => periodic_count w H fuel p T0 polls). Qed.
Print Assumptions C12_counts_elapsed_periods_partial.

Example C12_example :
  let polls := map (fun t => (t, t)) [65530; 65533; 65540; 65551; 65560; 65565] in
  poll_contract 16 100 10 65520 65520 polls /\ exact_late 10 65520 polls = 0 /\
  option_map snd (p_run 16 100 (t_restart 16 t_default 10 65520) polls) = Some [1; 0; 1; 1; 1; 0].
Proof. vm_compute. repeat split; intro; discriminate. Qed.

(* C12 is false in general: polled exactly two periods after the start, only one is reported. *)
Theorem C12_counts_elapsed_periods_refuted :
  exists (w p T0 T : Z) (fuel : nat), 0 < p < 2 ^ w /\ poll_contract w fuel p T0 T0 [(T, T)] /\
  option_map snd (p_run w fuel (t_restart w t_default p T0) [(T, T)]) = Some [1] /\ (T - T0) / p = 2.
Proof. exists 16, 10, 0, 20, 10%nat. vm_compute. repeat split; intro; discriminate. Qed.
Print Assumptions C12_counts_elapsed_periods_refuted.

(* C13. remaining() is exact as long as the clock has not wrapped since the start; 0 when stopped. *)
Theorem C13_remaining_within_epoch_partial :
  forall (w T T' : Z) (os : list (Z * top)), 0 < w -> contract w T Idle os ->
  match fst (ideal_run Idle os) with
  | Idle => t_remaining w (fst (trun w t_default os)) T' = 0
  | Running T0 d _ _ => T0 / 2 ^ w = T' / 2 ^ w -> t_remaining w (fst (trun w t_default os)) T' = T0 + d - T'
  end.
Proof. exact (fun w T T' os H => remaining_history w H os T T'). Qed.
Print Assumptions C13_remaining_within_epoch_partial.

Example C13_example :
  contract 16 0 Idle [(100, TRestart 50)] /\ fst (ideal_run Idle [(100, TRestart 50)]) = Running 100 50 false false /\
  t_remaining 16 (fst (trun 16 t_default [(100, TRestart 50)])) 180 = -30.
Proof. vm_compute. repeat split; intro; discriminate. Qed.

(* C13 fails once the clock wrapped: 10 ticks after the start of a 20 tick timeout, remaining() says 65546. *)
Theorem C13_remaining_after_wrap_refuted :
  exists (w T0 d T : Z), contract w 0 Idle [(T0, TRestart d); (T, TIsArmed)] /\
   snd (trun w t_default [(T0, TRestart d); (T, TIsArmed)]) = [TVoid; TBool true] /\
   T0 + d - T = 10 /\ t_remaining w (fst (trun w t_default [(T0, TRestart d); (T, TIsArmed)])) T = 65546.
Proof. exists 16, 65530, 20, 65540. vm_compute. repeat split; intro; discriminate. Qed.
Print Assumptions C13_remaining_after_wrap_refuted.

(* C13: restart() after stop() does not restore the previous interval: it arms with interval 0 and
   expires at once. *)
Theorem C13_restart_after_stop_refuted :
  exists (w : Z) (os : list (Z * top)), contract w 0 Idle os /\
   os = [(10, TRestart 100); (20, TStop); (30, TRestartSame); (30, TIsExpired); (30, TInterval)] /\
   snd (trun w t_default os) = [TVoid; TVoid; TVoid; TBool true; TVal 0].
Proof. eexists 16, _. split; [|split; [reflexivity|vm_compute; reflexivity]]. vm_compute. repeat split; intro; discriminate. Qed.
Print Assumptions C13_restart_after_stop_refuted.
