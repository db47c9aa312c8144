(** C72: the I2C master in software.  C73: the write/read transaction. *)
From Coq Require Import ZArith List Bool Arith Lia.
From Verif Require Import Base SliceLemmas I2cModel I2cSpec I2cProofs.
Import ListNotations.
Open Scope Z_scope.

(** For all lines (slaves, other masters, stuck pins) and all transactions: a start() that returns has
    attached the transaction once and detached it once, all other callbacks lie between; it reports
    false iff the transaction refused to attach; a transaction detached with an error finds the error
    in getErrorState(); the master is free again. *)
Theorem C72_detached_once :
  forall (W : Type) (scl sda : bool -> W -> W) (rdScl rdSda : W -> bool * W) (delay4 : W -> W)
         (T : Type) (attaching : T -> bool * T) (starting : T -> (Z * op) * T) (writing reading : T -> xfer * T) (detaching : cause -> T -> T)
         fuel (m : M W (T * list call)) r m',
  att _ _ m = false ->
  start W scl sda rdScl rdSda delay4 (T * list call) (logged_attaching T attaching) (logged T CStarting starting) (logged T CWriting writing) (logged T CReading reading) (logged_detaching T detaching) fuel m = Some (r, m') ->
  att _ _ m' = false /\
  ((r = false /\ snd (t _ _ m') = snd (t _ _ m) ++ [CAttach; CDetach FailedToAttach] /\ err _ _ m' = err _ _ m) \/
   (r = true /\ exists body c, snd (t _ _ m') = snd (t _ _ m) ++ CAttach :: body ++ [CDetach c] /\ Forall inner body /\
      (c = NormalStop \/ c = ErrorCondition /\ err _ _ m' <> NoError))).
Proof. exact start_calls. Qed.
(** A slave at 0x50 that does not acknowledge the second byte written. *)
Definition demo_bus (ac : list bool) (st : list nat) (q : list Z) : bus := Bus true true true 0 Idle ac st q [].
Definition demo_run (own a : Z) (wb : option Z) (nw : Z) (rb : option Z) (nr : Z) (b : bus) (mm : list Z) : option (bool * M bus (wr * list call)) :=
  start bus (set_scl own) set_sda get_scl get_sda tick (wr * list call) (logged_attaching wr wr_attaching) (logged wr CStarting wr_starting) (logged wr CWriting wr_writing) (logged wr CReading wr_reading) (logged_detaching wr wr_detaching) 4
    (Mk bus (wr * list call) b (snd (wr_configure wb nw rb nr (wr_new a)), []) false NoError 0 mm).
Example C72_detached_once_ex :
  option_map (fun r => (fst r, snd (t _ _ (snd r)), err _ _ (snd r), log (w _ _ (snd r)))) (demo_run 0x50 0x50 (Some 0) 2 (Some 2) 2 (demo_bus [true; true; false] [7; 3]%nat []) [0xaa; 0x55; 0; 0]) =
  Some (true, [CAttach; CStarting; CWriting; CDetach ErrorCondition], DataNack, [EStart; EAddr 0xa0 true; EWr 0xaa true; EWr 0x55 false; EStop]).
Proof. vm_compute. reflexivity. Qed.

(** start() with a write/read transaction returns on every bus, also one that never lets go of a line. *)
Theorem C72_returns :
  forall (W : Type) (scl sda : bool -> W -> W) (rdScl rdSda : W -> bool * W) (delay4 : W -> W) fuel (m : M W wr),
  buffer_ok (readBuffer (t _ _ m)) (readSize (t _ _ m)) (zlen (mem _ _ m)) -> buffer_ok (writeBuffer (t _ _ m)) (writeSize (t _ _ m)) (zlen (mem _ _ m)) ->
  (4 <= fuel)%nat ->
  exists r, start W scl sda rdScl rdSda delay4 wr wr_attaching wr_starting wr_writing wr_reading wr_detaching fuel m = Some r.
Proof. intros. destruct fuel as [|[|[|[|fuel]]]]; try lia. apply start_total; assumption. Qed.
(** A bus whose clock is stuck low. *)
Example C72_returns_ex :
  let m := Mk bool wr true (snd (wr_configure (Some 0) 1 None 0 (wr_new 0x50))) false NoError 0 [0x12] in
  buffer_ok (readBuffer (t _ _ m)) (readSize (t _ _ m)) (zlen (mem _ _ m)) /\ buffer_ok (writeBuffer (t _ _ m)) (writeSize (t _ _ m)) (zlen (mem _ _ m)) /\
  option_map (fun r => err _ _ (snd r)) (start bool (fun _ x => x) (fun b _ => b) (fun x => (false, x)) (fun x => (x, x)) (fun x => x) wr wr_attaching wr_starting wr_writing wr_reading wr_detaching 4 m) = Some BusBusy.
Proof. split; [reflexivity|]. split; [cbn; lia|]. vm_compute. reflexivity. Qed.

(** With a slave that stretches the clock by at most 499 quarter periods: the bus sees exactly the
    exchange of the specification (start, address, bytes, repeated start, ..., stop); the bytes the
    slave sent and only they are stored; the error state and the state of the transaction tell the
    outcome; both lines are released at the end. *)
Theorem C72_exchange :
  forall own a wb ws rb n fuel (m : M bus wr),
  0 < a < 128 -> all_bytes ws -> all_bytes (outq (w _ _ m)) -> configured a wb ws rb n (t _ _ m) -> buffers wb ws rb n (mem _ _ m) ->
  att _ _ m = false -> free (w _ _ m) -> patient (w _ _ m) -> (4 <= fuel)%nat ->
  exists m', start bus (set_scl own) set_sda get_scl get_sda tick wr wr_attaching wr_starting wr_writing wr_reading wr_detaching fuel m = Some (true, m') /\
    let r := exchange own a ws n (acks (w _ _ m)) (outq (w _ _ m)) in
    free (w _ _ m') /\ log (w _ _ m') = log (w _ _ m) ++ r_log r /\ acks (w _ _ m') = r_acks r /\ outq (w _ _ m') = r_out r /\
    err _ _ m' = r_err r /\ mem _ _ m' = stored rb (r_read r) (mem _ _ m) /\ att _ _ m' = false /\
    state (t _ _ m') = (match r_err r with NoError => TIdle | _ => TError end).
Proof.
  intros own a wb ws rb n fuel m H1 H2 H3 H4 H5 H6 H7 H8 F. destruct fuel as [|[|[|[|fuel]]]]; try lia.
  destruct (exchange_run own a wb ws rb n fuel m H1 H2 H3 H4 H5 H6 H7 H8) as [m' [G1 [G2 [_ [G3 [G4 [G5 [G6 [G7 [G8 [G9 _]]]]]]]]]]]. exists m'. cbn zeta. tauto.
Qed.
Definition demo (own a : Z) (wb : option Z) (nw : Z) (rb : option Z) (nr : Z) (b : bus) (mm : list Z) : M bus wr :=
  Mk bus wr b (snd (wr_configure wb nw rb nr (wr_new a))) false NoError 0 mm.
Notation run own m := (start bus (set_scl own) set_sda get_scl get_sda tick wr wr_attaching wr_starting wr_writing wr_reading wr_detaching 4 m) (only parsing).
Example C72_exchange_ex :
  let m := demo 0x50 0x50 (Some 0) 2 (Some 1) 2 (demo_bus [] [499; 0; 12]%nat [0x12; 0x34]) [0xaa; 0x55; 0] in
  configured 0x50 (Some 0) [0xaa; 0x55] (Some 1) 2 (t _ _ m) /\ buffers (Some 0) [0xaa; 0x55] (Some 1) 2 (mem _ _ m) /\ free (w _ _ m) /\ patient (w _ _ m) /\
  option_map (fun r => (log (w _ _ (snd r)), err _ _ (snd r), mem _ _ (snd r))) (run 0x50 m) =
  Some ([EStart; EAddr 0xa0 true; EWr 0xaa true; EWr 0x55 true; EStart; EAddr 0xa1 true; ERd 0x12 true; ERd 0x34 false; EStop], NoError, [0xaa; 0x12; 0x34]).
Proof.
  split; [exists (wr_new 0x50); split; [discriminate|split; reflexivity]|]. split; [split; [reflexivity|cbn; lia]|]. split; [repeat split|].
  split; [split; [apply Nat.leb_le; reflexivity|repeat constructor; apply Nat.leb_le; reflexivity]|]. vm_compute. reflexivity.
Qed.

(** A slave that stretches the clock for longer is taken for another master. *)
Theorem C72_long_stretch_refuted :
  exists b, free b /\ option_map (fun r => (log (w _ _ (snd r)), err _ _ (snd r), state (t _ _ (snd r)))) (run 0x50 (demo 0x50 0x50 (Some 0) 1 None 0 b [0xaa])) =
    Some ([EStart; EStop], ArbitrationLost, TError).
Proof. exists (demo_bus [] [0; 502]%nat []). split; [repeat split|]. vm_compute. reflexivity. Qed.
(** The transaction is told that all operations finished before the stop condition is made: a stop
    that fails is not reported to it. *)
Theorem C72_failed_stop_refuted :
  exists b, free b /\ option_map (fun r => (log (w _ _ (snd r)), err _ _ (snd r), state (t _ _ (snd r)), msda (w _ _ (snd r)))) (run 0x50 (demo 0x50 0x50 None 0 None 0 b [])) =
    Some ([EStart; EAddr 0xa0 true], BusCondition, TIdle, false).
Proof. exists (demo_bus [] [0; 0; 0; 0; 0; 0; 0; 0; 0; 600]%nat []). split; [repeat split|]. vm_compute. reflexivity. Qed.
(** Address 0 without an answer is reported as a byte that was not acknowledged. *)
Theorem C72_address_zero_refuted :
  exists b, free b /\ patient b /\ option_map (fun r => (log (w _ _ (snd r)), err _ _ (snd r))) (run 0x50 (demo 0x50 0 (Some 0) 1 None 0 b [0x06])) =
    Some ([EStart; EAddr 0 false; EStop], DataNack).
Proof. exists (demo_bus [] [] []). split; [repeat split|]. split; [split; [apply Nat.leb_le; reflexivity|constructor]|]. vm_compute. reflexivity. Qed.
(** Reading into nullptr: the transaction asks for 0 bytes, the master reads and stores one. *)
Theorem C72_null_read_undefined :
  forall n, 0 < n -> run 0x50 (demo 0x50 0x50 None 0 None n (demo_bus [] [] [1; 2; 3]) [0; 0; 0]) = None.
Proof.
  intros n N. unfold demo, wr_configure, wr_new. cbn [state snd address u8]. unfold start. cbn [att]. unfold wr_attaching at 1. cbn [t state negb].
  cbn [sessions]. match goal with |- context [startCondition ?a ?b ?c ?d ?e ?f ?g ?h ?m] => set (q := startCondition a b c d e f g h m) end.
  assert (exists b', q = (true, put wr b' (Mk bus wr (demo_bus [] [] [1; 2; 3]) (Wr (u8 (Z.shiftl 0x50 1)) TBusy n 0 None None true) true NoError 0 [0; 0; 0])) /\ lowbus b' true (Recv true []) [] [1; 2; 3] [EStart]) as [b' [E L]].
  { apply (start_free 0x50 wr wr_detaching (demo_bus [] [] [1; 2; 3])); [repeat split|split; [apply Nat.leb_le; reflexivity|constructor]]. }
  rewrite E. clear q E. cbn [negb]. unfold wr_starting at 1. cbn [put t isReading readSize address fst snd]. destruct (n =? 0) eqn:Q; [lia|].
  match goal with |- context [write ?a ?b ?c ?d ?e ?f ?g ?h ?x ?m] => change (write a b c d e f g h x m) with (write a b c d e f g h 0xa1 (put wr b' (Mk bus wr b' (Wr (u8 (Z.shiftl 0x50 1)) TBusy n 0 None None true) true NoError 0xa0 [0; 0; 0]))) end.
  pose proof (write_ok 0x50 wr wr_detaching 0xa1 b' true [] [1; 2; 3] [EStart] (Mk bus wr b' (Wr (u8 (Z.shiftl 0x50 1)) TBusy n 0 None None true) true NoError 0xa0 [0; 0; 0]) ltac:(lia) L) as H.
  change (hit 0x50 true 0xa1 []) with true in H. cbv iota in H. destruct H as [b2 [H _]]. rewrite H. reflexivity.
Qed.
Example C72_null_read_undefined_ex : option_map fst (run 0x50 (demo 0x50 0x50 None 0 (Some 0) 3 (demo_bus [] [] [1; 2; 3]) [0; 0; 0])) = Some true.
Proof. vm_compute. reflexivity. Qed.
(** Lines with scripted readings of SDA (the master's own level, pulled low where the script says so). *)
Definition scripted : Type := (bool * bool * list bool)%type.
Definition s_scl (b : bool) (x : scripted) : scripted := let '(c, d, l) := x in (b, d, l).
Definition s_sda (b : bool) (x : scripted) : scripted := let '(c, d, l) := x in (c, b, l).
Definition s_rdScl (x : scripted) : bool * scripted := let '(c, d, l) := x in (c, x).
Definition s_rdSda (x : scripted) : bool * scripted := let '(c, d, l) := x in (d && hd true l, (c, d, tl l)).
(** A repeated start that finds SDA low gives up and keeps SCL low: the bus is blocked for everyone. *)
Theorem C72_failed_restart_refuted :
  exists x : scripted, option_map (fun r => (err _ _ (snd r), fst (w _ _ (snd r))))
    (start scripted s_scl s_sda s_rdScl s_rdSda (fun x => x) wr wr_attaching wr_starting wr_writing wr_reading wr_detaching 4 (Mk scripted wr x (snd (wr_configure (Some 0) 1 (Some 1) 1 (wr_new 0x50))) false NoError 0 [0x12; 0])) =
  Some (BusBusy, (false, true)).
Proof. exists (true, true, repeat true 9 ++ [false] ++ repeat true 8 ++ [false; false]). vm_compute. reflexivity. Qed.
(** The quarter period in nanoseconds; below 3815 Bd the uint16_t wraps. *)
Theorem C72_baudrate : forall baud, 3815 <= baud <= 250000000 -> 4 * baud * delayTime baud <= 1000000000 < 4 * baud * (delayTime baud + 1).
Proof.
  intros baud R. unfold delayTime. assert (1 <= 250000000 / baud < 65536) as Q.
  { split; [apply Z.div_le_lower_bound; lia|apply Z.div_lt_upper_bound; lia]. }
  unfold u16, wrap. rewrite Z.mod_small by (change (2 ^ 16) with 65536; lia).
  pose proof (Z.mul_div_le 250000000 baud ltac:(lia)) as A. pose proof (Z.mul_succ_div_gt 250000000 baud ltac:(lia)) as B.
  destruct (250000000 / baud =? 0) eqn:Z0; [lia|]. nia.
Qed.
Example C72_baudrate_ex : delayTime 100000 = 2500 /\ delayTime 400000 = 625 /\ delayTime 3815 = 65530.
Proof. vm_compute. auto. Qed.
Theorem C72_slow_baudrate_refuted : exists baud, 0 < baud < 3815 /\ delayTime baud = 11.
Proof. exists 3814. split; [lia|]. vm_compute. reflexivity. Qed.

(** * C73 *)

(** A transaction that only writes, only reads or only pings can be started again and again without
    being configured anew, whatever the outcome was: it is still configured, and does the same. *)
Theorem C73_reuse :
  forall own a wb ws rb n fuel (m : M bus wr),
  0 < a < 128 -> all_bytes ws -> all_bytes (outq (w _ _ m)) -> configured a wb ws rb n (t _ _ m) -> buffers wb ws rb n (mem _ _ m) ->
  att _ _ m = false -> free (w _ _ m) -> patient (w _ _ m) -> (4 <= fuel)%nat -> n = O \/ ws = [] ->
  exists m' m2, start bus (set_scl own) set_sda get_scl get_sda tick wr wr_attaching wr_starting wr_writing wr_reading wr_detaching fuel m = Some (true, m') /\
    configured a wb ws rb n (t _ _ m') /\
    start bus (set_scl own) set_sda get_scl get_sda tick wr wr_attaching wr_starting wr_writing wr_reading wr_detaching fuel m' = Some (true, m2) /\
    let r := exchange own a ws n (acks (w _ _ m)) (outq (w _ _ m)) in
    let r2 := exchange own a ws n (r_acks r) (r_out r) in
    log (w _ _ m2) = log (w _ _ m) ++ r_log r ++ r_log r2 /\ err _ _ m2 = r_err r2 /\ mem _ _ m2 = stored rb (r_read r2) (stored rb (r_read r) (mem _ _ m)) /\
    configured a wb ws rb n (t _ _ m2).
Proof.
  intros own a wb ws rb n fuel m H1 H2 H3 H4 H5 H6 H7 H8 F O. destruct fuel as [|[|[|[|fuel]]]]; try lia.
  destruct (exchange_run own a wb ws rb n fuel m H1 H2 H3 H4 H5 H6 H7 H8) as [m' [G1 [G2 [P' [G3 [G4 [G5 [G6 [G7 [G8 [G9 G10]]]]]]]]]]]. exists m'.
  assert (buffers wb ws rb n (mem _ _ m')) as H5'.
  { destruct H5 as [H5 H5b]. rewrite G7. pose proof (exchange_len own a ws n (acks (w _ _ m)) (outq (w _ _ m))) as Len. destruct O as [On|Ow].
    - subst n. destruct (r_read (exchange own a ws 0 (acks (w _ _ m)) (outq (w _ _ m)))) as [|y ys]; [|cbn [List.length] in Len; lia].
      replace (stored rb [] (mem _ _ m)) with (mem _ _ m); [split; assumption|]. unfold stored. destruct rb as [p|]; [|reflexivity]. change (zlen (@nil Z)) with 0. rewrite Z.add_0_r. cbn [app]. symmetry. apply firstn_skipn.
    - assert (zlen (stored rb (r_read (exchange own a ws n (acks (w _ _ m)) (outq (w _ _ m)))) (mem _ _ m)) = zlen (mem _ _ m)) as LE.
      { unfold stored. unfold buffer_ok in H5b. destruct rb as [p|]; [|reflexivity]. rewrite !zlen_app. unfold zlen in *. rewrite firstn_length, skipn_length. lia. }
      split; [|rewrite LE; exact H5b]. destruct wb as [p|]; [|exact H5]. subst ws. change (zlen (@nil Z)) with 0 in *. unfold zsub in *. rewrite LE. destruct ((0 <=? p) && (0 <=? 0) && (p + 0 <=? zlen (mem _ _ m))); [reflexivity|discriminate H5]. }
  assert (all_bytes (outq (w _ _ m'))) as H3'.
  { rewrite G5. apply exchange_out. exact H3. }
  destruct (exchange_run own a wb ws rb n fuel m' H1 H2 H3' (G10 O) H5' G8 G2 P') as [m2 [K1 [K2 [_ [K3 [K4 [K5 [K6 [K7 [K8 [K9 K10]]]]]]]]]]]. exists m2.
  split; [exact G1|]. split; [exact (G10 O)|]. split; [exact K1|]. cbn zeta. rewrite G4, G5 in K3, K6, K7. rewrite G3 in K3. rewrite G7 in K7. rewrite <- app_assoc in K3.
  split; [exact K3|]. split; [exact K6|]. split; [exact K7|exact (K10 O)].
Qed.
Example C73_reuse_ex :
  let m := demo 0x50 0x50 None 0 (Some 1) 2 (demo_bus [] [5]%nat [0x12; 0x34; 0x56; 0x78]) [9; 0; 0; 9] in
  option_map (fun r => (log (w _ _ (snd r)), mem _ _ (snd r))) (do r <- run 0x50 m; run 0x50 (snd r)) =
  Some ([EStart; EAddr 0xa1 true; ERd 0x12 true; ERd 0x34 false; EStop; EStart; EAddr 0xa1 true; ERd 0x56 true; ERd 0x78 false; EStop], [9; 0x56; 0x78; 9]).
Proof. vm_compute. reflexivity. Qed.
(** A write/read transaction documents the same but leaves out the write when it is started again:
    isReading still holds. *)
Theorem C73_reuse_write_read_refuted :
  exists m, configured 0x50 (Some 0) [0xaa] (Some 1) 1 (t _ _ m) /\ free (w _ _ m) /\
    option_map (fun r => (log (w _ _ (snd r)), err _ _ (snd r))) (do r <- run 0x50 m; run 0x50 (snd r)) =
    Some ([EStart; EAddr 0xa0 true; EWr 0xaa true; EStart; EAddr 0xa1 true; ERd 0x12 false; EStop] ++ [EStart; EAddr 0xa1 true; ERd 0x34 false; EStop], NoError).
Proof.
  exists (demo 0x50 0x50 (Some 0) 1 (Some 1) 1 (demo_bus [] [] [0x12; 0x34]) [0xaa; 0]). split; [exists (wr_new 0x50); split; [discriminate|split; reflexivity]|].
  split; [repeat split|]. vm_compute. reflexivity.
Qed.
(** A transaction in use: a second start() with it on another (free) master is refused, but tells it that it failed: it
    is no longer busy while the first master still uses its buffers. *)
Theorem C73_second_start_refuted :
  exists m x, state (t _ _ m) = TBusy /\ att _ _ m = false /\ run 0x50 m = Some (false, x) /\ state (t _ _ x) = TError /\ fst (wr_configure None 0 None 0 (t _ _ m)) = false /\ fst (wr_configure None 0 None 0 (t _ _ x)) = true.
Proof.
  exists (Mk bus wr (demo_bus [] [] []) (snd (wr_attaching (snd (wr_configure (Some 0) 1 None 0 (wr_new 0x50))))) false NoError 0 [1]). eexists.
  split; [reflexivity|]. split; [reflexivity|]. split; [reflexivity|]. split; [reflexivity|]. split; reflexivity.
Qed.

Print Assumptions C72_detached_once.
Print Assumptions C72_returns.
Print Assumptions C72_exchange.
Print Assumptions C72_null_read_undefined.
Print Assumptions C72_baudrate.
Print Assumptions C73_reuse.
