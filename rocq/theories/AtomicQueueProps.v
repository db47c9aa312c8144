(* C01, C02: modm::atomic::Queue *)
From Verif Require Import Base AtomicQueueModel AtomicQueueSpec AtomicQueueProofs.

(* C01. Under every interleaving of single memory accesses of one producer and one consumer the
   queue never touches memory outside its buffer (mrun gives Some) and what both sides observe is
   a legal history of a bounded FIFO. *)
Theorem C01_every_interleaving_is_fifo :
  forall (A : Type) (N : Z) (s : list (@choice A)), 0 <= N <= 65535 ->
  exists m tr w, mrun N (m_init N) s = Some (m, tr) /\ legal N tr w.
Proof. exact (fun A N s H => @every_schedule_legal A N H s). Qed.
Print Assumptions C01_every_interleaving_is_fifo.

(* C01, read off the trace: the values obtained by the consumer (one per pop) are a prefix of the
   values for which push returned true, in order, and at most N accepted values are outstanding. *)
Theorem C01_taken_is_prefix_of_accepted :
  forall (A : Type) (N : Z) (s : list (@choice A)) m tr, 0 <= N <= 65535 ->
  mrun N (m_init N) s = Some (m, tr) ->
  exists rest popped, accepted tr = popped ++ rest /\
    Forall2 (fun o x => o = None \/ o = Some (Some x)) (taken tr) popped /\ zlen rest <= N.
Proof. exact (fun A N s m tr H => @taken_prefix A N H s m tr). Qed.
Print Assumptions C01_taken_is_prefix_of_accepted.

(* a schedule in which the consumer's isEmpty, get and pop are each interrupted by pushes *)
Example C01_example :
  let s := [ChProd 7; ChProd 0; ChProd 0; ChProd 0; ChProd 0; ChConsEmptyHT; ChProd 0; ChProd 0;
            ChConsEmptyHT; ChProd 8; ChConsEmptyHT; ChProd 0; ChConsGet; ChProd 0; ChProd 0; ChConsGet; ChProd 0;
            ChConsGet; ChProd 0; ChProd 0; ChConsPop; ChProd 9; ChConsPop; ChProd 0; ChProd 0; ChConsPop] in
  option_map snd (mrun 2 (m_init 2) s) =
  Some [EPushCall 7; EEmptyCall; EPushRet 7 true; EPushCall 8; EEmptyRet false; EGot (Some 7); EPushRet 8 true;
        EPushCall 9; EPushRet 9 false; EPopped].
Proof. vm_compute. reflexivity. Qed.

(* C02. Sequential use: exactly a list of at most N elements, and every query is exact. *)
Theorem C02_sequential_refinement :
  forall (A : Type) (N : Z) (os : list (@qop A)) q out, 0 <= N <= 65535 ->
  seq_spec N [] os = Some (q, out) ->
  exists s, qrun N (q_init N) os = Some (s, out) /\
    q_isEmpty s = (zlen q =? 0) /\ q_isFull N s = (zlen q =? N) /\ q_getSize N s = zlen q /\
    (3 < N -> q_isNearlyFull N s = (N - zlen q <? 3)) /\
    q_isNearlyEmpty N s = (zlen q <? 3) /\
    (forall x r, q = x :: r -> q_get s = Some (Some x)).
Proof.
  exact (fun A N os q out H E =>
    match @qrun_refines A N H os _ _ _ _ (ring_init N H) E with
    | ex_intro _ s (conj E1 R) => ex_intro _ s (conj E1 (seq_queries N H s q R)) end).
Qed.
Print Assumptions C02_sequential_refinement.

Example C02_example :
  seq_spec 3 [] [QPush 1; QPush 2; QPop; QPush 3; QPush 4; QPush 5; QPop]
  = Some ([3; 4], [OPushed true; OPushed true; OPopped; OPushed true; OPushed true; OPushed false; OPopped]).
Proof. vm_compute. reflexivity. Qed.

(* C02 fails beyond the index type: nothing restricts N on a 32 bit target, and for every N above
   65535 the 65536th push is refused although the queue is declared to hold N elements. *)
Theorem C02_capacity_above_65535_refuted :
  forall (A : Type) (N : Z) (v : A), 65536 <= N ->
  exists q, qrun N (q_init N) (repeat (QPush v) (Z.to_nat 65535)) = Some (q, repeat (OPushed true) (Z.to_nat 65535))
         /\ q_push N q v = Some (q, false).
Proof. exact (fun A N v H => too_large_refuses_early N H v). Qed.
Print Assumptions C02_capacity_above_65535_refuted.
