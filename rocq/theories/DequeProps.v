(* C03, C04, C05: BoundedDeque, BoundedQueue, BoundedStack *)
From Verif Require Import Base DequeModel DequeSpec DequeProofs.

(* C03. Every history behaves as on a sequence bounded by N; all queries are exact; no access
   leaves the buffer. b is the arbitrary initial content of the buffer. *)
Theorem C03_deque_refines_bounded_list :
  forall (A : Type) (N w : Z) (b : list A) (os : list (@dop A)) l out, 1 <= N < 2 ^ w ->
  zlen b = N -> spec_run N [] os = Some (l, out) ->
  exists d, drun N w (d_init N b) os = Some (d, out) /\
    d_getSize d = zlen l /\ d_isEmpty d = (zlen l =? 0) /\ d_isFull N d = (zlen l =? N) /\ zlen l <= N /\
    (forall i, 0 <= i < zlen l -> d_get N d i = znth l i) /\
    (forall i, 0 <= i < zlen l -> d_rget N d i = znth l (zlen l - 1 - i)) /\
    (0 < zlen l -> d_getFront d = znth l 0) /\
    (0 < zlen l -> d_getBack d = znth l (zlen l - 1)).
Proof. exact (fun A N w b os l out H => @history_refines A N w H b os l out). Qed.
Print Assumptions C03_deque_refines_bounded_list.

Example C03_example :
  spec_run 3 [] [DAppend 1; DPrepend 2; DAppend 3; DAppend 4; DAppendOverwrite 5; DPrependOverwrite 6; DRemoveBack; DRemoveFront]
  = Some ([1], [true; true; true; false; true; true; true; true]).
Proof. vm_compute. reflexivity. Qed.

(* C04. For a non-empty container a range-for loop visits exactly the elements, front to back, and
   stepping back from position k reaches position k-1. *)
Theorem C04_iteration_nonempty_partial :
  forall (A : Type) (N w : Z) (b : list A) (os : list (@dop A)) l out fuel, 1 <= N < 2 ^ w ->
  zlen b = N -> spec_run N [] os = Some (l, out) -> 0 < zlen l <= Z.of_nat fuel ->
  exists d, drun N w (d_init N b) os = Some (d, out) /\ it_loop N w fuel d (d_begin d) = Some l /\
    (forall k, 0 < Z.of_nat k < zlen l ->
      it_deref d (it_dec N w d (Nat.iter k (it_inc N w d) (d_begin d))) = znth l (Z.of_nat k - 1)).
Proof. exact (fun A N w b os l out fuel H => @history_iterates A N w H b os l out fuel). Qed.
Print Assumptions C04_iteration_nonempty_partial.

(* C04 is false for the empty container: whatever the history that leads to it, the loop body runs
   once, on a stale or uninitialised element. *)
Theorem C04_iteration_empty_refuted :
  forall (A : Type) (N w : Z) (b : list A) (os : list (@dop A)) out fuel, 1 <= N < 2 ^ w ->
  zlen b = N -> spec_run N [] os = Some ([], out) -> (1 <= fuel)%nat ->
  exists d x, drun N w (d_init N b) os = Some (d, out) /\ it_loop N w fuel d (d_begin d) = Some [x].
Proof. exact (fun A N w b os out fuel H => @history_iterates_empty A N w H b os out fuel). Qed.
Print Assumptions C04_iteration_empty_refuted.

(* C04 is false for decrementing end(): it stays at end(). *)
Theorem C04_decrement_end_refuted :
  forall (A : Type) (N w : Z) (d : @deque A), it_dec N w d (d_end N d) = d_end N d.
Proof. exact (fun A N w d => dec_end N w d). Qed.
Print Assumptions C04_decrement_end_refuted.

(* ... and decrementing an iterator that was incremented to the end reaches a wrong element:
   the last stored value is 2, the iterator denotes 3. *)
Theorem C04_decrement_past_last_refuted :
  exists d, drun 3 8 (d_init 3 [7; 8; 9]) [DPrepend 1; DAppend 2; DPrepend 3; DRemoveFront] = Some (d, [true; true; true; true]) /\
    d_getBack d = Some 2 /\
    it_deref d (it_dec 3 8 d (Nat.iter 2 (it_inc 3 8 d) (d_begin d))) = Some 3.
Proof. eexists. split; [vm_compute; reflexivity|]. split; vm_compute; reflexivity. Qed.
Print Assumptions C04_decrement_past_last_refuted.

Example C04_example :
  option_map (fun p => it_loop 3 8 5 (fst p) (d_begin (fst p)))
    (drun 3 8 (d_init 3 [0; 0; 0]) [DAppend 1; DAppend 2; DRemoveFront; DAppend 3; DAppend 4])
  = Some (Some [2; 3; 4]).
Proof. vm_compute. reflexivity. Qed.

(* C05 *)
Theorem C05_bounded_queue_is_fifo :
  forall (A : Type) (N w : Z) (b : list A) (os : list (@aop A)) l out, 1 <= N < 2 ^ w ->
  zlen b = N -> spec_arun (fifo_step N) [] os = Some (l, out) ->
  exists d, arun (bq_step N w) (d_init N b) os = Some (d, out) /\
    d_getSize d = zlen l /\ d_isFull N d = (zlen l =? N) /\ d_isEmpty d = (zlen l =? 0).
Proof. exact (fun A N w b os l out H => @fifo_history A N w H b os l out). Qed.
Print Assumptions C05_bounded_queue_is_fifo.

Theorem C05_bounded_stack_is_lifo :
  forall (A : Type) (N w : Z) (b : list A) (os : list (@aop A)) l out, 1 <= N < 2 ^ w ->
  zlen b = N -> spec_arun (lifo_step N) [] os = Some (l, out) ->
  exists d, arun (bs_step N w) (d_init N b) os = Some (d, out) /\
    d_getSize d = zlen l /\ d_isFull N d = (zlen l =? N) /\ d_isEmpty d = (zlen l =? 0).
Proof. exact (fun A N w b os l out H => @lifo_history A N w H b os l out). Qed.
Print Assumptions C05_bounded_stack_is_lifo.

Example C05_example :
  spec_arun (fifo_step 2) [] [APush 1; APush 2; APush 3; APop; APush 4; APop]
    = Some ([4], [BPushed true; BPushed true; BPushed false; BPopped 1; BPushed true; BPopped 2]) /\
  spec_arun (lifo_step 2) [] [APush 1; APush 2; APush 3; APop; APush 4; APop]
    = Some ([1], [BPushed true; BPushed true; BPushed false; BPopped 2; BPushed true; BPopped 4]).
Proof. vm_compute. split; reflexivity. Qed.
