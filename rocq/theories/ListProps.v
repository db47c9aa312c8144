(* C06, C07: the linked lists. *)
From Verif Require Import Base PtrHeap ListSpec ListModel ListProofs.

(* C06. Every sequence of calls that makes sense on an abstract sequence (identities of new elements are not in use, removal
   and access name elements that are there) is performed by the list without touching a null or released node and answers
   exactly what the abstract sequence answers. Afterwards iteration yields the abstract sequence, front and back denote its
   first and last element, and no other node is allocated. Insertion is as the code does it: behind the given position. *)
Theorem C06_sequence : forall (V : Type) (cs : list (call V)) (ans : list (answer V)) (l : list (Z * V)),
  calls single [] cs ans l ->
  exists s, ll_calls ll_empty cs = Some (s, ans) /\ ll_traverse s = Some (values l) /\
    ll_front s = first l /\ ll_back s = final l /\ length (ll_heap s) = length l.
Proof.
  intros V cs ans l H. destruct (ll_calls_ok _ _ _ _ H ll_empty lrep_empty) as (s & E & L).
  exists s. split; [exact E|]. split; [exact (ll_traverse_ok _ _ L)|]. pose proof L as (_ & _ & _ & F & B & _).
  split; [exact F|]. split; [exact B|]. exact (lrep_length _ _ L).
Qed.
Print Assumptions C06_sequence.
Ltac fresh_tac := split; [lia|cbn; lia].
Example C06_sequence_ex : exists ans l,
  calls single [] [CAppend 16 1; CPrepend 8 2; CAppend 24 3; CRemove 24; CGetBack; CRemoveFront; CRemove 16; CIsEmpty; CAppend 32 7;
                   CInsert 32 40 9; CInsert 0 48 5; CRemove 40; CGetBack; CRemove 0; CGetSize; CInc 32; CIterate] ans l /\
  l = [(32, 7); (48, 5)] /\ ans <> [].
Proof.
  do 2 eexists. split.
  - eapply calls_cons; [apply s_append; fresh_tac|]. eapply calls_cons; [apply s_common, c_prepend; fresh_tac|]. eapply calls_cons; [apply s_append; fresh_tac|]. cbn [app].
    eapply calls_cons; [exact (s_common _ _ _ _ (c_remove [(8, 2); (16, 1)] 24 3 []))|]. cbn [app].
    eapply calls_cons; [exact (s_common _ _ _ _ (c_getBack 16 1 [(8, 2)]))|]. cbn [app].
    eapply calls_cons; [apply s_common, c_removeFront|]. eapply calls_cons; [exact (s_common _ _ _ _ (c_remove [] 16 1 []))|]. cbn [app].
    eapply calls_cons; [apply s_common, c_isEmpty_nil|]. eapply calls_cons; [apply s_append; fresh_tac|]. cbn [app].
    eapply calls_cons; [apply (s_insert [] 32 7 []); fresh_tac|]. cbn [app]. eapply calls_cons; [apply s_insert_end; fresh_tac|]. cbn [app].
    eapply calls_cons; [exact (s_common _ _ _ _ (c_remove [(32, 7)] 40 9 [(48, 5)]))|]. cbn [app].
    eapply calls_cons; [exact (s_common _ _ _ _ (c_getBack 48 5 [(32, 7)]))|]. cbn [app].
    eapply calls_cons; [apply s_remove_none; cbn; lia|].
    eapply calls_cons; [apply s_common, c_getSize|].
    eapply calls_cons; [exact (s_common _ _ _ _ (c_inc [] 32 7 [(48, 5)]))|]. cbn [app].
    eapply calls_cons; [apply s_common, c_iterate|]. apply calls_nil.
  - split; [reflexivity|discriminate].
Qed.

(* C06. back always denotes the last element: whatever the history, getBack() of a list that is not empty answers the last
   element of what iteration yields, and getFront() the first. *)
Theorem C06_front_back : forall (V : Type) (cs : list (call V)) (ans : list (answer V)) (l : list (Z * V)) (d : V),
  calls single [] cs ans l -> l <> [] ->
  exists s vs, ll_calls ll_empty cs = Some (s, ans) /\ ll_traverse s = Some vs /\ vs <> [] /\
    ll_getBack s = Some (last vs d) /\ ll_getFront s = Some (hd d vs) /\ ll_isEmpty s = false.
Proof.
  intros V cs ans l d H Hl. destruct (ll_calls_ok _ _ _ _ H ll_empty lrep_empty) as (s & E & L).
  exists s, (values l). split; [exact E|]. split; [exact (ll_traverse_ok _ _ L)|].
  pose proof L as (_ & _ & Z0 & F & B & _). split; [intro Q; apply map_eq_nil in Q; contradiction|]. split; [|split].
  - destruct (nil_or_snoc l) as [->|(l' & p & v & ->)]; [contradiction|]. unfold ll_getBack. rewrite B, final_snoc, (lrep_get _ _ _ _ _ L).
    unfold values. rewrite map_app. cbn [obind n_value map]. rewrite last_last. reflexivity.
  - destruct l as [|[p v] r]; [contradiction|]. unfold ll_getFront. rewrite F. cbn [first ids map fst hd].
    rewrite (lrep_get s [] p v r L). reflexivity.
  - unfold ll_isEmpty. rewrite F, first_0 by exact Z0. destruct l; [contradiction|reflexivity].
Qed.
Print Assumptions C06_front_back.
Example C06_front_back_ex : calls single [] [CAppend 16 1; CAppend 24 3; CRemove 24] [ABool true; ABool true; AIter 0] [(16, 1)].
Proof.
  eapply calls_cons; [apply s_append; fresh_tac|]. eapply calls_cons; [apply s_append; fresh_tac|].
  eapply calls_cons; [exact (s_common _ _ _ _ (c_remove [(16, 1)] 24 3 []))|]. apply calls_nil.
Qed.

(* C06. The destructor releases every node exactly once, whatever the history. *)
Theorem C06_destructor : forall (V : Type) (cs : list (call V)) (ans : list (answer V)) (l : list (Z * V)),
  calls single [] cs ans l -> exists s, ll_calls ll_empty cs = Some (s, ans) /\ ll_destroy s = Some [].
Proof.
  intros V cs ans l H. destruct (ll_calls_ok _ _ _ _ H ll_empty lrep_empty) as (s & E & L).
  exists s. split; [exact E|exact (ll_destroy_ok _ _ L)].
Qed.
Print Assumptions C06_destructor.
Example C06_destructor_ex : exists s, ll_calls ll_empty [CAppend 16 1; CAppend 24 3; CPrepend 8 2] = Some (s, [ABool true; ABool true; ABool true]) /\
  length (ll_heap s) = 3%nat.
Proof. eexists. split; [vm_compute; reflexivity|reflexivity]. Qed.

(* C06, refuted part: insert(pos, x) does not place x in front of pos as std::list::insert does. *)
Theorem C06_insert_before_refuted : exists (l1 l2 : list (Z * Z)) (q w p v : Z),
  fresh p (l1 ++ (q, w) :: l2) /\
  exists cs ans s s', calls single [] cs ans (l1 ++ (q, w) :: l2) /\ ll_calls ll_empty cs = Some (s, ans) /\
    ll_insert s q p v = Some (s', true) /\ ll_traverse s' <> Some (values (l1 ++ (p, v) :: (q, w) :: l2)).
Proof.
  exists [], [], 8, 1, 16, 2. split; [fresh_tac|]. exists [CAppend 8 1]. do 3 eexists. split.
  { eapply calls_cons; [apply s_append; fresh_tac|]. apply calls_nil. }
  split; [vm_compute; reflexivity|]. split; [vm_compute; reflexivity|]. vm_compute. discriminate.
Qed.
Print Assumptions C06_insert_before_refuted.

(* C07. Every sensible sequence of calls is performed without touching a null or released node and answers exactly what the
   abstract sequence answers; in particular erase answers the position of the element that followed (0, the end iterator, if
   there is none). Afterwards the forward chain from front and the backward chain from back denote the same sequence, and no
   other node is allocated. *)
Theorem C07_sequence : forall (V : Type) (cs : list (call V)) (ans : list (answer V)) (l : list (Z * V)),
  calls double [] cs ans l ->
  exists s, dl_calls dl_empty cs = Some (s, ans) /\ dl_traverse s = Some (values l) /\
    dl_back_loop (S (length (dl_heap s))) s (dl_back s) = Some (rev (values l)) /\
    dl_front s = first l /\ dl_back s = final l /\ length (dl_heap s) = length l.
Proof.
  intros V cs ans l H. destruct (dl_calls_ok _ _ _ _ H dl_empty drep_empty) as (s & E & L).
  exists s. split; [exact E|]. split; [exact (dl_traverse_ok _ _ L)|]. split; [exact (dl_backward_ok _ _ L)|].
  pose proof L as (_ & _ & _ & F & B & _). split; [exact F|]. split; [exact B|]. exact (drep_length _ _ L).
Qed.
Print Assumptions C07_sequence.
Example C07_sequence_ex : exists ans l,
  calls double [] [CAppend 16 1; CPrepend 8 2; CAppend 24 3; CAppend 32 4; CRemove 16; CRemove 32; CDec 24; CRemove 8; CRemoveBack; CIsEmpty;
                   CPrepend 40 6; CAppend 48 7; CRemoveFront; CIterate] ans l /\
  l = [(48, 7)] /\ nth_error ans 4 = Some (AIter 24) /\ nth_error ans 5 = Some (AIter 0) /\ nth_error ans 7 = Some (AIter 24).
Proof.
  do 2 eexists. split.
  - eapply calls_cons; [apply d_append; fresh_tac|]. eapply calls_cons; [apply d_common, c_prepend; fresh_tac|].
    eapply calls_cons; [apply d_append; fresh_tac|]. cbn [app]. eapply calls_cons; [apply d_append; fresh_tac|]. cbn [app].
    eapply calls_cons; [exact (d_common _ _ _ _ (c_remove [(8, 2)] 16 1 [(24, 3); (32, 4)]))|]. cbn [app].
    eapply calls_cons; [exact (d_common _ _ _ _ (c_remove [(8, 2); (24, 3)] 32 4 []))|]. cbn [app].
    eapply calls_cons; [exact (d_dec [(8, 2)] 24 3 [])|]. cbn [app].
    eapply calls_cons; [exact (d_common _ _ _ _ (c_remove [] 8 2 [(24, 3)]))|]. cbn [app].
    eapply calls_cons; [exact (d_removeBack 24 3 [])|].
    eapply calls_cons; [apply d_common, c_isEmpty_nil|]. eapply calls_cons; [apply d_common, c_prepend; fresh_tac|].
    eapply calls_cons; [apply d_append; fresh_tac|]. cbn [app]. eapply calls_cons; [apply d_common, c_removeFront|].
    eapply calls_cons; [apply d_common, c_iterate|]. apply calls_nil.
  - repeat split.
Qed.

(* C07. The destructor releases every node exactly once, whatever the history. *)
Theorem C07_destructor : forall (V : Type) (cs : list (call V)) (ans : list (answer V)) (l : list (Z * V)),
  calls double [] cs ans l -> exists s, dl_calls dl_empty cs = Some (s, ans) /\ dl_destroy s = Some [].
Proof.
  intros V cs ans l H. destruct (dl_calls_ok _ _ _ _ H dl_empty drep_empty) as (s & E & L).
  exists s. split; [exact E|exact (dl_destroy_ok _ _ L)].
Qed.
Print Assumptions C07_destructor.
Example C07_destructor_ex : exists s, dl_calls dl_empty [CAppend 16 1; CAppend 24 3; CPrepend 8 2] = Some (s, [AVoid; AVoid; ABool true]) /\
  length (dl_heap s) = 3%nat.
Proof. eexists. split; [vm_compute; reflexivity|reflexivity]. Qed.

(* C07. Unlike in the standard containers the end iterator cannot be decremented (the header says so in a todo): it holds a null
   pointer, whatever the list contains. *)
Theorem C07_decrement_end_undefined : forall (V : Type) (cs : list (call V)) (ans : list (answer V)) (l : list (Z * V)),
  calls double [] cs ans l -> exists s, dl_calls dl_empty cs = Some (s, ans) /\ dl_dec s (dl_end s) = None.
Proof.
  intros V cs ans l H. destruct (dl_calls_ok _ _ _ _ H dl_empty drep_empty) as (s & E & L).
  exists s. split; [exact E|]. unfold dl_dec, dl_end. rewrite hget_None; [reflexivity|].
  destruct L as (P & _ & Z0 & _). intro I. apply Z0. eapply Permutation.Permutation_in; [exact P|exact I].
Qed.
Print Assumptions C07_decrement_end_undefined.
Example C07_decrement_end_undefined_ex : calls double [] [CAppend 16 1] [AVoid] [(16, 1)].
Proof. eapply calls_cons; [apply d_append; fresh_tac|]. apply calls_nil. Qed.
