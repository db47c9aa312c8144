(* Shared vocabulary of the pointer based containers: the nodes owned by one container, addressed by pointers (0 is the null
   pointer). Nothing here is specific to one file of /repo; the definitions encode access through a pointer: a pointer that is
   null, was never allocated or was already released denotes no node, and using it is undefined behaviour (None). *)
From Coq Require Import Permutation.
From Verif Require Import Base.

Section Heap.
Context {N : Type}.

Fixpoint hget (h : list (Z * N)) (p : Z) : option N :=
  match h with
  | [] => None
  | (q, n) :: t => if q =? p then Some n else hget t p
  end.
(* store through a pointer *)
Fixpoint hset (h : list (Z * N)) (p : Z) (n : N) : option (list (Z * N)) :=
  match h with
  | [] => None
  | (q, m) :: t => if q =? p then Some ((q, n) :: t) else do t <- hset t p n; Some ((q, m) :: t)
  end.
(* release a node *)
Fixpoint hdel (h : list (Z * N)) (p : Z) : option (list (Z * N)) :=
  match h with
  | [] => None
  | (q, m) :: t => if q =? p then Some t else do t <- hdel t p; Some ((q, m) :: t)
  end.
(* initialise the node at the address p returned by the allocator; a null pointer, or an address still in use, is not usable *)
Definition hnew (h : list (Z * N)) (p : Z) (n : N) : option (list (Z * N)) :=
  if p =? 0 then None else match hget h p with Some _ => None | None => Some ((p, n) :: h) end.

Definition keys {A} (l : list (Z * A)) : list Z := map fst l.

Lemma hget_In h p n : hget h p = Some n -> In p (keys h).
Proof.
  induction h as [|[q m] t IH]; cbn [hget]; [discriminate|]. destruct (q =? p) eqn:E; intro H.
  - left. cbn. lia.
  - right. apply IH, H.
Qed.

Lemma In_hget h p : In p (keys h) -> exists n, hget h p = Some n.
Proof.
  induction h as [|[q m] t IH]; cbn [hget keys map fst]; [intros []|]. intro H.
  destruct (q =? p) eqn:E; [eauto|]. apply IH. destruct H as [H|H]; [lia|exact H].
Qed.

Lemma hget_None h p : ~ In p (keys h) -> hget h p = None.
Proof. intro H. destruct (hget h p) eqn:E; [|reflexivity]. apply hget_In in E. contradiction. Qed.

Lemma hset_ok h p n m : hget h p = Some m ->
  exists h', hset h p n = Some h' /\ keys h' = keys h /\ hget h' p = Some n /\
    forall q, q <> p -> hget h' q = hget h q.
Proof.
  induction h as [|[q x] t IH]; cbn [hget hset]; [discriminate|]. destruct (q =? p) eqn:E; intro H.
  - eexists. split; [reflexivity|]. split; [reflexivity|]. cbn [hget]. rewrite E. split; [reflexivity|].
    intros r Hr. destruct (q =? r) eqn:E1; [lia|reflexivity].
  - destruct (IH H) as (h' & H1 & H2 & H3 & H4). rewrite H1. cbn [obind]. eexists. split; [reflexivity|].
    cbn [keys map fst hget]. fold (@keys N h') (@keys N t). rewrite H2, E. split; [reflexivity|]. split; [exact H3|].
    intros r Hr. destruct (q =? r); [reflexivity|apply H4, Hr].
Qed.

Lemma hdel_ok h p m : NoDup (keys h) -> hget h p = Some m ->
  exists h', hdel h p = Some h' /\ Permutation (keys h) (p :: keys h') /\ forall q, q <> p -> hget h' q = hget h q.
Proof.
  induction h as [|[q x] t IH]; cbn [hget hdel]; [discriminate|]. intro D. destruct (q =? p) eqn:E; intro H.
  - eexists. split; [reflexivity|]. split.
    + cbn. replace q with p by lia. apply Permutation_refl.
    + intros r Hr. destruct (q =? r) eqn:E1; [lia|reflexivity].
  - destruct IH as (h' & H1 & H2 & H3); [inversion D; assumption|exact H|]. rewrite H1. cbn [obind].
    eexists. split; [reflexivity|]. split.
    + cbn. fold (keys t) (keys h'). rewrite H2. apply perm_swap.
    + intros r Hr. cbn [hget]. destruct (q =? r); [reflexivity|apply H3, Hr].
Qed.

Lemma hnew_ok h p n : p <> 0 -> ~ In p (keys h) ->
  hnew h p n = Some ((p, n) :: h) /\ hget ((p, n) :: h) p = Some n /\
    forall q, q <> p -> hget ((p, n) :: h) q = hget h q.
Proof.
  intros H0 H1. unfold hnew. rewrite (hget_None _ _ H1). destruct (p =? 0) eqn:E; [lia|]. split; [reflexivity|].
  cbn [hget]. destruct (p =? p) eqn:E1; [|lia]. split; [reflexivity|].
  intros q Hq. destruct (p =? q) eqn:E2; [lia|reflexivity].
Qed.

End Heap.

Lemma keys_app {A} (l1 l2 : list (Z * A)) : keys (l1 ++ l2) = keys l1 ++ keys l2.
Proof. apply map_app. Qed.
