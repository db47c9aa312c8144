(* Proofs about DynamicArray. *)
From Coq Require Import Permutation.
From Verif Require Import Base PtrHeap SliceLemmas DynArraySpec DynArrayModel.

Section Proofs.
Context {V : Type}.
Variable eqb : V -> V -> bool.
Variables w esz : Z.
(* the address returned by the k-th allocation when the given addresses are in use *)
Variable alloc : Z -> list Z -> Z.
Definition limit : Z := (2 ^ w - 1) / esz.

(* all arrays of a program, with the number of calls so far *)
Record world := mkW { w_heap : dheap V; w_vars : Z -> option darray; w_time : Z }.
Definition set_var (f : Z -> option darray) (x : Z) (o : option darray) : Z -> option darray := fun y => if y =? x then o else f y.
Definition on (s : world) (x : Z) (f : darray -> option (dheap V * darray)) : option (world * result V) :=
  do a <- w_vars s x; do (h, a) <- f a; Some (mkW h (set_var (w_vars s) x (Some a)) (w_time s + 1), RVoid).
Definition create (s : world) (x : Z) (f : option (dheap V * darray)) : option (world * result V) :=
  match w_vars s x with
  | Some _ => None
  | None => do (h, a) <- f; Some (mkW h (set_var (w_vars s) x (Some a)) (w_time s + 1), RVoid)
  end.
Definition ask (s : world) (x : Z) (f : darray -> option (result V)) : option (world * result V) :=
  do a <- w_vars s x; do r <- f a; Some (mkW (w_heap s) (w_vars s) (w_time s + 1), r).
(* the calls of a program on the model *)
Definition da_call (s : world) (c : acall V) : option (world * result V) :=
  let h := w_heap s in
  let al := alloc (w_time s) in
  match c with
  | ANew x => create s x (Some (h, da_new))
  | ANewCapacity x n => create s x (da_new_capacity w esz h n al)
  | ANewFill x n v => create s x (da_new_fill w esz h n v al)
  | ANewList x vs => create s x (da_new_list w esz h vs al)
  | ACopy x y => create s x (do o <- w_vars s y; da_copy w esz h o al)
  | ADelete x => do a <- w_vars s x; do h <- da_delete h a; Some (mkW h (set_var (w_vars s) x None) (w_time s + 1), RVoid)
  | AAssign x y => on s x (fun a => do o <- w_vars s y; da_assign w esz h a (x =? y) o al)
  | AReserve x n => on s x (fun a => da_reserve w esz h a n al)
  | AClear x => on s x (da_clear h)
  | ARemoveAll x => on s x (da_removeAll h)
  | AAppend x v => on s x (fun a => da_append w esz h a (Outside v) al)
  | AAppendElement x y i => on s x (fun a => do o <- w_vars s y; da_append w esz h a (Element (da_values o) i) al)
  | ARemoveBack x => on s x (da_removeBack w h)
  | ASet x i v => on s x (fun a => do h <- da_set h a i v; Some (h, a))
  | AGet x i => ask s x (fun a => do v <- da_get h a i; Some (RValue v))
  | AGetFront x => ask s x (fun a => do v <- da_getFront h a; Some (RValue v))
  | AGetBack x => ask s x (fun a => do v <- da_getBack w h a; Some (RValue v))
  | AGetSize x => ask s x (fun a => Some (RNumber (da_size a)))
  | AGetCapacity x => ask s x (fun a => Some (RNumber (da_capacity a)))
  | AIsEmpty x => ask s x (fun a => Some (RBool (da_isEmpty a)))
  | AFind x v => ask s x (fun a => do n <- da_find w eqb h a v; Some (RNumber n))
  | AIterate x => ask s x (fun a => do l <- da_iterate w h a; Some (RValues l))
  end.
Fixpoint da_calls (s : world) (cs : list (acall V)) : option (world * list (result V)) :=
  match cs with
  | [] => Some (s, [])
  | c :: cs => do (s, r) <- da_call s c; do (s, rs) <- da_calls s cs; Some (s, r :: rs)
  end.
Definition world0 : world := mkW [] (fun _ => None) 0.

Hypothesis Hw : 0 < w.
Hypothesis Hesz : 0 < esz.
Hypothesis Halloc : forall k live, alloc k live <> 0 /\ ~ In (alloc k live) live.

Implicit Types (h : dheap V) (vs : list V).

Lemma limit_range : limit * esz < 2 ^ w /\ limit < 2 ^ w /\ 0 <= limit.
Proof.
  pose proof (Z.pow_pos_nonneg 2 w ltac:(lia) ltac:(lia)). unfold limit.
  pose proof (Z.mul_div_le (2 ^ w - 1) esz Hesz). assert (0 <= (2 ^ w - 1) / esz) by (apply Z.div_pos; lia). nia.
Qed.

Definition okh h : Prop := NoDup (keys h) /\ ~ In 0 (keys h).
Definition chg h h' (p : Z) b : Prop :=
  keys h' = keys h /\ hget h' p = Some b /\ forall q, q <> p -> hget h' q = hget h q.

Lemma chg_trans h h1 h2 p b1 b2 : chg h h1 p b1 -> chg h1 h2 p b2 -> chg h h2 p b2.
Proof.
  intros (K1 & _ & R1) (K2 & G2 & R2). split; [congruence|]. split; [exact G2|]. intros q Hq. rewrite R2, R1 by exact Hq. reflexivity.
Qed.
Lemma chg_refl h p b : hget h p = Some b -> chg h h p b.
Proof. repeat split; auto. Qed.

Lemma znth_mid {A} (a : list A) x b : znth (a ++ x :: b) (zlen a) = Some x.
Proof. rewrite znth_app_r by lia. rewrite Z.sub_diag. reflexivity. Qed.
Lemma zupd_mid {A} (a : list A) x y b : zupd (a ++ x :: b) (zlen a) y = Some (a ++ y :: b).
Proof.
  unfold zupd, zlen. destruct (Z.of_nat (length a) <? 0) eqn:E; [lia|]. rewrite Nat2Z.id. clear E.
  induction a as [|z a IH]; [reflexivity|]. cbn. cbn in IH. rewrite IH. reflexivity.
Qed.

Lemma construct_ok h p a b v i : hget h p = Some (a ++ None :: b) -> i = zlen a ->
  exists h', d_construct h p i v = Some h' /\ chg h h' p (a ++ Some v :: b).
Proof.
  intros G ->. unfold d_construct. rewrite G. cbn [obind]. rewrite znth_mid. cbn [obind]. rewrite zupd_mid. cbn [obind].
  destruct (hset_ok _ _ (a ++ Some v :: b) _ G) as (h' & E & K & G' & R). exists h'. split; [exact E|]. repeat split; assumption.
Qed.
Lemma destroy_ok h p a b v i : hget h p = Some (a ++ Some v :: b) -> i = zlen a ->
  exists h', d_destroy h p i = Some h' /\ chg h h' p (a ++ None :: b).
Proof.
  intros G ->. unfold d_destroy. rewrite G. cbn [obind]. rewrite znth_mid. cbn [obind]. rewrite zupd_mid. cbn [obind].
  destruct (hset_ok _ _ (a ++ None :: b) _ G) as (h' & E & K & G' & R). exists h'. split; [exact E|]. repeat split; assumption.
Qed.
Lemma assign_ok h p a b v u i : hget h p = Some (a ++ Some u :: b) -> i = zlen a ->
  exists h', d_assign h p i v = Some h' /\ chg h h' p (a ++ Some v :: b).
Proof.
  intros G ->. unfold d_assign. rewrite G. cbn [obind]. rewrite znth_mid. cbn [obind]. rewrite zupd_mid. cbn [obind].
  destruct (hset_ok _ _ (a ++ Some v :: b) _ G) as (h' & E & K & G' & R). exists h'. split; [exact E|]. repeat split; assumption.
Qed.
Lemma read_ok h p a b v i : hget h p = Some (a ++ Some v :: b) -> i = zlen a -> d_read h p i = Some v.
Proof. intros G ->. unfold d_read. rewrite G. cbn [obind]. rewrite znth_mid. reflexivity. Qed.

Lemma destroy_loop_ok vs : forall h p a b i, hget h p = Some (a ++ map Some vs ++ b) -> i = zlen a ->
  exists h', destroy_loop (length vs) h p i = Some h' /\ chg h h' p (a ++ repeat None (length vs) ++ b).
Proof.
  induction vs as [|v vs IH]; intros h p a b i G ->; cbn [length destroy_loop].
  - exists h. split; [reflexivity|apply chg_refl, G].
  - cbn [map app] in G. destruct (destroy_ok h p a _ v _ G eq_refl) as (h1 & -> & C1). cbn [obind].
    destruct (IH h1 p (a ++ [None]) b (zlen a + 1)) as (h2 & -> & C2).
    { destruct C1 as (_ & G1 & _). rewrite <- app_assoc. exact G1. } { rewrite zlen_app. reflexivity. }
    exists h2. split; [reflexivity|]. rewrite <- app_assoc in C2. exact (chg_trans _ _ _ _ _ _ C1 C2).
Qed.
Lemma construct_loop_ok vs : forall h p a b i, hget h p = Some (a ++ repeat None (length vs) ++ b) -> i = zlen a ->
  exists h', construct_loop vs h p i = Some h' /\ chg h h' p (a ++ map Some vs ++ b).
Proof.
  induction vs as [|v vs IH]; intros h p a b i G ->; cbn [length construct_loop].
  - exists h. split; [reflexivity|apply chg_refl, G].
  - cbn [length repeat app] in G. destruct (construct_ok h p a _ v _ G eq_refl) as (h1 & -> & C1). cbn [obind].
    destruct (IH h1 p (a ++ [Some v]) b (zlen a + 1)) as (h2 & -> & C2).
    { destruct C1 as (_ & G1 & _). rewrite <- app_assoc. exact G1. } { rewrite zlen_app. reflexivity. }
    exists h2. split; [reflexivity|]. rewrite <- app_assoc in C2. exact (chg_trans _ _ _ _ _ _ C1 C2).
Qed.
Lemma copy_loop_ok vs : forall h p q us r a b i, hget h q = Some (us ++ map Some vs ++ r) -> zlen us = zlen a -> p <> q ->
  hget h p = Some (a ++ repeat None (length vs) ++ b) -> i = zlen a ->
  exists h', copy_loop (length vs) h p q i = Some h' /\ chg h h' p (a ++ map Some vs ++ b).
Proof.
  induction vs as [|v vs IH]; intros h p q us r a b i Q L N G ->; cbn [length copy_loop].
  - exists h. split; [reflexivity|apply chg_refl, G].
  - cbn [length repeat app] in G. cbn [map app] in Q. rewrite (read_ok _ _ _ _ _ _ Q) by auto. cbn [obind].
    destruct (construct_ok h p a _ v _ G eq_refl) as (h1 & -> & C1). cbn [obind].
    destruct (IH h1 p q (us ++ [Some v]) r (a ++ [Some v]) b (zlen a + 1)) as (h2 & -> & C2); auto.
    { destruct C1 as (_ & _ & R1). rewrite R1 by auto. rewrite <- app_assoc. exact Q. } { rewrite !zlen_app. lia. }
    { destruct C1 as (_ & G1 & _). rewrite <- app_assoc. exact G1. } { rewrite zlen_app. reflexivity. }
    exists h2. split; [reflexivity|]. rewrite <- app_assoc in C2. exact (chg_trans _ _ _ _ _ _ C1 C2).
Qed.
Lemma relocate_loop_ok vs : forall h p q us r a b i, hget h q = Some (us ++ map Some vs ++ r) -> zlen us = zlen a -> p <> q ->
  hget h p = Some (a ++ repeat None (length vs) ++ b) -> i = zlen a ->
  exists h', relocate_loop (length vs) h p q i = Some h' /\ keys h' = keys h /\ hget h' p = Some (a ++ map Some vs ++ b) /\
    hget h' q = Some (us ++ repeat None (length vs) ++ r) /\ forall x, x <> p -> x <> q -> hget h' x = hget h x.
Proof.
  induction vs as [|v vs IH]; intros h p q us r a b i Q L N G ->; cbn [length relocate_loop].
  - exists h. repeat split; auto.
  - cbn [length repeat app] in G. cbn [map app] in Q. rewrite (read_ok _ _ _ _ _ _ Q) by auto. cbn [obind].
    destruct (construct_ok h p a _ v _ G eq_refl) as (h1 & -> & K1 & G1 & R1). cbn [obind].
    destruct (destroy_ok h1 q us (map Some vs ++ r) v (zlen a)) as (h2 & -> & K2 & G2 & R2); [rewrite R1 by auto; exact Q|auto|]. cbn [obind].
    destruct (IH h2 p q (us ++ [None]) r (a ++ [Some v]) b (zlen a + 1)) as (h3 & -> & K3 & G3 & G4 & R3); auto.
    { rewrite <- app_assoc. exact G2. } { rewrite !zlen_app. unfold zlen at 2 4. cbn. lia. }
    { rewrite R2 by auto. rewrite <- app_assoc. exact G1. } { rewrite zlen_app. reflexivity. }
    exists h3. rewrite <- app_assoc in G3, G4. split; [reflexivity|]. split; [congruence|]. split; [exact G3|]. split; [exact G4|].
    intros x Hp Hq. rewrite R3, R2, R1 by auto. reflexivity.
Qed.

Definition arep h (x : darray) vs (c : Z) : Prop :=
  da_size x = zlen vs /\ da_capacity x = c /\ zlen vs <= c <= limit /\
  ((da_values x = 0 /\ c = 0) \/
   (da_values x <> 0 /\ hget h (da_values x) = Some (map Some vs ++ repeat None (Z.to_nat (c - zlen vs))))).

Lemma alloc_ok h al n : okh h -> 0 <= n <= limit -> (forall live, al live <> 0 /\ ~ In (al live) live) ->
  exists h1 p, d_allocate w esz h al n = Some (h1, p) /\ p <> 0 /\ ~ In p (keys h) /\ keys h1 = p :: keys h /\
    hget h1 p = Some (repeat None (Z.to_nat n)) /\ forall q, q <> p -> hget h1 q = hget h q.
Proof.
  intros [D Z0] Hn Ha. destruct (Ha (keys h)) as [A1 A2]. unfold d_allocate. cbv zeta.
  pose proof limit_range as (L1 & L2 & L3).
  assert (wrap w (n * esz) / esz = n) as ->.
  { unfold wrap. rewrite Z.mod_small by nia. apply Z.div_mul. lia. }
  destruct (hnew_ok h (al (keys h)) (repeat None (Z.to_nat n)) A1 A2) as (E & G & R). rewrite E. cbn [obind].
  do 2 eexists. split; [reflexivity|]. repeat split; auto.
Qed.

Lemma dealloc_ok h p k : okh h -> hget h p = Some (repeat None k) ->
  exists h', d_deallocate h p = Some h' /\ okh h' /\ (forall q, q <> p -> hget h' q = hget h q) /\
    (forall q, In q (keys h') -> In q (keys h) /\ q <> p).
Proof.
  intros [D Z0] G. unfold d_deallocate. destruct (p =? 0) eqn:E.
  { exfalso. apply Z0. replace 0 with p by lia. exact (hget_In _ _ _ G). }
  rewrite G. cbn [obind].
  assert (forallb (fun c : option V => match c with None => true | _ => false end) (repeat None k) = true) as ->.
  { clear. induction k; [reflexivity|assumption]. }
  destruct (hdel_ok _ _ _ D G) as (h' & -> & P & R). exists h'. split; [reflexivity|].
  assert (NoDup (p :: keys h')) as D' by exact (Permutation_NoDup P D).
  split; [split; [inversion D'; assumption|]|].
  - intro I. apply Z0. eapply Permutation_in; [symmetry; exact P|]. right. exact I.
  - split; [exact R|]. intros q Hq. split; [eapply Permutation_in; [symmetry; exact P|]; right; exact Hq|].
    intros ->. inversion D'. contradiction.
Qed.

(* destroying all elements and releasing the buffer *)
Lemma destroy_all_ok h x vs c : arep h x vs c ->
  exists h', destroy_loop (Z.to_nat (da_size x)) h (da_values x) 0 = Some h' /\ keys h' = keys h /\
   (forall q, q <> da_values x -> hget h' q = hget h q) /\
   ((da_values x = 0 /\ c = 0) \/ (da_values x <> 0 /\ hget h' (da_values x) = Some (repeat None (Z.to_nat c)))).
Proof.
  intros (S & C & L & B). rewrite S. unfold zlen. rewrite Nat2Z.id. destruct B as [[B1 B2]|[B1 B2]].
  - assert (vs = []) as -> by (apply zlen_0_nil; pose proof (zlen_nonneg vs); lia). exists h. repeat split; auto.
  - destruct (destroy_loop_ok vs h (da_values x) [] _ 0 B2 eq_refl) as (h' & -> & K & G & R). exists h'. split; [reflexivity|].
    split; [exact K|]. split; [exact R|]. right. split; [exact B1|]. rewrite G. cbn [app]. f_equal.
    rewrite <- repeat_app. f_equal. unfold zlen in *. lia.
Qed.
Lemma free_ok h x vs c : okh h -> arep h x vs c ->
  exists h1 h2, destroy_loop (Z.to_nat (da_size x)) h (da_values x) 0 = Some h1 /\ d_deallocate h1 (da_values x) = Some h2 /\
    okh h2 /\ (forall q, q <> da_values x -> hget h2 q = hget h q) /\ (forall q, In q (keys h2) -> In q (keys h) /\ q <> da_values x).
Proof.
  intros O A. destruct (destroy_all_ok _ _ _ _ A) as (h1 & E1 & K1 & R1 & B). exists h1.
  assert (okh h1) as O1 by (unfold okh; rewrite K1; exact O).
  destruct B as [[B1 B2]|[B1 B2]].
  - exists h1. rewrite B1 in *. split; [exact E1|]. split; [reflexivity|]. split; [exact O1|]. split; [exact R1|].
    intros q Hq. rewrite <- K1. split; [exact Hq|]. intros ->. destruct O1 as [_ Z1]. contradiction.
  - destruct (dealloc_ok _ _ _ O1 B2) as (h2 & E2 & O2 & R2 & I2). exists h2. split; [exact E1|]. split; [exact E2|]. split; [exact O2|].
    split; [intros q Hq; rewrite R2, R1 by exact Hq; reflexivity|]. intros q Hq. rewrite <- K1. apply I2, Hq.
Qed.

(* what an operation on one array leaves behind: po is the address of its buffer before (0: none) *)
Definition post h (po : Z) h' (x : darray) vs (c : Z) : Prop :=
  okh h' /\ arep h' x vs c /\ (forall q, q <> po -> In q (keys h) -> hget h' q = hget h q) /\
  (forall q, In q (keys h') -> q = da_values x \/ (In q (keys h) /\ q <> po)) /\
  (da_values x = 0 \/ da_values x = po \/ ~ In (da_values x) (keys h)).

Lemma post_chg h h' x y vs c b : okh h -> da_values y = da_values x -> chg h h' (da_values x) b -> arep h' y vs c ->
  post h (da_values x) h' y vs c.
Proof.
  intros O E (K & G & R) A. split; [unfold okh; rewrite K; exact O|]. split; [exact A|].
  split; [intros q Hq _; apply R, Hq|]. rewrite E. split; [|auto].
  intros q Hq. rewrite K in Hq. destruct (Z.eq_dec q (da_values x)); auto.
Qed.
Lemma post_same h x y vs c : okh h -> da_values y = da_values x -> arep h y vs c -> post h (da_values x) h y vs c.
Proof.
  intros O E A. split; [exact O|]. split; [exact A|]. split; [auto|]. rewrite E. split; [|auto].
  intros q Hq. destruct (Z.eq_dec q (da_values x)); auto.
Qed.
(* a new buffer with the elements vs *)
Lemma post_fresh h h1 h' p vs c : okh h -> p <> 0 -> ~ In p (keys h) -> keys h1 = p :: keys h ->
  (forall q, q <> p -> hget h1 q = hget h q) -> zlen vs <= c <= limit ->
  chg h1 h' p (map Some vs ++ repeat None (Z.to_nat (c - zlen vs))) -> post h 0 h' (mkDA (zlen vs) c p) vs c.
Proof.
  intros [D Z0] P0 Pn K1 R1 L (K & G & R). split; [|split; [|split; [|split]]]; cbn [da_values].
  - unfold okh. rewrite K, K1. split; [constructor; assumption|]. intros [|]; auto.
  - repeat split; cbn; auto; try lia.
  - intros q _ Hq. assert (q <> p) by (intros ->; contradiction). rewrite R, R1 by assumption. reflexivity.
  - intros q Hq. rewrite K, K1 in Hq. destruct Hq as [<-|Hq]; [auto|]. right. split; [exact Hq|]. intros ->. contradiction.
  - auto.
Qed.

Definition good (al : list Z -> Z) : Prop := forall live, al live <> 0 /\ ~ In (al live) live.

Lemma new_ok h : okh h -> post h 0 h da_new [] 0.
Proof.
  intros O. pose proof limit_range. split; [exact O|]. split; [repeat split; cbn; auto; lia|]. split; [auto|]. split; [|cbn; auto].
  intros q Hq. right. split; [exact Hq|]. intros ->. destruct O. contradiction.
Qed.
Lemma new_capacity_ok h n al : okh h -> good al -> 0 <= n <= limit ->
  exists h' x, da_new_capacity w esz h n al = Some (h', x) /\ post h 0 h' x [] n.
Proof.
  intros O Ga Hn. unfold da_new_capacity. destruct (alloc_ok h al n O Hn Ga) as (h1 & p & -> & P0 & Pn & K1 & G1 & R1). cbn [obind].
  do 2 eexists. split; [reflexivity|]. apply (post_fresh h h1 h1 p [] n); auto. apply chg_refl. cbn [map app].
  rewrite G1. do 2 f_equal. cbn. lia.
Qed.
Lemma new_list_ok h vs al : okh h -> good al -> zlen vs <= limit ->
  exists h' x, da_new_list w esz h vs al = Some (h', x) /\ post h 0 h' x vs (zlen vs).
Proof.
  intros O Ga Hn. unfold da_new_list. pose proof (zlen_nonneg vs).
  destruct (alloc_ok h al (zlen vs) O ltac:(lia) Ga) as (h1 & p & -> & P0 & Pn & K1 & G1 & R1). cbn [obind].
  destruct (construct_loop_ok vs h1 p [] [] 0) as (h2 & -> & C2); [rewrite G1, app_nil_r; unfold zlen; rewrite Nat2Z.id; reflexivity|reflexivity|].
  cbn [obind]. do 2 eexists. split; [reflexivity|]. apply (post_fresh h h1 h2 p vs (zlen vs)); auto; [lia|].
  rewrite Z.sub_diag. exact C2.
Qed.
Lemma new_fill_ok h n v al : okh h -> good al -> 0 <= n <= limit ->
  exists h' x, da_new_fill w esz h n v al = Some (h', x) /\ post h 0 h' x (repeat v (Z.to_nat n)) n.
Proof.
  intros O Ga Hn. assert (zlen (repeat v (Z.to_nat n)) = n) as E by (rewrite zlen_repeat; lia).
  destruct (new_list_ok h (repeat v (Z.to_nat n)) al O Ga) as (h' & x & H1 & H2); [lia|].
  unfold da_new_list in H1. rewrite E in *. exists h', x. split; [exact H1|exact H2].
Qed.

Lemma copy_ok h x vs c al : okh h -> good al -> arep h x vs c ->
  exists h' y, da_copy w esz h x al = Some (h', y) /\ post h 0 h' y vs c.
Proof.
  intros O Ga (S & C & L & B). unfold da_copy. rewrite S, C. pose proof (zlen_nonneg vs).
  destruct (alloc_ok h al c O ltac:(lia) Ga) as (h1 & p & -> & P0 & Pn & K1 & G1 & R1). cbn [obind].
  assert (exists h2, copy_loop (Z.to_nat (zlen vs)) h1 p (da_values x) 0 = Some h2 /\
            chg h1 h2 p (map Some vs ++ repeat None (Z.to_nat (c - zlen vs)))) as (h2 & -> & C2).
  { destruct B as [[B1 B2]|[B1 B2]].
    - assert (vs = []) as -> by (apply zlen_0_nil; lia). exists h1. split; [reflexivity|]. apply chg_refl. rewrite G1, B2. reflexivity.
    - unfold zlen at 1. rewrite Nat2Z.id.
      assert (p <> da_values x) as Np. { intros ->. apply Pn. exact (hget_In _ _ _ B2). }
      refine (copy_loop_ok vs h1 p (da_values x) [] _ [] _ 0 _ eq_refl Np _ eq_refl); [cbn [app]; rewrite R1 by auto; exact B2|].
      rewrite G1. cbn [app]. f_equal. rewrite <- repeat_app. f_equal. unfold zlen in *. lia. }
  cbn [obind]. do 2 eexists. split; [reflexivity|]. apply (post_fresh h h1 h2 p vs c); auto.
Qed.

Lemma relocate_ok h x vs c n al : okh h -> good al -> arep h x vs c -> zlen vs <= n <= limit ->
  exists h' y, da_relocate w esz h x n al = Some (h', y) /\ post h (da_values x) h' y vs n /\ ~ In (da_values y) (keys h).
Proof.
  intros O Ga (S & C & L & B) Hn. unfold da_relocate. rewrite S. pose proof (zlen_nonneg vs).
  destruct (alloc_ok h al n O ltac:(lia) Ga) as (h1 & p & -> & P0 & Pn & K1 & G1 & R1). cbn [obind].
  destruct B as [[B1 B2]|[B1 B2]].
  - assert (vs = []) as -> by (apply zlen_0_nil; lia). cbn [Z.to_nat zlen length Z.of_nat relocate_loop obind].
    rewrite B1. unfold d_deallocate. cbn [Z.eqb obind]. do 2 eexists. split; [reflexivity|].
    split; [|exact Pn]. change 0 with (zlen (@nil V)) at 2. apply (post_fresh h h1 h1 p [] n); auto. apply chg_refl. rewrite G1. cbn. do 2 f_equal. lia.
  - unfold zlen at 1. rewrite Nat2Z.id.
    assert (p <> da_values x) as Np. { intros ->. apply Pn. exact (hget_In _ _ _ B2). }
    assert (In (da_values x) (keys h)) as Iq by exact (hget_In _ _ _ B2).
    destruct (relocate_loop_ok vs h1 p (da_values x) [] (repeat None (Z.to_nat (c - zlen vs))) [] (repeat None (Z.to_nat (n - zlen vs))) 0)
      as (h2 & -> & K2 & G2 & G3 & R2); auto; [cbn [app]; rewrite R1 by auto; exact B2| |].
    { rewrite G1. cbn [app]. f_equal. rewrite <- repeat_app. f_equal. unfold zlen in *. lia. }
    cbn [obind]. destruct O as [D Z0].
    assert (okh h2) as O2. { unfold okh. rewrite K2, K1. split; [constructor; assumption|]. intros [|]; auto. }
    cbn [app] in G3. rewrite <- repeat_app in G3.
    destruct (dealloc_ok h2 (da_values x) _ O2 G3) as (h3 & -> & O3 & R3 & I3). cbn [obind]. do 2 eexists. split; [reflexivity|].
    split; [|exact Pn]. split; [exact O3|]. split.
    { repeat split; cbn; auto; try lia. right. split; [exact P0|]. rewrite R3 by auto. exact G2. }
    cbn [da_values]. split; [|split].
    + intros q Hq Iq'. assert (q <> p) by (intros ->; contradiction). rewrite R3, R2, R1 by auto. reflexivity.
    + intros q Hq. destruct (I3 q Hq) as [A1 A2]. rewrite K2, K1 in A1. destruct A1 as [<-|A1]; auto.
    + auto.
Qed.

Lemma clear_ok h x vs c : okh h -> arep h x vs c ->
  exists h' y, da_clear h x = Some (h', y) /\ post h (da_values x) h' y [] 0.
Proof.
  intros O A. unfold da_clear. destruct (free_ok _ _ _ _ O A) as (h1 & h2 & -> & E2 & O2 & R2 & I2). cbn [obind]. rewrite E2. cbn [obind].
  do 2 eexists. split; [reflexivity|]. pose proof limit_range. split; [exact O2|]. split; [repeat split; cbn; auto; lia|].
  split; [intros q Hq _; apply R2, Hq|]. split; [intros q Hq; right; apply I2, Hq|]. auto.
Qed.
Lemma removeAll_ok h x vs c : okh h -> arep h x vs c ->
  exists h' y, da_removeAll h x = Some (h', y) /\ post h (da_values x) h' y [] c.
Proof.
  intros O A. unfold da_removeAll. destruct (destroy_all_ok _ _ _ _ A) as (h1 & -> & K1 & R1 & B). cbn [obind].
  do 2 eexists. split; [reflexivity|]. pose proof A as (S & C & L & _). pose proof (zlen_nonneg vs).
  assert (okh h1) as O1 by (unfold okh; rewrite K1; exact O). split; [exact O1|]. split; [|split; [|split]]; cbn [da_values].
  - repeat split; cbn; auto; try lia. destruct B as [B|[B1 B2]]; [auto|]. right. split; [exact B1|]. rewrite B2. do 2 f_equal. lia.
  - intros q Hq _. apply R1, Hq.
  - intros q Hq. rewrite K1 in Hq. destruct (Z.eq_dec q (da_values x)); auto.
  - auto.
Qed.
Lemma delete_ok h x vs c : okh h -> arep h x vs c ->
  exists h', da_delete h x = Some h' /\ okh h' /\ (forall q, q <> da_values x -> hget h' q = hget h q) /\
    (forall q, In q (keys h') -> In q (keys h) /\ q <> da_values x).
Proof.
  intros O A. unfold da_delete. destruct (free_ok _ _ _ _ O A) as (h1 & h2 & -> & E2 & O2 & R2 & I2). cbn [obind]. eauto.
Qed.

(* assignment from another array *)
Lemma assign_other_ok h x vs c o us d al : okh h -> good al -> arep h x vs c -> arep h o us d ->
  (da_values o = da_values x -> da_values x = 0) ->
  exists h' y, da_assign w esz h x false o al = Some (h', y) /\ post h (da_values x) h' y us d.
Proof.
  intros O Ga A (S & C & L & B) N. unfold da_assign. destruct (free_ok _ _ _ _ O A) as (h1 & h2 & -> & E2 & O2 & R2 & I2). cbn [obind]. rewrite E2. cbn [obind].
  cbn [da_size da_capacity]. rewrite S, C. pose proof (zlen_nonneg us).
  assert (da_values o = 0 /\ d = 0 \/ da_values o <> 0 /\ hget h2 (da_values o) = Some (map Some us ++ repeat None (Z.to_nat (d - zlen us)))) as B'.
  { destruct B as [B|[B1 B2]]; [auto|]. right. split; [exact B1|]. rewrite R2; [exact B2|]. intro E. specialize (N E). rewrite N in E. contradiction. }
  destruct (copy_ok h2 o us d al O2 Ga) as (h3 & y & E3 & (P1 & P2 & P3 & P4 & P5)). { repeat split; auto; lia. }
  unfold da_copy in E3. rewrite S, C in E3. destruct (d_allocate w esz h2 al d) as [[h4 p]|] eqn:E4; [|discriminate]. cbn [obind] in E3 |- *.
  cbn [da_size da_capacity da_values].
  destruct (copy_loop (Z.to_nat (zlen us)) h4 p (da_values o) 0) as [h5|] eqn:E5; [|discriminate]. cbn [obind] in E3 |- *.
  injection E3 as -> <-. do 2 eexists. split; [reflexivity|].
  split; [exact P1|]. split; [exact P2|]. cbn [da_values] in *.
  assert (forall q, In q (keys h) -> q <> da_values x -> In q (keys h2)) as I2'.
  { intros q Hq Hx. destruct (In_hget _ _ Hq) as [b Hb]. rewrite <- R2 in Hb by exact Hx. exact (hget_In _ _ _ Hb). }
  split; [|split].
  - intros q Hq Hi. rewrite P3, R2; auto. intros ->. destruct O. contradiction.
  - intros q Hq. destruct (P4 q Hq) as [A1|[A1 A2]]; [auto|]. right. apply I2, A1.
  - destruct P5 as [P5|[P5|P5]]; [auto|auto|]. destruct (Z.eq_dec p (da_values x)) as [|Nx]; [auto|]. right. right. intro Hi. apply P5, I2'; auto.
Qed.
(* a = a for an array without elements *)
Lemma assign_self_ok h x c al : okh h -> good al -> arep h x [] c ->
  exists h' y, da_assign w esz h x true x al = Some (h', y) /\ post h (da_values x) h' y [] c.
Proof.
  intros O Ga A. unfold da_assign. destruct (free_ok _ _ _ _ O A) as (h1 & h2 & -> & E2 & O2 & R2 & I2). cbn [obind]. rewrite E2. cbn [obind].
  cbn [da_size da_capacity]. pose proof A as (S & C & L & _). rewrite S, C.
  destruct (alloc_ok h2 al c O2) as (h3 & p & -> & P0 & Pn & K3 & G3 & R3); [unfold zlen in L; cbn in L; lia|exact Ga|].
  cbn [obind zlen length Z.of_nat Z.to_nat copy_loop]. do 2 eexists. split; [reflexivity|]. destruct O2 as [D2 Z2].
  split; [|split; [|split; [|split]]]; cbn [da_values].
  - unfold okh. rewrite K3. split; [constructor; assumption|]. intros [|]; auto.
  - unfold arep. cbn [da_size da_capacity da_values]. split; [reflexivity|]. split; [reflexivity|]. split; [exact L|]. right. split; [exact P0|].
    rewrite G3. cbn. do 2 f_equal. lia.
  - intros q Hq Hi. assert (In q (keys h2)) as Iq. { destruct (In_hget _ _ Hi) as [b Hb]. rewrite <- R2 in Hb by exact Hq. exact (hget_In _ _ _ Hb). }
    rewrite R3, R2; auto. intros ->. contradiction.
  - intros q Hq. rewrite K3 in Hq. destruct Hq as [<-|Hq]; [auto|]. right. apply I2, Hq.
  - right. destruct (Z.eq_dec p (da_values x)) as [->|Nx]; [auto|]. right. intro Hi. apply Pn.
    destruct (In_hget _ _ Hi) as [b Hb]. rewrite <- R2 in Hb by exact Nx. exact (hget_In _ _ _ Hb).
Qed.

Lemma reserve_ok h x vs c n al : okh h -> good al -> arep h x vs c -> 0 <= n -> zlen vs + n <= limit ->
  exists h' y, da_reserve w esz h x n al = Some (h', y) /\ post h (da_values x) h' y vs (Z.max c (zlen vs + n)).
Proof.
  intros O Ga A Hn Hl. pose proof A as (S & C & L & B). pose proof (zlen_nonneg vs). pose proof limit_range as (_ & L2 & _).
  unfold da_reserve. rewrite S, C. unfold wrap. rewrite !Z.mod_small by lia.
  destruct (n <=? c - zlen vs) eqn:E.
  - do 2 eexists. split; [reflexivity|]. replace (Z.max c (zlen vs + n)) with c by lia. apply post_same; auto.
  - replace (Z.max c (zlen vs + n)) with (zlen vs + n) by lia. destruct (relocate_ok h x vs c (zlen vs + n) al O Ga A) as (h' & y & E1 & P & _); [lia|]. eauto.
Qed.

Lemma grown_cap n : 0 <= n -> grown n <= limit ->
  (let m := wrap w (n + wrap w (n + 1) / 2) in if m =? 0 then 1 else m) = grown n.
Proof.
  intros Hn Hg. unfold grown in *. pose proof limit_range as (_ & L2 & _). cbv zeta. unfold wrap.
  destruct (Z.eq_dec n 0) as [->|]; [change (0 + 1) with 1; rewrite (Z.mod_small 1) by lia; change (1 / 2) with 0; rewrite Z.mod_small by lia; reflexivity|].
  assert (0 <= (n + 1) / 2) by (apply Z.div_pos; lia). assert (1 <= (n + 1) / 2) by (apply Z.div_le_lower_bound; lia).
  rewrite (Z.mod_small (n + 1)) by lia. rewrite Z.mod_small by lia.
  destruct (n + (n + 1) / 2 =? 0) eqn:E; lia.
Qed.

Lemma append_ok h x vs c r v al : okh h -> good al -> arep h x vs c -> source_read h r = Some v ->
  (match r with Element q i => q = da_values x -> zlen vs < c | Outside _ => True end) ->
  (zlen vs < c \/ grown (zlen vs) <= limit) ->
  exists h' y, da_append w esz h x r al = Some (h', y) /\
    post h (da_values x) h' y (vs ++ [v]) (if zlen vs <? c then c else grown (zlen vs)).
Proof.
  intros O Ga A Hr Hs Hg. pose proof A as (S & C & L & B). pose proof (zlen_nonneg vs). pose proof limit_range as (L1 & L2 & L3).
  unfold da_append. rewrite S, C.
  set (c' := if zlen vs <? c then c else grown (zlen vs)).
  assert (exists h1 y, (if c =? zlen vs then let n := wrap w (zlen vs + wrap w (zlen vs + 1) / 2) in
             let n := if n =? 0 then 1 else n in da_relocate w esz h x n al else Some (h, x)) = Some (h1, y) /\
           post h (da_values x) h1 y vs c' /\ zlen vs < c' /\ source_read h1 r = Some v) as (h1 & y & E & P & Hc & Hr1).
  { destruct (c =? zlen vs) eqn:Ec.
    - assert ((zlen vs <? c) = false) as Q by lia. unfold c'. rewrite Q. cbv zeta. pose proof (grown_cap (zlen vs) ltac:(lia) ltac:(lia)) as Gc.
      cbv zeta in Gc. rewrite Gc.
      assert (zlen vs < grown (zlen vs)) as Hlt.
      { unfold grown. destruct (Z.eq_dec (zlen vs) 0) as [->|]; [reflexivity|]. assert (1 <= (zlen vs + 1) / 2) by (apply Z.div_le_lower_bound; lia). lia. }
      destruct (relocate_ok h x vs c (grown (zlen vs)) al O Ga A) as (h1 & y & E & P & _); [lia|].
      exists h1, y. split; [exact E|]. split; [exact P|]. split; [exact Hlt|]. destruct r as [u|q i]; [exact Hr|].
      cbn [source_read] in *. unfold d_read in *. destruct P as (_ & _ & P3 & _). destruct (hget h q) as [b|] eqn:Eq; [|discriminate].
      rewrite P3, Eq; [exact Hr| |exact (hget_In _ _ _ Eq)]. intros Eqx. specialize (Hs Eqx). lia.
    - assert ((zlen vs <? c) = true) as Q by lia. unfold c'. rewrite Q. exists h, x. split; [reflexivity|].
      split; [apply post_same; auto|]. split; [lia|exact Hr]. }
  cbv zeta in E. rewrite E. cbn [obind]. rewrite Hr1. cbn [obind]. clear E.
  destruct P as (O1 & (S1 & C1 & Lc & B1) & P3 & P4 & P5). rewrite S1, C1.
  destruct B1 as [[B1 B2]|[B1 B2]]; [lia|].
  destruct (construct_ok h1 (da_values y) (map Some vs) (repeat None (Z.to_nat (c' - zlen (vs ++ [v])))) v (zlen vs)) as (h2 & -> & K2 & G2 & R2).
  { rewrite B2. do 2 f_equal. rewrite zlen_app. change (zlen [v]) with 1.
    replace (Z.to_nat (c' - zlen vs)) with (Datatypes.S (Z.to_nat (c' - (zlen vs + 1)))) by lia. reflexivity. }
  { rewrite zlen_map. reflexivity. }
  cbn [obind]. do 2 eexists. split; [reflexivity|].
  split; [unfold okh; rewrite K2; exact O1|]. split; [|cbn [da_values]; split; [|split]].
  - unfold arep. cbn [da_size da_capacity da_values]. rewrite zlen_app. change (zlen [v]) with 1. unfold wrap. rewrite Z.mod_small by lia.
    split; [reflexivity|]. split; [reflexivity|]. split; [lia|]. right. split; [exact B1|]. rewrite G2, map_app, <- app_assoc.
    rewrite zlen_app. reflexivity.
  - intros q Hq Hi. assert (q <> da_values y) as Ny.
    { intros ->. destruct P5 as [Q|[Q|Q]]; contradiction. }
    rewrite R2 by exact Ny. apply P3; assumption.
  - intros q Hq. rewrite K2 in Hq. exact (P4 q Hq).
  - exact P5.
Qed.

(* an array with elements cannot be assigned to itself *)
Lemma assign_self_bad h x v vs c al : okh h -> good al -> arep h x (v :: vs) c -> da_assign w esz h x true x al = None.
Proof.
  intros O Ga A. unfold da_assign. destruct (free_ok _ _ _ _ O A) as (h1 & h2 & -> & E2 & O2 & R2 & I2). cbn [obind]. rewrite E2. cbn [obind].
  cbn [da_size da_capacity]. pose proof A as (S & C & L & _). rewrite S, C. pose proof (zlen_nonneg (v :: vs)).
  destruct (alloc_ok h2 al c O2) as (h3 & p & -> & P0 & Pn & K3 & G3 & R3); [lia|exact Ga|].
  cbn [obind da_values]. unfold zlen. rewrite Nat2Z.id. cbn [length copy_loop]. unfold d_read. rewrite G3. cbn [obind].
  rewrite (znth_repeat None (Z.to_nat c)); [reflexivity|]. rewrite zlen_cons in *. pose proof (zlen_nonneg vs). lia.
Qed.
(* appending an element of the array itself when there is no capacity left *)
Lemma append_own_bad h x vs c i al : okh h -> good al -> arep h x vs c -> 0 < c -> zlen vs = c -> grown c <= limit ->
  da_append w esz h x (Element (da_values x) i) al = None.
Proof.
  intros O Ga A Hc Hf Hg. unfold da_append. pose proof A as (S & C & L & B). rewrite S, C, Hf, Z.eqb_refl. cbv zeta.
  pose proof (grown_cap c ltac:(lia) ltac:(lia)) as Gc. cbv zeta in Gc. rewrite Gc.
  assert (1 <= (c + 1) / 2) by (apply Z.div_le_lower_bound; lia).
  destruct (relocate_ok h x vs c (grown c) al O Ga A) as (h1 & y & -> & (_ & _ & _ & P4 & _) & N); [unfold grown in *; lia|].
  cbn [obind]. cbn [source_read]. unfold d_read. destruct (hget h1 (da_values x)) as [b|] eqn:E; [|reflexivity]. exfalso.
  destruct (P4 _ (hget_In _ _ _ E)) as [Q|[_ Q]]; [|congruence]. apply N. rewrite <- Q.
  destruct B as [[_ B]|[_ B]]; [lia|]. exact (hget_In _ _ _ B).
Qed.

Lemma removeBack_ok h x vs c : okh h -> arep h x vs c -> vs <> [] ->
  exists h' y, da_removeBack w h x = Some (h', y) /\ post h (da_values x) h' y (removelast vs) c.
Proof.
  intros O A N. pose proof A as (S & C & L & B). pose proof limit_range as (L1 & L2 & L3).
  destruct (exists_last N) as (us & v & ->). rewrite removelast_last. rewrite zlen_app in *. change (zlen [v]) with 1 in *.
  pose proof (zlen_nonneg us). unfold da_removeBack. rewrite S. unfold wrap. rewrite Z.mod_small by lia.
  destruct B as [[B1 B2]|[B1 B2]]; [lia|]. rewrite map_app, <- app_assoc in B2. cbn [map app] in B2.
  destruct (destroy_ok h (da_values x) _ _ v (zlen us + 1 - 1) B2) as (h1 & -> & C1). { rewrite zlen_map. lia. }
  cbn [obind]. do 2 eexists. split; [reflexivity|]. pose proof C1 as (K & G & R).
  apply (post_chg h h1 x _ us c _ O (eq_refl : da_values (mkDA _ _ (da_values x)) = _) C1). repeat split; cbn; auto; try lia.
  right. split; [exact B1|]. rewrite G. do 2 f_equal. replace (Z.to_nat (c - zlen us)) with (Datatypes.S (Z.to_nat (c - (zlen us + 1)))) by lia. reflexivity.
Qed.

Lemma nth_split_z vs i v : 0 <= i -> nth_error vs (Z.to_nat i) = Some v -> exists a b, vs = a ++ v :: b /\ zlen a = i.
Proof.
  intros H0 H. destruct (nth_error_split _ _ H) as (a & b & -> & E). exists a, b. split; [reflexivity|]. unfold zlen. lia.
Qed.
Lemma get_ok h x vs c i v : arep h x vs c -> 0 <= i -> nth_error vs (Z.to_nat i) = Some v -> d_read h (da_values x) i = Some v.
Proof.
  intros (S & C & L & B) Hi H. destruct (nth_split_z _ _ _ Hi H) as (a & b & -> & E). rewrite zlen_app, zlen_cons in *.
  pose proof (zlen_nonneg a). pose proof (zlen_nonneg b). destruct B as [[B1 B2]|[B1 B2]]; [lia|].
  rewrite map_app, <- app_assoc in B2. cbn [map app] in B2. apply (read_ok _ _ _ _ _ _ B2). rewrite zlen_map. lia.
Qed.
Lemma replace_nth_mid (a : list V) v u b : replace_nth (length a) v (a ++ u :: b) = a ++ v :: b.
Proof. induction a as [|z a IH]; [reflexivity|]. cbn. rewrite IH. reflexivity. Qed.
Lemma set_ok h x vs c i v : okh h -> arep h x vs c -> 0 <= i < zlen vs ->
  exists h', da_set h x i v = Some h' /\ post h (da_values x) h' x (replace_nth (Z.to_nat i) v vs) c.
Proof.
  intros O A Hi. pose proof A as (S & C & L & B).
  destruct (znth_in_range vs i Hi) as [u Hu]. unfold znth in Hu. destruct (i <? 0) eqn:E0; [lia|].
  destruct (nth_split_z _ _ _ (proj1 Hi) Hu) as (a & b & -> & E). rewrite zlen_app, zlen_cons in *.
  pose proof (zlen_nonneg a). pose proof (zlen_nonneg b). destruct B as [[B1 B2]|[B1 B2]]; [lia|].
  rewrite map_app, <- app_assoc in B2. cbn [map app] in B2.
  destruct (assign_ok _ _ _ _ v _ i B2) as (h' & E1 & C1). { rewrite zlen_map. lia. }
  exists h'. unfold da_set. split; [exact E1|]. replace (Z.to_nat i) with (length a) by (unfold zlen in E; lia). rewrite replace_nth_mid.
  apply (post_chg h h' x x _ c _ O eq_refl C1). pose proof C1 as (_ & G & _). unfold arep. rewrite zlen_app, zlen_cons.
  repeat split; auto; try lia. right. split; [exact B1|]. rewrite G, map_app, <- app_assoc. reflexivity.
Qed.

Lemma find_loop_ok h x v : forall us a fuel, (length us < fuel)%nat -> forall c, arep h x (a ++ us) c ->
  da_find_loop w eqb fuel h x v (zlen a) = Some (zlen a + index_of eqb v us).
Proof.
  induction us as [|u us IH]; intros a fuel Hf c A; (destruct fuel as [|f]; [cbn in Hf; lia|]); cbn [da_find_loop index_of];
    pose proof A as (S & C & L & B).
  - rewrite S, app_nil_r, Z.eqb_refl, Z.add_0_r. reflexivity.
  - rewrite zlen_app, zlen_cons in *. pose proof (zlen_nonneg us). pose proof (zlen_nonneg a). pose proof limit_range as (_ & L2 & _).
    destruct (zlen a =? da_size x) eqn:E; [lia|].
    rewrite (get_ok h x _ c (zlen a) u A); [|lia|unfold zlen; rewrite Nat2Z.id, nth_error_app2, Nat.sub_diag by lia; reflexivity].
    cbn [obind]. destruct (eqb u v); [f_equal; lia|]. unfold wrap. rewrite Z.mod_small by lia.
    specialize (IH (a ++ [u]) f ltac:(cbn in Hf; lia) c). rewrite <- app_assoc in IH. specialize (IH A). rewrite zlen_app in IH.
    change (zlen [u]) with 1 in IH. rewrite IH. f_equal. lia.
Qed.
Lemma iterate_loop_ok h x : forall us a fuel, (length us < fuel)%nat -> forall c, arep h x (a ++ us) c ->
  da_iterate_loop w fuel h x (zlen a) = Some us.
Proof.
  induction us as [|u us IH]; intros a fuel Hf c A; (destruct fuel as [|f]; [cbn in Hf; lia|]); cbn [da_iterate_loop];
    pose proof A as (S & C & L & B).
  - rewrite S, app_nil_r, Z.eqb_refl. reflexivity.
  - rewrite zlen_app, zlen_cons in *. pose proof (zlen_nonneg us). pose proof (zlen_nonneg a). pose proof limit_range as (_ & L2 & _).
    destruct (zlen a =? da_size x) eqn:E; [lia|].
    rewrite (get_ok h x _ c (zlen a) u A); [|lia|unfold zlen; rewrite Nat2Z.id, nth_error_app2, Nat.sub_diag by lia; reflexivity].
    cbn [obind]. unfold wrap. rewrite Z.mod_small by lia.
    specialize (IH (a ++ [u]) f ltac:(cbn in Hf; lia) c). rewrite <- app_assoc in IH. specialize (IH A). rewrite zlen_app in IH.
    change (zlen [u]) with 1 in IH. rewrite IH. reflexivity.
Qed.

(* ---- all variables ---- *)
Definition ptr (o : option darray) : Z := match o with Some x => da_values x | None => 0 end.
Definition orep h (o : option darray) (m : option (list V * Z)) : Prop :=
  match o, m with
  | Some x, Some (vs, c) => arep h x vs c
  | None, None => True
  | _, _ => False
  end.
Definition wrep (s : world) (m : arrays V) : Prop :=
  okh (w_heap s) /\ (forall x, orep (w_heap s) (w_vars s x) (m x)) /\
  (forall x y, x <> y -> ptr (w_vars s x) = ptr (w_vars s y) -> ptr (w_vars s x) = 0) /\
  (forall p, In p (keys (w_heap s)) -> exists x, ptr (w_vars s x) = p).

Lemma arep_ptr h x vs c : arep h x vs c -> da_values x = 0 \/ In (da_values x) (keys h).
Proof. intros (_ & _ & _ & [[B _]|[_ B]]); [auto|]. right. exact (hget_In _ _ _ B). Qed.
Lemma orep_ptr h o m : orep h o m -> ptr o = 0 \/ In (ptr o) (keys h).
Proof. destruct o as [x|]; [|auto]. destruct m as [[vs c]|]; [|intros []]. apply arep_ptr. Qed.

Lemma wrep_update s m x o' m' h' t : wrep s m -> okh h' -> orep h' o' m' ->
  (forall q, q <> ptr (w_vars s x) -> In q (keys (w_heap s)) -> hget h' q = hget (w_heap s) q) ->
  (forall q, In q (keys h') -> q = ptr o' \/ (In q (keys (w_heap s)) /\ q <> ptr (w_vars s x))) ->
  (ptr o' = 0 \/ ptr o' = ptr (w_vars s x) \/ ~ In (ptr o') (keys (w_heap s))) ->
  wrep (mkW h' (set_var (w_vars s) x o') t) (put m x m').
Proof.
  intros (O & A & N & K) O' A' F I P. pose proof O as [_ Z0]. unfold wrep, set_var, put. cbn [w_heap w_vars].
  split; [exact O'|]. split; [|split].
  - intro y. destruct (y =? x) eqn:E; [exact A'|]. specialize (A y). unfold orep in *.
    destruct (w_vars s y) as [a|] eqn:Ey; [|exact A]. destruct (m y) as [[vs c]|]; [|exact A].
    destruct A as (S & C & L & B). split; [exact S|]. split; [exact C|]. split; [exact L|].
    destruct B as [B|[B1 B2]]; [auto|]. right. split; [exact B1|]. rewrite F; [exact B2| |exact (hget_In _ _ _ B2)].
    intro Q. apply B1. specialize (N y x ltac:(lia)). rewrite Ey in N. cbn [ptr] in N. apply N. exact Q.
  - intros y z Hyz Q. assert (forall u, u <> x -> ptr (w_vars s u) = ptr o' -> ptr o' = 0) as X.
    { intros u Hu Qu. destruct P as [P|[P|P]]; [exact P| |].
      - rewrite P in *. rewrite <- Qu. apply (N u x Hu). exact Qu.
      - pose proof (orep_ptr _ _ _ (A u)) as [B|B]; [congruence|]. rewrite Qu in B. contradiction. }
    destruct (y =? x) eqn:Ey, (z =? x) eqn:Ez.
    + lia.
    + apply (X z); [lia|auto].
    + rewrite Q. apply (X y); [lia|auto].
    + exact (N y z Hyz Q).
  - intros p Hp. destruct (I p Hp) as [->|[I1 I2]]; [exists x; rewrite Z.eqb_refl; reflexivity|].
    destruct (K p I1) as [y Hy]. exists y. destruct (y =? x) eqn:Ey; [|exact Hy].
    exfalso. apply I2. rewrite <- Hy. do 2 f_equal. lia.
Qed.

Lemma wrep_post s m x po h' a' vs c t : wrep s m -> po = ptr (w_vars s x) -> post (w_heap s) po h' a' vs c ->
  wrep (mkW h' (set_var (w_vars s) x (Some a')) t) (put m x (Some (vs, c))).
Proof.
  intros W -> (O & A & F & I & P). apply wrep_update; auto.
Qed.

Lemma size_zlen vs : size vs = zlen vs.
Proof. reflexivity. Qed.

Lemma wrep_time s m t : wrep s m -> wrep (mkW (w_heap s) (w_vars s) t) m.
Proof. exact (fun H => H). Qed.

Lemma on_ok s m x a vs c h' f vs' c' y : wrep s m -> w_vars s x = Some a -> m x = Some (vs, c) ->
  f a = Some (h', y) -> post (w_heap s) (da_values a) h' y vs' c' ->
  exists s', on s x f = Some (s', RVoid) /\ wrep s' (put m x (Some (vs', c'))).
Proof.
  intros W Ea Em Ef P. unfold on. rewrite Ea. cbn [obind]. rewrite Ef. cbn [obind]. eexists. split; [reflexivity|].
  apply (wrep_post s m x (da_values a)); auto. rewrite Ea. reflexivity.
Qed.
Lemma create_ok s m x h' f vs' c' y : wrep s m -> m x = None ->
  f = Some (h', y) -> post (w_heap s) 0 h' y vs' c' ->
  exists s', create s x f = Some (s', RVoid) /\ wrep s' (put m x (Some (vs', c'))).
Proof.
  intros W Em Ef P. unfold create. pose proof W as (_ & A & _). specialize (A x). rewrite Em in A.
  destruct (w_vars s x) as [a|] eqn:Ea; [destruct A|]. rewrite Ef. cbn [obind]. eexists. split; [reflexivity|].
  apply (wrep_post s m x 0); auto. rewrite Ea. reflexivity.
Qed.
Lemma var_ok s m x vs c : wrep s m -> m x = Some (vs, c) -> exists a, w_vars s x = Some a /\ arep (w_heap s) a vs c.
Proof.
  intros (_ & A & _) E. specialize (A x). rewrite E in A. destruct (w_vars s x) as [a|]; [|destruct A]. exists a. split; [reflexivity|exact A].
Qed.
Lemma ask_ok s m x a f r : wrep s m -> w_vars s x = Some a -> f a = Some r ->
  exists s', ask s x f = Some (s', r) /\ wrep s' m.
Proof. intros W E F. unfold ask. rewrite E. cbn [obind]. rewrite F. cbn [obind]. eexists. split; [reflexivity|apply wrep_time, W]. Qed.

Lemma call_ok s m c m' r : wrep s m -> arr_call eqb limit m c = Some (m', r) -> supported m c ->
  exists s', da_call s c = Some (s', r) /\ wrep s' m'.
Proof.
  intros W E U. assert (good (alloc (w_time s))) as Ga by (intro; apply Halloc). pose proof W as (O & _).
  destruct c as [x|x n|x n v|x vs|x y|x|x y|x n|x|x|x v|x y i|x|x i v|x i|x|x|x|x|x|x v|x]; cbn [arr_call da_call] in *.
  - destruct (m x) eqn:Em; [discriminate|]. injection E as <- <-. apply (create_ok s m x _ _ _ _ _ W Em eq_refl). apply new_ok, O.
  - destruct (m x) eqn:Em; [discriminate|]. destruct ((0 <=? n) && (n <=? limit))%bool eqn:L; [|discriminate]. injection E as <- <-.
    destruct (new_capacity_ok (w_heap s) n _ O Ga ltac:(lia)) as (h' & a & E1 & P). exact (create_ok s m x _ _ _ _ _ W Em E1 P).
  - destruct (m x) eqn:Em; [discriminate|]. destruct ((0 <=? n) && (n <=? limit))%bool eqn:L; [|discriminate]. injection E as <- <-.
    destruct (new_fill_ok (w_heap s) n v _ O Ga ltac:(lia)) as (h' & a & E1 & P). exact (create_ok s m x _ _ _ _ _ W Em E1 P).
  - destruct (m x) eqn:Em; [discriminate|]. destruct (size vs <=? limit)%bool eqn:L; [|discriminate]. injection E as <- <-.
    rewrite size_zlen in *. destruct (new_list_ok (w_heap s) vs _ O Ga ltac:(lia)) as (h' & a & E1 & P). exact (create_ok s m x _ _ _ _ _ W Em E1 P).
  - destruct (m x) eqn:Em; [discriminate|]. destruct (m y) as [[vs d]|] eqn:Ey; [|discriminate]. injection E as <- <-.
    destruct (var_ok _ _ _ _ _ W Ey) as (b & Eb & Ab). rewrite Eb. cbn [obind].
    destruct (copy_ok (w_heap s) b vs d _ O Ga Ab) as (h' & a & E1 & P). exact (create_ok s m x _ _ _ _ _ W Em E1 P).
  - destruct (m x) as [[vs d]|] eqn:Em; [|discriminate]. injection E as <- <-. destruct (var_ok _ _ _ _ _ W Em) as (b & Eb & Ab). rewrite Eb. cbn [obind].
    destruct (delete_ok _ _ _ _ O Ab) as (h' & -> & O' & R & I). cbn [obind]. eexists. split; [reflexivity|].
    apply wrep_update; auto; rewrite ?Eb; cbn [ptr orep]; auto.
  - destruct (m x) as [[vs d]|] eqn:Em; [|discriminate]. destruct (m y) as [[us e]|] eqn:Ey; [|discriminate]. injection E as <- <-.
    destruct (var_ok _ _ _ _ _ W Em) as (a & Ea & Aa). destruct (var_ok _ _ _ _ _ W Ey) as (b & Eb & Ab).
    destruct (x =? y) eqn:Exy.
    + assert (x = y) as <- by lia. rewrite Ea in Eb. injection Eb as <-. rewrite Em in Ey. injection Ey as <- <-.
      destruct U as [U|[c U]]; [congruence|]. rewrite Em in U. injection U as -> ->.
      destruct (assign_self_ok (w_heap s) a c _ O Ga Aa) as (h' & z & E1 & P).
      eapply (on_ok s m x a); eauto. cbv beta. rewrite Ea. exact E1.
    + destruct (assign_other_ok (w_heap s) a vs d b us e _ O Ga Aa Ab) as (h' & z & E1 & P).
      { intro Q. destruct W as (_ & _ & N & _). specialize (N x y ltac:(lia)). rewrite Ea, Eb in N. cbn [ptr] in N. auto. }
      eapply (on_ok s m x a); eauto. cbv beta. rewrite Eb. exact E1.
  - destruct (m x) as [[vs d]|] eqn:Em; [|discriminate]. rewrite size_zlen in E. destruct ((0 <=? n) && (zlen vs + n <=? limit))%bool eqn:L; [|discriminate].
    injection E as <- <-. destruct (var_ok _ _ _ _ _ W Em) as (a & Ea & Aa).
    destruct (reserve_ok (w_heap s) a vs d n _ O Ga Aa ltac:(lia) ltac:(lia)) as (h' & z & E1 & P). eapply (on_ok s m x a); eauto.
  - destruct (m x) as [[vs d]|] eqn:Em; [|discriminate]. injection E as <- <-. destruct (var_ok _ _ _ _ _ W Em) as (a & Ea & Aa).
    destruct (clear_ok (w_heap s) a vs d O Aa) as (h' & z & E1 & P). eapply (on_ok s m x a); eauto.
  - destruct (m x) as [[vs d]|] eqn:Em; [|discriminate]. injection E as <- <-. destruct (var_ok _ _ _ _ _ W Em) as (a & Ea & Aa).
    destruct (removeAll_ok (w_heap s) a vs d O Aa) as (h' & z & E1 & P). eapply (on_ok s m x a); eauto.
  - destruct (m x) as [[vs d]|] eqn:Em; [|discriminate]. destruct (var_ok _ _ _ _ _ W Em) as (a & Ea & Aa).
    assert (m' = put m x (Some (vs ++ [v], if zlen vs <? d then d else grown (zlen vs))) /\ r = RVoid /\ (zlen vs < d \/ grown (zlen vs) <= limit)) as (-> & -> & L).
    { unfold added in E. rewrite size_zlen in E. destruct (zlen vs <? d) eqn:Q; [injection E as <- <-; repeat split; auto; lia|].
      destruct (grown (zlen vs) <=? limit) eqn:Q1; [|discriminate]. injection E as <- <-. repeat split; auto. lia. }
    destruct (append_ok (w_heap s) a vs d (Outside v) v _ O Ga Aa eq_refl I L) as (h' & z & E1 & P). eapply (on_ok s m x a); eauto.
  - destruct (m x) as [[vs d]|] eqn:Em; [|discriminate]. destruct (m y) as [[us e]|] eqn:Ey; [|discriminate].
    destruct (0 <=? i) eqn:Hi; [|discriminate]. destruct (nth_error us (Z.to_nat i)) as [v|] eqn:En; [|discriminate].
    destruct (var_ok _ _ _ _ _ W Em) as (a & Ea & Aa). destruct (var_ok _ _ _ _ _ W Ey) as (b & Eb & Ab).
    assert (m' = put m x (Some (vs ++ [v], if zlen vs <? d then d else grown (zlen vs))) /\ r = RVoid /\ (zlen vs < d \/ grown (zlen vs) <= limit)) as (-> & -> & L).
    { unfold added in E. rewrite size_zlen in E. destruct (zlen vs <? d) eqn:Q; [injection E as <- <-; repeat split; auto; lia|].
      destruct (grown (zlen vs) <=? limit) eqn:Q1; [|discriminate]. injection E as <- <-. repeat split; auto. lia. }
    destruct (append_ok (w_heap s) a vs d (Element (da_values b) i) v (alloc (w_time s)) O Ga Aa) as (h' & z & E1 & P).
    { cbn [source_read]. apply (get_ok _ _ _ _ _ _ Ab); [lia|exact En]. }
    { intro Q. destruct U as [U|(ws & f & U1 & U2)].
      - exfalso. destruct W as (_ & _ & N & _). specialize (N x y U). rewrite Ea, Eb in N. cbn [ptr] in N. specialize (N (eq_sym Q)).
        destruct Ab as (S & C & Lb & [[B1 B2]|[B1 B2]]); [|congruence]. assert (us = []) as -> by (apply zlen_0_nil; pose proof (zlen_nonneg us); lia).
        destruct (Z.to_nat i); discriminate.
      - rewrite Em in U1. injection U1 as <- <-. exact U2. }
    { exact L. }
    eapply (on_ok s m x a); eauto. cbv beta. rewrite Eb. exact E1.
  - destruct (m x) as [[[|v vs] d]|] eqn:Em; try discriminate. injection E as <- <-. destruct (var_ok _ _ _ _ _ W Em) as (a & Ea & Aa).
    destruct (removeBack_ok (w_heap s) a (v :: vs) d O Aa ltac:(discriminate)) as (h' & z & E1 & P). eapply (on_ok s m x a); eauto.
  - destruct (m x) as [[vs d]|] eqn:Em; [|discriminate]. rewrite size_zlen in E. destruct ((0 <=? i) && (i <? zlen vs))%bool eqn:L; [|discriminate].
    injection E as <- <-. destruct (var_ok _ _ _ _ _ W Em) as (a & Ea & Aa).
    destruct (set_ok (w_heap s) a vs d i v O Aa ltac:(lia)) as (h' & E1 & P). eapply (on_ok s m x a); eauto. cbv beta. rewrite E1. reflexivity.
  - destruct (m x) as [[vs d]|] eqn:Em; [|discriminate]. destruct (0 <=? i) eqn:Hi; [|discriminate].
    destruct (nth_error vs (Z.to_nat i)) as [v|] eqn:En; [|discriminate]. injection E as <- <-. destruct (var_ok _ _ _ _ _ W Em) as (a & Ea & Aa).
    eapply (ask_ok s m x a); eauto. cbv beta. unfold da_get. rewrite (get_ok (w_heap s) a vs d i v Aa ltac:(lia) En). reflexivity.
  - destruct (m x) as [[[|v vs] d]|] eqn:Em; try discriminate. injection E as <- <-. destruct (var_ok _ _ _ _ _ W Em) as (a & Ea & Aa).
    eapply (ask_ok s m x a); eauto. cbv beta. unfold da_getFront. rewrite (get_ok _ _ _ _ 0 v Aa ltac:(lia) eq_refl). reflexivity.
  - destruct (m x) as [[[|v vs] d]|] eqn:Em; try discriminate. injection E as <- <-. destruct (var_ok _ _ _ _ _ W Em) as (a & Ea & Aa).
    eapply (ask_ok s m x a); eauto. cbv beta. unfold da_getBack. pose proof Aa as (S & C & L & _). rewrite S.
    pose proof limit_range as (_ & L2 & _). rewrite zlen_cons in *. pose proof (zlen_nonneg vs). unfold wrap. rewrite Z.mod_small by lia.
    rewrite (get_ok _ _ _ _ (1 + zlen vs - 1) (last vs v) Aa ltac:(lia)); [reflexivity|].
    replace (1 + zlen vs - 1) with (zlen vs) by lia. unfold zlen. rewrite Nat2Z.id. clear.
    destruct vs as [|u vs] using rev_ind; [reflexivity|]. rewrite last_last, app_length, Nat.add_comm.
    change (nth_error (v :: vs ++ [u]) (1 + length vs) = Some u). cbn. rewrite nth_error_app2, Nat.sub_diag by lia. reflexivity.
  - destruct (m x) as [[vs d]|] eqn:Em; [|discriminate]. injection E as <- <-. destruct (var_ok _ _ _ _ _ W Em) as (a & Ea & Aa).
    eapply (ask_ok s m x a); eauto. cbv beta. destruct Aa as (S & _). rewrite S. reflexivity.
  - destruct (m x) as [[vs d]|] eqn:Em; [|discriminate]. injection E as <- <-. destruct (var_ok _ _ _ _ _ W Em) as (a & Ea & Aa).
    eapply (ask_ok s m x a); eauto. cbv beta. destruct Aa as (_ & C & _). rewrite C. reflexivity.
  - destruct (m x) as [[vs d]|] eqn:Em; [|discriminate]. injection E as <- <-. destruct (var_ok _ _ _ _ _ W Em) as (a & Ea & Aa).
    eapply (ask_ok s m x a); eauto. cbv beta. destruct Aa as (S & _). unfold da_isEmpty. rewrite S. destruct vs; reflexivity.
  - destruct (m x) as [[vs d]|] eqn:Em; [|discriminate]. injection E as <- <-. destruct (var_ok _ _ _ _ _ W Em) as (a & Ea & Aa).
    eapply (ask_ok s m x a); eauto. cbv beta. unfold da_find. pose proof Aa as (S & _).
    pose proof (find_loop_ok (w_heap s) a v vs [] (Datatypes.S (Z.to_nat (da_size a))) ltac:(rewrite S; unfold zlen; lia) d Aa) as F.
    change (zlen (@nil V)) with 0 in F. rewrite F. reflexivity.
  - destruct (m x) as [[vs d]|] eqn:Em; [|discriminate]. injection E as <- <-. destruct (var_ok _ _ _ _ _ W Em) as (a & Ea & Aa).
    eapply (ask_ok s m x a); eauto. cbv beta. unfold da_iterate. pose proof Aa as (S & _).
    pose proof (iterate_loop_ok (w_heap s) a vs [] (Datatypes.S (Z.to_nat (da_size a))) ltac:(rewrite S; unfold zlen; lia) d Aa) as F.
    change (zlen (@nil V)) with 0 in F. rewrite F. reflexivity.
Qed.

Lemma calls_ok cs : forall s m m' rs, wrep s m -> arr_calls eqb limit m cs = Some (m', rs) -> all_supported eqb limit m cs ->
  exists s', da_calls s cs = Some (s', rs) /\ wrep s' m'.
Proof.
  induction cs as [|c cs IH]; intros s m m' rs W E U; cbn [arr_calls da_calls all_supported] in *.
  - injection E as <- <-. eauto.
  - destruct (arr_call eqb limit m c) as [[m1 r]|] eqn:E1; [|discriminate]. destruct U as [U1 U2].
    destruct (call_ok _ _ _ _ _ W E1 U1) as (s1 & -> & W1). cbn [obind].
    destruct (arr_calls eqb limit m1 cs) as [[m2 rs2]|] eqn:E2; [|discriminate]. injection E as <- <-.
    destruct (IH _ _ _ _ W1 E2 (U2 _ _ eq_refl)) as (s2 & -> & W2). cbn [obind]. eauto.
Qed.

Lemma wrep0 : wrep world0 (fun _ => None).
Proof. split; [split; [constructor|intros []]|]. split; [intro; exact I|]. split; [auto|]. intros p []. Qed.

End Proofs.
