(* The heap invariant of the TLSF allocator and the free lists. *)
From Verif Require Import Base BitLemmas BitsProofs TlsfModel TlsfArith.

Record blk := Blk { sz : Z; fr : bool; pf : bool }.
Definition heap := Z -> option blk.
Definition hset (H : heap) (b : Z) (o : option blk) : heap := fun x => if x =? b then o else H x.
Lemma hset_same H b o : hset H b o b = o.
Proof. unfold hset. rewrite Z.eqb_refl. reflexivity. Qed.
Lemma hset_other H b o x : x <> b -> hset H b o x = H x.
Proof. intro N. unfold hset. apply Z.eqb_neq in N. rewrite N. reflexivity. Qed.

Lemma wr_same s a v : mem (wr s a v) a = v.
Proof. unfold wr. cbn [mem]. rewrite Z.eqb_refl. reflexivity. Qed.
Lemma wr_other s a v x : x <> a -> mem (wr s a v) x = mem s x.
Proof. intro N. unfold wr. cbn [mem]. apply Z.eqb_neq in N. rewrite N. reflexivity. Qed.

Section Heap.
Variables K F null : Z.
Hypothesis HK : 1 <= K <= 5.
Hypothesis HF : K + 2 <= F < 31.

Record Geo (H : heap) : Prop := {
  g_range : forall b k, H b = Some k -> 0 < b /\ b + 8 + sz k <= 2 ^ 32;
  g_align : forall b k, H b = Some k -> b mod 4 = 0 /\ sz k mod 4 = 0;
  g_size : forall b k, H b = Some k -> (sz k = 0 /\ fr k = false) \/ 12 <= sz k < 2 ^ F;
  g_next : forall b k, H b = Some k -> 0 < sz k -> exists k', H (b + 4 + sz k) = Some k';
  g_disj : forall b b' k k', H b = Some k -> H b' = Some k' -> b <> b' -> b + 8 + sz k <= b' + 4 \/ b' + 8 + sz k' <= b + 4;
  g_null : forall b k, H b = Some k -> b + 8 + sz k <= null \/ null + 16 <= b + 4 }.

Definition listed (H : heap) (X : Z -> Prop) (b i j : Z) : Prop :=
  exists k, H b = Some k /\ fr k = true /\ ~ X b /\ mapping_insert K (sz k) = (i, j).

Fixpoint dll (m : Z -> Z) (p : Z) (l : list Z) : Prop :=
  match l with [] => True | b :: r => m (b + 12) = p /\ m (b + 8) = hd null r /\ dll m b r end.

Definition nonempty (l : list Z) : bool := match l with [] => false | _ => true end.

Record Inv (s : st) (H : heap) (X : Z -> Prop) (L : Z -> Z -> list Z) : Prop := {
  i_rep : forall b k, H b = Some k -> mem s (b + 4) = word (sz k) (fr k) (pf k);
  i_phys : forall b k, H b = Some k -> pf k = true -> exists p kp, H p = Some kp /\ 12 <= sz kp /\ p + 4 + sz kp = b /\ mem s b = p;
  i_in : forall i j b, 0 <= i < FLC K F -> 0 <= j < SLC K -> (In b (L i j) <-> listed H X b i j);
  i_nodup : forall i j, 0 <= i < FLC K F -> 0 <= j < SLC K -> NoDup (L i j);
  i_dll : forall i j, 0 <= i < FLC K F -> 0 <= j < SLC K -> heads s i j = hd null (L i j) /\ dll (mem s) null (L i j);
  i_sl : forall i, 0 <= i < FLC K F -> 0 <= slb s i < 2 ^ SLC K;
  i_slbit : forall i j, 0 <= i < FLC K F -> 0 <= j < SLC K -> Z.testbit (slb s i) j = nonempty (L i j);
  i_fl : 0 <= flb s < 2 ^ FLC K F;
  i_flbit : forall i, 0 <= i < FLC K F -> Z.testbit (flb s) i = negb (slb s i =? 0) }.

Lemma SLC_range : 1 <= SLC K <= 32.
Proof. unfold SLC. split; [pose proof (pow_pos K ltac:(lia)); lia|]. change 32 with (2 ^ 5). apply Z.pow_le_mono_r; lia. Qed.
Lemma FLC_range : 1 <= FLC K F <= 31.
Proof. unfold FLC. lia. Qed.

(* words of the free list links *)
Definition NodeW (H : heap) (a : Z) : Prop := exists y, (y = null \/ exists k, H y = Some k /\ fr k = true) /\ (a = y + 8 \/ a = y + 12).

Definition Node (H : heap) (y : Z) : Prop := y = null \/ exists k, H y = Some k /\ fr k = true.

Lemma free_size H : Geo H -> forall b k, H b = Some k -> fr k = true -> 12 <= sz k < 2 ^ F.
Proof. intros G b k E FR. destruct (g_size H G b k E) as [[_ A]|A]; [congruence|exact A]. Qed.

Lemma size_pos H : Geo H -> forall b k, H b = Some k -> 0 <= sz k < 2 ^ F.
Proof. intros G b k E. pose proof (pow_pos F ltac:(lia)). destruct (g_size H G b k E) as [[A _]|A]; lia. Qed.

(* a word inside the payload of one block or block_null is no header word of another *)
Lemma node_header H : Geo H -> forall y b k, Node H y -> H b = Some k -> y + 8 <> b + 4 /\ y + 12 <> b + 4.
Proof.
  intros G y b k [->|(ky & E & FR)] EB.
  - pose proof (g_null H G b k EB). pose proof (size_pos H G b k EB). lia.
  - destruct (Z.eq_dec y b) as [->|N]; [lia|]. pose proof (g_disj H G y b ky k E EB N). pose proof (free_size H G y ky E FR). pose proof (size_pos H G b k EB). lia.
Qed.
Lemma node_last H : Geo H -> forall y p kp, Node H y -> H p = Some kp -> 12 <= sz kp -> y + 8 <> p + 4 + sz kp /\ y + 12 <> p + 4 + sz kp.
Proof.
  intros G y p kp [->|(ky & E & FR)] EP SP.
  - pose proof (g_null H G p kp EP). lia.
  - destruct (Z.eq_dec y p) as [->|N]; [lia|]. pose proof (g_disj H G y p ky kp E EP N). pose proof (free_size H G y ky E FR). lia.
Qed.
Lemma node_sep H : Geo H -> forall y z, Node H y -> Node H z -> y <> z + 4.
Proof.
  intros G y z [->|(ky & E & FR)] [->|(kz & EZ & FZ)]; [lia| | |].
  - pose proof (g_null H G z kz EZ). pose proof (free_size H G z kz EZ FZ). lia.
  - pose proof (g_null H G y ky E). pose proof (free_size H G y ky E FR). lia.
  - intro Q. assert (N : y <> z) by lia. pose proof (g_disj H G y z ky kz E EZ N). pose proof (free_size H G y ky E FR). pose proof (free_size H G z kz EZ FZ). lia.
Qed.
Lemma node_null H : Geo H -> forall b k, H b = Some k -> fr k = true -> b <> null.
Proof. intros G b k E FR ->. pose proof (g_null H G null k E). pose proof (free_size H G null k E FR). lia. Qed.

Lemma listed_node H X b i j : listed H X b i j -> Node H b.
Proof. intros (k & E & FR & _). right. exists k. split; assumption. Qed.

(** *** Doubly linked lists *)
Lemma dll_congr m m' : forall l p, dll m p l -> (forall y, In y l -> m' (y + 8) = m (y + 8) /\ m' (y + 12) = m (y + 12)) -> dll m' p l.
Proof.
  induction l as [|b r IH]; intros p D C; [exact Logic.I|]. cbn [dll] in *. destruct D as (D1 & D2 & D3).
  destruct (C b (or_introl eq_refl)) as [C1 C2]. rewrite C1, C2. split; [exact D1|]. split; [exact D2|]. apply IH; [exact D3|].
  intros y Y. apply C. right. exact Y.
Qed.

Definition up (m : Z -> Z) (a v : Z) : Z -> Z := fun x => if x =? a then v else m x.
Lemma up_same m a v : up m a v a = v.
Proof. unfold up. rewrite Z.eqb_refl. reflexivity. Qed.
Lemma up_other m a v x : x <> a -> up m a v x = m x.
Proof. intro N. unfold up. apply Z.eqb_neq in N. rewrite N. reflexivity. Qed.

Lemma dll_insert m b l : dll m null l -> NoDup (b :: l) -> ~ In null (b :: l) -> (forall x y, In x (null :: b :: l) -> In y (null :: b :: l) -> x <> y + 4) ->
  dll (up (up (up m (b + 8) (hd null l)) (b + 12) null) (hd null l + 12) b) null (b :: l).
Proof.
  intros D N NN S. inversion N as [|? ? NB NL]; subst.
  assert (HL : In (hd null l) (null :: b :: l)) by (destruct l; cbn; tauto).
  assert (BN : b <> hd null l) by (destruct l as [|c r]; cbn in *; intuition congruence).
  cbn [dll]. split; [|split].
  - rewrite up_other by lia. apply up_same.
  - rewrite up_other by (pose proof (S b (hd null l) ltac:(right; left; reflexivity) HL); lia). rewrite up_other by lia. apply up_same.
  - destruct l as [|c r]; [exact Logic.I|]. cbn [hd dll] in *. destruct D as (D1 & D2 & D3). split; [apply up_same|]. split.
    + rewrite up_other by lia. rewrite up_other by (pose proof (S c b ltac:(cbn; tauto) ltac:(cbn; tauto)); lia).
      rewrite up_other by (cbn in NB; intuition lia). exact D2.
    + apply (dll_congr m); [exact D3|]. intros y Y. inversion NL as [|? ? NC _]; subst.
      assert (YC : y <> c) by (intros ->; contradiction). assert (YB : y <> b) by (intros ->; apply NB; right; exact Y).
      assert (IY : In y (null :: b :: c :: r)) by (cbn; tauto). assert (IC : In c (null :: b :: c :: r)) by (cbn; tauto). assert (IB : In b (null :: b :: c :: r)) by (cbn; tauto).
      split.
      * rewrite up_other by (pose proof (S y c IY IC); lia). rewrite up_other by (pose proof (S y b IY IB); lia). apply up_other. lia.
      * rewrite up_other by lia. rewrite up_other by lia. apply up_other. pose proof (S b y IB IY). lia.
Qed.

Lemma last_cons r : forall (a p : Z), last (a :: r) p = last r a.
Proof. induction r as [|c r IH]; intros a p; [reflexivity|]. change (last (a :: c :: r) p) with (last (c :: r) p). rewrite (IH c p), (IH c a). reflexivity. Qed.

Lemma dll_prev m b l2 : forall l1 p, dll m p (l1 ++ b :: l2) -> m (b + 12) = last l1 p /\ m (b + 8) = hd null l2.
Proof.
  induction l1 as [|a r IH]; intros p D; cbn [app dll] in D.
  - destruct D as (A & B & _). split; assumption.
  - destruct D as (_ & _ & D). destruct (IH a D) as [A B]. split; [|exact B]. rewrite A. symmetry. apply last_cons.
Qed.

Lemma last_in (l : list Z) p : In (last l p) (p :: l).
Proof. induction l as [|a r IH]; [left; reflexivity|]. destruct r as [|c r]; [right; left; reflexivity|]. destruct IH as [IH|IH]; [left; exact IH|right; right; exact IH]. Qed.

Lemma dll_remove m b l2 : forall l1 p, dll m p (l1 ++ b :: l2) -> NoDup (p :: l1 ++ b :: l2) -> ~ In null (l1 ++ b :: l2) ->
  (forall x y, In x (null :: p :: l1 ++ b :: l2) -> In y (null :: p :: l1 ++ b :: l2) -> x <> y + 4) ->
  dll (up (up m (hd null l2 + 12) (last l1 p)) (last l1 p + 8) (hd null l2)) p (l1 ++ l2).
Proof.
  induction l1 as [|a r IH]; intros p D N NN S; cbn [app] in *.
  - cbn [dll last] in *. destruct D as (D1 & D2 & D3). destruct l2 as [|c r]; [exact Logic.I|]. cbn [hd dll] in *. destruct D3 as (E1 & E2 & E3).
    apply NoDup_cons_iff in N. destruct N as [NP NL]. apply NoDup_cons_iff in NL. destruct NL as [NB NC]. apply NoDup_cons_iff in NC. destruct NC as [NCR _]. cbn in NP, NB.
    assert (CP : c <> p) by (intros ->; apply NP; right; left; reflexivity).
    assert (IC : In c (null :: p :: b :: c :: r)) by (cbn; tauto). assert (IP : In p (null :: p :: b :: c :: r)) by (cbn; tauto).
    split; [|split].
    + rewrite up_other by (pose proof (S p c IP IC); lia). apply up_same.
    + rewrite up_other by lia. rewrite up_other by lia. exact E2.
    + apply (dll_congr m); [exact E3|]. intros y Y. assert (YC : y <> c) by (intros ->; contradiction). assert (YP : y <> p) by (intros ->; apply NP; right; right; exact Y).
      assert (IY : In y (null :: p :: b :: c :: r)) by (cbn; tauto). split.
      * rewrite up_other by lia. apply up_other. pose proof (S y c IY IC). lia.
      * rewrite up_other by (pose proof (S p y IP IY); lia). apply up_other. lia.
  - cbn [dll] in D. destruct D as (D1 & D2 & D3). rewrite last_cons. apply NoDup_cons_iff in N. destruct N as [NP NL].
    assert (IHR := IH a D3 NL ltac:(intro Q; apply NN; right; exact Q) ltac:(intros x y X Y; apply S; cbn in X, Y |- *; tauto)).
    set (prev := last r a) in *. set (next := hd null l2) in *.
    assert (IPV : In prev (a :: r)) by apply last_in.
    assert (INX : next = null \/ In next l2) by (unfold next; destruct l2; cbn; tauto).
    apply NoDup_cons_iff in NL. destruct NL as [NA NR].
    assert (AN : a <> next). { destruct INX as [->|Q]; [intro Q; apply NN; left; exact Q|]. intros ->. apply NA. apply in_app_iff. right. right. exact Q. }
    assert (IA : In a (null :: p :: a :: r ++ b :: l2)) by (cbn; tauto).
    assert (IP : In prev (null :: p :: a :: r ++ b :: l2)) by (destruct IPV as [Q|Q]; [rewrite <- Q; exact IA|]; cbn; rewrite ?in_app_iff; tauto).
    assert (IX : In next (null :: p :: a :: r ++ b :: l2)) by (destruct INX as [Q|Q]; [rewrite Q; left; reflexivity|]; cbn; rewrite ?in_app_iff; cbn; tauto).
    cbn [dll]. split; [|split; [|exact IHR]].
    + rewrite up_other by (pose proof (S prev a IP IA); lia). rewrite up_other by lia. exact D1.
    + destruct r as [|c r].
      * change prev with a. apply up_same.
      * assert (PA : prev <> a). { unfold prev. rewrite last_cons. pose proof (last_in r c) as Q. intros Q2. rewrite Q2 in Q. apply NA. cbn. cbn in Q. rewrite in_app_iff. tauto. }
        rewrite up_other by lia. rewrite up_other by (pose proof (S a next IA IX); lia). exact D2.
Qed.

(** *** A change of headers that leaves the free lists alone *)
Lemma inv_headers s s' H H' X X' L : Inv s H X L ->
  flb s' = flb s -> slb s' = slb s -> heads s' = heads s ->
  (forall y i j, listed H X y i j -> mem s' (y + 8) = mem s (y + 8) /\ mem s' (y + 12) = mem s (y + 12)) ->
  (forall y i j, listed H' X' y i j <-> listed H X y i j) ->
  (forall b k, H' b = Some k -> mem s' (b + 4) = word (sz k) (fr k) (pf k)) ->
  (forall b k, H' b = Some k -> pf k = true -> exists p kp, H' p = Some kp /\ 12 <= sz kp /\ p + 4 + sz kp = b /\ mem s' b = p) ->
  Inv s' H' X' L.
Proof.
  intros I E1 E2 E3 EM EL ER EP. constructor; try assumption.
  - intros i j b Hi Hj. rewrite EL. apply (i_in s H X L I); assumption.
  - apply (i_nodup s H X L I).
  - intros i j Hi Hj. destruct (i_dll s H X L I i j Hi Hj) as [A B]. rewrite E3. split; [exact A|]. apply (dll_congr (mem s)); [exact B|].
    intros y Y. apply (EM y i j). apply (i_in s H X L I i j y Hi Hj). exact Y.
  - rewrite E2. apply (i_sl s H X L I).
  - rewrite E2. apply (i_slbit s H X L I).
  - rewrite E1. apply (i_fl s H X L I).
  - rewrite E1, E2. apply (i_flbit s H X L I).
Qed.

(** *** Inserting and removing *)
Lemma get_head_ok s i j : 0 <= i < FLC K F -> 0 <= j < SLC K -> get_head K F s i j = Some (heads s i j).
Proof. intros A B. unfold get_head. replace ((0 <=? i) && (i <? FLC K F) && (0 <=? j) && (j <? SLC K)) with true by lia. reflexivity. Qed.
Lemma set_head_ok s i j v : 0 <= i < FLC K F -> 0 <= j < SLC K ->
  set_head K F s i j v = Some (St (mem s) (flb s) (slb s) (fun x y => if (x =? i) && (y =? j) then v else heads s x y)).
Proof. intros A B. unfold set_head. replace ((0 <=? i) && (i <? FLC K F) && (0 <=? j) && (j <? SLC K)) with true by lia. reflexivity. Qed.
Lemma get_sl_ok s i : 0 <= i < FLC K F -> get_sl K F s i = Some (slb s i).
Proof. intros A. unfold get_sl. replace ((0 <=? i) && (i <? FLC K F)) with true by lia. reflexivity. Qed.
Lemma set_sl_ok s i v : 0 <= i < FLC K F -> set_sl K F s i v = Some (St (mem s) (flb s) (fun x => if x =? i then v else slb s x) (heads s)).
Proof. intros A. unfold set_sl. replace ((0 <=? i) && (i <? FLC K F)) with true by lia. reflexivity. Qed.

Lemma class_range H : Geo H -> forall b k, H b = Some k -> 0 <= fst (mapping_insert K (sz k)) < FLC K F /\ 0 <= snd (mapping_insert K (sz k)) < SLC K.
Proof.
  intros G b k E. pose proof (size_pos H G b k E) as R. split; [apply mapping_fl; lia|]. apply (mapping_class K (sz k)); lia.
Qed.

Definition out (X : Z -> Prop) (b : Z) : Z -> Prop := fun y => y = b \/ X y.
Definition back (X : Z -> Prop) (b : Z) : Z -> Prop := fun y => X y /\ y <> b.

Lemma block_size_ok s H X L : Inv s H X L -> Geo H -> forall b k, H b = Some k -> block_size s b = sz k.
Proof.
  intros I G b k E. unfold block_size, rd. rewrite (i_rep s H X L I b k E). pose proof (size_pos H G b k E). pose proof (g_range H G b k E).
  apply word_size; [apply (g_align H G b k E)|lia].
Qed.

Lemma listed_class H X b i j k : H b = Some k -> listed H X b i j -> mapping_insert K (sz k) = (i, j).
Proof. intros E (k' & E' & _ & _ & M). congruence. Qed.

Lemma up_wr s a v : mem (wr s a v) = up (mem s) a v.
Proof. reflexivity. Qed.

Lemma block_insert_ok s H X L b k : Inv s H X L -> Geo H -> H b = Some k -> fr k = true -> X b ->
  exists s' L', block_insert K F null s b = Some s' /\ Inv s' H (back X b) L' /\ (forall a, ~ NodeW H a -> mem s' a = mem s a).
Proof.
  intros I G E FR XB. unfold block_insert. rewrite (block_size_ok s H X L I G b k E).
  pose proof (class_range H G b k E) as [CI CJ]. destruct (mapping_insert K (sz k)) as [i j] eqn:M. cbn [fst snd] in CI, CJ.
  unfold insert_free_block. rewrite get_head_ok by assumption. cbn [obind]. rewrite set_head_ok by assumption. cbn [obind].
  rewrite get_sl_ok by assumption. cbn [obind]. rewrite set_sl_ok by assumption.
  destruct (i_dll s H X L I i j CI CJ) as [HD DL]. rewrite HD. set (cur := hd null (L i j)) in *.
  exists (St (up (up (up (mem s) (b + 8) cur) (b + 12) null) (cur + 12) b) (Z.lor (flb s) (2 ^ i))
             (fun x => if x =? i then Z.lor (slb s i) (2 ^ j) else slb s x) (fun x y => if (x =? i) && (y =? j) then b else heads s x y)).
  exists (fun x y => if (x =? i) && (y =? j) then b :: L x y else L x y).
  split; [reflexivity|].
  assert (NB : Node H b) by (right; exists k; auto).
  assert (NL : forall x y z, 0 <= x < FLC K F -> 0 <= y < SLC K -> In z (L x y) -> Node H z).
  { intros x y z Hx Hy Z. apply (i_in s H X L I x y z Hx Hy) in Z. exact (listed_node H X z x y Z). }
  assert (NC : Node H cur). { unfold cur. destruct (L i j) as [|c r] eqn:Q; [left; reflexivity|]. apply (NL i j c CI CJ). rewrite Q. left. reflexivity. }
  assert (BL : forall x y, 0 <= x < FLC K F -> 0 <= y < SLC K -> ~ In b (L x y)).
  { intros x y Hx Hy Q. apply (i_in s H X L I x y b Hx Hy) in Q. destruct Q as (? & _ & _ & NX & _). contradiction. }
  assert (CL : forall x y z, 0 <= x < FLC K F -> 0 <= y < SLC K -> (x, y) <> (i, j) -> In z (L x y) -> z <> cur).
  { intros x y z Hx Hy Q Z ->. unfold cur in Z. destruct (L i j) as [|c r] eqn:QL; cbn [hd] in Z.
    - apply (i_in s H X L I x y null Hx Hy) in Z. destruct Z as (kn & EN & FN & _). exact (node_null H G null kn EN FN eq_refl).
    - pose proof (proj1 (i_in s H X L I x y c Hx Hy) Z) as C1. assert (C2 : In c (L i j)) by (rewrite QL; left; reflexivity).
      apply (i_in s H X L I i j c CI CJ) in C2. destruct C1 as (k1 & E1 & _ & _ & M1). pose proof (listed_class H X c i j k1 E1 C2). congruence. }
  assert (FRAME : forall a, ~ NodeW H a -> up (up (up (mem s) (b + 8) cur) (b + 12) null) (cur + 12) b a = mem s a).
  { intros a NA. rewrite !up_other; [reflexivity| | |]; intros ->; apply NA.
    - exists b. tauto. - exists b. tauto. - exists cur. tauto. }
  split; [|cbn [mem]; exact FRAME].
  constructor; cbn [mem flb slb heads].
  - intros y ky EY. rewrite FRAME; [apply (i_rep s H X L I y ky EY)|]. intros (z & NZ & A). pose proof (node_header H G z y ky NZ EY). lia.
  - intros y ky EY PY. destruct (i_phys s H X L I y ky EY PY) as (p & kp & E1 & E2 & E3 & E4). exists p, kp. repeat (split; [assumption|]).
    rewrite FRAME; [exact E4|]. intros (z & NZ & A). pose proof (node_last H G z p kp NZ E1 E2). lia.
  - intros x y z Hx Hy. unfold listed, back. destruct ((x =? i) && (y =? j)) eqn:Q.
    + apply andb_true_iff in Q. destruct Q as [Q1 Q2]. apply Z.eqb_eq in Q1, Q2. subst x y. cbn [In]. rewrite (i_in s H X L I i j z CI CJ). unfold listed. split.
      * intros [<-|(kz & A & B & C & D)]; [exists k; repeat (split; [assumption|]); tauto|exists kz; tauto].
      * intros (kz & A & B & C & D). destruct (Z.eq_dec b z) as [->|N]; [left; reflexivity|]. right. exists kz. repeat (split; [assumption|]). split; [|assumption]. intro XZ. apply C. split; [exact XZ|congruence].
    + rewrite (i_in s H X L I x y z Hx Hy). unfold listed. split.
      * intros (kz & A & B & C & D). exists kz. tauto.
      * intros (kz & A & B & C & D). exists kz. repeat (split; [assumption|]). split; [|assumption]. intro XZ. apply C. split; [exact XZ|].
        intros ->. assert (kz = k) by congruence. subst kz. rewrite M in D. injection D as -> ->. rewrite !Z.eqb_refl in Q. discriminate.
  - intros x y Hx Hy. destruct ((x =? i) && (y =? j)); [|apply (i_nodup s H X L I); assumption]. constructor; [apply BL; assumption|apply (i_nodup s H X L I); assumption].
  - intros x y Hx Hy. destruct ((x =? i) && (y =? j)) eqn:Q.
    + apply andb_true_iff in Q. destruct Q as [Q1 Q2]. apply Z.eqb_eq in Q1, Q2. subst x y. split; [reflexivity|]. unfold cur. apply dll_insert.
      * exact DL.
      * constructor; [apply BL; assumption|apply (i_nodup s H X L I); assumption].
      * intros [Q|Q]; [exact (node_null H G b k E FR Q)|]. apply (i_in s H X L I i j null CI CJ) in Q. destruct Q as (kn & EN & FN & _). exact (node_null H G null kn EN FN eq_refl).
      * assert (NN : forall x, In x (null :: b :: L i j) -> Node H x). { intros x [<-|[<-|Q]]; [left; reflexivity|exact NB|exact (NL i j x CI CJ Q)]. }
        intros x y X1 Y1. apply (node_sep H G); apply NN; assumption.
    + destruct (i_dll s H X L I x y Hx Hy) as [A B]. split; [exact A|]. apply (dll_congr (mem s)); [exact B|]. intros z Z.
      assert (QQ : (x, y) <> (i, j)) by (intro C; injection C as -> ->; rewrite !Z.eqb_refl in Q; discriminate).
      pose proof (CL x y z Hx Hy QQ Z) as ZC. assert (ZB : z <> b) by (intros ->; exact (BL x y Hx Hy Z)).
      pose proof (NL x y z Hx Hy Z) as NZ. pose proof (node_sep H G z cur NZ NC). pose proof (node_sep H G b z NB NZ). pose proof (node_sep H G z b NZ NB).
      split; rewrite !up_other by lia; reflexivity.
  - intros x Hx. destruct (x =? i); [|apply (i_sl s H X L I); assumption]. apply lor_lt; [unfold SLC; pose proof (pow_pos K ltac:(lia)); lia|apply (i_sl s H X L I); assumption|].
    split; [apply Z.pow_nonneg; lia|]. apply Z.pow_lt_mono_r; lia.
  - intros x y Hx Hy. destruct (Z.eqb_spec x i) as [->|]; cbn [andb]; [|apply (i_slbit s H X L I); assumption].
    rewrite set_bit_spec by lia. rewrite (i_slbit s H X L I) by assumption. destruct (Z.eqb_spec y j) as [->|N]; [rewrite Z.eqb_refl, orb_true_r; reflexivity|].
    replace (j =? y) with false by lia. apply orb_false_r.
  - apply lor_lt; [pose proof FLC_range; lia|apply (i_fl s H X L I)|]. split; [apply Z.pow_nonneg; lia|]. apply Z.pow_lt_mono_r; lia.
  - intros x Hx. rewrite set_bit_spec by lia. rewrite (i_flbit s H X L I) by assumption. destruct (Z.eqb_spec x i) as [->|N].
    + rewrite Z.eqb_refl, orb_true_r. symmetry. apply negb_true_iff. apply Z.eqb_neq. intro Z0.
      pose proof (set_bit_spec (slb s i) j j ltac:(lia) ltac:(lia)) as T. rewrite Z0, Z.bits_0, Z.eqb_refl, orb_true_r in T. discriminate.
    + replace (i =? x) with false by lia. apply orb_false_r.
Qed.

Lemma remove_split (l1 l2 : list Z) b : NoDup (l1 ++ b :: l2) -> remove Z.eq_dec b (l1 ++ b :: l2) = l1 ++ l2.
Proof.
  intro N. pose proof (NoDup_remove_2 _ _ _ N) as NI. rewrite remove_app. cbn [remove]. destruct (Z.eq_dec b b); [|contradiction].
  rewrite !notin_remove; [reflexivity| |]; intro Q; apply NI; apply in_app_iff; tauto.
Qed.

Lemma land_le_range w m n : 0 <= n -> 0 <= w < 2 ^ n -> 0 <= Z.land w m < 2 ^ n.
Proof.
  intros HN HW. assert (P : 0 <= Z.land w m) by (apply Z.land_nonneg; left; lia). split; [exact P|]. apply lt_pow2_bits; [exact HN|exact P|].
  intros i Hi. rewrite Z.land_spec, (testbit_high w n i HW Hi). reflexivity.
Qed.

Lemma remove_free_block_ok s H X L b k i j : Inv s H X L -> Geo H -> H b = Some k -> fr k = true -> ~ X b -> mapping_insert K (sz k) = (i, j) ->
  exists s' L', remove_free_block K F null s b i j = Some s' /\ Inv s' H (out X b) L' /\ (forall a, ~ NodeW H a -> mem s' a = mem s a).
Proof.
  intros I G E FR XB M. pose proof (class_range H G b k E) as [CI CJ]. rewrite M in CI, CJ. cbn [fst snd] in CI, CJ.
  assert (IB : In b (L i j)) by (apply (i_in s H X L I i j b CI CJ); exists k; auto).
  destruct (in_split b (L i j) IB) as (l1 & l2 & SP). pose proof (i_nodup s H X L I i j CI CJ) as ND. rewrite SP in ND.
  destruct (i_dll s H X L I i j CI CJ) as [HD DL]. rewrite SP in DL. destruct (dll_prev (mem s) b l2 l1 null DL) as [PV NX].
  pose proof SLC_range as SR. pose proof FLC_range as FLR.
  unfold remove_free_block, rd. rewrite PV, NX. set (prev := last l1 null) in *. set (next := hd null l2) in *.
  rewrite get_head_ok by assumption. cbn [obind wr heads]. rewrite HD, SP.
  assert (BN : b <> null) by exact (node_null H G b k E FR).
  assert (NL : forall x y z, 0 <= x < FLC K F -> 0 <= y < SLC K -> In z (L x y) -> Node H z).
  { intros x y z Hx Hy Z. apply (i_in s H X L I x y z Hx Hy) in Z. exact (listed_node H X z x y Z). }
  assert (NNL : forall x y, 0 <= x < FLC K F -> 0 <= y < SLC K -> ~ In null (L x y)).
  { intros x y Hx Hy Q. apply (i_in s H X L I x y null Hx Hy) in Q. destruct Q as (kn & EN & FN & _). exact (node_null H G null kn EN FN eq_refl). }
  assert (INP : prev = null \/ In prev l1) by (pose proof (last_in l1 null) as Q; destruct Q as [Q|Q]; [left; symmetry; exact Q|right; exact Q]).
  assert (INX : next = null \/ In next l2) by (unfold next; destruct l2; cbn; tauto).
  assert (NP : Node H prev). { destruct INP as [->|Q]; [left; reflexivity|]. apply (NL i j prev CI CJ). rewrite SP. apply in_app_iff. tauto. }
  assert (NN : Node H next). { destruct INX as [->|Q]; [left; reflexivity|]. apply (NL i j next CI CJ). rewrite SP. apply in_app_iff. cbn. tauto. }
  set (m' := up (up (mem s) (next + 12) prev) (prev + 8) next).
  assert (FRAME : forall a, ~ NodeW H a -> m' a = mem s a).
  { intros a NA. unfold m'. rewrite !up_other; [reflexivity| |]; intros ->; apply NA; [exists next|exists prev]; tauto. }
  assert (D' : dll m' null (l1 ++ l2)).
  { apply (dll_remove (mem s) b l2 l1 null).
    - exact DL.
    - constructor; [|exact ND]. intro Q. apply (NNL i j CI CJ). rewrite SP. exact Q.
    - intro Q. apply (NNL i j CI CJ). rewrite SP. exact Q.
    - assert (AN : forall x, In x (null :: null :: l1 ++ b :: l2) -> Node H x). { intros x [<-|[<-|Q]]; [left; reflexivity|left; reflexivity|]. apply (NL i j x CI CJ). rewrite SP. exact Q. }
      intros x y X1 Y1. apply (node_sep H G); apply AN; assumption. }
  set (L' := fun x y => if (x =? i) && (y =? j) then l1 ++ l2 else L x y).
  assert (OTHER : forall x y z, 0 <= x < FLC K F -> 0 <= y < SLC K -> (x, y) <> (i, j) -> In z (L x y) -> m' (z + 8) = mem s (z + 8) /\ m' (z + 12) = mem s (z + 12)).
  { intros x y z Hx Hy Q Z.
    assert (ZL : ~ In z (L i j)).
    { intro C. apply (i_in s H X L I i j z CI CJ) in C. apply (i_in s H X L I x y z Hx Hy) in Z. destruct Z as (k1 & E1 & _ & _ & M1). pose proof (listed_class H X z i j k1 E1 C). congruence. }
    assert (ZN : z <> null) by (intros ->; exact (NNL x y Hx Hy Z)).
    assert (ZP : z <> prev). { destruct INP as [->|QP]; [exact ZN|]. intros ->. apply ZL. rewrite SP. apply in_app_iff. tauto. }
    assert (ZX : z <> next). { destruct INX as [->|QP]; [exact ZN|]. intros ->. apply ZL. rewrite SP. apply in_app_iff. cbn. tauto. }
    pose proof (NL x y z Hx Hy Z) as NZ. pose proof (node_sep H G z next NZ NN). pose proof (node_sep H G prev z NP NZ).
    unfold m'. split; rewrite !up_other by lia; reflexivity. }
  (* everything but the heads and bitmaps *)
  assert (KEY : forall fl' sl' hd', 
     (forall x y, 0 <= x < FLC K F -> 0 <= y < SLC K -> hd' x y = hd null (L' x y)) ->
     (forall x, 0 <= x < FLC K F -> 0 <= sl' x < 2 ^ SLC K) ->
     (forall x y, 0 <= x < FLC K F -> 0 <= y < SLC K -> Z.testbit (sl' x) y = nonempty (L' x y)) ->
     0 <= fl' < 2 ^ FLC K F -> (forall x, 0 <= x < FLC K F -> Z.testbit fl' x = negb (sl' x =? 0)) ->
     Inv (St m' fl' sl' hd') H (out X b) L').
  { intros fl' sl' hd' H1 H2 H3 H4 H5. constructor; cbn [mem flb slb heads]; try assumption.
    - intros y ky EY. rewrite FRAME; [apply (i_rep s H X L I y ky EY)|]. intros (z & NZ & A). pose proof (node_header H G z y ky NZ EY). lia.
    - intros y ky EY PY. destruct (i_phys s H X L I y ky EY PY) as (p & kp & E1 & E2 & E3 & E4). exists p, kp. repeat (split; [assumption|]).
      rewrite FRAME; [exact E4|]. intros (z & NZ & A). pose proof (node_last H G z p kp NZ E1 E2). lia.
    - intros x y z Hx Hy. unfold L', out. destruct ((x =? i) && (y =? j)) eqn:Q.
      + apply andb_true_iff in Q. destruct Q as [Q1 Q2]. apply Z.eqb_eq in Q1, Q2. subst x y.
        assert (QI : In z (l1 ++ l2) <-> In z (L i j) /\ z <> b).
        { rewrite SP. pose proof (NoDup_remove_2 _ _ _ ND) as NI. rewrite !in_app_iff in *. cbn. split.
          - intro Q. split; [tauto|]. intros ->. tauto.
          - intros [[Q|[Q|Q]] N]; [tauto|congruence|tauto]. }
        rewrite QI, (i_in s H X L I i j z CI CJ). unfold listed. split.
        * intros [(kz & A & B & C & D) N]. exists kz. tauto.
        * intros (kz & A & B & C & D). split; [exists kz; tauto|tauto].
      + rewrite (i_in s H X L I x y z Hx Hy). unfold listed. split.
        * intros (kz & A & B & C & D). exists kz. repeat (split; [assumption|]). split; [|assumption]. intros [->|C2]; [|contradiction].
          assert (kz = k) by congruence. subst kz. rewrite M in D. injection D as -> ->. rewrite !Z.eqb_refl in Q. discriminate.
        * intros (kz & A & B & C & D). exists kz. tauto.
    - intros x y Hx Hy. unfold L'. destruct ((x =? i) && (y =? j)); [exact (NoDup_remove_1 _ _ _ ND)|apply (i_nodup s H X L I); assumption].
    - intros x y Hx Hy. split; [apply H1; assumption|]. unfold L'. destruct ((x =? i) && (y =? j)) eqn:Q; [exact D'|].
      destruct (i_dll s H X L I x y Hx Hy) as [_ B]. apply (dll_congr (mem s)); [exact B|]. intros z Z. apply (OTHER x y z Hx Hy); [|exact Z].
      intro C. injection C as -> ->. rewrite !Z.eqb_refl in Q. discriminate. }
  assert (HDK : forall x y, 0 <= x < FLC K F -> 0 <= y < SLC K -> (x =? i) && (y =? j) = false -> heads s x y = hd null (L' x y)).
  { intros x y Hx Hy Q. unfold L'. rewrite Q. apply (i_dll s H X L I); assumption. }
  destruct l1 as [|a r].
  - (* the head of the list *)
    cbn [app hd]. rewrite Z.eqb_refl. rewrite set_head_ok by assumption. cbn [obind].
    assert (PN : prev = null) by reflexivity.
    destruct (next =? null) eqn:NE.
    + apply Z.eqb_eq in NE.
      assert (L2 : l2 = []). { destruct l2 as [|c r]; [reflexivity|]. exfalso. apply (NNL i j CI CJ). rewrite SP. unfold next in NE. cbn in NE. rewrite <- NE. cbn. tauto. }
      rewrite get_sl_ok by assumption. cbn [obind]. rewrite set_sl_ok by assumption. cbn [obind slb]. rewrite get_sl_ok by assumption. cbn [obind wr mem flb slb heads]. rewrite Z.eqb_refl.
      set (v := Z.land (slb s i) (u32 (Z.lnot (2 ^ j)))).
      assert (VR : 0 <= v < 2 ^ SLC K) by (apply land_le_range; [lia|apply (i_sl s H X L I); assumption]).
      assert (VB : forall y, 0 <= y < SLC K -> Z.testbit v y = nonempty (L' i y)).
      { intros y Hy. unfold v, L'. rewrite clear_bit_spec by lia. rewrite (i_slbit s H X L I) by assumption. rewrite Z.eqb_refl. cbn [andb].
        destruct (Z.eqb_spec y j) as [->|N]; [rewrite Z.eqb_refl, L2; cbn; rewrite andb_false_r; reflexivity|]. replace (j =? y) with false by lia. cbn [negb].
        rewrite andb_true_r. replace (y <? 32) with true by lia. apply andb_true_r. }
      assert (HDS : forall x y, 0 <= x < FLC K F -> 0 <= y < SLC K -> (if (x =? i) && (y =? j) then next else heads s x y) = hd null (L' x y)).
      { intros x y Hx Hy. destruct ((x =? i) && (y =? j)) eqn:Q; [unfold L'; rewrite Q; reflexivity|apply HDK; assumption]. }
      assert (SLR : forall x, 0 <= x < FLC K F -> 0 <= (if x =? i then v else slb s x) < 2 ^ SLC K).
      { intros x Hx. destruct (x =? i); [exact VR|apply (i_sl s H X L I); assumption]. }
      assert (SLB : forall x y, 0 <= x < FLC K F -> 0 <= y < SLC K -> Z.testbit (if x =? i then v else slb s x) y = nonempty (L' x y)).
      { intros x y Hx Hy. destruct (Z.eqb_spec x i) as [->|N]; [apply VB; exact Hy|]. unfold L'. replace (x =? i) with false by lia. apply (i_slbit s H X L I); assumption. }
      destruct (v =? 0) eqn:V0.
      * eexists. exists L'. split; [reflexivity|]. split; [|exact FRAME]. unfold set_fl. cbn [mem flb slb heads]. apply KEY; try assumption.
        -- apply land_le_range; [lia|apply (i_fl s H X L I)].
        -- intros x Hx. rewrite clear_bit_spec by lia. rewrite (i_flbit s H X L I) by assumption. destruct (Z.eqb_spec x i) as [->|N].
           ++ rewrite Z.eqb_refl, V0. rewrite andb_false_r. reflexivity.
           ++ replace (i =? x) with false by lia. replace (x <? 32) with true by lia. rewrite !andb_true_r. reflexivity.
      * eexists. exists L'. split; [reflexivity|]. split; [|exact FRAME]. apply KEY; try assumption.
        -- apply (i_fl s H X L I).
        -- cbn [flb]. intros x Hx. rewrite (i_flbit s H X L I) by assumption. destruct (Z.eqb_spec x i) as [->|N]; [|reflexivity]. rewrite V0. cbn.
           apply negb_true_iff, Z.eqb_neq. intro Z0. unfold v in V0. rewrite Z0, Z.land_0_l in V0. discriminate.
    + apply Z.eqb_neq in NE. eexists. exists L'. split; [reflexivity|]. split; [|exact FRAME]. apply KEY.
      * intros x y Hx Hy. destruct ((x =? i) && (y =? j)) eqn:Q; [unfold L'; rewrite Q; reflexivity|apply HDK; assumption].
      * apply (i_sl s H X L I).
      * intros x y Hx Hy. unfold L'. destruct ((x =? i) && (y =? j)) eqn:Q; [|apply (i_slbit s H X L I); assumption].
        apply andb_true_iff in Q. destruct Q as [Q1 Q2]. apply Z.eqb_eq in Q1, Q2. subst x y.
        cbn [slb wr]. rewrite (i_slbit s H X L I) by assumption. rewrite SP. destruct l2; [contradiction|reflexivity].
      * apply (i_fl s H X L I).
      * apply (i_flbit s H X L I).
  - cbn [app hd]. assert (AB : a <> b). { intros ->. apply NoDup_remove_2 in ND. apply ND. left. reflexivity. }
    replace (a =? b) with false by lia. eexists. exists L'. split; [reflexivity|]. split; [|exact FRAME]. apply KEY.
    + intros x y Hx Hy. destruct ((x =? i) && (y =? j)) eqn:Q; [|apply HDK; assumption]. unfold L'. rewrite Q. apply andb_true_iff in Q. destruct Q as [Q1 Q2]. apply Z.eqb_eq in Q1, Q2. subst x y.
      cbn [heads wr]. rewrite HD, SP. reflexivity.
    + apply (i_sl s H X L I).
    + intros x y Hx Hy. unfold L'. destruct ((x =? i) && (y =? j)) eqn:Q; [|apply (i_slbit s H X L I); assumption].
      apply andb_true_iff in Q. destruct Q as [Q1 Q2]. apply Z.eqb_eq in Q1, Q2. subst x y.
      cbn [slb wr]. rewrite (i_slbit s H X L I) by assumption. rewrite SP. reflexivity.
    + apply (i_fl s H X L I).
    + apply (i_flbit s H X L I).
Qed.

Lemma block_remove_ok s H X L b k : Inv s H X L -> Geo H -> H b = Some k -> fr k = true -> ~ X b ->
  exists s' L', block_remove K F null s b = Some s' /\ Inv s' H (out X b) L' /\ (forall a, ~ NodeW H a -> mem s' a = mem s a).
Proof.
  intros I G E FR XB. unfold block_remove. rewrite (block_size_ok s H X L I G b k E). destruct (mapping_insert K (sz k)) as [i j] eqn:M.
  apply (remove_free_block_ok s H X L b k i j); assumption.
Qed.

(** *** Searching *)
Lemma pow32 n : 0 <= n <= 32 -> 2 ^ n <= 2 ^ 32.
Proof. intro. apply Z.pow_le_mono_r; lia. Qed.

Lemma search_ok s H X L i j : Inv s H X L -> 0 <= i < FLC K F -> 0 <= j < SLC K ->
  exists b i' j', search_suitable_block K F s i j = Some (b, i', j') /\
   ((b = 0 /\ forall y x z, listed H X y x z -> 0 <= x < FLC K F -> 0 <= z < SLC K -> ~ lexle i j x z) \/ (listed H X b i' j' /\ lexle i j i' j' /\ 0 <= i' < FLC K F /\ 0 <= j' < SLC K)).
Proof.
  intros I Hi Hj. unfold search_suitable_block. rewrite get_sl_ok by assumption. cbn [obind].
  pose proof SLC_range as SR. pose proof FLC_range as FLR.
  assert (SLB : forall x, 0 <= x < FLC K F -> 0 <= slb s x < 2 ^ 32) by (intros x Hx; pose proof (i_sl s H X L I x Hx); pose proof (pow32 (SLC K) ltac:(lia)); lia).
  assert (HDL : forall x y, 0 <= x < FLC K F -> 0 <= y < SLC K -> Z.testbit (slb s x) y = true -> listed H X (heads s x y) x y).
  { intros x y Hx Hy T. rewrite (i_slbit s H X L I) in T by assumption. destruct (i_dll s H X L I x y Hx Hy) as [-> _].
    destruct (L x y) as [|c r] eqn:Q; [discriminate|]. cbn [hd]. apply (i_in s H X L I x y c); [assumption|assumption|]. rewrite Q. left. reflexivity. }
  assert (SLT : forall x y, 0 <= x < FLC K F -> 0 <= y -> Z.testbit (slb s x) y = true -> y < SLC K).
  { intros x y Hx Hy T. destruct (Z.ltb_spec y (SLC K)); [assumption|]. rewrite (testbit_high _ (SLC K) y) in T; [discriminate|apply (i_sl s H X L I); exact Hx|assumption]. }
  set (sm := Z.land (slb s i) (u32 (Z.shiftl (2 ^ 32 - 1) j))).
  assert (SM : forall y, 0 <= y -> Z.testbit sm y = Z.testbit (slb s i) y && (j <=? y)).
  { intros y Hy. unfold sm. rewrite Z.land_spec, from_bit_spec by lia. destruct (Z.ltb_spec y 32); [rewrite andb_true_r; reflexivity|].
    rewrite (testbit_high (slb s i) 32 y) by (try apply SLB; assumption). reflexivity. }
  assert (SMR : 0 <= sm < 2 ^ 32) by (apply land_le_range; [lia|apply SLB; exact Hi]).
  destruct (sm =? 0) eqn:S0.
  - apply Z.eqb_eq in S0.
    set (fm := Z.land (flb s) (u32 (Z.shiftl (2 ^ 32 - 1) (i + 1)))).
    assert (FB : 0 <= flb s < 2 ^ 32) by (pose proof (i_fl s H X L I); pose proof (pow32 (FLC K F) ltac:(lia)); lia).
    assert (FMR : 0 <= fm < 2 ^ 32) by (apply land_le_range; [lia|exact FB]).
    assert (FM : forall x, 0 <= x -> Z.testbit fm x = Z.testbit (flb s) x && (i + 1 <=? x)).
    { intros y Hy. unfold fm. rewrite Z.land_spec, from_bit_spec by lia. destruct (Z.ltb_spec y 32); [rewrite andb_true_r; reflexivity|].
      rewrite (testbit_high (flb s) 32 y) by assumption. reflexivity. }
    destruct (fm =? 0) eqn:F0.
    + apply Z.eqb_eq in F0. exists 0, i, j. split; [reflexivity|]. left. split; [reflexivity|]. intros y x z LI Hx Hz [LT|[<- LE]].
      * assert (T : Z.testbit fm x = true).
        { rewrite FM by lia. rewrite (i_flbit s H X L I) by assumption. replace (i + 1 <=? x) with true by lia. rewrite andb_true_r. apply negb_true_iff, Z.eqb_neq. intro Z0.
          apply (i_in s H X L I x z y Hx Hz) in LI. pose proof (i_slbit s H X L I x z Hx Hz) as T. rewrite Z0, Z.bits_0 in T. destruct (L x z); [contradiction|discriminate]. }
        rewrite F0, Z.bits_0 in T. discriminate.
      * assert (T : Z.testbit sm z = true).
        { rewrite SM by lia. replace (j <=? z) with true by lia. rewrite andb_true_r, (i_slbit s H X L I) by assumption. apply (i_in s H X L I i z y Hi Hz) in LI. destruct (L i z); [contradiction|reflexivity]. }
        rewrite S0, Z.bits_0 in T. discriminate.
    + apply Z.eqb_neq in F0. destruct (ffs_spec fm ltac:(lia)) as (A & B & _). set (i' := tlsf_ffs fm) in *. rewrite FM in B by lia. apply andb_true_iff in B. destruct B as [B1 B2].
      assert (Hi' : 0 <= i' < FLC K F). { split; [lia|]. destruct (Z.ltb_spec i' (FLC K F)); [assumption|]. rewrite (testbit_high (flb s) (FLC K F) i') in B1; [discriminate|apply (i_fl s H X L I)|assumption]. }
      rewrite get_sl_ok by assumption. cbn [obind]. rewrite (i_flbit s H X L I) in B1 by assumption. apply negb_true_iff, Z.eqb_neq in B1.
      pose proof (SLB i' Hi') as R. destruct (ffs_spec (slb s i') ltac:(lia)) as (A2 & T2 & _). set (j' := tlsf_ffs (slb s i')) in *.
      assert (Hj' : 0 <= j' < SLC K) by (split; [lia|apply (SLT i'); [assumption|lia|assumption]]).
      rewrite get_head_ok by assumption. cbn [obind]. exists (heads s i' j'), i', j'. split; [reflexivity|]. right. split; [apply HDL; assumption|]. split; [left; lia|]. split; assumption.
  - apply Z.eqb_neq in S0. destruct (ffs_spec sm ltac:(lia)) as (A & B & _). set (j' := tlsf_ffs sm) in *. rewrite SM in B by lia. apply andb_true_iff in B. destruct B as [B1 B2].
    assert (Hj' : 0 <= j' < SLC K) by (split; [lia|apply (SLT i); [assumption|lia|assumption]]).
    rewrite get_head_ok by assumption. cbn [obind]. exists (heads s i j'), i, j'. split; [reflexivity|]. right. split; [apply HDL; assumption|]. split; [right; split; [reflexivity|lia]|]. split; assumption.
Qed.

End Heap.
