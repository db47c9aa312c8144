From Coq Require Import ZArith List Bool Lia Sorting.Sorted.
From Verif Require Import Base SliceLemmas SchedModel SchedSpec.
Import ListNotations.
Open Scope Z_scope.

(** *** Ready list *)
Definition core (x : item) : option Z * Z * Z * Z * Z := (nextTask x, task x, period x, time x, priority x).

Fixpoint chain (its : list item) (p : option Z) (l : list Z) : Prop :=
  match l with
  | [] => p = None
  | i :: l => p = Some i /\ exists x, znth its i = Some x /\ chain its (nextReady x) l
  end.

Definition alike (a b : list item) : Prop :=
  zlen a = zlen b /\ forall k, option_map core (znth a k) = option_map core (znth b k).
Lemma alike_refl a : alike a a.
Proof. split; reflexivity. Qed.
Lemma alike_trans a b c : alike a b -> alike b c -> alike a c.
Proof. intros [A1 A2] [B1 B2]. split; [congruence|]. intro k. rewrite A2. apply B2. Qed.

Lemma get_ok s i x : znth (items s) i = Some x -> get s (Some i) = Done x.
Proof. intro H. unfold get. rewrite H. reflexivity. Qed.

Lemma znth_Some_range {A} (l : list A) i x : znth l i = Some x -> 0 <= i < zlen l.
Proof.
  unfold znth, zlen. destruct (i <? 0) eqn:E; [discriminate|]. intro H. apply nth_error_Some_lt in H || idtac.
  assert (nth_error l (Z.to_nat i) <> None) by congruence. apply nth_error_Some in H0. lia.
Qed.

Lemma set_ok s i x y : znth (items s) i = Some x -> exists l,
  set s i y = Done (Sched l (taskList s) (readyList s) (currentPriority s) (ran s)) /\ zlen l = zlen (items s) /\
  (forall k, znth l k = if k =? i then Some y else znth (items s) k).
Proof.
  intro H. apply znth_Some_range in H. destruct (zupd_in_range (items s) i y H) as (l & E & L & G).
  exists l. unfold set. rewrite E. cbn [rbind deref]. split; [reflexivity|]. split; [exact L|exact G].
Qed.

Lemma chain_ext its its' p l : (forall k, In k l -> znth its' k = znth its k) -> chain its p l -> chain its' p l.
Proof.
  revert p. induction l as [|i l IH]; intros p E C; [exact C|]. destruct C as [C1 (x & C2 & C3)]. split; [exact C1|]. exists x.
  split; [rewrite E by (left; reflexivity); exact C2|]. apply IH; [intros k K; apply E; right; exact K|exact C3].
Qed.

Fixpoint ins (pr : Z -> Z) (i : Z) (l : list Z) : list Z :=
  match l with
  | [] => [i]
  | r :: l' => if pr r <? pr i then i :: r :: l' else r :: ins pr i l'
  end.

Lemma ins_In pr i l k : In k (ins pr i l) <-> k = i \/ In k l.
Proof.
  induction l as [|r l IH]; cbn; [intuition|]. destruct (pr r <? pr i); cbn; [intuition|]. rewrite IH. intuition.
Qed.
Lemma ins_NoDup pr i l : NoDup l -> ~ In i l -> NoDup (ins pr i l).
Proof.
  induction l as [|r l IH]; cbn; intros N I; [repeat constructor; intros []|]. destruct (pr r <? pr i).
  - constructor; [exact I|exact N].
  - inversion N as [|? ? N1 N2]; subst. constructor; [rewrite ins_In; intros [E|E]; [apply I; left; congruence|contradiction]|]. apply IH; [exact N2|]. intro H. apply I. right. exact H.
Qed.

Definition prios (its : list item) (pr : Z -> Z) : Prop := forall k x, znth its k = Some x -> priority x = pr k.
Lemma prios_alike a b pr : alike a b -> prios a pr -> prios b pr.
Proof.
  intros [_ A] P k x H. specialize (A k). rewrite H in A. destruct (znth a k) as [y|] eqn:E; [|discriminate]. cbn in A. injection A as _ _ _ _ A. rewrite <- A. apply P. exact E.
Qed.

Lemma core_with_next x p : core (with_next x p) = core x.
Proof. reflexivity. Qed.

(** Linking [i] behind [a]. *)
Lemma link s a i l xa xi : znth (items s) a = Some xa -> znth (items s) i = Some xi -> a <> i ->
  ~ In i l -> ~ In a l -> chain (items s) (nextReady xa) l ->
  exists s', rbind (set s i (with_next xi (nextReady xa))) (fun s => rbind (get s (Some a)) (fun l => set s a (with_next l (Some i)))) = Done s' /\
   chain (items s') (Some a) (a :: i :: l) /\ alike (items s) (items s') /\
   (forall k, k <> a -> k <> i -> znth (items s') k = znth (items s) k) /\
   taskList s' = taskList s /\ readyList s' = readyList s /\ currentPriority s' = currentPriority s /\ ran s' = ran s.
Proof.
  intros A I AI NI NA C. destruct (set_ok s i xi (with_next xi (nextReady xa)) I) as (l1 & E1 & L1 & G1). rewrite E1. cbn [rbind].
  set (s1 := Sched l1 _ _ _ _). assert (A1 : znth (items s1) a = Some xa) by (cbn [items s1]; rewrite G1; replace (a =? i) with false by lia; exact A).
  rewrite (get_ok s1 a xa A1). cbn [rbind]. destruct (set_ok s1 a xa (with_next xa (Some i)) A1) as (l2 & E2 & L2 & G2). rewrite E2.
  eexists. split; [reflexivity|]. cbn [items taskList readyList currentPriority ran s1] in *.
  split; [|split; [|split; [|auto]]].
  - split; [reflexivity|]. exists (with_next xa (Some i)). split; [rewrite G2, Z.eqb_refl; reflexivity|]. split; [reflexivity|].
    exists (with_next xi (nextReady xa)). split; [rewrite G2, G1, Z.eqb_refl; replace (i =? a) with false by lia; reflexivity|]. cbn [nextReady with_next].
    apply (chain_ext (items s)); [|exact C]. intros k K. rewrite G2, G1. destruct (Z.eqb_spec k a); [subst; contradiction|]. destruct (Z.eqb_spec k i); [subst; contradiction|reflexivity].
  - split; [congruence|]. intro k. rewrite G2, G1. destruct (Z.eqb_spec k a) as [->|]; [rewrite A; reflexivity|]. destruct (Z.eqb_spec k i) as [->|]; [rewrite I; reflexivity|reflexivity].
  - intros k K1 K2. rewrite G2, G1. destruct (Z.eqb_spec k a); [contradiction|]. destruct (Z.eqb_spec k i); [contradiction|reflexivity].
Qed.

Lemma walk_ok pr l : forall fuel s a i xi, chain (items s) (Some a) (a :: l) -> NoDup (a :: l) -> ~ In i (a :: l) ->
  znth (items s) i = Some xi -> prios (items s) pr -> (length l < fuel)%nat ->
  exists s', walk fuel i a s = Done s' /\ chain (items s') (Some a) (a :: ins pr i l) /\ alike (items s) (items s') /\
   (forall k, ~ In k (i :: a :: l) -> znth (items s') k = znth (items s) k) /\
   taskList s' = taskList s /\ readyList s' = readyList s /\ currentPriority s' = currentPriority s /\ ran s' = ran s.
Proof.
  induction l as [|b l IH]; intros fuel s a i xi C N NI XI P F; (destruct fuel as [|fuel]; [lia|]); destruct C as [_ (xa & XA & C)]; cbn [walk]; rewrite (get_ok s a xa XA), (get_ok s i xi XI); cbn [rbind]; assert (AI : a <> i) by (intros ->; apply NI; left; reflexivity).
  - cbn in C. rewrite C. cbn [ins]. rewrite <- C. destruct (link s a i [] xa xi XA XI AI (fun x => x) (fun x => x) C) as (s' & E & D & L & K & R). exists s'. split; [exact E|]. split; [exact D|]. split; [exact L|]. split; [|exact R]. intros k H. apply K; intros ->; apply H; cbn; auto.
  - destruct C as [CB (xb & XB & C)]. rewrite CB. rewrite (get_ok s b xb XB). cbn [rbind]. cbn [ins].
    rewrite (P b xb XB), (P i xi XI). inversion N as [|? ? N1 N2]; subst.
    destruct (pr b <? pr i).
    + rewrite <- CB. assert (CC : chain (items s) (nextReady xa) (b :: l)) by (split; [exact CB|exists xb; auto]).
      destruct (link s a i (b :: l) xa xi XA XI AI (fun H => NI (or_intror H)) N1 CC) as (s' & E & D & L & K & R).
      exists s'. split; [exact E|]. split; [exact D|]. split; [exact L|]. split; [|exact R]. intros k H. apply K; intros ->; apply H; cbn; auto.
    + destruct (IH fuel s b i xi) as (s' & E & D & L & K & R); [split; [reflexivity|exists xb; auto]|exact N2|intro H; apply NI; right; exact H|exact XI|exact P|cbn in F; lia|].
      exists s'. split; [exact E|]. split; [|split; [exact L|split; [|exact R]]].
      * split; [reflexivity|]. exists xa. split; [rewrite K; [exact XA|]|rewrite CB; exact D]. intros [H|H]; [apply AI; auto|contradiction].
      * intros k H. apply K. intro H2. apply H. destruct H2 as [H2|H2]; [left; exact H2|right; right; exact H2].
Qed.

Lemma make_ready_ok pr R fuel s i xi : chain (items s) (readyList s) R -> NoDup R -> ~ In i R ->
  znth (items s) i = Some xi -> prios (items s) pr -> (length R < fuel)%nat ->
  exists s', make_ready fuel i s = Done s' /\ chain (items s') (readyList s') (ins pr i R) /\ alike (items s) (items s') /\
   taskList s' = taskList s /\ currentPriority s' = currentPriority s /\ ran s' = ran s.
Proof.
  intros C N NI XI P F. unfold make_ready. rewrite (get_ok s i xi XI). cbn [rbind].
  assert (FR : ins pr i R = i :: R -> exists s', rbind (set s i (with_next xi (readyList s))) (fun s => Done (set_ready s (Some i))) = Done s' /\ chain (items s') (readyList s') (ins pr i R) /\ alike (items s) (items s') /\
   taskList s' = taskList s /\ currentPriority s' = currentPriority s /\ ran s' = ran s).
  { intro E. destruct (set_ok s i xi (with_next xi (readyList s)) XI) as (l1 & E1 & L1 & G1). rewrite E1. cbn [rbind]. eexists. split; [reflexivity|].
    cbn [items readyList set_ready taskList currentPriority ran]. rewrite E. split; [|split; [|auto]].
    - split; [reflexivity|]. exists (with_next xi (readyList s)). split; [rewrite G1, Z.eqb_refl; reflexivity|]. apply (chain_ext (items s)); [|exact C].
      intros k K. rewrite G1. destruct (Z.eqb_spec k i); [subst; contradiction|reflexivity].
    - split; [congruence|]. intro k. rewrite G1. destruct (Z.eqb_spec k i) as [->|]; [rewrite XI|]; reflexivity. }
  destruct R as [|r R].
  - cbn in C. rewrite C in *. apply FR. reflexivity.
  - pose proof C as C0. destruct C as [CR (xr & XR & C)]. rewrite CR in *. rewrite (get_ok s r xr XR). cbn [rbind]. rewrite (P r xr XR), (P i xi XI).
    cbn [ins] in *. destruct (pr r <? pr i); [apply FR; reflexivity|]. clear FR.
    destruct (walk_ok pr R fuel s r i xi C0 N NI XI P) as (s' & E & D & L & K & T & RL & CP & RN); [cbn in F; lia|].
    exists s'. split; [exact E|]. rewrite RL, CR. auto.
Qed.

(** *** The update loop *)
Definition time_of (p age : Z) : Z := (every p - age mod every p) mod 65536.
Definition matches (x : item) (i : Z) (j : job) : Prop :=
  nextTask x = (if i =? 0 then None else Some (i - 1)) /\ task x = jtask j /\ period x = jperiod j /\ priority x = jprio j /\
  time x = time_of (jperiod j) (jage j) /\ 0 <= jperiod j < 65536 /\ 1 <= jprio j < 256 /\ 0 <= jage j.

Lemma every_range p : 0 <= p < 65536 -> 1 <= every p <= 65536 /\ every p mod 65536 = p.
Proof. intro H. unfold every. destruct (p =? 0) eqn:E; lia. Qed.

Lemma time_step p age : 0 <= p < 65536 -> 0 <= age ->
  (u16 (time_of p age - 1) =? 0) = ((age + 1) mod every p =? 0) /\
  ((age + 1) mod every p = 0 -> p = time_of p (age + 1)) /\
  ((age + 1) mod every p <> 0 -> u16 (time_of p age - 1) = time_of p (age + 1)).
Proof.
  intros P A. pose proof (every_range p P) as [E1 E2]. unfold time_of, u16. set (e := every p) in *. clearbody e.
  assert (M : 0 <= age mod e < e) by (apply Z.mod_pos_bound; lia).
  assert (S : (age + 1) mod e = if age mod e =? e - 1 then 0 else age mod e + 1).
  { destruct (age mod e =? e - 1) eqn:X.
    - replace (age + 1) with ((age / e + 1) * e) by (pose proof (Z.div_mod age e); lia). apply Z.mod_mul. lia.
    - symmetry. apply (Z.mod_unique _ _ (age / e)); [left; lia|]. pose proof (Z.div_mod age e). lia. }
  rewrite S. clear S. set (m := age mod e) in *. clearbody m.
  destruct (m =? e - 1) eqn:X.
  - assert (m = e - 1) by lia. subst m. replace (e - (e - 1)) with 1 by lia. split; [reflexivity|]. split; [|lia]. rewrite Z.sub_0_r. lia.
  - split; [lia|]. split; lia.
Qed.

Lemma alike_get a b i x : alike a b -> znth a i = Some x -> exists y, znth b i = Some y /\ core y = core x.
Proof. intros [_ A] H. specialize (A i). rewrite H in A. destruct (znth b i) as [y|]; [|discriminate]. cbn in A. exists y. split; [reflexivity|congruence]. Qed.
Lemma matches_core x y i j : core x = core y -> matches x i j -> matches y i j.
Proof. intros C M. unfold core in C. injection C as C1 C2 C3 C4 C5. unfold matches in *. rewrite <- C1, <- C2, <- C3, <- C4, <- C5. exact M. Qed.

(** State of the loop before item [i]: the items above [i] have been updated. *)
Definition mid (jobs : list job) (i : Z) (its : list item) : Prop :=
  zlen its = zlen jobs /\ forall k j, znth jobs k = Some j -> exists x, znth its k = Some x /\ matches x k (if k <=? i then j else older j).

Definition dueb (j : job) : bool := (jage j mod every (jperiod j) =? 0).
Definition is_due (jobs : list job) (i : Z) : bool := match znth jobs i with Some j => dueb (older j) | None => false end.
Definition jpr (jobs : list job) (k : Z) : Z := match znth jobs k with Some j => jprio j | None => 0 end.

Lemma znth_None_range {A} (l : list A) i : znth l i = None -> i < 0 \/ zlen l <= i.
Proof.
  unfold znth, zlen. destruct (i <? 0) eqn:E; [lia|]. intro H. apply nth_error_None in H. lia.
Qed.

Lemma mid_prios jobs i its : mid jobs i its -> prios its (jpr jobs).
Proof.
  intros [L M] k x H. unfold jpr. destruct (znth jobs k) as [j|] eqn:J.
  - destruct (M k j J) as (y & Y & MM). rewrite H in Y. injection Y as <-. destruct MM as (_ & _ & _ & PP & _). rewrite PP. destruct (k <=? i); reflexivity.
  - apply znth_None_range in J. apply znth_Some_range in H. lia.
Qed.

Lemma mid_alike jobs i a b : alike a b -> mid jobs i a -> mid jobs i b.
Proof.
  intros A [L M]. split; [rewrite <- L; symmetry; apply A|]. intros k j J. destruct (M k j J) as (x & X & MM). destruct (alike_get a b k x A X) as (y & Y & C).
  exists y. split; [exact Y|]. apply (matches_core x); [symmetry; exact C|exact MM].
Qed.

Lemma update_item_ok jobs R fuel s i j : mid jobs i (items s) -> znth jobs i = Some j -> chain (items s) (readyList s) R -> NoDup R -> ~ In i R -> (length R < fuel)%nat ->
  exists s', update_item fuel i s = Done s' /\ mid jobs (i - 1) (items s') /\
   chain (items s') (readyList s') (if is_due jobs i then ins (jpr jobs) i R else R) /\
   taskList s' = taskList s /\ currentPriority s' = currentPriority s /\ ran s' = ran s.
Proof.
  intros M J C N NI F. pose proof M as [L MM]. destruct (MM i j J) as (x & X & XM). replace (i <=? i) with true in XM by lia.
  unfold update_item. rewrite (get_ok s i x X). cbn [rbind].
  destruct (set_ok s i x (with_time x (u16 (time x - 1))) X) as (l1 & E1 & L1 & G1). rewrite E1. cbn [rbind]. set (s1 := Sched l1 _ _ _ _).
  assert (X1 : znth (items s1) i = Some (with_time x (u16 (time x - 1)))) by (cbn [items s1]; rewrite G1, Z.eqb_refl; reflexivity).
  rewrite (get_ok s1 i _ X1). cbn [rbind time with_time].
  pose proof XM as (M1 & M2 & M3 & M4 & M5 & M6 & M7 & M8).
  destruct (time_step (jperiod j) (jage j) M6 M8) as (T1 & T2 & T3). rewrite M5, T1.
  assert (ID : is_due jobs i = ((jage j + 1) mod every (jperiod j) =? 0)) by (unfold is_due; rewrite J; reflexivity). rewrite ID.
  assert (OM : forall t, t = time_of (jperiod j) (jage j + 1) -> matches (with_time x t) i (older j)).
  { intros t ->. unfold matches. cbn. repeat split; try assumption; lia. }
  assert (NEW : forall its y, zlen its = zlen (items s) -> (forall k, k <> i -> znth its k = znth (items s) k) -> znth its i = Some y -> matches y i (older j) -> mid jobs (i - 1) its).
  { intros its y LL O Y MY. split; [congruence|]. intros k j' J'. destruct (Z.eq_dec k i) as [->|K].
    - rewrite J in J'. injection J' as <-. exists y. split; [exact Y|]. replace (i <=? i - 1) with false by lia. exact MY.
    - destruct (MM k j' J') as (z & Zz & MZ). exists z. split; [rewrite O by exact K; exact Zz|]. replace (k <=? i - 1) with (k <=? i) by lia. exact MZ. }
  destruct ((jage j + 1) mod every (jperiod j) =? 0) eqn:D.
  - destruct (set_ok s1 i _ (with_time (with_time x (u16 (time_of (jperiod j) (jage j) - 1))) (period x)) X1) as (l2 & E2 & L2 & G2).
    cbn [period with_time] in E2 |- *. rewrite <- M5 in E2 |- *. rewrite E2. cbn [rbind]. cbn [taskList readyList currentPriority ran s1] in *.
    set (s2 := Sched l2 _ _ _ _). rewrite M5 in *.
    set (x2 := with_time (with_time x (u16 (time_of (jperiod j) (jage j) - 1))) (period x)) in *.
    assert (X2 : znth (items s2) i = Some x2) by (cbn [items s2]; rewrite G2, Z.eqb_refl; reflexivity).
    assert (O2 : forall k, k <> i -> znth (items s2) k = znth (items s) k).
    { intros k K. cbn [items s2]. rewrite G2. cbn [items s1]. rewrite G1. replace (k =? i) with false by lia. reflexivity. }
    assert (MD2 : mid jobs (i - 1) (items s2)).
    { apply (NEW (items s2) x2); [cbn [items s2 s1] in *; congruence|exact O2|exact X2|]. change x2 with (with_time x (period x)). apply OM. rewrite M3. apply T2. lia. }
    assert (C2 : chain (items s2) (readyList s2) R).
    { apply (chain_ext (items s)); [|exact C]. intros k K. apply O2. intros ->. contradiction. }
    destruct (make_ready_ok (jpr jobs) R fuel s2 i x2 C2 N NI X2 (mid_prios _ _ _ MD2) F) as (s3 & E3 & C3 & A3 & T & CP & RN). rewrite E3. cbn [rbind].
    destruct (alike_get _ _ i x2 A3 X2) as (x3 & X3 & K3). rewrite (get_ok s3 i x3 X3). cbn [rbind].
    destruct (set_ok s3 i x3 (with_state x3 READY) X3) as (l4 & E4 & L4 & G4). rewrite E4. eexists. split; [reflexivity|]. cbn [items readyList taskList currentPriority ran].
    split; [|split; [|auto]].
    + apply (mid_alike jobs (i - 1) (items s3)); [|apply (mid_alike jobs (i - 1) (items s2)); assumption]. split; [congruence|]. intro k. rewrite G4. destruct (Z.eqb_spec k i) as [->|]; [rewrite X3|]; reflexivity.
    + clear - C3 G4 X3. revert C3. generalize (ins (jpr jobs) i R), (readyList s3). intros q p. revert p. induction q as [|b q IH]; intros p H; [exact H|].
      destruct H as [H1 (y & H2 & H3)]. split; [exact H1|]. destruct (Z.eq_dec b i) as [->|Bi].
      * exists (with_state x3 READY). split; [rewrite G4, Z.eqb_refl; reflexivity|]. cbn [nextReady with_state]. apply IH. congruence.
      * exists y. split; [rewrite G4; replace (b =? i) with false by lia; exact H2|]. apply IH. exact H3.
  - exists s1. split; [reflexivity|]. split; [|split; [|auto]].
    + apply (NEW (items s1) (with_time x (u16 (time x - 1)))); [exact L1|intros k K; cbn [items s1]; rewrite G1; replace (k =? i) with false by lia; reflexivity|exact X1|]. apply OM. rewrite M5. apply T3. lia.
    + apply (chain_ext (items s)); [|exact C]. intros k K. cbn [items s1]. rewrite G1. destruct (Z.eqb_spec k i) as [->|]; [contradiction|reflexivity].
Qed.

(** The due jobs from [n-1] down to 0, inserted one after the other. *)
Fixpoint collect (jobs : list job) (n : nat) (R : list Z) : list Z :=
  match n with
  | O => R
  | S n => collect jobs n (if is_due jobs (Z.of_nat n) then ins (jpr jobs) (Z.of_nat n) R else R)
  end.

Lemma ins_len pr i l : length (ins pr i l) = S (length l).
Proof. induction l as [|r l IH]; cbn; [reflexivity|]. destruct (pr r <? pr i); cbn; [reflexivity|]. rewrite IH. reflexivity. Qed.

Lemma znth_in_range {A} (l : list A) i : 0 <= i < zlen l -> exists x, znth l i = Some x.
Proof. intro H. destruct (znth l i) as [x|] eqn:E; [eauto|]. apply znth_None_range in E. lia. Qed.

Lemma update_ok jobs n : forall R fuel s, mid jobs (Z.of_nat n) (items s) -> Z.of_nat n < zlen jobs -> chain (items s) (readyList s) R -> NoDup R ->
  (forall k, In k R -> Z.of_nat n < k) -> (length R + 2 * n + 1 < fuel)%nat ->
  exists s', update fuel (Z.of_nat n) s = Done s' /\ mid jobs (-1) (items s') /\ chain (items s') (readyList s') (collect jobs (S n) R) /\
   taskList s' = taskList s /\ currentPriority s' = currentPriority s /\ ran s' = ran s.
Proof.
  induction n as [|n IH]; intros R fuel s M Ln C N G F; (destruct fuel as [|fuel]; [lia|]).
  - destruct (znth_in_range jobs 0) as [j J]; [lia|].
    destruct (update_item_ok jobs R (S fuel) s 0 j M J C N) as (s1 & E1 & M1 & C1 & T1 & P1 & R1); [intro H; apply G in H; lia|lia|].
    cbn [update]. change (Z.of_nat 0) with 0 in *. rewrite E1. cbn [rbind]. destruct M1 as [L1 MM1]. destruct (MM1 0 j J) as (x & X & XM). rewrite (get_ok s1 0 x X). cbn [rbind].
    destruct XM as (NT & _). rewrite NT. cbn [Z.eqb]. exists s1. split; [reflexivity|]. split; [split; [exact L1|exact MM1]|]. cbn [collect]. auto.
  - destruct (znth_in_range jobs (Z.of_nat (S n))) as [j J]; [lia|].
    destruct (update_item_ok jobs R (S fuel) s (Z.of_nat (S n)) j M J C N) as (s1 & E1 & M1 & C1 & T1 & P1 & R1); [intro H; apply G in H; lia|lia|].
    cbn [update]. rewrite E1. cbn [rbind]. pose proof M1 as [L1 MM1]. destruct (MM1 _ j J) as (x & X & XM). rewrite (get_ok s1 _ x X). cbn [rbind].
    destruct XM as (NT & _). rewrite NT. replace (Z.of_nat (S n) =? 0) with false by lia. replace (Z.of_nat (S n) - 1) with (Z.of_nat n) in * by lia.
    destruct (IH (if is_due jobs (Z.of_nat (S n)) then ins (jpr jobs) (Z.of_nat (S n)) R else R) fuel s1 M1 ltac:(lia) C1) as (s2 & E2 & M2 & C2 & T2 & P2 & R2).
    + destruct (is_due _ _); [|exact N]. apply ins_NoDup; [exact N|]. intro H. apply G in H. lia.
    + intros k K. destruct (is_due _ _); [apply ins_In in K; destruct K as [->|K]; [lia|]|]; apply G in K; lia.
    + destruct (is_due _ _); [rewrite ins_len|]; lia.
    + exists s2. split; [exact E2|]. split; [exact M2|]. split; [exact C2|]. split; [congruence|]. split; congruence.
Qed.

(** *** The execution loop *)
Definition task_at (its : list item) (k : Z) : Z := match znth its k with Some x => task x | None => 0 end.

Lemma execute_ok R : forall fuel s, chain (items s) (readyList s) R -> currentPriority s = 0 -> NoDup R ->
  (forall k x, In k R -> znth (items s) k = Some x -> 0 < priority x) -> (length R + 1 < fuel)%nat ->
  exists s', execute fuel [] s = Done ([], s') /\ alike (items s) (items s') /\ readyList s' = None /\ currentPriority s' = 0 /\
   taskList s' = taskList s /\ ran s' = ran s ++ map (task_at (items s)) R.
Proof.
  induction R as [|i R IH]; intros fuel s C P N Q F; (destruct fuel as [|fuel]; [lia|]); cbn [execute].
  - cbn in C. rewrite C. exists s. split; [reflexivity|]. rewrite app_nil_r. split; [apply alike_refl|auto].
  - destruct C as [CI (x & X & C)]. rewrite CI. rewrite (get_ok s i x X). cbn [rbind].
    pose proof (Q i x (or_introl eq_refl) X) as QP. rewrite P. replace (0 <? priority x) with true by lia.
    destruct (set_ok s i x (with_state x RUNNING) X) as (l1 & E1 & L1 & G1). rewrite E1. cbn [rbind].
    destruct fuel as [|fuel]; [cbn in F; lia|]. cbn [nested rbind]. unfold set_ready, set_prio. cbn [items taskList readyList currentPriority ran].
    set (s1 := Sched l1 _ _ 0 _). assert (X1 : znth (items s1) i = Some (with_state x RUNNING)) by (cbn [items s1]; rewrite G1, Z.eqb_refl; reflexivity).
    rewrite (get_ok s1 i _ X1). cbn [rbind]. destruct (set_ok s1 i _ (with_state (with_state x RUNNING) WAITING) X1) as (l2 & E2 & L2 & G2). rewrite E2. cbn [rbind].
    cbn [items taskList readyList currentPriority ran s1] in *. set (s2 := Sched l2 _ _ 0 _).
    inversion N as [|? ? N1 N2]; subst.
    assert (O : forall k, k <> i -> znth l2 k = znth (items s) k) by (intros k K; rewrite G2, G1; replace (k =? i) with false by lia; reflexivity).
    assert (AL : alike (items s) l2).
    { split; [congruence|]. intro k. rewrite G2, G1. destruct (Z.eqb_spec k i) as [->|]; [rewrite X|]; reflexivity. }
    destruct (IH (S fuel) s2) as (s3 & E3 & A3 & R3 & P3 & T3 & RN3).
    + apply (chain_ext (items s)); [|exact C]. intros k K. apply O. intros ->. contradiction.
    + reflexivity.
    + exact N2.
    + intros k y K Y. cbn [items s2] in Y. rewrite O in Y by (intros ->; contradiction). exact (Q k y (or_intror K) Y).
    + cbn in F |- *. lia.
    + exists s3. split; [exact E3|]. split; [exact (alike_trans _ _ _ AL A3)|]. split; [exact R3|]. split; [exact P3|]. split; [exact T3|].
      rewrite RN3. cbn [ran s2 items map]. rewrite <- app_assoc. cbn [app]. f_equal. f_equal; [unfold task_at; rewrite X; reflexivity|].
      apply map_ext_in. intros k K. unfold task_at. rewrite O by (intros ->; contradiction). reflexivity.
Qed.

(** *** The whole scheduler between two calls *)
Record rep (s : sched) (jobs : list job) : Prop := {
  rep_mid : mid jobs (zlen jobs - 1) (items s);
  rep_list : taskList s = if zlen jobs =? 0 then None else Some (zlen jobs - 1);
  rep_ready : readyList s = None;
  rep_prio : currentPriority s = 0 }.

Lemma zlen_map {A B} (f : A -> B) l : zlen (map f l) = zlen l.
Proof. unfold zlen. rewrite map_length. reflexivity. Qed.
Lemma znth_map' {A B} (f : A -> B) l i : znth (map f l) i = option_map f (znth l i).
Proof. unfold znth. destruct (i <? 0); [reflexivity|]. apply nth_error_map. Qed.

Lemma collect_In jobs n : forall R k, In k (collect jobs n R) <-> In k R \/ (0 <= k < Z.of_nat n /\ is_due jobs k = true).
Proof.
  induction n as [|n IH]; intros R k; cbn [collect]; [split; [auto|intros [H|H]; [exact H|lia]]|]. rewrite IH. clear IH.
  destruct (is_due jobs (Z.of_nat n)) eqn:D.
  - rewrite ins_In. split.
    + intros [[->|H]|H]; [right; split; [lia|exact D]|left; exact H|right; split; [lia|apply H]].
    + intros [H|[H1 H2]]; [left; right; exact H|]. destruct (Z.eq_dec k (Z.of_nat n)); [left; left; assumption|right; split; [lia|exact H2]].
  - split; [intros [H|H]; [left; exact H|right; split; [lia|apply H]]|].
    intros [H|[H1 H2]]; [left; exact H|]. destruct (Z.eq_dec k (Z.of_nat n)) as [->|]; [congruence|right; split; [lia|exact H2]].
Qed.

Definition bef (pr : Z -> Z) (a b : Z) : Prop := pr a > pr b \/ pr a = pr b /\ a > b.
Lemma ins_sorted pr i l : StronglySorted (bef pr) l -> (forall k, In k l -> i < k) -> StronglySorted (bef pr) (ins pr i l).
Proof.
  induction l as [|r l IH]; intros S G; cbn [ins]; [repeat constructor|]. inversion S as [|? ? S1 S2]; subst.
  destruct (pr r <? pr i) eqn:E.
  - constructor; [exact S|]. constructor; [left; lia|]. rewrite Forall_forall in *. intros k K. specialize (S2 k K). unfold bef in *. lia.
  - constructor; [apply IH; [exact S1|intros k K; apply G; right; exact K]|]. rewrite Forall_forall in *. intros k K. apply ins_In in K. destruct K as [->|K]; [|apply S2; exact K].
    pose proof (G r (or_introl eq_refl)). unfold bef. lia.
Qed.

Lemma collect_good jobs n : forall R, NoDup R -> StronglySorted (bef (jpr jobs)) R -> (forall k, In k R -> Z.of_nat n <= k) ->
  NoDup (collect jobs n R) /\ StronglySorted (bef (jpr jobs)) (collect jobs n R).
Proof.
  induction n as [|n IH]; intros R N S G; cbn [collect]; [auto|]. apply IH.
  - destruct (is_due _ _); [|exact N]. apply ins_NoDup; [exact N|]. intro H. apply G in H. lia.
  - destruct (is_due _ _); [|exact S]. apply ins_sorted; [exact S|]. intros k K. apply G in K. lia.
  - intros k K. destruct (is_due _ _); [apply ins_In in K; destruct K as [->|K]; [lia|]|]; apply G in K; lia.
Qed.

Definition order_of (jobs : list job) : list Z := collect jobs (length jobs) [].

Lemma tick_ok s jobs fuel : rep s jobs -> (2 * length jobs + 5 < fuel)%nat ->
  exists s', tick fuel [] s = Done ([], s') /\ rep s' (map older jobs) /\ ran s' = ran s ++ map (fun k => match znth jobs k with Some j => jtask j | None => 0 end) (order_of jobs).
Proof.
  intros R F. destruct fuel as [|fuel]; [lia|]. cbn [tick]. rewrite (rep_list s jobs R).
  destruct (length jobs) as [|n] eqn:LN.
  - assert (jobs = []) by (destruct jobs; [reflexivity|discriminate]). subst jobs. cbn [zlen length Z.of_nat Z.eqb]. exists s. split; [reflexivity|]. split; [exact R|]. unfold order_of. cbn. rewrite app_nil_r. reflexivity.
  - assert (ZL : zlen jobs = Z.of_nat n + 1) by (unfold zlen; lia). replace (zlen jobs =? 0) with false by lia. replace (zlen jobs - 1) with (Z.of_nat n) by lia.
    pose proof (rep_mid s jobs R) as M. replace (zlen jobs - 1) with (Z.of_nat n) in M by lia.
    destruct (update_ok jobs n [] fuel s M ltac:(lia) (rep_ready s jobs R) (NoDup_nil _) (fun k (H : In k []) => match H with end) ltac:(cbn; lia)) as (s1 & E1 & M1 & C1 & T1 & P1 & R1).
    rewrite E1. cbn [rbind].
    assert (OE : collect jobs (S n) [] = order_of jobs) by (unfold order_of; rewrite LN; reflexivity). rewrite OE in C1.
    destruct (collect_good jobs (length jobs) [] (NoDup_nil _) (SSorted_nil _) (fun k (H : In k []) => match H with end)) as [ND SS]. fold (order_of jobs) in ND, SS.
    assert (LE : (length (order_of jobs) <= length jobs)%nat).
    { assert (INC : incl (order_of jobs) (map Z.of_nat (seq 0 (length jobs)))).
      { intros k K. unfold order_of in K. apply collect_In in K. destruct K as [[]|[K _]]. apply in_map_iff. exists (Z.to_nat k). split; [lia|]. apply in_seq. lia. }
      pose proof (NoDup_incl_length ND INC) as Q. rewrite map_length, seq_length in Q. exact Q. }
    destruct (execute_ok (order_of jobs) fuel s1 C1) as (s2 & E2 & A2 & RD & P2 & T2 & RN2).
    + rewrite P1. apply (rep_prio s jobs R).
    + exact ND.
    + intros k x K X. destruct M1 as [L1 MM1]. destruct (znth_in_range jobs k) as [j J]; [apply znth_Some_range in X; lia|].
      destruct (MM1 k j J) as (y & Y & MY). rewrite X in Y. injection Y as <-. destruct MY as (_ & _ & _ & PP & _ & _ & P7 & _). rewrite PP. destruct (k <=? -1); cbn in *; lia.
    + lia.
    + exists s2. split; [exact E2|]. split.
      * pose proof (mid_alike _ _ _ _ A2 M1) as [L3 M3]. constructor.
        -- split; [rewrite zlen_map; exact L3|]. intros k j J. rewrite znth_map' in J. destruct (znth jobs k) as [j0|] eqn:J0; [|discriminate]. cbn in J. injection J as <-.
           destruct (M3 k j0 J0) as (x & X & MX). exists x. split; [exact X|]. pose proof (znth_Some_range _ _ _ J0) as RG. replace (k <=? -1) with false in MX by lia.
           rewrite zlen_map. replace (k <=? zlen jobs - 1) with true by lia. exact MX.
        -- rewrite T2, T1, zlen_map. apply (rep_list s jobs R).
        -- exact RD.
        -- exact P2.
      * rewrite RN2, R1. f_equal. apply map_ext_in. intros k K. unfold task_at. unfold order_of in K. apply collect_In in K. destruct K as [[]|[K _]].
        destruct (znth_in_range jobs k) as [j J]; [unfold zlen; lia|]. destruct M1 as [L1 MM1]. destruct (MM1 k j J) as (y & Y & MY). rewrite Y, J. destruct MY as (_ & PP & _). rewrite PP. destruct (k <=? -1); reflexivity.
Qed.

Lemma znth_snoc {A} (l : list A) x i : znth (l ++ [x]) i = if i =? zlen l then Some x else znth l i.
Proof.
  unfold znth, zlen. destruct (i <? 0) eqn:E; [replace (i =? Z.of_nat (length l)) with false by lia; reflexivity|].
  destruct (i =? Z.of_nat (length l)) eqn:K.
  - replace (Z.to_nat i) with (length l) by lia. rewrite nth_error_app2 by lia. rewrite Nat.sub_diag. reflexivity.
  - destruct (Z.lt_ge_cases i (Z.of_nat (length l))).
    + rewrite nth_error_app1 by lia. reflexivity.
    + rewrite nth_error_app2 by lia. destruct (Z.to_nat i - length l)%nat eqn:Q; [lia|]. cbn. transitivity (@None A); [destruct n; reflexivity|]. symmetry. apply nth_error_None. lia.
Qed.
Lemma zlen_snoc {A} (l : list A) x : zlen (l ++ [x]) = zlen l + 1.
Proof. unfold zlen. rewrite app_length. cbn. lia. Qed.

Lemma add_ok s jobs tk p prio : rep s jobs -> 0 <= p < 65536 -> 1 <= prio < 256 ->
  rep (scheduleTask tk p prio s) (jobs ++ [Job tk p prio 0]) /\ ran (scheduleTask tk p prio s) = ran s.
Proof.
  intros R P Q. pose proof (rep_mid s jobs R) as [L M].
  assert (ZN : 0 <= zlen jobs) by (unfold zlen; lia).
  assert (K : forall nt, nt = taskList s -> rep (Sched (items s ++ [Item nt None tk p p prio WAITING]) (Some (zlen (items s))) (readyList s) (currentPriority s) (ran s)) (jobs ++ [Job tk p prio 0])).
  { intros nt ->. constructor; cbn [items taskList readyList currentPriority].
    - split; [rewrite !zlen_snoc; lia|]. intros k j J. rewrite (znth_snoc jobs) in J. rewrite (znth_snoc (items s)). rewrite zlen_snoc. rewrite L. revert J. destruct (Z.eqb_spec k (zlen jobs)) as [->|KN]; intro J.
      + injection J as <-. eexists. split; [reflexivity|]. replace (zlen jobs <=? zlen jobs + 1 - 1) with true by lia. unfold matches. cbn.
        rewrite (rep_list s jobs R). split; [reflexivity|]. repeat split; try lia. unfold time_of. rewrite Zmod_0_l, Z.sub_0_r. symmetry. apply every_range. exact P.
      + destruct (M k j J) as (x & X & MX). exists x. split; [exact X|]. apply znth_Some_range in J. replace (k <=? zlen jobs - 1) with true in MX by lia. replace (k <=? zlen jobs + 1 - 1) with true by lia. exact MX.
    - rewrite zlen_snoc. replace (zlen jobs + 1 =? 0) with false by lia. f_equal. lia.
    - apply (rep_ready s jobs R).
    - apply (rep_prio s jobs R). }
  unfold scheduleTask. destruct (taskList s) as [t|] eqn:T; (split; [apply K; reflexivity|reflexivity]).
Qed.

Lemma rep_start : rep scheduler [].
Proof. constructor; cbn; try reflexivity. split; [reflexivity|]. intros k j H. unfold znth in H. destruct (k <? 0); [discriminate|]. destruct (Z.to_nat k); discriminate. Qed.

Lemma jobs_snoc ops o : jobs_of (ops ++ [o]) = after_call o (jobs_of ops).
Proof. unfold jobs_of. rewrite fold_left_app. reflexivity. Qed.
Lemma jobs_len ops : (length (jobs_of ops) <= length ops)%nat.
Proof.
  induction ops as [|o ops IH] using rev_ind; [cbn; lia|]. rewrite jobs_snoc, app_length. cbn [length]. destruct o; cbn [after_call]; [rewrite app_length; cbn; lia|rewrite map_length; lia].
Qed.
Lemma calls_snoc fuel ops o s : calls fuel (ops ++ [o]) s = rbind (calls fuel ops s) (call fuel o).
Proof.
  revert s. induction ops as [|a ops IH]; intro s; cbn [app calls]; [cbn; destruct (call fuel o s); reflexivity|]. destruct (call fuel a s); cbn [rbind]; [apply IH|reflexivity|reflexivity].
Qed.

Lemma calls_ok fuel ops : Forall good ops -> (2 * length ops + 5 < fuel)%nat -> exists s, calls fuel ops scheduler = Done s /\ rep s (jobs_of ops).
Proof.
  induction ops as [|o ops IH] using rev_ind; intros G F; [exists scheduler; split; [reflexivity|exact rep_start]|].
  apply Forall_app in G. destruct G as [G1 G2]. apply Forall_inv in G2. rewrite app_length in F. cbn in F. destruct IH as (s & E & R); [exact G1|lia|].
  rewrite calls_snoc, E. cbn [rbind]. rewrite jobs_snoc. destruct o as [tk p prio|]; cbn [call after_call].
  - destruct G2 as [P Q]. eexists. split; [reflexivity|]. apply (add_ok s (jobs_of ops) tk p prio R P Q).
  - pose proof (jobs_len ops). destruct (tick_ok s (jobs_of ops) fuel R) as (s' & E' & R' & _); [lia|]. rewrite E'. cbn [rbind]. exists s'. split; [reflexivity|exact R'].
Qed.

(** *** The specification *)
Lemma order_right jobs : right_order (map older jobs) (order_of jobs).
Proof.
  destruct (collect_good jobs (length jobs) [] (NoDup_nil _) (SSorted_nil _) (fun k (H : In k []) => match H with end)) as [ND SS]. fold (order_of jobs) in ND, SS.
  assert (II : forall i, In i (order_of jobs) -> exists j, znth jobs i = Some j).
  { intros i H. unfold order_of in H. apply collect_In in H. destruct H as [[]|[H _]]. apply znth_in_range. unfold zlen. lia. }
  split; [exact ND|]. split.
  - intro i. unfold order_of. rewrite collect_In. split.
    + intros [[]|[H D]]. unfold is_due in D. destruct (znth jobs i) as [j|] eqn:J; [|discriminate]. exists (older j). rewrite znth_map', J. split; [reflexivity|]. unfold dueb in D. unfold due. lia.
    + intros (j & J & D). rewrite znth_map' in J. destruct (znth jobs i) as [j0|] eqn:J0; [|discriminate]. injection J as <-. right. pose proof (znth_Some_range _ _ _ J0) as RG. unfold zlen in RG. split; [lia|].
      unfold is_due. rewrite J0. unfold dueb, due in *. lia.
  - revert II SS. clear ND. generalize (order_of jobs). intro l. induction l as [|a l IH]; intros II SS; [constructor|]. inversion SS as [|? ? S1 S2]; subst. constructor; [apply IH; [intros i H; apply II; right; exact H|exact S1]|].
    rewrite Forall_forall in *. intros b B. destruct (II a (or_introl eq_refl)) as [ja JA]. destruct (II b (or_intror B)) as [jb JB]. specialize (S2 b B). unfold bef, jpr in S2. rewrite JA, JB in S2.
    exists (older ja), (older jb). rewrite !znth_map', JA, JB. split; [reflexivity|]. split; [reflexivity|exact S2].
Qed.

Lemma order_tasks jobs : tasks_of (map older jobs) (order_of jobs) (map (fun k => match znth jobs k with Some j => jtask j | None => 0 end) (order_of jobs)).
Proof.
  assert (II : forall i, In i (order_of jobs) -> exists j, znth jobs i = Some j).
  { intros i H. unfold order_of in H. apply collect_In in H. destruct H as [[]|[H _]]. apply znth_in_range. unfold zlen. lia. }
  revert II. generalize (order_of jobs). intro l. unfold tasks_of. induction l as [|a l IH]; intro II; cbn [map]; constructor; [|apply IH; intros i H; apply II; right; exact H].
  destruct (II a (or_introl eq_refl)) as [j J]. exists (older j). rewrite znth_map', J. split; reflexivity.
Qed.

Lemma sched_tick fuel ops : Forall good ops -> (2 * length ops + 7 < fuel)%nat ->
  exists s s' order names, calls fuel ops scheduler = Done s /\ calls fuel (ops ++ [Tick]) scheduler = Done s' /\
    ran s' = ran s ++ names /\ right_order (jobs_of (ops ++ [Tick])) order /\ tasks_of (jobs_of (ops ++ [Tick])) order names.
Proof.
  intros G F. destruct (calls_ok fuel ops G) as (s & E & R); [lia|]. pose proof (jobs_len ops).
  destruct (tick_ok s (jobs_of ops) fuel R) as (s' & E' & R' & RN); [lia|]. exists s, s', (order_of (jobs_of ops)). eexists.
  split; [exact E|]. rewrite calls_snoc, E. cbn [rbind call]. rewrite E'. cbn [rbind]. split; [reflexivity|]. split; [exact RN|]. rewrite jobs_snoc. cbn [after_call]. split; [apply order_right|apply order_tasks].
Qed.

(** *** Number of runs *)
Lemma jtasks_older jobs : map jtask (map older jobs) = map jtask jobs.
Proof. rewrite map_map. apply map_ext. reflexivity. Qed.

Lemma count_map_inj (f : Z -> Z) l k : (forall i, In i l -> f i = f k -> i = k) -> count_occ Z.eq_dec (map f l) (f k) = count_occ Z.eq_dec l k.
Proof.
  induction l as [|a l IH]; intro H; [reflexivity|]. cbn [map count_occ]. rewrite IH by (intros i Hi; apply H; right; exact Hi).
  destruct (Z.eq_dec (f a) (f k)) as [E|E]; destruct (Z.eq_dec a k) as [E2|E2]; try reflexivity; [|subst; congruence].
  exfalso. apply E2, H; [left; reflexivity|exact E].
Qed.

Lemma count_NoDup l k : NoDup l -> count_occ Z.eq_dec l k = if in_dec Z.eq_dec k l then 1%nat else 0%nat.
Proof. intro N. destruct (in_dec Z.eq_dec k l) as [I|I]; [exact (proj1 (NoDup_count_occ' Z.eq_dec l) N k I)|apply count_occ_not_In; exact I]. Qed.

Lemma NoDup_znth (l : list Z) i k x : NoDup l -> znth l i = Some x -> znth l k = Some x -> i = k.
Proof.
  intros N I K. pose proof (znth_Some_range _ _ _ I) as RI. pose proof (znth_Some_range _ _ _ K) as RK. unfold znth, zlen in *.
  replace (i <? 0) with false in I by lia. replace (k <? 0) with false in K by lia. apply (proj1 (NoDup_nth_error l)) with (i := Z.to_nat i) (j := Z.to_nat k) in N; [lia|lia|congruence].
Qed.

Lemma tick_count jobs k j : NoDup (map jtask jobs) -> znth jobs k = Some j ->
  count_occ Z.eq_dec (map (fun k => match znth jobs k with Some j => jtask j | None => 0 end) (order_of jobs)) (jtask j) =
  if dueb (older j) then 1%nat else 0%nat.
Proof.
  intros N J. set (f := fun k => match znth jobs k with Some j => jtask j | None => 0 end).
  assert (FK : jtask j = f k) by (unfold f; rewrite J; reflexivity). rewrite FK. rewrite count_map_inj.
  - destruct (order_right jobs) as (ND & IN & _). rewrite (count_NoDup _ _ ND). destruct (in_dec Z.eq_dec k (order_of jobs)) as [I|I].
    + apply IN in I. destruct I as (j' & J' & D). rewrite znth_map', J in J'. injection J' as <-. unfold due in D. unfold dueb. replace (_ =? 0) with true by lia. reflexivity.
    + destruct (dueb (older j)) eqn:D; [|reflexivity]. exfalso. apply I, IN. exists (older j). rewrite znth_map', J. split; [reflexivity|]. unfold dueb in D. unfold due. lia.
  - intros i I E. apply (NoDup_znth (map jtask jobs) i k (jtask j) N).
    + rewrite znth_map'. unfold f in E. rewrite J in E. unfold order_of in I. apply collect_In in I. destruct I as [[]|[I _]]. destruct (znth_in_range jobs i) as [j' J']; [unfold zlen; lia|]. rewrite J' in *. cbn. congruence.
    + rewrite znth_map', J. reflexivity.
Qed.

Lemma not_due_run jobs tk : ~ In tk (map jtask jobs) -> count_occ Z.eq_dec (map (fun k => match znth jobs k with Some j => jtask j | None => 0 end) (order_of jobs)) tk = 0%nat.
Proof.
  intro N. apply count_occ_not_In. intro H. apply in_map_iff in H. destruct H as (i & E & I). unfold order_of in I. apply collect_In in I. destruct I as [[]|[I _]].
  destruct (znth_in_range jobs i) as [j J]; [unfold zlen; lia|]. rewrite J in E. apply N. apply in_map_iff. exists j. split; [exact E|]. unfold znth in J. destruct (i <? 0); [discriminate|]. apply nth_error_In in J. exact J.
Qed.

Lemma div_step a e : 1 <= e -> 0 <= a -> (a + 1) / e = a / e + (if (a + 1) mod e =? 0 then 1 else 0).
Proof.
  intros E A. pose proof (Z.div_mod a e ltac:(lia)). pose proof (Z.mod_pos_bound a e ltac:(lia)).
  pose proof (Z.div_mod (a + 1) e ltac:(lia)). pose proof (Z.mod_pos_bound (a + 1) e ltac:(lia)).
  destruct ((a + 1) mod e =? 0) eqn:D; nia.
Qed.

Lemma sched_count fuel ops : Forall good ops -> (2 * length ops + 7 < fuel)%nat -> NoDup (map jtask (jobs_of ops)) ->
  exists s, calls fuel ops scheduler = Done s /\
   (forall tk, ~ In tk (map jtask (jobs_of ops)) -> count_occ Z.eq_dec (ran s) tk = 0%nat) /\
   forall i j, znth (jobs_of ops) i = Some j -> Z.of_nat (count_occ Z.eq_dec (ran s) (jtask j)) = jage j / every (jperiod j).
Proof.
  induction ops as [|o ops IH] using rev_ind; intros G F N.
  - exists scheduler. split; [reflexivity|]. split; [reflexivity|]. intros i j H. apply znth_Some_range in H. cbn in H. lia.
  - apply Forall_app in G. destruct G as [G1 G2]. apply Forall_inv in G2. rewrite app_length in F. cbn in F. rewrite jobs_snoc in N.
    destruct IH as (s & E & Z0 & C); [exact G1|lia|destruct o; cbn [after_call] in N; [rewrite map_app in N; apply NoDup_remove_1 in N; rewrite app_nil_r in N; exact N|rewrite jtasks_older in N; exact N]|].
    destruct (calls_ok fuel ops G1) as (s1 & E1 & R); [lia|]. rewrite E in E1. injection E1 as <-. pose proof (jobs_len ops) as JL.
    rewrite calls_snoc, E, jobs_snoc. cbn [rbind]. destruct o as [tk p prio|]; cbn [call after_call] in *.
    + destruct G2 as [P Q]. destruct (add_ok s (jobs_of ops) tk p prio R P Q) as [_ RN]. eexists. split; [reflexivity|]. rewrite RN. split.
      * intros t T. apply Z0. intro H. apply T. rewrite map_app. apply in_or_app. left. exact H.
      * intros i j J. rewrite znth_snoc in J. destruct (i =? zlen (jobs_of ops)); [|apply (C i j J)]. injection J as <-. cbn [jtask jage jperiod]. rewrite Zdiv_0_l. rewrite Z0; [reflexivity|].
        rewrite map_app in N. apply NoDup_remove_2 in N. rewrite app_nil_r in N. exact N.
    + destruct (tick_ok s (jobs_of ops) fuel R) as (s' & E' & R' & RN); [lia|]. rewrite E'. cbn [rbind]. exists s'. split; [reflexivity|]. rewrite jtasks_older in *. rewrite RN. split.
      * intros t T. rewrite count_occ_app, (Z0 t T), (not_due_run _ _ T). reflexivity.
      * intros i j J. rewrite znth_map' in J. destruct (znth (jobs_of ops) i) as [j0|] eqn:J0; [|discriminate]. injection J as <-. change (jtask (older j0)) with (jtask j0). rewrite count_occ_app, (tick_count _ i j0 N J0).
        rewrite Nat2Z.inj_add, (C i j0 J0). cbn [jage jperiod older].
        destruct (rep_mid s _ R) as [_ MM]. destruct (MM i j0 J0) as (x & _ & MX). assert (MX' : 0 <= jperiod j0 < 65536 /\ 0 <= jage j0) by (destruct MX as (_ & _ & _ & _ & _ & A & _ & B); destruct (i <=? zlen (jobs_of ops) - 1) eqn:LE; [auto|apply znth_Some_range in J0; lia]).
        rewrite div_step; [|pose proof (every_range _ (proj1 MX')); lia|lia]. unfold dueb. cbn [jage jperiod older]. destruct (_ =? 0); lia.
Qed.

(** *** Priority 0 *)
Definition zero_state (tk p t : Z) (nr r : option Z) (st : tstate) (rs : list Z) : sched :=
  Sched [Item None nr tk p t 0 st] (Some 0) r 0 rs.

Lemma zero_wait fuel tk p t nr r st rs : 2 <= t < 65536 -> (r = None \/ r = Some 0) ->
  call (S (S fuel)) Tick (zero_state tk p t nr r st rs) = Done (zero_state tk p (t - 1) nr r st rs).
Proof.
  intros T R. assert (U : u16 (t - 1) = t - 1) by (unfold u16; apply Z.mod_small; lia).
  cbn [call tick taskList zero_state update]. unfold update_item, get, set. cbn. rewrite U. replace (t - 1 =? 0) with false by lia. cbn.
  destruct R as [-> | ->]; reflexivity.
Qed.

Lemma zero_waits k : forall fuel tk p t nr r st rs, Z.of_nat k < t < 65536 -> (r = None \/ r = Some 0) ->
  calls (S (S fuel)) (repeat Tick k) (zero_state tk p t nr r st rs) = Done (zero_state tk p (t - Z.of_nat k) nr r st rs).
Proof.
  induction k as [|k IH]; intros fuel tk p t nr r st rs T R; cbn [repeat calls]; [rewrite Z.sub_0_r; reflexivity|].
  rewrite zero_wait by (lia || assumption). cbn [rbind]. rewrite IH by (lia || assumption). do 2 f_equal. lia.
Qed.

Lemma zero_first fuel tk p nr st rs : call (S (S fuel)) Tick (zero_state tk p 1 nr None st rs) = Done (zero_state tk p p None (Some 0) READY rs).
Proof. reflexivity. Qed.
Lemma zero_second fuel tk p st rs : call (S (S fuel)) Tick (zero_state tk p 1 None (Some 0) st rs) = Done (zero_state tk p p (Some 0) (Some 0) READY rs).
Proof. reflexivity. Qed.
Lemma zero_walk fuel tk p t st rs : walk fuel 0 0 (zero_state tk p t (Some 0) (Some 0) st rs) = OutOfFuel.
Proof. induction fuel as [|fuel IH]; [reflexivity|]. cbn. exact IH. Qed.
Lemma zero_third fuel tk p st rs : call fuel Tick (zero_state tk p 1 (Some 0) (Some 0) st rs) = OutOfFuel.
Proof.
  destruct fuel as [|[|fuel]]; [reflexivity|reflexivity|]. cbn [call tick taskList zero_state update]. unfold update_item, make_ready, get, set. cbn -[walk].
  pose proof (zero_walk (S fuel) tk p p st rs) as W. unfold zero_state in W. unfold with_time. cbn [nextTask nextReady task period time priority state]. rewrite W. reflexivity.
Qed.

Lemma calls_app fuel a b s : calls fuel (a ++ b) s = rbind (calls fuel a s) (calls fuel b).
Proof. revert s. induction a as [|o a IH]; intro s; cbn [app calls rbind]; [reflexivity|]. destruct (call fuel o s); cbn [rbind]; [apply IH|reflexivity|reflexivity]. Qed.

Lemma zero_round n fuel tk p nr r nr' r' rs st : 1 <= p < 65536 -> n = Z.to_nat p -> (r = None \/ r = Some 0) ->
  (forall st, call (S (S fuel)) Tick (zero_state tk p 1 nr r st rs) = Done (zero_state tk p p nr' r' READY rs)) ->
  calls (S (S fuel)) (repeat Tick n) (zero_state tk p p nr r st rs) = Done (zero_state tk p p nr' r' READY rs).
Proof.
  intros P N R H. replace n with (Z.to_nat (p - 1) + 1)%nat by lia. rewrite repeat_app, calls_app. cbn [repeat].
  rewrite zero_waits by (lia || assumption). cbn [rbind calls]. replace (p - Z.of_nat (Z.to_nat (p - 1))) with 1 by lia. rewrite H. reflexivity.
Qed.

Lemma sched_zero tk p : 1 <= p < 65536 ->
  (forall fuel, (2 <= fuel)%nat -> exists s, calls fuel (Add tk p 0 :: repeat Tick (Z.to_nat (3 * p - 1))) scheduler = Done s /\ ran s = []) /\
  (forall fuel, calls fuel (Add tk p 0 :: repeat Tick (Z.to_nat (3 * p))) scheduler = OutOfFuel).
Proof.
  intro P. set (n := Z.to_nat p).
  assert (K : forall fuel, calls (S (S fuel)) (Add tk p 0 :: repeat Tick n ++ repeat Tick n ++ repeat Tick (Z.to_nat (p - 1))) scheduler = Done (zero_state tk p 1 (Some 0) (Some 0) READY [])).
  { intro fuel. cbn [calls call rbind]. change (scheduleTask tk p 0 scheduler) with (zero_state tk p p None None WAITING []).
    rewrite calls_app. rewrite (zero_round n fuel tk p None None None (Some 0)) by (auto || (intro; apply zero_first)). cbn [rbind].
    rewrite calls_app. rewrite (zero_round n fuel tk p None (Some 0) (Some 0) (Some 0)) by (auto || (intro; apply zero_second)). cbn [rbind].
    rewrite zero_waits by (auto || lia). do 2 f_equal. lia. }
  split.
  - intros fuel F. destruct fuel as [|[|fuel]]; [lia|lia|]. eexists. split; [|instantiate (1 := zero_state tk p 1 (Some 0) (Some 0) READY []); reflexivity].
    replace (Z.to_nat (3 * p - 1)) with (n + (n + Z.to_nat (p - 1)))%nat by (unfold n; lia). rewrite !repeat_app. apply K.
  - intro fuel. replace (Z.to_nat (3 * p)) with (n + (n + (Z.to_nat (p - 1) + 1)))%nat by (unfold n; lia). rewrite !repeat_app.
    destruct fuel as [|[|fuel]].
    + destruct n as [|m] eqn:NN; [unfold n in NN; lia|reflexivity].
    + destruct n as [|m] eqn:NN; [unfold n in NN; lia|reflexivity].
    + rewrite !app_assoc. rewrite app_comm_cons. rewrite calls_app. rewrite <- !app_assoc. rewrite K. cbn [rbind repeat calls]. rewrite zero_third. reflexivity.
Qed.

(** *** Interrupts at line 85 *)
Lemma loop_forever fuel : forall script s i x, readyList s = Some i -> znth (items s) i = Some x -> nextReady x = Some i -> 0 < priority x -> currentPriority s = 0 -> script = [] ->
  execute fuel script s = OutOfFuel.
Proof.
  induction fuel as [|fuel IH]; intros script s i x R X NX P C ->; [reflexivity|]. cbn [execute]. rewrite R, (get_ok s i x X). cbn [rbind]. rewrite C. replace (0 <? priority x) with true by lia.
  destruct (set_ok s i x (with_state x RUNNING) X) as (l1 & E1 & L1 & G1). rewrite E1. cbn [rbind].
  destruct fuel as [|fuel]; [reflexivity|]. cbn [nested rbind]. unfold set_ready, set_prio. cbn [items taskList readyList currentPriority ran].
  set (s1 := Sched l1 _ _ 0 _). assert (X1 : znth (items s1) i = Some (with_state x RUNNING)) by (cbn [items s1]; rewrite G1, Z.eqb_refl; reflexivity).
  rewrite (get_ok s1 i _ X1). cbn [rbind]. destruct (set_ok s1 i _ (with_state (with_state x RUNNING) WAITING) X1) as (l2 & E2 & L2 & G2). rewrite E2. cbn [rbind].
  apply (IH [] _ i (with_state (with_state x RUNNING) WAITING)); cbn [items readyList currentPriority s1]; try reflexivity; [exact NX|rewrite G2, Z.eqb_refl; reflexivity|exact NX|exact P].
Qed.

Lemma exec_step fuel sc n script s i x s1 script' s2 y s3 : match sc with [] => (O, []) | n :: r => (n, r) end = (n, script) -> readyList s = Some i -> get s (Some i) = Done x -> (currentPriority s <? priority x) = true ->
  set s i (with_state x RUNNING) = Done s1 ->
  nested fuel n script (set_prio (set_ready s1 (nextReady x)) (priority x)) = Done (script', s2) ->
  get s2 (Some i) = Done y ->
  set (set_prio (Sched (items s2) (taskList s2) (readyList s2) (currentPriority s2) (ran s2 ++ [task x])) 0) i (with_state y WAITING) = Done s3 ->
  execute (S fuel) sc s = execute fuel script' s3.
Proof.
  intros SC R X P E1 E2 Y E3. cbn [execute]. rewrite R, X. cbn [rbind]. rewrite P, E1. cbn [rbind]. rewrite SC, E2. cbn [rbind].
  change (get (set_prio _ 0) (Some i)) with (get s2 (Some i)). rewrite Y. cbn [rbind]. rewrite E3. reflexivity.
Qed.
Ltac exec_concrete :=
  match goal with |- execute (S ?f) ?sc ?s = _ =>
  let r := eval vm_compute in (readyList s) in match r with Some ?i =>
  let x := eval vm_compute in (get s (Some i)) in match x with Done ?x =>
  let s1 := eval vm_compute in (set s i (with_state x RUNNING)) in match s1 with Done ?s1 =>
  let p := eval vm_compute in (match sc with [] => (O, []) | a :: b => (a, b) end) in match p with (?n, ?rest) =>
  let s2 := eval vm_compute in (nested 20 n rest (set_prio (set_ready s1 (nextReady x)) (priority x))) in match s2 with Done (?sc', ?s2) =>
  let y := eval vm_compute in (get s2 (Some i)) in match y with Done ?y =>
  let s3 := eval vm_compute in (set (set_prio (Sched (items s2) (taskList s2) (readyList s2) (currentPriority s2) (ran s2 ++ [task x])) 0) i (with_state y WAITING)) in match s3 with Done ?s3 =>
  rewrite (exec_step f sc n rest s i x s1 sc' s2 y s3); [|vm_compute; reflexivity ..]
  end end end end end end end end.

Definition hang0 : sched := scheduleTask 10 1 10 (scheduleTask 20 1 20 scheduler).
Lemma sched_hang fuel : tick fuel [1%nat] hang0 = OutOfFuel.
Proof.
  do 10 (destruct fuel as [|fuel]; [vm_compute; reflexivity|]). 
  let s := eval vm_compute in (update 9 1 hang0) in assert (U : update (S (S (S (S (S (S (S (S (S fuel))))))))) 1 hang0 = s) by (vm_compute; reflexivity).
  transitivity (rbind (update (S (S (S (S (S (S (S (S (S fuel))))))))) 1 hang0) (execute (S (S (S (S (S (S (S (S (S fuel))))))))) [1%nat])); [reflexivity|].
  rewrite U. clear U. unfold rbind.
  exec_concrete. exec_concrete. 
  eapply loop_forever; vm_compute; reflexivity.
Qed.
