From Coq Require Import Permutation.
From Verif Require Import Base BitsProofs CrcModel CrcSpec CrcProofs OwModel OwSpec.

(* ---- the search on bit strings ---- *)
Definition has (v : bool) (A : list (list bool)) : bool := existsb (fun d => Bool.eqb (hd false d) v) A.
Definition next (v : bool) (A : list (list bool)) : list (list bool) := map (@tl bool) (filter (fun d => Bool.eqb (hd false d) v) A).
Definition disc (A : list (list bool)) : bool := has true A && has false A.
Definition dirof (A : list (list bool)) (x : bool) (i ld : Z) : bool := if disc A then if i <? ld then x else i =? ld else has true A.
Fixpoint go (A : list (list bool)) (b : list bool) (i ld lz lfd : Z) : list bool * Z * Z :=
  match b with
  | [] => ([], lz, lfd)
  | x :: b' =>
      let dir := dirof A x i ld in
      let zero := disc A && negb dir in
      let lz' := if zero then i else lz in
      let lfd' := if zero && (lz' <? 9) then lz' else lfd in
      let '(r, lz2, lfd2) := go (next dir A) b' (i + 1) ld lz' lfd' in (dir :: r, lz2, lfd2)
  end.
(* the last position at which r has a 0 and another string of A, equal so far, a 1 *)
Fixpoint zp (A : list (list bool)) (r : list bool) (i lz : Z) : Z :=
  match r with [] => lz | x :: r' => zp (next x A) r' (i + 1) (if negb x && has true A then i else lz) end.
Fixpoint blt (a b : list bool) : Prop :=
  match a, b with x :: a, y :: b => (x = false /\ y = true) \/ (x = y /\ blt a b) | _, _ => False end.

Lemma has_in v A d : In d A -> hd false d = v -> has v A = true.
Proof. intros H <-. unfold has. apply existsb_exists. exists d. split; [exact H|]. apply eqb_reflx. Qed.
Lemma has_out v A : has v A = true -> exists d, In d A /\ hd false d = v.
Proof. unfold has. rewrite existsb_exists. intros (d & H & E). exists d. split; [exact H|]. apply eqb_prop. exact E. Qed.
Lemma next_in v A d : In (v :: d) A -> In d (next v A).
Proof. intro H. unfold next. apply in_map_iff. exists (v :: d). split; [reflexivity|]. apply filter_In. split; [exact H|]. apply eqb_reflx. Qed.
Lemma next_out v A n d : Forall (fun d => length d = S n) A -> In d (next v A) -> In (v :: d) A.
Proof.
  intros F H. unfold next in H. apply in_map_iff in H. destruct H as (e & <- & H). apply filter_In in H. destruct H as [H E]. apply eqb_prop in E.
  rewrite Forall_forall in F. specialize (F e H). destruct e as [|x e]; [discriminate|]. cbn in *. subst x. exact H.
Qed.
Lemma next_len v A n : Forall (fun d => length d = S n) A -> Forall (fun d : list bool => length d = n) (next v A).
Proof. intro F. apply Forall_forall. intros d H. pose proof (next_out v A n d F H) as G. rewrite Forall_forall in F. specialize (F _ G). cbn in F. lia. Qed.
Lemma len_cons A n (d : list bool) : Forall (fun d : list bool => length d = S n) A -> In d A -> exists x e, d = x :: e.
Proof. intros F H. rewrite Forall_forall in F. specialize (F d H). destruct d as [|x e]; [discriminate|]. eauto. Qed.
Lemma dir_has A x i ld n : A <> [] -> Forall (fun d => length d = S n) A -> has (dirof A x i ld) A = true.
Proof.
  intros N F. unfold dirof, disc. destruct (has true A) eqn:T, (has false A) eqn:E; cbn [andb]; auto.
  - destruct (if i <? ld then x else i =? ld); assumption.
  - exfalso. destruct A as [|d A]; [congruence|]. unfold has in T, E. cbn in T, E. destruct (hd false d); cbn in T, E; discriminate.
Qed.
Lemma next_ne A v n : Forall (fun d => length d = S n) A -> has v A = true -> next v A <> [].
Proof.
  intros F H. apply has_out in H. destruct H as (d & I & E). destruct (len_cons A n d F I) as (x & e & ->). cbn in E. subst x. pose proof (next_in v A e I) as G. destruct (next v A); [destruct G|discriminate].
Qed.
(* the result is one of the strings; lz is its last zero position *)
Lemma go_spec ld b : forall A i lz lfd r lz' lfd', A <> [] -> Forall (fun d => length d = length b) A -> go A b i ld lz lfd = (r, lz', lfd') ->
  In r A /\ length r = length b /\ lz' = zp A r i lz.
Proof.
  induction b as [|x b IH]; intros A i lz lfd r lz' lfd' N F G; cbn [go] in G.
  - injection G as <- <- <-. cbn. split; [|split; reflexivity]. destruct A as [|d A]; [congruence|]. inversion F as [|? ? Hd _]; subst. destruct d; [left; reflexivity|discriminate].
  - cbn [length] in F. pose proof (dir_has A x i ld _ N F) as H. set (dir := dirof A x i ld) in *. pose proof (next_len dir A _ F) as F'. pose proof (next_ne A dir _ F H) as N'.
    destruct (go (next dir A) b (i + 1) ld _ _) as [[r1 lz1] lfd1] eqn:E. injection G as <- <- <-. destruct (IH _ _ _ _ _ _ _ N' F' E) as (I1 & L1 & Z1).
    split; [apply (next_out dir A _ r1 F I1)|]. split; [cbn [length]; lia|]. cbn [zp]. rewrite Z1. f_equal. unfold disc. destruct dir; cbn [negb andb]; [rewrite andb_false_r; reflexivity|]. rewrite H, !andb_true_r. reflexivity.
Qed.
Lemma go_min ld b : forall A i lz lfd r lz' lfd', A <> [] -> Forall (fun d => length d = length b) A -> ld < i -> go A b i ld lz lfd = (r, lz', lfd') ->
  forall d, In d A -> d = r \/ blt r d.
Proof.
  induction b as [|x b IH]; intros A i lz lfd r lz' lfd' N F L G d I; cbn [go] in G.
  - injection G as <- <- <-. rewrite Forall_forall in F. specialize (F d I). destruct d; [left; reflexivity|discriminate].
  - cbn [length] in F. pose proof (dir_has A x i ld _ N F) as H. set (dir := dirof A x i ld) in *. pose proof (next_len dir A _ F) as F'. pose proof (next_ne A dir _ F H) as N'.
    destruct (go (next dir A) b (i + 1) ld _ _) as [[r1 lz1] lfd1] eqn:E. injection G as <- <- <-.
    destruct (len_cons A _ d F I) as (y & e & ->). destruct (bool_dec y dir) as [->|Ny].
    + destruct (IH _ (i + 1) _ _ _ _ _ N' F' ltac:(lia) E e (next_in _ _ _ I)) as [->|B]; [left; reflexivity|]. right. cbn. right. split; [reflexivity|exact B].
    + right. cbn. left. assert (has y A = true) as Hy by (apply (has_in y A _ I); reflexivity). assert (disc A = true) as D. { unfold disc. destruct y, dir; try congruence; rewrite ?Hy, ?H; reflexivity. }
      assert (dir = false) as Df. { unfold dir, dirof. rewrite D. assert ((i <? ld) = false) as -> by lia. lia. } rewrite Df in *. destruct y; [split; reflexivity|congruence].
Qed.
Lemma zp_lz A r : forall i lz, zp A r i lz = lz \/ i <= zp A r i lz.
Proof.
  revert A. induction r as [|x r IH]; intros A i lz; cbn [zp]; [left; reflexivity|]. destruct (IH (next x A) (i + 1) (if negb x && has true A then i else lz)) as [E|E]; [|right; lia]. rewrite E. destruct (negb x && has true A); [right; lia|left; reflexivity].
Qed.
Lemma zp_none A r : forall i lz lz2, zp A r i lz < i -> lz2 < i -> zp A r i lz2 = lz2 /\ zp A r i lz = lz.
Proof.
  revert A. induction r as [|x r IH]; intros A i lz lz2 H L2; cbn [zp] in *; [split; reflexivity|].
  destruct (negb x && has true A) eqn:E.
  - exfalso. destruct (zp_lz (next x A) r (i + 1) i) as [K|K]; lia.
  - destruct (IH (next x A) (i + 1) lz lz2 ltac:(lia) ltac:(lia)) as [P Q]. split; assumption.
Qed.
Lemma zp_some A r : forall i lz lz2, i <= zp A r i lz -> lz < i -> zp A r i lz2 = zp A r i lz.
Proof.
  revert A. induction r as [|x r IH]; intros A i lz lz2 H L; cbn [zp] in *; [lia|].
  destruct (negb x && has true A) eqn:E; [reflexivity|]. apply IH; [|lia].
  destruct (zp_lz (next x A) r (i + 1) lz) as [K|K]; lia.
Qed.
(* no zero position: the string is the greatest *)
Lemma zp_max A r : forall i lz, lz < i -> zp A r i lz < i -> Forall (fun d => length d = length r) A -> In r A -> forall d, In d A -> ~ blt r d.
Proof.
  revert A. induction r as [|x r IH]; intros A i lz Lz Z F I d J B; cbn [length] in F.
  - destruct d; cbn in B; tauto.
  - cbn [zp] in Z. destruct (negb x && has true A) eqn:E. { destruct (zp_lz (next x A) r (i + 1) i) as [K|K]; lia. }
    destruct (len_cons A _ d F J) as (y & e & ->). cbn in B. destruct B as [[-> ->]|[<- B]].
    + rewrite (has_in true A _ J eq_refl) in E. discriminate.
    + apply (IH (next x A) (i + 1) lz ltac:(lia) ltac:(lia) (next_len x A _ F) (next_in _ _ _ I) e (next_in _ _ _ J) B).
Qed.
Lemma go_next ld b : forall A i lz lfd r lz' lfd' lz0, lz0 < i -> In b A -> Forall (fun d => length d = length b) A -> ld = zp A b i lz0 -> i <= ld -> go A b i ld lz lfd = (r, lz', lfd') ->
  blt b r /\ forall d, In d A -> blt b d -> d = r \/ blt r d.
Proof.
  induction b as [|x b IH]; intros A i lz lfd r lz' lfd' lz0 L0 I F Z L G; cbn [go] in G; cbn [zp] in Z; [lia|].
  assert (A <> []) as N by (intro E; rewrite E in I; exact I).
  cbn [length] in F. pose proof (dir_has A x i ld _ N F) as H. set (dir := dirof A x i ld) in *. pose proof (next_len dir A _ F) as F'. pose proof (next_ne A dir _ F H) as N'.
  destruct (go (next dir A) b (i + 1) ld _ _) as [[r1 lz1] lfd1] eqn:E. injection G as <- <- <-.
  assert (has x A = true) as Hx by (apply (has_in x A _ I); reflexivity).
  destruct (Z.eq_dec i ld) as [El|El].
  - (* the position of the last discrepancy *)
    assert (negb x && has true A = true) as C. { destruct (negb x && has true A) eqn:C; [reflexivity|]. exfalso. destruct (zp_lz (next x A) b (i + 1) lz0); lia. }
    apply andb_prop in C. destruct C as [Cx Ct]. destruct x; [discriminate|]. cbn [negb andb] in Z. rewrite Ct in Z.
    assert (dir = true) as Dt. { unfold dir, dirof, disc. rewrite Ct, Hx. cbn [andb]. assert ((i <? ld) = false) as -> by lia. lia. }
    rewrite Dt in *. split; [cbn; left; split; reflexivity|]. intros d J B. destruct (len_cons A _ d F J) as (y & e & ->). cbn in B. destruct B as [[_ ->]|[<- B]].
    + destruct (go_min ld b _ (i + 1) _ _ _ _ _ N' F' ltac:(lia) E e (next_in _ _ _ J)) as [->|K]; [left; reflexivity|right; cbn; right; split; [reflexivity|exact K]].
    + exfalso. exact (zp_max (next false A) b (i + 1) i ltac:(lia) ltac:(lia) (next_len false A _ F) (next_in _ _ _ I) e (next_in _ _ _ J) B).
  - assert (dir = x) as Dx. { unfold dir, dirof. destruct (disc A) eqn:D; [assert ((i <? ld) = true) as -> by lia; reflexivity|]. unfold disc in D. destruct x; [exact Hx|]. rewrite Hx, andb_true_r in D. exact D. }
    rewrite Dx in *. destruct (IH (next x A) (i + 1) _ _ _ _ _ (if negb x && has true A then i else lz0) ltac:(destruct (negb x && has true A); lia) (next_in _ _ _ I) F' Z ltac:(lia) E) as [B1 B2].
    split; [cbn; right; split; [reflexivity|exact B1]|]. intros d J B. destruct (len_cons A _ d F J) as (y & e & ->). cbn in B. destruct B as [[-> ->]|[<- B]].
    + right. cbn. left. split; reflexivity.
    + destruct (B2 e (next_in _ _ _ J) B) as [->|K]; [left; reflexivity|right; cbn; right; split; [reflexivity|exact K]].
Qed.
(* as long as the discrepancies lie in front of ld, the buffer is followed *)
Lemma go_follow ld b : forall k A i lz lfd r lz' lfd' d, Forall (fun d => length d = length b) A -> go A b i ld lz lfd = (r, lz', lfd') -> i + Z.of_nat k <= ld ->
  In d A -> firstn k d = firstn k b -> firstn k r = firstn k b.
Proof.
  induction b as [|x b IH]; intros k A i lz lfd r lz' lfd' d F G L I E; cbn [go] in G.
  - injection G as <- <- <-. reflexivity.
  - assert (A <> []) as N by (intro K; rewrite K in I; exact I). cbn [length] in F. destruct (go (next (dirof A x i ld) A) b (i + 1) ld _ _) as [[r1 lz1] lfd1] eqn:G1. injection G as <- <- <-.
    destruct k as [|k]; [reflexivity|]. destruct (len_cons A _ d F I) as (y & e & ->). cbn [firstn] in *. injection E as -> E.
    assert (has x A = true) as Hx by (apply (has_in x A _ I); reflexivity).
    assert (dirof A x i ld = x) as Dx. { unfold dirof. destruct (disc A) eqn:D; [assert ((i <? ld) = true) as -> by lia; reflexivity|]. unfold disc in D. destruct x; [exact Hx|]. rewrite Hx, andb_true_r in D. exact D. }
    rewrite Dx in *. f_equal. apply (IH k _ (i + 1) _ _ _ _ _ e (next_len x A _ F) G1 ltac:(lia) (next_in _ _ _ I) E).
Qed.
Lemma blt_trans a : forall b c, blt a b -> blt b c -> blt a c.
Proof. induction a as [|x a IH]; intros [|y b] [|z c]; cbn; try tauto. intros [[-> ->]|[-> H]] [[K ->]|[<- H']]; try discriminate; [left; auto|left; auto|right; split; [reflexivity|apply (IH b); assumption]]. Qed.
Lemma blt_irrefl a : ~ blt a a.
Proof. induction a as [|x a IH]; cbn; [tauto|]. intros [[E K]|[_ H]]; [congruence|tauto]. Qed.

(* ---- the bus ---- *)
Definition suffix (d : list Z) (i : nat) : list bool := map (dbit d) (seq i (64 - i)).
Definition active (x : list Z * dstate) : bool := match snd x with DSend _ => true | _ => false end.
Definition bus_at (i : nat) (b : bus) : Prop := Forall (fun x => snd x = DIdle \/ snd x = DSend i) b.
Definition sufs (i : nat) (b : bus) : list (list bool) := map (fun x => suffix (fst x) i) (filter active b).
Lemma suffix_cons d i : (i < 64)%nat -> suffix d i = dbit d i :: suffix d (S i).
Proof. intro H. unfold suffix. replace (64 - i)%nat with (S (64 - S i)) by lia. reflexivity. Qed.
Lemma suffix_len d i : length (suffix d i) = (64 - i)%nat.
Proof. unfold suffix. rewrite map_length, seq_length. reflexivity. Qed.
Lemma bus_round i b dir : (i < 64)%nat -> bus_at i b ->
  fst (bus_read b) = negb (has false (sufs i b)) /\ fst (bus_read (snd (bus_read b))) = negb (has true (sufs i b)) /\
  bus_at (S i) (bus_write dir (snd (bus_read (snd (bus_read b))))) /\ sufs (S i) (bus_write dir (snd (bus_read (snd (bus_read b))))) = next dir (sufs i b).
Proof.
  intros L. induction b as [|[d st] b IH]; intro B.
  - repeat split; constructor.
  - inversion B as [|? ? Hd Ht]; subst. destruct (IH Ht) as (R1 & R2 & R3 & R4). unfold bus_read, bus_write in *. cbn [snd fst] in *. destruct Hd as [Hd|Hd]; cbn in Hd; subst st.
    + split; [exact R1|]. split; [exact R2|]. split.
      * cbn [map]. constructor; [|exact R3]. unfold d_write, d_read. cbn. destruct dir; left; reflexivity.
      * unfold sufs in *. cbn [map filter]. assert (active (d_write dir (d_read (d_read (d, DIdle)))) = false) as -> by (destruct dir; reflexivity). exact R4.
    + unfold sufs. cbn [filter active snd map fst forallb d_level d_read]. fold (sufs i b). rewrite (suffix_cons d i L).
      split; [|split; [|split]].
      * unfold has. cbn [existsb hd]. fold (has false (sufs i b)). rewrite R1. destruct (dbit d i), (has false (sufs i b)); reflexivity.
      * unfold has. cbn [existsb hd]. fold (has true (sufs i b)). rewrite R2. destruct (dbit d i), (has true (sufs i b)); reflexivity.
      * constructor; [|exact R3]. unfold d_write, d_read. cbn [fst snd]. destruct dir, (dbit d i); auto.
      * assert (d_write dir (d_read (d_read (d, DSend i))) = (d, if Bool.eqb (dbit d i) dir then DSend (S i) else DIdle)) as Ew by (unfold d_write, d_read; cbn [fst snd]; destruct dir, (dbit d i); reflexivity).
        unfold next. match goal with |- context [active ?x] => change x with (d_write dir (d_read (d_read (d, DSend i)))) | |- map _ (filter active (?x :: _)) = _ => change x with (d_write dir (d_read (d_read (d, DSend i)))) end. rewrite Ew. cbn [filter hd]. unfold sufs, next in R4. destruct (Bool.eqb (dbit d i) dir); cbn [active snd map fst tl]; [f_equal|]; exact R4.
Qed.

(* ---- the buffer ---- *)
Definition rom8 (d : list Z) : Prop := length d = 8%nat /\ Forall (fun b => 0 <= b < 256) d.
Lemma byte_high b j : 0 <= b < 256 -> 8 <= j -> Z.testbit b j = false.
Proof. intros B J. replace b with (b mod 2 ^ 8) by (apply Z.mod_small; lia). apply Z.mod_pow2_bits_high. lia. Qed.
Lemma setbit_range b k (dir : bool) : 0 <= b < 256 -> 0 <= k < 8 -> let c := if dir then Z.lor b (2 ^ k) else Z.land b (u8 (Z.lnot (2 ^ k))) in
  0 <= c < 256 /\ forall j, 0 <= j < 8 -> Z.testbit c j = if j =? k then dir else Z.testbit b j.
Proof.
  intros B K c. assert (0 <= c) as C0. { unfold c. destruct dir; [apply Z.lor_nonneg|apply Z.land_nonneg; left; lia]. split; [lia|apply Z.pow_nonneg; lia]. }
  assert (forall j, 0 <= j -> Z.testbit c j = if j =? k then dir else Z.testbit b j) as T.
  { intros j J. unfold c. destruct dir.
    - rewrite Z.lor_spec, Z.pow2_bits_eqb by lia. rewrite (Z.eqb_sym k j). destruct (j =? k); [apply orb_true_r|apply orb_false_r].
    - rewrite Z.land_spec. change (u8 (Z.lnot (2 ^ k))) with (wrap 8 (Z.lnot (2 ^ k))). rewrite wrap_testbit, Z.lnot_spec, Z.pow2_bits_eqb by lia. rewrite (Z.eqb_sym k j). destruct (j <? 8) eqn:E.
      + destruct (j =? k); [apply andb_false_r|apply andb_true_r].
      + rewrite andb_false_r. destruct (j =? k); [reflexivity|]. symmetry. apply byte_high; lia. }
  split; [|intros j J; apply T; lia]. split; [exact C0|].
  destruct (Z.lt_ge_cases c 256) as [L|L]; [exact L|]. exfalso. assert (8 <= Z.log2 c) as G by (apply Z.log2_le_pow2; lia). pose proof (T (Z.log2 c) ltac:(lia)) as X. rewrite Z.bit_log2 in X by lia.
  assert ((Z.log2 c =? k) = false) as Y by lia. rewrite Y, byte_high in X by lia. discriminate.
Qed.
Lemma testbit_land b k : 0 <= b -> 0 <= k -> (0 <? Z.land b (2 ^ k)) = Z.testbit b k.
Proof.
  intros B K. assert (Z.land b (2 ^ k) = if Z.testbit b k then 2 ^ k else 0) as ->.
  { apply Z.bits_inj'. intros n N. rewrite Z.land_spec, Z.pow2_bits_eqb by lia. destruct (k =? n) eqn:E.
    - assert (n = k) as -> by lia. destruct (Z.testbit b k); [rewrite Z.pow2_bits_true by lia; reflexivity|rewrite Z.bits_0; reflexivity].
    - rewrite andb_false_r. symmetry. destruct (Z.testbit b k); [rewrite Z.pow2_bits_eqb by lia; exact E|apply Z.bits_0]. }
  destruct (Z.testbit b k); [|reflexivity]. pose proof (Z.pow_pos_nonneg 2 k ltac:(lia) K). lia.
Qed.
Lemma znth_nth (l : list Z) k : (k < length l)%nat -> znth l (Z.of_nat k) = Some (nth k l 0).
Proof. intro H. unfold znth. destruct (Z.of_nat k <? 0) eqn:E; [lia|]. rewrite Nat2Z.id. apply nth_error_nth'. exact H. Qed.
Lemma nth_znth (l : list Z) k x : znth l (Z.of_nat k) = Some x -> nth k l 0 = x.
Proof. unfold znth. destruct (Z.of_nat k <? 0); [discriminate|]. rewrite Nat2Z.id. apply nth_error_nth. Qed.
Lemma skipn_nth (l : list Z) k : (k < length l)%nat -> skipn k l = nth k l 0 :: skipn (S k) l.
Proof. revert k. induction l as [|x l IH]; intros k H; cbn in H; [lia|]. destruct k as [|k]; [reflexivity|]. cbn [skipn nth]. apply IH. lia. Qed.

Lemma loop_go ld n : forall i b lz crc lfd rom r lz' lfd', (i + n = 64)%nat -> (1 <= n)%nat -> bus_at i b -> sufs i b <> [] -> rom8 rom ->
  go (sufs i b) (suffix rom i) (Z.of_nat i + 1) ld lz lfd = (r, lz', lfd') ->
  exists rom', ow_loop n b ld (Z.of_nat i + 1) lz (Z.of_nat (i / 8)) (2 ^ Z.of_nat (i mod 8)) crc lfd rom = Some (65, lz', fold_left sab_crcUpdate (skipn (i / 8) rom') crc, lfd', rom') /\
    rom8 rom' /\ suffix rom' i = r /\ (forall j, (j < i)%nat -> dbit rom' j = dbit rom j) /\ (forall k, (k < i / 8)%nat -> nth k rom' 0 = nth k rom 0).
Proof.
  induction n as [|n IH]; intros i b lz crc lfd rom r lz' lfd' Hi Hn B Ne [R8 Rb] G; [lia|]. cbn [ow_loop].
  assert (i < 64)%nat as Li by lia. rewrite (suffix_cons rom i Li) in G. cbn [go] in G. set (dir := dirof (sufs i b) (dbit rom i) (Z.of_nat i + 1) ld) in *.
  destruct (bus_round i b dir Li B) as (E1 & E2 & B' & S'). destruct (bus_read b) as [id b1] eqn:Rd1. cbn [fst snd] in *. destruct (bus_read b1) as [cid b2] eqn:Rd2. cbn [fst snd] in *. subst id cid.
  assert (Forall (fun d => length d = S (63 - i)) (sufs i b)) as Fl. { apply Forall_forall. intros d Hd. unfold sufs in Hd. apply in_map_iff in Hd. destruct Hd as (x & <- & _). rewrite suffix_len. lia. }
  pose proof (dir_has (sufs i b) (dbit rom i) (Z.of_nat i + 1) ld _ Ne Fl) as Hh. fold dir in Hh. pose proof (next_ne _ dir _ Fl Hh) as Ne'.
  assert (negb (has false (sufs i b)) && negb (has true (sufs i b)) = false) as -> by (destruct dir; rewrite Hh; cbn; rewrite ?andb_false_r; reflexivity).
  assert (i / 8 < 8)%nat as Lk by (apply Nat.div_lt_upper_bound; lia). assert (i mod 8 < 8)%nat as Lm by (apply Nat.mod_upper_bound; lia).
  rewrite (znth_nth rom (i / 8)) by lia. cbn [obind]. set (cur := nth (i / 8) rom 0).
  assert (0 <= cur < 256) as Cr. { unfold cur. rewrite Forall_forall in Rb. apply Rb. apply nth_In. lia. }
  assert ((if negb (Bool.eqb (negb (has false (sufs i b))) (negb (has true (sufs i b)))) then negb (has false (sufs i b)) else if Z.of_nat i + 1 <? ld then 0 <? Z.land cur (2 ^ Z.of_nat (i mod 8)) else Z.of_nat i + 1 =? ld) = dir) as Ed.
  { unfold dir, dirof, disc. rewrite testbit_land by lia. fold (dbit rom i). destruct dir; destruct (has false (sufs i b)), (has true (sufs i b)); cbn in Hh |- *; try reflexivity; discriminate. }
  rewrite Ed.
  assert (Bool.eqb (negb (has false (sufs i b))) (negb (has true (sufs i b))) = disc (sufs i b)) as Edi. { unfold disc. destruct dir; destruct (has false (sufs i b)), (has true (sufs i b)); cbn in Hh |- *; try reflexivity; discriminate. }
  rewrite Edi. set (lz1 := if disc (sufs i b) && negb dir then Z.of_nat i + 1 else lz) in *. set (lfd1 := if disc (sufs i b) && negb dir && (lz1 <? 9) then lz1 else lfd) in *.
  destruct (setbit_range cur (Z.of_nat (i mod 8)) dir Cr ltac:(lia)) as [Nr Nt]. set (cur' := if dir then Z.lor cur (2 ^ Z.of_nat (i mod 8)) else Z.land cur (u8 (Z.lnot (2 ^ Z.of_nat (i mod 8))))) in *.
  destruct (zupd_in_range rom (Z.of_nat (i / 8)) cur') as (rom1 & Eu & Lu & Gu). { unfold zlen. lia. } rewrite Eu. cbn [obind].
  assert (forall k, (k < 8)%nat -> nth k rom1 0 = if (k =? i / 8)%nat then cur' else nth k rom 0) as N1.
  { intros k Hk. apply nth_znth. rewrite Gu. destruct (Nat.eqb_spec k (i / 8)) as [->|Nk]; [rewrite Z.eqb_refl; reflexivity|]. assert ((Z.of_nat k =? Z.of_nat (i / 8)) = false) as -> by lia. apply znth_nth. lia. }
  assert (length rom1 = 8%nat) as L1 by (unfold zlen in Lu; lia).
  assert (rom8 rom1) as R1. { split; [exact L1|]. apply Forall_forall. intros x Hx. apply (In_nth _ _ 0) in Hx. destruct Hx as (k & Hk & <-). rewrite N1 by lia. destruct (Nat.eqb k (i / 8)); [exact Nr|]. rewrite Forall_forall in Rb. apply Rb. apply nth_In. lia. }
  assert (forall j, (j < 64)%nat -> dbit rom1 j = if (j =? i)%nat then dir else dbit rom j) as D1.
  { intros j Hj. unfold dbit. rewrite N1 by (apply Nat.div_lt_upper_bound; lia). assert (j mod 8 < 8)%nat by (apply Nat.mod_upper_bound; lia). destruct (Nat.eqb_spec (j / 8) (i / 8)) as [Ek|Ek].
    - rewrite Nt by lia. rewrite Ek. fold cur. pose proof (Nat.div_mod j 8 ltac:(lia)). pose proof (Nat.div_mod i 8 ltac:(lia)). destruct (Nat.eqb_spec j i) as [->|Nj]; [rewrite Z.eqb_refl; reflexivity|]. assert ((Z.of_nat (j mod 8) =? Z.of_nat (i mod 8)) = false) as -> by lia. reflexivity.
    - destruct (Nat.eqb_spec j i) as [->|Nj]; [congruence|reflexivity]. }
  assert (suffix rom1 (S i) = suffix rom (S i)) as Sf. { unfold suffix. apply map_ext_in. intros j Hj. apply in_seq in Hj. rewrite D1 by lia. destruct (Nat.eqb_spec j i); [lia|reflexivity]. }
  destruct (go (next dir (sufs i b)) (suffix rom (S i)) (Z.of_nat i + 1 + 1) ld lz1 lfd1) as [[r1 lz2] lfd2] eqn:G1. injection G as <- <- <-.
  assert (u8 (Z.of_nat i + 1 + 1) = Z.of_nat (S i) + 1) as -> by (unfold u8; rewrite Z.mod_small; lia).
  pose proof (Nat.div_mod i 8 ltac:(lia)) as Di. pose proof (Nat.div_mod (S i) 8 ltac:(lia)) as Ds. assert (S i mod 8 < 8)%nat as Ls by (apply Nat.mod_upper_bound; lia).
  assert (Z.shiftl (2 ^ Z.of_nat (i mod 8)) 1 = 2 ^ (Z.of_nat (i mod 8) + 1)) as Sh by (rewrite Z.shiftl_mul_pow2, Z.pow_add_r by lia; reflexivity). rewrite Sh.
  replace (Z.of_nat i + 1 + 1) with (Z.of_nat (S i) + 1) in G1 by lia.
  destruct (Nat.eq_dec (i mod 8) 7) as [E7|E7].
  - rewrite E7. change (u8 (2 ^ (Z.of_nat 7 + 1))) with 0. cbn [Z.eqb]. assert (S i / 8 = S (i / 8))%nat as Dn by lia. assert (S i mod 8 = 0)%nat as Mn by lia.
    assert (u8 (Z.of_nat (i / 8) + 1) = Z.of_nat (S i / 8)) as -> by (rewrite Dn; unfold u8; rewrite Z.mod_small; lia).
    destruct n as [|n].
    + assert (i = 63)%nat by lia. subst i. assert ((Z.of_nat (64 / 8) <? 8) = false) as -> by reflexivity. exists rom1. change (63 / 8)%nat with 7%nat in *.
      unfold suffix in G1. cbn [seq map Nat.sub go] in G1. injection G1 as <- <- <-.
      split; [|split; [exact R1|split; [|split]]].
      * rewrite (skipn_nth rom1 7) by lia. rewrite (N1 7%nat) by lia. cbn [Nat.eqb]. rewrite skipn_all2 by lia. reflexivity.
      * rewrite suffix_cons by lia. rewrite D1 by lia. rewrite Nat.eqb_refl. reflexivity.
      * intros j Hj. rewrite D1 by lia. destruct (Nat.eqb_spec j 63); [lia|reflexivity].
      * intros k Hk. rewrite N1 by lia. destruct (Nat.eqb_spec k 7); [lia|reflexivity].
    + assert ((Z.of_nat (S i / 8) <? 8) = true) as -> by lia.
      rewrite <- S', <- Sf in G1. destruct (IH (S i) (bus_write dir b2) lz1 (sab_crcUpdate crc cur') lfd1 rom1 r1 lz2 lfd2 ltac:(lia) ltac:(lia) B' ltac:(rewrite S'; exact Ne') R1 G1) as (rom' & El & R' & Sr & Dj & Nk).
      rewrite Mn in El. change (2 ^ Z.of_nat 0) with 1 in El. exists rom'. split; [|split; [exact R'|split; [|split]]].
      * rewrite Dn in *. etransitivity; [exact El|]. rewrite (skipn_nth rom' (i / 8)) by (destruct R'; lia). rewrite (Nk (i / 8)%nat) by lia. rewrite (N1 (i / 8)%nat) by lia. rewrite Nat.eqb_refl. reflexivity.
      * rewrite suffix_cons by lia. rewrite Sr. rewrite Dj by lia. rewrite D1 by lia. rewrite Nat.eqb_refl. reflexivity.
      * intros j Hj. rewrite Dj by lia. rewrite D1 by lia. destruct (Nat.eqb_spec j i); [lia|reflexivity].
      * intros k Hk. rewrite Nk by lia. rewrite N1 by lia. destruct (Nat.eqb_spec k (i / 8)); [lia|reflexivity].
  - assert (S i / 8 = i / 8)%nat as Dn by lia. assert (S i mod 8 = S (i mod 8))%nat as Mn by lia.
    assert (u8 (2 ^ (Z.of_nat (i mod 8) + 1)) = 2 ^ Z.of_nat (S i mod 8)) as ->. { rewrite Mn. replace (Z.of_nat (i mod 8) + 1) with (Z.of_nat (S (i mod 8))) by lia. unfold u8. apply Z.mod_small. split; [apply Z.pow_nonneg; lia|]. change 256 with (2 ^ 8). apply Z.pow_lt_mono_r; lia. }
    assert ((2 ^ Z.of_nat (S i mod 8) =? 0) = false) as -> by (pose proof (Z.pow_pos_nonneg 2 (Z.of_nat (S i mod 8)) ltac:(lia) ltac:(lia)); lia).
    assert ((Z.of_nat (i / 8) <? 8) = true) as -> by lia.
    rewrite <- S', <- Sf in G1. destruct (IH (S i) (bus_write dir b2) lz1 crc lfd1 rom1 r1 lz2 lfd2 ltac:(lia) ltac:(lia) B' ltac:(rewrite S'; exact Ne') R1 G1) as (rom' & El & R' & Sr & Dj & Nk).
    rewrite Dn in *. exists rom'. split; [|split; [exact R'|split; [|split]]].
    * exact El.
    * rewrite suffix_cons by lia. rewrite Sr. rewrite Dj by lia. rewrite D1 by lia. rewrite Nat.eqb_refl. reflexivity.
    * intros j Hj. rewrite Dj by lia. rewrite D1 by lia. destruct (Nat.eqb_spec j i); [lia|reflexivity].
    * intros k Hk. rewrite Nk by lia. rewrite N1 by lia. destruct (Nat.eqb_spec k (i / 8)); [lia|reflexivity].
Qed.

(* ---- one search ---- *)
Definition code (d : list Z) : list bool := suffix d 0.
Lemma nth_ext0 (a b : list Z) n : length a = n -> length b = n -> (forall k, (k < n)%nat -> nth k a 0 = nth k b 0) -> a = b.
Proof. intros A B H. apply (nth_ext a b 0 0); [lia|]. intros k Hk. apply H. lia. Qed.
Lemma bits_byte x y : 0 <= x < 256 -> 0 <= y < 256 -> (forall j, 0 <= j < 8 -> Z.testbit x j = Z.testbit y j) -> x = y.
Proof. intros X Y H. apply Z.bits_inj'. intros n N. destruct (Z.lt_ge_cases n 8) as [L|L]; [apply H; lia|]. rewrite !byte_high by lia. reflexivity. Qed.
Lemma suffix_dbit d e i : suffix d i = suffix e i -> forall j, (i <= j < 64)%nat -> dbit d j = dbit e j.
Proof.
  intros H j J. unfold suffix in H. apply (f_equal (fun l => nth (j - i) l false)) in H. rewrite (nth_indep _ false (dbit d 0)) in H by (rewrite map_length, seq_length; lia). rewrite map_nth in H. rewrite (nth_indep _ false (dbit e 0)) in H by (rewrite map_length, seq_length; lia). rewrite map_nth in H.
  rewrite seq_nth in H by lia. replace (i + (j - i))%nat with j in H by lia. exact H.
Qed.
Lemma dbit_bytes d e k : rom8 d -> rom8 e -> (k < 8)%nat -> (forall j, (8 * k <= j < 8 * k + 8)%nat -> dbit d j = dbit e j) -> nth k d 0 = nth k e 0.
Proof.
  intros [Ld Fd] [Le Fe] K H. apply bits_byte.
  - rewrite Forall_forall in Fd. apply Fd. apply nth_In. lia.
  - rewrite Forall_forall in Fe. apply Fe. apply nth_In. lia.
  - intros j J. specialize (H (8 * k + Z.to_nat j)%nat ltac:(lia)). unfold dbit in H. replace ((8 * k + Z.to_nat j) / 8)%nat with k in H by lia. replace (Z.of_nat ((8 * k + Z.to_nat j) mod 8)) with j in H by lia. exact H.
Qed.
Lemma code_inj d e : rom8 d -> rom8 e -> code d = code e -> d = e.
Proof.
  intros D E H. apply (nth_ext0 d e 8); [apply D|apply E|]. intros k K. apply dbit_bytes; auto. intros j J. apply (suffix_dbit d e 0 H). lia.
Qed.
Lemma sufs_search devs : sufs 0 (bus_search devs) = map code devs.
Proof. unfold sufs, bus_search. induction devs as [|d devs IH]; [reflexivity|]. cbn [map filter active snd fst]. f_equal. exact IH. Qed.
Lemma bus_at_search devs : bus_at 0 (bus_search devs).
Proof. apply Forall_forall. intros x H. unfold bus_search in H. apply in_map_iff in H. destruct H as (d & <- & _). right. reflexivity. Qed.
Lemma valid8 d : valid_rom d -> rom8 d.
Proof. intros (A & B & _). split; assumption. Qed.
Lemma codes_len devs x : Forall (fun d => length d = length (code x)) (map code devs).
Proof. apply Forall_forall. intros y H. apply in_map_iff in H. destruct H as (d & <- & _). unfold code. rewrite !suffix_len. reflexivity. Qed.
Lemma perform devs s : devs <> [] -> Forall valid_rom devs -> rom8 (ow_rom s) -> ow_flag s = false ->
  exists d lz lfd, ow_performSearch devs s = Some (mkOW lz lfd (lz =? 0) d, true) /\ In d devs /\
    go (map code devs) (code (ow_rom s)) 1 (ow_ld s) 0 (ow_lfd s) = (code d, lz, lfd) /\ lz = zp (map code devs) (code d) 1 0.
Proof.
  intros N V R F. destruct (go (map code devs) (code (ow_rom s)) 1 (ow_ld s) 0 (ow_lfd s)) as [[r lz] lfd] eqn:G.
  assert (map code devs <> []) as N' by (destruct devs; [congruence|discriminate]).
  destruct (go_spec _ _ _ _ _ _ _ _ _ N' (codes_len devs _) G) as (I & L & Z). apply in_map_iff in I. destruct I as (d & Ed & Id). subst r.
  exists d, lz, lfd. split; [|split; [exact Id|split; [reflexivity|exact Z]]].
  destruct (loop_go (ow_ld s) 64 0 (bus_search devs) 0 0 (ow_lfd s) (ow_rom s) (code d) lz lfd eq_refl ltac:(lia) (bus_at_search devs) ltac:(rewrite sufs_search; exact N') R ltac:(rewrite sufs_search; exact G)) as (rom' & E & R' & Sr & _).
  rewrite Forall_forall in V. specialize (V d Id). assert (rom' = d) as -> by (apply code_inj; [exact R'|exact (valid8 d V)|exact Sr]).
  unfold ow_performSearch. rewrite F. destruct devs as [|d0 devs]; [congruence|]. replace (Z.of_nat 0 + 1) with 1 in E by reflexivity. replace (Z.of_nat (0 / 8)) with 0 in E by reflexivity. replace (2 ^ Z.of_nat (0 mod 8)) with 1 in E by reflexivity. rewrite E. cbn [obind].
  replace (skipn (0 / 8) d) with d by reflexivity. destruct V as (Ld & _ & Vc & Vh). rewrite Vc. clear E G Z Sr N' L Vc Id R' N. destruct d as [|f d]; [discriminate Ld|]. rewrite znth_0. cbn [obind hd] in *. assert ((f =? 0) = false) as -> by lia. reflexivity.
Qed.

(* ---- all searches ---- *)
Lemma perform_next devs c s : Forall valid_rom devs -> In c devs -> ow_rom s = c -> ow_flag s = false -> ow_ld s = zp (map code devs) (code c) 1 0 -> ow_ld s <> 0 ->
  exists d lfd, let lz := zp (map code devs) (code d) 1 0 in ow_performSearch devs s = Some (mkOW lz lfd (lz =? 0) d, true) /\ In d devs /\ blt (code c) (code d) /\ forall e, In e devs -> blt (code c) (code e) -> code e = code d \/ blt (code d) (code e).
Proof.
  intros V I R F L L0. pose proof V as V'. rewrite Forall_forall in V'. pose proof (valid8 c (V' c I)) as R8.
  destruct (perform devs s ltac:(intro X; rewrite X in I; exact I) V ltac:(rewrite R; exact R8) F) as (d & lz & lfd & E & Id & G & Z). exists d, lfd. cbv zeta. rewrite <- Z. split; [exact E|]. split; [exact Id|].
  rewrite R in G. destruct (zp_lz (map code devs) (code c) 1 0) as [X|X]; [congruence|].
  destruct (go_next (ow_ld s) (code c) (map code devs) 1 0 (ow_lfd s) (code d) lz lfd 0 ltac:(lia) (in_map code _ _ I) (codes_len devs _) L ltac:(lia) G) as [B1 B2].
  split; [exact B1|]. intros e Ie Be. apply B2; [apply in_map; exact Ie|exact Be].
Qed.
Fixpoint bltb (a b : list bool) : bool := match a, b with x :: a, y :: b => (negb x && y) || (Bool.eqb x y && bltb a b) | _, _ => false end.
Lemma bltb_spec a b : bltb a b = true <-> blt a b.
Proof.
  revert b. induction a as [|x a IH]; intros [|y b]; cbn; try (split; [discriminate|tauto]). rewrite orb_true_iff, !andb_true_iff, IH, negb_true_iff, eqb_true_iff. tauto.
Qed.
Definition above (c : list Z) (devs : list (list Z)) : list (list Z) := filter (fun d => bltb (code c) (code d)) devs.
Lemma above_next devs c d : NoDup devs -> Forall valid_rom devs -> In d devs -> blt (code c) (code d) -> (forall e, In e devs -> blt (code c) (code e) -> code e = code d \/ blt (code d) (code e)) ->
  Permutation (above c devs) (d :: above d devs).
Proof.
  intros Nd V I B M. rewrite Forall_forall in V. apply NoDup_Permutation.
  - apply NoDup_filter. exact Nd.
  - constructor; [|apply NoDup_filter; exact Nd]. unfold above. rewrite filter_In, bltb_spec. intros [_ X]. exact (blt_irrefl _ X).
  - intro x. unfold above. cbn [In]. rewrite !filter_In, !bltb_spec. split.
    + intros [Ix Bx]. destruct (M x Ix Bx) as [E|E]; [left; symmetry; apply code_inj; [apply valid8, V; exact Ix|apply valid8, V; exact I|exact E]|right; split; assumption].
    + intros [<-|[Ix Bx]]; [split; assumption|]. split; [exact Ix|]. exact (blt_trans _ _ _ B Bx).
Qed.
Lemma searches_from devs : NoDup devs -> Forall valid_rom devs -> forall n c s, In c devs -> ow_rom s = c -> ow_ld s = zp (map code devs) (code c) 1 0 -> ow_flag s = (ow_ld s =? 0) -> n = length (above c devs) ->
  exists s' l, searches (S n) devs s = Some (s', map Some l ++ [None]) /\ Permutation l (above c devs) /\ ow_ld s' = 0 /\ ow_lfd s' = 0 /\ ow_flag s' = false /\ rom8 (ow_rom s').
Proof.
  intros Nd V. pose proof V as V'. rewrite Forall_forall in V'. induction n as [|n IH]; intros c s I R L F E.
  - assert (ow_ld s = 0) as L0.
    { destruct (Z.eq_dec (ow_ld s) 0) as [X|X]; [exact X|]. exfalso. destruct (perform_next devs c s V I R ltac:(rewrite F; lia) L X) as (d & lfd & _ & Id & B & _).
      assert (In d (above c devs)) as K by (unfold above; rewrite filter_In, bltb_spec; split; assumption). destruct (above c devs); [exact K|discriminate]. }
    rewrite L0 in F. cbn [Z.eqb] in F. cbn [searches]. unfold ow_searchNext, ow_performSearch. rewrite F. cbn [obind]. exists (mkOW 0 0 false (ow_rom s)), []. split; [reflexivity|]. split; [destruct (above c devs); [constructor|discriminate]|]. cbn. repeat split; try reflexivity; rewrite R; apply (valid8 c (V' c I)).
  - destruct (Z.eq_dec (ow_ld s) 0) as [X|X].
    { exfalso. destruct (above c devs) as [|d t] eqn:A; [discriminate|]. assert (In d (above c devs)) as K by (rewrite A; left; reflexivity). unfold above in K. rewrite filter_In, bltb_spec in K. destruct K as [Id B].
      exact (zp_max (map code devs) (code c) 1 0 ltac:(lia) ltac:(lia) (codes_len devs _) (in_map code _ _ I) (code d) (in_map code _ _ Id) B). }
    destruct (perform_next devs c s V I R ltac:(rewrite F; lia) L X) as (d & lfd & P & Id & B & M). cbv zeta in P. pose proof (above_next devs c d Nd V Id B M) as Pm. pose proof (Permutation_length Pm) as Pl. cbn [length] in Pl.
    destruct (IH d (mkOW (zp (map code devs) (code d) 1 0) lfd (zp (map code devs) (code d) 1 0 =? 0) d) Id eq_refl eq_refl eq_refl ltac:(lia)) as (s' & l & Es & Pe & Fin).
    exists s', (d :: l). split; [|split; [|exact Fin]].
    + cbn [searches] in *. unfold ow_searchNext in *. rewrite P. cbn [obind ow_rom]. rewrite Es. reflexivity.
    + apply Permutation_sym. apply (Permutation_trans Pm). apply perm_skip. apply Permutation_sym. exact Pe.
Qed.

(* ---- the checksum fixes the last byte ---- *)
Lemma step_zero z : 0 <= z < 256 -> refl_step 0x8C z = 0 -> z = 0.
Proof.
  intros R. unfold refl_step. assert (Z.land z 1 = z mod 2) as -> by (change 1 with (Z.ones 1); rewrite Z.land_ones by lia; reflexivity). rewrite !Z.shiftr_div_pow2 by lia. change (2 ^ 1) with 2.
  destruct (z mod 2 =? 0) eqn:E; cbn [negb]; intro H; [lia|]. apply Z.lxor_eq in H. lia.
Qed.
Lemma iter_zero k z : 0 <= z < 256 -> Nat.iter k (refl_step 0x8C) z = 0 -> z = 0.
Proof.
  intros R. revert z R. induction k as [|k IH]; intros z R H; [exact H|]. cbn [Nat.iter nat_rect] in H. change (refl_step 0x8C (Nat.iter k (refl_step 0x8C) z) = 0) in H.
  pose proof (refl_iter_range 8 0x8C z k ltac:(cbn; lia) ltac:(cbn; lia)) as Q. apply step_zero in H; [|cbn in Q; lia]. apply (IH z R H).
Qed.
Lemma crc_zero c x : 0 <= c < 256 -> 0 <= x < 256 -> sab_crcUpdate c x = 0 -> x = c.
Proof.
  intros C X H. unfold sab_crcUpdate, refl_update in H. apply iter_zero in H; [apply Z.lxor_eq in H; congruence|]. exact (BitLemmas.lxor_lt c x 8 ltac:(lia) C X).
Qed.
Lemma valid_last d : valid_rom d -> exists a x, d = a ++ [x] /\ length a = 7%nat /\ x = fold_left sab_crcUpdate a 0.
Proof.
  intros (L & F & V & _). exists (firstn 7 d), (nth 7 d 0). assert (d = firstn 7 d ++ [nth 7 d 0]) as E. { rewrite <- (firstn_skipn 7 d) at 1. f_equal. rewrite (skipn_nth d 7) by lia. rewrite skipn_all2 by lia. reflexivity. }
  split; [exact E|]. split; [rewrite firstn_length; lia|]. rewrite E, fold_left_app in V. cbn [fold_left] in V. rewrite E in F. apply Forall_app in F. destruct F as [F1 F2]. inversion F2; subst.
  apply crc_zero; [|assumption|exact V]. apply (refl_fold 8 0x8C (firstn 7 d)); [lia|cbn; lia|exact F1|cbn; lia].
Qed.
Lemma firstn_dbit d e k : (k <= 64)%nat -> firstn k (code d) = firstn k (code e) -> forall j, (j < k)%nat -> dbit d j = dbit e j.
Proof.
  intros K H j J. unfold code, suffix in H. rewrite !firstn_map in H. replace (firstn k (seq 0 (64 - 0))) with (seq 0 k) in H.
  - apply (f_equal (fun l => nth j l false)) in H. rewrite (nth_indep _ false (dbit d 0)) in H by (rewrite map_length, seq_length; lia). rewrite map_nth in H. rewrite (nth_indep _ false (dbit e 0)) in H by (rewrite map_length, seq_length; lia). rewrite map_nth in H. rewrite seq_nth in H by lia. exact H.
  - replace (64 - 0)%nat with (k + (64 - k))%nat by lia. rewrite seq_app, firstn_app, seq_length, Nat.sub_diag, firstn_O, app_nil_r. symmetry. apply firstn_all2. rewrite seq_length. lia.
Qed.
Lemma dbit_firstn d e k : (forall j, (j < k)%nat -> dbit d j = dbit e j) -> (k <= 64)%nat -> firstn k (code d) = firstn k (code e).
Proof.
  intros H K. unfold code, suffix. rewrite !firstn_map. apply map_ext_in. intros j J. apply H. replace (64 - 0)%nat with (k + (64 - k))%nat in J by lia. rewrite seq_app, firstn_app, seq_length, Nat.sub_diag, firstn_O, app_nil_r in J.
  rewrite firstn_all2 in J by (rewrite seq_length; lia). apply in_seq in J. lia.
Qed.
Lemma bits63_eq d e : valid_rom d -> valid_rom e -> firstn 63 (code d) = firstn 63 (code e) -> d = e.
Proof.
  intros D E H. pose proof (firstn_dbit d e 63 ltac:(lia) H) as B. destruct (valid_last d D) as (a & x & Ea & La & Xa). destruct (valid_last e E) as (b & y & Eb & Lb & Yb).
  assert (a = b) as ->. { apply (nth_ext0 a b 7 La Lb). intros k K. assert (forall l z, length l = 7%nat -> nth k (l ++ [z]) 0 = nth k l 0) as A by (intros l z Ll; apply app_nth1; lia). rewrite <- (A a x La), <- (A b y Lb), <- Ea, <- Eb.
    apply dbit_bytes; [exact (valid8 d D)|exact (valid8 e E)|lia|]. intros j J. apply B. lia. }
  congruence.
Qed.
