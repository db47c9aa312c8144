(* Proofs about SmartPointer. *)
From Coq Require Import Permutation.
From Verif Require Import Base PtrHeap SliceLemmas SmartPtrSpec SmartPtrModel.

(* ---- lists of handles ---- *)
Lemma lookup_In l x o : lookup l x = Some o -> In (x, o) l.
Proof.
  induction l as [|[y q] t IH]; cbn [lookup]; [discriminate|]. destruct (y =? x) eqn:E; intro H.
  - injection H as <-. left. f_equal. lia.
  - right. auto.
Qed.
Lemma lookup_map (f : Z -> Z) l x : lookup (map (fun a => (fst a, f (snd a))) l) x = option_map f (lookup l x).
Proof. induction l as [|[y q] t IH]; [reflexivity|]. cbn. destruct (y =? x); [reflexivity|exact IH]. Qed.
Lemma without_map (f : Z -> Z) l x : without (map (fun a => (fst a, f (snd a))) l) x = map (fun a => (fst a, f (snd a))) (without l x).
Proof. induction l as [|[y q] t IH]; [reflexivity|]. cbn. destruct (y =? x); [exact IH|]. cbn. rewrite IH. reflexivity. Qed.
Lemma without_In l x y o : In (y, o) (without l x) -> In (y, o) l /\ y <> x.
Proof.
  induction l as [|[z q] t IH]; cbn [without]; [intros []|]. destruct (z =? x) eqn:E.
  - intro H. destruct (IH H). split; [right; assumption|assumption].
  - intros [H|H]; [injection H as <- <-; split; [left; reflexivity|lia]|]. destruct (IH H). split; [right; assumption|assumption].
Qed.
Lemma without_fst l x : NoDup (map fst l) -> NoDup (map fst (without l x)) /\ ~ In x (map fst (without l x)).
Proof.
  induction l as [|[z q] t IH]; cbn [without map]; [intro; split; [constructor|intros []]|]. intro D. inversion D as [|? ? D1 D2]; subst.
  destruct (IH D2) as [I1 I2]. destruct (z =? x) eqn:E; [auto|]. cbn [map fst]. split.
  - constructor; [|exact I1]. intro H. apply D1. clear - H. apply in_map_iff in H. destruct H as ([y o] & <- & H). apply without_In in H.
    apply in_map_iff. exists (y, o). split; [reflexivity|apply H].
  - intros [H|H]; [cbn in H; lia|contradiction].
Qed.
Lemma without_notin l x : ~ In x (map fst l) -> without l x = l.
Proof.
  induction l as [|[z q] t IH]; [reflexivity|]. cbn. intro N. destruct (z =? x) eqn:E; [exfalso; apply N; left; lia|]. rewrite IH; [reflexivity|tauto].
Qed.
Lemma lookup_None l x : lookup l x = None -> ~ In x (map fst l).
Proof.
  induction l as [|[z q] t IH]; [intros _ []|]. cbn. destruct (z =? x) eqn:E; [discriminate|]. intros H [I|I]; [lia|]. exact (IH H I).
Qed.
Lemma handles_without l x o q : NoDup (map fst l) -> lookup l x = Some o ->
  handles (without l x) q = handles l q - (if q =? o then 1 else 0).
Proof.
  induction l as [|[z r] t IH]; cbn [lookup without handles map fst]; [discriminate|]. intros D H. inversion D as [|? ? D1 D2]; subst.
  destruct (z =? x) eqn:E.
  - injection H as ->. assert (z = x) as -> by lia. rewrite without_notin by exact D1. destruct (o =? q) eqn:E1, (q =? o) eqn:E2; lia.
  - cbn [handles]. rewrite (IH D2 H). lia.
Qed.
Lemma handles_nonneg l o : 0 <= handles l o.
Proof. induction l as [|[x q] t IH]; cbn [handles]; [lia|]. destruct (q =? o); lia. Qed.
Lemma handles_In l o x : In (x, o) l -> 0 < handles l o.
Proof.
  induction l as [|[y q] t IH]; [intros []|]. cbn [handles]. pose proof (handles_nonneg t o) as HN. intros [H|H].
  - injection H as -> ->. rewrite Z.eqb_refl. lia.
  - specialize (IH H). destruct (q =? o); lia.
Qed.
Lemma handles_ex l o : 0 < handles l o -> exists x, In (x, o) l.
Proof.
  induction l as [|[y q] t IH]; cbn [handles]; [lia|]. destruct (q =? o) eqn:E; intro H.
  - exists y. left. f_equal. lia.
  - destruct (IH ltac:(lia)) as [x Hx]. exists x. right. exact Hx.
Qed.

Lemma zupd_mid {A} (a : list A) x y b : zupd (a ++ x :: b) (zlen a) y = Some (a ++ y :: b).
Proof.
  unfold zupd, zlen. destruct (Z.of_nat (length a) <? 0) eqn:E; [lia|]. rewrite Nat2Z.id. clear E.
  induction a as [|z a IH]; [reflexivity|]. cbn. cbn in IH. rewrite IH. reflexivity.
Qed.

Section Proofs.
Variable w : Z.
(* the address returned by the k-th allocation when the given addresses are in use *)
Variable alloc : Z -> list Z -> Z.
Definition sp_limit : Z := Z.min 65535 (2 ^ w - 5).

(* the handles in scope, with the value of their member ptr *)
Record sworld := mkSW { sw_heap : sheap; sw_vars : list (Z * Z); sw_time : Z }.
Definition with_ptr (s : sworld) (x : Z) (f : Z -> option (sworld * presult)) : option (sworld * presult) :=
  do p <- lookup (sw_vars s) x; f p.
Definition construct (s : sworld) (x : Z) (f : option (sheap * Z)) : option (sworld * presult) :=
  match lookup (sw_vars s) x with
  | Some _ => None
  | None => do (h, p) <- f; Some (mkSW h ((x, p) :: sw_vars s) (sw_time s + 1), PVoid)
  end.
(* the calls of a program on the model *)
Definition sp_call (s : sworld) (c : pcall) : option (sworld * presult) :=
  let h := sw_heap s in
  let al := alloc (sw_time s) in
  match c with
  | PNew x => construct s x (sp_new h al)
  | PNewSize x n => construct s x (sp_new_size w h n al)
  | PNewData x d => construct s x (sp_new_data w h d al)
  | PCopy x y => construct s x (do q <- lookup (sw_vars s) y; sp_copy h q)
  | PDelete x => with_ptr s x (fun p => do h <- sp_delete h p; Some (mkSW h (without (sw_vars s) x) (sw_time s), PVoid))
  | PAssign x y => with_ptr s x (fun p => with_ptr s y (fun q =>
      do (h, p) <- sp_assign h p q; Some (mkSW h ((x, p) :: without (sw_vars s) x) (sw_time s), PVoid)))
  | PEqual x y => with_ptr s x (fun p => with_ptr s y (fun q => Some (s, PBool (sp_equal p q))))
  | PGetSize x => with_ptr s x (fun p => do n <- sp_getSize h p; Some (s, PNumber n))
  | PRead x i => with_ptr s x (fun p => do v <- sp_at h p i; Some (s, PNumber v))
  | PWrite x i v => with_ptr s x (fun p => do h <- sp_put h p i v; Some (mkSW h (sw_vars s) (sw_time s), PVoid))
  | PGet x n => with_ptr s x (fun p => do d <- sp_get h p n; Some (s, PData d))
  end.
Fixpoint sp_calls (s : sworld) (cs : list pcall) : option (sworld * list presult) :=
  match cs with
  | [] => Some (s, [])
  | c :: cs => do (s, r) <- sp_call s c; do (s, rs) <- sp_calls s cs; Some (s, r :: rs)
  end.
Definition sworld0 : sworld := mkSW [] [] 0.

(* ---- blocks ---- *)
Definition s_okh (h : sheap) : Prop := NoDup (keys h) /\ ~ In 0 (keys h).
Definition blk (h : sheap) (p c : Z) (d : list (option Z)) : Prop :=
  zlen d <= 65535 /\ exists c1 pad, hget h p = Some (Some c :: c1 :: Some (zlen d mod 256) :: Some (zlen d / 256) :: d ++ pad).
Definition R (f : Z -> Z) (h : sheap) (cnt : Z -> Z) (data : Z -> list (option Z)) : Prop :=
  s_okh h /\ (forall o, 0 < cnt o -> blk h (f o) (cnt o mod 256) (data o)) /\
  (forall o q, 0 < cnt o -> 0 < cnt q -> f o = f q -> o = q) /\
  (forall p, In p (keys h) -> exists o, 0 < cnt o /\ f o = p).

Lemma s_write_ok h p b i v b' : hget h p = Some b -> zupd b i (Some v) = Some b' ->
  exists h', s_write h p i v = Some h' /\ keys h' = keys h /\ hget h' p = Some b' /\ forall q, q <> p -> hget h' q = hget h q.
Proof.
  intros G U. unfold s_write. rewrite G. cbn [obind]. rewrite U. cbn [obind]. exact (hset_ok _ _ b' _ G).
Qed.

Lemma R_ext f h cnt cnt' data data' : R f h cnt data -> (forall o, cnt o = cnt' o) -> (forall o, 0 < cnt' o -> data o = data' o) -> R f h cnt' data'.
Proof.
  intros (O & B & I & K) E D. split; [exact O|]. split; [|split].
  - intros o Ho. rewrite <- D by exact Ho. rewrite <- E in *. apply B, Ho.
  - intros o q Ho Hq. rewrite <- E in *. auto.
  - intros p Hp. destruct (K p Hp) as (o & Ho & Ef). rewrite E in Ho. eauto.
Qed.

(* changing the block of one object in place *)
Lemma R_inplace f h h' cnt cnt' data data' o : R f h cnt data -> keys h' = keys h ->
  (forall q, q <> f o -> hget h' q = hget h q) -> 0 < cnt o -> 0 < cnt' o -> (forall q, q <> o -> cnt' q = cnt q) ->
  (forall q, q <> o -> data' q = data q) -> blk h' (f o) (cnt' o mod 256) (data' o) -> R f h' cnt' data'.
Proof.
  intros (O & B & I & K) Kh F Ho Ho' Ec Ed B'. split; [unfold s_okh; rewrite Kh; exact O|].
  assert (forall q, 0 < cnt' q -> 0 < cnt q) as L. { intros q Hq. destruct (Z.eq_dec q o) as [->|N]; [exact Ho|]. rewrite <- Ec by exact N. exact Hq. }
  split; [|split].
  - intros q Hq. destruct (Z.eq_dec q o) as [->|N]; [exact B'|]. rewrite Ec, Ed by exact N.
    destruct (B q (L q Hq)) as (Lq & c1 & pad & G). split; [exact Lq|]. exists c1, pad. rewrite F; [exact G|]. intro Q. apply N, I; auto.
  - intros a b Ha Hb. apply I; auto.
  - intros p Hp. rewrite Kh in Hp. destruct (K p Hp) as (q & Hq & Ef). exists q. split; [|exact Ef].
    destruct (Z.eq_dec q o) as [->|N]; [exact Ho'|]. rewrite Ec by exact N. exact Hq.
Qed.

Lemma acquire_ok f h cnt data o : R f h cnt data -> 0 < cnt o ->
  exists h', sp_acquire h (f o) = Some h' /\ R f h' (fun q => cnt q + (if q =? o then 1 else 0)) data.
Proof.
  intros HR Ho. pose proof HR as (O & B & I & K). destruct (B o Ho) as (L & c1 & pad & G). unfold sp_acquire, s_read. rewrite G.
  cbn [obind]. rewrite znth_0. cbn [obind].
  destruct (s_write_ok h (f o) _ 0 (u8 (cnt o mod 256 + 1)) _ G eq_refl) as (h' & -> & K' & G' & F'). exists h'. split; [reflexivity|].
  apply (R_inplace f h h' cnt _ data data o HR K' F' Ho); rewrite ?Z.eqb_refl; try lia; auto.
  - intros q N. destruct (q =? o) eqn:E; lia.
  - split; [exact L|]. exists c1, pad. rewrite G'. do 3 f_equal. unfold u8. rewrite Zplus_mod_idemp_l. reflexivity.
Qed.

Lemma release_ok f h cnt data o : R f h cnt data -> 0 < cnt o -> (cnt o = 1 \/ cnt o mod 256 <> 1) ->
  exists h', sp_release h (f o) = Some h' /\ R f h' (fun q => cnt q - (if q =? o then 1 else 0)) data.
Proof.
  intros HR Ho S. pose proof HR as (O & B & I & K). destruct (B o Ho) as (L & c1 & pad & G). unfold sp_release, s_read. rewrite G.
  cbn [obind]. rewrite znth_0. cbn [obind].
  destruct (s_write_ok h (f o) _ 0 (u8 (cnt o mod 256 - 1)) _ G eq_refl) as (h1 & -> & K1 & G1 & F1). cbn [obind].
  assert (u8 (cnt o mod 256 - 1) = (cnt o - 1) mod 256) as E by (unfold u8; rewrite Zminus_mod_idemp_l; reflexivity). rewrite E in *.
  destruct ((cnt o - 1) mod 256 =? 0) eqn:E0.
  - assert (cnt o = 1) as C1 by (clear - S E0 Ho; lia). destruct O as [D Z0].
    assert (NoDup (keys h1)) as D1 by (rewrite K1; exact D).
    destruct (hdel_ok _ _ _ D1 G1) as (h2 & -> & P2 & F2). exists h2. split; [reflexivity|].
    assert (forall q, In q (keys h2) -> In q (keys h) /\ q <> f o) as I2.
    { intros q Hq. rewrite <- K1. split; [eapply Permutation_in; [symmetry; exact P2|right; exact Hq]|].
      intros ->. assert (NoDup (f o :: keys h2)) as X by exact (Permutation_NoDup P2 D1). inversion X. contradiction. }
    assert (forall q, 0 < cnt q - (if q =? o then 1 else 0) -> 0 < cnt q /\ q <> o) as Lv.
    { intros q Hq. destruct (q =? o) eqn:Eq; [assert (q = o) as -> by lia; lia|]. lia. }
    split; [split|split; [|split]].
    + assert (NoDup (f o :: keys h2)) as X by exact (Permutation_NoDup P2 D1). inversion X. assumption.
    + intro H. apply Z0, I2, H.
    + intros q Hq. destruct (Lv q Hq) as [L1 L2]. replace (cnt q - _) with (cnt q) by (destruct (q =? o) eqn:Eq; lia).
      destruct (B q L1) as (Lq & d1 & pad' & Gq). split; [exact Lq|]. exists d1, pad'.
      assert (f q <> f o) as N by (intro Q; apply L2, I; auto). rewrite F2, F1 by exact N. exact Gq.
    + intros a b Ha Hb. apply Lv in Ha, Hb. apply I; tauto.
    + intros p Hp. destruct (I2 p Hp) as [P3 P4]. destruct (K p P3) as (q & Hq & Ef). exists q. split; [|exact Ef].
      destruct (q =? o) eqn:Eq; [exfalso; apply P4; rewrite <- Ef; f_equal; lia|lia].
  - exists h1. split; [reflexivity|].
    apply (R_inplace f h h1 cnt _ data data o HR K1 F1 Ho); rewrite ?Z.eqb_refl; auto.
    + destruct (Z.eq_dec (cnt o) 1) as [C|]; [rewrite C in E0; discriminate|lia].
    + intros q N. destruct (q =? o) eqn:Eq; lia.
    + split; [exact L|]. exists c1, pad. exact G1.
Qed.

(* releasing a handle when the count has wrapped around: the block is freed *)
Lemma release_early f h cnt data o : R f h cnt data -> 0 < cnt o -> cnt o mod 256 = 1 ->
  exists h', sp_release h (f o) = Some h' /\ ~ In (f o) (keys h').
Proof.
  intros HR Ho S. pose proof HR as (O & B & I & K). destruct (B o Ho) as (L & c1 & pad & G). unfold sp_release, s_read. rewrite G.
  cbn [obind]. rewrite znth_0. cbn [obind]. rewrite S in *.
  destruct (s_write_ok h (f o) _ 0 (u8 (1 - 1)) _ G eq_refl) as (h1 & -> & K1 & G1 & F1). cbn [obind].
  change (u8 (1 - 1) =? 0) with true. cbv iota. destruct O as [D Z0]. assert (NoDup (keys h1)) as D1 by (rewrite K1; exact D).
  destruct (hdel_ok _ _ _ D1 G1) as (h2 & -> & P2 & F2). exists h2. split; [reflexivity|].
  assert (NoDup (f o :: keys h2)) as X by exact (Permutation_NoDup P2 D1). inversion X. assumption.
Qed.
Lemma release_absent h p : ~ In p (keys h) -> sp_release h p = None /\ sp_acquire h p = None.
Proof. intro N. unfold sp_release, sp_acquire, s_read. rewrite (hget_None _ _ N). split; reflexivity. Qed.

(* a new block *)
Lemma R_new f h h' cnt data p n d : R f h cnt data -> p <> 0 -> ~ In p (keys h) -> keys h' = p :: keys h ->
  (forall q, q <> p -> hget h' q = hget h q) -> cnt n = 0 -> blk h' p 1 d ->
  R (fun o => if o =? n then p else f o) h' (fun q => cnt q + (if q =? n then 1 else 0)) (fun o => if o =? n then d else data o).
Proof.
  intros ((D & Z0) & B & I & K) P0 Pn K' F C0 B'. split; [split|split; [|split]].
  - rewrite K'. constructor; assumption.
  - rewrite K'. intros [H|H]; auto.
  - intros o Ho. destruct (o =? n) eqn:E; [assert (o = n) as -> by lia; rewrite C0; exact B'|]. rewrite Z.add_0_r in *.
    destruct (B o Ho) as (L & c1 & pad & G). split; [exact L|]. exists c1, pad. rewrite F; [exact G|].
    intro Q. apply Pn. rewrite <- Q. exact (hget_In _ _ _ G).
  - intros a b Ha Hb. assert (forall q, 0 < cnt q -> f q <> p) as X.
    { intros q Hq Q. destruct (B q Hq) as (_ & c1 & pad & G). apply Pn. rewrite <- Q. exact (hget_In _ _ _ G). }
    destruct (a =? n) eqn:Ea, (b =? n) eqn:Eb; intro Q.
    + lia.
    + exfalso. apply (X b); [lia|auto].
    + exfalso. apply (X a); [lia|auto].
    + apply I; [lia|lia|exact Q].
  - intros q Hq. rewrite K' in Hq. destruct Hq as [<-|Hq].
    + exists n. rewrite Z.eqb_refl. split; [lia|reflexivity].
    + destruct (K q Hq) as (o & Ho & Ef). exists o. assert ((o =? n) = false) as -> by (destruct (Z.eq_dec o n); [subst; lia|lia]). split; [lia|exact Ef].
Qed.

Definition s_good (al : list Z -> Z) : Prop := forall live, al live <> 0 /\ ~ In (al live) live.
Lemma s_allocate_ok h al n : s_good al -> exists h1 p, s_allocate h al n = Some (h1, p) /\ p <> 0 /\ ~ In p (keys h) /\
  keys h1 = p :: keys h /\ hget h1 p = Some (repeat None (Z.to_nat n)) /\ forall q, q <> p -> hget h1 q = hget h q.
Proof.
  intro Ga. destruct (Ga (keys h)) as [A1 A2]. unfold s_allocate. cbv zeta.
  destruct (hnew_ok h (al (keys h)) (repeat None (Z.to_nat n)) A1 A2) as (E & G & F). rewrite E. cbn [obind].
  do 2 eexists. split; [reflexivity|]. repeat split; auto.
Qed.

(* writing header and size into a new block *)
Lemma header_ok h p n k : hget h p = Some (repeat None (4 + k)) -> 0 <= n <= 65535 ->
  exists h1 h2, s_write h p 0 1 = Some h1 /\ s_write_size h1 p n = Some h2 /\ keys h2 = keys h /\ (forall q, q <> p -> hget h2 q = hget h q) /\
    hget h2 p = Some (Some 1 :: None :: Some (n mod 256) :: Some (n / 256) :: repeat None k).
Proof.
  intros G Hn. cbn [Nat.add repeat] in G. destruct (s_write_ok h p _ 0 1 _ G eq_refl) as (h1 & E1 & K1 & G1 & F1). exists h1.
  unfold s_write_size. assert (u16 n = n) as -> by (unfold u16; lia).
  destruct (s_write_ok h1 p _ 2 (n mod 256) _ G1 eq_refl) as (h2 & E2 & K2 & G2 & F2).
  destruct (s_write_ok h2 p _ 3 (n / 256) _ G2 eq_refl) as (h3 & E3 & K3 & G3 & F3).
  exists h3. split; [exact E1|]. rewrite E2. cbn [obind]. split; [exact E3|]. split; [congruence|]. split.
  - intros q N. rewrite F3, F2, F1 by exact N. reflexivity.
  - exact G3.
Qed.

Lemma memcpy_ok p d : forall h a b i, hget h p = Some (a ++ repeat None (length d) ++ b) -> i = zlen a ->
  exists h', s_memcpy h p i d = Some h' /\ keys h' = keys h /\ (forall q, q <> p -> hget h' q = hget h q) /\ hget h' p = Some (a ++ map Some d ++ b).
Proof.
  induction d as [|v d IH]; intros h a b i G ->; cbn [s_memcpy].
  - exists h. repeat split; auto.
  - cbn [length repeat app] in G.
    assert (zupd (a ++ None :: repeat None (length d) ++ b) (zlen a) (Some v) = Some (a ++ Some v :: repeat None (length d) ++ b)) as U.
    { apply zupd_mid. }
    destruct (s_write_ok h p _ (zlen a) v _ G U) as (h1 & -> & K1 & G1 & F1). cbn [obind].
    destruct (IH h1 (a ++ [Some v]) b (zlen a + 1)) as (h2 & -> & K2 & F2 & G2); [rewrite <- app_assoc; exact G1|rewrite zlen_app; reflexivity|].
    exists h2. split; [reflexivity|]. split; [congruence|]. split; [intros q N; rewrite F2, F1 by exact N; reflexivity|].
    rewrite G2, <- app_assoc. reflexivity.
Qed.

Lemma new_ok f h cnt data n al : R f h cnt data -> cnt n = 0 -> s_good al -> exists h' p, sp_new h al = Some (h', p) /\
  R (fun o => if o =? n then p else f o) h' (fun q => cnt q + (if q =? n then 1 else 0)) (fun o => if o =? n then [] else data o).
Proof.
  intros HR C0 Ga. unfold sp_new. destruct (s_allocate_ok h al 5 Ga) as (h1 & p & -> & P0 & Pn & K1 & G1 & F1). cbn [obind].
  destruct (header_ok h1 p 0 1 G1 ltac:(lia)) as (h2 & h3 & -> & E3 & K3 & F3 & G3). cbn [obind]. unfold s_write_size in E3.
  change (u16 0 mod 256) with 0 in E3. change (u16 0 / 256) with 0 in E3.
  destruct (s_write h2 p 2 0) as [h4|]; [|discriminate]. cbn [obind] in E3 |- *. rewrite E3. cbn [obind]. do 2 eexists. split; [reflexivity|].
  apply (R_new f h h3 cnt data p n []); auto; [congruence|intros q N; rewrite F3, F1 by exact N; reflexivity|].
  split; [rewrite zlen_nil; lia|]. exists None, [None]. exact G3.
Qed.
Lemma new_size_ok f h cnt data n al k : R f h cnt data -> cnt n = 0 -> s_good al -> 0 <= k <= sp_limit ->
  exists h' p, sp_new_size w h k al = Some (h', p) /\
  R (fun o => if o =? n then p else f o) h' (fun q => cnt q + (if q =? n then 1 else 0)) (fun o => if o =? n then repeat None (Z.to_nat k) else data o).
Proof.
  intros HR C0 Ga Hk. unfold sp_limit in Hk. unfold sp_new_size.
  assert ((if k =? 0 then 5 else wrap w (k + 4)) = if k =? 0 then 5 else k + 4) as ->.
  { destruct (k =? 0); [reflexivity|]. apply wrap_small. lia. }
  assert (exists e, Z.to_nat (if k =? 0 then 5 else k + 4) = (4 + (Z.to_nat k + e))%nat) as [e He].
  { destruct (k =? 0) eqn:E; [exists 1%nat|exists 0%nat]; lia. }
  destruct (s_allocate_ok h al (if k =? 0 then 5 else k + 4) Ga) as (h1 & p & -> & P0 & Pn & K1 & G1 & F1). cbn [obind]. rewrite He in G1.
  destruct (header_ok h1 p k _ G1 ltac:(lia)) as (h2 & h3 & -> & E3 & K3 & F3 & G3). cbn [obind]. rewrite E3. cbn [obind].
  do 2 eexists. split; [reflexivity|].
  apply (R_new f h h3 cnt data p n); auto; [congruence|intros q N; rewrite F3, F1 by exact N; reflexivity|].
  assert (zlen (repeat (@None Z) (Z.to_nat k)) = k) as Lk by (rewrite zlen_repeat; lia).
  split; [lia|]. rewrite Lk. exists None, (repeat None e). rewrite G3, repeat_app. reflexivity.
Qed.
Lemma new_data_ok f h cnt data n al d : R f h cnt data -> cnt n = 0 -> s_good al -> zlen d <= sp_limit ->
  exists h' p, sp_new_data w h d al = Some (h', p) /\
  R (fun o => if o =? n then p else f o) h' (fun q => cnt q + (if q =? n then 1 else 0)) (fun o => if o =? n then map Some d else data o).
Proof.
  intros HR C0 Ga Hk. unfold sp_limit in Hk. unfold sp_new_data. pose proof (zlen_nonneg d). rewrite (wrap_small w (zlen d + 4)) by lia.
  destruct (s_allocate_ok h al (zlen d + 4) Ga) as (h1 & p & -> & P0 & Pn & K1 & G1 & F1). cbn [obind].
  replace (Z.to_nat (zlen d + 4)) with (4 + length d)%nat in G1 by (unfold zlen; lia).
  destruct (header_ok h1 p (zlen d) _ G1 ltac:(lia)) as (h2 & h3 & -> & E3 & K3 & F3 & G3). cbn [obind]. rewrite E3. cbn [obind].
  destruct (memcpy_ok p d h3 [Some 1; None; Some (zlen d mod 256); Some (zlen d / 256)] [] 4) as (h4 & -> & K4 & F4 & G4);
    [rewrite G3, app_nil_r; reflexivity|reflexivity|]. cbn [obind].
  do 2 eexists. split; [reflexivity|].
  apply (R_new f h h4 cnt data p n); auto; [congruence|intros q N; rewrite F4, F3, F1 by exact N; reflexivity|].
  split; [rewrite zlen_map; lia|]. rewrite zlen_map. exists None, []. exact G4.
Qed.

Lemma getSize_ok h p c d : blk h p c d -> sp_getSize h p = Some (zlen d).
Proof.
  intros (L & c1 & pad & G). unfold sp_getSize, s_read. rewrite G. cbn [obind].
  assert (forall (a b c e : option Z) l, znth (a :: b :: c :: e :: l) 2 = Some c /\ znth (a :: b :: c :: e :: l) 3 = Some e) as X by (split; reflexivity).
  rewrite (proj1 (X _ _ _ _ _)), (proj2 (X _ _ _ _ _)). cbn [obind]. f_equal. clear. pose proof (zlen_nonneg d). lia.
Qed.
Lemma znth4 (a b c e : option Z) l i : 0 <= i -> znth (a :: b :: c :: e :: l) (4 + i) = znth l i.
Proof. intro H. rewrite !znth_cons by lia. f_equal. lia. Qed.
Lemma at_ok h p c d i v : blk h p c d -> 0 <= i -> nth_error d (Z.to_nat i) = Some (Some v) -> sp_at h p i = Some v.
Proof.
  intros (L & c1 & pad & G) Hi N. unfold sp_at, s_read. rewrite G. cbn [obind]. rewrite znth4 by exact Hi.
  unfold znth. destruct (i <? 0) eqn:E; [lia|]. rewrite nth_error_app1 by (apply nth_error_Some; congruence). rewrite N. reflexivity.
Qed.
Lemma bytes_ok h p d : forall a b i, hget h p = Some (a ++ d ++ b) -> i = zlen a -> s_bytes h p i (length d) = Some d.
Proof.
  induction d as [|x d IH]; intros a b i G ->; [reflexivity|]. cbn [length s_bytes]. rewrite G. cbn [obind app].
  rewrite znth_app_r, Z.sub_diag, znth_0 by lia. cbn [obind].
  rewrite (IH (a ++ [x]) b (zlen a + 1)); [reflexivity|rewrite <- app_assoc; exact G|rewrite zlen_app; reflexivity].
Qed.
Lemma get_ok h p c d n : blk h p c d -> sp_get h p n = Some (if n =? zlen d then Some d else None).
Proof.
  intro B. unfold sp_get. rewrite (getSize_ok _ _ _ _ B). cbn [obind]. destruct B as (L & c1 & pad & G).
  destruct (n =? zlen d) eqn:E; [|reflexivity]. replace n with (zlen d) by lia. unfold zlen. rewrite Nat2Z.id.
  rewrite (bytes_ok h p d [Some c; c1; Some (zlen d mod 256); Some (zlen d / 256)] pad 4 G eq_refl). reflexivity.
Qed.

Lemma replaced_split a (x v : option Z) b : replaced (length a) v (a ++ x :: b) = a ++ v :: b.
Proof.
  unfold replaced. rewrite firstn_app, Nat.sub_diag, firstn_all. cbn [firstn]. rewrite app_nil_r. f_equal. f_equal.
  rewrite (app_assoc a [x] b : a ++ x :: b = _). replace (S (length a)) with (length (a ++ [x])) by (rewrite app_length; cbn; lia).
  rewrite skipn_app, skipn_all, Nat.sub_diag. reflexivity.
Qed.
Lemma put_ok f h cnt data o i v : R f h cnt data -> 0 < cnt o -> 0 <= i < zlen (data o) ->
  exists h', sp_put h (f o) i v = Some h' /\ R f h' cnt (fun q => if q =? o then replaced (Z.to_nat i) (Some v) (data o) else data q).
Proof.
  intros HR Ho Hi. pose proof HR as (O & B & I & K). destruct (B o Ho) as (L & c1 & pad & G).
  destruct (znth_in_range _ _ Hi) as [x Hx]. unfold znth in Hx. destruct (i <? 0) eqn:E; [lia|]. destruct (nth_error_split _ _ Hx) as (a & b & Ed & La).
  unfold sp_put. rewrite Ed in G. rewrite <- app_assoc in G. cbn [app] in G.
  assert (zupd (Some (cnt o mod 256) :: c1 :: Some (zlen (data o) mod 256) :: Some (zlen (data o) / 256) :: a ++ x :: b ++ pad) (4 + i) (Some v) =
     Some (Some (cnt o mod 256) :: c1 :: Some (zlen (data o) mod 256) :: Some (zlen (data o) / 256) :: a ++ Some v :: b ++ pad)) as U.
  { replace (4 + i) with (zlen ([Some (cnt o mod 256); c1; Some (zlen (data o) mod 256); Some (zlen (data o) / 256)] ++ a)).
    - exact (zupd_mid ([Some (cnt o mod 256); c1; Some (zlen (data o) mod 256); Some (zlen (data o) / 256)] ++ a) x (Some v) (b ++ pad)).
    - rewrite zlen_app. unfold zlen in *. cbn [length]. lia. }
  rewrite <- Ed in G.
  destruct (s_write_ok h (f o) _ (4 + i) v _ G U) as (h' & -> & K' & G' & F'). exists h'. split; [reflexivity|].
  apply (R_inplace f h h' cnt cnt data _ o HR K' F' Ho Ho); auto.
  - intros q N. destruct (q =? o) eqn:Eq; [lia|reflexivity].
  - rewrite Z.eqb_refl. rewrite <- La, Ed, replaced_split. assert (zlen (a ++ Some v :: b) = zlen (data o)) as Lz by (rewrite Ed, !zlen_app, !zlen_cons; reflexivity).
    split; [lia|]. rewrite Lz. exists c1, pad. rewrite <- app_assoc. exact G'.
Qed.

(* ---- programs ---- *)
Definition tr (f : Z -> Z) (l : list (Z * Z)) : list (Z * Z) := map (fun a => (fst a, f (snd a))) l.
Definition prep (s : sworld) (m : shared) : Prop :=
  exists f, R f (sw_heap s) (handles (sh_handles m)) (sh_data m) /\ sw_vars s = tr f (sh_handles m) /\
    NoDup (map fst (sh_handles m)) /\ forall x o, In (x, o) (sh_handles m) -> o < sh_next m.

Lemma tr_ext f g l : (forall x o, In (x, o) l -> f o = g o) -> tr f l = tr g l.
Proof. intro H. apply map_ext_in. intros [x o] I. cbn. f_equal. exact (H x o I). Qed.
Lemma handles_fresh m n : (forall x o, In (x, o) m -> o < n) -> handles m n = 0.
Proof.
  intro H. destruct (Z.eq_dec (handles m n) 0) as [E|E]; [exact E|]. pose proof (handles_nonneg m n).
  destruct (handles_ex m n ltac:(lia)) as [x Hx]. specialize (H _ _ Hx). lia.
Qed.

Lemma prep0 : prep sworld0 shared0.
Proof.
  exists (fun _ => 0). cbn. split; [|split; [reflexivity|split; [constructor|intros x o []]]].
  split; [split; [constructor|intros []]|]. cbn. split; [intros o H; lia|]. split; [intros o q H; lia|intros p []].
Qed.

(* printing *)
Lemma print_loop_ok h p d : forall a b i fuel, hget h p = Some (a ++ d ++ b) -> i = zlen a -> zlen a + zlen d <= 255 ->
  sp_getSize h p = Some (zlen a + zlen d - 4) -> (length d < fuel)%nat -> sp_print_loop fuel h p i = Some d.
Proof.
  induction d as [|x d IH]; intros a b i fuel G -> L Sz Hf; (destruct fuel as [|fuel]; [lia|]); cbn [sp_print_loop]; rewrite Sz; cbn [obind].
  - rewrite zlen_nil. assert (zlen a <? zlen a + 0 - 4 + 4 = false) as -> by lia. reflexivity.
  - rewrite zlen_cons in *. pose proof (zlen_nonneg d). pose proof (zlen_nonneg a). assert (zlen a <? zlen a + (1 + zlen d) - 4 + 4 = true) as -> by lia.
    rewrite G. cbn [obind app]. rewrite znth_app_r, Z.sub_diag, znth_0 by lia. cbn [obind].
    assert (u8 (zlen a + 1) = zlen a + 1) as -> by (unfold u8; lia).
    rewrite (IH (a ++ [x]) b (zlen a + 1) fuel); [reflexivity|rewrite <- app_assoc; exact G|rewrite zlen_app; reflexivity| | |cbn [length] in Hf; lia].
    + rewrite zlen_app. change (zlen [x]) with 1. lia.
    + rewrite Sz, zlen_app. change (zlen [x]) with 1. f_equal. lia.
Qed.
Lemma print_ok h p c d fuel : blk h p c d -> zlen d <= 251 -> (length d < fuel)%nat -> sp_print fuel h p = Some d.
Proof.
  intros B L Hf. pose proof (getSize_ok _ _ _ _ B) as Sz. destruct B as (_ & c1 & pad & G). unfold sp_print.
  apply (print_loop_ok h p d [Some c; c1; Some (zlen d mod 256); Some (zlen d / 256)] pad 4 fuel G eq_refl); auto; change (zlen [_; _; _; _]) with 4; [lia|].
  rewrite Sz. f_equal. lia.
Qed.
Lemma print_endless h p c d fuel : blk h p c d -> 252 <= zlen d -> sp_print fuel h p = None.
Proof.
  intros B L. pose proof (getSize_ok _ _ _ _ B) as Sz. unfold sp_print. assert (0 <= 4 < 256) as Hi by lia. revert Hi. generalize 4 as i.
  induction fuel as [|fuel IH]; intros i Hi; [reflexivity|]. cbn [sp_print_loop]. rewrite Sz. cbn [obind].
  assert (i <? zlen d + 4 = true) as -> by lia. destruct (hget h p) as [b|]; [|reflexivity]. cbn [obind].
  destruct (znth b i); [|reflexivity]. cbn [obind]. rewrite IH; [reflexivity|]. unfold u8. apply Z.mod_pos_bound. lia.
Qed.

Hypothesis Halloc : forall k live, alloc k live <> 0 /\ ~ In (alloc k live) live.

Lemma fresh_ok s m x d m' r op : prep s m -> fresh_object m x d = Some (m', r) ->
  (forall f, R f (sw_heap s) (handles (sh_handles m)) (sh_data m) -> handles (sh_handles m) (sh_next m) = 0 ->
     exists h' p, op = Some (h', p) /\ R (fun o => if o =? sh_next m then p else f o) h' (fun q => handles (sh_handles m) q + (if q =? sh_next m then 1 else 0))
       (fun o => if o =? sh_next m then d else sh_data m o)) ->
  exists s', construct s x op = Some (s', r) /\ prep s' m'.
Proof.
  intros (f & HR & Ev & D & N) E H. unfold fresh_object in E. destruct (lookup (sh_handles m) x) eqn:El; [discriminate|]. injection E as <- <-.
  unfold construct. rewrite Ev. unfold tr. rewrite lookup_map, El. cbn [option_map].
  destruct (H f HR (handles_fresh _ _ N)) as (h' & p & -> & HR'). cbn [obind]. eexists. split; [reflexivity|].
  exists (fun o => if o =? sh_next m then p else f o). cbn [sw_heap sw_vars sh_handles sh_data sh_next]. split; [|split; [|split]].
  - eapply R_ext; [exact HR'| |reflexivity]. intro o. cbn [handles]. rewrite (Z.eqb_sym o). lia.
  - cbn. rewrite Z.eqb_refl. f_equal. apply (tr_ext f (fun o => if o =? sh_next m then p else f o)). intros y o I. specialize (N _ _ I). destruct (o =? sh_next m) eqn:Q; [lia|reflexivity].
  - cbn. constructor; [apply lookup_None, El|exact D].
  - intros y o [I|I]; [injection I as <- <-; lia|specialize (N _ _ I); lia].
Qed.

Lemma call_ok s m c m' r : prep s m -> shared_call sp_limit m c = Some (m', r) -> call_supported m c ->
  exists s', sp_call s c = Some (s', r) /\ prep s' m'.
Proof.
  intros P E U. assert (s_good (alloc (sw_time s))) as Ga by (intro; apply Halloc).
  destruct c as [x|x n|x d|x y|x|x y|x y|x|x i|x i v|x n]; cbn [shared_call sp_call call_supported] in *.
  - apply (fresh_ok s m x [] m' r _ P E). intros f HR C0. apply new_ok; auto.
  - destruct ((0 <=? n) && (n <=? sp_limit))%bool eqn:L; [|discriminate].
    apply (fresh_ok s m x _ m' r _ P E). intros f HR C0. apply new_size_ok; auto. lia.
  - destruct ((0 <? Z.of_nat (length d)) && (Z.of_nat (length d) <=? sp_limit))%bool eqn:L; [|discriminate].
    apply (fresh_ok s m x _ m' r _ P E). intros f HR C0. apply new_data_ok; auto. unfold zlen. lia.
  - destruct (lookup (sh_handles m) x) eqn:El; [discriminate|]. unfold on_object in E.
    destruct (lookup (sh_handles m) y) as [o|] eqn:Ey; [|discriminate]. injection E as <- <-.
    destruct P as (f & HR & Ev & D & N). unfold construct. rewrite Ev. unfold tr. rewrite !lookup_map, El, Ey. cbn [option_map obind].
    pose proof (lookup_In _ _ _ Ey) as Iy. destruct (acquire_ok f _ _ _ o HR (handles_In _ _ _ Iy)) as (h' & Ea & HR').
    unfold sp_copy. rewrite Ea. cbn [obind]. eexists. split; [reflexivity|]. exists f. cbn [sw_heap sw_vars sh_handles sh_data sh_next]. split; [|split; [|split]].
    + eapply R_ext; [exact HR'| |reflexivity]. intro q. cbn [handles]. rewrite (Z.eqb_sym q). lia.
    + reflexivity.
    + cbn. constructor; [apply lookup_None, El|exact D].
    + intros z q [I|I]; [injection I as <- <-; exact (N _ _ Iy)|exact (N _ _ I)].
  - unfold on_object in E. destruct (lookup (sh_handles m) x) as [o|] eqn:Ex; [|discriminate]. injection E as <- <-.
    destruct P as (f & HR & Ev & D & N). unfold with_ptr. rewrite Ev. unfold tr. rewrite lookup_map, Ex. cbn [option_map obind].
    pose proof (lookup_In _ _ _ Ex) as Ix. destruct (release_ok f _ _ _ o HR (handles_In _ _ _ Ix) (U o Ex)) as (h' & Ea & HR').
    unfold sp_delete. rewrite Ea. cbn [obind]. eexists. split; [reflexivity|]. exists f. cbn [sw_heap sw_vars sh_handles sh_data sh_next]. split; [|split; [|split]].
    + eapply R_ext; [exact HR'| |reflexivity]. intro q. rewrite (handles_without _ _ _ _ D Ex). reflexivity.
    + apply without_map.
    + apply without_fst, D.
    + intros z q I. apply without_In in I. exact (N _ _ (proj1 I)).
  - unfold on_object in E. destruct (lookup (sh_handles m) x) as [o|] eqn:Ex; [|discriminate].
    destruct (lookup (sh_handles m) y) as [o'|] eqn:Ey; [|discriminate]. injection E as <- <-. destruct U as [U1 U2].
    destruct P as (f & HR & Ev & D & N). unfold with_ptr. rewrite Ev. unfold tr. rewrite !lookup_map, Ex, Ey. cbn [option_map obind].
    pose proof (lookup_In _ _ _ Ex) as Ix. pose proof (lookup_In _ _ _ Ey) as Iy.
    destruct (release_ok f _ _ _ o HR (handles_In _ _ _ Ix) (U1 o Ex)) as (h1 & Ea & HR1).
    assert (0 < handles (sh_handles m) o' - (if o' =? o then 1 else 0)) as Lv.
    { pose proof (handles_In _ _ _ Iy). destruct (o' =? o) eqn:Eo; [|lia]. assert (o' = o) as -> by lia.
      destruct (Z.eq_dec x y) as [->|Nxy]; [specialize (U2 eq_refl o eq_refl); lia|].
      assert (In (y, o) (without (sh_handles m) x)) as Iw. { clear - Iy Nxy. induction (sh_handles m) as [|[z q] t IH]; [destruct Iy|]. cbn.
        destruct Iy as [Iy|Iy]; [injection Iy as -> ->; destruct (y =? x) eqn:Q; [lia|left; reflexivity]|]. destruct (z =? x); [auto|right; auto]. }
      apply handles_In in Iw. rewrite (handles_without _ _ _ _ D Ex), Z.eqb_refl in Iw. lia. }
    destruct (acquire_ok f _ _ _ o' HR1 Lv) as (h2 & Eb & HR2).
    unfold sp_assign. rewrite Ea. cbn [obind]. rewrite Eb. cbn [obind]. eexists. split; [reflexivity|]. exists f.
    cbn [sw_heap sw_vars sh_handles sh_data sh_next]. split; [|split; [|split]].
    + eapply R_ext; [exact HR2| |reflexivity]. intro q. cbn [handles]. rewrite (handles_without _ _ _ _ D Ex), (Z.eqb_sym o' q). lia.
    + cbn. f_equal. apply without_map.
    + cbn. destruct (without_fst _ x D). constructor; assumption.
    + intros z q [I|I]; [injection I as <- <-; exact (N _ _ Iy)|]. apply without_In in I. exact (N _ _ (proj1 I)).
  - unfold on_object in E. destruct (lookup (sh_handles m) x) as [o|] eqn:Ex; [|discriminate].
    destruct (lookup (sh_handles m) y) as [o'|] eqn:Ey; [|discriminate]. injection E as <- <-.
    pose proof P as (f & HR & Ev & D & N). unfold with_ptr. rewrite Ev. unfold tr. rewrite !lookup_map, Ex, Ey. cbn [option_map obind].
    eexists. split; [|exact P]. do 3 f_equal. unfold sp_equal. destruct HR as (_ & _ & I & _).
    pose proof (handles_In _ _ _ (lookup_In _ _ _ Ex)). pose proof (handles_In _ _ _ (lookup_In _ _ _ Ey)).
    destruct (o =? o') eqn:Eo; [replace o' with o by lia; apply Z.eqb_refl|].
    destruct (f o =? f o') eqn:Ef; [|reflexivity]. assert (o = o') by (apply I; auto; lia). lia.
  - unfold on_object in E. destruct (lookup (sh_handles m) x) as [o|] eqn:Ex; [|discriminate]. injection E as <- <-.
    pose proof P as (f & HR & Ev & D & N). unfold with_ptr. rewrite Ev. unfold tr. rewrite !lookup_map, Ex. cbn [option_map obind].
    destruct HR as (_ & B & _). pose proof (B o (handles_In _ _ _ (lookup_In _ _ _ Ex))) as Bo. rewrite (getSize_ok _ _ _ _ Bo). cbn [obind].
    eexists. split; [reflexivity|exact P].
  - unfold on_object in E. destruct (lookup (sh_handles m) x) as [o|] eqn:Ex; [|discriminate].
    destruct (0 <=? i) eqn:Hi; [|discriminate]. destruct (nth_error (sh_data m o) (Z.to_nat i)) as [[v|]|] eqn:En; try discriminate. injection E as <- <-.
    pose proof P as (f & HR & Ev & D & N). unfold with_ptr. rewrite Ev. unfold tr. rewrite !lookup_map, Ex. cbn [option_map obind].
    destruct HR as (_ & B & _). pose proof (B o (handles_In _ _ _ (lookup_In _ _ _ Ex))) as Bo. rewrite (at_ok _ _ _ _ i v Bo ltac:(lia) En). cbn [obind].
    eexists. split; [reflexivity|exact P].
  - unfold on_object in E. destruct (lookup (sh_handles m) x) as [o|] eqn:Ex; [|discriminate].
    destruct ((0 <=? i) && (i <? Z.of_nat (length (sh_data m o))))%bool eqn:L; [|discriminate]. injection E as <- <-.
    destruct P as (f & HR & Ev & D & N). unfold with_ptr. rewrite Ev. unfold tr. rewrite !lookup_map, Ex. cbn [option_map obind].
    destruct (put_ok f _ _ _ o i v HR (handles_In _ _ _ (lookup_In _ _ _ Ex))) as (h' & -> & HR'); [unfold zlen; lia|]. cbn [obind].
    eexists. split; [reflexivity|]. exists f. cbn [sw_heap sw_vars sh_handles sh_data sh_next]. split; [exact HR'|]. split; [reflexivity|]. split; assumption.
  - unfold on_object in E. destruct (lookup (sh_handles m) x) as [o|] eqn:Ex; [|discriminate]. injection E as <- <-.
    pose proof P as (f & HR & Ev & D & N). unfold with_ptr. rewrite Ev. unfold tr. rewrite !lookup_map, Ex. cbn [option_map obind].
    destruct HR as (_ & B & _). pose proof (B o (handles_In _ _ _ (lookup_In _ _ _ Ex))) as Bo. rewrite (get_ok _ _ _ _ n Bo). cbn [obind].
    eexists. split; [reflexivity|exact P].
Qed.

Lemma calls_ok cs : forall s m m' rs, prep s m -> shared_calls sp_limit m cs = Some (m', rs) -> calls_supported sp_limit m cs ->
  exists s', sp_calls s cs = Some (s', rs) /\ prep s' m'.
Proof.
  induction cs as [|c cs IH]; intros s m m' rs W E U; cbn [shared_calls sp_calls calls_supported] in *.
  - injection E as <- <-. eauto.
  - destruct (shared_call sp_limit m c) as [[m1 r]|] eqn:E1; [|discriminate]. destruct U as [U1 U2].
    destruct (call_ok _ _ _ _ _ W E1 U1) as (s1 & -> & W1). cbn [obind].
    destruct (shared_calls sp_limit m1 cs) as [[m2 rs2]|] eqn:E2; [|discriminate]. injection E as <- <-.
    destruct (IH _ _ _ _ W1 E2 (U2 _ _ eq_refl)) as (s2 & -> & W2). cbn [obind]. eauto.
Qed.
End Proofs.
