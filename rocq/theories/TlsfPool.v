(* Creating the heap and adding pools. *)
From Verif Require Import Base BitLemmas BitsProofs TlsfModel TlsfArith TlsfHeap TlsfOps TlsfApi.

Section Pools.
Variables K F null : Z.
Hypothesis HK : 1 <= K <= 5.
Hypothesis HF : K + 2 <= F < 31.

Definition empty : heap := fun _ => None.

Lemma construct_ok m : WF K F null [] (control_construct null m) empty none (fun _ _ => []).
Proof.
  constructor.
  - constructor; try (intros b k Q; discriminate Q).
    + intros i j b _ _. split; [intros []|]. intros (k & Q & _). discriminate.
    + intros. constructor.
    + intros i j _ _. split; [reflexivity|exact Logic.I].
    + intros i _. cbn. split; [lia|]. apply pow_pos. pose proof (SLC_range K HK). lia.
    + intros i j _ _. cbn. apply Z.bits_0.
    + cbn. split; [lia|]. apply pow_pos. pose proof (FLC_range K F HK HF). lia.
    + intros i _. cbn. apply Z.bits_0.
  - constructor; intros b; try (intros k Q; discriminate Q). intros b' k k' Q; discriminate Q.
  - constructor; [intros b k Q; discriminate Q|intros m' n []|intros m' n []].
  - intros b k k' Q. discriminate.
  - intros b k p kp Q. discriminate.
Qed.

Lemma construct_frame m a : a <> null + 8 -> a <> null + 12 -> mem (control_construct null m) a = m a.
Proof. intros A B. unfold control_construct. rewrite !wr_other by assumption. reflexivity. Qed.

Lemma insert_eq s b i j : 0 <= i < FLC K F -> 0 <= j < SLC K ->
  insert_free_block K F null s b i j = Some (St (mem (wr (wr (wr s (b + 8) (heads s i j)) (b + 12) null) (heads s i j + 12) b)) (Z.lor (flb s) (2 ^ i))
             (fun x => if x =? i then Z.lor (slb s i) (2 ^ j) else slb s x) (fun x y => if (x =? i) && (y =? j) then b else heads s x y)).
Proof.
  intros CI CJ. unfold insert_free_block. rewrite get_head_ok by assumption. cbn [obind]. rewrite set_head_ok by assumption. cbn [obind].
  rewrite get_sl_ok by assumption. cbn [obind]. rewrite set_sl_ok by assumption. reflexivity.
Qed.

(* usable bytes of a pool *)
Definition usable (bytes : Z) : Z := (bytes - 8) - (bytes - 8) mod 4.

Section Add.
Variable P : list (Z * Z).
Hypothesis HP : forall m n, In (m, n) P -> 12 <= n < 2 ^ F /\ m + n + 8 <= 2 ^ 32.
Hypothesis HD : forall m n m' n', In (m, n) P -> In (m', n') P -> (m, n) = (m', n') \/ m + n + 8 <= m' \/ m' + n' + 8 <= m.
Variables (s : st) (H : heap) (L : Z -> Z -> list Z) (base n : Z).
Hypothesis W : WF K F null P s H none L.
Hypothesis B4 : base mod 4 = 0.
Hypothesis B8 : 8 <= base.
Hypothesis N4 : n mod 4 = 0.
Hypothesis N12 : 12 <= n < 2 ^ F.
Hypothesis TOP : base + n + 8 <= 2 ^ 32.
Hypothesis AP : forall m q, In (m, q) P -> m + q + 8 <= base \/ base + n + 8 <= m.
Hypothesis AN : null + 16 <= base \/ base + n + 8 <= null.

Let b := base - 4.
Let l := base + n.
Let H' := hset (hset H b (Some (Blk n true false))) l (Some (Blk 0 false true)).
Let P' := (base, n) :: P.

Lemma add_HP m q : In (m, q) P' -> 12 <= q < 2 ^ F /\ m + q + 8 <= 2 ^ 32.
Proof. intros [Q|Q]; [injection Q as <- <-; split; assumption|apply HP; exact Q]. Qed.
Lemma add_HD m q m' q' : In (m, q) P' -> In (m', q') P' -> (m, q) = (m', q') \/ m + q + 8 <= m' \/ m' + q' + 8 <= m.
Proof.
  intros [Q|Q] [Q'|Q'].
  - left. congruence.
  - injection Q as <- <-. destruct (AP m' q' Q'); [right; right|right; left]; assumption.
  - injection Q' as <- <-. destruct (AP m q Q); [right; left|right; right]; assumption.
  - apply HD; assumption.
Qed.

(* the blocks of the other pools are apart *)
Lemma add_far x kx : H x = Some kx -> x + 8 + sz kx <= base \/ base + n + 8 <= x + 4.
Proof.
  intro E. destruct (q_in P H (w_pool _ _ _ _ _ _ _ _ W) x kx E) as (m & q & I & M & C). destruct (AP m q I); lia.
Qed.
Lemma add_cases x kx : H' x = Some kx -> (x = l /\ kx = Blk 0 false true) \/ (x = b /\ kx = Blk n true false) \/ (x <> l /\ x <> b /\ H x = Some kx).
Proof.
  unfold H'. intro Q. apply hset_cases in Q. destruct Q as [[-> Q]|[N Q]]; [left; split; [reflexivity|congruence]|].
  apply hset_cases in Q. destruct Q as [[-> Q]|[N2 Q]]; [right; left; split; [reflexivity|congruence]|]. right. right. auto.
Qed.
Lemma add_l : H' l = Some (Blk 0 false true). Proof. apply hset_same. Qed.
Lemma add_b : H' b = Some (Blk n true false). Proof. unfold H'. rewrite hset_other by (unfold b, l; lia). apply hset_same. Qed.
Lemma add_old x kx : H x = Some kx -> H' x = Some kx.
Proof.
  intro E. pose proof (add_far x kx E) as A. pose proof (size_pos K F null HK HF H (w_geo _ _ _ _ _ _ _ _ W) x kx E). unfold H'. rewrite !hset_other by (unfold b, l; lia). exact E.
Qed.

Lemma add_geo : Geo F null H'.
Proof.
  pose proof (w_geo _ _ _ _ _ _ _ _ W) as G. constructor.
  - intros x kx Q. apply add_cases in Q. destruct Q as [[-> ->]|[[-> ->]|(_ & _ & Q)]]; cbn; [unfold l; lia|unfold b; lia|apply (g_range F null H G x kx Q)].
  - intros x kx Q. apply add_cases in Q. destruct Q as [[-> ->]|[[-> ->]|(_ & _ & Q)]]; cbn; [unfold l; clear - B4 N4; lia|unfold b; clear - B4 N4; lia|apply (g_align F null H G x kx Q)].
  - intros x kx Q. apply add_cases in Q. destruct Q as [[-> ->]|[[-> ->]|(_ & _ & Q)]]; cbn; [left; split; reflexivity|right; exact N12|apply (g_size F null H G x kx Q)].
  - intros x kx Q S. apply add_cases in Q. destruct Q as [[-> ->]|[[-> ->]|(_ & _ & Q)]]; cbn [sz] in *; [lia| |].
    + exists (Blk 0 false true). replace (b + 4 + n) with l by (unfold b, l; ring). apply add_l.
    + destruct (g_next F null H G x kx Q S) as (k' & E). exists k'. apply add_old. exact E.
  - intros x y kx ky QX QY N. apply add_cases in QX, QY.
    assert (LB : l = b + 4 + n) by (unfold b, l; ring).
    destruct QX as [[-> ->]|[[-> ->]|(_ & _ & QX)]]; destruct QY as [[-> ->]|[[-> ->]|(_ & _ & QY)]]; cbn [sz]; try congruence; try lia.
    + pose proof (add_far y ky QY). unfold l. lia.
    + pose proof (add_far y ky QY). unfold b. lia.
    + pose proof (add_far x kx QX). unfold l. lia.
    + pose proof (add_far x kx QX). unfold b. lia.
    + apply (g_disj F null H G); assumption.
  - intros x kx Q. apply add_cases in Q. destruct Q as [[-> ->]|[[-> ->]|(_ & _ & Q)]]; cbn; [unfold l; lia|unfold b; lia|apply (g_null F null H G x kx Q)].
Qed.

Lemma add_pool : Pool P' H'.
Proof.
  pose proof (w_pool _ _ _ _ _ _ _ _ W) as Q0. constructor.
  - intros x kx Q. apply add_cases in Q. destruct Q as [[-> ->]|[[-> ->]|(_ & _ & Q)]]; cbn [sz].
    + exists base, n. split; [left; reflexivity|]. unfold l. lia.
    + exists base, n. split; [left; reflexivity|]. unfold b. lia.
    + destruct (q_in P H Q0 x kx Q) as (m & q & I & R). exists m, q. split; [right; exact I|exact R].
  - intros m q [Q|Q]; [injection Q as <- <-; eexists; split; [apply add_b|cbn; lia]|].
    destruct (q_first P H Q0 m q Q) as (k & E & S). exists k. split; [apply add_old; exact E|exact S].
  - intros m q [Q|Q]; [injection Q as <- <-; eexists; split; [apply add_l|reflexivity]|].
    destruct (q_last P H Q0 m q Q) as (k & E & S). exists k. split; [apply add_old; exact E|exact S].
Qed.

(* the state with both headers in place, before the insertion *)
Lemma add_wf t : flb t = flb s -> slb t = slb s -> heads t = heads s -> mem t base = word n true false -> mem t (l + 4) = word 0 false true -> mem t l = b ->
  (forall a, a <> base -> a <> l + 4 -> a <> l -> mem t a = mem s a) -> WF K F null P' t H' (only b) L.
Proof.
  intros E1 E2 E3 M1 M2 M3 MO. pose proof (w_geo _ _ _ _ _ _ _ _ W) as G.
  constructor; [|exact add_geo|exact add_pool| |].
  - apply (inv_headers K F null s t H H' none (only b) L (w_inv _ _ _ _ _ _ _ _ W) E1 E2 E3).
    + intros y i j (ky & EY & FY & _). pose proof (add_far y ky EY). pose proof (free_size F null H G y ky EY FY). split; apply MO; unfold l; lia.
    + intros y i j. unfold listed. split.
      * intros (ky & EY & FY & XY & M). apply add_cases in EY. destruct EY as [[-> ->]|[[-> ->]|(_ & _ & EY)]]; [discriminate|elim XY; reflexivity|]. exists ky. unfold none. tauto.
      * intros (ky & EY & FY & XY & M). exists ky. split; [apply add_old; exact EY|]. split; [exact FY|]. split; [|exact M]. intro Q. unfold only in Q. subst y.
        pose proof (add_far b ky EY). pose proof (free_size F null H G b ky EY FY). unfold b in *. lia.
    + intros y ky EY. apply add_cases in EY. destruct EY as [[-> ->]|[[-> ->]|(_ & _ & EY)]]; cbn [sz fr pf]; [exact M2|replace (b + 4) with base by (unfold b; ring); exact M1|].
      pose proof (add_far y ky EY). pose proof (size_pos K F null HK HF H G y ky EY). rewrite MO by (unfold l; lia). apply (i_rep K F null s H none L (w_inv _ _ _ _ _ _ _ _ W) y ky EY).
    + intros y ky EY PY. apply add_cases in EY. destruct EY as [[-> ->]|[[-> ->]|(_ & _ & EY)]]; cbn [sz fr pf] in *.
      * exists b, (Blk n true false). split; [apply add_b|]. cbn. split; [lia|]. split; [unfold b, l; ring|exact M3].
      * discriminate.
      * destruct (i_phys K F null s H none L (w_inv _ _ _ _ _ _ _ _ W) y ky EY PY) as (p & kp & A & B & C & D). exists p, kp. split; [apply add_old; exact A|]. split; [exact B|]. split; [exact C|].
        pose proof (add_far p kp A). rewrite MO by (unfold l; lia). exact D.
  - intros x kx k' QX SX QX'. assert (LB : l = b + 4 + n) by (unfold b, l; ring). apply add_cases in QX. destruct QX as [[-> ->]|[[-> ->]|(_ & _ & QX)]]; cbn [sz fr] in *; [lia| |].
    + rewrite <- LB, add_l in QX'. injection QX' as <-. reflexivity.
    + destruct (g_next F null H G x kx QX SX) as (k1 & EX). rewrite (add_old _ _ EX) in QX'. injection QX' as <-. apply (w_flags _ _ _ _ _ _ _ _ W x kx k1 QX SX EX).
  - intros c kc p kp Q1 F1 Q2 F2 AD. apply add_cases in Q1, Q2.
    destruct Q1 as [[-> ->]|[[-> ->]|(_ & _ & Q1)]]; [discriminate|left; reflexivity|]. destruct Q2 as [[-> ->]|[[-> ->]|(_ & _ & Q2)]]; [discriminate|right; reflexivity|].
    destruct (w_coal _ _ _ _ _ _ _ _ W c kc p kp Q1 F1 Q2 F2 AD) as [[]|[]].
Qed.

Lemma add_pool_ok bytes : usable bytes = n -> 8 <= bytes < 2 ^ 32 ->
  exists s' L', tlsf_add_pool K F null s base bytes = Some (s', base) /\ WF K F null P' s' H' none L' /\
   (forall u m, Used H' u m <-> Used H u m \/ (u = l /\ m = 0)) /\ (forall a, Safe null P' H' a -> mem s' a = mem s a).
Proof.
  intros UB RB. assert (P2 : 2 ^ 32 = 4294967296) by reflexivity. rewrite P2 in RB. pose proof TOP as TOP2. rewrite P2 in TOP2.
  assert (P31 : 2 ^ F <= 2 ^ 30) by (apply Z.pow_le_mono_r; lia). change (2 ^ 30) with 1073741824 in P31.
  unfold tlsf_add_pool. rewrite (u32_id (bytes - 8)) by (rewrite P2; lia). rewrite align_down_4 by (rewrite P2; lia). fold (usable bytes). rewrite UB.
  rewrite B4. cbn [Z.eqb negb]. unfold size_min, size_max. replace ((n <? 12) || (2 ^ F <? n)) with false by lia.
  assert (OB : offset_to_block base (u32 (-4)) = b). { unfold offset_to_block, u32. rewrite Zplus_mod_idemp_r. rewrite ?P2. unfold b. rewrite Z.mod_small by lia. ring. }
  rewrite OB. replace (b + 4) with base by (unfold b; ring).
  destruct (word_junk_size (mem s base) n N4) as (f0 & q0 & J0).
  set (s1 := block_set_prev_used (block_set_free (block_set_size s b n) b) b).
  assert (BE : b + 4 = base) by (unfold b; ring).
  assert (M1 : s1 = wr (wr (wr s base (word n f0 q0)) base (word n true q0)) base (word n true false)).
  { unfold s1, block_set_prev_used, block_set_free, block_set_size, rd. rewrite BE. rewrite J0. rewrite (wr_same s), word_set_free by exact N4. rewrite wr_same, word_clr_prev by (try exact N4; rewrite P2; lia). reflexivity. }
  assert (MB : mem s1 base = word n true false) by (rewrite M1; apply wr_same).
  assert (MO1 : forall a, a <> base -> mem s1 a = mem s a) by (intros a A; rewrite M1, !wr_other by exact A; reflexivity).
  pose proof (add_wf (wr (wr s1 l b) (l + 4) (word 0 false true))) as WT. set (t := wr (wr s1 l b) (l + 4) (word 0 false true)) in *.
  assert (NL : l <> base /\ l + 4 <> base /\ l <> l + 4) by (unfold l; lia).
  assert (WT' : WF K F null P' t H' (only b) L).
  { apply WT; clear WT.
    - unfold t. rewrite M1. reflexivity.
    - unfold t. rewrite M1. reflexivity.
    - unfold t. rewrite M1. reflexivity.
    - unfold t. wrl NL. exact MB.
    - unfold t. wrl NL. reflexivity.
    - unfold t. wrl NL. reflexivity.
    - intros a A1 A2 A3. unfold t. rewrite !wr_other by assumption. apply MO1. exact A1. }
  clear WT. pose proof (w_geo _ _ _ _ _ _ _ _ WT') as G'. pose proof (w_inv _ _ _ _ _ _ _ _ WT') as I'.
  assert (EL : H' (b + 4 + sz (Blk n true false)) = Some (Blk 0 false true)) by (cbn [sz]; replace (b + 4 + n) with l by (unfold b, l; ring); apply add_l).
  destruct (wf_insert K F null P' HK HF add_HP add_HD t H' (only b) L b _ _ _ WT' add_b eq_refl eq_refl eq_refl eq_refl EL eq_refl) as (t2 & L' & IT & WT2 & FT).
  (* the same insertion without the last header *)
  pose proof (class_range K F null HK HF H' G' b _ add_b) as [CI CJ]. cbn [sz] in CI, CJ.
  assert (BS : block_size s1 b = n) by (unfold block_size, rd; rewrite BE, MB; apply word_size; [exact N4|rewrite P2; lia]).
  assert (BT : block_size t b = n) by (apply (block_size_ok K F null HK HF t H' _ L I' G' b _ add_b)).
  unfold block_insert in IT |- *. rewrite BS. rewrite BT in IT. destruct (mapping_insert K n) as [i j]. cbn [fst snd] in CI, CJ.
  rewrite insert_eq in IT by assumption. rewrite insert_eq by assumption. cbn [obind]. apply (f_equal (fun o => match o with Some x => x | None => t end)) in IT. cbv beta iota in IT.
  destruct (i_dll K F null t H' (only b) L I' i j CI CJ) as [HT _]. 
  assert (CUR : heads t i j + 12 <> base /\ heads t i j + 12 <> l /\ heads t i j + 12 <> l + 4).
  { rewrite HT. destruct (L i j) as [|c r] eqn:Q; cbn [hd]; [unfold l; lia|].
    assert (LI : listed K H' (only b) c i j) by (apply (i_in K F null t H' (only b) L I' i j c CI CJ); rewrite Q; left; reflexivity).
    destruct LI as (kc & EC & FC & XC & _). apply add_cases in EC. destruct EC as [[-> ->]|[[-> ->]|(_ & _ & EC)]]; [discriminate|elim XC; reflexivity|].
    pose proof (add_far c kc EC). pose proof (free_size F null H (w_geo _ _ _ _ _ _ _ _ W) c kc EC FC). unfold l. lia. }
  assert (HS : heads t i j = heads s1 i j) by reflexivity. rewrite HS in CUR. set (cur := heads s1 i j) in *.
  assert (BL : b + 8 <> l /\ b + 8 <> l + 4 /\ b + 12 <> l /\ b + 12 <> l + 4 /\ b + 8 <> base /\ b + 12 <> base) by (unfold b, l; lia).
  set (s2 := St _ _ _ _). 
  assert (M2 : forall a, mem s2 a = mem (wr (wr (wr s1 (b + 8) cur) (b + 12) null) (cur + 12) b) a) by (intro a; reflexivity).
  assert (M2b : mem s2 (b + 4) = word n true false) by (rewrite M2, BE, !wr_other by (clear - CUR BL; lia); exact MB).
  unfold block_link_next. rewrite (next_word F P HP HD s2 b n true false M2b N4) by (rewrite ?P2; unfold b; lia).
  replace (b + 4 + n) with l by (unfold b, l; ring).
  unfold block_set_size at 1, rd. destruct (word_junk_size (mem (wr s2 l b) (l + 4)) 0 eq_refl) as (f1 & q1 & J1). rewrite J1.
  unfold block_set_used, block_set_prev_free, rd. rewrite wr_same, word_clr_free by (try reflexivity; rewrite P2; lia). rewrite wr_same, word_set_prev by reflexivity.
  set (s3 := wr _ (l + 4) (word 0 false true)).
  assert (M3 : forall a, mem s3 a = mem t2 a).
  { intro a. rewrite <- IT. unfold s3. cbn [mem]. change (heads t i j) with cur.
    destruct (Z.eq_dec a (l + 4)) as [->|A1]; [rewrite wr_same; rewrite !wr_other by (clear - CUR BL; lia); unfold t; rewrite wr_same; reflexivity|].
    rewrite !(wr_other _ (l + 4)) by exact A1.
    destruct (Z.eq_dec a l) as [->|A2]; [rewrite wr_same; rewrite !wr_other by (clear - CUR BL; lia); unfold t; rewrite wr_other by (clear; lia); rewrite wr_same; reflexivity|].
    rewrite (wr_other _ l) by exact A2. rewrite M2. 
    destruct (Z.eq_dec a (cur + 12)) as [->|A3]; [rewrite !wr_same; reflexivity|]. rewrite !(wr_other _ (cur + 12)) by exact A3.
    destruct (Z.eq_dec a (b + 12)) as [->|A4]; [rewrite !wr_same; reflexivity|]. rewrite !(wr_other _ (b + 12)) by exact A4.
    destruct (Z.eq_dec a (b + 8)) as [->|A5]; [rewrite !wr_same; reflexivity|]. rewrite !(wr_other _ (b + 8)) by exact A5.
    unfold t. rewrite !wr_other by assumption. reflexivity. }
  exists s3, L'. split; [reflexivity|]. split; [|split].
  - apply (wf_ext K F null P' s3 H' (back (only b) b)); [intro y; unfold back, none, only; tauto|].
    apply (wf_client K F null P' HK HF add_HP add_HD t2 s3 H' _ L' WT2); try (rewrite <- IT; reflexivity). intro a. left. apply M3.
  - intros u m. unfold Used. split.
    + intros (q & Q). apply add_cases in Q. destruct Q as [[-> Q]|[[-> Q]|(_ & _ & Q)]]; [right; injection Q as -> _; auto|discriminate|left; exists q; exact Q].
    + intros [(q & Q)|[-> ->]]; [exists q; apply add_old; exact Q|exists true; apply add_l].
  - intros a SA. rewrite M3. rewrite (FT a SA). destruct (safe_apart K F null P' HK HF add_HP add_HD t H' _ L a WT' SA b _ add_b) as [A1 A2]. specialize (A2 eq_refl). cbn [sz] in A2.
    destruct (safe_apart K F null P' HK HF add_HP add_HD t H' _ L a WT' SA l _ add_l) as [A3 _].
    unfold t. rewrite !wr_other by (unfold b, l in *; lia). apply MO1. unfold b in *. lia.
Qed.
End Add.
End Pools.
