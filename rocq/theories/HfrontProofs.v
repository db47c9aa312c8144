From Verif Require Import Base BitLemmas BitsProofs TlsfModel TlsfArith TlsfHeap TlsfOps TlsfApi TlsfPool TlsfProofs TlsfSpec TlsfProps HfrontModel HfrontSpec.

Lemma u32s x : 0 <= x < 2 ^ 32 -> u32 x = x. Proof. apply Z.mod_small. Qed.

Section F.
Variables K F : Z.
Hypothesis HC : configuration K F.

Definition ghost := (list (Z * Z) * list (Z * Z))%type.
Definition PG (p : pool) (g : ghost) : Prop :=
  reach K F (ctl p) (hs p) (fst g) (snd g) /\ 8 <= ctl p /\ ctl p + ctl_bytes K F <= pend p /\ pend p <= 2 ^ 32 /\ forall b n, In (b, n) (fst g) -> ctl p <= b /\ b + n <= pend p.
Definition region (p : pool) : Z * Z := (ctl p, pend p).
Definition away (x y : Z * Z) : Prop := snd x <= fst y \/ snd y <= fst x.
Definition all_of (X : list (pool * ghost)) (x : Z * Z) : Prop := exists e, In e X /\ In x (snd (snd e)).
Definition FG (X : list (pool * ghost)) (A : list (Z * Z)) : Prop :=
  Forall (fun e => PG (fst e) (snd e)) X /\ ForallOrdPairs away (map region (map fst X)) /\ forall x, In x A <-> all_of X x.

Lemma in_dropz p A q n : In (q, n) (drop p A) <-> In (q, n) A /\ q <> p.
Proof. unfold drop. rewrite filter_In. cbn. rewrite negb_true_iff, Z.eqb_neq. reflexivity. Qed.
Lemma cb4 : ctl_bytes K F mod 4 = 0 /\ 16 <= ctl_bytes K F.
Proof.
  split; [|apply ctl_16; exact HC]. unfold ctl_bytes. replace (16 + 4 + 4 * FLC K F + 4 * (FLC K F * SLC K)) with ((5 + FLC K F + FLC K F * SLC K) * 4) by ring. apply Z.mod_mul. lia.
Qed.

Lemma live_in p g x n : PG p g -> In (x, n) (snd g) -> ctl p < x /\ x + n < pend p /\ 0 < n.
Proof.
  intros (R & C8 & CE & P32 & IN) I. destruct (reach_good K F (ctl p) HC _ _ _ R) as (H & L & G). destruct (d_live _ _ _ _ _ _ _ _ G x n I) as (N0 & _).
  destruct (live_range K F (ctl p) HC _ _ _ H L G x n I) as (_ & _ & (b & w & IB & B1 & B2) & _). destruct (IN b w IB). lia.
Qed.

(* changing one allocator *)
Lemma FG_upd a p g b p' g' A A' : FG (a ++ (p, g) :: b) A -> PG p' g' -> region p' = region p ->
  (forall x, In x A' <-> In x (snd g') \/ all_of (a ++ b) x) -> FG (a ++ (p', g') :: b) A'.
Proof.
  intros (F2 & FO & _) PP RR AX. apply Forall_app in F2. destruct F2 as [X1 X2]. apply Forall_cons_iff in X2. destruct X2 as [_ X2].
  split; [|split].
  - apply Forall_app. split; [exact X1|constructor; assumption].
  - rewrite !map_app in *. cbn [map fst] in *. rewrite RR. exact FO.
  - intro x. rewrite AX. unfold all_of. split.
    + intros [I|(e & G0 & I)]; [exists (p', g'); rewrite in_app_iff; cbn; tauto|exists e; rewrite in_app_iff in *; cbn; tauto].
    + intros (e & G0 & I). rewrite in_app_iff in G0. cbn in G0. destruct G0 as [G0|[<-|G0]]; [right; exists e; rewrite in_app_iff; tauto|left; exact I|right; exists e; rewrite in_app_iff; tauto].
Qed.
Lemma FG_at a p g b A : FG (a ++ (p, g) :: b) A -> PG p g /\ forall x, In x A <-> In x (snd g) \/ all_of (a ++ b) x.
Proof.
  intros (F2 & _ & AX). apply Forall_app in F2. destruct F2 as [_ F2]. apply Forall_cons_iff in F2. split; [apply F2|]. intro x. rewrite AX. unfold all_of. split.
  - intros (e & G0 & I). rewrite in_app_iff in G0. cbn in G0. destruct G0 as [G0|[<-|G0]]; [right; exists e; rewrite in_app_iff; tauto|left; exact I|right; exists e; rewrite in_app_iff; tauto].
  - intros [I|(e & G0 & I)]; [exists (p, g); rewrite in_app_iff; cbn; tauto|exists e; rewrite in_app_iff in *; cbn; tauto].
Qed.
Lemma FOP_mid {T} (R : T -> T -> Prop) (a : list T) x b y : ForallOrdPairs R (a ++ x :: b) -> In y (a ++ b) -> R x y \/ R y x.
Proof.
  induction a as [|z a IH]; cbn; intros FO I; inversion FO as [|u v U V]; clear FO.
  - left. rewrite Forall_forall in U. apply U. exact I.
  - destruct I as [<-|I].
    + right. rewrite Forall_forall in U. apply U. apply in_or_app. right. left. reflexivity.
    + apply IH; assumption.
Qed.
(* the blocks of different allocators *)
Lemma FG_other a p g b A e : FG (a ++ (p, g) :: b) A -> In e (a ++ b) -> away (region p) (region (fst e)) /\ PG (fst e) (snd e).
Proof.
  intros (F2 & FO & _) I. split.
  - rewrite map_app, map_app in FO. cbn [map fst] in FO. destruct (FOP_mid away _ _ _ (region (fst e)) FO) as [Q|Q]; [|exact Q|destruct Q; [right|left]; assumption].
    rewrite <- map_app. apply in_map. rewrite <- map_app. apply in_map. exact I.
  - rewrite Forall_forall in F2. apply F2. rewrite in_app_iff in *. cbn. tauto.
Qed.

(** *** disjointness *)
Lemma FG_disjoint X A p n q m : FG X A -> In (p, n) A -> In (q, m) A -> (p, n) = (q, m) \/ apart p n q m.
Proof.
  intros G I J. pose proof G as (F2 & FO & AX). apply AX in I, J. destruct I as (e & EI & I). destruct J as (f & FI & J).
  apply in_split in EI. destruct EI as (a & b & ->). destruct e as [pe ge]. cbn in I. destruct (FG_at _ _ _ _ _ G) as [PP _].
  rewrite in_app_iff in FI. cbn in FI. assert (C : f = (pe, ge) \/ In f (a ++ b)) by (rewrite in_app_iff; destruct FI as [Q|[Q|Q]]; auto). destruct C as [->|C].
  - cbn in J. destruct PP as (R & _). destruct (C74_live_blocks_are_disjoint K F (ctl pe) _ _ _ HC R) as [ND DJ]. destruct (Z.eq_dec p q) as [->|N].
    + left. f_equal. clear - ND I J. induction (snd ge) as [|[x y] r IH]; [destruct I|]. cbn in ND. apply NoDup_cons_iff in ND. destruct ND as [N1 N2].
      destruct I as [I|I], J as [J|J]; [congruence| | |apply IH; assumption].
      * injection I as -> ->. elim N1. apply in_map_iff. exists (q, m). auto.
      * injection J as -> ->. elim N1. apply in_map_iff. exists (q, n). auto.
    + right. destruct (DJ p n I) as (_ & _ & D). apply (D q m J N).
  - destruct (FG_other a pe ge b A f G C) as [AW PF]. destruct (live_in pe ge p n PP I) as (A1 & A2 & _). destruct (live_in (fst f) (snd f) q m PF J) as (B1 & B2 & _).
    right. unfold apart, away, region in *. cbn in AW. lia.
Qed.

(** *** malloc *)
Lemma pool_eta p : Pl (ptraits p) (ctl p) (pend p) (hs p) = p. Proof. destruct p. reflexivity. Qed.
Lemma try_ok size traits : request_ok K F size -> forall X, Forall (fun e => PG (fst e) (snd e)) X ->
  (try_pools K F (map fst X) size traits = Some (map fst X, 0) /\ forall p, In p (map fst X) -> Z.land (ptraits p) traits = traits -> tlsf_malloc K F (ctl p) (hs p) size = Some (hs p, 0)) \/
  (exists a p g b s' q, X = a ++ (p, g) :: b /\ q <> 0 /\ Z.land (ptraits p) traits = traits /\ tlsf_malloc K F (ctl p) (hs p) size = Some (s', q) /\ try_pools K F (map fst X) size traits = Some (map fst a ++ Pl (ptraits p) (ctl p) (pend p) s' :: map fst b, q)).
Proof.
  intro RO. induction X as [|[p g] r IH]; intro F2; [left; split; [reflexivity|intros p []]|].
  apply Forall_cons_iff in F2. destruct F2 as [PP FR]. cbn [map fst try_pools]. specialize (IH FR).
  assert (SK : forall y, y = hs p -> (Z.land (ptraits p) traits = traits -> tlsf_malloc K F (ctl p) (hs p) size = Some (hs p, 0)) ->
    let o := do y0 <- try_pools K F (map fst r) size traits; Some (Pl (ptraits p) (ctl p) (pend p) y :: fst y0, snd y0) in
    (o = Some (p :: map fst r, 0) /\ forall p0, In p0 (p :: map fst r) -> Z.land (ptraits p0) traits = traits -> tlsf_malloc K F (ctl p0) (hs p0) size = Some (hs p0, 0)) \/
    (exists a p0 g0 b s' q, (p, g) :: r = a ++ (p0, g0) :: b /\ q <> 0 /\ Z.land (ptraits p0) traits = traits /\ tlsf_malloc K F (ctl p0) (hs p0) size = Some (s', q) /\
       o = Some (map fst a ++ Pl (ptraits p0) (ctl p0) (pend p0) s' :: map fst b, q))).
  { intros y -> NP o. unfold o. rewrite pool_eta. destruct IH as [[-> NO]|(a & p0 & g0 & b & s' & q & -> & Q0 & TR & M & ->)]; cbn [obind fst snd].
    - left. split; [reflexivity|]. intros p0 [<-|I]; [exact NP|apply NO; exact I].
    - right. exists ((p, g) :: a), p0, g0, b, s', q. auto. }
  destruct (Z.land (ptraits p) traits =? traits) eqn:T.
  - apply Z.eqb_eq in T. destruct PP as (R & _). cbn [fst snd] in R. destruct (C74_malloc_is_safe K F (ctl p) _ _ _ size HC R RO) as (s' & q & M & _ & C).
    destruct (Z.eq_dec q 0) as [->|N].
    + assert (ES : s' = hs p) by (destruct C as [[_ ?]|(_ & (N & _))]; [assumption|congruence]). subst s'. rewrite M. cbn [obind]. cbn [Z.eqb negb]. apply SK; auto.
    + rewrite M. cbn [obind]. replace (negb (q =? 0)) with true by lia. right. exists [], p, g, r, s', q. auto 10.
  - apply Z.eqb_neq in T. destruct (SK (hs p) eq_refl ltac:(contradiction)) as [Q|Q]; rewrite pool_eta in Q; [left|right]; exact Q.
Qed.

Lemma land_covers have want : Z.land have want = want -> covers have want.
Proof. intros E i I T. rewrite <- E, Z.land_spec in T. apply andb_true_iff in T. tauto. Qed.
Lemma covers_land have want : covers have want -> Z.land have want = want.
Proof.
  intro C. apply Z.bits_inj'. intros i I. rewrite Z.land_spec. destruct (Z.testbit want i) eqn:T; [rewrite (C i I T); reflexivity|apply andb_false_r].
Qed.
Definition cleared (t : Z) : Z := Z.land t (u32 (Z.lnot clear_mask)).
Lemma cleared_bit t i : 0 <= t < 2 ^ 32 -> 0 <= i -> Z.testbit (cleared t) i = Z.testbit t i && negb (i =? 13) && negb (i =? 15).
Proof.
  intros T I. unfold cleared. rewrite Z.land_spec. destruct (Z_lt_ge_dec i 32) as [J|J].
  - replace (Z.testbit (u32 (Z.lnot clear_mask)) i) with (negb (i =? 13) && negb (i =? 15)); [apply andb_assoc|].
    assert (E : i = 0 \/ i = 1 \/ i = 2 \/ i = 3 \/ i = 4 \/ i = 5 \/ i = 6 \/ i = 7 \/ i = 8 \/ i = 9 \/ i = 10 \/ i = 11 \/ i = 12 \/ i = 13 \/ i = 14 \/ i = 15 \/
      i = 16 \/ i = 17 \/ i = 18 \/ i = 19 \/ i = 20 \/ i = 21 \/ i = 22 \/ i = 23 \/ i = 24 \/ i = 25 \/ i = 26 \/ i = 27 \/ i = 28 \/ i = 29 \/ i = 30 \/ i = 31) by lia.
    repeat (destruct E as [-> | E]; [reflexivity|]). rewrite E. reflexivity.
  - replace (Z.testbit t i) with false; [reflexivity|]. symmetry. apply Z.testbit_false; [lia|]. rewrite Z.div_small; [reflexivity|]. split; [lia|].
    apply (Z.lt_le_trans _ (2 ^ 32)); [lia|]. apply Z.pow_le_mono_r; lia.
Qed.
Lemma cleared_range t : 0 <= t < 2 ^ 32 -> 0 <= cleared t < 2 ^ 32.
Proof.
  intro T. assert (N : 0 <= cleared t) by (unfold cleared; apply Z.land_nonneg; left; lia). split; [exact N|].
  unfold cleared. apply (land_lt t _ 32); [lia|]. vm_compute. split; congruence.
Qed.
Lemma cleared_none t : 0 <= t < 2 ^ 32 -> Z.land (cleared t) clear_mask = 0.
Proof. intros _. unfold cleared. rewrite <- Z.land_assoc. replace (Z.land (u32 (Z.lnot clear_mask)) clear_mask) with 0 by reflexivity. apply Z.land_0_r. Qed.
Lemma cleared_meets have t : 0 <= t < 2 ^ 32 -> (covers have (cleared t) <-> meets have t).
Proof.
  intro T. unfold covers, meets. split; intros H i I.
  - intros B N13 N15. apply H; [exact I|]. rewrite cleared_bit, B by assumption. replace (i =? 13) with false by lia. replace (i =? 15) with false by lia. reflexivity.
  - rewrite cleared_bit by assumption. rewrite !andb_true_iff, !negb_true_iff, !Z.eqb_neq. intros [[B N13] N15]. apply H; assumption.
Qed.
Lemma mask_meets have t : 0 <= t < 2 ^ 32 -> Z.land t clear_mask = 0 -> (covers have t <-> meets have t).
Proof.
  intros T M. unfold covers, meets. split; intros H i I.
  - intros B _ _. apply H; assumption.
  - intro B. assert (Q : forall j, (j = 13 \/ j = 15) -> Z.testbit t j = false).
    { intros j J. assert (R : Z.testbit (Z.land t clear_mask) j = false) by (rewrite M; apply Z.bits_0). rewrite Z.land_spec in R. destruct J as [-> | -> ]; cbn in R; rewrite andb_true_r in R; exact R. }
    apply H; try assumption; intros ->; rewrite Q in B; auto; discriminate.
Qed.

Definition served (X : list (pool * ghost)) (size traits : Z) (pools' : list pool) (q : Z) : Prop :=
  exists a p g b s', X = a ++ (p, g) :: b /\ q <> 0 /\ covers (ptraits p) traits /\ tlsf_malloc K F (ctl p) (hs p) size = Some (s', q) /\
    pools' = map fst a ++ Pl (ptraits p) (ctl p) (pend p) s' :: map fst b.
Definition outcome (X : list (pool * ghost)) (size traits : Z) (r : option (list pool * Z)) : Prop :=
  (r = Some (map fst X, 0) /\ forall p, In p (map fst X) -> covers (ptraits p) traits -> exhausted K F p size) \/
  (exists pools' q, r = Some (pools', q) /\ served X size traits pools' q).

Lemma all_ok X size traits : request_ok K F size -> Forall (fun e => PG (fst e) (snd e)) X -> traits <> 0 \/ (6 <= length X)%nat -> outcome X size traits (try_all K F (map fst X) size traits).
Proof.
  intros RO FX D. unfold try_all. destruct (try_ok size traits RO X FX) as [[-> NO]|(a & p & g & b & s' & q & EX & Q0 & TR & M & ->)]; cbn [obind snd].
  - left. replace (negb (0 =? 0)) with false by reflexivity. rewrite map_length. replace ((Z.land 0 traits =? traits) && (length X <? max_pools)%nat) with false.
    + split; [reflexivity|]. intros p I C. apply NO; [exact I|apply covers_land; exact C].
    + symmetry. rewrite Z.land_0_l. apply andb_false_iff. destruct D as [D|D]; [left; lia|right; apply Nat.ltb_ge; exact D].
  - right. replace (negb (q =? 0)) with true by lia. eexists _, q. split; [reflexivity|]. exists a, p, g, b, s'. split; [exact EX|]. split; [exact Q0|]. split; [apply land_covers; exact TR|]. auto.
Qed.
Lemma served_not X size t t' pools' q : served X size t' pools' q -> (forall p, covers (ptraits p) t' -> covers (ptraits p) t) ->
  (forall p, In p (map fst X) -> covers (ptraits p) t -> exhausted K F p size) -> False.
Proof.
  intros (a & p & g & b & s' & -> & Q0 & C & M & _) CC EX. assert (E : exhausted K F p size) by (apply EX; [rewrite map_app; apply in_or_app; right; left; reflexivity|apply CC; exact C]).
  unfold exhausted in E. rewrite E in M. injection M as _ M. congruence.
Qed.
Lemma tail_ok n X size t : request_ok K F size -> Forall (fun e => PG (fst e) (snd e)) X -> t <> 0 \/ (6 <= length X)%nat -> 0 <= t -> Z.land t clear_mask = 0 ->
  outcome X size t (malloc_passes K F (S (S n)) (map fst X) size t).
Proof.
  intros RO FX D T M. cbn [malloc_passes]. destruct (all_ok X size t RO FX D) as [[-> NO]|(pools' & q & -> & SV)]; cbn [obind snd fst].
  - rewrite M. cbn [Z.eqb negb]. change (Z.land t set_mask) with (Z.land t 1). rewrite land_1_testbit. destruct (Z.testbit t 0) eqn:B; cbn [Z.b2z Z.eqb]; [left; auto|].
    assert (D' : Z.lor t set_mask <> 0 \/ (6 <= length X)%nat) by (left; intro E; apply Z.lor_eq_0_iff in E; destruct E; discriminate).
    destruct (all_ok X size (Z.lor t set_mask) RO FX D') as [[-> _]|(pools' & q & -> & SV)]; cbn [obind snd fst].
    + cbn [Z.eqb negb]. replace (Z.land (Z.lor t set_mask) clear_mask) with 0; [|rewrite Z.land_lor_distr_l, M; reflexivity]. cbn [Z.eqb negb].
      replace (Z.land (Z.lor t set_mask) set_mask =? 0) with false; [left; auto|]. symmetry. change set_mask with 1. rewrite land_1_testbit, Z.lor_spec, orb_true_r. reflexivity.
    + exfalso. apply (served_not X size t _ pools' q SV); [|exact NO]. intros p C i I TB. apply C; [exact I|]. rewrite Z.lor_spec, TB. reflexivity.
  - assert (Q0 : q <> 0) by (destruct SV as (a & p & g & b & s' & _ & Q0 & _); exact Q0). replace (negb (q =? 0)) with true by lia. right. eauto.
Qed.
Lemma pass_S n pools size t : malloc_passes K F (S n) pools size t =
  do x <- try_all K F pools size t;
  if negb (snd x =? 0) then Some x
  else if negb (Z.land t clear_mask =? 0) then malloc_passes K F n (fst x) size (cleared t)
  else if Z.land t set_mask =? 0 then malloc_passes K F n (fst x) size (Z.lor t set_mask)
  else Some (fst x, 0).
Proof. reflexivity. Qed.
(* what malloc_traits does *)
Lemma malloc_traits_ok X size t : request_ok K F size -> Forall (fun e => PG (fst e) (snd e)) X -> 0 <= t < 2 ^ 32 ->
  (exists i, 0 <= i /\ Z.testbit t i = true /\ i <> 13 /\ i <> 15) \/ (6 <= length X)%nat ->
  (malloc_traits K F (map fst X) size t = Some (map fst X, 0) /\ forall p, In p (map fst X) -> meets (ptraits p) t -> exhausted K F p size) \/
  (exists a p g b s' q, X = a ++ (p, g) :: b /\ q <> 0 /\ tlsf_malloc K F (ctl p) (hs p) size = Some (s', q) /\
    malloc_traits K F (map fst X) size t = Some (map fst a ++ Pl (ptraits p) (ctl p) (pend p) s' :: map fst b, q) /\ meets (ptraits p) t /\
    (covers (ptraits p) t \/ forall p', In p' (map fst X) -> covers (ptraits p') t -> exhausted K F p' size)).
Proof.
  intros RO FX T D. unfold malloc_traits.
  assert (DN : t <> 0 \/ (6 <= length X)%nat) by (destruct D as [(i & I & B & _)|D]; [left; intros ->; rewrite Z.bits_0 in B; discriminate|right; exact D]).
  destruct (Z.eq_dec (Z.land t clear_mask) 0) as [M|M].
  - destruct (tail_ok 2 X size t RO FX DN ltac:(lia) M) as [[-> NO]|(pools' & q & -> & SV)].
    + left. split; [reflexivity|]. intros p I C. apply NO; [exact I|]. apply (mask_meets (ptraits p) t T M). exact C.
    + right. destruct SV as (a & p & g & b & s' & E & Q0 & C & TM & ->). exists a, p, g, b, s', q. split; [exact E|]. split; [exact Q0|]. split; [exact TM|]. split; [reflexivity|].
      split; [apply (mask_meets (ptraits p) t T M); exact C|left; exact C].
  - rewrite pass_S.
    destruct (all_ok X size t RO FX DN) as [[-> NO]|(pools' & q & -> & SV)]; cbn [obind snd fst].
    + cbn [Z.eqb negb]. replace (negb (Z.land t clear_mask =? 0)) with true by lia.
      assert (DC : cleared t <> 0 \/ (6 <= length X)%nat).
      { destruct D as [(i & I & B & N13 & N15)|D]; [left|right; exact D]. intro E. pose proof (cleared_bit t i T I) as CB. rewrite E, Z.bits_0, B in CB.
        replace (i =? 13) with false in CB by lia. replace (i =? 15) with false in CB by lia. discriminate. }
      pose proof (cleared_range t T) as CR.
      destruct (tail_ok 1 X size (cleared t) RO FX DC ltac:(lia) (cleared_none t T)) as [[-> NO2]|(pools' & q & -> & SV)].
      * left. split; [reflexivity|]. intros p I C. apply NO2; [exact I|]. apply cleared_meets; assumption.
      * right. destruct SV as (a & p & g & b & s' & E & Q0 & C & TM & ->). exists a, p, g, b, s', q. split; [exact E|]. split; [exact Q0|]. split; [exact TM|]. split; [reflexivity|].
        split; [apply cleared_meets; assumption|right; exact NO].
    + right. destruct SV as (a & p & g & b & s' & E & Q0 & C & TM & ->). exists a, p, g, b, s', q. replace (negb (q =? 0)) with true by lia. split; [exact E|]. split; [exact Q0|]. split; [exact TM|].
      split; [reflexivity|]. split; [intros i I B _ _; apply C; assumption|left; exact C].
Qed.

Lemma passes_inv n : forall X size t pools' q, request_ok K F size -> Forall (fun e => PG (fst e) (snd e)) X -> malloc_passes K F n (map fst X) size t = Some (pools', q) ->
  (q = 0 /\ pools' = map fst X) \/ exists t', served X size t' pools' q.
Proof.
  induction n as [|n IH]; intros X size t pools' q RO FX E; [discriminate|]. rewrite pass_S in E. unfold try_all in E.
  destruct (try_ok size t RO X FX) as [[T _]|(a & p & g & b & s' & q' & EX & Q0 & TR & M & T)]; rewrite T in E; cbn [obind fst snd] in E.
  - cbn [Z.eqb negb] in E. destruct ((Z.land 0 t =? t) && (length (map fst X) <? max_pools)%nat); cbn [obind fst snd] in E; [discriminate|]. cbn [Z.eqb negb] in E.
    destruct (negb (Z.land t clear_mask =? 0)); [apply (IH X size _ pools' q RO FX E)|]. destruct (Z.land t set_mask =? 0); [apply (IH X size _ pools' q RO FX E)|].
    left. injection E as <- <-. auto.
  - replace (negb (q' =? 0)) with true in E by lia. cbn [obind snd] in E. replace (negb (q' =? 0)) with true in E by lia. injection E as <- <-. right. exists t.
    exists a, p, g, b, s'. split; [exact EX|]. split; [exact Q0|]. split; [apply land_covers; exact TR|]. auto.
Qed.
Lemma map_mid (a b : list (pool * ghost)) p g : map fst (a ++ (p, g) :: b) = map fst a ++ p :: map fst b.
Proof. rewrite map_app. reflexivity. Qed.
Lemma served_FG X A size t pools' q : request_ok K F size -> FG X A -> served X size t pools' q -> exists X', pools' = map fst X' /\ FG X' (take q size A).
Proof.
  intros RO G (a & p & g & b & s' & -> & Q0 & _ & M & ->). exists (a ++ (Pl (ptraits p) (ctl p) (pend p) s', (fst g, take q size (snd g))) :: b). split; [rewrite map_mid; reflexivity|].
  destruct (FG_at a p g b A G) as [(R & C8 & CE & P32 & IN) AX]. apply (FG_upd a p g b _ _ A); [exact G| |reflexivity|].
  - split; [|cbn; auto]. cbn. apply (r_malloc K F (ctl p) (hs p) (fst g) (snd g) size); assumption.
  - intro x. unfold take. replace (q =? 0) with false by lia. cbn. rewrite AX. tauto.
Qed.
Lemma malloc_FG X A size t pools' q : request_ok K F size -> FG X A -> malloc_traits K F (map fst X) size t = Some (pools', q) -> exists X', pools' = map fst X' /\ FG X' (take q size A).
Proof.
  intros RO G E. destruct (passes_inv 4 X size t pools' q RO (proj1 G) E) as [[-> ->]|(t' & SV)]; [|apply (served_FG X A size t'); assumption].
  exists X. split; [reflexivity|]. exact G.
Qed.

(** *** free and realloc *)
Lemma find_ok a p g b A x n : FG (a ++ (p, g) :: b) A -> In (x, n) (snd g) -> find_pool (map fst (a ++ (p, g) :: b)) x = Some (map fst a, p, map fst b).
Proof.
  intros G I. destruct (FG_at a p g b A G) as [PP _]. destruct (live_in p g x n PP I) as (L1 & L2 & L3).
  assert (O : forall e, In e a -> (ctl (fst e) <? x) && (x <? pend (fst e)) = false).
  { intros e E. destruct (FG_other a p g b A e G) as [AW _]; [apply in_or_app; left; exact E|]. unfold away, region in AW. cbn in AW. lia. }
  clear G. rewrite map_mid. induction a as [|e a IH]; cbn [map app find_pool].
  - replace ((ctl p <? x) && (x <? pend p)) with true by lia. reflexivity.
  - rewrite (O e (or_introl eq_refl)), IH; [reflexivity|]. intros f Hf. apply O. right. exact Hf.
Qed.
Lemma other_apart a p g b A x n y m : FG (a ++ (p, g) :: b) A -> In (x, n) (snd g) -> all_of (a ++ b) (y, m) -> y <> x.
Proof.
  intros G I (e & E & J). destruct (FG_at a p g b A G) as [PP _]. destruct (live_in p g x n PP I) as (L1 & L2 & L3). destruct (FG_other a p g b A e G E) as [AW PE].
  destruct (live_in (fst e) (snd e) y m PE J) as (M1 & M2 & M3). unfold away, region in AW. cbn in AW. lia.
Qed.
Lemma owner X A x n : FG X A -> In (x, n) A -> exists a p g b, X = a ++ (p, g) :: b /\ In (x, n) (snd g).
Proof. intros (_ & _ & AX) I. apply AX in I. destruct I as ([p g] & E & I). apply in_split in E. destruct E as (a & b & ->). exists a, p, g, b. auto. Qed.
Lemma free_ok a p g b A x n : FG (a ++ (p, g) :: b) A -> In (x, n) (snd g) -> exists s', tlsf_free K F (ctl p) (hs p) x = Some s' /\
  free_r K F (map fst (a ++ (p, g) :: b)) x = Some (map fst (a ++ (Pl (ptraits p) (ctl p) (pend p) s', (fst g, drop x (snd g))) :: b)) /\
  FG (a ++ (Pl (ptraits p) (ctl p) (pend p) s', (fst g, drop x (snd g))) :: b) (drop x A).
Proof.
  intros G I. destruct (FG_at a p g b A G) as [PP AX]. pose proof PP as (R & C8 & CE & P32 & IN). destruct (C74_free_is_safe K F (ctl p) _ _ _ x n HC R I) as (s' & E & _).
  exists s'. split; [exact E|]. split.
  - unfold free_r. destruct (live_in p g x n PP I) as (L1 & _). replace (x =? 0) with false by lia. rewrite (find_ok a p g b A x n G I), E. cbn [obind]. rewrite map_mid. reflexivity.
  - apply (FG_upd a p g b _ _ A); [exact G| |reflexivity|].
    + split; [|cbn; auto]. cbn. apply (r_free K F (ctl p) (hs p) (fst g) (snd g) x n); assumption.
    + intros [y m]. cbn. rewrite !in_dropz, AX. split; [tauto|]. intros [Q|Q]; [tauto|]. split; [tauto|]. apply (other_apart a p g b A x n y m G I Q).
Qed.
Lemma realloc_ok a p g b A x n size : FG (a ++ (p, g) :: b) A -> In (x, n) (snd g) -> 0 < size <= max_request K F -> exists s' q, tlsf_realloc K F (ctl p) (hs p) x size = Some (s', q) /\
  let X' := a ++ (Pl (ptraits p) (ctl p) (pend p) s', (fst g, if q =? 0 then snd g else (q, size) :: drop x (snd g))) :: b in
  realloc_r K F (map fst (a ++ (p, g) :: b)) x size = Some (map fst X', q) /\ FG X' (if q =? 0 then A else (q, size) :: drop x A).
Proof.
  intros G I S. destruct (FG_at a p g b A G) as [PP AX]. pose proof PP as (R & C8 & CE & P32 & IN). destruct (C76_realloc K F (ctl p) _ _ _ x n size HC R I S) as (s' & q & E & _).
  exists s', q. split; [exact E|]. split.
  - unfold realloc_r. destruct (live_in p g x n PP I) as (L1 & _). replace (x =? 0) with false by lia. rewrite (find_ok a p g b A x n G I), E. cbn [obind]. rewrite map_mid. reflexivity.
  - apply (FG_upd a p g b _ _ A); [exact G| |reflexivity|].
    + split; [|cbn; auto]. cbn. apply (r_realloc K F (ctl p) (hs p) (fst g) (snd g) x n); assumption.
    + intros [y m]. cbn [snd fst]. destruct (q =? 0); [apply AX|]. cbn. rewrite !in_dropz, AX. pose proof (other_apart a p g b A x n y m G I). tauto.
Qed.

(** *** stores of the program *)
Lemma store_FG X A a v : FG X A -> a mod 4 = 0 -> owned A a -> exists X', map (store a v) (map fst X) = map fst X' /\ FG X' A.
Proof.
  intros G M4 (x & n & I & AR). destruct (owner X A x n G I) as (l & p & g & r & E & J). subst X. destruct (FG_at l p g r A G) as [PP _].
  assert (OW : forall e, In e (l ++ (p, g) :: r) -> PG (fst e) (snd e) -> PG (store a v (fst e)) (snd e)).
  { intros e Ie (R & C8 & CE & P32 & IN). split; [|cbn; auto]. cbn. apply r_write; [exact R|exact M4|].
    assert (C : e = (p, g) \/ In e (l ++ r)) by (rewrite in_app_iff in *; cbn in Ie; destruct Ie as [Q|[Q|Q]]; auto). destruct C as [->|C]; [left; exists x, n; auto|]. right.
    destruct (FG_other l p g r A e G C) as [AW PE]. destruct (live_in p g x n PP J) as (L1 & L2 & L3). unfold away, region in AW. cbn in AW. split; [lia|].
    intros b m Q. destruct (IN b m Q). lia. }
  exists (map (fun e => (store a v (fst e), snd e)) (l ++ (p, g) :: r)). split; [rewrite !map_map; reflexivity|]. destruct G as (F1 & F2 & F3). split; [|split].
  - apply Forall_map. cbn. rewrite Forall_forall in *. intros e Ie. apply OW; [exact Ie|apply F1; exact Ie].
  - rewrite !map_map in *. exact F2.
  - intro y. rewrite F3. unfold all_of. split.
    + intros (e & Ie & Iy). exists (store a v (fst e), snd e). split; [|exact Iy]. apply (in_map (fun e0 => (store a v (fst e0), snd e0))). exact Ie.
    + intros (e' & Ie & Iy). apply in_map_iff in Ie. destruct Ie as (e & <- & Ie). exists e. auto.
Qed.

(** *** initialisation *)
Definition sec (x : section) : Z * Z := (snd (fst x), snd x).
Lemma FOP_merge (a : list (Z * Z)) u v w r : (forall y, In y (a ++ r) -> away u y -> away v y -> away w y /\ away y w) -> (forall x y, away x y -> away y x) ->
  ForallOrdPairs away (a ++ u :: v :: r) -> ForallOrdPairs away (a ++ w :: r).
Proof.
  intros MG SY. induction a as [|z a IH]; cbn; intro FO; inversion FO as [|x l U V]; subst.
  - inversion V as [|x l U' V']; subst. inversion U as [|x l U1 U2]; subst. constructor; [|exact V']. rewrite Forall_forall in *. intros y Y. apply MG; auto.
  - constructor; [|apply IH; [intros y Y; apply MG; right; exact Y|exact V]]. apply Forall_app in U. destruct U as [U1 U2]. inversion U2 as [|x l U3 U4]; subst. inversion U4 as [|x l U5 U6]; subst.
    apply Forall_app. split; [exact U1|]. constructor; [|exact U6]. apply MG; [left; reflexivity|apply SY; exact U3|apply SY; exact U5].
Qed.
Lemma away_sym x y : away x y -> away y x. Proof. unfold away. tauto. Qed.

Definition empty_ghosts (X : list (pool * ghost)) : Prop := Forall (fun e => snd (snd e) = []) X.
Lemma create_ok m start fin : 8 <= start -> start mod 4 = 0 -> fin <= 2 ^ 32 -> start + ctl_bytes K F + 20 <= fin -> fin - start < 2 ^ F + 8 ->
  exists s P, create_with_pool K F m start (u32 (fin - start)) = Some (Some s) /\ reach K F start s P [] /\ forall b n, In (b, n) P -> start <= b /\ b + n <= fin.
Proof.
  intros S8 S4 F32 SZ LT. destruct cb4 as [C4 C16]. assert (P2 : 2 ^ 32 = 4294967296) by reflexivity. unfold create_with_pool. rewrite S4. replace (negb (0 =? 0)) with false by reflexivity.
  rewrite !u32s by (rewrite ?u32s; lia).
  assert (PO : pool_ok K F start [] (start + ctl_bytes K F) (fin - start - ctl_bytes K F)).
  { unfold pool_ok, apart. split; [rewrite Z.add_mod, S4, C4 by lia; reflexivity|]. repeat split; try lia. intros b n []. }
  destruct (C74_pool_is_accepted K F start (control_construct start m) [] [] _ _ HC (r_create K F start m) PO) as (s & E & _). rewrite E. cbn [obind fst].
  exists s, [(start + ctl_bytes K F, fin - start - ctl_bytes K F)]. split; [reflexivity|]. split; [apply (r_pool K F start _ [] [] _ _ s (start + ctl_bytes K F) (r_create K F start m) PO E)|].
  intros b n [Q|[]]. injection Q as <- <-. lia.
Qed.
Lemma split_last_snoc {T : Type} (before : list pool) (p : pool) : split_last (before ++ [p]) = Some (before, p).
Proof. unfold split_last. rewrite rev_app_distr. cbn. rewrite rev_involutive. reflexivity. Qed.
Lemma init_loop_ok m table : forall X cur, Forall (section_ok K F) table -> Forall (fun e => PG (fst e) (snd e)) X -> empty_ghosts X ->
  ForallOrdPairs away (map region (map fst X) ++ map sec table) -> cur = 0 \/ (exists X0 p g, X = X0 ++ [(p, g)] /\ ptraits p = cur) ->
  exists X', init_loop K F m (map fst X) cur table = Some (map fst X') /\ Forall (fun e => PG (fst e) (snd e)) X' /\ empty_ghosts X' /\ ForallOrdPairs away (map region (map fst X')) /\
    (length X' <= 6 \/ length X' = length X)%nat /\ (forall x, covered (map fst X) x -> covered (map fst X') x) /\ (length X + length table <= 6 -> forall x, In x table -> covered (map fst X') x)%nat.
Proof.
  induction table as [|[[tr start] fin] table IH]; intros X cur ST FX EG FO CU; cbn [init_loop].
  - exists X. rewrite app_nil_r in FO. split; [reflexivity|]. split; [exact FX|]. split; [exact EG|]. split; [exact FO|]. split; [right; reflexivity|]. split; [tauto|intros _ x []].
  - inversion ST as [|x l SO ST']; subst. pose proof SO as (TR & S8 & S4 & F32 & SZ & LT). assert (P2 : 2 ^ 32 = 4294967296) by reflexivity.
    destruct (max_pools <=? length (map fst X))%nat eqn:MX.
    { exists X. split; [reflexivity|]. split; [exact FX|]. split; [exact EG|]. split; [|split; [right; reflexivity|]].
      - clear - FO. induction (map region (map fst X)) as [|z l IH]; [constructor|]. cbn in FO. inversion FO as [|x0 l0 U V]; subst. apply Forall_app in U. constructor; [apply U|apply IH; exact V].
      - split; [tauto|]. apply Nat.leb_le in MX. rewrite map_length in MX. unfold max_pools in MX. cbn [length]. intro L. lia. }
    destruct (create_ok m start fin S8 S4 F32 SZ LT) as (s & P & EC & R & IP). apply Nat.leb_gt in MX. rewrite map_length in MX. unfold max_pools in MX.
    assert (CR : exists X', init_loop K F m (map fst X ++ [Pl tr start fin s]) tr table = Some (map fst X') /\ Forall (fun e => PG (fst e) (snd e)) X' /\ empty_ghosts X' /\
      ForallOrdPairs away (map region (map fst X')) /\ (length X' <= 6 \/ length X' = length X)%nat /\ (forall x, covered (map fst X) x -> covered (map fst X') x) /\
      (length X + length ((tr, start, fin) :: table) <= 6 -> forall x, In x ((tr, start, fin) :: table) -> covered (map fst X') x)%nat).
    { destruct (IH (X ++ [(Pl tr start fin s, (P, []))]) tr ST') as (X' & E & R1 & R2 & R3 & R4 & R5 & R6).
      - apply Forall_app. split; [exact FX|]. constructor; [|constructor]. split; [exact R|]. cbn. destruct cb4. repeat split; try lia; apply (IP b n H1) || apply IP; assumption.
      - apply Forall_app. split; [exact EG|]. constructor; [reflexivity|constructor].
      - rewrite !map_app. rewrite <- app_assoc. exact FO.
      - right. exists X, (Pl tr start fin s), (P, []). auto.
      - exists X'. rewrite map_app in E. split; [exact E|]. split; [exact R1|]. split; [exact R2|]. split; [exact R3|]. split.
        + left. rewrite app_length in R4. cbn in R4. lia.
        + split.
          * intros x (p0 & I0 & Q). apply R5. exists p0. rewrite map_app, in_app_iff. auto.
          * cbn [length]. intros L x [<-|Ix]; [|apply R6; [rewrite app_length; clear - L; unfold section in *; cbn in *; lia|exact Ix]]. apply R5. exists (Pl tr start fin s). rewrite map_app, in_app_iff. cbn. repeat split; try lia. auto. }
    cbn [init_step]. destruct (negb (tr =? cur)) eqn:TC.
    { rewrite EC. cbn [obind fst snd]. exact CR. }
    destruct CU as [->|(X0 & p & g & EX & PC)]; [lia|]. subst X. rewrite map_mid. cbn [map]. rewrite (@split_last_snoc unit). cbn [obind].
    destruct (negb (start =? pend p)) eqn:SP.
    { rewrite EC. cbn [obind fst snd]. rewrite map_mid in CR. exact CR. }
    assert (start = pend p) by lia. clear SP. apply Forall_app in FX. destruct FX as [FX0 FXp]. apply Forall_cons_iff in FXp. destruct FXp as [(Rp & C8 & CE & P32 & IN) _].
    apply Forall_app in EG. destruct EG as [EG0 EGp]. apply Forall_cons_iff in EGp. destruct EGp as [EGp _]. cbn [fst snd] in *. rewrite EGp in Rp.
    destruct cb4 as [C4 C16]. rewrite u32s by lia.
    assert (PO : pool_ok K F (ctl p) (fst g) start (fin - start)).
    { unfold pool_ok, apart. repeat split; try lia. intros b n Q. destruct (IN b n Q). lia. }
    destruct (C74_pool_is_accepted K F (ctl p) (hs p) (fst g) [] _ _ HC Rp PO) as (s2 & E2 & _). rewrite E2. cbn [obind fst snd]. replace (start =? 0) with false by lia.
    destruct (IH (X0 ++ [(Pl (ptraits p) (ctl p) fin s2, ((start, fin - start) :: fst g, []))]) cur ST') as (X' & E & R1 & R2 & R3 & R4 & R5 & R6).
    + apply Forall_app. split; [exact FX0|]. constructor; [|constructor]. split; [cbn; apply (r_pool K F (ctl p) (hs p) (fst g) [] start (fin - start) s2 start Rp PO E2)|]. cbn.
      repeat split; try lia; destruct H0 as [Q|Q]; try (injection Q as <- <-); try (destruct (IN b n Q)); lia.
    + apply Forall_app. split; [exact EG0|]. constructor; [reflexivity|constructor].
    + rewrite map_mid in *. cbn [map] in *. rewrite map_app in *. cbn [map] in *. rewrite <- app_assoc in *. cbn [app] in *.
      apply (FOP_merge _ (region p) (sec (tr, start, fin)) _ _); [|apply away_sym|exact FO].
      intros y Y A1 A2. assert (YN : fst y < snd y).
      { rewrite in_app_iff in Y. destruct Y as [Y|Y]; [rewrite map_map in Y|]; apply in_map_iff in Y.
        - destruct Y as (e & <- & Ie). rewrite Forall_forall in FX0. destruct (FX0 e Ie) as (_ & _ & Q & _). unfold region. cbn. lia.
        - destruct Y as (x & <- & Ix). rewrite Forall_forall in ST'. specialize (ST' x Ix). destruct x as [[a1 a2] a3]. destruct ST' as (_ & _ & _ & _ & Q & _). unfold sec. cbn. lia. }
      unfold away, region, sec in *. cbn in *. lia.
    + right. eexists X0, _, _. split; [reflexivity|exact PC].
    + exists X'. rewrite map_mid in E. cbn [map] in E. split; [exact E|]. split; [exact R1|]. split; [exact R2|]. split; [exact R3|]. rewrite !app_length in *. cbn [length] in *. split; [exact R4|].
      assert (MO : forall x, covered (map fst (X0 ++ [(p, g)])) x -> covered (map fst X') x).
      { intros x (p0 & I0 & Q1 & Q2 & Q3). apply R5. rewrite map_mid in *. rewrite in_app_iff in I0. destruct I0 as [I0|[<-|[]]]; [exists p0; rewrite in_app_iff; auto|].
        eexists. rewrite in_app_iff. split; [right; left; reflexivity|]. cbn. repeat split; try assumption. lia. }
      split; [rewrite map_mid in MO; exact MO|]. intros L x [<-|Ix]; [|apply R6; [lia|exact Ix]]. apply R5. eexists. rewrite map_mid, in_app_iff. split; [right; left; reflexivity|]. cbn. lia.
Qed.
Lemma initialize_ok m table : table_ok K F table -> exists X, initialize K F m table = Some (map fst X) /\ FG X [] /\ (length X <= 6)%nat /\ ((length table <= 6)%nat -> forall x, In x table -> covered (map fst X) x).
Proof.
  intros [ST FO]. destruct (init_loop_ok m table [] 0 ST (Forall_nil _) (Forall_nil _)) as (X & E & R1 & R2 & R3 & R4 & R5 & R6).
  - cbn. clear - FO. induction table as [|x l IH]; [constructor|]. inversion FO as [|y k U V]; subst. constructor; [|apply IH; exact V]. rewrite Forall_forall in *. intros z Iz.
    apply in_map_iff in Iz. destruct Iz as (w & <- & Iw). specialize (U w Iw). destruct x as [[a1 a2] a3], w as [[b1 b2] b3]. exact U.
  - left. reflexivity.
  - exists X. split; [exact E|]. split; [|split; [cbn in R4; lia|exact R6]]. split; [exact R1|]. split; [exact R3|]. intro x. split; [intros []|]. intros (e & Ie & I).
    unfold empty_ghosts in R2. rewrite Forall_forall in R2. exact (eq_ind _ (fun l => In x l) I _ (R2 e Ie)).
Qed.

Lemma freach_FG pools A : freach K F pools A -> exists X, pools = map fst X /\ FG X A.
Proof.
  induction 1 as [m table pools TO E|pools A size traits pools' p R IH RO TR E|pools A p n pools' R IH I E|pools A p n size pools' q R IH I SZ E|pools A a v R IH M4 OW].
  - destruct (initialize_ok m table TO) as (X & E' & G & _). rewrite E in E'. injection E' as ->. exists X. auto.
  - destruct IH as (X & -> & G). apply (malloc_FG X A size traits); assumption.
  - destruct IH as (X & -> & G). destruct (owner X A p n G I) as (l & x & g & r & -> & J). destruct (free_ok l x g r A p n G J) as (s' & _ & E' & G'). rewrite E in E'. injection E' as ->. eauto.
  - destruct IH as (X & -> & G). destruct (owner X A p n G I) as (l & x & g & r & -> & J). destruct (realloc_ok l x g r A p n size G J SZ) as (s' & q' & _ & E' & G'). rewrite E in E'. injection E' as -> <-. eauto.
  - destruct IH as (X & -> & G). apply store_FG; assumption.
Qed.
End F.
