(* Splitting, merging and marking blocks of the TLSF heap. *)
From Verif Require Import Base BitLemmas BitsProofs TlsfModel TlsfArith TlsfHeap.

Section Ops.
Variables K F null : Z.
Variable P : list (Z * Z).  (* the pools: first address and pool_bytes *)
Hypothesis HK : 1 <= K <= 5.
Hypothesis HF : K + 2 <= F < 31.
Hypothesis HP : forall m n, In (m, n) P -> 12 <= n < 2 ^ F /\ m + n + 8 <= 2 ^ 32.
Hypothesis HD : forall m n m' n', In (m, n) P -> In (m', n') P -> (m, n) = (m', n') \/ m + n + 8 <= m' \/ m' + n' + 8 <= m.

Record Pool (H : heap) : Prop := {
  q_in : forall b k, H b = Some k -> exists m n, In (m, n) P /\ m <= b + 4 /\ ((sz k = 0 /\ b = m + n) \/ (12 <= sz k /\ b + 4 + sz k <= m + n));
  q_first : forall m n, In (m, n) P -> exists k, H (m - 4) = Some k /\ 12 <= sz k;
  q_last : forall m n, In (m, n) P -> exists k, H (m + n) = Some k /\ sz k = 0 }.

Definition Flags (H : heap) : Prop := forall b k k', H b = Some k -> 0 < sz k -> H (b + 4 + sz k) = Some k' -> pf k' = fr k.
(* two adjacent free blocks: one of them is being worked on *)
Definition Coal (H : heap) (X : Z -> Prop) : Prop :=
  forall b k p kp, H b = Some k -> fr k = true -> H p = Some kp -> fr kp = true -> p + 4 + sz kp = b -> X b \/ X p.

Record WF (s : st) (H : heap) (X : Z -> Prop) (L : Z -> Z -> list Z) : Prop := {
  w_inv : Inv K F null s H X L;
  w_geo : Geo F null H;
  w_pool : Pool H;
  w_flags : Flags H;
  w_coal : Coal H X }.

Definition Used (H : heap) (u n : Z) : Prop := exists q, H u = Some (Blk n false q).
Definition Foreign (a : Z) : Prop := (forall m n, In (m, n) P -> a < m \/ m + n + 8 <= a) /\ (a < null \/ null + 16 <= a).
Definition Safe (H : heap) (a : Z) : Prop := Foreign a \/ exists u n, Used H u n /\ u + 8 <= a < u + 8 + n.
Definition Frame (H : heap) (s s' : st) : Prop := forall a, Safe H a -> mem s' a = mem s a.
Definition KeepAll (H H' : heap) : Prop := forall u n, Used H u n <-> Used H' u n.

Lemma blk_eta k : k = Blk (sz k) (fr k) (pf k). Proof. destruct k; reflexivity. Qed.
Lemma used_blk H u k : H u = Some k -> fr k = false -> Used H u (sz k).
Proof. intros E FR. exists (pf k). destruct k as [s f q]. cbn in *. subst. exact E. Qed.

Lemma keep_refl H : KeepAll H H. Proof. intros u n. reflexivity. Qed.
Lemma keep_trans H1 H2 H3 : KeepAll H1 H2 -> KeepAll H2 H3 -> KeepAll H1 H3.
Proof. intros A B u n. rewrite (A u n). apply B. Qed.
Lemma safe_keep H H' a : KeepAll H H' -> Safe H a -> Safe H' a.
Proof. intros K1 [A|(u & n & U & R)]; [left; exact A|]. right. exists u, n. split; [apply K1; exact U|exact R]. Qed.
Lemma frame_trans H H' s1 s2 s3 : KeepAll H H' -> Frame H s1 s2 -> Frame H' s2 s3 -> Frame H s1 s3.
Proof. intros KA A B a S. rewrite (B a (safe_keep H H' a KA S)). exact (A a S). Qed.

(* A safe address is in the footprint of no free block, and no header. *)
Lemma safe_apart s H X L a : WF s H X L -> Safe H a -> forall b k, H b = Some k -> a <> b + 4 /\ (fr k = true -> a < b + 4 \/ b + 8 + sz k <= a).
Proof.
  intros W S b k E. pose proof (w_geo s H X L W) as G. destruct S as [[A _]|(u & n & (q & U) & R)].
  - destruct (q_in H (w_pool s H X L W) b k E) as (m & n & I & M & C). specialize (A m n I). destruct C as [[C1 C2]|[C1 C2]].
    + split; [lia|]. intro FR. pose proof (free_size F null H G b k E FR). lia.
    + lia.
  - destruct (Z.eq_dec u b) as [->|N].
    + assert (k = Blk n false q) by congruence. subst k. cbn. split; [lia|discriminate].
    + pose proof (g_disj F null H G u b _ k U E N) as D. cbn in D. pose proof (size_pos K F null HK HF H G b k E). lia.
Qed.
Lemma safe_null s H X L a : WF s H X L -> Safe H a -> a < null \/ null + 16 <= a.
Proof.
  intros W [[_ A]|(u & n & (q & U) & R)]; [exact A|]. pose proof (g_null F null H (w_geo s H X L W) u _ U) as N. cbn in N. lia.
Qed.
Lemma safe_not_node s H X L a : WF s H X L -> Safe H a -> ~ NodeW null H a.
Proof.
  intros W S (y & [->|(k & E & FR)] & A).
  - pose proof (safe_null s H X L a W S). lia.
  - destruct (safe_apart s H X L a W S y k E) as [_ B]. specialize (B FR). pose proof (free_size F null H (w_geo s H X L W) y k E FR). lia.
Qed.
Lemma node_frame s H X L s' : WF s H X L -> (forall a, ~ NodeW null H a -> mem s' a = mem s a) -> Frame H s s'.
Proof. intros W A a S. apply A. exact (safe_not_node s H X L a W S). Qed.

(** *** Free lists at this level *)
Lemma coal_mono H (X X' : Z -> Prop) : (forall y, X y -> X' y) -> Coal H X -> Coal H X'.
Proof. intros M C b k p kp A B D E G. destruct (C b k p kp A B D E G); [left|right]; apply M; assumption. Qed.

Lemma wf_remove s H X L b k : WF s H X L -> H b = Some k -> fr k = true -> ~ X b ->
  exists s' L', block_remove K F null s b = Some s' /\ WF s' H (out X b) L' /\ Frame H s s'.
Proof.
  intros W E FR XB. destruct (block_remove_ok K F null HK HF s H X L b k (w_inv _ _ _ _ W) (w_geo _ _ _ _ W) E FR XB) as (s' & L' & A & B & C).
  exists s', L'. split; [exact A|]. split; [|exact (node_frame s H X L s' W C)].
  constructor; [exact B|apply W|apply W|apply W|]. apply (coal_mono H X); [|apply W]. intros y Y. right. exact Y.
Qed.

Lemma wf_insert s H X L b k n kn : WF s H X L -> H b = Some k -> fr k = true -> X b -> pf k = false -> n = b + 4 + sz k -> H n = Some kn -> fr kn = false ->
  exists s' L', block_insert K F null s b = Some s' /\ WF s' H (back X b) L' /\ Frame H s s'.
Proof.
  intros W E FR XB PF N EN FN. destruct (block_insert_ok K F null HK HF s H X L b k (w_inv _ _ _ _ W) (w_geo _ _ _ _ W) E FR XB) as (s' & L' & A & B & C).
  exists s', L'. split; [exact A|]. split; [|exact (node_frame s H X L s' W C)].
  constructor; [exact B|apply W|apply W|apply W|]. intros c kc p kp E1 F1 E2 F2 AD.
  assert (CB : c <> b). { intros ->. assert (kc = k) by congruence. subst kc. assert (S : 0 < sz kp) by (pose proof (free_size F null H (w_geo _ _ _ _ W) p kp E2 F2); lia).
    pose proof (w_flags _ _ _ _ W p kp k E2 S) as Q. rewrite AD in Q. specialize (Q E1). congruence. }
  assert (PB : p <> b). { intros ->. assert (kp = k) by congruence. subst kp n. rewrite AD in EN. congruence. }
  destruct (w_coal _ _ _ _ W c kc p kp E1 F1 E2 F2 AD) as [Q|Q]; [left|right]; split; assumption.
Qed.

(* inserting the leading part of a split block: its successor is still being worked on *)
Lemma wf_insert_lead s H X L b k n : WF s H X L -> H b = Some k -> fr k = true -> X b -> pf k = false -> n = b + 4 + sz k -> X n -> n <> b ->
  exists s' L', block_insert K F null s b = Some s' /\ WF s' H (back X b) L' /\ Frame H s s'.
Proof.
  intros W E FR XB PF N XN NB. destruct (block_insert_ok K F null HK HF s H X L b k (w_inv _ _ _ _ W) (w_geo _ _ _ _ W) E FR XB) as (s' & L' & A & B & C).
  exists s', L'. split; [exact A|]. split; [|exact (node_frame s H X L s' W C)].
  constructor; [exact B|apply W|apply W|apply W|]. intros c kc p kp E1 F1 E2 F2 AD.
  assert (CB : c <> b). { intros ->. assert (kc = k) by congruence. subst kc. assert (S : 0 < sz kp) by (pose proof (free_size F null H (w_geo _ _ _ _ W) p kp E2 F2); lia).
    pose proof (w_flags _ _ _ _ W p kp k E2 S) as Q. rewrite AD in Q. specialize (Q E1). congruence. }
  destruct (Z.eq_dec p b) as [->|PB].
  - assert (kp = k) by congruence. subst kp. left. split; [|exact CB]. rewrite <- AD, <- N. exact XN.
  - destruct (w_coal _ _ _ _ W c kc p kp E1 F1 E2 F2 AD) as [Q|Q]; [left|right]; split; assumption.
Qed.

(** *** Reading headers *)
Lemma u32_id x : 0 <= x < 2 ^ 32 -> u32 x = x.
Proof. intro H. unfold u32. apply Z.mod_small. exact H. Qed.

Section Read.
Variables (s : st) (H : heap) (X : Z -> Prop) (L : Z -> Z -> list Z).
Hypothesis W : WF s H X L.

Lemma r_word b k : H b = Some k -> mem s (b + 4) = word (sz k) (fr k) (pf k).
Proof. apply (i_rep K F null s H X L (w_inv _ _ _ _ W)). Qed.
Lemma r_range b k : H b = Some k -> 0 < b /\ b + 8 + sz k <= 2 ^ 32 /\ 0 <= sz k < 2 ^ 31 /\ sz k mod 4 = 0 /\ b mod 4 = 0.
Proof.
  intro E. pose proof (w_geo _ _ _ _ W) as G. pose proof (g_range F null H G b k E). pose proof (size_pos K F null HK HF H G b k E). pose proof (g_align F null H G b k E).
  assert (2 ^ F < 2 ^ 31) by (apply Z.pow_lt_mono_r; lia). lia.
Qed.
Lemma r_size b k : H b = Some k -> block_size s b = sz k.
Proof. apply (block_size_ok K F null HK HF s H X L (w_inv _ _ _ _ W) (w_geo _ _ _ _ W)). Qed.
Lemma r_free b k : H b = Some k -> block_is_free s b = fr k.
Proof. intro E. unfold block_is_free, rd. rewrite (r_word b k E). apply word_free. apply (r_range b k E). Qed.
Lemma r_prev_free b k : H b = Some k -> block_is_prev_free s b = pf k.
Proof. intro E. unfold block_is_prev_free, rd. rewrite (r_word b k E). apply word_prev. apply (r_range b k E). Qed.
Lemma r_next b k : H b = Some k -> 12 <= sz k -> block_next s b = b + 4 + sz k.
Proof.
  intros E S. unfold block_next, offset_to_block, block_to_ptr. rewrite (r_size b k E). pose proof (r_range b k E) as R. change (2 ^ 31) with 2147483648 in R. change (2 ^ 32) with 4294967296 in R.
  rewrite (u32_id (b + 8)), (u32_id (sz k - 4)) by (change (2 ^ 32) with 4294967296; lia). rewrite u32_id; [ring|]. change (2 ^ 32) with 4294967296. lia.
Qed.
Lemma r_next_in b k : H b = Some k -> 12 <= sz k -> exists kn, H (b + 4 + sz k) = Some kn.
Proof. intros E S. apply (g_next F null H (w_geo _ _ _ _ W) b k E). lia. Qed.
Lemma r_prev b k : H b = Some k -> pf k = true -> exists p kp, H p = Some kp /\ fr kp = true /\ p + 4 + sz kp = b /\ block_prev s b = p.
Proof.
  intros E PF. destruct (i_phys K F null s H X L (w_inv _ _ _ _ W) b k E PF) as (p & kp & A & B & C & D). exists p, kp. split; [exact A|]. split; [|split; [exact C|exact D]].
  pose proof (w_flags _ _ _ _ W p kp k A ltac:(lia)) as Q. rewrite C in Q. specialize (Q E). congruence.
Qed.
End Read.

(** *** Pure facts about changed heaps *)
Definition shape (H H' : heap) : Prop := forall b, match H b, H' b with
  | Some k, Some k' => sz k' = sz k /\ (sz k' = 0 -> fr k' = false) | None, None => True | _, _ => False end.
Lemma shape_fw H H' b k : shape H H' -> H b = Some k -> exists k', H' b = Some k' /\ sz k' = sz k.
Proof. intros S E. specialize (S b). rewrite E in S. destruct (H' b) as [k'|]; [|contradiction]. exists k'. tauto. Qed.
Lemma shape_bw H H' b k' : shape H H' -> H' b = Some k' -> exists k, H b = Some k /\ sz k' = sz k /\ (sz k' = 0 -> fr k' = false).
Proof. intros S E. specialize (S b). rewrite E in S. destruct (H b) as [k|]; [|contradiction]. exists k. tauto. Qed.

Lemma shape_geo H H' : shape H H' -> Geo F null H -> Geo F null H'.
Proof.
  intros S G. constructor.
  - intros b k E. destruct (shape_bw H H' b k S E) as (k0 & E0 & Z0 & _). rewrite Z0. apply (g_range F null H G b k0 E0).
  - intros b k E. destruct (shape_bw H H' b k S E) as (k0 & E0 & Z0 & _). rewrite Z0. apply (g_align F null H G b k0 E0).
  - intros b k E. destruct (shape_bw H H' b k S E) as (k0 & E0 & Z0 & F0). rewrite Z0 in *. destruct (g_size F null H G b k0 E0) as [[A _]|A]; [left; split; [exact A|apply F0; exact A]|right; exact A].
  - intros b k E. destruct (shape_bw H H' b k S E) as (k0 & E0 & Z0 & _). rewrite Z0. intro PZ. destruct (g_next F null H G b k0 E0 PZ) as (k1 & E1).
    destruct (shape_fw H H' _ k1 S E1) as (k2 & E2 & _). exists k2. exact E2.
  - intros b b' k k' E E' N. destruct (shape_bw H H' b k S E) as (k0 & E0 & Z0 & _). destruct (shape_bw H H' b' k' S E') as (k1 & E1 & Z1 & _). rewrite Z0, Z1. apply (g_disj F null H G); assumption.
  - intros b k E. destruct (shape_bw H H' b k S E) as (k0 & E0 & Z0 & _). rewrite Z0. apply (g_null F null H G b k0 E0).
Qed.
Lemma shape_pool H H' : shape H H' -> Pool H -> Pool H'.
Proof.
  intros S Q. constructor.
  - intros b k E. destruct (shape_bw H H' b k S E) as (k0 & E0 & Z0 & _). rewrite Z0. apply (q_in H Q b k0 E0).
  - intros m n I. destruct (q_first H Q m n I) as (k & E & A). destruct (shape_fw H H' _ k S E) as (k2 & E2 & A2). exists k2. rewrite A2. split; assumption.
  - intros m n I. destruct (q_last H Q m n I) as (k & E & A). destruct (shape_fw H H' _ k S E) as (k2 & E2 & A2). exists k2. rewrite A2. split; assumption.
Qed.

(* changing the flags of a block and its successor *)
Definition mark (H : heap) (b : Z) (k : blk) (n : Z) (kn : blk) (f : bool) : heap :=
  hset (hset H b (Some (Blk (sz k) f (pf k)))) n (Some (Blk (sz kn) (fr kn) f)).

Lemma hset_cases H b o x k : hset H b o x = Some k -> (x = b /\ o = Some k) \/ (x <> b /\ H x = Some k).
Proof. unfold hset. destruct (Z.eqb_spec x b); intro E; [left|right]; split; assumption. Qed.

Lemma mark_cases H b k n kn f x kx : mark H b k n kn f x = Some kx ->
  (x = n /\ kx = Blk (sz kn) (fr kn) f) \/ (x <> n /\ x = b /\ kx = Blk (sz k) f (pf k)) \/ (x <> n /\ x <> b /\ H x = Some kx).
Proof.
  unfold mark. intro E. apply hset_cases in E. destruct E as [[-> E]|[N E]]; [left; split; [reflexivity|congruence]|].
  apply hset_cases in E. destruct E as [[-> E]|[N2 E]]; right; [left|right]; repeat split; try assumption. congruence.
Qed.

Lemma mark_shape s H X L b k kn f : WF s H X L -> H b = Some k -> 12 <= sz k -> H (b + 4 + sz k) = Some kn -> shape H (mark H b k (b + 4 + sz k) kn f).
Proof.
  intros W E S EN x. unfold mark, hset. destruct (Z.eqb_spec x (b + 4 + sz k)) as [->|N].
  - rewrite EN. cbn. split; [reflexivity|]. intro Z0. destruct (g_size F null H (w_geo _ _ _ _ W) _ kn EN) as [[_ A]|A]; [exact A|lia].
  - destruct (Z.eqb_spec x b) as [->|N2]; [rewrite E; cbn; split; [reflexivity|lia]|]. destruct (H x) as [kx|] eqn:EX; [|exact Logic.I]. split; [reflexivity|]. intro Z0.
    destruct (g_size F null H (w_geo _ _ _ _ W) _ kx EX) as [[_ A]|A]; [exact A|lia].
Qed.

(* two different blocks have different successors *)
Lemma next_inj s H X L b b' k k' : WF s H X L -> H b = Some k -> H b' = Some k' -> 12 <= sz k -> 12 <= sz k' -> b + 4 + sz k = b' + 4 + sz k' -> b = b'.
Proof. intros W E E' S S' Q. destruct (Z.eq_dec b b') as [|N]; [assumption|]. pose proof (g_disj F null H (w_geo _ _ _ _ W) b b' k k' E E' N). lia. Qed.

Lemma mark_flags s H X L b k kn f : WF s H X L -> H b = Some k -> 12 <= sz k -> H (b + 4 + sz k) = Some kn -> Flags (mark H b k (b + 4 + sz k) kn f).
Proof.
  intros W E S EN x kx k' EX SX EX'. apply mark_cases in EX, EX'. pose proof (w_geo _ _ _ _ W) as G.
  assert (NB : b + 4 + sz k <> b) by lia.
  destruct EX as [[-> ->]|[(N1 & -> & ->)|(N1 & N2 & EX)]]; cbn [sz fr pf] in *.
  - destruct EX' as [[Q _]|[(N3 & Q & ->)|(N3 & N4 & EX')]].
    + lia.
    + (* the successor of the successor is b: impossible *) exfalso. pose proof (g_disj F null H G b (b + 4 + sz k) k kn E EN ltac:(lia)). lia.
    + apply (w_flags _ _ _ _ W _ kn k' EN SX EX').
  - destruct EX' as [[Q ->]|[(N3 & Q & ->)|(N3 & N4 & EX')]]; [reflexivity|lia|contradiction].
  - assert (SX12 : 12 <= sz kx) by (destruct (g_size F null H G x kx EX) as [[A _]|A]; lia).
    destruct EX' as [[Q ->]|[(N3 & Q & ->)|(N3 & N4 & EX')]].
    + exfalso. apply N2. apply (next_inj s H X L x b kx k W EX E SX12 S Q).
    + cbn. apply (w_flags _ _ _ _ W x kx k EX SX). rewrite Q. exact E.
    + apply (w_flags _ _ _ _ W x kx k' EX SX EX').
Qed.

(** *** Marking a block as free *)
Lemma st_eq_parts s a v : flb (wr s a v) = flb s /\ slb (wr s a v) = slb s /\ heads (wr s a v) = heads s.
Proof. repeat split. Qed.

(* headers of other blocks, last words and links are apart *)
Lemma hdr_ne s H X L b k y ky : WF s H X L -> H b = Some k -> H y = Some ky -> 12 <= sz k -> b + 4 + sz k <> y + 4.
Proof.
  intros W E EY S Q. destruct (Z.eq_dec y b) as [->|N]; [lia|]. pose proof (g_disj F null H (w_geo _ _ _ _ W) y b ky k EY E N). pose proof (size_pos K F null HK HF H (w_geo _ _ _ _ W) y ky EY). lia.
Qed.

Lemma wf_mark s H X L b k kn f s' : WF s H X L -> H b = Some k -> 12 <= sz k -> H (b + 4 + sz k) = Some kn ->
  (fr k = false \/ X b) ->
  flb s' = flb s -> slb s' = slb s -> heads s' = heads s ->
  mem s' (b + 4) = word (sz k) f (pf k) -> mem s' (b + 4 + sz k + 4) = word (sz kn) (fr kn) f ->
  (f = true -> mem s' (b + 4 + sz k) = b) ->
  (forall a, a <> b + 4 -> a <> b + 4 + sz k + 4 -> a <> b + 4 + sz k -> mem s' a = mem s a) ->
  WF s' (mark H b k (b + 4 + sz k) kn f) (if f then out X b else back X b) L.
Proof.
  intros W E S EN UX E1 E2 E3 M1 M2 M3 MO. pose proof (w_geo _ _ _ _ W) as G. set (n := b + 4 + sz k) in *. set (H' := mark H b k n kn f).
  assert (SH : shape H H') by (apply (mark_shape s H X L); assumption).
  assert (NB : n <> b) by (unfold n; lia).
  constructor.
  - apply (inv_headers K F null s s' H H' X _ L (w_inv _ _ _ _ W) E1 E2 E3).
    + intros y i j LI. pose proof (listed_node K null H X y i j LI) as ND. destruct LI as (ky & EY & FY & XY & _).
      assert (YB : y <> b) by (intros ->; assert (ky = k) by congruence; subst ky; destruct UX; [congruence|contradiction]).
      destruct (node_header K F null HK HF H G y b k ND E). destruct (node_header K F null HK HF H G y n kn ND EN). destruct (node_last F null H G y b k ND E S). unfold n in *.
      split; apply MO; lia.
    + intros y i j. unfold listed. split.
      * intros (ky & EY & FY & XY & M). apply mark_cases in EY. destruct EY as [[-> ->]|[(N1 & -> & ->)|(N1 & N2 & EY)]]; cbn [sz fr pf] in *.
        -- exists kn. split; [exact EN|]. split; [exact FY|]. split; [|exact M]. intro Q. apply XY. destruct f; [right; exact Q|split; [exact Q|exact NB]].
        -- subst f. exfalso. apply XY. left. reflexivity.
        -- exists ky. split; [exact EY|]. split; [exact FY|]. split; [|exact M]. intro Q. apply XY. destruct f; [right; exact Q|split; assumption].
      * intros (ky & EY & FY & XY & M).
        assert (YB : y <> b) by (intros ->; assert (ky = k) by congruence; subst ky; destruct UX; [congruence|contradiction]).
        assert (XY' : ~ (if f then out X b else back X b) y) by (destruct f; [intros [Q|Q]; contradiction|intros [Q _]; contradiction]).
        destruct (Z.eq_dec y n) as [->|YN].
        -- assert (ky = kn) by congruence. subst ky. exists (Blk (sz kn) (fr kn) f). split; [unfold H', mark; apply hset_same|]. cbn. auto.
        -- exists ky. split; [unfold H', mark; rewrite !hset_other by assumption; exact EY|]. auto.
    + intros y ky EY. apply mark_cases in EY. destruct EY as [[-> ->]|[(N1 & -> & ->)|(N1 & N2 & EY)]]; cbn [sz fr pf]; [exact M2|exact M1|].
      pose proof (hdr_ne s H X L b k y ky W E EY S). fold n in H0. rewrite MO by lia. apply (r_word s H X L W y ky EY).
    + intros y ky EY PY.
      assert (PH : forall p kp, H p = Some kp -> exists kp', H' p = Some kp' /\ sz kp' = sz kp) by (intros p kp Q; exact (shape_fw H H' p kp SH Q)).
      apply mark_cases in EY. destruct EY as [[-> ->]|[(N1 & -> & ->)|(N1 & N2 & EY)]]; cbn [sz fr pf] in *.
      * subst f. destruct (PH b k E) as (k' & A & B). exists b, k'. rewrite B. split; [exact A|]. split; [exact S|]. split; [reflexivity|]. apply M3. reflexivity.
      * destruct (i_phys K F null s H X L (w_inv _ _ _ _ W) b k E PY) as (p & kp & A & B & C & D). destruct (PH p kp A) as (kp' & A' & B'). exists p, kp'. rewrite B'.
        split; [exact A'|]. split; [exact B|]. split; [exact C|]. rewrite MO; [exact D| | |]; unfold n; lia.
      * destruct (i_phys K F null s H X L (w_inv _ _ _ _ W) y ky EY PY) as (p & kp & A & B & C & D). destruct (PH p kp A) as (kp' & A' & B'). exists p, kp'. rewrite B'.
        split; [exact A'|]. split; [exact B|]. split; [exact C|].
        pose proof (hdr_ne s H X L p kp b k W A E B). pose proof (hdr_ne s H X L p kp n kn W A EN B).
        rewrite MO; [exact D| | |]; lia.
  - exact (shape_geo H H' SH G).
  - exact (shape_pool H H' SH (w_pool _ _ _ _ W)).
  - exact (mark_flags s H X L b k kn f W E S EN).
  - intros y ky p kp EY FY EP FP AD.
    assert (HX : forall z, z <> b -> X z -> (if f then out X b else back X b) z) by (intros z N Q; destruct f; [right; exact Q|split; assumption]).
    assert (BF : f = true -> (if f then out X b else back X b) b) by (intros ->; left; reflexivity).
    apply mark_cases in EY, EP.
    destruct EP as [[-> ->]|[(N1 & -> & ->)|(N1 & N2 & EP)]]; cbn [sz fr pf] in *.
    + destruct EY as [[Q _]|[(N3 & -> & ->)|(N3 & N4 & EY)]]; cbn [sz fr pf] in *.
      * pose proof (size_pos K F null HK HF H G n kn EN). lia.
      * left. apply BF. exact FY.
      * destruct (w_coal _ _ _ _ W y ky n kn EY FY EN FP AD) as [Q|Q]; [left|right]; apply HX; assumption.
    + right. apply BF. exact FP.
    + destruct EY as [[-> ->]|[(N3 & -> & ->)|(N3 & N4 & EY)]]; cbn [sz fr pf] in *.
      * assert (SP : 12 <= sz kp) by (apply (free_size F null H G p kp EP FP)). exfalso. apply N2. apply (next_inj s H X L p b kp k W EP E SP S). exact AD.
      * left. apply BF. exact FY.
      * destruct (w_coal _ _ _ _ W y ky p kp EY FY EP FP AD) as [Q|Q]; [left|right]; apply HX; assumption.
Qed.

Lemma mark_used_iff H b k kn f u m : H b = Some k -> H (b + 4 + sz k) = Some kn -> b + 4 + sz k <> b -> u <> b -> (Used (mark H b k (b + 4 + sz k) kn f) u m <-> Used H u m).
Proof.
  intros E EN NB N. unfold Used, mark, hset. destruct (Z.eqb_spec u (b + 4 + sz k)) as [->|N2].
  - split.
    + intros (q & Q). injection Q as Q1 Q2 Q3. exists (pf kn). rewrite EN, (blk_eta kn). cbn [pf]. congruence.
    + intros (q & Q). rewrite EN in Q. injection Q as ->. exists f. reflexivity.
  - replace (u =? b) with false by lia. reflexivity.
Qed.

Ltac wrs := repeat first [rewrite wr_same | rewrite wr_other by lia].

Lemma mark_as_free_ok s H X L b k kn : WF s H X L -> H b = Some k -> fr k = false -> 12 <= sz k -> H (b + 4 + sz k) = Some kn ->
  let s' := block_mark_as_free s b in let H' := mark H b k (b + 4 + sz k) kn true in
  WF s' H' (out X b) L /\ Frame H' s s' /\ (forall u m, u <> b -> (Used H' u m <-> Used H u m)) /\ ~ (exists m, Used H' b m).
Proof.
  intros W E FR S EN s' H'. pose proof (r_range s H X L W b k E) as R. pose proof (r_range s H X L W _ kn EN) as RN.
  assert (NX : block_next s b = b + 4 + sz k) by (apply (r_next s H X L W); assumption).
  set (n := b + 4 + sz k) in *. assert (NB : n <> b) by (unfold n; lia).
  assert (M : s' = wr (wr (wr s n b) (n + 4) (word (sz kn) (fr kn) true)) (b + 4) (word (sz k) true (pf k))).
  { unfold s', block_mark_as_free, block_link_next. rewrite NX. unfold block_set_prev_free, block_set_free, rd.
    rewrite (wr_other s n b (n + 4)) by lia. rewrite (r_word s H X L W n kn EN), word_set_prev by apply RN.
    rewrite (wr_other _ (n + 4) _ (b + 4)) by lia. rewrite (wr_other s n b (b + 4)) by (unfold n; lia). rewrite (r_word s H X L W b k E), word_set_free by apply R. reflexivity. }
  assert (MO : forall a, a <> b + 4 -> a <> n + 4 -> a <> n -> mem s' a = mem s a) by (intros a A1 A2 A3; rewrite M; wrs; reflexivity).
  assert (W' : WF s' H' (out X b) L).
  { apply (wf_mark s H X L b k kn true s' W E S EN (or_introl FR)); try (rewrite M; reflexivity); try exact MO.
    - rewrite M. wrs. reflexivity.
    - rewrite M. fold n. wrs. reflexivity.
    - intros _. rewrite M. fold n. unfold n. wrs. reflexivity. }
  assert (HB : H' b = Some (Blk (sz k) true (pf k))) by (unfold H', mark; rewrite hset_other by lia; apply hset_same).
  assert (HN : H' n = Some (Blk (sz kn) (fr kn) true)) by (unfold H', mark; apply hset_same).
  split; [exact W'|]. split; [|split].
  - intros a SA. destruct (safe_apart _ _ _ _ a W' SA b _ HB) as [A1 A2]. specialize (A2 eq_refl). cbn in A2. destruct (safe_apart _ _ _ _ a W' SA n _ HN) as [A3 _]. apply MO; [exact A1|exact A3|unfold n; lia].
  - intros u m N. apply mark_used_iff; assumption.
  - intros (m & q & Q). rewrite HB in Q. discriminate.
Qed.

Lemma mark_as_used_ok s H X L b k kn : WF s H X L -> H b = Some k -> fr k = true -> X b -> H (b + 4 + sz k) = Some kn ->
  let s' := block_mark_as_used s b in let H' := mark H b k (b + 4 + sz k) kn false in
  WF s' H' (back X b) L /\ Frame H s s' /\ (forall u m, u <> b -> (Used H' u m <-> Used H u m)) /\ H' b = Some (Blk (sz k) false (pf k)).
Proof.
  intros W E FR XB EN s' H'. pose proof (r_range s H X L W b k E) as R. pose proof (r_range s H X L W _ kn EN) as RN.
  pose proof (free_size F null H (w_geo _ _ _ _ W) b k E FR) as [S _].
  assert (NX : block_next s b = b + 4 + sz k) by (apply (r_next s H X L W); assumption).
  set (n := b + 4 + sz k) in *. assert (NB : n <> b) by (unfold n; lia).
  assert (M : s' = wr (wr s (n + 4) (word (sz kn) (fr kn) false)) (b + 4) (word (sz k) false (pf k))).
  { unfold s', block_mark_as_used. rewrite NX. unfold block_set_prev_used, block_set_used, rd.
    rewrite (r_word s H X L W n kn EN), word_clr_prev by (try apply RN; change (2 ^ 32) with 4294967296 in *; change (2 ^ 31) with 2147483648 in *; lia).
    rewrite (wr_other _ (n + 4) _ (b + 4)) by lia. rewrite (r_word s H X L W b k E), word_clr_free by (try apply R; change (2 ^ 32) with 4294967296 in *; change (2 ^ 31) with 2147483648 in *; lia). reflexivity. }
  assert (MO : forall a, a <> b + 4 -> a <> n + 4 -> mem s' a = mem s a) by (intros a A1 A2; rewrite M; wrs; reflexivity).
  assert (W' : WF s' H' (back X b) L).
  { apply (wf_mark s H X L b k kn false s' W E S EN (or_intror XB)); try (rewrite M; reflexivity).
    - rewrite M. wrs. reflexivity.
    - rewrite M. fold n. wrs. reflexivity.
    - discriminate.
    - intros a A1 A2 _. apply MO; assumption. }
  assert (HB : H' b = Some (Blk (sz k) false (pf k))) by (unfold H', mark; rewrite hset_other by lia; apply hset_same).
  split; [exact W'|]. split; [|split].
  - intros a SA. destruct (safe_apart _ _ _ _ a W SA b _ E) as [A1 _]. destruct (safe_apart _ _ _ _ a W SA n _ EN) as [A3 _]. apply MO; assumption.
  - intros u m N. apply mark_used_iff; assumption.
  - exact HB.
Qed.

(** *** Absorbing the successor *)
Definition absorbH (H : heap) (p : Z) (kp : blk) (b : Z) (kb : blk) : heap := hset (hset H p (Some (Blk (sz kp + sz kb + 4) (fr kp) (pf kp)))) b None.

Lemma absorb_cases H p kp b kb x kx : absorbH H p kp b kb x = Some kx ->
  (x <> b /\ x = p /\ kx = Blk (sz kp + sz kb + 4) (fr kp) (pf kp)) \/ (x <> b /\ x <> p /\ H x = Some kx).
Proof.
  unfold absorbH. intro E. apply hset_cases in E. destruct E as [[_ E]|[N E]]; [discriminate|]. apply hset_cases in E.
  destruct E as [[-> E]|[N2 E]]; [left|right]; repeat split; try assumption. congruence.
Qed.
Lemma absorb_other H p kp b kb x : x <> b -> x <> p -> absorbH H p kp b kb x = H x.
Proof. intros A B. unfold absorbH. rewrite !hset_other by assumption. reflexivity. Qed.
Lemma absorb_at H p kp b kb : p <> b -> absorbH H p kp b kb p = Some (Blk (sz kp + sz kb + 4) (fr kp) (pf kp)).
Proof. intro N. unfold absorbH. rewrite hset_other by exact N. apply hset_same. Qed.

Lemma same_pool m n m' n' a : In (m, n) P -> In (m', n') P -> m <= a < m + n + 8 -> m' <= a < m' + n' + 8 -> m = m' /\ n = n'.
Proof. intros I I' A A'. destruct (HD m n m' n' I I') as [Q|Q]; [injection Q as -> ->; split; reflexivity|lia]. Qed.

Lemma absorb_bound H p kp b kb : Geo F null H -> Pool H -> H p = Some kp -> 12 <= sz kp -> p + 4 + sz kp = b -> H b = Some kb -> 12 <= sz kb ->
  exists m n, In (m, n) P /\ m <= p + 4 /\ b + 4 + sz kb <= m + n.
Proof.
  intros G Q EP SP AD EB SB. destruct (q_in H Q p kp EP) as (m & n & I & M & [C|[_ C]]); [lia|]. destruct (q_in H Q b kb EB) as (m' & n' & I' & M' & [C'|[_ C']]); [lia|].
  destruct (same_pool m n m' n' (b + 4) I I') as [<- <-]; [lia|lia|]. exists m, n. split; [exact I|]. split; [exact M|exact C'].
Qed.

Lemma geo_absorb H p kp b kb : Geo F null H -> Pool H -> H p = Some kp -> 12 <= sz kp -> p + 4 + sz kp = b -> H b = Some kb -> 12 <= sz kb ->
  Geo F null (absorbH H p kp b kb) /\ Pool (absorbH H p kp b kb).
Proof.
  intros G Q EP SP AD EB SB. destruct (absorb_bound H p kp b kb G Q EP SP AD EB SB) as (m & n & I & M1 & M2). destruct (HP m n I) as [B1 B2].
  assert (PB : p <> b) by lia.
  pose proof (g_align F null H G p kp EP) as [AP1 AP2]. pose proof (g_align F null H G b kb EB) as [AB1 AB2].
  pose proof (g_range F null H G p kp EP) as [RP1 RP2]. pose proof (g_range F null H G b kb EB) as [RB1 RB2].
  split; constructor.
  - intros x kx E. apply absorb_cases in E. destruct E as [(N & -> & ->)|(N & N2 & E)]; [cbn; lia|apply (g_range F null H G x kx E)].
  - intros x kx E. apply absorb_cases in E. destruct E as [(N & -> & ->)|(N & N2 & E)]; [cbn; split; [exact AP1|lia]|apply (g_align F null H G x kx E)].
  - intros x kx E. apply absorb_cases in E. destruct E as [(N & -> & ->)|(N & N2 & E)]; [cbn; right; lia|apply (g_size F null H G x kx E)].
  - intros x kx E S. apply absorb_cases in E. destruct E as [(N & -> & ->)|(N & N2 & E)].
    + cbn. destruct (g_next F null H G b kb EB ltac:(lia)) as (kn & EN). exists kn. rewrite absorb_other by lia. rewrite <- EN. f_equal. lia.
    + assert (S12 : 12 <= sz kx) by (destruct (g_size F null H G x kx E) as [[A _]|A]; lia).
      destruct (g_next F null H G x kx E S) as (kn & EN).
      assert (NXB : x + 4 + sz kx <> b). { intro C. pose proof (g_disj F null H G x p kx kp E EP N2). lia. }
      destruct (Z.eq_dec (x + 4 + sz kx) p) as [->|NP]; [eexists; apply absorb_at; exact PB|]. exists kn. rewrite absorb_other by assumption. exact EN.
  - intros x y kx ky EX EY N. apply absorb_cases in EX, EY.
    destruct EX as [(N1 & -> & ->)|(N1 & N2 & EX)]; destruct EY as [(N3 & -> & ->)|(N3 & N4 & EY)]; cbn [sz].
    + contradiction.
    + pose proof (g_disj F null H G p y kp ky EP EY ltac:(congruence)). pose proof (g_disj F null H G b y kb ky EB EY ltac:(congruence)). pose proof (size_pos K F null HK HF H G y ky EY). lia.
    + pose proof (g_disj F null H G p x kp kx EP EX ltac:(congruence)). pose proof (g_disj F null H G b x kb kx EB EX ltac:(congruence)). pose proof (size_pos K F null HK HF H G x kx EX). lia.
    + apply (g_disj F null H G); assumption.
  - intros x kx E. apply absorb_cases in E. destruct E as [(N & -> & ->)|(N & N2 & E)]; [|apply (g_null F null H G x kx E)].
    cbn. pose proof (g_null F null H G p kp EP). pose proof (g_null F null H G b kb EB). lia.
  - intros x kx E. apply absorb_cases in E. destruct E as [(N & -> & ->)|(N & N2 & E)]; [|apply (q_in H Q x kx E)].
    exists m, n. split; [exact I|]. split; [exact M1|]. right. cbn. lia.
  - intros m' n' I'. destruct (q_first H Q m' n' I') as (k & E & S).
    assert (NB : m' - 4 <> b).
    { intro C. assert (S' : 12 <= sz kb) by exact SB. destruct (q_in H Q (m' - 4) k E) as (m2 & n2 & I2 & M2' & C2). rewrite C in *.
      pose proof (HP m' n' I') as [B1' _]. destruct (same_pool m n m' n' m' I I') as [<- <-]; [lia|lia|]. lia. }
    destruct (Z.eq_dec (m' - 4) p) as [->|NP]; [eexists; split; [apply absorb_at; exact PB|cbn; lia]|]. exists k. rewrite absorb_other by assumption. split; assumption.
  - intros m' n' I'. destruct (q_last H Q m' n' I') as (k & E & S).
    assert (m' + n' <> b) by (intro C; rewrite C in E; assert (k = kb) by congruence; subst; lia).
    assert (m' + n' <> p) by (intro C; rewrite C in E; assert (k = kp) by congruence; subst; lia).
    exists k. rewrite absorb_other by assumption. split; assumption.
Qed.

Lemma absorb_keep H p kp b kb : H p = Some kp -> fr kp = true -> H b = Some kb -> fr kb = true -> p <> b -> KeepAll H (absorbH H p kp b kb).
Proof.
  intros EP FP EB FB N u m. unfold Used. split; intros (q & Q).
  - exists q. rewrite absorb_other; [exact Q| |]; intros ->; [rewrite EB in Q; injection Q as ->|rewrite EP in Q; injection Q as ->]; discriminate.
  - apply absorb_cases in Q. destruct Q as [(_ & -> & Q)|(_ & _ & Q)]; [injection Q as _ Q _; congruence|]. exists q. exact Q.
Qed.

Lemma absorb_mem s H X L p kp b kb : WF s H X L -> H p = Some kp -> 12 <= sz kp -> p + 4 + sz kp = b -> H b = Some kb -> 12 <= sz kb ->
  block_absorb s p b = wr (wr s (p + 4) (word (sz kp + sz kb + 4) (fr kp) (pf kp))) (b + 4 + sz kb) p.
Proof.
  intros W EP SP AD EB SB. destruct (absorb_bound H p kp b kb (w_geo _ _ _ _ W) (w_pool _ _ _ _ W) EP SP AD EB SB) as (m & n & I & M1 & M2). destruct (HP m n I) as [B1 B2].
  pose proof (r_range s H X L W p kp EP) as RP. pose proof (r_range s H X L W b kb EB) as RB.
  assert (PF : 2 ^ F < 2 ^ 31) by (apply Z.pow_lt_mono_r; lia). change (2 ^ 31) with 2147483648 in *. change (2 ^ 32) with 4294967296 in *.
  unfold block_absorb, rd. rewrite (r_size s H X L W b kb EB), (r_word s H X L W p kp EP).
  rewrite (u32_id (sz kb + 4)) by (change (2 ^ 32) with 4294967296; lia).
  assert (WB : 0 <= word (sz kp + (sz kb + 4)) (fr kp) (pf kp) < 2 ^ 32) by (unfold word; change (2 ^ 32) with 4294967296; destruct (fr kp), (pf kp); cbn; lia).
  rewrite word_grow, u32_id by exact WB. replace (sz kp + (sz kb + 4)) with (sz kp + sz kb + 4) by ring.
  unfold block_link_next, fst. f_equal. unfold block_next, offset_to_block, block_to_ptr, block_size, rd. rewrite wr_same, word_size by (change (2 ^ 32) with 4294967296; lia).
  rewrite (u32_id (p + 8)), (u32_id (sz kp + sz kb + 4 - 4)) by (change (2 ^ 32) with 4294967296; lia). rewrite u32_id; [lia|]. change (2 ^ 32) with 4294967296. lia.
Qed.

Lemma wf_absorb s H X L p kp b kb : WF s H X L -> H p = Some kp -> fr kp = true -> X p -> p + 4 + sz kp = b -> H b = Some kb -> fr kb = true -> X b ->
  let s' := block_absorb s p b in let H' := absorbH H p kp b kb in
  WF s' H' X L /\ KeepAll H H' /\ Frame H s s'.
Proof.
  intros W EP FP XP AD EB FB XB s' H'. pose proof (w_geo _ _ _ _ W) as G.
  pose proof (free_size F null H G p kp EP FP) as [SP _]. pose proof (free_size F null H G b kb EB FB) as [SB _].
  assert (PB : p <> b) by lia.
  pose proof (absorb_mem s H X L p kp b kb W EP SP AD EB SB) as M. fold s' in M. set (n := b + 4 + sz kb) in *.
  assert (MO : forall a, a <> p + 4 -> a <> n -> mem s' a = mem s a) by (intros a A1 A2; rewrite M; wrs; reflexivity).
  destruct (geo_absorb H p kp b kb G (w_pool _ _ _ _ W) EP SP AD EB SB) as [G' Q'].
  assert (KE : KeepAll H H') by (apply absorb_keep; assumption).
  destruct (r_next_in s H X L W b kb EB SB) as (kn & EN). fold n in EN.
  split; [|split; [exact KE|]].
  2:{ intros a SA. destruct (safe_apart _ _ _ _ a W SA p _ EP) as [A1 _]. destruct (safe_apart _ _ _ _ a W SA b _ EB) as [_ A2]. specialize (A2 FB). apply MO; [exact A1|unfold n; lia]. }
  constructor; [|exact G'|exact Q'| |].
  - apply (inv_headers K F null s s' H H' X X L (w_inv _ _ _ _ W)); try (rewrite M; reflexivity).
    + intros y i j LI. pose proof (listed_node K null H X y i j LI) as ND. destruct (node_header K F null HK HF H G y p kp ND EP). destruct (node_last F null H G y b kb ND EB SB). unfold n in *.
      split; apply MO; lia.
    + intros y i j. unfold listed. split.
      * intros (ky & EY & FY & XY & MM). apply absorb_cases in EY. destruct EY as [(_ & -> & _)|(N1 & N2 & EY)]; [contradiction|]. exists ky. auto.
      * intros (ky & EY & FY & XY & MM). exists ky. split; [|auto]. unfold H'. rewrite absorb_other; [exact EY| |]; intros ->; contradiction.
    + intros y ky EY. apply absorb_cases in EY. destruct EY as [(_ & -> & ->)|(N1 & N2 & EY)]; cbn [sz fr pf].
      * rewrite M. unfold n. wrs. reflexivity.
      * pose proof (hdr_ne s H X L b kb y ky W EB EY SB). rewrite MO by (unfold n; lia). apply (r_word s H X L W y ky EY).
    + intros y ky EY PY. apply absorb_cases in EY. destruct EY as [(_ & -> & ->)|(N1 & N2 & EY)]; cbn [sz fr pf] in *.
      * destruct (i_phys K F null s H X L (w_inv _ _ _ _ W) p kp EP PY) as (q & kq & A & B & C & D). exists q, kq.
        split; [unfold H'; rewrite absorb_other by lia; exact A|]. split; [exact B|]. split; [exact C|]. rewrite MO by (unfold n; lia). exact D.
      * destruct (Z.eq_dec y n) as [->|YN].
        -- exists p, (Blk (sz kp + sz kb + 4) (fr kp) (pf kp)). split; [apply absorb_at; exact PB|]. cbn [sz]. split; [lia|]. split; [unfold n; lia|]. rewrite M. wrs. reflexivity.
        -- destruct (i_phys K F null s H X L (w_inv _ _ _ _ W) y ky EY PY) as (q & kq & A & B & C & D).
           assert (QB : q <> b) by (intros ->; assert (kq = kb) by congruence; subst kq; unfold n in YN; lia).
           assert (QP : q <> p) by (intros ->; assert (kq = kp) by congruence; subst kq; lia).
           exists q, kq. split; [unfold H'; rewrite absorb_other by assumption; exact A|]. split; [exact B|]. split; [exact C|].
           pose proof (hdr_ne s H X L q kq p kp W A EP B). rewrite MO by lia. exact D.
  - intros x kx k' EX SX EX'. apply absorb_cases in EX, EX'.
    destruct EX as [(N1 & -> & ->)|(N1 & N2 & EX)]; cbn [sz fr pf] in *.
    + destruct EX' as [(N3 & C & _)|(N3 & N4 & EX')]; [lia|]. rewrite FP, <- FB. apply (w_flags _ _ _ _ W b kb k' EB ltac:(lia)). rewrite <- EX'. f_equal. lia.
    + destruct EX' as [(N3 & C & ->)|(N3 & N4 & EX')]; cbn [sz fr pf].
      * apply (w_flags _ _ _ _ W x kx kp EX SX). rewrite C. exact EP.
      * apply (w_flags _ _ _ _ W x kx k' EX SX EX').
  - intros y ky q kq EY FY EQ FQ ADJ. apply absorb_cases in EY, EQ.
    destruct EY as [(N1 & -> & ->)|(N1 & N2 & EY)]; [left; exact XP|]. destruct EQ as [(N3 & -> & ->)|(N3 & N4 & EQ)]; [right; exact XP|].
    apply (w_coal _ _ _ _ W y ky q kq); assumption.
Qed.

(** *** Splitting *)
Definition splitH (H : heap) (b : Z) (k : blk) (size : Z) (n : Z) (kn : blk) : heap :=
  hset (hset (hset H b (Some (Blk size (fr k) (pf k)))) (b + 4 + size) (Some (Blk (sz k - size - 4) true (fr k)))) n (Some (Blk (sz kn) (fr kn) true)).

Section Split.
Variables (s : st) (H : heap) (X : Z -> Prop) (L : Z -> Z -> list Z) (b : Z) (k : blk) (size : Z) (kn : blk).
Hypothesis W : WF s H X L.
Hypothesis E : H b = Some k.
Hypothesis S1 : 12 <= size.
Hypothesis S2 : size + 16 <= sz k.
Hypothesis S3 : size mod 4 = 0.
Let r := b + 4 + size.
Let n := b + 4 + sz k.
Hypothesis EN : H n = Some kn.
Let H' := splitH H b k size n kn.

Lemma split_r_none : H r = None.
Proof.
  destruct (H r) as [kr|] eqn:Q; [|reflexivity]. exfalso. assert (N : b <> r) by (unfold r; lia).
  pose proof (g_disj F null H (w_geo _ _ _ _ W) b r k kr E Q N). pose proof (size_pos K F null HK HF H (w_geo _ _ _ _ W) r kr Q). unfold r in *. lia.
Qed.
Lemma split_cases x kx : H' x = Some kx -> (x = n /\ kx = Blk (sz kn) (fr kn) true) \/ (x = r /\ kx = Blk (sz k - size - 4) true (fr k)) \/
  (x = b /\ kx = Blk size (fr k) (pf k)) \/ (x <> n /\ x <> r /\ x <> b /\ H x = Some kx).
Proof.
  unfold H', splitH. intro Q. apply hset_cases in Q. destruct Q as [[-> Q]|[N1 Q]]; [left; split; [reflexivity|congruence]|].
  apply hset_cases in Q. destruct Q as [[-> Q]|[N2 Q]]; [right; left; split; [reflexivity|congruence]|].
  apply hset_cases in Q. destruct Q as [[-> Q]|[N3 Q]]; [right; right; left; split; [reflexivity|congruence]|]. right; right; right. auto.
Qed.
Lemma split_at_n : H' n = Some (Blk (sz kn) (fr kn) true). Proof. unfold H', splitH. apply hset_same. Qed.
Lemma split_at_r : H' r = Some (Blk (sz k - size - 4) true (fr k)).
Proof. unfold H', splitH. rewrite hset_other by (unfold r, n; lia). apply hset_same. Qed.
Lemma split_at_b : H' b = Some (Blk size (fr k) (pf k)).
Proof. unfold H', splitH. rewrite hset_other by (unfold n; lia). rewrite hset_other by lia. apply hset_same. Qed.
Lemma split_other x : x <> n -> x <> r -> x <> b -> H' x = H x.
Proof. intros A B C. unfold H', splitH. rewrite !hset_other by assumption. reflexivity. Qed.

Lemma split_geo : Geo F null H'.
Proof.
  pose proof (w_geo _ _ _ _ W) as G. pose proof (g_range F null H G b k E) as RB. pose proof (g_align F null H G b k E) as AB. pose proof (g_range F null H G n kn EN) as RN. pose proof (g_align F null H G n kn EN) as AN.
  assert (SB : sz k < 2 ^ F) by (pose proof (size_pos K F null HK HF H G b k E); lia).
  constructor.
  - intros x kx Q. apply split_cases in Q. destruct Q as [[-> ->]|[[-> ->]|[[-> ->]|(N1 & N2 & N3 & Q)]]]; cbn; [exact RN|unfold r; lia|lia|apply (g_range F null H G x kx Q)].
  - intros x kx Q. apply split_cases in Q. destruct Q as [[-> ->]|[[-> ->]|[[-> ->]|(N1 & N2 & N3 & Q)]]]; cbn; [exact AN|unfold r; clear - AB S3; lia|clear - AB S3; lia|apply (g_align F null H G x kx Q)].
  - intros x kx Q. apply split_cases in Q. destruct Q as [[-> ->]|[[-> ->]|[[-> ->]|(N1 & N2 & N3 & Q)]]]; cbn; [apply (g_size F null H G n kn EN)|right; lia|right; lia|apply (g_size F null H G x kx Q)].
  - assert (DOM : forall x kx, H x = Some kx -> exists kx', H' x = Some kx').
    { intros x kx Q. destruct (Z.eq_dec x n) as [->|N1]; [eexists; apply split_at_n|]. destruct (Z.eq_dec x b) as [->|N3]; [eexists; apply split_at_b|].
      destruct (Z.eq_dec x r) as [->|N2]; [rewrite split_r_none in Q; discriminate|]. exists kx. rewrite split_other by assumption. exact Q. }
    intros x kx Q SX. apply split_cases in Q. destruct Q as [[-> ->]|[[-> ->]|[[-> ->]|(N1 & N2 & N3 & Q)]]]; cbn [sz] in *.
    + destruct (g_next F null H G n kn EN SX) as (kx & EX). apply (DOM _ kx EX).
    + exists (Blk (sz kn) (fr kn) true). replace (r + 4 + (sz k - size - 4)) with n by (unfold r, n; ring). apply split_at_n.
    + eexists. apply split_at_r.
    + destruct (g_next F null H G x kx Q SX) as (kx' & EX). apply (DOM _ kx' EX).
  - assert (OLD : forall x kx, H' x = Some kx -> (x = r \/ x = b) \/ (x <> r /\ x <> b /\ exists q, H x = Some (Blk (sz kx) (fr kx) q))).
    { intros x kx Q. apply split_cases in Q. destruct Q as [[-> ->]|[[-> ->]|[[-> ->]|(N1 & N2 & N3 & Q)]]]; [|left; left; reflexivity|left; right; reflexivity|].
      - right. split; [unfold n, r; lia|]. split; [unfold n; lia|]. exists (pf kn). rewrite EN. destruct kn; reflexivity.
      - right. split; [exact N2|]. split; [exact N3|]. exists (pf kx). rewrite Q. destruct kx; reflexivity. }
    assert (FAR : forall x kx, x <> b -> H x = Some kx -> x + 8 + sz kx <= b + 4 \/ b + 8 + sz k <= x + 4).
    { intros x kx N Q. pose proof (g_disj F null H G b x k kx E Q ltac:(congruence)). lia. }
    intros x y kx ky QX QY N.
    pose proof (OLD x kx QX) as OX. pose proof (OLD y ky QY) as OY.
    destruct OX as [[->| ->]|(NX1 & NX2 & qx & OX)]; destruct OY as [[->| ->]|(NY1 & NY2 & qy & OY)]; rewrite ?split_at_r, ?split_at_b in *; try congruence.
    + injection QX as <-. injection QY as <-. cbn. unfold r. lia.
    + injection QX as <-. cbn. specialize (FAR y _ NY2 OY). cbn in FAR. unfold r. lia.
    + injection QX as <-. injection QY as <-. cbn. unfold r. lia.
    + injection QX as <-. cbn. specialize (FAR y _ NY2 OY). cbn in FAR. lia.
    + injection QY as <-. cbn. specialize (FAR x _ NX2 OX). cbn in FAR. unfold r. lia.
    + injection QY as <-. cbn. specialize (FAR x _ NX2 OX). cbn in FAR. lia.
    + apply (g_disj F null H G x y _ _ OX OY N).
  - pose proof (g_null F null H G b k E) as NB. intros x kx Q. apply split_cases in Q. destruct Q as [[-> ->]|[[-> ->]|[[-> ->]|(N1 & N2 & N3 & Q)]]]; cbn; [apply (g_null F null H G n kn EN)|unfold r; lia|lia|apply (g_null F null H G x kx Q)].
Qed.

Lemma split_pool : Pool H'.
Proof.
  pose proof (w_pool _ _ _ _ W) as Q. destruct (q_in H Q b k E) as (m & w & I & M & [C|[_ C]]); [lia|].
  constructor.
  - intros x kx QX. apply split_cases in QX. destruct QX as [[-> ->]|[[-> ->]|[[-> ->]|(N1 & N2 & N3 & QX)]]]; cbn [sz].
    + apply (q_in H Q n kn EN).
    + exists m, w. split; [exact I|]. unfold r. split; [lia|]. right. lia.
    + exists m, w. split; [exact I|]. split; [lia|]. right. lia.
    + apply (q_in H Q x kx QX).
  - intros m' w' I'. destruct (q_first H Q m' w' I') as (k1 & E1 & A1). destruct (Z.eq_dec (m' - 4) n) as [C1|N1].
    + rewrite C1 in *. exists (Blk (sz kn) (fr kn) true). split; [apply split_at_n|]. cbn. congruence.
    + destruct (Z.eq_dec (m' - 4) b) as [C2|N2]; [rewrite C2; eexists; split; [apply split_at_b|exact S1]|].
      destruct (Z.eq_dec (m' - 4) r) as [C3|N3]; [rewrite C3, split_r_none in E1; discriminate|]. exists k1. rewrite split_other by assumption. split; assumption.
  - intros m' w' I'. destruct (q_last H Q m' w' I') as (k1 & E1 & A1). destruct (Z.eq_dec (m' + w') n) as [C1|N1].
    + rewrite C1 in *. exists (Blk (sz kn) (fr kn) true). split; [apply split_at_n|]. cbn. congruence.
    + destruct (Z.eq_dec (m' + w') b) as [C2|N2]; [rewrite C2 in E1; assert (k1 = k) by congruence; subst; lia|].
      destruct (Z.eq_dec (m' + w') r) as [C3|N3]; [rewrite C3, split_r_none in E1; discriminate|]. exists k1. rewrite split_other by assumption. split; assumption.
Qed.

Lemma split_flags : Flags H'.
Proof.
  pose proof (w_geo _ _ _ _ W) as G. assert (SK : 12 <= sz k) by lia.
  assert (NR : forall x kx, H x = Some kx -> 0 < sz kx -> x + 4 + sz kx <> r).
  { intros x kx Q SX C. destruct (g_next F null H G x kx Q SX) as (k1 & E1). rewrite C, split_r_none in E1. discriminate. }
  intros x kx k' QX SX QX'. apply split_cases in QX, QX'.
  destruct QX as [[-> ->]|[[-> ->]|[[-> ->]|(N1 & N2 & N3 & QX)]]]; cbn [sz fr pf] in *.
  - destruct QX' as [[C ->]|[[C ->]|[[C ->]|(N4 & N5 & N6 & QX')]]]; cbn [pf].
    + lia.
    + exfalso. exact (NR n kn EN SX C).
    + exfalso. pose proof (g_disj F null H G b n k kn E EN ltac:(unfold n; lia)). unfold n in *. lia.
    + apply (w_flags _ _ _ _ W n kn k' EN SX QX').
  - destruct QX' as [[C ->]|[[C ->]|[[C ->]|(N4 & N5 & N6 & QX')]]]; cbn [pf]; unfold n, r in *; try lia; try reflexivity.
  - destruct QX' as [[C ->]|[[C ->]|[[C ->]|(N4 & N5 & N6 & QX')]]]; cbn [pf]; unfold n, r in *; try lia. reflexivity.
  - assert (SX12 : 12 <= sz kx) by (destruct (g_size F null H G x kx QX) as [[A _]|A]; lia).
    destruct QX' as [[C ->]|[[C ->]|[[C ->]|(N4 & N5 & N6 & QX')]]]; cbn [pf].
    + exfalso. apply N3. apply (next_inj s H X L x b kx k W QX E SX12 SK). exact C.
    + exfalso. exact (NR x kx QX SX C).
    + apply (w_flags _ _ _ _ W x kx k QX SX). rewrite C. exact E.
    + apply (w_flags _ _ _ _ W x kx k' QX SX QX').
Qed.

Lemma wf_split s' : (fr k = false \/ X b) ->
  flb s' = flb s -> slb s' = slb s -> heads s' = heads s ->
  mem s' (b + 4) = word size (fr k) (pf k) -> mem s' (r + 4) = word (sz k - size - 4) true (fr k) -> mem s' (n + 4) = word (sz kn) (fr kn) true -> mem s' n = r ->
  (fr k = true -> mem s' r = b) ->
  (forall a, a <> b + 4 -> a <> r + 4 -> a <> n + 4 -> a <> n -> a <> r -> mem s' a = mem s a) ->
  WF s' H' (out X r) L.
Proof.
  intros UX E1 E2 E3 M1 M2 M3 M4 M5 MO. pose proof (w_geo _ _ _ _ W) as G. assert (SK : 12 <= sz k) by lia.
  assert (FAR : forall x kx, x <> b -> H x = Some kx -> x + 8 + sz kx <= b + 4 \/ b + 8 + sz k <= x + 4).
  { intros x kx N Q. pose proof (g_disj F null H G b x k kx E Q ltac:(congruence)). lia. }
  constructor; [|exact split_geo|exact split_pool|exact split_flags|].
  - apply (inv_headers K F null s s' H H' X _ L (w_inv _ _ _ _ W) E1 E2 E3).
    + intros y i j LI. pose proof (listed_node K null H X y i j LI) as ND. destruct LI as (ky & EY & FY & XY & _).
      assert (YB : y <> b) by (intros ->; assert (ky = k) by congruence; subst ky; destruct UX; [congruence|contradiction]).
      pose proof (FAR y ky YB EY) as FA. pose proof (free_size F null H G y ky EY FY).
      destruct (node_header K F null HK HF H G y n kn ND EN). split; apply MO; unfold r, n in *; lia.
    + intros y i j. unfold listed. split.
      * intros (ky & EY & FY & XY & M). apply split_cases in EY. destruct EY as [[-> ->]|[[-> ->]|[[-> ->]|(N1 & N2 & N3 & EY)]]]; cbn [sz fr pf] in *.
        -- exists kn. split; [exact EN|]. split; [exact FY|]. split; [|exact M]. intro Q. apply XY. right. exact Q.
        -- exfalso. apply XY. left. reflexivity.
        -- exfalso. destruct UX as [U|U]; [congruence|]. apply XY. right. exact U.
        -- exists ky. split; [exact EY|]. split; [exact FY|]. split; [|exact M]. intro Q. apply XY. right. exact Q.
      * intros (ky & EY & FY & XY & M).
        assert (YB : y <> b) by (intros ->; assert (ky = k) by congruence; subst ky; destruct UX; [congruence|contradiction]).
        assert (YR : y <> r) by (intros ->; rewrite split_r_none in EY; discriminate).
        assert (XY' : ~ out X r y) by (intros [Q|Q]; contradiction).
        destruct (Z.eq_dec y n) as [->|YN].
        -- assert (ky = kn) by congruence. subst ky. exists (Blk (sz kn) (fr kn) true). split; [apply split_at_n|]. cbn. auto.
        -- exists ky. rewrite split_other by assumption. auto.
    + intros y ky EY. apply split_cases in EY. destruct EY as [[-> ->]|[[-> ->]|[[-> ->]|(N1 & N2 & N3 & EY)]]]; cbn [sz fr pf]; try assumption.
      pose proof (FAR y ky N3 EY) as FA. pose proof (size_pos K F null HK HF H G y ky EY).
      rewrite MO by (unfold r, n in *; lia). apply (r_word s H X L W y ky EY).
    + intros y ky EY PY. apply split_cases in EY.
      assert (PH : forall p kp, H p = Some kp -> p <> b -> exists kp', H' p = Some kp' /\ sz kp' = sz kp).
      { intros p kp Q N. destruct (Z.eq_dec p n) as [->|N1]; [eexists; split; [apply split_at_n|]; cbn; congruence|].
        destruct (Z.eq_dec p r) as [->|N2]; [rewrite split_r_none in Q; discriminate|]. exists kp. rewrite split_other by assumption. auto. }
      assert (OLD : forall ky', H y = Some ky' -> pf ky' = true -> y <> n -> exists p kp, H' p = Some kp /\ 12 <= sz kp /\ p + 4 + sz kp = y /\ mem s' y = p).
      { intros ky' EY' PY' YN. destruct (i_phys K F null s H X L (w_inv _ _ _ _ W) y ky' EY' PY') as (p & kp & A & B & C & D).
        assert (PB : p <> b) by (intros ->; assert (kp = k) by congruence; subst kp; unfold n in YN; lia).
        destruct (PH p kp A PB) as (kp' & A' & B'). exists p, kp'. rewrite B'. split; [exact A'|]. split; [exact B|]. split; [exact C|].
        pose proof (FAR p kp PB A) as T1. pose proof (hdr_ne s H X L p kp n kn W A EN B) as T2.
        assert (T : y <> b + 4 /\ y <> r + 4 /\ y <> n + 4 /\ y <> r) by (clear - T1 T2 B C S1 S2; unfold r, n in *; lia).
        rewrite MO by tauto. exact D. }
      destruct EY as [[-> ->]|[[-> ->]|[[-> ->]|(N1 & N2 & N3 & EY)]]]; cbn [sz fr pf] in *.
      * exists r, (Blk (sz k - size - 4) true (fr k)). split; [apply split_at_r|]. cbn. split; [lia|]. split; [unfold r, n; lia|exact M4].
      * exists b, (Blk size (fr k) (pf k)). split; [apply split_at_b|]. cbn. split; [exact S1|]. split; [reflexivity|apply M5; exact PY].
      * apply (OLD k E PY). unfold n. lia.
      * apply (OLD ky EY PY N1).
  - intros y ky p kp EY FY EP FP AD. apply split_cases in EY, EP.
    destruct EY as [[-> ->]|[[-> ->]|[[-> ->]|(N1 & N2 & N3 & EY)]]]; cbn [sz fr pf] in *.
    + destruct EP as [[-> ->]|[[-> ->]|[[-> ->]|(N4 & N5 & N6 & EP)]]]; cbn [sz fr pf] in *.
      * pose proof (size_pos K F null HK HF H G n kn EN). lia.
      * right. left. reflexivity.
      * unfold n in *. lia.
      * exfalso. apply N6. apply (next_inj s H X L p b kp k W EP E); [apply (free_size F null H G p kp EP FP)|exact SK|exact AD].
    + left. left. reflexivity.
    + left. right. destruct UX; [congruence|assumption].
    + destruct EP as [[-> ->]|[[-> ->]|[[-> ->]|(N4 & N5 & N6 & EP)]]]; cbn [sz fr pf] in *.
      * destruct (w_coal _ _ _ _ W y ky n kn EY FY EN FP AD) as [Q|Q]; [left|right]; right; exact Q.
      * right. left. reflexivity.
      * unfold r in N2. lia.
      * destruct (w_coal _ _ _ _ W y ky p kp EY FY EP FP AD) as [Q|Q]; [left|right]; right; exact Q.
Qed.

Lemma split_used u m : u <> b -> (Used H' u m <-> Used H u m).
Proof.
  intro N. unfold Used. split; intros (q & Q).
  - apply split_cases in Q. destruct Q as [[-> Q]|[[-> Q]|[[-> Q]|(N1 & N2 & N3 & Q)]]]; [|discriminate|contradiction|exists q; exact Q].
    injection Q as Q1 Q2 Q3. exists (pf kn). rewrite EN, (blk_eta kn). cbn [pf]. congruence.
  - destruct (Z.eq_dec u n) as [->|N1].
    + rewrite EN in Q. injection Q as Q. exists true. rewrite split_at_n, Q. reflexivity.
    + destruct (Z.eq_dec u r) as [->|N2]; [rewrite split_r_none in Q; discriminate|]. exists q. rewrite split_other by assumption. exact Q.
Qed.

(* the memory after block_split *)
Lemma split_eq : exists f0 q, block_split s b size =
  (wr (wr (wr (wr (wr s (r + 4) (word (sz k - size - 4) f0 q)) (b + 4) (word size (fr k) (pf k))) n r) (n + 4) (word (sz kn) (fr kn) true)) (r + 4) (word (sz k - size - 4) true q), r).
Proof.
  pose proof (r_range s H X L W b k E) as R. pose proof (r_range s H X L W _ kn EN) as RN. change (2 ^ 31) with 2147483648 in *. change (2 ^ 32) with 4294967296 in *.
  unfold block_split, offset_to_block, block_to_ptr. rewrite (r_size s H X L W b k E).
  rewrite (u32_id (b + 8)), (u32_id (size - 4)), (u32_id (size + 4)) by (change (2 ^ 32) with 4294967296; lia).
  rewrite (u32_id (b + 8 + (size - 4))), (u32_id (sz k - (size + 4))) by (change (2 ^ 32) with 4294967296; lia).
  replace (b + 8 + (size - 4)) with r by (unfold r; ring). replace (sz k - (size + 4)) with (sz k - size - 4) by ring.
  assert (RS : (sz k - size - 4) mod 4 = 0) by (clear - S3 R; lia).
  unfold block_set_size at 2, rd. destruct (word_junk_size (mem s (r + 4)) (sz k - size - 4) RS) as (f0 & q & ->). exists f0, q.
  set (s1 := wr s (r + 4) _). unfold block_set_size, rd.
  replace (mem s1 (b + 4)) with (word (sz k) (fr k) (pf k)) by (unfold s1; rewrite wr_other by (unfold r; lia); symmetry; apply (r_word s H X L W b k E)).
  rewrite word_new_size by (try exact S3; apply R). set (s2 := wr s1 (b + 4) _).
  assert (R1 : mem s2 (r + 4) = word (sz k - size - 4) f0 q) by (unfold s2, s1; rewrite wr_other by (unfold r; lia); apply wr_same).
  assert (NXT : block_next s2 r = n).
  { unfold block_next, offset_to_block, block_to_ptr, block_size, rd. rewrite R1, word_size by (try exact RS; change (2 ^ 32) with 4294967296; lia).
    rewrite (u32_id (r + 8)), (u32_id (sz k - size - 4 - 4)) by (change (2 ^ 32) with 4294967296; unfold r; lia). rewrite u32_id; [unfold r, n; ring|]. change (2 ^ 32) with 4294967296. unfold r. lia. }
  unfold block_mark_as_free, block_link_next. rewrite NXT. unfold block_set_prev_free, block_set_free, rd.
  assert (NN : n <> r /\ n <> b /\ n <> r + 4 /\ n <> b + 4 /\ r <> b /\ r + 4 <> b + 4) by (unfold n, r; lia).
  replace (mem (wr s2 n r) (n + 4)) with (word (sz kn) (fr kn) (pf kn)).
  2:{ rewrite wr_other by lia. unfold s2, s1. rewrite !wr_other by lia. symmetry. apply (r_word s H X L W n kn EN). }
  rewrite word_set_prev by apply RN. set (s3 := wr (wr s2 n r) (n + 4) _).
  replace (mem s3 (r + 4)) with (word (sz k - size - 4) f0 q) by (unfold s3; rewrite !wr_other by lia; symmetry; exact R1).
  rewrite word_set_free by exact RS.
  unfold s3, s2, s1. reflexivity.
Qed.
Lemma split_mem : snd (block_split s b size) = r /\ exists q,
  let s1 := fst (block_split s b size) in flb s1 = flb s /\ slb s1 = slb s /\ heads s1 = heads s /\
  mem s1 (b + 4) = word size (fr k) (pf k) /\ mem s1 (r + 4) = word (sz k - size - 4) true q /\ mem s1 (n + 4) = word (sz kn) (fr kn) true /\ mem s1 n = r /\
  (forall a, a <> b + 4 -> a <> r + 4 -> a <> n + 4 -> a <> n -> mem s1 a = mem s a).
Proof.
  destruct split_eq as (f0 & q & ->). cbn [fst snd]. split; [reflexivity|]. exists q. cbn zeta. split; [reflexivity|]. split; [reflexivity|]. split; [reflexivity|].
  assert (NN : n <> r /\ n <> b /\ n <> r + 4 /\ n <> b + 4 /\ r <> b /\ r + 4 <> b + 4) by (unfold n, r; lia). clear - NN.
  split; [wrs; reflexivity|]. split; [wrs; reflexivity|]. split; [wrs; reflexivity|]. split; [wrs; reflexivity|]. intros a A1 A2 A3 A4. wrs. reflexivity.
Qed.
End Split.

(** *** Composite steps *)
Ltac wrl NN := repeat first [rewrite wr_same | rewrite wr_other by (clear - NN; lia)].
Definition none : Z -> Prop := fun _ => False.
Definition only (b : Z) : Z -> Prop := fun y => y = b.

Lemma wf_ext s H X X' L : (forall y, X y <-> X' y) -> WF s H X L -> WF s H X' L.
Proof.
  intros Q W. constructor; try apply W.
  - apply (inv_headers K F null s s H H X X' L (w_inv _ _ _ _ W)); try reflexivity.
    + split; reflexivity.
    + intros y i j. unfold listed. split; intros (k & A & B & C & D); exists k; rewrite Q in *; auto.
    + apply (i_rep K F null s H X L (w_inv _ _ _ _ W)).
    + apply (i_phys K F null s H X L (w_inv _ _ _ _ W)).
  - apply (coal_mono H X); [intros y; apply Q|apply W].
Qed.

(* the client writes into its blocks, or elsewhere *)
Lemma wf_client s s' H X L : WF s H X L -> flb s' = flb s -> slb s' = slb s -> heads s' = heads s -> (forall a, mem s' a = mem s a \/ Safe H a) -> WF s' H X L.
Proof.
  intros W E1 E2 E3 M. constructor; try apply W. 
  apply (inv_headers K F null s s' H H X X L (w_inv _ _ _ _ W) E1 E2 E3).
  - intros y i j LI. pose proof (listed_node K null H X y i j LI) as ND. split.
    + destruct (M (y + 8)) as [Q|Q]; [exact Q|]. exfalso. apply (safe_not_node s H X L _ W Q). exists y. split; [exact ND|left; reflexivity].
    + destruct (M (y + 12)) as [Q|Q]; [exact Q|]. exfalso. apply (safe_not_node s H X L _ W Q). exists y. split; [exact ND|right; reflexivity].
  - reflexivity.
  - intros b k E. destruct (M (b + 4)) as [Q|Q]; [rewrite Q; apply (r_word s H X L W b k E)|]. exfalso. destruct (safe_apart s H X L _ W Q b k E). lia.
  - intros b k E PF. destruct (i_phys K F null s H X L (w_inv _ _ _ _ W) b k E PF) as (p & kp & A & B & C & D). exists p, kp. split; [exact A|]. split; [exact B|]. split; [exact C|].
    destruct (M b) as [Q|Q]; [rewrite Q; exact D|]. exfalso.
    assert (FP : fr kp = true). { pose proof (w_flags _ _ _ _ W p kp k A ltac:(lia)) as T. rewrite C in T. specialize (T E). congruence. }
    destruct (safe_apart s H X L b W Q p kp A) as [_ T]. specialize (T FP). lia.
Qed.

Lemma wf_insert_gen s H X L b k : WF s H X L -> H b = Some k -> fr k = true -> X b ->
  (forall p kp, H p = Some kp -> fr kp = true -> p + 4 + sz kp = b -> X p) ->
  (forall kn, H (b + 4 + sz k) = Some kn -> fr kn = true -> X (b + 4 + sz k)) ->
  exists s' L', block_insert K F null s b = Some s' /\ WF s' H (back X b) L' /\ Frame H s s'.
Proof.
  intros W E FR XB XP XN. destruct (block_insert_ok K F null HK HF s H X L b k (w_inv _ _ _ _ W) (w_geo _ _ _ _ W) E FR XB) as (s' & L' & A & B & C).
  exists s', L'. split; [exact A|]. split; [|exact (node_frame s H X L s' W C)].
  constructor; [exact B|apply W|apply W|apply W|]. intros c kc p kp E1 F1 E2 F2 AD.
  pose proof (free_size F null H (w_geo _ _ _ _ W) p kp E2 F2) as SP.
  destruct (Z.eq_dec c b) as [->|CB]; [right; split; [apply (XP p kp E2 F2 AD)|lia]|].
  destruct (Z.eq_dec p b) as [->|PB].
  - assert (kp = k) by congruence. subst kp. left. split; [rewrite <- AD; apply (XN kc); [rewrite AD; exact E1|exact F1]|exact CB].
  - destruct (w_coal _ _ _ _ W c kc p kp E1 F1 E2 F2 AD) as [Q|Q]; [left|right]; split; assumption.
Qed.

Lemma merge_prev_ok s H L b k : WF s H (only b) L -> H b = Some k -> fr k = true ->
  exists s' b' H' L' k', block_merge_prev K F null s b = Some (s', b') /\ WF s' H' (only b') L' /\ H' b' = Some k' /\ fr k' = true /\ pf k' = false /\
    KeepAll H H' /\ Frame H s s'.
Proof.
  intros W E FR. unfold block_merge_prev. rewrite (r_prev_free s H _ L W b k E). destruct (pf k) eqn:PF.
  2:{ exists s, b, H, L, k. repeat (split; [assumption || reflexivity|]). split; [apply keep_refl|]. intros a _. reflexivity. }
  destruct (r_prev s H _ L W b k E PF) as (p & kp & EP & FP & AD & ->).
  pose proof (free_size F null H (w_geo _ _ _ _ W) p kp EP FP) as [SP _]. assert (PB : p <> b) by lia.
  destruct (wf_remove s H _ L p kp W EP FP) as (s1 & L1 & -> & W1 & F1); [exact PB|]. cbn [obind].
  destruct (wf_absorb s1 H _ L1 p kp b k W1 EP FP) as (W2 & K2 & F2); [left; reflexivity|exact AD|exact E|exact FR|right; reflexivity|].
  pose proof (absorb_at H p kp b k PB) as EA. set (H2 := absorbH H p kp b k) in *.
  eexists _, p, H2, L1, _. split; [reflexivity|]. split; [|split; [exact EA|]].
  - constructor; try apply W2.
    + apply (inv_headers K F null _ _ H2 H2 _ _ L1 (w_inv _ _ _ _ W2)); try reflexivity.
      * split; reflexivity.
      * intros y i j. unfold listed. split; intros (ky & A & B & C & D); exists ky; (split; [exact A|]; split; [exact B|]; split; [|exact D]).
        -- intros [->|Q]; [apply C; reflexivity|]. unfold only in Q. subst y. unfold H2, absorbH in A. rewrite hset_same in A. discriminate.
        -- intro Q. unfold only in Q. subst y. apply C. left. reflexivity.
      * apply (i_rep K F null _ H2 _ L1 (w_inv _ _ _ _ W2)).
      * apply (i_phys K F null _ H2 _ L1 (w_inv _ _ _ _ W2)).
    + intros c kc q kq A1 A2 A3 A4 A5. assert (NB : forall y ky, H2 y = Some ky -> y <> b) by (intros y ky Q ->; unfold H2, absorbH in Q; rewrite hset_same in Q; discriminate).
      destruct (w_coal _ _ _ _ W2 c kc q kq A1 A2 A3 A4 A5) as [[Q|Q]|[Q|Q]]; [left; exact Q|elim (NB c kc A1); exact Q|right; exact Q|elim (NB q kq A3); exact Q].
  - cbn [fr pf]. split; [exact FP|]. split; [|split; [exact K2|]].
    + destruct (pf kp) eqn:PP; [|reflexivity]. exfalso. destruct (r_prev s H _ L W p kp EP PP) as (q & kq & EQ & FQ & AQ & _).
      pose proof (free_size F null H (w_geo _ _ _ _ W) q kq EQ FQ). destruct (w_coal _ _ _ _ W p kp q kq EP FP EQ FQ AQ) as [Q|Q]; unfold only in Q; lia.
    + intros a SA. rewrite (F2 a SA). apply F1. exact SA.
Qed.

Lemma merge_next_ok s H L b k : WF s H (only b) L -> H b = Some k -> fr k = true ->
  exists s' H' L' k' kn', block_merge_next K F null s b = Some (s', b) /\ WF s' H' (only b) L' /\ H' b = Some k' /\ fr k' = true /\ pf k' = pf k /\
    H' (b + 4 + sz k') = Some kn' /\ fr kn' = false /\ KeepAll H H' /\ Frame H s s'.
Proof.
  intros W E FR. pose proof (free_size F null H (w_geo _ _ _ _ W) b k E FR) as [SB _].
  destruct (r_next_in s H _ L W b k E SB) as (kn & EN). unfold block_merge_next. rewrite (r_next s H _ L W b k E SB). set (n := b + 4 + sz k) in *.
  rewrite (r_free s H _ L W n kn EN). destruct (fr kn) eqn:FN.
  2:{ exists s, H, L, k, kn. repeat (split; [assumption || reflexivity|]). split; [apply keep_refl|]. intros a _. reflexivity. }
  pose proof (free_size F null H (w_geo _ _ _ _ W) n kn EN FN) as [SN _]. assert (NB : n <> b) by (unfold n; lia).
  destruct (wf_remove s H _ L n kn W EN FN) as (s1 & L1 & -> & W1 & F1); [exact NB|]. cbn [obind].
  destruct (wf_absorb s1 H _ L1 b k n kn W1 E FR) as (W2 & K2 & F2); [right; reflexivity|reflexivity|exact EN|exact FN|left; reflexivity|].
  pose proof (absorb_at H b k n kn ltac:(congruence)) as EA.
  destruct (r_next_in s H _ L W n kn EN SN) as (km & EM).
  assert (FM : fr km = false).
  { destruct (fr km) eqn:Q; [|reflexivity]. exfalso. destruct (w_coal _ _ _ _ W _ km n kn EM Q EN FN eq_refl) as [T|T]; unfold only, n in T; lia. }
  assert (EM2 : absorbH H b k n kn (b + 4 + (sz k + sz kn + 4)) = Some km).
  { rewrite absorb_other by (unfold n; lia). rewrite <- EM. f_equal. unfold n. lia. }
  set (H2 := absorbH H b k n kn) in *.
  eexists _, H2, L1, _, km. split; [reflexivity|]. split; [|split; [exact EA|]].
  - constructor; try apply W2.
    + apply (inv_headers K F null _ _ H2 H2 _ _ L1 (w_inv _ _ _ _ W2)); try reflexivity.
      * split; reflexivity.
      * intros y i j. unfold listed. split; intros (ky & A & B & C & D); exists ky; (split; [exact A|]; split; [exact B|]; split; [|exact D]).
        -- intros [Q|Q]; [|apply C; exact Q]. subst y. unfold H2, absorbH in A. rewrite hset_same in A. discriminate.
        -- intro Q. apply C. right. exact Q.
      * apply (i_rep K F null _ H2 _ L1 (w_inv _ _ _ _ W2)).
      * apply (i_phys K F null _ H2 _ L1 (w_inv _ _ _ _ W2)).
    + intros c kc q kq A1 A2 A3 A4 A5. assert (NN : forall y ky, H2 y = Some ky -> y <> n) by (intros y ky Q ->; unfold H2, absorbH in Q; rewrite hset_same in Q; discriminate).
      destruct (w_coal _ _ _ _ W2 c kc q kq A1 A2 A3 A4 A5) as [[Q|Q]|[Q|Q]]; [elim (NN c kc A1); exact Q|left; exact Q|elim (NN q kq A3); exact Q|right; exact Q].
  - cbn [sz fr pf]. split; [exact FR|]. split; [reflexivity|]. split; [exact EM2|]. split; [exact FM|]. split; [exact K2|].
    intros a SA. rewrite (F2 a SA). apply F1. exact SA.
Qed.

Lemma free_ok s H L b n : WF s H none L -> Used H b n -> 0 < n ->
  exists s' H' L', tlsf_free K F null s (b + 8) = Some s' /\ WF s' H' none L' /\ (forall u m, Used H' u m <-> u <> b /\ Used H u m) /\ Frame H' s s'.
Proof.
  intros W (q & E) N0. pose proof (r_range s H _ L W b _ E) as R. cbn [sz fr pf] in R.
  assert (N : 12 <= n) by (destruct (g_size F null H (w_geo _ _ _ _ W) b _ E) as [[A _]|A]; cbn in A; lia).
  destruct (r_next_in s H _ L W b _ E N) as (kn & EN).
  destruct (mark_as_free_ok s H none L b _ kn W E eq_refl N EN) as (W1 & F1 & U1 & NU1). cbn [sz pf] in W1, F1, U1, NU1, EN.
  set (H1 := mark H b _ _ kn true) in *. set (s1 := block_mark_as_free s b) in *.
  assert (W1' : WF s1 H1 (only b) L). { apply (wf_ext s1 H1 (out none b)); [|exact W1]. intro y. unfold out, none, only. tauto. }
  assert (E1 : H1 b = Some (Blk n true q)) by (unfold H1, mark; rewrite hset_other by lia; apply hset_same).
  destruct (merge_prev_ok s1 H1 L b _ W1' E1 eq_refl) as (s2 & b2 & H2 & L2 & k2 & M2 & W2 & E2 & FR2 & PF2 & K2 & F2).
  destruct (merge_next_ok s2 H2 L2 b2 k2 W2 E2 FR2) as (s3 & H3 & L3 & k3 & kn3 & M3 & W3 & E3 & FR3 & PF3 & EN3 & FN3 & K3 & F3).
  destruct (wf_insert s3 H3 _ L3 b2 k3 _ kn3 W3 E3 FR3 eq_refl ltac:(congruence) eq_refl EN3 FN3) as (s4 & L4 & M4 & W4 & F4).
  exists s4, H3, L4. split; [|split; [|split]].
  - unfold tlsf_free. replace (b + 8 =? 0) with false by lia. unfold block_from_ptr. replace (b + 8 - 8) with b by ring.
    rewrite u32_id by (change (2 ^ 32) with 4294967296 in *; lia). fold s1. rewrite M2. cbn [obind fst snd]. rewrite M3. cbn [obind fst snd]. exact M4.
  - apply (wf_ext s4 H3 (back (only b2) b2)); [|exact W4]. intro y. unfold back, none, only. tauto.
  - intros u m. rewrite <- (K3 u m), <- (K2 u m). split.
    + intro Q. assert (UB : u <> b) by (intros ->; apply NU1; exists m; exact Q). split; [exact UB|]. apply U1; assumption.
    + intros [UB Q]. apply U1; assumption.
  - pose proof (keep_trans H1 H2 H3 K2 K3) as K13. intros a SA.
    assert (S1 : Safe H1 a) by (apply (safe_keep H3 H1 a); [intros u m; symmetry; apply K13|exact SA]).
    rewrite (F4 a SA), (F3 a (safe_keep H1 H2 a K2 S1)), (F2 a S1). apply F1. exact S1.
Qed.

Lemma can_split_ok s H X L b k size : WF s H X L -> H b = Some k -> 0 <= size < 2 ^ 31 -> block_can_split s b size = (size + 16 <=? sz k).
Proof.
  intros W E S. unfold block_can_split. rewrite (r_size s H X L W b k E). rewrite u32_id by (change (2 ^ 31) with 2147483648 in S; change (2 ^ 32) with 4294967296; lia).
  rewrite (Z.add_comm 16). reflexivity.
Qed.

Lemma split_keep H b k size n kn : H b = Some k -> fr k = true -> (forall u m, u <> b -> (Used (splitH H b k size n kn) u m <-> Used H u m)) ->
  splitH H b k size n kn b = Some (Blk size (fr k) (pf k)) -> KeepAll H (splitH H b k size n kn).
Proof.
  intros E FR U EB u m. destruct (Z.eq_dec u b) as [->|N]; [|symmetry; apply U; exact N].
  unfold Used. split; intros (q & Q); [rewrite E in Q; injection Q as ->; discriminate|]. rewrite EB in Q. injection Q as _ Q _. congruence.
Qed.

Lemma trim_free_ok s H L b k kn size : WF s H (only b) L -> H b = Some k -> fr k = true -> H (b + 4 + sz k) = Some kn -> fr kn = false ->
  12 <= size <= sz k -> size mod 4 = 0 ->
  exists s' H' L' k', block_trim_free K F null s b size = Some s' /\ WF s' H' (only b) L' /\ H' b = Some k' /\ fr k' = true /\ pf k' = pf k /\
    size <= sz k' < size + 16 /\ KeepAll H H' /\ Frame H s s'.
Proof.
  intros W E FR EN FN S M4. pose proof (r_range s H _ L W b k E) as R.
  unfold block_trim_free. rewrite (can_split_ok s H _ L b k size W E) by lia. destruct (size + 16 <=? sz k) eqn:C; [apply Z.leb_le in C|apply Z.leb_gt in C].
  2:{ exists s, H, L, k. repeat (split; [assumption || reflexivity || lia|]). split; [apply keep_refl|]. intros a _. reflexivity. }
  destruct (split_mem s H _ L b k size kn W E (proj1 S) C M4 EN) as (RE & q & A1 & A2 & A3 & B1 & B2 & B3 & B4 & BO).
  destruct (block_split s b size) as [s1 r] eqn:SPL. cbn [fst snd] in *. clear SPL. rewrite RE. clear r RE.
  pose proof (r_range s H _ L W _ kn EN) as RN. assert (PF : 2 ^ 31 = 2147483648) by reflexivity. assert (PF2 : 2 ^ 32 = 4294967296) by reflexivity. rewrite PF, PF2 in R, RN.
  set (r := b + 4 + size) in *. set (n := b + 4 + sz k) in *.
  assert (NR : block_next s1 b = r).
  { unfold block_next, offset_to_block, block_to_ptr, block_size, rd. rewrite B1, word_size by (try exact M4; rewrite PF2; lia).
    rewrite (u32_id (b + 8)), (u32_id (size - 4)) by (rewrite PF2; lia). rewrite u32_id by (rewrite PF2; lia). unfold r. ring. }
  unfold block_link_next. rewrite NR. cbn [fst]. unfold block_set_prev_free, rd.
  assert (NN : n <> r /\ n <> b /\ n <> r + 4 /\ n <> b + 4 /\ r <> b /\ r <> b + 4 /\ r <> n + 4) by (unfold n, r; lia).
  rewrite wr_other by lia. rewrite B2, word_set_prev by (clear - M4 R; lia).
  set (s2 := wr (wr s1 r b) (r + 4) (word (sz k - size - 4) true true)).
  assert (MO : forall a, a <> b + 4 -> a <> r + 4 -> a <> n + 4 -> a <> n -> a <> r -> mem s2 a = mem s a).
  { intros a Q1 Q2 Q3 Q4 Q5. unfold s2. rewrite !wr_other by assumption. apply BO; assumption. }
  assert (W2 : WF s2 (splitH H b k size n kn) (out (only b) r) L).
  { apply (wf_split s H (only b) L b k size kn W E (proj1 S) C M4 EN s2); try assumption.
    - right. reflexivity.
    - unfold s2. wrl NN. exact B1.
    - fold r. rewrite FR. unfold s2. wrl NN. reflexivity.
    - fold n. unfold s2. wrl NN. exact B3.
    - fold n r. unfold s2. wrl NN. exact B4.
    - intros _. fold r. unfold s2. wrl NN. reflexivity. }
  assert (KE : KeepAll H (splitH H b k size n kn)).
  { apply split_keep; try assumption; [|apply split_at_b; lia]. intros u m. apply (split_used s H (only b) L b k size kn W E (proj1 S) C EN u m). }
  assert (FR2 : Frame H s s2).
  { intros a SA. destruct (safe_apart _ _ _ _ a W SA b k E) as [T1 T2]. specialize (T2 FR). destruct (safe_apart _ _ _ _ a W SA n kn EN) as [T3 _].
    assert (TT : a <> r + 4 /\ a <> n /\ a <> r) by (clear - T1 T2 T3 S C; unfold r, n in *; lia). apply MO; tauto. }
  assert (EB : splitH H b k size n kn b = Some (Blk size (fr k) (pf k))) by (apply split_at_b; lia).
  assert (ER : splitH H b k size n kn r = Some (Blk (sz k - size - 4) true (fr k))) by (apply split_at_r; lia).
  assert (EN2 : splitH H b k size n kn n = Some (Blk (sz kn) (fr kn) true)) by (apply split_at_n).
  destruct (wf_insert_gen s2 _ _ L r _ W2 ER eq_refl) as (s3 & L3 & I3 & W3 & F3).
  - left. reflexivity.
  - intros p kp EP FP AD. right. unfold only. destruct (Z.eq_dec p b) as [|N]; [assumption|]. exfalso.
    pose proof (free_size F null _ (w_geo _ _ _ _ W2) p kp EP FP) as [SP _].
    apply N. apply (next_inj s2 _ _ L p b kp _ W2 EP EB SP); [exact (proj1 S)|exact AD].
  - intros kn' EN' FN'. exfalso. cbn [sz] in EN'. replace (r + 4 + (sz k - size - 4)) with n in EN' by (unfold r, n; ring). rewrite EN2 in EN'. injection EN' as <-. cbn in FN'. congruence.
  - exists s3, (splitH H b k size n kn), L3, (Blk size (fr k) (pf k)). split; [exact I3|]. split; [|split; [exact EB|]].
    + apply (wf_ext s3 _ (back (out (only b) r) r)); [|exact W3]. intro y. unfold back, out, only. split; [intros [[Q|Q] N]; [contradiction|exact Q]|]. intros ->. split; [right; reflexivity|]. intro Q. assert (RB : r <> b) by tauto. congruence.
    + cbn. split; [exact FR|]. split; [reflexivity|]. split; [lia|]. split; [exact KE|]. apply (frame_trans H _ s s2 s3 KE FR2 F3).
Qed.

Lemma trim_used_ok s H L b k size : WF s H none L -> H b = Some k -> fr k = false -> 12 <= size <= sz k -> size mod 4 = 0 ->
  exists s' H' L' k', block_trim_used K F null s b size = Some s' /\ WF s' H' none L' /\ H' b = Some k' /\ fr k' = false /\
    size <= sz k' < size + 16 /\ sz k' <= sz k /\ (forall u m, u <> b -> (Used H' u m <-> Used H u m)) /\ Frame H' s s'.
Proof.
  intros W E FR S M4. pose proof (r_range s H _ L W b k E) as R.
  unfold block_trim_used. rewrite (can_split_ok s H _ L b k size W E) by lia. destruct (size + 16 <=? sz k) eqn:C; [apply Z.leb_le in C|apply Z.leb_gt in C].
  2:{ exists s, H, L, k. repeat (split; [assumption || reflexivity || lia|]). intros a _. reflexivity. }
  assert (S12 : 12 <= sz k) by lia. destruct (r_next_in s H _ L W b k E S12) as (kn & EN).
  destruct (split_mem s H _ L b k size kn W E (proj1 S) C M4 EN) as (RE & q & A1 & A2 & A3 & B1 & B2 & B3 & B4 & BO).
  destruct (block_split s b size) as [s1 r] eqn:SPL. cbn [fst snd] in *. clear SPL. rewrite RE. clear r RE.
  pose proof (r_range s H _ L W _ kn EN) as RN. assert (PF : 2 ^ 31 = 2147483648) by reflexivity. assert (PF2 : 2 ^ 32 = 4294967296) by reflexivity. rewrite PF, PF2 in R, RN.
  set (r := b + 4 + size) in *. set (n := b + 4 + sz k) in *.
  unfold block_set_prev_used, rd. rewrite B2, word_clr_prev by (try (rewrite PF2; lia); clear - M4 R; lia).
  assert (NN : n <> r /\ n <> b /\ n <> r + 4 /\ n <> b + 4 /\ r <> b /\ r <> b + 4 /\ r <> n + 4) by (unfold n, r; lia).
  set (s2 := wr s1 (r + 4) (word (sz k - size - 4) true false)).
  assert (MO : forall a, a <> b + 4 -> a <> r + 4 -> a <> n + 4 -> a <> n -> mem s2 a = mem s a).
  { intros a Q1 Q2 Q3 Q4. unfold s2. rewrite !wr_other by assumption. apply BO; assumption. }
  assert (W2 : WF s2 (splitH H b k size n kn) (out none r) L).
  { apply (wf_split s H none L b k size kn W E (proj1 S) C M4 EN s2); try assumption.
    - left. exact FR.
    - unfold s2. wrl NN. exact B1.
    - fold r. rewrite FR. unfold s2. wrl NN. reflexivity.
    - fold n. unfold s2. wrl NN. exact B3.
    - fold n r. unfold s2. wrl NN. exact B4.
    - congruence.
    - intros a Q1 Q2 Q3 Q4 _. apply MO; assumption. }
  assert (EB : splitH H b k size n kn b = Some (Blk size (fr k) (pf k))) by (apply split_at_b; lia).
  assert (ER : splitH H b k size n kn r = Some (Blk (sz k - size - 4) true (fr k))) by (apply split_at_r; lia).
  assert (EN2 : splitH H b k size n kn n = Some (Blk (sz kn) (fr kn) true)) by (apply split_at_n).
  assert (US : forall u m, u <> b -> (Used (splitH H b k size n kn) u m <-> Used H u m)) by (intros u m; apply (split_used s H none L b k size kn W E (proj1 S) C EN u m)).
  set (H2 := splitH H b k size n kn) in *.
  assert (W2' : WF s2 H2 (only r) L). { apply (wf_ext s2 H2 (out none r)); [|exact W2]. intro y. unfold out, none, only. tauto. }
  assert (FR2 : Frame H2 s s2).
  { intros a SA. destruct (safe_apart _ _ _ _ a W2 SA b _ EB) as [T1 _]. destruct (safe_apart _ _ _ _ a W2 SA r _ ER) as [T3 T4]. specialize (T4 eq_refl). cbn [sz] in T4.
    destruct (safe_apart _ _ _ _ a W2 SA n _ EN2) as [T5 _].
    assert (TT : a <> n) by (clear - T3 T4 S C; unfold r, n in *; lia). apply MO; assumption. }
  destruct (merge_next_ok s2 H2 L r _ W2' ER eq_refl) as (s3 & H3 & L3 & k3 & kn3 & M3 & W3 & E3 & FR3 & PF3 & EN3 & FN3 & K3 & F3).
  cbn [pf] in PF3. rewrite M3. cbn [obind fst snd].
  destruct (wf_insert s3 H3 _ L3 r k3 _ kn3 W3 E3 FR3 eq_refl ltac:(congruence) eq_refl EN3 FN3) as (s4 & L4 & I4 & W4 & F4).
  assert (UB : Used H3 b size). { apply K3. exists (pf k). rewrite EB, FR. reflexivity. }
  destruct UB as (qb & EB3).
  exists s4, H3, L4, (Blk size false qb). split; [exact I4|]. split; [|split; [exact EB3|]].
  - apply (wf_ext s4 H3 (back (only r) r)); [|exact W4]. intro y. unfold back, none, only. tauto.
  - cbn. split; [reflexivity|]. split; [lia|]. split; [lia|]. split.
    + intros u m N. rewrite <- (K3 u m). apply US. exact N.
    + intros a SA. assert (S2 : Safe H2 a) by (apply (safe_keep H3 H2 a); [intros u m; symmetry; apply K3|exact SA]).
      rewrite (F4 a SA), (F3 a S2). apply FR2. exact S2.
Qed.

Lemma trim_leading_ok s H L b k kn gap : WF s H (only b) L -> H b = Some k -> fr k = true -> pf k = false -> H (b + 4 + sz k) = Some kn -> fr kn = false ->
  16 <= gap -> gap + 16 <= sz k -> gap mod 4 = 0 ->
  exists s' H' L', block_trim_free_leading K F null s b gap = Some (s', b + gap) /\ WF s' H' (only (b + gap)) L' /\ H' (b + gap) = Some (Blk (sz k - gap) true true) /\
    H' (b + 4 + sz k) = Some (Blk (sz kn) (fr kn) true) /\ KeepAll H H' /\ Frame H s s'.
Proof.
  intros W E FR PFK EN FN S C0 M4. pose proof (r_range s H _ L W b k E) as R.
  unfold block_trim_free_leading. rewrite (can_split_ok s H _ L b k gap W E) by lia. replace (gap + 16 <=? sz k) with true by lia.
  rewrite (u32_id (gap - 4)) by (change (2 ^ 32) with 4294967296 in *; lia).
  set (size := gap - 4). assert (S1 : 12 <= size) by (unfold size; lia). assert (C : size + 16 <= sz k) by (unfold size; lia). assert (M4' : size mod 4 = 0) by (unfold size; clear - M4; lia).
  destruct (split_mem s H _ L b k size kn W E S1 C M4' EN) as (RE & q & A1 & A2 & A3 & B1 & B2 & B3 & B4 & BO).
  destruct (block_split s b size) as [s1 r] eqn:SPL. cbn [fst snd] in *. clear SPL. rewrite RE. clear r RE.
  pose proof (r_range s H _ L W _ kn EN) as RN. assert (PF : 2 ^ 31 = 2147483648) by reflexivity. assert (PF2 : 2 ^ 32 = 4294967296) by reflexivity. rewrite PF, PF2 in R, RN.
  replace (b + gap) with (b + 4 + size) by (unfold size; ring). replace (sz k - gap) with (sz k - size - 4) by (unfold size; ring).
  set (r := b + 4 + size) in *. set (n := b + 4 + sz k) in *.
  assert (NN : n <> r /\ n <> b /\ n <> r + 4 /\ n <> b + 4 /\ r <> b /\ r <> b + 4 /\ r <> n + 4) by (unfold n, r; lia).
  unfold block_set_prev_free, rd. rewrite B2, word_set_prev by (clear - M4' R; lia).
  assert (NR : block_next (wr s1 (r + 4) (word (sz k - size - 4) true true)) b = r).
  { unfold block_next, offset_to_block, block_to_ptr, block_size, rd. rewrite wr_other by lia. rewrite B1, word_size by (try exact M4'; rewrite PF2; lia).
    rewrite (u32_id (b + 8)), (u32_id (size - 4)) by (rewrite PF2; lia). rewrite u32_id by (rewrite PF2; lia). unfold r. ring. }
  unfold block_link_next. rewrite NR. cbn [fst].
  set (s2 := wr (wr s1 (r + 4) (word (sz k - size - 4) true true)) r b).
  assert (MO : forall a, a <> b + 4 -> a <> r + 4 -> a <> n + 4 -> a <> n -> a <> r -> mem s2 a = mem s a).
  { intros a Q1 Q2 Q3 Q4 Q5. unfold s2. rewrite !wr_other by assumption. apply BO; assumption. }
  assert (W2 : WF s2 (splitH H b k size n kn) (out (only b) r) L).
  { apply (wf_split s H (only b) L b k size kn W E S1 C M4' EN s2); try assumption.
    - right. reflexivity.
    - unfold s2. wrl NN. exact B1.
    - fold r. rewrite FR. unfold s2. wrl NN. reflexivity.
    - fold n. unfold s2. wrl NN. exact B3.
    - fold n r. unfold s2. wrl NN. exact B4.
    - intros _. fold r. unfold s2. wrl NN. reflexivity. }
  assert (KE : KeepAll H (splitH H b k size n kn)).
  { apply split_keep; try assumption; [|apply split_at_b; lia]. intros u m. apply (split_used s H (only b) L b k size kn W E S1 C EN u m). }
  assert (FR2 : Frame H s s2).
  { intros a SA. destruct (safe_apart _ _ _ _ a W SA b k E) as [T1 T2]. specialize (T2 FR). destruct (safe_apart _ _ _ _ a W SA n kn EN) as [T3 _].
    assert (TT : a <> r + 4 /\ a <> n /\ a <> r) by (clear - T1 T2 T3 S C; unfold r, n in *; lia). apply MO; tauto. }
  assert (EB : splitH H b k size n kn b = Some (Blk size (fr k) (pf k))) by (apply split_at_b; lia).
  assert (ER : splitH H b k size n kn r = Some (Blk (sz k - size - 4) true (fr k))) by (apply split_at_r; lia).
  assert (EN2 : splitH H b k size n kn n = Some (Blk (sz kn) (fr kn) true)) by (apply split_at_n).
  destruct (wf_insert_lead s2 _ _ L b _ r W2 EB FR) as (s3 & L3 & I3 & W3 & F3); [right; reflexivity|exact PFK|reflexivity|left; reflexivity|apply NN|].
  rewrite I3. cbn [obind].
  exists s3, (splitH H b k size n kn), L3. split; [reflexivity|]. split; [|split; [rewrite <- FR; rewrite ER, FR; reflexivity|split; [exact EN2|split; [exact KE|]]]].
  - apply (wf_ext s3 _ (back (out (only b) r) b)); [|exact W3]. intro y. unfold back, out, only. split; [intros [[Q|Q] N]; [exact Q|contradiction]|]. intros ->. split; [left; reflexivity|]. tauto.
  - apply (frame_trans H _ s s2 s3 KE FR2 F3).
Qed.

Lemma prepare_used_ok s H L b k kn size : WF s H (only b) L -> H b = Some k -> fr k = true -> H (b + 4 + sz k) = Some kn -> fr kn = false ->
  12 <= size <= sz k -> size mod 4 = 0 ->
  exists s' H' L' m, block_prepare_used K F null s b size = Some (s', b + 8) /\ WF s' H' none L' /\ Used H' b m /\ size <= m < size + 16 /\
    (forall u m, u <> b -> (Used H' u m <-> Used H u m)) /\ Frame H s s'.
Proof.
  intros W E FR EN FN S M4. pose proof (r_range s H _ L W b k E) as R.
  destruct (trim_free_ok s H L b k kn size W E FR EN FN S M4) as (s1 & H1 & L1 & k1 & T1 & W1 & E1 & FR1 & PF1 & S1 & K1 & F1).
  assert (S12 : 12 <= sz k1) by lia. destruct (r_next_in s1 H1 _ L1 W1 b k1 E1 S12) as (kn1 & EN1).
  destruct (mark_as_used_ok s1 H1 _ L1 b k1 kn1 W1 E1 FR1 eq_refl EN1) as (W2 & F2 & U2 & E2).
  set (H2 := mark H1 b k1 _ kn1 false) in *. set (s2 := block_mark_as_used s1 b) in *.
  exists s2, H2, L1, (sz k1). split; [|split; [|split; [|split; [|split]]]].
  - unfold block_prepare_used. replace (b =? 0) with false by lia. rewrite T1. cbn [obind]. fold s2. unfold block_to_ptr. rewrite u32_id by (change (2 ^ 32) with 4294967296 in *; lia). reflexivity.
  - apply (wf_ext s2 H2 (back (only b) b)); [|exact W2]. intro y. unfold back, none, only. tauto.
  - exists (pf k1). exact E2.
  - exact S1.
  - intros u m N. rewrite (U2 u m N). symmetry. apply K1.
  - apply (frame_trans H H1 s s1 s2 K1 F1 F2).
Qed.

Lemma locate_ok s H L size : WF s H none L -> 12 <= size < 2 ^ F -> size mod 4 = 0 -> goal K size < 2 ^ F ->
  exists s' b, block_locate_free K F null s size = Some (s', b) /\
   ((b = 0 /\ s' = s /\ forall y k, H y = Some k -> fr k = true -> sz k < goal K size) \/
    (exists k L', H b = Some k /\ fr k = true /\ goal K size <= sz k /\ WF s' H (only b) L' /\ Frame H s s')).
Proof.
  intros W S M4 GL. unfold block_locate_free. replace (size =? 0) with false by lia.
  destruct (mapping_search_low K F size ltac:(lia) ltac:(lia) ltac:(lia) ltac:(lia) M4) as (I0 & J0 & LO & IB). cbv zeta in *.
  destruct (mapping_search K size) as [i j]. cbn [fst snd] in *. apply IB in GL.
  pose proof (w_inv _ _ _ _ W) as IV. pose proof (w_geo _ _ _ _ W) as G.
  destruct (search_ok K F null HK HF s H none L i j IV ltac:(lia) J0) as (b & i' & j' & SE & C). rewrite SE. cbn [obind].
  assert (CL : forall y k, H y = Some k -> 0 <= fst (mapping_insert K (sz k)) < FLC K F /\ 0 <= snd (mapping_insert K (sz k)) < SLC K /\
    low K (fst (mapping_insert K (sz k))) (snd (mapping_insert K (sz k))) <= sz k < low K (fst (mapping_insert K (sz k))) (snd (mapping_insert K (sz k))) + gran (fst (mapping_insert K (sz k)))).
  { intros y k E. destruct (class_range K F null HK HF H G y k E) as [A B]. pose proof (size_pos K F null HK HF H G y k E). destruct (mapping_class K (sz k) ltac:(lia) ltac:(lia)) as (_ & _ & D & _). auto. }
  destruct C as [[-> NO]|[LI [LX [RI RJ]]]].
  - exists s, 0. split; [reflexivity|]. left. split; [reflexivity|]. split; [reflexivity|]. intros y k E FR. destruct (CL y k E) as (A & B & D). rewrite <- LO.
    destruct (mapping_insert K (sz k)) as [x z] eqn:MI. cbn [fst snd] in *.
    assert (NL : ~ lexle i j x z). { apply (NO y); [|exact A|exact B]. exists k. unfold none. tauto. }
    pose proof (low_lt K i j x z ltac:(lia) I0 J0 ltac:(lia) B NL). lia.
  - pose proof LI as (k & E & FR & NX & MI). pose proof (g_range F null H G b k E) as RB. replace (b =? 0) with false by lia.
    destruct (remove_free_block_ok K F null HK HF s H none L b k i' j' IV G E FR NX MI) as (s' & L' & RM & IV' & FA). rewrite RM. cbn [obind].
    exists s', b. split; [reflexivity|]. right. exists k, L'. split; [exact E|]. split; [exact FR|]. split; [|split].
    + destruct (CL b k E) as (A & B & D). rewrite MI in *. cbn [fst snd] in *. rewrite <- LO. pose proof (low_mono K i j i' j' ltac:(lia) I0 J0 ltac:(lia) B LX). lia.
    + apply (wf_ext s' H (out none b)); [intro y; unfold out, none, only; tauto|]. constructor; [exact IV'|exact G|apply W|apply W|]. apply (coal_mono H none); [intros y []|apply W].
    + apply (node_frame s H none L s' W FA).
Qed.
End Ops.
