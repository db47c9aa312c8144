(* The heap as its client sees it: the invariant of every execution. *)
From Verif Require Import Base BitLemmas BitsProofs TlsfModel TlsfArith TlsfHeap TlsfOps TlsfApi TlsfPool TlsfSpec.

Lemma upz x a : 0 < a -> x <= (x + a - 1) / a * a < x + a.
Proof. intro HA. pose proof (Z.div_mod (x + a - 1) a ltac:(lia)). pose proof (Z.mod_pos_bound (x + a - 1) a HA). nia. Qed.
Lemma pow_m4 e : 2 <= e -> 2 ^ e mod 4 = 0.
Proof. intro HE. replace e with (e - 2 + 2) by ring. rewrite Z.pow_add_r by lia. change (2 ^ 2) with 4. apply Z.mod_mul. lia. Qed.

Section Client.
Variables K F ctl : Z.
Hypothesis HC : configuration K F.

Lemma HK : 1 <= K <= 5. Proof. unfold configuration in HC. lia. Qed.
Lemma HF : K + 2 <= F < 31. Proof. unfold configuration in HC. lia. Qed.

(** *** Sizes *)
Lemma pow_F a : 0 <= a <= F -> 2 ^ F = 2 ^ a * 2 ^ (F - a).
Proof. intro R. rewrite <- Z.pow_add_r by lia. f_equal. ring. Qed.
Lemma max_spec : exists g, g = 2 ^ (F - 1 - K) /\ 64 <= g /\ max_request K F = g * (2 * 2 ^ K - 1) /\ 2 ^ F = g * (2 * 2 ^ K) /\ g mod 4 = 0 /\ 16 <= 2 ^ K.
Proof.
  unfold configuration in HC. exists (2 ^ (F - 1 - K)). split; [reflexivity|].
  assert (G : 64 <= 2 ^ (F - 1 - K)) by (change 64 with (2 ^ 6); apply Z.pow_le_mono_r; lia).
  assert (K4 : 16 <= 2 ^ K) by (change 16 with (2 ^ 4); apply Z.pow_le_mono_r; lia).
  assert (E : 2 ^ F = 2 ^ (F - 1 - K) * (2 * 2 ^ K)). { change 2 with (2 ^ 1) at 3. rewrite <- !Z.pow_add_r by lia. f_equal. ring. }
  split; [exact G|]. split; [unfold max_request; rewrite E; ring|]. split; [exact E|]. split; [apply pow_m4; lia|exact K4].
Qed.
Lemma goal_max x : 0 <= x <= max_request K F -> goal K x < 2 ^ F.
Proof.
  intro R. pose proof HC as HC'. unfold configuration in HC'. destruct max_spec as (g & EG & G & M & EF & G4 & K4).
  assert (LT : max_request K F < 2 ^ F) by (rewrite M, EF; nia).
  unfold goal. destruct (x <? 2 ^ (K + 2)) eqn:C; [lia|]. apply Z.ltb_ge in C. cbv zeta.
  assert (P2 : 0 < 2 ^ (K + 2)) by (apply pow_pos; lia).
  assert (LO : K + 2 <= Z.log2 x) by (apply Z.log2_le_pow2; lia).
  pose proof (Z.log2_spec x ltac:(lia)) as [L1 L2].
  assert (LF : Z.log2 x < F) by (apply Z.log2_lt_pow2; lia).
  set (t := Z.log2 x) in *. set (h := 2 ^ (t - K)).
  assert (H0 : 0 < h) by (apply pow_pos; lia).
  pose proof (upz x h H0) as U1. 
  destruct (Z.eq_dec t (F - 1)) as [E|E].
  - assert (HG : h = g) by (unfold h; rewrite EG, E; f_equal; ring). rewrite HG in *.
    assert (D : (x + g - 1) / g <= 2 * 2 ^ K - 1). { assert ((x + g - 1) / g < 2 * 2 ^ K); [|lia]. apply Z.div_lt_upper_bound; [lia|]. rewrite M in R. nia. }
    rewrite EF. nia.
  - assert (SU : 2 ^ Z.succ t = h * (2 * 2 ^ K)). { unfold h. change 2 with (2 ^ 1) at 3. rewrite <- !Z.pow_add_r by lia. f_equal. ring. }
    assert (LE : 2 ^ Z.succ t <= 2 ^ (F - 1)) by (apply Z.pow_le_mono_r; lia).
    assert (HF1 : 2 ^ F = 2 * 2 ^ (F - 1)). { change 2 with (2 ^ 1) at 2. rewrite <- Z.pow_add_r by lia. f_equal. ring. }
    assert (D : (x + h - 1) / h <= 2 * 2 ^ K). { assert ((x + h - 1) / h < 2 * 2 ^ K + 1); [|lia]. apply Z.div_lt_upper_bound; [lia|]. nia. }
    assert (0 < 2 ^ (F - 1)) by (apply pow_pos; lia). nia.
Qed.
Lemma max_lt : max_request K F < 2 ^ F /\ max_request K F mod 4 = 0 /\ 12 <= max_request K F.
Proof.
  destruct max_spec as (g & EG & G & M & EF & G4 & K4). split; [rewrite M, EF; nia|]. split; [|rewrite M; nia]. rewrite M, Z.mul_mod, G4 by lia. reflexivity.
Qed.
Lemma rounded_max size : 0 < size <= max_request K F -> 12 <= rounded size <= max_request K F /\ size <= rounded size.
Proof. intro R. destruct max_lt as (_ & A & B). unfold rounded. lia. Qed.
Lemma goal_fit size : 0 < size <= max_request K F -> goal K (fit size) < 2 ^ F.
Proof. intro R. apply goal_max. destruct (rounded_max size R) as [A _]. unfold rounded in A. unfold fit. lia. Qed.
(* how much more than requested is searched for *)
Lemma goal_ratio x : 0 < x -> goal K x = x \/ 2 ^ K * goal K x < (2 ^ K + 1) * x.
Proof.
  intro R. pose proof HK as HK'. unfold goal. destruct (x <? 2 ^ (K + 2)) eqn:C; [left; reflexivity|right]. apply Z.ltb_ge in C. cbv zeta.
  assert (P2 : 0 < 2 ^ (K + 2)) by (apply pow_pos; lia).
  assert (LO : K + 2 <= Z.log2 x) by (apply Z.log2_le_pow2; lia). pose proof (Z.log2_spec x ltac:(lia)) as [L1 L2].
  set (t := Z.log2 x) in *. assert (H0 : 0 < 2 ^ (t - K)) by (apply pow_pos; lia). pose proof (upz x (2 ^ (t - K)) H0) as U1.
  assert (E : 2 ^ t = 2 ^ K * 2 ^ (t - K)) by (rewrite <- Z.pow_add_r by lia; f_equal; ring).
  assert (K0 : 0 < 2 ^ K) by (apply pow_pos; lia). set (h := 2 ^ (t - K)) in *. set (k2 := 2 ^ K) in *. set (y := (x + h - 1) / h * h) in *. clearbody y h k2. nia.
Qed.

(* requests beyond the last size class and below 2^F *)
Lemma goal_over x : max_request K F < x < 2 ^ F -> 2 ^ F <= goal K x.
Proof.
  intro R. pose proof HC as HC'. unfold configuration in HC'. destruct max_spec as (g & EG & G & M & EF & G4 & K4).
  assert (EF1 : 2 ^ F = 2 * 2 ^ (F - 1)). { change 2 with (2 ^ 1) at 2. rewrite <- Z.pow_add_r by lia. f_equal. ring. }
  assert (LG : Z.log2 x = F - 1). { apply Z.log2_unique; [lia|]. replace (Z.succ (F - 1)) with F by lia. split; [|lia]. rewrite M in R. nia. }
  assert (SM : 2 ^ (K + 2) <= 2 ^ (F - 1)) by (apply Z.pow_le_mono_r; lia).
  assert (LO : 2 ^ (F - 1) <= x) by (rewrite M in R; nia).
  unfold goal. replace (x <? 2 ^ (K + 2)) with false by lia. cbv zeta. rewrite LG, <- EG. pose proof (upz x g ltac:(lia)) as U1. set (q := (x + g - 1) / g) in *.
  rewrite M in R. rewrite EF. assert (2 * 2 ^ K - 1 < q) by nia. nia.
Qed.
Lemma pow_29 : 2 ^ F <= 536870912 /\ 0 < 2 ^ F /\ 2 ^ F mod 4 = 0.
Proof.
  unfold configuration in HC. split; [change 536870912 with (2 ^ 29); apply Z.pow_le_mono_r; lia|]. split; [apply pow_pos; lia|apply pow_m4; lia].
Qed.
Lemma adjust_val size : 0 < size < 2 ^ F -> adjust_request_size F size 4 = rounded size.
Proof.
  intro R. pose proof pow_29. unfold adjust_request_size, size_max. replace (negb (size =? 0) && (size <? 2 ^ F)) with true by lia. rewrite align_up_4 by (change (2 ^ 31) with 2147483648; lia). reflexivity.
Qed.
Lemma malloc_over s size : max_request K F < size < 2 ^ F -> tlsf_malloc K F ctl s size = None.
Proof.
  intro R. pose proof HC as HC'. unfold configuration in HC'. destruct max_lt as (ML & M4 & M12). pose proof pow_29 as (P29 & P0 & P4).
  unfold tlsf_malloc. rewrite adjust_val by lia. assert (RO : max_request K F < rounded size <= 2 ^ F /\ rounded size mod 4 = 0) by (unfold rounded; lia). set (x := rounded size) in *. clearbody x. destruct RO as [RO X4].
  unfold block_locate_free. replace (x =? 0) with false by lia.
  assert (FL : FLC K F <= fst (mapping_search K x)).
  { destruct (Z.eq_dec x (2 ^ F)) as [->|N].
    - unfold mapping_search. unfold SMALL. assert (2 ^ (K + 2) <= 2 ^ F) by (apply Z.pow_le_mono_r; lia). replace (2 ^ (K + 2) <=? 2 ^ F) with true by lia.
      unfold tlsf_fls. replace (2 ^ F =? 0) with false by lia. rewrite Z.log2_pow2 by lia.
      assert (0 < 2 ^ (F - K) <= 2 ^ F) by (split; [apply pow_pos; lia|apply Z.pow_le_mono_r; lia]).
      rewrite u32_id by (change (2 ^ 32) with 4294967296; lia). apply mapping_fl_over; lia.
    - destruct (mapping_search_low K F x ltac:(lia) ltac:(lia) ltac:(lia) ltac:(lia) X4) as (I0 & J0 & LO & IB). cbv zeta in *.
      pose proof (goal_over x ltac:(lia)) as GO. destruct (Z.lt_ge_cases (fst (mapping_search K x)) (FLC K F)) as [Q|Q]; [|exact Q]. apply IB in Q. lia. }
  destruct (mapping_search K x) as [fl sl]. cbn [fst] in FL. unfold search_suitable_block, get_sl. replace ((0 <=? fl) && (fl <? FLC K F)) with false by lia. reflexivity.
Qed.
Lemma add_pool_over s base bytes : base mod 4 = 0 -> 4 <= base < 2 ^ 32 -> bytes - 8 - (bytes - 8) mod 4 = 2 ^ F -> 8 <= bytes -> tlsf_add_pool K F ctl s base bytes = None.
Proof.
  intros B4 BR US BB. pose proof HC as HC'. unfold configuration in HC'. pose proof pow_29 as (P29 & P0 & P4). assert (P2 : 2 ^ 32 = 4294967296) by reflexivity. rewrite P2 in BR.
  unfold tlsf_add_pool. rewrite (u32_id (bytes - 8)) by (rewrite P2; lia). rewrite align_down_4 by (rewrite P2; lia). rewrite US.
  rewrite B4. cbn [Z.eqb negb]. unfold size_min, size_max. assert (F12 : 2 ^ 12 <= 2 ^ F) by (apply Z.pow_le_mono_r; lia). change (2 ^ 12) with 4096 in F12.
  replace ((2 ^ F <? 12) || (2 ^ F <? 2 ^ F)) with false by lia.
  assert (OB : offset_to_block base (u32 (-4)) = base - 4). { unfold offset_to_block, u32. rewrite Zplus_mod_idemp_r. rewrite ?P2. rewrite Z.mod_small by lia. ring. }
  rewrite OB. destruct (word_junk_size (mem s base) (2 ^ F) P4) as (f0 & q0 & J0).
  assert (BS : block_size (block_set_prev_used (block_set_free (block_set_size s (base - 4) (2 ^ F)) (base - 4)) (base - 4)) (base - 4) = 2 ^ F).
  { unfold block_size, block_set_prev_used, block_set_free, block_set_size, rd. replace (base - 4 + 4) with base by ring. rewrite !wr_same, J0, word_set_free by exact P4.
    rewrite word_clr_prev by (try exact P4; rewrite P2; lia). apply word_size; [exact P4|rewrite P2; lia]. }
  set (t := block_set_prev_used _ _) in *. unfold block_insert. rewrite BS. pose proof (mapping_fl_over K F (2 ^ F) ltac:(lia) ltac:(lia) ltac:(lia)) as FL.
  destruct (mapping_insert K (2 ^ F)) as [fl sl]. cbn [fst] in FL. unfold insert_free_block, get_head. replace ((0 <=? fl) && (fl <? FLC K F) && (0 <=? sl) && (sl <? SLC K)) with false by lia. reflexivity.
Qed.

(** *** The invariant *)
Definition up (P : list (Z * Z)) : list (Z * Z) := map (fun x => (fst x, usable (snd x))) P.

Record Good (s : st) (P A : list (Z * Z)) (H : heap) (L : Z -> Z -> list Z) : Prop := {
  d_wf : WF K F ctl (up P) s H none L;
  d_pool : forall b n, In (b, n) P -> b mod 4 = 0 /\ 8 <= b /\ 20 <= n < 2 ^ F + 8 /\ b + n <= 2 ^ 32 /\ apart b n ctl (ctl_bytes K F);
  d_apart : forall b n b' n', In (b, n) P -> In (b', n') P -> (b, n) = (b', n') \/ apart b n b' n';
  d_live : forall p n, In (p, n) A -> 0 < n /\ exists m, Used H (p - 8) m /\ rounded n <= m;
  d_leak : forall u m, Used H u m -> 0 < m -> exists n, In (u + 8, n) A;
  d_nodup : NoDup (map fst A) }.

Lemma usable_spec n : 20 <= n -> 12 <= usable n /\ usable n <= n - 8 /\ usable n mod 4 = 0 /\ n - 12 < usable n.
Proof. intro R. unfold usable. lia. Qed.
Lemma ctl_16 : 16 <= ctl_bytes K F.
Proof. pose proof (FLC_range K F HK HF). pose proof (SLC_range K HK). unfold ctl_bytes. nia. Qed.
Lemma in_up P m n : In (m, n) (up P) <-> exists q, In (m, q) P /\ n = usable q.
Proof.
  unfold up. rewrite in_map_iff. split.
  - intros ((b & q) & E & I). injection E as <- <-. exists q. auto.
  - intros (q & I & ->). exists (m, q). auto.
Qed.

Section At.
Variables (s : st) (P A : list (Z * Z)) (H : heap) (L : Z -> Z -> list Z).
Hypothesis G : Good s P A H L.
Let W := d_wf _ _ _ _ _ G.

Lemma hp : forall m n, In (m, n) (up P) -> 12 <= n < 2 ^ F /\ m + n + 8 <= 2 ^ 32.
Proof.
  intros m n I. apply in_up in I. destruct I as (q & I & ->). destruct (d_pool _ _ _ _ _ G m q I) as (_ & _ & B & C & _). pose proof (usable_spec q ltac:(lia)). lia.
Qed.
Lemma hd0 : forall m n m' n', In (m, n) (up P) -> In (m', n') (up P) -> (m, n) = (m', n') \/ m + n + 8 <= m' \/ m' + n' + 8 <= m.
Proof.
  intros m n m' n' I I'. apply in_up in I, I'. destruct I as (q & I & ->). destruct I' as (q' & I' & ->).
  destruct (d_pool _ _ _ _ _ G m q I) as (_ & _ & B & _). destruct (d_pool _ _ _ _ _ G m' q' I') as (_ & _ & B' & _).
  pose proof (usable_spec q ltac:(lia)). pose proof (usable_spec q' ltac:(lia)).
  destruct (d_apart _ _ _ _ _ G m q m' q' I I') as [E|[E|E]]; [injection E as -> ->; left; reflexivity|right; left; lia|right; right; lia].
Qed.
Lemma safe_owned a : owned A a -> exists u n, Used H u n /\ u + 8 <= a < u + 8 + n.
Proof.
  intros (p & n & I & R). destruct (d_live _ _ _ _ _ G p n I) as (N & m & U & M). exists (p - 8), m. split; [exact U|]. unfold rounded in M. lia.
Qed.
Lemma safe_foreign a : foreign K F ctl P a -> Foreign ctl (up P) a.
Proof.
  intros [A1 A2]. pose proof ctl_16. split; [|lia]. intros m n I. apply in_up in I. destruct I as (q & I & ->). destruct (d_pool _ _ _ _ _ G m q I) as (_ & _ & B & _).
  pose proof (usable_spec q ltac:(lia)). destruct (A2 m q I); lia.
Qed.
Lemma safe_of a : owned A a \/ foreign K F ctl P a -> Safe ctl (up P) H a.
Proof. intros [Q|Q]; [right; exact (safe_owned a Q)|left; exact (safe_foreign a Q)]. Qed.

Lemma live_range p n : In (p, n) A -> 8 < p /\ p mod 4 = 0 /\ within P p n /\ p + n <= 2 ^ 32.
Proof.
  intro I. destruct (d_live _ _ _ _ _ G p n I) as (N & m & (q & U) & M).
  pose proof (r_range K F ctl (up P) HK HF hp hd0 s H none L W _ _ U) as R. cbn [sz] in R.
  split; [lia|]. split; [clear - R; lia|].
  destruct (q_in (up P) H (w_pool _ _ _ _ _ _ _ _ W) _ _ U) as (b & w & IB & B1 & B2). cbn [sz] in B2. unfold rounded in M.
  apply in_up in IB. destruct IB as (bytes & IB & ->). destruct (d_pool _ _ _ _ _ G b bytes IB) as (_ & _ & B & _). pose proof (usable_spec bytes ltac:(lia)).
  split; [exists b, bytes; split; [exact IB|lia]|lia].
Qed.
Lemma live_apart p n q m : In (p, n) A -> In (q, m) A -> p <> q -> apart p n q m.
Proof.
  intros I J N. destruct (d_live _ _ _ _ _ G p n I) as (N1 & m1 & (q1 & U1) & M1). destruct (d_live _ _ _ _ _ G q m J) as (N2 & m2 & (q2 & U2) & M2).
  pose proof (g_disj F ctl H (w_geo _ _ _ _ _ _ _ _ W) _ _ _ _ U1 U2 ltac:(lia)) as D. cbn [sz] in D. unfold rounded in M1, M2. unfold apart. lia.
Qed.
Lemma live_used p n : In (p, n) A -> exists m, Used H (p - 8) m /\ 0 < m /\ rounded n <= m.
Proof. intro I. destruct (d_live _ _ _ _ _ G p n I) as (N & m & U & M). exists m. unfold rounded in *. split; [exact U|lia]. Qed.
Lemma live_new u : (forall m, ~ Used H u m) -> ~ In (u + 8) (map fst A).
Proof.
  intros NU Q. apply in_map_iff in Q. destruct Q as ((p & n) & E & I). cbn in E. subst p. destruct (live_used (u + 8) n I) as (m & U & _). replace (u + 8 - 8) with u in U by ring. exact (NU m U).
Qed.
Lemma hp_good : forall b n, In (b, n) P -> b mod 4 = 0 /\ 8 <= b /\ 20 <= n < 2 ^ F + 8 /\ b + n <= 2 ^ 32 /\ apart b n ctl (ctl_bytes K F). Proof. exact (d_pool _ _ _ _ _ G). Qed.

(* adding a live block *)
Lemma good_take s' H' L' u m size : WF K F ctl (up P) s' H' none L' -> (forall m, ~ Used H u m) -> Used H' u m -> 0 < size -> rounded size <= m ->
  (forall v k, v <> u -> (Used H' v k <-> Used H v k)) -> Good s' P ((u + 8, size) :: A) H' L'.
Proof.
  intros W' NU U S M UO. constructor; try apply G; try exact W'.
  - intros p n [Q|Q].
    + injection Q as <- <-. split; [exact S|]. exists m. replace (u + 8 - 8) with u by ring. auto.
    + destruct (d_live _ _ _ _ _ G p n Q) as (N & k & U1 & M1). split; [exact N|]. exists k. split; [|exact M1]. apply UO; [|exact U1]. intro Q1. rewrite Q1 in U1. exact (NU k U1).
  - intros v k U1 K0. destruct (Z.eq_dec v u) as [->|N]; [exists size; left; reflexivity|]. apply UO in U1; [|exact N]. destruct (d_leak _ _ _ _ _ G v k U1 K0) as (n & I). exists n. right. exact I.
  - cbn. constructor; [apply live_new; exact NU|apply G].
Qed.
Lemma in_drop p q n : In (q, n) (drop p A) <-> In (q, n) A /\ q <> p.
Proof. unfold drop. rewrite filter_In. cbn. rewrite negb_true_iff, Z.eqb_neq. reflexivity. Qed.
Lemma nodup_drop p : NoDup (map fst (drop p A)).
Proof.
  pose proof (d_nodup _ _ _ _ _ G) as N. unfold drop. clear - N. induction A as [|[q n] r IH]; cbn in *; [constructor|].
  apply NoDup_cons_iff in N. destruct N as [N1 N2]. destruct (negb (q =? p)); cbn; [|apply IH; exact N2]. constructor; [|apply IH; exact N2].
  intro Q. apply N1. apply in_map_iff in Q. destruct Q as (x & E & I). apply filter_In in I. apply in_map_iff. exists x. tauto.
Qed.
Lemma good_drop s' H' L' u : WF K F ctl (up P) s' H' none L' -> (forall v k, Used H' v k <-> v <> u /\ Used H v k) -> Good s' P (drop (u + 8) A) H' L'.
Proof.
  intros W' UO. constructor; try apply G; try exact W'.
  - intros p n Q. apply in_drop in Q. destruct Q as [Q NP]. destruct (d_live _ _ _ _ _ G p n Q) as (N & k & U1 & M1). split; [exact N|]. exists k. split; [|exact M1]. apply UO. split; [lia|exact U1].
  - intros v k U1 K0. apply UO in U1. destruct U1 as [N U1]. destruct (d_leak _ _ _ _ _ G v k U1 K0) as (n & I). exists n. apply in_drop. split; [exact I|lia].
  - apply nodup_drop.
Qed.
End At.

(** *** Every operation *)
Lemma good_create m : Good (control_construct ctl m) [] [] empty (fun _ _ => []).
Proof.
  constructor.
  - exact (construct_ok K F ctl HK HF m).
  - intros b n [].
  - intros b n b' n' [].
  - intros p n [].
  - intros u m' (q & Q). discriminate.
  - constructor.
Qed.

Lemma good_pool s P A H L base bytes : Good s P A H L -> pool_ok K F ctl P base bytes ->
  exists s' H' L', tlsf_add_pool K F ctl s base bytes = Some (s', base) /\ Good s' ((base, bytes) :: P) A H' L' /\ untouched K F ctl ((base, bytes) :: P) A s s'.
Proof.
  intros G (B4 & B8 & N20 & NF & TOP & AC & AP). pose proof (usable_spec bytes N20) as US. pose proof ctl_16 as C16.
  assert (P31 : 2 ^ F <= 2 ^ 29) by (apply Z.pow_le_mono_r; unfold configuration in HC; lia). change (2 ^ 29) with 536870912 in P31.
  assert (X1 : forall m q, In (m, q) (up P) -> m + q + 8 <= base \/ base + usable bytes + 8 <= m).
  { intros m q I. apply in_up in I. destruct I as (q0 & I & ->). destruct (d_pool _ _ _ _ _ G m q0 I) as (_ & _ & B & _). pose proof (usable_spec q0 ltac:(lia)).
    destruct (AP m q0 I); lia. }
  assert (X2 : ctl + 16 <= base \/ base + usable bytes + 8 <= ctl) by (unfold apart in AC; lia).
  assert (X3 : base + usable bytes + 8 <= 2 ^ 32) by lia.
  assert (X4 : 8 <= bytes < 2 ^ 32) by (change (2 ^ 32) with 4294967296; lia).
  assert (X5 : usable bytes mod 4 = 0) by tauto.
  assert (X6 : 12 <= usable bytes < 2 ^ F) by (clear - US NF; lia).
  destruct (add_pool_ok K F ctl HK HF (up P) (hp s P A H L G) (hd0 s P A H L G) s H L base (usable bytes) (d_wf _ _ _ _ _ G) B4 B8 X5 X6 X3 X1 X2 bytes eq_refl X4)
    as (s' & L' & E & W' & U & FA).
    assert (LV : forall p n, In (p, n) A -> 0 < n /\ exists m, Used (hset (hset H (base - 4) (Some (Blk (usable bytes) true false))) (base + usable bytes) (Some (Blk 0 false true))) (p - 8) m /\ rounded n <= m).
    { intros p n I. destruct (d_live _ _ _ _ _ G p n I) as (N & m & U1 & M1). split; [exact N|]. exists m. split; [apply U; left; exact U1|exact M1]. }
    eexists s', _, L'. split; [exact E|]. assert (GG : Good s' ((base, bytes) :: P) A (hset (hset H (base - 4) (Some (Blk (usable bytes) true false))) (base + usable bytes) (Some (Blk 0 false true))) L').
    { constructor; try assumption.
      - intros b n [Q|Q]; [injection Q as <- <-; repeat split; try assumption; lia|apply (d_pool _ _ _ _ _ G b n Q)].
      - intros b n b' n' [Q|Q] [Q'|Q'].
        + left. congruence.
        + injection Q as <- <-. right. apply AP. exact Q'.
        + injection Q' as <- <-. right. destruct (AP b n Q); [right|left]; assumption.
        + apply (d_apart _ _ _ _ _ G); assumption.
      - intros u m U1 M0. apply U in U1. destruct U1 as [U1|[_ ->]]; [|lia]. apply (d_leak _ _ _ _ _ G u m U1 M0).
      - apply G. }
    split; [exact GG|]. intros a OW. apply FA. apply (safe_of s' _ A _ L' GG a OW).
Qed.

Lemma good_malloc s P A H L size : Good s P A H L -> request_ok K F size ->
  exists s' p H' L', tlsf_malloc K F ctl s size = Some (s', p) /\ Good s' P (take p size A) H' L' /\ untouched K F ctl P A s s' /\ (p <> 0 -> 0 < size <= max_request K F) /\
   (p = 0 -> s' = s /\ (0 < size <= max_request K F -> forall y k, H y = Some k -> fr k = true -> sz k < goal K (rounded size))).
Proof.
  intros G RO. pose proof (d_wf _ _ _ _ _ G) as W. destruct max_lt as (ML & _ & _).
  assert (C : (size = 0 \/ 2 ^ F <= size) \/ 0 < size <= max_request K F) by (unfold request_ok in RO; lia). destruct C as [C|C].
  { exists s, 0, H, L. split; [apply (malloc_null K F ctl (up P) HK HF (hp _ _ _ _ _ G) (hd0 _ _ _ _ _ G)); exact C|]. split; [exact G|]. split; [intros a _; reflexivity|]. split; [congruence|]. intros _. split; [reflexivity|]. lia. }
  destruct (malloc_ok K F ctl (up P) HK HF (hp _ _ _ _ _ G) (hd0 _ _ _ _ _ G) s H L size W ltac:(lia) (goal_fit size C)) as (s' & p & E & [(-> & -> & NO)|(H' & L' & b & k & m & -> & W' & EB & FB & _ & UB & M & UO & FA)]).
  - exists s, 0, H, L. split; [exact E|]. split; [exact G|]. split; [intros a _; reflexivity|]. split; [congruence|]. intros _. split; [reflexivity|]. intros _. exact NO.
  - exists s', (b + 8), H', L'. pose proof (r_range K F ctl (up P) HK HF (hp _ _ _ _ _ G) (hd0 _ _ _ _ _ G) s H none L W b k EB) as R.
    split; [exact E|]. split; [|split; [|split; [intros _; exact C|lia]]].
    + unfold take. replace (b + 8 =? 0) with false by lia. apply (good_take s P A H L G s' H' L' b m size W'); try assumption; try lia; [|unfold rounded; unfold fit in M; lia].
      intros m' (q & Q). rewrite EB in Q. injection Q as ->. discriminate.
    + intros a OW. apply FA. apply (safe_of s P A H L G a OW).
Qed.

Lemma good_memalign s P A H L e size : Good s P A H L -> aligned_request_ok K F e size ->
  exists s' p H' L', tlsf_memalign K F ctl s (2 ^ e) size = Some (s', p) /\ Good s' P (take p size A) H' L' /\ untouched K F ctl P A s s' /\ p mod 2 ^ e = 0 /\ (p <> 0 -> 0 < size) /\ (p = 0 -> s' = s) /\
   (p = 0 -> 0 < size -> rounded_for e size <= max_request K F -> forall y k, H y = Some k -> fr k = true -> sz k < goal K (rounded_for e size)).
Proof.
  intros G (HE & RO). pose proof (d_wf _ _ _ _ _ G) as W. destruct max_lt as (ML & _ & _). assert (PE : 0 < 2 ^ e) by (apply pow_pos; lia).
  assert (MF : 2 < e -> rounded size + 2 ^ e + 16 <= rounded_for e size). { intro E2. unfold rounded_for. replace (e <=? 2) with false by lia. pose proof (upz (rounded size + 2 ^ e + 16) (2 ^ e) PE). lia. }
  assert (C : (size = 0 \/ 2 ^ F <= size \/ (0 < size < 2 ^ F /\ 2 < e /\ 2 ^ F <= rounded size + 2 ^ e + 16)) \/ (0 < size < 2 ^ F /\ rounded_for e size <= max_request K F)) by lia.
  destruct C as [C|[C1 C2]].
  { exists s, 0, H, L. split; [apply (memalign_null K F ctl (up P) HK HF (hp _ _ _ _ _ G) (hd0 _ _ _ _ _ G)); assumption|]. split; [exact G|]. split; [intros a _; reflexivity|]. split; [apply Z.mod_0_l; lia|]. split; [congruence|]. split; [reflexivity|].
    intros _ S0 RM. destruct C as [C|[C|(C1 & C2 & C3)]]; [lia| |specialize (MF C2); lia].
    exfalso. assert (size <= rounded size) by (unfold rounded; lia). destruct (Z.le_gt_cases e 2) as [E2|E2]; [unfold rounded_for in RM; replace (e <=? 2) with true in RM by lia; lia|specialize (MF ltac:(lia)); lia]. }
  assert (HG : e <= 2 \/ fit size + 2 ^ e + 16 < 2 ^ F). { destruct (Z.le_gt_cases e 2) as [E2|E2]; [left; exact E2|right]. specialize (MF ltac:(lia)). change (fit size) with (rounded size). lia. }
  assert (GM : goal K (mfit e size) < 2 ^ F).
  { apply goal_max. change (mfit e size) with (rounded_for e size). split; [|exact C2]. destruct (Z.le_gt_cases e 2) as [E2|E2]; [unfold rounded_for; replace (e <=? 2) with true by lia; unfold rounded; lia|specialize (MF ltac:(lia)); unfold rounded in *; lia]. }
  destruct (memalign_ok K F ctl (up P) HK HF (hp _ _ _ _ _ G) (hd0 _ _ _ _ _ G) s H L e size W HE C1 HG GM) as (s' & p & E & [(-> & -> & NO)|(H' & L' & b & m & -> & W' & NU & UB & M & AL & UO & FA)]).
  - exists s, 0, H, L. split; [exact E|]. split; [exact G|]. split; [intros a _; reflexivity|]. split; [apply Z.mod_0_l; lia|]. split; [lia|]. split; [reflexivity|]. intros _ _ _. exact NO.
  - exists s', (b + 8), H', L'. pose proof UB as (q & EB). pose proof (r_range K F ctl (up P) HK HF (hp _ _ _ _ _ G) (hd0 _ _ _ _ _ G) s' H' none L' W' b _ EB) as R.
    split; [exact E|]. split; [|split; [|split; [exact AL|split; [intros _; lia|split; lia]]]].
    + unfold take. replace (b + 8 =? 0) with false by lia. apply (good_take s P A H L G s' H' L' b m size W'); try assumption; try lia; [|unfold rounded; unfold fit in M; lia].
      intros m' Q. apply NU. exists m'. exact Q.
    + intros a OW. apply FA. apply (safe_of s P A H L G a OW).
Qed.

Lemma owned_drop A a p n : In (p, n) A -> owned (drop p A) a -> owned A a.
Proof. intros I (q & m & Q & R). unfold drop in Q. apply filter_In in Q. exists q, m. tauto. Qed.

Lemma good_free s P A H L p n : Good s P A H L -> In (p, n) A ->
  exists s' H' L', tlsf_free K F ctl s p = Some s' /\ Good s' P (drop p A) H' L' /\ untouched K F ctl P (drop p A) s s'.
Proof.
  intros G I. destruct (live_used s P A H L G p n I) as (m & U & M0 & M).
  destruct (free_ok K F ctl (up P) HK HF (hp _ _ _ _ _ G) (hd0 _ _ _ _ _ G) s H L (p - 8) m (d_wf _ _ _ _ _ G) U M0) as (s' & H' & L' & E & W' & UO & FA).
  replace (p - 8 + 8) with p in E by ring. pose proof (good_drop s P A H L G s' H' L' (p - 8) W' UO) as G'. replace (p - 8 + 8) with p in G' by ring.
  exists s', H', L'. split; [exact E|]. split; [exact G'|]. intros a OW. apply FA. apply (safe_of s' P _ H' L' G' a OW).
Qed.

Lemma good_realloc s P A H L p n size : Good s P A H L -> In (p, n) A -> 0 < size <= max_request K F ->
  exists s' q H' L', tlsf_realloc K F ctl s p size = Some (s', q) /\ Good s' P (if q =? 0 then A else (q, size) :: drop p A) H' L' /\ untouched K F ctl P (drop p A) s s' /\
   (q = 0 -> s' = s) /\ (q <> 0 -> forall i, 0 <= i -> 4 * i < Z.min n size -> mem s' (q + 4 * i) = mem s (p + 4 * i)) /\
   (q = 0 -> n < rounded size /\ forall y k, H y = Some k -> fr k = true -> sz k < goal K (rounded size)).
Proof.
  intros G I S. pose proof (d_wf _ _ _ _ _ G) as W. destruct max_lt as (ML & _ & _). destruct (live_used s P A H L G p n I) as (m & U & M0 & M). destruct (live_range s P A H L G p n I) as (P8 & _).
  assert (NM : n <= m) by (unfold rounded in M; lia).
  destruct (realloc_ok K F ctl (up P) HK HF (hp _ _ _ _ _ G) (hd0 _ _ _ _ _ G) s H L (p - 8) m size W U M0 ltac:(lia) (goal_fit size S)) as (s' & q & E & C).
  replace (p - 8 + 8) with p in * by ring.
  destruct C as [(-> & -> & NM2 & NO)|[(-> & H' & L' & m' & W' & U' & M' & UO & FA)|(H' & L' & c & m' & -> & CB & NM2 & NU & W' & U' & M' & UO & FA & CO)]].
  - exists s, 0, H, L. split; [exact E|]. split; [exact G|]. split; [intros a _; reflexivity|]. split; [reflexivity|]. split; [congruence|]. intros _. split; [unfold rounded; unfold fit in NM2; lia|exact NO].
  - exists s', p, H', L'. replace (p =? 0) with false by lia.
    assert (G' : Good s' P ((p, size) :: drop p A) H' L').
    { constructor; try apply G; try exact W'.
      - intros p' n' [Q|Q].
        + injection Q as <- <-. split; [lia|]. exists m'. split; [exact U'|unfold rounded; unfold fit in M'; lia].
        + apply in_drop in Q. destruct Q as [Q NP]. destruct (d_live _ _ _ _ _ G p' n' Q) as (N1 & k & U1 & M1). split; [exact N1|]. exists k. split; [|exact M1]. apply UO; [lia|exact U1].
      - intros v k U1 K0. destruct (Z.eq_dec v (p - 8)) as [->|N]; [exists size; left; f_equal; ring|]. apply UO in U1; [|exact N]. destruct (d_leak _ _ _ _ _ G v k U1 K0) as (n1 & I1). exists n1. right. apply in_drop. split; [exact I1|lia].
      - cbn. constructor; [|apply (nodup_drop s P A H L G p)]. intro Q. apply in_map_iff in Q. destruct Q as ((x & y) & E1 & E2). cbn in E1. subst x. apply in_drop in E2. tauto. }
    split; [exact E|]. split; [exact G'|]. split; [|split; [lia|split; [|lia]]].
    + intros a OW. apply FA; [apply (safe_of s P A H L G); destruct OW as [OW|OW]; [left; apply (owned_drop A a p n I OW)|right; exact OW]|].
      apply (safe_of s' P _ H' L' G'). destruct OW as [(x & y & OX & R)|OW]; [left; exists x, y; split; [right; exact OX|exact R]|right; exact OW].
    + intros _ i I0 I1. apply FA; [right; exists (p - 8), m; split; [exact U|lia]|right; exists (p - 8), m'; split; [exact U'|]]. unfold fit in M'. lia.
  - pose proof U' as (q' & EC). pose proof (r_range K F ctl (up P) HK HF (hp _ _ _ _ _ G) (hd0 _ _ _ _ _ G) s' H' none L' W' c _ EC) as R.
    exists s', (c + 8), H', L'. replace (c + 8 =? 0) with false by lia.
    assert (G' : Good s' P ((c + 8, size) :: drop p A) H' L').
    { constructor; try apply G; try exact W'.
      - intros p' n' [Q|Q].
        + injection Q as <- <-. split; [lia|]. exists m'. replace (c + 8 - 8) with c by ring. split; [exact U'|unfold rounded; unfold fit in M'; lia].
        + apply in_drop in Q. destruct Q as [Q NP]. destruct (d_live _ _ _ _ _ G p' n' Q) as (N1 & k & U1 & M1). split; [exact N1|]. exists k. split; [|exact M1].
          apply UO; [intros QC; apply NU; exists k; rewrite <- QC; exact U1|]. split; [lia|exact U1].
      - intros v k U1 K0. destruct (Z.eq_dec v c) as [->|N]; [exists size; left; reflexivity|]. apply UO in U1; [|exact N]. destruct U1 as [NV U1]. destruct (d_leak _ _ _ _ _ G v k U1 K0) as (n1 & I1). exists n1. right. apply in_drop. split; [exact I1|lia].
      - cbn. constructor; [|apply (nodup_drop s P A H L G p)]. intro Q. apply in_map_iff in Q. destruct Q as ((x & y) & E1 & E2). cbn in E1. subst x. apply in_drop in E2.
        apply (live_new s P A H L G c); [intros k Q; apply NU; exists k; exact Q|]. apply in_map_iff. exists (c + 8, y). split; [reflexivity|tauto]. }
    split; [exact E|]. split; [exact G'|]. split; [|split; [lia|split; [|lia]]].
    + intros a OW. apply FA; [apply (safe_of s P A H L G); destruct OW as [OW|OW]; [left; apply (owned_drop A a p n I OW)|right; exact OW]|].
      apply (safe_of s' P _ H' L' G'). destruct OW as [(x & y & OX & R')|OW]; [left; exists x, y; split; [right; exact OX|exact R']|right; exact OW].
    + intros _ i I0 I1. apply CO; lia.
Qed.

Lemma good_write s P A H L a v : Good s P A H L -> owned A a \/ foreign K F ctl P a -> Good (wr s a v) P A H L.
Proof.
  intros G OW. constructor; try apply G. apply (wf_client K F ctl (up P) HK HF (hp _ _ _ _ _ G) (hd0 _ _ _ _ _ G) s (wr s a v) H none L (d_wf _ _ _ _ _ G)); try reflexivity.
  intro x. destruct (Z.eq_dec x a) as [->|N]; [right; apply (safe_of s P A H L G a OW)|left; apply wr_other; exact N].
Qed.

Lemma reach_good s P A : reach K F ctl s P A -> exists H L, Good s P A H L.
Proof.
  induction 1 as [m|s P A base bytes s' p R (H & L & G) PO E|s P A size s' p R (H & L & G) RO E|s P A e size s' p R (H & L & G) RO E|s P A p n s' R (H & L & G) I E|s P A p n size s' q R (H & L & G) I SZ E|s P A a v R (H & L & G) M4 OW].
  - eexists _, _. apply good_create.
  - destruct (good_pool s P A H L base bytes G PO) as (s1 & H1 & L1 & E1 & G1 & _). rewrite E in E1. injection E1 as -> _. exists H1, L1. exact G1.
  - destruct (good_malloc s P A H L size G RO) as (s1 & p1 & H1 & L1 & E1 & G1 & _). rewrite E in E1. injection E1 as -> ->. exists H1, L1. exact G1.
  - destruct (good_memalign s P A H L e size G RO) as (s1 & p1 & H1 & L1 & E1 & G1 & _). rewrite E in E1. injection E1 as -> ->. exists H1, L1. exact G1.
  - destruct (good_free s P A H L p n G I) as (s1 & H1 & L1 & E1 & G1 & _). rewrite E in E1. injection E1 as ->. exists H1, L1. exact G1.
  - destruct (good_realloc s P A H L p n size G I SZ) as (s1 & q1 & H1 & L1 & E1 & G1 & _). rewrite E in E1. injection E1 as -> ->. exists H1, L1. exact G1.
  - exists H, L. apply good_write; assumption.
Qed.

(** *** The walk over a pool *)
Lemma word_at s b z f q : mem s (b + 4) = word z f q -> z mod 4 = 0 -> size_at s b = z /\ free_at s b = f.
Proof.
  intros M Z4. unfold size_at, free_at. rewrite M. unfold word. split; [destruct f, q; cbn; clear - Z4; lia|].
  replace (z + Z.b2z f + 2 * Z.b2z q) with (Z.b2z f + 2 * (z / 4 * 2 + Z.b2z q)) by (clear - Z4; lia). rewrite Z.odd_add_mul_2. destruct f; reflexivity.
Qed.

Section Walk.
Variables (s : st) (P A : list (Z * Z)) (H : heap) (L : Z -> Z -> list Z).
Hypothesis G : Good s P A H L.
Let W := d_wf _ _ _ _ _ G.

Lemma at_block b k : H b = Some k -> size_at s b = sz k /\ free_at s b = fr k.
Proof.
  intro E. apply (word_at s b (sz k) (fr k) (pf k)); [apply (r_word K F ctl (up P) s H none L W b k E)|]. apply (g_align F ctl H (w_geo _ _ _ _ _ _ _ _ W) b k E).
Qed.
Lemma walk_in base bytes b : In (base, bytes) P -> walk s base b -> exists k, H b = Some k /\ base <= b + 4 /\ b <= base + usable bytes.
Proof.
  intros I. assert (IU : In (base, usable bytes) (up P)) by (apply in_up; exists bytes; auto).
  induction 1 as [|b WB (k & E & LO & HI) SZ].
  - destruct (q_first (up P) H (w_pool _ _ _ _ _ _ _ _ W) base _ IU) as (k & E & _). exists k. pose proof (hp s P A H L G base _ IU). split; [exact E|lia].
  - destruct (at_block b k E) as [S1 _]. rewrite S1 in *.
    assert (S0 : 0 < sz k) by (pose proof (size_pos K F ctl HK HF H (w_geo _ _ _ _ _ _ _ _ W) b k E); lia).
    destruct (g_next F ctl H (w_geo _ _ _ _ _ _ _ _ W) b k E S0) as (k' & E'). exists k'. split; [exact E'|].
    destruct (q_in (up P) H (w_pool _ _ _ _ _ _ _ _ W) b k E) as (m & w & IM & A1 & [A2|A2]); [lia|].
    pose proof (hp s P A H L G base _ IU) as [HB _]. pose proof (hp s P A H L G m _ IM) as [HM _].
    assert (SAME : base = m /\ usable bytes = w).
    { destruct (hd0 s P A H L G base _ m w IU IM) as [Q|Q]; [injection Q as -> ->; auto|]. exfalso. lia. }
    lia.
Qed.
(* every block of a pool is found *)
Lemma walk_all base bytes u ku : In (base, bytes) P -> H u = Some ku -> base <= u + 4 -> u <= base + usable bytes -> walk s base u.
Proof.
  intros I E LO HI. assert (IU : In (base, usable bytes) (up P)) by (apply in_up; exists bytes; auto).
  pose proof (w_geo _ _ _ _ _ _ _ _ W) as GE.
  assert (ST : forall n b, u - b <= Z.of_nat n -> walk s base b -> b <= u -> walk s base u).
  { induction n as [|n IH]; intros b D WB LE; [replace u with b by lia; exact WB|].
    destruct (Z.eq_dec b u) as [->|N]; [exact WB|]. destruct (walk_in base bytes b I WB) as (k & EB & B1 & B2). destruct (at_block b k EB) as [S1 _].
    pose proof (g_disj F ctl H GE b u k ku EB E N) as DJ. pose proof (size_pos K F ctl HK HF H GE b k EB) as SP. pose proof (size_pos K F ctl HK HF H GE u ku E) as SU.
    assert (SZ : sz k <> 0).
    { intro Z0. destruct (q_in (up P) H (w_pool _ _ _ _ _ _ _ _ W) b k EB) as (m & w & IM & A1 & [A2|A2]); [|lia].
      pose proof (hp s P A H L G base _ IU) as [HB _]. pose proof (hp s P A H L G m _ IM) as [HM _].
      destruct (hd0 s P A H L G base _ m w IU IM) as [Q|Q]; [injection Q as Q1 Q2|]; lia. }
    apply (IH (b + 4 + size_at s b)); [lia|apply w_next; [exact WB|lia]|lia]. }
  destruct (q_first (up P) H (w_pool _ _ _ _ _ _ _ _ W) base _ IU) as (k & E1 & S1).
  apply (ST (Z.to_nat (u - (base - 4))) (base - 4)); [lia|apply w_first|lia].
Qed.
Lemma walk_coalesced base bytes b : In (base, bytes) P -> walk s base b -> free_at s b = true -> free_at s (b + 4 + size_at s b) = false /\ 12 <= size_at s b.
Proof.
  intros I WB FB. destruct (walk_in base bytes b I WB) as (k & E & _). destruct (at_block b k E) as [S1 F1]. rewrite S1, F1 in *.
  destruct (free_next K F ctl (up P) (hp _ _ _ _ _ G) (hd0 _ _ _ _ _ G) s H L b k W E FB) as (kn & EN & FN). destruct (at_block _ kn EN) as [_ F2]. rewrite F2.
  split; [exact FN|]. apply (free_size F ctl H (w_geo _ _ _ _ _ _ _ _ W) b k E FB).
Qed.
Lemma walk_live base bytes b : In (base, bytes) P -> walk s base b -> free_at s b = false -> size_at s b <> 0 -> exists n, In (b + 8, n) A.
Proof.
  intros I WB FB SZ. destruct (walk_in base bytes b I WB) as (k & E & _). destruct (at_block b k E) as [S1 F1]. rewrite S1, F1 in *.
  apply (d_leak _ _ _ _ _ G b (sz k)); [apply used_blk; assumption|]. pose proof (size_pos K F ctl HK HF H (w_geo _ _ _ _ _ _ _ _ W) b k E). lia.
Qed.
Lemma live_walk p n : In (p, n) A -> exists base bytes, In (base, bytes) P /\ walk s base (p - 8) /\ free_at s (p - 8) = false /\ n <= size_at s (p - 8).
Proof.
  intro I. destruct (live_used s P A H L G p n I) as (m & (q & U) & M0 & M). destruct (q_in (up P) H (w_pool _ _ _ _ _ _ _ _ W) _ _ U) as (b & w & IB & B1 & B2). cbn [sz] in B2.
  pose proof IB as IB'. apply in_up in IB. destruct IB as (bytes & IB & ->). exists b, bytes. split; [exact IB|]. split; [apply (walk_all b bytes (p - 8) _ IB U); lia|].
  destruct (at_block _ _ U) as [-> ->]. cbn. split; [reflexivity|]. unfold rounded in M. lia.
Qed.
Lemma all_free base bytes : A = [] -> In (base, bytes) P -> free_at s (base - 4) = true /\ size_at s (base - 4) = usable bytes.
Proof.
  intros NA I. assert (IU : In (base, usable bytes) (up P)) by (apply in_up; exists bytes; auto).
  assert (NU : forall u k, H u = Some k -> 0 < sz k -> fr k = true).
  { intros u k E S0. destruct (fr k) eqn:Q; [reflexivity|]. destruct (d_leak _ _ _ _ _ G u (sz k) (used_blk H u k E Q) S0) as (n & IN). rewrite NA in IN. destruct IN. }
  destruct (q_first (up P) H (w_pool _ _ _ _ _ _ _ _ W) base _ IU) as (k & E & S0). pose proof (NU _ _ E ltac:(lia)) as FK.
  destruct (at_block _ _ E) as [-> ->]. split; [exact FK|].
  destruct (free_next K F ctl (up P) (hp _ _ _ _ _ G) (hd0 _ _ _ _ _ G) s H L _ k W E FK) as (kn & EN & FN).
  assert (SN : sz kn = 0). { pose proof (size_pos K F ctl HK HF H (w_geo _ _ _ _ _ _ _ _ W) _ kn EN). destruct (Z.eq_dec (sz kn) 0) as [|N]; [assumption|]. rewrite (NU _ _ EN ltac:(lia)) in FN. discriminate. }
  destruct (q_in (up P) H (w_pool _ _ _ _ _ _ _ _ W) _ kn EN) as (m & w & IM & A1 & [A2|A2]); [|lia].
  destruct (q_in (up P) H (w_pool _ _ _ _ _ _ _ _ W) _ k E) as (m' & w' & IM' & A1' & [A2'|A2']); [lia|].
  pose proof (hp s P A H L G base _ IU) as [HB _]. pose proof (hp s P A H L G m _ IM) as [HM _]. pose proof (hp s P A H L G m' _ IM') as [HM' _].
  assert (Q : base = m' /\ usable bytes = w') by (destruct (hd0 s P A H L G base _ m' w' IU IM') as [Q|Q]; [injection Q as -> ->; auto|exfalso; lia]). destruct Q as [Q1 Q2].
  assert (Q : base = m /\ usable bytes = w) by (destruct (hd0 s P A H L G base _ m w IU IM) as [Q|Q]; [injection Q as -> ->; auto|exfalso; lia]). lia.
Qed.
Lemma suitable_block size : suitable K P s size -> 0 < size -> exists y k, H y = Some k /\ fr k = true /\ goal K size <= sz k.
Proof.
  intros (base & bytes & b & I & WB & FB & SZ) S0. destruct (walk_in base bytes b I WB) as (k & E & _). destruct (at_block b k E) as [S1 F1]. rewrite S1, F1 in *.
  exists b, k. split; [exact E|]. split; [exact FB|]. assert (K0 : 0 < 2 ^ K) by (apply pow_pos; pose proof HK; lia).
  destruct (goal_ratio size S0) as [->|R]; nia.
Qed.
End Walk.
End Client.
