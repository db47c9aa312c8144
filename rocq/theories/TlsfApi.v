(* The operations of the TLSF heap: malloc, memalign, realloc. *)
From Verif Require Import Base BitLemmas BitsProofs TlsfModel TlsfArith TlsfHeap TlsfOps.

Ltac wrl NN := repeat first [rewrite wr_same | rewrite wr_other by (clear - NN; lia)].

Section Api.
Variables K F null : Z.
Variable P : list (Z * Z).
Hypothesis HK : 1 <= K <= 5.
Hypothesis HF : K + 2 <= F < 31.
Hypothesis HP : forall m n, In (m, n) P -> 12 <= n < 2 ^ F /\ m + n + 8 <= 2 ^ 32.
Hypothesis HD : forall m n m' n', In (m, n) P -> In (m', n') P -> (m, n) = (m', n') \/ m + n + 8 <= m' \/ m' + n' + 8 <= m.
  Local Notation x_WF := (WF K F null P) (only parsing).
  Local Notation x_Frame := (Frame null P) (only parsing).
  Local Notation x_Safe := (Safe null P) (only parsing).
  Local Notation x_locate_ok := (locate_ok K F null P HK HF HP HD) (only parsing).
  Local Notation x_prepare_used_ok := (prepare_used_ok K F null P HK HF HP HD) (only parsing).
  Local Notation x_trim_leading_ok := (trim_leading_ok K F null P HK HF HP HD) (only parsing).
  Local Notation x_trim_used_ok := (trim_used_ok K F null P HK HF HP HD) (only parsing).
  Local Notation x_free_ok := (free_ok K F null P HK HF HP HD) (only parsing).
  Local Notation x_wf_ext := (wf_ext K F null P) (only parsing).
  Local Notation x_wf_client := (wf_client K F null P HK HF HP HD) (only parsing).
  Local Notation x_wf_remove := (wf_remove K F null P HK HF HP HD) (only parsing).
  Local Notation x_wf_absorb := (wf_absorb K F null P HK HF HP HD) (only parsing).
  Local Notation x_mark_as_free_ok := (mark_as_free_ok K F null P HK HF HP HD) (only parsing).
  Local Notation x_mark_as_used_ok := (mark_as_used_ok K F null P HK HF HP HD) (only parsing).
  Local Notation x_absorb_mem := (absorb_mem K F null P HK HF HP HD) (only parsing).
  Local Notation x_r_range := (r_range K F null P HK HF HP HD) (only parsing).
  Local Notation x_r_size := (r_size K F null P HK HF) (only parsing).
  Local Notation x_r_free := (r_free K F null P HK HF HP HD) (only parsing).
  Local Notation x_r_next := (r_next K F null P HK HF HP HD) (only parsing).
  Local Notation x_r_next_in := (r_next_in K F null P HP HD) (only parsing).
  Local Notation x_r_word := (r_word K F null P) (only parsing).
  Local Notation x_r_prev := (r_prev K F null P HP HD) (only parsing).
  Local Notation x_safe_apart := (safe_apart K F null P HK HF HP HD) (only parsing).
  Local Notation x_absorb_bound := (absorb_bound K F null P HK HF HP HD) (only parsing).
Local Notation x_frame_trans := (frame_trans null P) (only parsing).

Lemma F31 : 2 ^ F <= 2 ^ 30. Proof. apply Z.pow_le_mono_r; lia. Qed.

(* the size of the block for a request *)
Definition fit (size : Z) : Z := Z.max ((size + 3) / 4 * 4) 12.
Lemma fit_spec size : 0 < size -> fit size mod 4 = 0 /\ size <= fit size /\ 12 <= fit size /\ (fit size = 12 \/ fit size < size + 4).
Proof. intro H. unfold fit. lia. Qed.
Lemma adjust_ok size : 0 < size < 2 ^ F -> adjust_request_size F size 4 = fit size.
Proof.
  intro H. pose proof F31 as Q. change (2 ^ 30) with 1073741824 in Q. unfold adjust_request_size, size_max. replace (negb (size =? 0) && (size <? 2 ^ F)) with true by lia.
  rewrite align_up_4 by (change (2 ^ 31) with 2147483648; lia). reflexivity.
Qed.
Lemma adjust_0 size a : size = 0 \/ 2 ^ F <= size -> adjust_request_size F size a = 0.
Proof. intro H. unfold adjust_request_size, size_max. replace (negb (size =? 0) && (size <? 2 ^ F)) with false by lia. reflexivity. Qed.

(* the neighbours of a free block *)
Lemma free_next s H L b k : x_WF s H none L -> H b = Some k -> fr k = true -> exists kn, H (b + 4 + sz k) = Some kn /\ fr kn = false.
Proof.
  intros W E FR. pose proof (free_size F null H (w_geo _ _ _ _ _ _ _ _ W) b k E FR) as [S _]. destruct (x_r_next_in s H _ L W b k E S) as (kn & EN). exists kn. split; [exact EN|].
  destruct (fr kn) eqn:Q; [|reflexivity]. exfalso. destruct (w_coal _ _ _ _ _ _ _ _ W _ kn b k EN Q E FR eq_refl) as [[]|[]].
Qed.
Lemma free_prev s H L b k : x_WF s H none L -> H b = Some k -> fr k = true -> pf k = false.
Proof.
  intros W E FR. destruct (pf k) eqn:PF; [|reflexivity]. exfalso. destruct (x_r_prev s H _ L W b k E PF) as (q & kq & EQ & FQ & AQ & _).
  destruct (w_coal _ _ _ _ _ _ _ _ W b k q kq E FR EQ FQ AQ) as [[]|[]].
Qed.

Lemma wf_ext2 s H X X' L : (forall y k, H y = Some k -> (X y <-> X' y)) -> x_WF s H X L -> x_WF s H X' L.
Proof.
  intros Q W. constructor; try apply W.
  - apply (inv_headers K F null s s H H X X' L (w_inv _ _ _ _ _ _ _ _ W)); try reflexivity.
    + split; reflexivity.
    + intros y i j. unfold listed. split; intros (k & A & B & C & D); exists k; (split; [exact A|]; split; [exact B|]; split; [|exact D]); intro T; apply C; apply (Q y k A); exact T.
    + apply (i_rep K F null s H X L (w_inv _ _ _ _ _ _ _ _ W)).
    + apply (i_phys K F null s H X L (w_inv _ _ _ _ _ _ _ _ W)).
  - intros b k p kp A B C D E. destruct (w_coal _ _ _ _ _ _ _ _ W b k p kp A B C D E) as [T|T]; [left; apply (Q b k A)|right; apply (Q p kp C)]; exact T.
Qed.

Lemma malloc_ok s H L size : x_WF s H none L -> 0 < size < 2 ^ F -> goal K (fit size) < 2 ^ F ->
  exists s' p, tlsf_malloc K F null s size = Some (s', p) /\
   ((p = 0 /\ s' = s /\ forall y k, H y = Some k -> fr k = true -> sz k < goal K (fit size)) \/
    (exists H' L' b k m, p = b + 8 /\ x_WF s' H' none L' /\ H b = Some k /\ fr k = true /\ goal K (fit size) <= sz k /\ Used H' b m /\ fit size <= m < fit size + 16 /\
      (forall u m, u <> b -> (Used H' u m <-> Used H u m)) /\ x_Frame H s s')).
Proof.
  intros W S GL. unfold tlsf_malloc. rewrite adjust_ok by exact S. destruct (fit_spec size) as (A1 & A2 & A3 & _); [lia|]. set (adj := fit size) in *.
  pose proof (goal_ge K adj ltac:(lia) ltac:(lia)) as GG.
  destruct (x_locate_ok s H L adj W ltac:(lia) A1 GL) as (s1 & b & -> & [(-> & -> & C)|(k & L1 & E & FR & GE & W1 & F1)]); cbn [obind fst snd].
  - exists s, 0. split; [reflexivity|]. left. auto.
  - destruct (free_next s H L b k W E FR) as (kn & EN & FN).
    destruct (x_prepare_used_ok s1 H L1 b k kn adj W1 E FR EN FN ltac:(lia) A1) as (s2 & H2 & L2 & m & -> & W2 & U2 & S2 & UO & F2).
    exists s2, (b + 8). split; [reflexivity|]. right. exists H2, L2, b, k, m. split; [reflexivity|]. split; [exact W2|]. split; [exact E|]. split; [exact FR|]. split; [exact GE|].
    split; [exact U2|]. split; [exact S2|]. split; [exact UO|]. intros a SA. rewrite (F2 a SA). apply F1. exact SA.
Qed.
Lemma malloc_null s size : size = 0 \/ 2 ^ F <= size -> tlsf_malloc K F null s size = Some (s, 0).
Proof. intro C. unfold tlsf_malloc. rewrite adjust_0 by exact C. reflexivity. Qed.

(** *** memalign *)
(* the request passed on for an alignment of 2^e *)
Definition mfit (e size : Z) : Z := if e <=? 2 then fit size else (fit size + 2 ^ e + 16 + 2 ^ e - 1) / 2 ^ e * 2 ^ e.

Lemma up_spec x a : 0 < a -> (x + a - 1) / a * a mod a = 0 /\ x <= (x + a - 1) / a * a < x + a.
Proof.
  intro HA. split; [apply Z.mod_mul; lia|]. pose proof (Z.div_mod (x + a - 1) a ltac:(lia)). pose proof (Z.mod_pos_bound (x + a - 1) a HA). nia.
Qed.
Lemma pow_mod4 e : 2 <= e -> 2 ^ e mod 4 = 0.
Proof. intro HE. replace e with (e - 2 + 2) by ring. rewrite Z.pow_add_r by lia. change (2 ^ 2) with 4. apply Z.mod_mul. lia. Qed.
Lemma mul_mod4 e q : 2 <= e -> (q * 2 ^ e) mod 4 = 0.
Proof. intro HE. rewrite Z.mul_mod, pow_mod4, Z.mul_0_r by lia. reflexivity. Qed.
Lemma align_ptr_val x n : 0 <= n <= 32 -> 0 <= x -> x + 2 ^ n - 1 < 2 ^ 32 -> align_ptr x (2 ^ n) = (x + 2 ^ n - 1) / 2 ^ n * 2 ^ n.
Proof. exact (align_up_val x n). Qed.
Lemma up_id x a : 0 < a -> x mod a = 0 -> (x + a - 1) / a * a = x.
Proof.
  intros HA HM. pose proof (Z.div_mod x a ltac:(lia)) as D. rewrite HM in D. replace (x + a - 1) with ((a - 1) + x / a * a) by lia.
  rewrite Z.div_add, Z.div_small by lia. lia.
Qed.

(* the gap in front of the aligned pointer *)
Lemma gap_ok e ptr : 2 < e <= 30 -> 0 < ptr -> ptr mod 4 = 0 -> ptr + 2 ^ e + 28 <= 2 ^ 32 ->
  let aligned := align_ptr ptr (2 ^ e) in let gap := u32 (aligned - ptr) in
  let '(al, g) := if negb (gap =? 0) && (gap <? 16) then
        let next_aligned := u32 (aligned + Z.max (u32 (16 - gap)) (2 ^ e)) in
        let aligned := align_ptr next_aligned (2 ^ e) in (aligned, u32 (aligned - ptr)) else (aligned, gap) in
  al = ptr + g /\ (g = 0 \/ 16 <= g) /\ g <= 2 ^ e + 12 /\ g mod 4 = 0 /\ (ptr + g) mod 2 ^ e = 0.
Proof.
  intros HE HP0 HM HL. assert (P2 : 2 ^ 32 = 4294967296) by reflexivity. rewrite P2 in *.
  assert (P8 : 8 <= 2 ^ e) by (change 8 with (2 ^ 3); apply Z.pow_le_mono_r; lia).
  assert (PA : 0 < 2 ^ e) by lia. set (a := 2 ^ e) in *.
  assert (EA : align_ptr ptr a = (ptr + a - 1) / a * a) by (apply align_ptr_val; rewrite ?P2; fold a; lia).
  assert (AV : forall x, 0 <= x -> x + a - 1 < 4294967296 -> align_ptr x a = (x + a - 1) / a * a) by (intros x X1 X2; apply align_ptr_val; [lia|exact X1|exact X2]).
  cbv zeta. rewrite EA. destruct (up_spec ptr a PA) as [U1 U2]. pose proof (mul_mod4 e ((ptr + a - 1) / a) ltac:(lia)) as U3. fold a in U3.
  set (al := (ptr + a - 1) / a * a) in *. rewrite (u32_id (al - ptr)) by (rewrite P2; lia).
  set (g := al - ptr) in *. assert (G4 : g mod 4 = 0) by (unfold g; clear - HM U3; lia).
  destruct (negb (g =? 0) && (g <? 16)) eqn:C.
  - apply andb_true_iff in C. destruct C as [C1 C2]. apply Z.ltb_lt in C2. apply negb_true_iff in C1. apply Z.eqb_neq in C1.
    assert (G : g = 4 \/ g = 8 \/ g = 12) by (clear - C1 C2 G4 U2; unfold g in *; lia).
    rewrite (u32_id (16 - g)) by (rewrite P2; lia).
    assert (N : exists al', align_ptr (u32 (al + Z.max (16 - g) a)) a = al' /\ al' mod a = 0 /\ al' mod 4 = 0 /\ al + 16 - g <= al' <= al + a + 12 - g).
    { destruct (Z.le_gt_cases 16 a) as [A16|A16].
      - replace (Z.max (16 - g) a) with a by lia. rewrite u32_id by (rewrite P2; lia). exists (al + a).
        assert (AM : (al + a) mod a = 0) by (replace (al + a) with (al + 1 * a) by ring; rewrite Z.mod_add by lia; exact U1).
        assert (TOP : al + a + a <= 4294967296).
        { rewrite <- P2. replace 32 with (e + (32 - e)) by ring. rewrite Z.pow_add_r by lia. fold a. pose proof (Z.div_mod (al + a) a ltac:(lia)) as D. rewrite AM in D.
          assert (LT : al + a < a * 2 ^ (32 - e)). { unfold a at 2. rewrite <- Z.pow_add_r by lia. replace (e + (32 - e)) with 32 by ring. rewrite P2. lia. }
          set (q := (al + a) / a) in *. set (t := 2 ^ (32 - e)) in *. clear - D LT PA. assert (q < t) by nia. nia. }
        rewrite AV by lia.
        rewrite up_id by assumption. split; [reflexivity|]. split; [exact AM|]. pose proof (pow_mod4 e ltac:(lia)) as A4. fold a in A4. split; [clear - U3 A4; lia|lia].
      - assert (E3 : e = 3). { destruct (Z.le_gt_cases 4 e); [|lia]. assert (2 ^ 4 <= a) by (apply Z.pow_le_mono_r; lia). lia. }
        assert (AE : a = 8) by (unfold a; rewrite E3; reflexivity). clearbody a. subst a. assert (G4' : g = 4) by lia. rewrite G4'.
        change (Z.max (16 - 4) 8) with 12. rewrite u32_id by (rewrite P2; lia). exists (al + 16).
        rewrite AV by lia. clear - U1. lia. }
    destruct N as (al' & -> & N1 & N2 & N3). rewrite (u32_id (al' - ptr)) by (rewrite P2; lia). replace (ptr + (al' - ptr)) with al' by ring.
    split; [reflexivity|]. split; [unfold g in *; lia|]. split; [unfold g in *; lia|]. split; [clear - HM N2; lia|exact N1].
  - replace (ptr + g) with al by (unfold g; ring). split; [reflexivity|]. split; [|split; [unfold g in *; lia|split; [exact G4|exact U1]]].
    apply andb_false_iff in C. destruct C as [C|C]; [left; apply negb_false_iff in C; lia|right; apply Z.ltb_ge in C; exact C].
Qed.

Lemma memalign_ok s H L e size : x_WF s H none L -> 0 <= e <= 30 -> 0 < size < 2 ^ F ->
  (e <= 2 \/ fit size + 2 ^ e + 16 < 2 ^ F) -> goal K (mfit e size) < 2 ^ F ->
  exists s' p, tlsf_memalign K F null s (2 ^ e) size = Some (s', p) /\
   ((p = 0 /\ s' = s /\ forall y k, H y = Some k -> fr k = true -> sz k < goal K (mfit e size)) \/
    (exists H' L' b m, p = b + 8 /\ x_WF s' H' none L' /\ ~ (exists m, Used H b m) /\ Used H' b m /\ fit size <= m < fit size + 16 /\ p mod 2 ^ e = 0 /\
      (forall u m, u <> b -> (Used H' u m <-> Used H u m)) /\ x_Frame H s s')).
Proof.
  intros W HE S HG GL. pose proof F31 as Q31. change (2 ^ 30) with 1073741824 in Q31.
  assert (P2 : 2 ^ 32 = 4294967296) by reflexivity.
  unfold tlsf_memalign. rewrite adjust_ok by exact S. destruct (fit_spec size) as (A1 & A2 & A3 & A4); [lia|]. 
  assert (PE : 0 < 2 ^ e <= 2 ^ 30) by (split; [apply pow_pos; lia|apply Z.pow_le_mono_r; lia]). change (2 ^ 30) with 1073741824 in PE.
  assert (AS : (if negb (fit size =? 0) && (4 <? 2 ^ e) then adjust_request_size F (u32 (fit size + 2 ^ e + 16)) (2 ^ e) else fit size) = mfit e size).
  { unfold mfit. destruct (Z.leb_spec e 2) as [E2|E2].
    - assert (2 ^ e <= 4) by (change 4 with (2 ^ 2); apply Z.pow_le_mono_r; lia). replace (4 <? 2 ^ e) with false by lia. rewrite andb_false_r. reflexivity.
    - assert (8 <= 2 ^ e) by (change 8 with (2 ^ 3); apply Z.pow_le_mono_r; lia). replace (negb (fit size =? 0) && (4 <? 2 ^ e)) with true by lia.
      destruct HG as [HG|HG]; [lia|]. rewrite u32_id by (rewrite P2; lia). unfold adjust_request_size, size_max.
      replace (negb (fit size + 2 ^ e + 16 =? 0) && (fit size + 2 ^ e + 16 <? 2 ^ F)) with true by lia.
      rewrite align_up_val by (rewrite ?P2; lia). pose proof (up_spec (fit size + 2 ^ e + 16) (2 ^ e) ltac:(lia)) as [_ U]. unfold size_min. lia. }
  rewrite AS. set (adj := fit size) in *.
  assert (M1 : mfit e size mod 4 = 0). { unfold mfit. destruct (e <=? 2) eqn:E2; [exact A1|]. apply mul_mod4. lia. }
  assert (M2 : adj <= mfit e size /\ (2 < e -> adj + 2 ^ e + 16 <= mfit e size)).
  { unfold mfit. destruct (e <=? 2) eqn:E2; fold adj; [lia|]. pose proof (up_spec (adj + 2 ^ e + 16) (2 ^ e) ltac:(lia)) as [_ U]. lia. }
  pose proof (goal_ge K (mfit e size) ltac:(lia) ltac:(lia)) as GG.
  destruct (x_locate_ok s H L (mfit e size) W ltac:(lia) M1 GL) as (s1 & b & -> & [(-> & -> & C)|(k & L1 & E & FR & GE & W1 & F1)]); cbn [obind].
  { exists s, 0. split; [reflexivity|]. left. auto. }
  pose proof (x_r_range s H none L W b k E) as R. replace (b =? 0) with false by lia.
  destruct (free_next s H L b k W E FR) as (kn & EN & FN). pose proof (free_prev s H L b k W E FR) as PFK.
  assert (BP : block_to_ptr b = b + 8) by (unfold block_to_ptr; apply u32_id; lia). cbv zeta. rewrite BP.
  assert (FIN : forall g, 0 <= g -> (g = 0 \/ 16 <= g) -> g + adj <= sz k -> (g = 0 \/ g + 16 <= sz k) -> g mod 4 = 0 -> (b + 8 + g) mod 2 ^ e = 0 ->
    exists s' p, (do sb <- (if negb (g =? 0) then block_trim_free_leading K F null s1 b g else Some (s1, b)); block_prepare_used K F null (fst sb) (snd sb) adj) = Some (s', p) /\
      exists H' L' b m, p = b + 8 /\ x_WF s' H' none L' /\ ~ (exists m, Used H b m) /\ Used H' b m /\ adj <= m < adj + 16 /\ p mod 2 ^ e = 0 /\ (forall u m, u <> b -> (Used H' u m <-> Used H u m)) /\ x_Frame H s s').
  { intros g G0 G1 G2 G3 G4 G5. destruct (Z.eq_dec g 0) as [->|GN].
    - cbn [Z.eqb negb obind fst snd]. destruct (x_prepare_used_ok s1 H L1 b k kn adj W1 E FR EN FN ltac:(lia) A1) as (s2 & H2 & L2 & m & -> & W2 & U2 & S2 & UO & F2).
      exists s2, (b + 8). split; [reflexivity|]. exists H2, L2, b, m. rewrite Z.add_0_r in G5. repeat (split; [first [assumption | reflexivity | intros (m' & q & Q); rewrite E in Q; injection Q as ->; discriminate]|]).
      intros a SA. rewrite (F2 a SA). apply F1. exact SA.
    - replace (negb (g =? 0)) with true by lia.
      destruct (x_trim_leading_ok s1 H L1 b k kn g W1 E FR PFK EN FN ltac:(lia) ltac:(lia) G4) as (s2 & H2 & L2 & -> & W2 & E2 & EN2 & K2 & F2). cbn [obind fst snd].
      assert (EN2' : H2 (b + g + 4 + sz (Blk (sz k - g) true true)) = Some (Blk (sz kn) (fr kn) true)) by (cbn [sz]; replace (b + g + 4 + (sz k - g)) with (b + 4 + sz k) by ring; exact EN2).
      destruct (x_prepare_used_ok s2 H2 L2 (b + g) _ _ adj W2 E2 eq_refl EN2' FN ltac:(cbn [sz]; lia) A1) as (s3 & H3 & L3 & m & -> & W3 & U3 & S3 & UO & F3).
      exists s3, (b + g + 8). split; [reflexivity|]. exists H3, L3, (b + g), m. split; [reflexivity|]. split; [exact W3|]. split; [|split; [exact U3|split; [exact S3|split; [|split]]]].
      + intros (m' & Q). apply K2 in Q. destruct Q as (q & Q). rewrite E2 in Q. discriminate.
      + replace (b + g + 8) with (b + 8 + g) by ring. exact G5.
      + intros u m' N. rewrite (UO u m' N). symmetry. apply K2.
      + apply (x_frame_trans H H2 s s2 s3 K2); [|exact F3]. intros a SA. rewrite (F2 a SA). apply F1. exact SA. }
  destruct (Z.le_gt_cases e 2) as [E2|E2].
  - assert (PM : (b + 8) mod 2 ^ e = 0).
    { assert (C : e = 0 \/ e = 1 \/ e = 2) by lia. assert (B4 : (b + 8) mod 4 = 0) by (clear - R; lia). clear - C B4. destruct C as [->|[->| ->]]; [change (2 ^ 0) with 1|change (2 ^ 1) with 2|change (2 ^ 2) with 4]; lia. }
    assert (PE4 : 2 ^ e <= 4) by (change 4 with (2 ^ 2); apply Z.pow_le_mono_r; lia).
    assert (R2 : b + 8 + 2 ^ e - 1 < 2 ^ 32) by lia.
    rewrite (align_ptr_val (b + 8) e) by (try exact R2; lia). rewrite up_id by (try exact PM; lia).
    replace (u32 (b + 8 - (b + 8))) with 0 by (rewrite Z.sub_diag; reflexivity). cbn [Z.eqb negb andb].
    destruct (FIN 0 ltac:(lia) (or_introl eq_refl) ltac:(lia) (or_introl eq_refl) eq_refl ltac:(rewrite Z.add_0_r; exact PM)) as (s' & p & A & B). cbn [Z.eqb negb] in A.
    exists s', p. split; [exact A|]. right. exact B.
  - destruct M2 as [_ M2]. specialize (M2 ltac:(lia)).
    assert (B4 : (b + 8) mod 4 = 0) by (clear - R; lia).
    pose proof (gap_ok e (b + 8) ltac:(lia) ltac:(lia) B4 ltac:(lia)) as GO. cbv zeta in GO.
    match goal with |- context [let '(_, _) := ?X in _] => destruct X as [al g] eqn:XE end.
    destruct GO as (O1 & O2 & O3 & O4 & O5).
    destruct (FIN g ltac:(lia) O2 ltac:(lia) ltac:(lia) O4 O5) as (s' & p & A & B). exists s', p. split; [exact A|]. right. exact B.
Qed.
Lemma memalign_null s e size : 0 <= e <= 30 -> (size = 0 \/ 2 ^ F <= size \/ (0 < size < 2 ^ F /\ 2 < e /\ 2 ^ F <= fit size + 2 ^ e + 16)) ->
  tlsf_memalign K F null s (2 ^ e) size = Some (s, 0).
Proof.
  intros HE C. pose proof F31 as Q31. change (2 ^ 30) with 1073741824 in Q31.
  assert (PE : 0 < 2 ^ e <= 2 ^ 30) by (split; [apply pow_pos; lia|apply Z.pow_le_mono_r; lia]). change (2 ^ 30) with 1073741824 in PE.
  unfold tlsf_memalign. assert (D : (size = 0 \/ 2 ^ F <= size) \/ (0 < size < 2 ^ F /\ 2 < e /\ 2 ^ F <= fit size + 2 ^ e + 16)) by tauto. destruct D as [D|(S & E2 & D)].
  - rewrite (adjust_0 size 4 D). cbn [Z.eqb negb andb]. reflexivity.
  - rewrite adjust_ok by exact S. destruct (fit_spec size) as (A1 & A2 & A3 & A4); [lia|].
    assert (8 <= 2 ^ e) by (change 8 with (2 ^ 3); apply Z.pow_le_mono_r; lia). replace (negb (fit size =? 0) && (4 <? 2 ^ e)) with true by lia.
    rewrite u32_id by (change (2 ^ 32) with 4294967296; lia). rewrite adjust_0 by lia. reflexivity.
Qed.

(** *** realloc *)
Lemma copy_words_ok n : forall s dst src,
  let s' := copy_words s dst src n in flb s' = flb s /\ slb s' = slb s /\ heads s' = heads s /\
  (forall a, a < dst \/ dst + 4 * Z.of_nat n <= a -> mem s' a = mem s a) /\
  (dst + 4 * Z.of_nat n <= src \/ src + 4 * Z.of_nat n <= dst -> forall i, 0 <= i < Z.of_nat n -> mem s' (dst + 4 * i) = mem s (src + 4 * i)).
Proof.
  induction n as [|n IH]; intros s dst src; cbv zeta; cbn [copy_words].
  - split; [reflexivity|]. split; [reflexivity|]. split; [reflexivity|]. split; [reflexivity|]. lia.
  - destruct (IH (wr s dst (rd s src)) (dst + 4) (src + 4)) as (A & B & C & D & E). cbv zeta in *. split; [exact A|]. split; [exact B|]. split; [exact C|]. split.
    + intros a R. rewrite D by lia. apply wr_other. lia.
    + intros DJ i HI. destruct (Z.eq_dec i 0) as [->|N].
      * rewrite D by lia. rewrite !Z.mul_0_r, !Z.add_0_r. apply wr_same.
      * replace (dst + 4 * i) with (dst + 4 + 4 * (i - 1)) by ring. rewrite E by lia. rewrite wr_other by lia. f_equal. ring.
Qed.

Lemma next_word s b z f q : mem s (b + 4) = word z f q -> z mod 4 = 0 -> 12 <= z -> 0 < b -> b + 8 + z <= 2 ^ 32 -> block_next s b = b + 4 + z.
Proof.
  intros M M4 S B R. change (2 ^ 32) with 4294967296 in R. unfold block_next, offset_to_block, block_to_ptr, block_size, rd. rewrite M, word_size by (try exact M4; change (2 ^ 32) with 4294967296; lia).
  rewrite (u32_id (b + 8)), (u32_id (z - 4)) by (change (2 ^ 32) with 4294967296; lia). rewrite u32_id by (change (2 ^ 32) with 4294967296; lia). ring.
Qed.

(* what the two ways of marking write *)
Lemma mark_free_mem s b n z f q zn fn qn : mem s (b + 4) = word z f q -> z mod 4 = 0 -> 12 <= z -> 0 < b -> b + 8 + z <= 2 ^ 32 -> n = b + 4 + z ->
  mem s (n + 4) = word zn fn qn -> zn mod 4 = 0 ->
  block_mark_as_free s b = wr (wr (wr s n b) (n + 4) (word zn fn true)) (b + 4) (word z true q).
Proof.
  intros M M4 S B R N MN MN4. unfold block_mark_as_free, block_link_next. rewrite (next_word s b z f q M M4 S B R). rewrite <- N. unfold block_set_prev_free, block_set_free, rd.
  rewrite (wr_other s n b (n + 4)) by lia. rewrite MN, word_set_prev by exact MN4. rewrite (wr_other _ (n + 4) _ (b + 4)) by lia. rewrite (wr_other s n b (b + 4)) by lia. rewrite M, word_set_free by exact M4. reflexivity.
Qed.
Lemma mark_used_mem s b n z f q zn fn qn : mem s (b + 4) = word z f q -> z mod 4 = 0 -> 12 <= z -> 0 < b -> b + 8 + z <= 2 ^ 32 -> n = b + 4 + z ->
  mem s (n + 4) = word zn fn qn -> zn mod 4 = 0 -> 0 <= zn < 2 ^ 32 ->
  block_mark_as_used s b = wr (wr s (n + 4) (word zn fn false)) (b + 4) (word z false q).
Proof.
  intros M M4 S B R N MN MN4 RN. unfold block_mark_as_used. rewrite (next_word s b z f q M M4 S B R). rewrite <- N. unfold block_set_prev_used, block_set_used, rd.
  rewrite MN, word_clr_prev by assumption. rewrite (wr_other _ (n + 4) _ (b + 4)) by lia. rewrite M, word_clr_free; [reflexivity|exact M4|]. change (2 ^ 32) with 4294967296 in *. lia.
Qed.

Lemma grow_ok s H L b k kn : x_WF s H none L -> H b = Some k -> fr k = false -> 12 <= sz k -> H (b + 4 + sz k) = Some kn -> fr kn = true ->
  exists s1 L', block_merge_next K F null s b = Some (s1, b) /\
   let s' := block_mark_as_used s1 b in exists H' q, x_WF s' H' none L' /\ H' b = Some (Blk (sz k + sz kn + 4) false q) /\
    (forall u m, u <> b -> (Used H' u m <-> Used H u m)) /\ x_Frame H s s'.
Proof.
  intros W E FR SB EN FN. pose proof (x_r_range s H _ L W b k E) as R. pose proof (x_r_range s H _ L W _ kn EN) as RN.
  assert (P1 : 2 ^ 31 = 2147483648) by reflexivity. assert (P2 : 2 ^ 32 = 4294967296) by reflexivity. rewrite P1, P2 in R, RN.
  unfold block_merge_next. rewrite (x_r_next s H _ L W b k E SB). rewrite (x_r_free s H _ L W _ kn EN), FN.
  pose proof (free_size F null H (w_geo _ _ _ _ _ _ _ _ W) _ kn EN FN) as [SN _].
  destruct (x_r_next_in s H _ L W _ kn EN SN) as (km & EM).
  pose proof (x_r_range s H _ L W _ km EM) as RM. rewrite P1, P2 in RM.
  set (n := b + 4 + sz k) in *. set (n' := n + 4 + sz kn) in *. set (sum := sz k + sz kn + 4).
  destruct (x_wf_remove s H none L n kn W EN FN) as (s1 & L1 & -> & W1 & F1); [intros []|]. cbn [obind].
  exists (block_absorb s1 b n), L1. split; [reflexivity|]. cbv zeta.
  rewrite (x_absorb_mem s1 H _ L1 b k n kn W1 E SB eq_refl EN SN). fold n' sum. rewrite FR.
  assert (NN : n <> b /\ n' <> b /\ n' <> n /\ n <> b + 4 /\ n' <> b + 4 /\ n' <> n + 4 /\ n' + 4 <> n /\ n' + 4 <> b /\ n + 4 <> b) by (unfold n', n; lia).
  assert (ML : mem s1 (n' + 4) = word (sz km) (fr km) (pf km)) by (apply (x_r_word s1 H _ L1 W1 _ km EM)).
  assert (SU : sum mod 4 = 0 /\ 12 <= sum /\ b + 8 + sum <= 2 ^ 32 /\ b + 4 + sum = n') by (rewrite P2; unfold sum, n', n in *; clear - R RN SB SN RM; lia).
  destruct SU as (SU1 & SU2 & SU3 & SU4).
  set (s2 := wr (wr s1 (b + 4) (word sum false (pf k))) n' b).
  assert (M3 : block_mark_as_used s2 b = wr (wr s2 (n' + 4) (word (sz km) (fr km) false)) (b + 4) (word sum false (pf k))).
  { apply (mark_used_mem s2 b n' sum false (pf k) (sz km) (fr km) (pf km)); try assumption; try (symmetry; exact SU4); try lia; try apply RM.
    - unfold s2. wrl NN. reflexivity.
    - unfold s2. wrl NN. exact ML. }
  (* the reference: marking the block as free first *)
  destruct (x_mark_as_free_ok s1 H _ L1 b k kn W1 E FR SB EN) as (W2 & _ & U2 & NU2). fold n in W2, U2, NU2.
  assert (E2 : mark H b k n kn true b = Some (Blk (sz k) true (pf k))) by (unfold mark; rewrite hset_other by (clear - NN; lia); apply hset_same).
  assert (EN2 : mark H b k n kn true n = Some (Blk (sz kn) (fr kn) true)) by (unfold mark; apply hset_same).
  assert (EM2 : mark H b k n kn true n' = Some km) by (unfold mark; rewrite !hset_other by (clear - NN; lia); exact EM).
  assert (M2 : block_mark_as_free s1 b = wr (wr (wr s1 n b) (n + 4) (word (sz kn) (fr kn) true)) (b + 4) (word (sz k) true (pf k))).
  { apply (mark_free_mem s1 b n (sz k) (fr k) (pf k) (sz kn) (fr kn) (pf kn)); try apply R; try apply RN; try exact SB; try reflexivity; try (rewrite P2; lia).
    - apply (x_r_word s1 H _ L1 W1 b k E).
    - apply (x_r_word s1 H _ L1 W1 n kn EN). }
  set (H2 := mark H b k n kn true) in *. set (t2 := block_mark_as_free s1 b) in *.
  assert (SN2 : 12 <= sz (Blk (sz kn) (fr kn) true)) by exact SN.
  destruct (x_wf_absorb t2 H2 _ L1 b _ n _ W2 E2 eq_refl (or_introl eq_refl) eq_refl EN2 FN (or_intror (or_introl eq_refl))) as (W3 & K3 & _).
  pose proof (x_absorb_mem t2 H2 _ L1 b _ n _ W2 E2 SB eq_refl EN2 SN2) as M4. cbn [sz fr pf] in M4. fold n' sum in M4.
  pose proof (absorb_at H2 b (Blk (sz k) true (pf k)) n (Blk (sz kn) (fr kn) true) ltac:(clear - NN; lia)) as E3. cbn [sz fr pf] in E3. fold sum in E3.
  assert (EM3 : absorbH H2 b (Blk (sz k) true (pf k)) n (Blk (sz kn) (fr kn) true) n' = Some km) by (rewrite absorb_other by (clear - NN; lia); exact EM2).
  assert (NN3 : forall m, ~ Used (absorbH H2 b (Blk (sz k) true (pf k)) n (Blk (sz kn) (fr kn) true)) n m) by (intros m (q & Q); unfold absorbH in Q; rewrite hset_same in Q; discriminate).
  set (H3 := absorbH H2 b _ n _) in *. set (t3 := block_absorb t2 b n) in *.
  assert (EM3' : H3 (b + 4 + sz (Blk sum true (pf k))) = Some km) by (cbn [sz]; rewrite SU4; exact EM3).
  destruct (x_mark_as_used_ok t3 H3 _ L1 b _ km W3 E3 eq_refl (or_introl eq_refl) EM3') as (W4 & _ & U4 & E4). cbn [sz pf] in W4, U4, E4. rewrite SU4 in *.
  set (H4 := mark H3 b _ n' km false) in *.
  assert (M5 : block_mark_as_used t3 b = wr (wr t3 (n' + 4) (word (sz km) (fr km) false)) (b + 4) (word sum false (pf k))).
  { apply (mark_used_mem t3 b n' sum true (pf k) (sz km) (fr km) (pf km)); try assumption; try (symmetry; exact SU4); try lia; try apply RM.
    - apply (x_r_word t3 H3 _ L1 W3 b _ E3).
    - apply (x_r_word t3 H3 _ L1 W3 n' _ EM3). }
  assert (U4b : Used H4 b sum) by (exists (pf k); exact E4).
  exists H4, (pf k). split; [|split; [exact E4|split]].
  - apply (wf_ext2 _ H4 (back (out (out none n) b) b)).
    + intros y ky EY. unfold back, out, none. split; [|intros []]. intros [[Q|[Q|[]]] N]; [contradiction|]. subst y. 
      unfold H4, mark in EY. rewrite !hset_other in EY by (clear - NN; lia). unfold H3, absorbH in EY. rewrite hset_same in EY. discriminate.
    + apply (x_wf_client (block_mark_as_used t3 b) _ H4 _ L1 W4); try (rewrite M3, M5, M4, M2; reflexivity).
      intro a. destruct (Z.eq_dec a n) as [->|A1]; [right; right; exists b, sum; split; [exact U4b|unfold n, sum; lia]|].
      destruct (Z.eq_dec a (n + 4)) as [->|A2]; [right; right; exists b, sum; split; [exact U4b|unfold n, sum; lia]|].
      left. rewrite M3, M5, M4, M2. unfold s2.
      destruct (Z.eq_dec a (b + 4)) as [->|A3]; [wrl NN; reflexivity|]. destruct (Z.eq_dec a (n' + 4)) as [->|A4]; [rewrite !(wr_other _ (b + 4)) by assumption; wrl NN; reflexivity|].
      destruct (Z.eq_dec a n') as [->|A5]; [wrl NN; reflexivity|]. rewrite !wr_other by assumption. reflexivity.
  - intros u m N. rewrite (U4 u m N), <- (K3 u m). apply U2. exact N.
  - intros a SA. destruct (x_safe_apart _ _ _ _ a W1 SA b k E) as [A1 _]. destruct (x_safe_apart _ _ _ _ a W1 SA n kn EN) as [_ A2]. specialize (A2 FN).
    destruct (x_safe_apart _ _ _ _ a W1 SA n' km EM) as [A3 _]. assert (A4 : a <> n') by (clear - A2 SN; unfold n'; lia).
    rewrite M3. unfold s2. rewrite !wr_other by assumption. apply F1. exact SA.
Qed.

(* what a reallocation does to the used blocks and their contents *)
Lemma realloc_ok s H L b n size : x_WF s H none L -> Used H b n -> 0 < n -> 0 < size < 2 ^ F -> goal K (fit size) < 2 ^ F ->
  exists s' p, tlsf_realloc K F null s (b + 8) size = Some (s', p) /\ ((p = 0 /\ s' = s /\ n < fit size /\ forall y k, H y = Some k -> fr k = true -> sz k < goal K (fit size)) \/
    (p = b + 8 /\ exists H' L' m, x_WF s' H' none L' /\ Used H' b m /\ fit size <= m < fit size + 16 /\ (forall u m, u <> b -> (Used H' u m <-> Used H u m)) /\
      (forall a, x_Safe H a -> x_Safe H' a -> mem s' a = mem s a)) \/
    (exists H' L' c m, p = c + 8 /\ c <> b /\ n < fit size /\ ~ (exists m, Used H c m) /\ x_WF s' H' none L' /\ Used H' c m /\ fit size <= m < fit size + 16 /\ (forall u m, u <> c -> (Used H' u m <-> u <> b /\ Used H u m)) /\
      (forall a, x_Safe H a -> x_Safe H' a -> mem s' a = mem s a) /\ (forall i, 0 <= i -> 4 * i < n -> mem s' (c + 8 + 4 * i) = mem s (b + 8 + 4 * i)))).
Proof.
  intros W U N0 S GL. pose proof U as (q & E). pose proof (x_r_range s H _ L W b _ E) as R. cbn [sz fr pf] in R.
  assert (N : 12 <= n) by (destruct (g_size F null H (w_geo _ _ _ _ _ _ _ _ W) b _ E) as [[A _]|A]; cbn in A; lia).
  assert (P1 : 2 ^ 31 = 2147483648) by reflexivity. assert (P2 : 2 ^ 32 = 4294967296) by reflexivity. rewrite P1, P2 in R.
  destruct (x_r_next_in s H _ L W b _ E N) as (kn & EN). cbn [sz] in EN. pose proof (x_r_range s H _ L W _ kn EN) as RN. rewrite P1, P2 in RN.
  destruct (fit_spec size) as (A1 & A2 & A3 & A4); [lia|]. 
  unfold tlsf_realloc. replace (negb (b + 8 =? 0) && (size =? 0)) with false by lia. replace (b + 8 =? 0) with false by lia.
  unfold block_from_ptr. replace (b + 8 - 8) with b by ring. rewrite (u32_id b) by (rewrite P2; lia).
  rewrite (x_r_next s H _ L W b _ E N). cbn [sz]. rewrite (x_r_size s H _ L W b _ E), (x_r_size s H _ L W _ kn EN), (x_r_free s H _ L W _ kn EN). cbn [sz].
  rewrite (u32_id (n + sz kn + 4)) by (rewrite P2; lia). rewrite adjust_ok by exact S. set (adj := fit size) in *.
  destruct ((n <? adj) && (negb (fr kn) || (n + sz kn + 4 <? adj))) eqn:C.
  - apply andb_true_iff in C. destruct C as [C _]. apply Z.ltb_lt in C.
    destruct (malloc_ok s H L size W S GL) as (s1 & p & -> & [(-> & -> & NO)|(H1 & L1 & c & kc & m & -> & W1 & EC & FC & GC & U1 & S1 & UO1 & F1)]); cbn [obind].
    + rewrite Z.eqb_refl. exists s, 0. split; [reflexivity|]. left. fold adj in NO. auto.
    + pose proof (x_r_range s H _ L W c kc EC) as RC. replace (c + 8 =? 0) with false by lia.
      assert (CB : c <> b) by (intros ->; rewrite E in EC; injection EC as <-; discriminate). fold adj in S1, GC.
      assert (MS : Z.min n size = n) by lia. rewrite MS. unfold memcpy. replace (n mod 4 =? 0) with true by lia. cbn [obind].
      set (w := Z.to_nat (n / 4)). assert (W4 : 4 * Z.of_nat w = n) by (unfold w; clear - R N; lia).
      destruct (copy_words_ok w s1 (c + 8) (b + 8)) as (B1 & B2 & B3 & B4 & B5). cbv zeta in *. rewrite W4 in *. set (s2 := copy_words s1 (c + 8) (b + 8) w) in *.
      assert (W2 : x_WF s2 H1 none L1).
      { apply (x_wf_client s1 s2 H1 none L1 W1 B1 B2 B3). intro a. destruct (Z.lt_ge_cases a (c + 8)) as [Q|Q]; [left; apply B4; lia|]. destruct (Z.le_gt_cases (c + 8 + n) a) as [T|T]; [left; apply B4; lia|].
        right. right. exists c, m. split; [exact U1|lia]. }
      assert (U1b : Used H1 b n) by (apply UO1; [congruence|exact U]).
      destruct (x_free_ok s2 H1 L1 b n W2 U1b N0) as (s3 & H3 & L3 & -> & W3 & U3 & F3). cbn [obind].
      assert (U3c : Used H3 c m) by (apply U3; split; [exact CB|exact U1]).
      exists s3, (c + 8). split; [reflexivity|]. right. right. exists H3, L3, c, m. split; [reflexivity|]. split; [exact CB|]. split; [exact C|].
      assert (NU : ~ (exists m, Used H c m)) by (intros (m' & q' & Q); rewrite EC in Q; injection Q as ->; discriminate).
      split; [exact NU|]. split; [exact W3|]. split; [exact U3c|]. split; [exact S1|]. split; [|split].
      * intros u m' NC. rewrite (U3 u m'). rewrite (UO1 u m' NC). reflexivity.
      * intros a SA SA'. rewrite (F3 a SA'). rewrite B4; [apply F1; exact SA|].
        destruct (x_safe_apart s H none L a W SA c kc EC) as [_ T]. specialize (T FC).
        pose proof (goal_ge K adj ltac:(lia) ltac:(lia)). lia.
      * intros i I0 I1. assert (SI : x_Safe H3 (c + 8 + 4 * i)) by (right; exists c, m; split; [exact U3c|lia]).
        rewrite (F3 _ SI). rewrite B5; [apply F1; right; exists b, n; split; [exact U|lia]| |lia].
        destruct U1 as (qc & EC1). destruct U1b as (qb & EB1). pose proof (g_disj F null H1 (w_geo _ _ _ _ _ _ _ _ W1) c b _ _ EC1 EB1 CB) as D. cbn [sz] in D. lia.
  - assert (ST : exists s1 H1 L1 k1, (if n <? adj then do sb <- block_merge_next K F null s b; Some (block_mark_as_used (fst sb) b) else Some s) = Some s1 /\ x_WF s1 H1 none L1 /\ H1 b = Some k1 /\ fr k1 = false /\ adj <= sz k1 /\ (forall u m, u <> b -> (Used H1 u m <-> Used H u m)) /\ x_Frame H s s1).
    { destruct (n <? adj) eqn:NA; [apply Z.ltb_lt in NA|apply Z.ltb_ge in NA].
      - cbn [andb] in C. apply orb_false_iff in C. destruct C as [C1 C2]. apply negb_false_iff in C1. apply Z.ltb_ge in C2.
        destruct (grow_ok s H L b _ kn W E eq_refl N EN C1) as (s1 & L1 & -> & H1 & qq & W1 & E1 & UO1 & F1). cbn [obind fst snd sz] in *.
        eexists _, H1, L1, _. split; [reflexivity|]. split; [exact W1|]. split; [exact E1|]. split; [reflexivity|]. split; [cbn; lia|]. split; [exact UO1|exact F1].
      - exists s, H, L, (Blk n false q). split; [reflexivity|]. split; [exact W|]. split; [exact E|]. split; [reflexivity|]. split; [exact NA|]. split; [intros; reflexivity|]. intros a _. reflexivity. }
    destruct ST as (s1 & H1 & L1 & k1 & -> & W1 & E1 & FR1 & S1 & UO1 & F1). cbn [obind].
    destruct (x_trim_used_ok s1 H1 L1 b k1 adj W1 E1 FR1 ltac:(lia) A1) as (s2 & H2 & L2 & k2 & -> & W2 & E2 & FR2 & S2 & S2' & UO2 & F2). cbn [obind].
    exists s2, (b + 8). split; [reflexivity|]. right. left. split; [reflexivity|]. exists H2, L2, (sz k2). split; [exact W2|]. split; [apply used_blk; assumption|]. split; [exact S2|]. split.
    + intros u m NB. rewrite (UO2 u m NB). apply UO1. exact NB.
    + intros a SA SA'. rewrite (F2 a SA'). apply F1. exact SA.
Qed.
End Api.
