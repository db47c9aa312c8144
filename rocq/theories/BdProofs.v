(* Proofs about the block devices *)
From Verif Require Import Base SliceLemmas CrcSpec BitLemmas BitsProofs BdModel BdSpec.

(* ---- byte lists ---- *)
Lemma at_znth m i : 0 <= i < zlen m -> znth m i = Some (at_ m i).
Proof.
  intro H. unfold znth, at_. unfold zlen in H. replace (i <? 0) with false by lia.
  destruct (nth_error m (Z.to_nat i)) eqn:E.
  - f_equal. symmetry. apply nth_error_nth. exact E.
  - apply nth_error_None in E. lia.
Qed.
Lemma at_app_l a b i : 0 <= i < zlen a -> at_ (a ++ b) i = at_ a i.
Proof. intro H. unfold at_. apply app_nth1. unfold zlen in H. lia. Qed.
Lemma at_app_r a b i : zlen a <= i -> at_ (a ++ b) i = at_ b (i - zlen a).
Proof. intro H. unfold at_. rewrite app_nth2 by (unfold zlen in H; lia). f_equal. unfold zlen. lia. Qed.
Lemma at_firstn m n i : 0 <= i < n -> at_ (firstn (Z.to_nat n) m) i = at_ m i.
Proof.
  intro H. unfold at_. destruct (Z_lt_ge_dec i (zlen m)) as [L|L].
  - rewrite <- (firstn_skipn (Z.to_nat n) m) at 2. rewrite app_nth1; [reflexivity|].
    rewrite firstn_length. unfold zlen in L. lia.
  - unfold zlen in L. rewrite !nth_overflow; [reflexivity|lia|rewrite firstn_length; lia].
Qed.
Lemma at_skipn m n i : 0 <= n -> 0 <= i -> at_ (skipn (Z.to_nat n) m) i = at_ m (n + i).
Proof.
  intros Hn Hi. unfold at_. replace (Z.to_nat (n + i)) with (Z.to_nat n + Z.to_nat i)%nat by lia.
  generalize (Z.to_nat n) (Z.to_nat i). clear. intros a b. revert m. induction a as [|a IH]; intro m; [reflexivity|].
  destruct m as [|x m]; cbn [skipn Nat.add nth]; [destruct b; reflexivity|apply IH].
Qed.
Lemma at_repeat v n i : 0 <= i < Z.of_nat n -> at_ (repeat v n) i = v.
Proof.
  intro H. pose proof (at_znth (repeat v n) i) as E. rewrite zlen_repeat in E. specialize (E H).
  rewrite znth_repeat in E by exact H. congruence.
Qed.
Lemma list_at_ext a b : zlen a = zlen b -> (forall i, 0 <= i < zlen a -> at_ a i = at_ b i) -> a = b.
Proof.
  intros L H. apply znth_ext. intros i Hi. destruct (Z_lt_ge_dec i (zlen a)).
  - rewrite !at_znth by lia. f_equal. apply H. lia.
  - destruct (znth a i) eqn:A; [apply znth_Some in A; lia|]. destruct (znth b i) eqn:B; [apply znth_Some in B; lia|]. reflexivity.
Qed.
Lemma Forall_at (P : Z -> Prop) m i : Forall P m -> 0 <= i < zlen m -> P (at_ m i).
Proof. intros H L. unfold at_. apply Forall_nth; [exact H|]. unfold zlen in L. lia. Qed.
Lemma at_Forall (P : Z -> Prop) m : (forall i, 0 <= i < zlen m -> P (at_ m i)) -> Forall P m.
Proof.
  intro H. apply Forall_forall. intros x Hx. destruct (In_nth m x 0 Hx) as (n & L & E). specialize (H (Z.of_nat n)).
  unfold at_ in H. rewrite Nat2Z.id, E in H. apply H. unfold zlen. lia.
Qed.

(* replacing a part of a list *)
Definition splice (m : list Z) (a : Z) (d : list Z) : list Z := firstn (Z.to_nat a) m ++ d ++ skipn (Z.to_nat (a + zlen d)) m.
Lemma splice_len m a d : 0 <= a -> a + zlen d <= zlen m -> zlen (splice m a d) = zlen m.
Proof.
  intros H1 H2. pose proof (zlen_nonneg d). unfold splice. rewrite !zlen_app, firstn_zlen, skipn_zlen by lia. lia.
Qed.
Lemma splice_at m a d i : 0 <= a -> a + zlen d <= zlen m -> 0 <= i ->
  at_ (splice m a d) i = if (a <=? i) && (i <? a + zlen d) then at_ d (i - a) else at_ m i.
Proof.
  intros H1 H2 Hi. pose proof (zlen_nonneg d). unfold splice.
  assert (L : zlen (firstn (Z.to_nat a) m) = a) by (apply firstn_zlen; lia).
  destruct (Z_lt_ge_dec i a) as [C|C].
  - replace ((a <=? i) && (i <? a + zlen d)) with false by lia. rewrite at_app_l by lia. apply at_firstn. lia.
  - rewrite at_app_r by lia. rewrite L. destruct (Z_lt_ge_dec i (a + zlen d)) as [C'|C'].
    + replace ((a <=? i) && (i <? a + zlen d)) with true by lia. apply at_app_l. lia.
    + replace ((a <=? i) && (i <? a + zlen d)) with false by lia. rewrite at_app_r by lia. rewrite at_skipn by lia. f_equal. lia.
Qed.
Lemma splice_write m a d : 0 <= a -> a + zlen d <= zlen m -> zwrite m a d = Some (splice m a d).
Proof. intros H1 H2. apply zwrite_ok; assumption. Qed.
Lemma becomes_bytes F old new a n f : zlen old = F -> zlen new = F -> becomes F (at_ old) (at_ new) a n f ->
  Forall byte old -> (forall i, a <= i < a + n -> 0 <= i < F -> byte (f i)) -> Forall byte new.
Proof.
  intros L1 L2 B Ho Hf. apply at_Forall. intros i Hi. rewrite B by lia.
  destruct ((a <=? i) && (i <? a + n)) eqn:E; [apply Hf; lia|]. apply Forall_at; [exact Ho|lia].
Qed.

(* ---- BdHeap ---- *)
Lemma mod1 x : (x mod 1 =? 0) = true.
Proof. rewrite Z.mod_1_r. reflexivity. Qed.
Lemma bh_refuse_spec N a n : no_wrap a n -> bh_refuse N a n = false <-> legal N 1 a n.
Proof.
  intros (A & B & C). unfold bh_refuse, legal. rewrite mod1, Z.mod_1_r.
  assert (E : u32 (a + n) = a + n) by (unfold u32; apply Z.mod_small; lia). rewrite E. cbn [negb]. lia.
Qed.
Lemma zsub_shows m a n : 0 <= a -> 0 <= n -> a + n <= zlen m -> exists b, zsub m a n = Some b /\ shows b (at_ m) a n.
Proof.
  intros A B C. unfold zsub. replace ((0 <=? a) && (0 <=? n) && (a + n <=? zlen m)) with true by lia. eexists. split; [reflexivity|]. split.
  - apply firstn_zlen. rewrite skipn_zlen; lia.
  - intros j Hj. rewrite at_firstn by lia. apply at_skipn; lia.
Qed.

Lemma heap_read N d a n : zlen d = N -> legal N 1 a n -> N < 2 ^ 32 -> exists b, bh_read N d a n = Some (true, b) /\ shows b (at_ d) a n.
Proof.
  intros L Q HN. assert (R : bh_refuse N a n = false) by (apply bh_refuse_spec; [unfold no_wrap, legal in *; lia|exact Q]).
  unfold bh_read. rewrite R. destruct Q as (Q1 & Q2 & Q3 & Q4). destruct (zsub_shows d a n) as (b & E & S); try lia.
  exists b. rewrite E. split; [reflexivity|exact S].
Qed.
Lemma heap_program N d buf a n : zlen d = N -> legal N 1 a n -> N < 2 ^ 32 -> n <= zlen buf ->
  exists d', bh_program N d buf a n = Some (true, d') /\ zlen d' = N /\ becomes N (at_ d) (at_ d') a n (fun i => at_ buf (i - a)).
Proof.
  intros L Q HN HB. assert (R : bh_refuse N a n = false) by (apply bh_refuse_spec; [unfold no_wrap, legal in *; lia|exact Q]).
  unfold bh_program. rewrite R. destruct Q as (Q1 & Q2 & Q3 & Q4). destruct (zsub_shows buf 0 n) as (b & E & S1 & S2); try lia.
  rewrite E. cbn [obind]. rewrite splice_write by lia. cbn [obind]. eexists. split; [reflexivity|].
  split; [rewrite splice_len; lia|]. intros i Hi. rewrite splice_at by lia. rewrite S1.
  destruct ((a <=? i) && (i <? a + n)) eqn:C; [|reflexivity]. rewrite S2 by lia. f_equal.
Qed.
Lemma heap_write N d buf a n : zlen d = N -> legal N 1 a n -> N < 2 ^ 32 -> n <= zlen buf ->
  exists d', bh_write N d buf a n = Some (true, d') /\ zlen d' = N /\ becomes N (at_ d) (at_ d') a n (fun i => at_ buf (i - a)).
Proof.
  intros L Q HN HB. assert (R : bh_refuse N a n = false) by (apply bh_refuse_spec; [unfold no_wrap, legal in *; lia|exact Q]).
  unfold bh_write, bh_erase. rewrite R. cbn [obind]. apply heap_program; assumption.
Qed.
Lemma heap_refuse N d buf a n : no_wrap a n -> ~ legal N 1 a n ->
  bh_read N d a n = Some (false, []) /\ bh_program N d buf a n = Some (false, d) /\ bh_erase N d a n = Some (false, d) /\ bh_write N d buf a n = Some (false, d).
Proof.
  intros W Q. assert (R : bh_refuse N a n = true).
  { destruct (bh_refuse N a n) eqn:E; [reflexivity|]. exfalso. apply Q. apply bh_refuse_spec; assumption. }
  unfold bh_read, bh_program, bh_erase, bh_write. rewrite R. auto.
Qed.
Lemma heap_wrap N d buf a n : zlen d = N -> 0 <= a < 2 ^ 32 -> 0 < n < 2 ^ 32 -> 2 ^ 32 <= a + n -> a + n - 2 ^ 32 <= N -> N < 2 ^ 32 -> n <= zlen buf ->
  bh_read N d a n = None /\ bh_program N d buf a n = None /\ bh_write N d buf a n = None.
Proof.
  intros L A B W Q HN HB. assert (R : bh_refuse N a n = false).
  { unfold bh_refuse. rewrite mod1. cbn [negb].
    assert (E : u32 (a + n) = a + n - 2 ^ 32). { unfold u32, wrap. lia. } rewrite E. lia. }
  assert (P : bh_program N d buf a n = None).
  { unfold bh_program. rewrite R. destruct (zsub_shows buf 0 n) as (b & E & S1 & S2); try lia. rewrite E. cbn [obind].
    destruct (zwrite d a b) as [d'|] eqn:Z1; [|reflexivity]. exfalso.
    assert (X : forall (vs l : list Z) i l', 0 <= i -> zwrite l i vs = Some l' -> vs = [] \/ i + zlen vs <= zlen l).
    { clear. induction vs as [|v r IH]; intros l i l' Hi H; [left; reflexivity|]. right. cbn [zwrite] in H.
      destruct (zupd l i v) as [l1|] eqn:E; [|discriminate]. cbn [obind] in H. rewrite zlen_cons.
      assert (E' := E). apply zupd_Some in E'. destruct (IH l1 (i + 1) l' ltac:(lia) H) as [->|K].
      - rewrite zlen_nil. lia.
      - assert (zlen l1 = zlen l). { apply (zwrite_len [v] l i l1). cbn [zwrite]. rewrite E. reflexivity. } lia. }
    destruct (X b d a d' ltac:(lia) Z1) as [->|K]; [rewrite zlen_nil in S1; lia|lia]. }
  split.
  - unfold bh_read. rewrite R. unfold zsub. replace ((0 <=? a) && (0 <=? n) && (a + n <=? zlen d)) with false by lia. reflexivity.
  - split; [exact P|]. unfold bh_write, bh_erase. rewrite R. cbn [obind]. exact P.
Qed.

(* ---- the flash chip ---- *)
Definition pk (l1 : list die) (d : die) (l2 : list die) (r : bool) (dl : list nat) (g : bool) : chip := mkChip (l1 ++ d :: l2) (length l1) r dl g.
Lemma pk_of c d : selected c d -> exists l1 l2, length l1 = c_sel c /\ c = pk l1 d l2 (c_rsten c) (c_delays c) (c_gbu c).
Proof.
  unfold selected. intro H. destruct (nth_error_split _ _ H) as (l1 & l2 & E & L). exists l1, l2. split; [exact L|].
  unfold pk. rewrite L, <- E. destruct c. reflexivity.
Qed.
Lemma pk_sel l1 d l2 r dl g : selected (pk l1 d l2 r dl g) d.
Proof. unfold selected, pk. cbn [c_dies c_sel]. rewrite nth_error_app2 by lia. rewrite Nat.sub_diag. reflexivity. Qed.
Lemma pk_put l1 d l2 r dl g d' : chip_put (pk l1 d l2 r dl g) d' = pk l1 d' l2 r dl g.
Proof.
  unfold chip_put, pk. cbn [c_dies c_sel c_rsten c_delays c_gbu]. f_equal. f_equal.
  - rewrite firstn_app, firstn_all, Nat.sub_diag. cbn [firstn]. apply app_nil_r.
  - f_equal. rewrite skipn_app. rewrite skipn_all2 by lia. replace (S (length l1) - length l1)%nat with 1%nat by lia. reflexivity.
Qed.
Lemma pk_start l1 d l2 r dl g d' : chip_start (pk l1 d l2 r dl g) d' = pk l1 (mkDie (d_mem d') (d_wel d') (d_adr4 d') (hd 0%nat dl)) l2 r (tl dl) g.
Proof. unfold chip_start. rewrite pk_put. reflexivity. Qed.
Lemma pk_only l1 d l2 r dl g d' r' dl' g' : only_selected (pk l1 d l2 r dl g) (pk l1 d' l2 r' dl' g').
Proof.
  unfold only_selected, pk. cbn [c_dies c_sel]. split; [reflexivity|]. split; [rewrite !app_length; reflexivity|].
  intros k Hk. destruct (Nat.lt_ge_cases k (length l1)).
  - rewrite !nth_error_app1 by assumption. reflexivity.
  - rewrite !nth_error_app2 by assumption. destruct (k - length l1)%nat eqn:E; [lia|]. reflexivity.
Qed.
Lemma frame_pk l1 m w a b l2 r dl g op args n :
  chip_frame (pk l1 (mkDie m w a b) l2 r dl g) (op :: args) n =
  let ff := repeat 255 (Z.to_nat n) in
  let c := pk l1 (mkDie m w a b) l2 (op =? 102) dl g in
      if op =? 5 then
        (pk l1 (mkDie m w a (pred b)) l2 (op =? 102) dl g, repeat ((if Nat.eqb b 0 then 0 else 1) + (if w then 2 else 0)) (Z.to_nat n))
      else if op =? 194 then
        match args with [k] => (mkChip (c_dies c) (Z.to_nat k) (c_rsten c) (c_delays c) (c_gbu c), ff) | _ => (c, ff) end
      else if negb (Nat.eqb b 0) then (c, ff)
      else if op =? 153 then if r then (pk l1 (mkDie m false false (hd 0%nat dl)) l2 (op =? 102) (tl dl) g, ff) else (c, ff)
      else if op =? 6 then (pk l1 (mkDie m true a 0) l2 (op =? 102) dl g, ff)
      else if op =? 152 then if w then (pk l1 (mkDie m (negb g) a (hd 0%nat dl)) l2 (op =? 102) (tl dl) g, ff) else (c, ff)
      else if op =? 183 then (pk l1 (mkDie m w true 0) l2 (op =? 102) dl g, ff)
      else if op =? 11 then match chip_addr a args with Some (x, [_]) => (c, die_read m x n) | _ => (c, ff) end
      else if op =? 2 then
        match chip_addr a args with
        | Some (x, data) => if w then let x := x mod zlen m in
            (pk l1 (mkDie (die_program m (x / 256 * 256) (x mod 256) data) false a (hd 0%nat dl)) l2 (op =? 102) (tl dl) g, ff) else (c, ff)
        | None => (c, ff)
        end
      else if op =? 32 then
        match chip_addr a args with
        | Some (x, []) => if w then (pk l1 (mkDie (die_erase m (x mod zlen m)) false a (hd 0%nat dl)) l2 (op =? 102) (tl dl) g, ff) else (c, ff)
        | _ => (c, ff)
        end
      else if op =? 199 then if w then (pk l1 (mkDie (map (fun _ => 255) m) false a (hd 0%nat dl)) l2 (op =? 102) (tl dl) g, ff) else (c, ff)
      else (c, ff).
Proof.
  unfold chip_frame. rewrite (pk_sel l1 (mkDie m w a b) l2 r dl g). cbv zeta. cbn [d_mem d_wel d_adr4 d_busy].
  change (mkChip (c_dies (pk l1 (mkDie m w a b) l2 r dl g)) (c_sel (pk l1 (mkDie m w a b) l2 r dl g)) (op =? 102)
     (c_delays (pk l1 (mkDie m w a b) l2 r dl g)) (c_gbu (pk l1 (mkDie m w a b) l2 r dl g))) with (pk l1 (mkDie m w a b) l2 (op =? 102) dl g).
  change (c_rsten (pk l1 (mkDie m w a b) l2 r dl g)) with r.
  rewrite !pk_start, !pk_put. cbn [d_mem d_wel d_adr4].
  change (c_gbu (pk l1 (mkDie m w a b) l2 (op =? 102) dl g)) with g.
  repeat match goal with |- context [chip_start ?c ?d] => rewrite (pk_start l1 (mkDie m w a b) l2 (op =? 102) dl g d) end.
  cbn [d_mem d_wel d_adr4].
  destruct (op =? 5); [reflexivity|]. destruct (op =? 194); [reflexivity|]. destruct (negb (Nat.eqb b 0)); [reflexivity|].
  destruct (op =? 153); [reflexivity|]. destruct (op =? 6); [rewrite ?pk_put; reflexivity|]. destruct (op =? 152); [reflexivity|].
  destruct (op =? 183); [rewrite ?pk_put; reflexivity|]. destruct (op =? 11); [reflexivity|].
  destruct (op =? 2). { destruct (chip_addr a args) as [[x data]|]; [|reflexivity]. destruct w; [|reflexivity]. rewrite ?pk_start. reflexivity. }
  destruct (op =? 32). { destruct (chip_addr a args) as [[x data]|]; [|reflexivity]. destruct data; [|reflexivity]. destruct w; [|reflexivity]. rewrite ?pk_start. reflexivity. }
  destruct (op =? 199); reflexivity.
Qed.
Lemma wait_loop l1 m w a l2 dl g : forall b y r, fl_wait_loop (S b) y (pk l1 (mkDie m w a b) l2 r dl g) =
  Some ((y + b)%nat, pk l1 (mkDie m w a 0) l2 false dl g).
Proof.
  induction b as [|b IH]; intros y r; cbn [fl_wait_loop]; unfold fl_isBusy, fl_op; rewrite frame_pk; cbv zeta;
    change (5 =? 5) with true; change (5 =? 102) with false; cbv iota; cbn [Nat.eqb Nat.pred pred].
  - change (Z.to_nat 1) with 1%nat. cbn [repeat hd]. destruct w; cbn; rewrite Nat.add_0_r; reflexivity.
  - change (Z.to_nat 1) with 1%nat. cbn [repeat hd].
    replace (Z.odd (1 + (if w then 2 else 0))) with true by (destruct w; reflexivity). cbv iota.
    change (fl_wait_loop (S b) (S y) (pk l1 (mkDie m w a b) l2 false dl g) = Some ((y + S b)%nat, pk l1 (mkDie m w a 0) l2 false dl g)).
    rewrite IH. f_equal. f_equal. lia.
Qed.
Lemma wait_ok l1 m w a b l2 r dl g : fl_wait (pk l1 (mkDie m w a b) l2 r dl g) = Some (b, pk l1 (mkDie m w a 0) l2 false dl g).
Proof.
  unfold fl_wait, chip_pending. rewrite (pk_sel l1 (mkDie m w a b) l2 r dl g). cbn [d_busy]. rewrite wait_loop. reflexivity.
Qed.
Lemma op_we l1 m w a l2 r dl g : fst (fl_op (pk l1 (mkDie m w a 0) l2 r dl g) 6 [] 0) = pk l1 (mkDie m true a 0) l2 false dl g.
Proof. unfold fl_op. rewrite frame_pk. reflexivity. Qed.
Lemma op_gbu l1 m a l2 r dl g : fst (fl_op (pk l1 (mkDie m true a 0) l2 r dl g) 152 [] 0) = pk l1 (mkDie m (negb g) a (hd 0%nat dl)) l2 false (tl dl) g.
Proof. unfold fl_op. rewrite frame_pk. reflexivity. Qed.
Lemma op_en4 l1 m w a l2 r dl g : fst (fl_op (pk l1 (mkDie m w a 0) l2 r dl g) 183 [] 0) = pk l1 (mkDie m w true 0) l2 false dl g.
Proof. unfold fl_op. rewrite frame_pk. reflexivity. Qed.
Lemma op_ce l1 m w a l2 r dl g : fst (fl_op (pk l1 (mkDie m w a 0) l2 r dl g) 199 [] 0) =
  if w then pk l1 (mkDie (map (fun _ => 255) m) false a (hd 0%nat dl)) l2 false (tl dl) g else pk l1 (mkDie m w a 0) l2 false dl g.
Proof. unfold fl_op. rewrite frame_pk. destruct w; reflexivity. Qed.

(* the address arrives as it was sent *)
Lemma land255 x : Z.land x 255 = x mod 256.
Proof. change 255 with (Z.ones 8). rewrite Z.land_ones by lia. reflexivity. Qed.
Lemma shr_div x k : 0 <= k -> Z.shiftr x k = x / 2 ^ k.
Proof. intro H. apply Z.shiftr_div_pow2. exact H. Qed.
Lemma addr_ok F op x dummy tx : 0 <= x < F -> F < 2 ^ 32 ->
  exists args, fl_header F op x dummy ++ tx = op :: args /\ chip_addr (F >? 2 ^ 24) args = Some (x, repeat 0 dummy ++ tx).
Proof.
  intros Hx HF. unfold fl_header. change (2 ^ 24) with 16777216. rewrite !land255, !shr_div by lia.
  change (2 ^ 32) with 4294967296 in *. change (2 ^ 24) with 16777216. change (2 ^ 16) with 65536. change (2 ^ 8) with 256.
  destruct (F >? 16777216) eqn:E; cbn [app]; eexists; (split; [reflexivity|]); cbn [chip_addr]; f_equal; f_equal; lia.
Qed.
Lemma op_read F l1 m w l2 r dl g x n : zlen m = F -> 0 <= x < F -> F < 2 ^ 32 ->
  fl_opa F (pk l1 (mkDie m w (F >? 2 ^ 24) 0) l2 r dl g) 11 x [] n 1 = (pk l1 (mkDie m w (F >? 2 ^ 24) 0) l2 false dl g, die_read m x n).
Proof.
  intros L Hx HF. unfold fl_opa. destruct (addr_ok F 11 x 1 [] Hx HF) as (args & E1 & E2). rewrite E1, frame_pk. cbv zeta. cbn [Z.eqb Pos.eqb Nat.eqb negb].
  rewrite E2. reflexivity.
Qed.
Lemma op_pp F l1 m l2 r dl g x data : zlen m = F -> 0 <= x < F -> F < 2 ^ 32 ->
  fst (fl_opa F (pk l1 (mkDie m true (F >? 2 ^ 24) 0) l2 r dl g) 2 x data 0 0) =
  pk l1 (mkDie (die_program m (x / 256 * 256) (x mod 256) data) false (F >? 2 ^ 24) (hd 0%nat dl)) l2 false (tl dl) g.
Proof.
  intros L Hx HF. unfold fl_opa. destruct (addr_ok F 2 x 0 data Hx HF) as (args & E1 & E2). rewrite E1, frame_pk. cbv zeta. cbn [Z.eqb Pos.eqb Nat.eqb negb].
  rewrite E2. cbn [repeat app]. rewrite (Z.mod_small x (zlen m)) by lia. reflexivity.
Qed.
Lemma op_se F l1 m l2 r dl g x : zlen m = F -> 0 <= x < F -> F < 2 ^ 32 ->
  fst (fl_opa F (pk l1 (mkDie m true (F >? 2 ^ 24) 0) l2 r dl g) 32 x [] 0 0) =
  pk l1 (mkDie (die_erase m x) false (F >? 2 ^ 24) (hd 0%nat dl)) l2 false (tl dl) g.
Proof.
  intros L Hx HF. unfold fl_opa. destruct (addr_ok F 32 x 0 [] Hx HF) as (args & E1 & E2). rewrite E1, frame_pk. cbv zeta. cbn [Z.eqb Pos.eqb Nat.eqb negb].
  rewrite E2. cbn [repeat app]. rewrite (Z.mod_small x (zlen m)) by lia. reflexivity.
Qed.

(* ---- the cells ---- *)
Lemma die_read_shows m a n : 0 <= a -> 0 <= n -> a + n <= zlen m -> shows (die_read m a n) (at_ m) a n.
Proof.
  intros A B C. unfold die_read. split.
  - unfold zlen. rewrite map_length, seq_length. lia.
  - intros j Hj. unfold at_. rewrite (nth_indep _ 0 (nth (Z.to_nat ((a + Z.of_nat 0) mod zlen m)) m 255)) by (rewrite map_length, seq_length; lia).
    rewrite (map_nth (fun i => nth (Z.to_nat ((a + Z.of_nat i) mod zlen m)) m 255)). rewrite seq_nth by lia.
    replace (Z.of_nat (0 + Z.to_nat j)) with j by lia. rewrite Z.mod_small by lia. apply nth_indep. unfold zlen in C. lia.
Qed.
Lemma die_program_len data : forall m page o, zlen (die_program m page o data) = zlen m.
Proof.
  induction data as [|v r IH]; intros m page o; cbn [die_program]; [reflexivity|]. rewrite IH. unfold zlen. f_equal.
  set (i := Z.to_nat (page + o)). rewrite !app_length, firstn_length, skipn_length. destruct (nth_error m i) eqn:E.
  - assert (i < length m)%nat by (apply nth_error_Some; congruence). cbn [length]. lia.
  - apply nth_error_None in E. cbn [length]. lia.
Qed.
Lemma die_program_ok data : forall m page o, 0 <= page -> 0 <= o -> o + zlen data <= 256 -> page + o + zlen data <= zlen m ->
  becomes (zlen m) (at_ m) (at_ (die_program m page o data)) (page + o) (zlen data) (fun i => Z.land (at_ m i) (at_ data (i - page - o))).
Proof.
  induction data as [|v r IH]; intros m page o H1 H2 H3 H4; cbn [die_program].
  - intros i Hi. rewrite zlen_nil. replace ((page + o <=? i) && (i <? page + o + 0)) with false by lia. reflexivity.
  - rewrite zlen_cons in *. pose proof (zlen_nonneg r). set (k := Z.to_nat (page + o)).
    assert (N : nth_error m k = Some (at_ m (page + o))).
    { pose proof (at_znth m (page + o) ltac:(lia)) as E. unfold znth in E. destruct (page + o <? 0) eqn:Q; [lia|]. exact E. }
    rewrite N. set (m' := firstn k m ++ [Z.land (at_ m (page + o)) v] ++ skipn (S k) m).
    assert (M : m' = splice m (page + o) [Z.land (at_ m (page + o)) v]).
    { unfold m', splice. f_equal. f_equal. f_equal. change (zlen [Z.land (at_ m (page + o)) v]) with 1. lia. }
    assert (L : zlen m' = zlen m). { rewrite M. apply splice_len; [lia|]. change (zlen [Z.land (at_ m (page + o)) v]) with 1. lia. }
    assert (A : forall i, 0 <= i -> at_ m' i = if i =? page + o then Z.land (at_ m (page + o)) v else at_ m i).
    { intros i Hi. rewrite M, splice_at by (change (zlen [Z.land (at_ m (page + o)) v]) with 1; lia).
      change (zlen [Z.land (at_ m (page + o)) v]) with 1. destruct (i =? page + o) eqn:Q.
      - replace ((page + o <=? i) && (i <? page + o + 1)) with true by lia. replace (i - (page + o)) with 0 by lia. reflexivity.
      - replace ((page + o <=? i) && (i <? page + o + 1)) with false by lia. reflexivity. }
    destruct (Z.eq_dec (zlen r) 0) as [Z0|Z0].
    + apply zlen_0_nil in Z0. subst r. cbn [die_program]. intros i Hi. rewrite A by lia. rewrite zlen_nil.
      destruct (i =? page + o) eqn:Q.
      * replace ((page + o <=? i) && (i <? page + o + (1 + 0))) with true by lia. replace (i - page - o) with 0 by lia. replace i with (page + o) by lia. reflexivity.
      * replace ((page + o <=? i) && (i <? page + o + (1 + 0))) with false by lia. reflexivity.
    + rewrite (Z.mod_small (o + 1) 256) by lia. specialize (IH m' page (o + 1)). intros i Hi. rewrite IH by lia. rewrite A by lia.
      destruct (i =? page + o) eqn:Q.
      * replace ((page + (o + 1) <=? i) && (i <? page + (o + 1) + zlen r)) with false by lia.
        replace ((page + o <=? i) && (i <? page + o + (1 + zlen r))) with true by lia. replace (i - page - o) with 0 by lia. replace i with (page + o) by lia. reflexivity.
      * replace ((page + (o + 1) <=? i) && (i <? page + (o + 1) + zlen r)) with ((page + o <=? i) && (i <? page + o + (1 + zlen r))) by lia.
        destruct ((page + o <=? i) && (i <? page + o + (1 + zlen r))) eqn:Q2; [|reflexivity]. f_equal. unfold at_.
        replace (Z.to_nat (i - page - o)) with (S (Z.to_nat (i - page - (o + 1)))) by lia. reflexivity.
Qed.
Lemma die_erase_ok m a : 0 <= a -> a mod 4096 = 0 -> a + 4096 <= zlen m ->
  zlen (die_erase m a) = zlen m /\ becomes (zlen m) (at_ m) (at_ (die_erase m a)) a 4096 (fun _ => 255).
Proof.
  intros H1 H2 H3.
  assert (E : die_erase m a = splice m a (repeat 255 (Z.to_nat 4096))).
  { unfold die_erase, splice. replace (a / 4096 * 4096) with a by lia. rewrite zlen_repeat.
    replace (Nat.min (Z.to_nat 4096) (length m - Z.to_nat a)) with (Z.to_nat 4096) by (unfold zlen in H3; lia).
    replace (Z.to_nat (a + Z.of_nat (Z.to_nat 4096))) with (Z.to_nat a + Z.to_nat 4096)%nat by lia. reflexivity. }
  assert (L : zlen (repeat 255 (Z.to_nat 4096)) = 4096) by (rewrite zlen_repeat; lia).
  rewrite E. split; [apply splice_len; lia|]. intros i Hi. rewrite splice_at by lia. rewrite L.
  destruct ((a <=? i) && (i <? a + 4096)) eqn:Q; [|reflexivity]. apply at_repeat. lia.
Qed.

(* ---- BdSpiFlash ---- *)
Lemma prog_loop F l1 l2 g buf a n : zlen buf >= n -> 0 <= a -> a mod 256 = 0 -> n mod 256 = 0 -> a + n <= F -> F < 2 ^ 32 ->
  forall fuel m w b r dl i, zlen m = F -> 0 <= i <= n -> i mod 256 = 0 -> n - i < Z.of_nat fuel ->
  exists m' w' b' r' dl', fl_prog_loop fuel F (pk l1 (mkDie m w (F >? 2 ^ 24) b) l2 r dl g) buf a n i = Some (pk l1 (mkDie m' w' (F >? 2 ^ 24) b') l2 r' dl' g) /\
    zlen m' = F /\ (i < n -> w' = false) /\ becomes F (at_ m) (at_ m') (a + i) (n - i) (fun j => Z.land (at_ m j) (at_ buf (j - a))).
Proof.
  intros HB Ha Ma Mn HaF HF. induction fuel as [|fuel IH]; intros m w b r dl i L Hi Mi Hf; [lia|]. cbn [fl_prog_loop].
  destruct (i <? n) eqn:E.
  - rewrite wait_ok. cbn [obind]. rewrite op_we. destruct (zsub_shows buf i 256) as (data & E1 & S1 & S2); try lia. rewrite E1. cbn [obind].
    assert (U : u32 (a + i) = a + i) by (unfold u32; apply Z.mod_small; lia).
    assert (U2 : u32 (i + 256) = i + 256) by (unfold u32; apply Z.mod_small; lia).
    rewrite U, U2, op_pp by lia. replace ((a + i) / 256 * 256) with (a + i) by lia. replace ((a + i) mod 256) with 0 by lia.
    pose proof (die_program_ok data m (a + i) 0 ltac:(lia) ltac:(lia) ltac:(lia) ltac:(lia)) as D. rewrite L, S1 in D.
    set (m1 := die_program m (a + i) 0 data) in *. assert (L1 : zlen m1 = F) by (unfold m1; rewrite die_program_len; exact L).
    destruct (IH m1 false (hd 0%nat dl) false (tl dl) (i + 256) L1 ltac:(lia) ltac:(lia) ltac:(lia)) as (m' & w' & b' & r' & dl' & R & L' & W & B).
    exists m', w', b', r', dl'. split; [exact R|]. split; [exact L'|]. split.
    + intros _. destruct (Z_lt_ge_dec (i + 256) n) as [C|C]; [auto|]. assert (i + 256 = n) by lia.
      destruct fuel as [|fuel]; [lia|]. cbn [fl_prog_loop] in R. replace (i + 256 <? n) with false in R by lia. unfold pk in R. injection R as R _ _.
      apply app_inv_head in R. injection R as _ R _. congruence.
    + intros j Hj. rewrite B, !D by lia. replace (a + i + 0) with (a + i) by lia.
      destruct ((a + (i + 256) <=? j) && (j <? a + (i + 256) + (n - (i + 256)))) eqn:Q1.
      * replace ((a + i <=? j) && (j <? a + i + 256)) with false by lia. replace ((a + i <=? j) && (j <? a + i + (n - i))) with true by lia. reflexivity.
      * destruct ((a + i <=? j) && (j <? a + i + 256)) eqn:Q2.
        -- replace ((a + i <=? j) && (j <? a + i + (n - i))) with true by lia. f_equal. rewrite S2 by lia. f_equal. lia.
        -- replace ((a + i <=? j) && (j <? a + i + (n - i))) with false by lia. reflexivity.
  - exists m, w, b, r, dl. split; [reflexivity|]. split; [exact L|]. split; [lia|]. intros j Hj.
    replace ((a + i <=? j) && (j <? a + i + (n - i))) with false by lia. reflexivity.
Qed.
Lemma erase_loop F l1 l2 g a n : 0 <= a -> a mod 4096 = 0 -> n mod 4096 = 0 -> a + n <= F -> F < 2 ^ 32 -> F mod 4096 = 0 ->
  forall fuel m w b r dl i, zlen m = F -> 0 <= i <= n -> i mod 4096 = 0 -> n - i < Z.of_nat fuel ->
  exists m' w' b' r' dl', fl_erase_loop fuel F (pk l1 (mkDie m w (F >? 2 ^ 24) b) l2 r dl g) a n i = Some (pk l1 (mkDie m' w' (F >? 2 ^ 24) b') l2 r' dl' g) /\
    zlen m' = F /\ (i < n -> w' = false) /\ becomes F (at_ m) (at_ m') (a + i) (n - i) (fun _ => 255).
Proof.
  intros Ha Ma Mn HaF HF MF. induction fuel as [|fuel IH]; intros m w b r dl i L Hi Mi Hf; [lia|]. cbn [fl_erase_loop].
  destruct (i <? n) eqn:E.
  - rewrite wait_ok. cbn [obind]. rewrite op_we.
    assert (U : u32 (a + i) = a + i) by (unfold u32; apply Z.mod_small; lia).
    assert (Hn : i + 4096 <= n) by lia.
    assert (U2 : u32 (i + 4096) = i + 4096) by (unfold u32; apply Z.mod_small; lia).
    rewrite U, U2, op_se by lia.
    destruct (die_erase_ok m (a + i)) as [L1 D]; [lia|lia|lia|]. rewrite L in D, L1.
    set (m1 := die_erase m (a + i)) in *.
    destruct (IH m1 false (hd 0%nat dl) false (tl dl) (i + 4096) L1 ltac:(lia) ltac:(lia) ltac:(lia)) as (m' & w' & b' & r' & dl' & R & L' & W & B).
    exists m', w', b', r', dl'. split; [exact R|]. split; [exact L'|]. split.
    + intros _. destruct (Z_lt_ge_dec (i + 4096) n) as [C|C]; [auto|]. assert (i + 4096 = n) by lia.
      destruct fuel as [|fuel]; [lia|]. cbn [fl_erase_loop] in R. replace (i + 4096 <? n) with false in R by lia. unfold pk in R. injection R as R _ _.
      apply app_inv_head in R. injection R as _ R _. congruence.
    + intros j Hj. rewrite B, !D by lia.
      destruct ((a + (i + 4096) <=? j) && (j <? a + (i + 4096) + (n - (i + 4096)))) eqn:Q1.
      * replace ((a + i <=? j) && (j <? a + i + (n - i))) with true by lia. reflexivity.
      * destruct ((a + i <=? j) && (j <? a + i + 4096)) eqn:Q2.
        -- replace ((a + i <=? j) && (j <? a + i + (n - i))) with true by lia. reflexivity.
        -- replace ((a + i <=? j) && (j <? a + i + (n - i))) with false by lia. reflexivity.
  - exists m, w, b, r, dl. split; [reflexivity|]. split; [exact L|]. split; [lia|]. intros j Hj.
    replace ((a + i <=? j) && (j <? a + i + (n - i))) with false by lia. reflexivity.
Qed.

Lemma refuse_ok F B a n : 0 < B -> legal F B a n -> F < 2 ^ 32 -> ((n =? 0) || negb (n mod B =? 0) || (u32 (a + n) >? F)) = false.
Proof. intros HB (Q1 & Q2 & Q3 & Q4) HF. rewrite Q2. assert (E : u32 (a + n) = a + n) by (unfold u32; apply Z.mod_small; lia). rewrite E. cbn. lia. Qed.
Lemma refuse_not F B a n : 0 < B -> ~ legal F B a n -> no_wrap a n -> ((n =? 0) || negb (n mod B =? 0) || (u32 (a + n) >? F)) = true.
Proof.
  intros HB Q (W1 & W2 & W3). unfold legal in Q. assert (E : u32 (a + n) = a + n) by (unfold u32; apply Z.mod_small; lia). rewrite E.
  destruct (n mod B =? 0) eqn:M; cbn [negb]; lia.
Qed.

(* in canonical form, so that the stack can use it *)
Lemma fl_read_pk F l1 m w b l2 r dl g a n : F < 2 ^ 32 -> zlen m = F -> legal F 1 a n ->
  exists v, fl_read F (pk l1 (mkDie m w (F >? 2 ^ 24) b) l2 r dl g) a n = Some (true, v, pk l1 (mkDie m w (F >? 2 ^ 24) 0) l2 false dl g) /\ shows v (at_ m) a n.
Proof.
  intros HF L Q. unfold fl_read. rewrite (refuse_ok F 1 a n) by (assumption || lia). rewrite wait_ok. cbn [obind].
  destruct Q as (Q1 & Q2 & Q3 & Q4). rewrite op_read by lia. eexists. split; [reflexivity|]. apply die_read_shows; lia.
Qed.
Lemma fl_program_pk F l1 m w b l2 r dl g buf a n : F < 2 ^ 32 -> zlen m = F -> legal F 256 a n -> a mod 256 = 0 -> n <= zlen buf ->
  exists m' b' r' dl', fl_program F (pk l1 (mkDie m w (F >? 2 ^ 24) b) l2 r dl g) buf a n = Some (true, pk l1 (mkDie m' false (F >? 2 ^ 24) b') l2 r' dl' g) /\
    zlen m' = F /\ becomes F (at_ m) (at_ m') a n (fun j => Z.land (at_ m j) (at_ buf (j - a))).
Proof.
  intros HF L Q Ma HB. unfold fl_program. rewrite (refuse_ok F 256 a n) by (assumption || lia). destruct Q as (Q1 & Q2 & Q3 & Q4).
  destruct (prog_loop F l1 l2 g buf a n ltac:(lia) Q3 Ma Q2 Q4 HF (S (Z.to_nat n)) m w b r dl 0 L ltac:(lia) ltac:(lia) ltac:(lia)) as (m' & w' & b' & r' & dl' & R & L' & W & B).
  rewrite R. cbn [obind]. rewrite (W Q1) in *. exists m', b', r', dl'. split; [reflexivity|]. split; [exact L'|].
  replace (a + 0) with a in B by lia. replace (n - 0) with n in B by lia. exact B.
Qed.
Lemma fl_erase_pk F l1 m w b l2 r dl g a n : F < 2 ^ 32 -> F mod 4096 = 0 -> zlen m = F -> legal F 4096 a n -> a mod 4096 = 0 -> ~ (a = 0 /\ n = F) ->
  exists m' b' r' dl', fl_erase F (pk l1 (mkDie m w (F >? 2 ^ 24) b) l2 r dl g) a n = Some (true, pk l1 (mkDie m' false (F >? 2 ^ 24) b') l2 r' dl' g) /\
    zlen m' = F /\ becomes F (at_ m) (at_ m') a n (fun _ => 255).
Proof.
  intros HF MF L Q Ma NW. unfold fl_erase. rewrite (refuse_ok F 4096 a n) by (assumption || lia). destruct Q as (Q1 & Q2 & Q3 & Q4).
  replace ((a =? 0) && (n =? F)) with false by lia.
  destruct (erase_loop F l1 l2 g a n Q3 Ma Q2 Q4 HF MF (S (Z.to_nat n)) m w b r dl 0 L ltac:(lia) ltac:(lia) ltac:(lia)) as (m' & w' & b' & r' & dl' & R & L' & W & B).
  rewrite R. cbn [obind]. rewrite (W Q1) in *. exists m', b', r', dl'. split; [reflexivity|]. split; [exact L'|].
  replace (a + 0) with a in B by lia. replace (n - 0) with n in B by lia. exact B.
Qed.
Lemma legal_4096 F a n : legal F 4096 a n -> legal F 256 a n.
Proof. unfold legal. lia. Qed.
Lemma refuse4 F a n : legal F 4096 a n -> F < 2 ^ 32 -> ((n =? 0) || negb (n mod 4096 =? 0) || negb (n mod 256 =? 0) || (u32 (a + n) >? F)) = false.
Proof.
  intros Q HF. pose proof (refuse_ok F 4096 a n ltac:(lia) Q HF). unfold legal in Q. destruct (n mod 256 =? 0) eqn:E; [|lia]. cbn [negb]. lia.
Qed.
Lemma land255_byte v : byte v -> Z.land 255 v = v.
Proof. intro H. unfold byte in H. rewrite Z.land_comm, land255. apply Z.mod_small. lia. Qed.
Lemma fl_write_pk F l1 m w b l2 r dl g buf a n : F < 2 ^ 32 -> F mod 4096 = 0 -> zlen m = F -> legal F 4096 a n -> a mod 4096 = 0 -> ~ (a = 0 /\ n = F) ->
  n <= zlen buf -> Forall byte buf ->
  exists m' b' r' dl', fl_write F (pk l1 (mkDie m w (F >? 2 ^ 24) b) l2 r dl g) buf a n = Some (true, pk l1 (mkDie m' false (F >? 2 ^ 24) b') l2 r' dl' g) /\
    zlen m' = F /\ becomes F (at_ m) (at_ m') a n (fun j => at_ buf (j - a)).
Proof.
  intros HF MF L Q Ma NW HB BB. unfold fl_write. rewrite refuse4 by assumption.
  destruct (fl_erase_pk F l1 m w b l2 r dl g a n HF MF L Q Ma NW) as (m1 & b1 & r1 & dl1 & E1 & L1 & B1). rewrite E1. cbn [obind].
  destruct (fl_program_pk F l1 m1 false b1 l2 r1 dl1 g buf a n HF L1 (legal_4096 F a n Q) ltac:(lia) HB) as (m2 & b2 & r2 & dl2 & E2 & L2 & B2).
  rewrite E2. cbn [obind]. exists m2, b2, r2, dl2. split; [reflexivity|]. split; [exact L2|]. intros i Hi. unfold legal in Q. rewrite B2 by lia. cbv beta. rewrite !B1 by lia.
  destruct ((a <=? i) && (i <? a + n)) eqn:C; [|reflexivity]. apply land255_byte. apply Forall_at; [exact BB|lia].
Qed.
Lemma fl_init_pk F l1 m w a0 l2 r dl g : F < 2 ^ 32 ->
  exists w' b' r' dl', fl_initialize F (pk l1 (mkDie m w a0 0) l2 r dl g) = Some (true, pk l1 (mkDie m w' (F >? 2 ^ 24) b') l2 r' dl' g).
Proof.
  intro HF. unfold fl_initialize.
  assert (E1 : fst (fl_op (pk l1 (mkDie m w a0 0) l2 r dl g) 102 [] 0) = pk l1 (mkDie m w a0 0) l2 true dl g) by (unfold fl_op; rewrite frame_pk; reflexivity).
  assert (E2 : fst (fl_op (pk l1 (mkDie m w a0 0) l2 true dl g) 153 [] 0) = pk l1 (mkDie m false false (hd 0%nat dl)) l2 false (tl dl) g) by (unfold fl_op; rewrite frame_pk; reflexivity).
  cbv zeta. rewrite E1, E2, wait_ok. cbn [obind]. rewrite op_we, op_gbu, wait_ok. cbn [obind]. change (2 ^ 24) with 16777216.
  destruct (F >? 16777216) eqn:E.
  - rewrite op_en4, wait_ok. cbn [obind]. eexists _, _, _, _. reflexivity.
  - eexists _, _, _, _. reflexivity.
Qed.
Lemma sel_frame l1 d l2 r dl g k n : fst (chip_frame (pk l1 d l2 r dl g) [194; k] n) = mkChip (l1 ++ d :: l2) (Z.to_nat k) false dl g.
Proof. destruct d as [m w a b]. rewrite frame_pk. reflexivity. Qed.
Lemma fl_select_pk F l1 m w a0 b l2 dl g k d0 c0 : selected c0 d0 -> c_dies c0 = l1 ++ mkDie m w a0 b :: l2 -> length l1 = Z.to_nat k -> c_delays c0 = dl -> c_gbu c0 = g -> (F <= 2 ^ 24 -> a0 = false) ->
  exists y w' b' r' dl', fl_selectDie F c0 k = Some (y, pk l1 (mkDie m w' (F >? 2 ^ 24) b') l2 r' dl' g) /\ (b = 0%nat -> Forall (fun x => x = 0%nat) dl -> y = 0%nat /\ b' = 0%nat /\ Forall (fun x => x = 0%nat) dl').
Proof.
  intros S0 D0 Lk Dl G A0. destruct (pk_of c0 d0 S0) as (k1 & k2 & Lk1 & E0). unfold fl_selectDie, fl_op at 1.
  rewrite E0, sel_frame. cbv zeta. rewrite Dl, G. replace (k1 ++ d0 :: k2) with (l1 ++ mkDie m w a0 b :: l2).
  2: { rewrite <- D0. rewrite E0 at 1. reflexivity. }
  rewrite <- Lk. change (mkChip (l1 ++ mkDie m w a0 b :: l2) (length l1) false dl g) with (pk l1 (mkDie m w a0 b) l2 false dl g).
  rewrite wait_ok. cbn [obind]. rewrite op_we, op_gbu, wait_ok. cbn [obind]. change (2 ^ 24) with 16777216 in *.
  assert (Z0 : forall l : list nat, Forall (fun x => x = 0%nat) l -> hd 0%nat l = 0%nat /\ Forall (fun x => x = 0%nat) (tl l)).
  { intros l H. destruct H; cbn; [split; [reflexivity|constructor]|split; assumption]. }
  destruct (F >? 16777216) eqn:E.
  - rewrite op_en4, wait_ok. cbn [obind]. eexists _, _, _, _, _. split; [reflexivity|]. intros -> H. destruct (Z0 dl H) as [-> H2]. cbn. auto.
  - rewrite (A0 ltac:(lia)). eexists _, _, _, _, _. split; [reflexivity|]. intros -> H. destruct (Z0 dl H) as [-> H2]. cbn. auto.
Qed.

(* ---- BdSpiStackFlash ---- *)
Lemma mod_mult B p F : 0 < B -> 0 < F -> p mod B = 0 -> F mod B = 0 -> (p mod F) mod B = 0.
Proof.
  intros HB HF Hp HFB. apply Z.mod_divide in HFB; [|lia]. destruct HFB as [k ->]. rewrite (Z.mod_eq p (k * B)) by lia.
  replace (p - k * B * (p / (k * B))) with (p + (- (k * (p / (k * B)))) * B) by ring. rewrite Z_mod_plus_full. exact Hp.
Qed.
Lemma step_numbers F K a n i : 0 < F -> F < 2 ^ 31 -> K * F <= 2 ^ 31 -> 0 <= a -> 0 <= i < n -> a + n <= K * F ->
  let q := (a + i) / F in let rm := (a + i) mod F in
  a + i = q * F + rm /\ 0 <= q < K /\ 0 <= rm < F /\ (q + 1) * F <= K * F /\
  st_quot F i a = q /\ u32 (st_rem F i a) = rm /\ st_rem F i a = rm /\ st_chunk F i a n = Z.min (n - i) (F - rm) /\ st_next F i a = i + (F - rm).
Proof.
  intros HF HF2 HK Ha Hi Hn q rm. change (2 ^ 31) with 2147483648 in *.
  assert (E : a + i = q * F + rm) by (unfold q, rm; pose proof (Z.div_mod (a + i) F ltac:(lia)); lia).
  assert (Hr : 0 <= rm < F) by (apply Z.mod_pos_bound; lia).
  assert (Hq : 0 <= q < K). { unfold q. split; [apply Z.div_pos; lia|]. apply Z.div_lt_upper_bound; lia. }
  assert (Hq1 : (q + 1) * F <= K * F) by (apply Z.mul_le_mono_nonneg_r; lia).
  assert (U : u32 (i + a) = a + i) by (unfold u32; rewrite Z.mod_small; lia).
  assert (S1 : swrap 32 (u32 (i + a)) = a + i) by (rewrite U; apply swrap_small; [change (2 ^ (32 - 1)) with 2147483648; lia|lia]).
  assert (S2 : swrap 32 F = F) by (apply swrap_small; [change (2 ^ (32 - 1)) with 2147483648; lia|lia]).
  assert (R : st_rem F i a = rm) by (unfold st_rem; rewrite S1, S2; apply Z.rem_mod_nonneg; lia).
  split; [exact E|]. split; [exact Hq|]. split; [exact Hr|]. split; [exact Hq1|].
  split; [unfold st_quot; rewrite S1, S2; apply Z.quot_div_nonneg; lia|].
  split; [rewrite R; unfold u32; apply Z.mod_small; lia|]. split; [exact R|].
  split; [unfold st_chunk; rewrite R; unfold u32; rewrite !Z.mod_small by lia; reflexivity|].
  unfold st_next. rewrite R. unfold u32. apply Z.mod_small. lia.
Qed.
Lemma stack_at_same F c c' : map d_mem (c_dies c) = map d_mem (c_dies c') -> forall i, stack_at F c i = stack_at F c' i.
Proof.
  intros H i. unfold stack_at. f_equal.
  change (d_mem (nth (Z.to_nat (i / F)) (c_dies c) (mkDie [] false false 0))) with (d_mem (nth (Z.to_nat (i / F)) (c_dies c) (mkDie [] false false 0))).
  rewrite <- !(map_nth d_mem). rewrite H. reflexivity.
Qed.
Definition rest_at (F : Z) (l1 l2 : list die) (i : Z) : Z := stack_at F (pk l1 (mkDie [] false false 0) l2 false [] false) i.
Lemma stack_at_pk F l1 d l2 r dl g i : 0 < F -> 0 <= i ->
  stack_at F (pk l1 d l2 r dl g) i = if i / F =? zlen l1 then at_ (d_mem d) (i mod F) else rest_at F l1 l2 i.
Proof.
  intros HF Hi. pose proof (Z.div_pos i F Hi HF). unfold rest_at, stack_at, pk. cbn [c_dies]. destruct (i / F =? zlen l1) eqn:E.
  - replace (Z.to_nat (i / F)) with (length l1) by (unfold zlen in E; lia). rewrite app_nth2 by lia. rewrite Nat.sub_diag. reflexivity.
  - unfold zlen in E. destruct (Nat.lt_ge_cases (Z.to_nat (i / F)) (length l1)).
    + rewrite !app_nth1 by assumption. reflexivity.
    + rewrite !app_nth2 by lia. destruct (Z.to_nat (i / F) - length l1)%nat eqn:X; [lia|]. reflexivity.
Qed.
Lemma stack_becomes F K l1 l2 m w b a0 m' w' b' a0' r dl g r' dl' g' rm ch f : 0 < F -> becomes F (at_ m) (at_ m') rm ch f -> 0 <= rm -> rm + ch <= F ->
  becomes (K * F) (stack_at F (pk l1 (mkDie m w a0 b) l2 r dl g)) (stack_at F (pk l1 (mkDie m' w' a0' b') l2 r' dl' g')) (zlen l1 * F + rm) ch (fun x => f (x - zlen l1 * F)).
Proof.
  intros HF B H1 H2 x Hx. rewrite !stack_at_pk by lia. pose proof (Z.div_mod x F ltac:(lia)) as DM. pose proof (Z.mod_pos_bound x F HF).
  destruct (x / F =? zlen l1) eqn:E.
  - cbn [d_mem]. rewrite B by lia. assert (Q : x mod F = x - zlen l1 * F) by lia. rewrite Q.
    replace ((zlen l1 * F + rm <=? x) && (x <? zlen l1 * F + rm + ch)) with ((rm <=? x - zlen l1 * F) && (x - zlen l1 * F <? rm + ch)) by lia.
    reflexivity.
  - destruct ((zlen l1 * F + rm <=? x) && (x <? zlen l1 * F + rm + ch)) eqn:Q; [|reflexivity]. exfalso.
    assert (x / F = zlen l1). { symmetry. apply (Z.div_unique x F (zlen l1) (x - zlen l1 * F)); lia. } lia.
Qed.
Lemma select_ok F K s q : 0 < F -> stack_ok F K s -> 0 <= q < K -> K <= 255 ->
  exists l1 m w b l2 r dl g, st_select F s q = Some (mkStk q (pk l1 (mkDie m w (F >? 2 ^ 24) b) l2 r dl g)) /\
    zlen l1 = q /\ zlen l1 + (1 + zlen l2) = K /\ Forall (die_ok F) l1 /\ Forall (die_ok F) l2 /\ zlen m = F /\ Forall byte m /\
    (forall i, stack_at F (pk l1 (mkDie m w (F >? 2 ^ 24) b) l2 r dl g) i = stack_at F (s_chip s) i).
Proof.
  intros HF (L & A & Cu & d & Sd & (R1 & R2 & R3)) Hq HK. unfold st_select. destruct (s_cur s =? q) eqn:E.
  - destruct (pk_of _ _ Sd) as (l1 & l2 & Ll & Ec). destruct d as [m w a0 b]. cbn [d_mem d_adr4] in *. subst a0.
    destruct s as [cu c]. cbn [s_cur s_chip] in *. exists l1, m, w, b, l2, (c_rsten c), (c_delays c), (c_gbu c).
    rewrite <- Ec. assert (D : c_dies c = l1 ++ mkDie m w (F >? 2 ^ 24) b :: l2) by (rewrite Ec; reflexivity). rewrite D in L, A.
    rewrite zlen_app, zlen_cons in L. apply Forall_app in A. destruct A as [A1 A2]. apply Forall_inv_tail in A2.
    split; [f_equal; f_equal; lia|]. split; [unfold zlen; lia|]. split; [exact L|]. repeat (split; [assumption || reflexivity|]). reflexivity.
  - assert (U : u8 q = q) by (unfold u8; apply Z.mod_small; lia). rewrite U.
    assert (X : exists d', nth_error (c_dies (s_chip s)) (Z.to_nat q) = Some d').
    { destruct (nth_error (c_dies (s_chip s)) (Z.to_nat q)) eqn:X; [eauto|]. apply nth_error_None in X. unfold zlen in L. lia. }
    destruct X as ([m w a0 b] & X). destruct (nth_error_split _ _ X) as (l1 & l2 & D & Ll).
    assert (A' := A). rewrite D in A'. apply Forall_app in A'. destruct A' as [A1 A2]. 
    destruct (Forall_inv A2) as [B1 [B2 B3]]. apply Forall_inv_tail in A2. rename A2 into A3. cbn [d_mem d_adr4] in B1, B2, B3.
    destruct (fl_select_pk F l1 m w a0 b l2 (c_delays (s_chip s)) (c_gbu (s_chip s)) q d (s_chip s) Sd D Ll eq_refl eq_refl B3)
      as (y & w' & b' & r' & dl' & Es & _).
    exists l1, m, w', b', l2, r', dl', (c_gbu (s_chip s)). rewrite Es. cbn [obind]. split; [reflexivity|]. split; [unfold zlen; lia|].
    split; [rewrite D in L; rewrite zlen_app, zlen_cons in L; exact L|]. split; [exact A1|]. split; [exact A3|]. split; [exact B1|]. split; [exact B2|].
    intro i. apply stack_at_same. rewrite D. unfold pk. cbn [c_dies]. rewrite !map_app. reflexivity.
Qed.
Lemma stack_ok_pk F K l1 m w b l2 r dl g : zlen l1 + (1 + zlen l2) = K -> Forall (die_ok F) l1 -> Forall (die_ok F) l2 -> zlen m = F -> Forall byte m ->
  stack_ok F K (mkStk (zlen l1) (pk l1 (mkDie m w (F >? 2 ^ 24) b) l2 r dl g)).
Proof.
  intros L A1 A2 Lm Bm. unfold stack_ok. cbn [s_chip s_cur]. split; [unfold pk; cbn [c_dies]; rewrite zlen_app, zlen_cons; exact L|].
  split. { unfold pk. cbn [c_dies]. apply Forall_app. split; [exact A1|]. constructor; [|exact A2]. unfold die_ok. cbn [d_mem d_adr4].
    split; [exact Lm|]. split; [exact Bm|]. lia. }
  split; [reflexivity|]. eexists. split; [apply pk_sel|]. unfold ready. cbn [d_mem d_adr4]. auto.
Qed.
Lemma stack_read_loop F K a n : 0 < F -> F < 2 ^ 31 -> K * F <= 2 ^ 31 -> K <= 255 -> 0 <= a -> a + n <= K * F ->
  forall fuel s i acc, stack_ok F K s -> 0 <= i -> shows acc (stack_at F (s_chip s)) a (Z.min i n) -> Z.max 0 (n - i) < Z.of_nat fuel ->
  exists v s', st_read_loop fuel F s a n i acc = Some (true, v, s') /\ stack_ok F K s' /\ shows v (stack_at F (s_chip s)) a (Z.max 0 n) /\
    forall j, stack_at F (s_chip s') j = stack_at F (s_chip s) j.
Proof.
  intros HF HF2 HK HK2 Ha Hn. induction fuel as [|fuel IH]; intros s i acc Ok Hi Sh Hf; cbn [st_read_loop].
  - lia.
  - destruct (i <? n) eqn:E.
    + destruct (step_numbers F K a n i HF HF2 HK Ha ltac:(lia) Hn) as (N1 & N2 & N3 & N4 & N5 & N6 & N7 & N8 & N9).
      set (q := (a + i) / F) in *. set (rm := (a + i) mod F) in *. rewrite N5, N6, N8, N9.
      destruct (select_ok F K s q HF Ok N2 HK2) as (l1 & m & w & b & l2 & r & dl & g & Es & X1 & X2 & X3 & X4 & X5 & X6 & X7).
      rewrite Es. cbn [obind s_chip s_cur].
      destruct (fl_read_pk F l1 m w b l2 r dl g rm (Z.min (n - i) (F - rm))) as (v & Ev & Sv); [lia|exact X5|unfold legal; rewrite Z.mod_1_r; lia|].
      rewrite Ev. cbn [obind fst snd].
      destruct Sh as [Sh1 Sh2]. destruct Sv as [Sv1 Sv2].
      set (s1 := mkStk q (pk l1 (mkDie m w (F >? 2 ^ 24) 0) l2 false dl g)).
      assert (Ok1 : stack_ok F K s1) by (unfold s1; rewrite <- X1; apply stack_ok_pk; assumption).
      assert (Same : forall j, stack_at F (s_chip s1) j = stack_at F (s_chip s) j).
      { intro j. rewrite <- X7. apply stack_at_same. unfold s1, pk. cbn [s_chip c_dies]. rewrite !map_app. reflexivity. }
      assert (FN : firstn (Z.to_nat i) acc = acc) by (apply firstn_all2; unfold zlen in Sh1; lia). rewrite FN.
      destruct (IH s1 (i + (F - rm)) (acc ++ v) Ok1) as (v' & s' & Ev' & Ok' & Sh' & Sa'); [lia| |lia|].
      { split; [rewrite zlen_app, Sh1, Sv1; lia|]. intros j Hj. rewrite Same. destruct (Z_lt_ge_dec j i) as [C|C].
        - rewrite at_app_l by lia. apply Sh2. lia.
        - rewrite at_app_r by lia. rewrite Sh1. replace (j - Z.min i n) with (j - i) by lia. rewrite Sv2 by lia. rewrite <- X7, stack_at_pk by lia.
          assert (Dq : (a + j) / F = zlen l1). { symmetry. apply (Z.div_unique (a + j) F (zlen l1) (rm + (j - i))); lia. }
          assert (Dm : (a + j) mod F = rm + (j - i)). { symmetry. apply (Z.mod_unique (a + j) F (zlen l1) (rm + (j - i))); lia. }
          rewrite Dq, Z.eqb_refl. cbn [d_mem]. rewrite Dm. reflexivity. }
      exists v', s'. split; [exact Ev'|]. split; [exact Ok'|]. split.
      * destruct Sh' as [Y1 Y2]. split; [exact Y1|]. intros j Hj. rewrite Y2 by exact Hj. apply Same.
      * intro j. rewrite Sa'. apply Same.
    + exists acc, s. split; [reflexivity|]. split; [exact Ok|]. split; [|reflexivity]. destruct Sh as [S1 S2].
      assert (M : Z.min i n = n) by lia. rewrite M in *. pose proof (zlen_nonneg acc). replace (Z.max 0 n) with n by lia. split; assumption.
Qed.
Lemma skipn_shift (buf : list Z) i x : 0 <= i -> 0 <= x -> at_ (skipn (Z.to_nat i) buf) x = at_ buf (i + x).
Proof. apply at_skipn. Qed.
Lemma stack_prog_loop F K buf a n : 0 < F -> F < 2 ^ 31 -> K * F <= 2 ^ 31 -> K <= 255 -> F mod 4096 = 0 -> 0 <= a -> a mod 256 = 0 -> n mod 256 = 0 -> a + n <= K * F -> n <= zlen buf -> Forall byte buf ->
  forall fuel s i, stack_ok F K s -> 0 <= i -> i mod 256 = 0 -> Z.max 0 (n - i) < Z.of_nat fuel ->
  exists s', st_prog_loop fuel F s buf a n i = Some (true, s') /\ stack_ok F K s' /\
    becomes (K * F) (stack_at F (s_chip s)) (stack_at F (s_chip s')) (a + i) (n - i) (fun j => Z.land (stack_at F (s_chip s) j) (at_ buf (j - a))).
Proof.
  intros HF HF2 HK HK2 MF Ha Ma Mn Hn HB BB. induction fuel as [|fuel IH]; intros s i Ok Hi Mi Hf; cbn [st_prog_loop].
  - lia.
  - destruct (i <? n) eqn:E.
    + destruct (step_numbers F K a n i HF HF2 HK Ha ltac:(lia) Hn) as (N1 & N2 & N3 & N4 & N5 & N6 & N7 & N8 & N9).
      assert (M1 : ((a + i) mod F) mod 256 = 0) by (apply mod_mult; lia).
      set (q := (a + i) / F) in *. set (rm := (a + i) mod F) in *. rewrite N5, N6, N8, N9.
      destruct (select_ok F K s q HF Ok N2 HK2) as (l1 & m & w & b & l2 & r & dl & g & Es & X1 & X2 & X3 & X4 & X5 & X6 & X7).
      rewrite Es. cbn [obind s_chip s_cur]. set (ch := Z.min (n - i) (F - rm)) in *.
      destruct (fl_program_pk F l1 m w b l2 r dl g (skipn (Z.to_nat i) buf) rm ch) as (m' & b' & r' & dl' & Ev & Lm' & Bv); [lia|exact X5|unfold legal; lia|exact M1|rewrite skipn_zlen; lia|].
      rewrite Ev. cbn [obind].
      assert (Bm' : Forall byte m').
      { eapply becomes_bytes; [exact X5|exact Lm'|exact Bv|exact X6|]. intros j Hj1 Hj2. cbv beta.
        assert (byte (at_ m j)) by (apply Forall_at; [exact X6|lia]). unfold byte in *.
        split; [apply Z.land_nonneg; lia|]. rewrite skipn_shift by lia.
        assert (byte (at_ buf (i + (j - rm)))) by (apply Forall_at; [exact BB|lia]). unfold byte in *.
        assert (H9 : Z.land (at_ m j) (at_ buf (i + (j - rm))) < 2 ^ 8); [|lia].
        rewrite <- (Z.mod_small (at_ m j) (2 ^ 8)) by lia. rewrite <- Z.land_ones by lia.
        rewrite <- Z.land_assoc, (Z.land_comm (Z.ones 8)), Z.land_assoc, Z.land_ones by lia. apply Z.mod_pos_bound. lia. }
      set (s1 := mkStk q (pk l1 (mkDie m' false (F >? 2 ^ 24) b') l2 r' dl' g)).
      assert (Ok1 : stack_ok F K s1) by (unfold s1; rewrite <- X1; apply stack_ok_pk; assumption).
      pose proof (stack_becomes F K l1 l2 m w b (F >? 2 ^ 24) m' false b' (F >? 2 ^ 24) r dl g r' dl' g rm ch _ HF Bv ltac:(lia) ltac:(lia)) as SB.
      assert (SB' : becomes (K * F) (stack_at F (s_chip s)) (stack_at F (s_chip s1)) (a + i) ch (fun j => Z.land (stack_at F (s_chip s) j) (at_ buf (j - a)))).
      { intros x Hx. unfold s1. cbn [s_chip]. rewrite SB by exact Hx. rewrite X7. replace (zlen l1 * F + rm) with (a + i) by lia.
        destruct ((a + i <=? x) && (x <? a + i + ch)) eqn:Q; [|reflexivity]. rewrite <- X7, stack_at_pk by lia.
        assert (Dq : x / F = zlen l1). { symmetry. apply (Z.div_unique x F (zlen l1) (x - zlen l1 * F)); lia. }
        assert (Dm : x mod F = x - zlen l1 * F). { symmetry. apply (Z.mod_unique x F (zlen l1) (x - zlen l1 * F)); lia. }
        rewrite Dq, Z.eqb_refl, Dm. cbn [d_mem]. f_equal. rewrite skipn_shift by lia. f_equal. lia. }
      assert (M2 : (i + (F - rm)) mod 256 = 0) by lia.
      destruct (IH s1 (i + (F - rm)) Ok1 ltac:(lia) M2 ltac:(lia)) as (s' & Ev' & Ok' & B').
      exists s'. split; [exact Ev'|]. split; [exact Ok'|]. intros x Hx. rewrite B' by exact Hx. rewrite !SB' by exact Hx.
      destruct ((a + (i + (F - rm)) <=? x) && (x <? a + (i + (F - rm)) + (n - (i + (F - rm))))) eqn:Q1.
      * replace ((a + i <=? x) && (x <? a + i + ch)) with false by lia. replace ((a + i <=? x) && (x <? a + i + (n - i))) with true by lia. reflexivity.
      * destruct ((a + i <=? x) && (x <? a + i + ch)) eqn:Q2.
        -- replace ((a + i <=? x) && (x <? a + i + (n - i))) with true by lia. reflexivity.
        -- replace ((a + i <=? x) && (x <? a + i + (n - i))) with false by lia. reflexivity.
    + exists s. split; [reflexivity|]. split; [exact Ok|]. intros x Hx. replace ((a + i <=? x) && (x <? a + i + (n - i))) with false by lia. reflexivity.
Qed.
Lemma stack_erase_loop F K a n : 0 < F -> F < 2 ^ 31 -> K * F <= 2 ^ 31 -> K <= 255 -> F mod 4096 = 0 -> 0 <= a -> a mod 4096 = 0 -> n mod 4096 = 0 -> a + n <= K * F -> ~ covers_die F a n ->
  forall fuel s i, stack_ok F K s -> 0 <= i -> i mod 4096 = 0 -> Z.max 0 (n - i) < Z.of_nat fuel ->
  exists s', st_erase_loop fuel F s a n i = Some (true, s') /\ stack_ok F K s' /\
    becomes (K * F) (stack_at F (s_chip s)) (stack_at F (s_chip s')) (a + i) (n - i) (fun _ => 255).
Proof.
  intros HF HF2 HK HK2 MF Ha Ma Mn Hn NC. induction fuel as [|fuel IH]; intros s i Ok Hi Mi Hf; cbn [st_erase_loop].
  - lia.
  - destruct (i <? n) eqn:E.
    + destruct (step_numbers F K a n i HF HF2 HK Ha ltac:(lia) Hn) as (N1 & N2 & N3 & N4 & N5 & N6 & N7 & N8 & N9).
      assert (M1 : ((a + i) mod F) mod 4096 = 0) by (apply mod_mult; lia).
      set (q := (a + i) / F) in *. set (rm := (a + i) mod F) in *. rewrite N5, N6, N8, N9.
      destruct (select_ok F K s q HF Ok N2 HK2) as (l1 & m & w & b & l2 & r & dl & g & Es & X1 & X2 & X3 & X4 & X5 & X6 & X7).
      rewrite Es. cbn [obind s_chip s_cur]. set (ch := Z.min (n - i) (F - rm)) in *.
      destruct (fl_erase_pk F l1 m w b l2 r dl g rm ch) as (m' & b' & r' & dl' & Ev & Lm' & Bv); [lia|lia|exact X5|unfold legal; lia|exact M1| |].
      { intros [Z1 Z2]. apply NC. exists q. lia. }
      rewrite Ev. cbn [obind].
      assert (Bm' : Forall byte m').
      { eapply becomes_bytes; [exact X5|exact Lm'|exact Bv|exact X6|]. intros j Hj1 Hj2. cbv beta. unfold byte. lia. }
      set (s1 := mkStk q (pk l1 (mkDie m' false (F >? 2 ^ 24) b') l2 r' dl' g)).
      assert (Ok1 : stack_ok F K s1) by (unfold s1; rewrite <- X1; apply stack_ok_pk; assumption).
      pose proof (stack_becomes F K l1 l2 m w b (F >? 2 ^ 24) m' false b' (F >? 2 ^ 24) r dl g r' dl' g rm ch _ HF Bv ltac:(lia) ltac:(lia)) as SB.
      assert (SB' : becomes (K * F) (stack_at F (s_chip s)) (stack_at F (s_chip s1)) (a + i) ch (fun _ => 255)).
      { intros x Hx. unfold s1. cbn [s_chip]. rewrite SB by exact Hx. rewrite X7. replace (zlen l1 * F + rm) with (a + i) by lia. reflexivity. }
      assert (M2 : (i + (F - rm)) mod 4096 = 0) by lia.
      destruct (IH s1 (i + (F - rm)) Ok1 ltac:(lia) M2 ltac:(lia)) as (s' & Ev' & Ok' & B').
      exists s'. split; [exact Ev'|]. split; [exact Ok'|]. intros x Hx. rewrite B' by exact Hx. rewrite !SB' by exact Hx.
      destruct ((a + (i + (F - rm)) <=? x) && (x <? a + (i + (F - rm)) + (n - (i + (F - rm))))) eqn:Q1.
      * replace ((a + i <=? x) && (x <? a + i + (n - i))) with true by lia. reflexivity.
      * destruct ((a + i <=? x) && (x <? a + i + ch)) eqn:Q2.
        -- replace ((a + i <=? x) && (x <? a + i + (n - i))) with true by lia. reflexivity.
        -- replace ((a + i <=? x) && (x <? a + i + (n - i))) with false by lia. reflexivity.
    + exists s. split; [reflexivity|]. split; [exact Ok|]. intros x Hx. replace ((a + i <=? x) && (x <? a + i + (n - i))) with false by lia. reflexivity.
Qed.

(* ---- as stated in BdProps.v ---- *)
Lemma shows_firstn b m buf a n : 0 < n <= zlen buf -> shows b m a n -> (forall j, 0 <= j < n -> m (a + j) = at_ buf j) -> b = firstn (Z.to_nat n) buf.
Proof.
  intros Hn [S1 S2] H. apply list_at_ext; [rewrite firstn_zlen; lia|]. intros j Hj. rewrite S2 by lia. rewrite H by lia. rewrite at_firstn by lia. reflexivity.
Qed.
Lemma flash_read F c d a n : flash_size F -> selected c d -> ready F d -> legal F 1 a n ->
  exists v c' d', fl_read F c a n = Some (true, v, c') /\ shows v (at_ (d_mem d)) a n /\ only_selected c c' /\ selected c' d' /\ ready F d' /\ d_mem d' = d_mem d.
Proof.
  intros [HF MF] S (R1 & R2 & R3) Q. destruct (pk_of c d S) as (l1 & l2 & Ll & ->). destruct d as [m w a0 b]. cbn [d_mem d_adr4] in *. subst a0.
  destruct (fl_read_pk F l1 m w b l2 (c_rsten c) (c_delays c) (c_gbu c) a n) as (v & E & Sh); [lia|exact R1|exact Q|].
  eexists v, _, _. split; [exact E|]. split; [exact Sh|]. split; [apply pk_only|]. split; [apply pk_sel|]. unfold ready. cbn [d_mem d_adr4]. auto.
Qed.
Lemma land_byte x y : byte x -> 0 <= y -> byte (Z.land x y).
Proof.
  unfold byte. intros H Hy. split; [apply Z.land_nonneg; lia|]. change 256 with (2 ^ 8).
  rewrite <- (Z.mod_small x (2 ^ 8)) by lia. rewrite <- Z.land_ones by lia.
  rewrite <- Z.land_assoc, (Z.land_comm (Z.ones 8)), Z.land_assoc, Z.land_ones by lia. apply Z.mod_pos_bound. lia.
Qed.
Lemma flash_program F c d buf a n : flash_size F -> selected c d -> ready F d -> legal F 256 a n -> a mod 256 = 0 -> n <= zlen buf -> Forall byte buf ->
  exists c' d', fl_program F c buf a n = Some (true, c') /\ only_selected c c' /\ selected c' d' /\ ready F d' /\ d_wel d' = false /\
    becomes F (at_ (d_mem d)) (at_ (d_mem d')) a n (fun i => Z.land (at_ (d_mem d) i) (at_ buf (i - a))).
Proof.
  intros [HF MF] S (R1 & R2 & R3) Q Ma HB BB. destruct (pk_of c d S) as (l1 & l2 & Ll & ->). destruct d as [m w a0 b]. cbn [d_mem d_adr4] in *. subst a0.
  destruct (fl_program_pk F l1 m w b l2 (c_rsten c) (c_delays c) (c_gbu c) buf a n) as (m' & b' & r' & dl' & E & L & B); [lia|exact R1|exact Q|exact Ma|exact HB|].
  eexists _, _. split; [exact E|]. split; [apply pk_only|]. split; [apply pk_sel|]. unfold ready. cbn [d_mem d_adr4 d_wel].
  split; [|split; [reflexivity|exact B]]. split; [exact L|]. split; [|reflexivity].
  eapply becomes_bytes; [exact R1|exact L|exact B|exact R2|]. intros i H1 H2. apply land_byte; [apply Forall_at; [exact R2|lia]|].
  unfold legal in Q. apply (Forall_at byte buf (i - a) BB). lia.
Qed.
Lemma flash_erase F c d a n : flash_size F -> selected c d -> ready F d -> legal F 4096 a n -> a mod 4096 = 0 -> n <> F ->
  exists c' d', fl_erase F c a n = Some (true, c') /\ only_selected c c' /\ selected c' d' /\ ready F d' /\ d_wel d' = false /\
    becomes F (at_ (d_mem d)) (at_ (d_mem d')) a n (fun _ => 255).
Proof.
  intros [HF MF] S (R1 & R2 & R3) Q Ma NW. destruct (pk_of c d S) as (l1 & l2 & Ll & ->). destruct d as [m w a0 b]. cbn [d_mem d_adr4] in *. subst a0.
  destruct (fl_erase_pk F l1 m w b l2 (c_rsten c) (c_delays c) (c_gbu c) a n) as (m' & b' & r' & dl' & E & L & B); [lia|exact MF|exact R1|exact Q|exact Ma|lia|].
  eexists _, _. split; [exact E|]. split; [apply pk_only|]. split; [apply pk_sel|]. unfold ready. cbn [d_mem d_adr4 d_wel].
  split; [|split; [reflexivity|exact B]]. split; [exact L|]. split; [|reflexivity].
  eapply becomes_bytes; [exact R1|exact L|exact B|exact R2|]. intros i H1 H2. unfold byte. lia.
Qed.
Lemma flash_write F c d buf a n : flash_size F -> selected c d -> ready F d -> legal F 4096 a n -> a mod 4096 = 0 -> n <> F -> n <= zlen buf -> Forall byte buf ->
  exists c' d', fl_write F c buf a n = Some (true, c') /\ only_selected c c' /\ selected c' d' /\ ready F d' /\
    becomes F (at_ (d_mem d)) (at_ (d_mem d')) a n (fun i => at_ buf (i - a)) /\
    exists c'', fl_read F c' a n = Some (true, firstn (Z.to_nat n) buf, c'').
Proof.
  intros [HF MF] S (R1 & R2 & R3) Q Ma NW HB BB. destruct (pk_of c d S) as (l1 & l2 & Ll & ->). destruct d as [m w a0 b]. cbn [d_mem d_adr4] in *. subst a0.
  destruct (fl_write_pk F l1 m w b l2 (c_rsten c) (c_delays c) (c_gbu c) buf a n) as (m' & b' & r' & dl' & E & L & B); [lia|exact MF|exact R1|exact Q|exact Ma|lia|exact HB|exact BB|].
  assert (Q' := Q). unfold legal in Q'.
  eexists _, _. split; [exact E|]. split; [apply pk_only|]. split; [apply pk_sel|]. unfold ready. cbn [d_mem d_adr4 d_wel].
  split; [|split; [exact B|]].
  - split; [exact L|]. split; [|reflexivity].
    eapply becomes_bytes; [exact R1|exact L|exact B|exact R2|]. intros i H1 H2. apply (Forall_at byte buf (i - a) BB). lia.
  - destruct (fl_read_pk F l1 m' false b' l2 r' dl' (c_gbu c) a n) as (v & Ev & Sh); [lia|exact L|unfold legal; rewrite Z.mod_1_r; lia|].
    eexists. rewrite Ev. repeat f_equal. apply (shows_firstn v (at_ m') buf a n); [lia|exact Sh|]. intros j Hj. rewrite B by lia.
    replace ((a <=? a + j) && (a + j <? a + n)) with true by lia. f_equal. lia.
Qed.
Lemma flash_refuse F c buf a n : no_wrap a n ->
  (~ legal F 1 a n -> fl_read F c a n = Some (false, [], c)) /\
  (~ legal F 256 a n -> fl_program F c buf a n = Some (false, c)) /\
  (~ legal F 4096 a n -> fl_erase F c a n = Some (false, c) /\ fl_write F c buf a n = Some (false, c)).
Proof.
  intro W. split; [|split]; intro Q.
  - unfold fl_read. rewrite (refuse_not F 1 a n ltac:(lia) Q W). reflexivity.
  - unfold fl_program. rewrite (refuse_not F 256 a n ltac:(lia) Q W). reflexivity.
  - pose proof (refuse_not F 4096 a n ltac:(lia) Q W) as R. unfold fl_erase, fl_write. rewrite R. split; [reflexivity|].
    replace ((n =? 0) || negb (n mod 4096 =? 0) || negb (n mod 256 =? 0) || (u32 (a + n) >? F)) with true; [reflexivity|].
    destruct (negb (n mod 256 =? 0)); destruct (n =? 0), (negb (n mod 4096 =? 0)), (u32 (a + n) >? F); cbn in *; congruence.
Qed.
Lemma flash_init F c d : flash_size F -> selected c d -> d_busy d = 0%nat -> zlen (d_mem d) = F -> Forall byte (d_mem d) ->
  exists c' d', fl_initialize F c = Some (true, c') /\ only_selected c c' /\ selected c' d' /\ ready F d' /\ d_mem d' = d_mem d.
Proof.
  intros [HF MF] S B R1 R2. destruct (pk_of c d S) as (l1 & l2 & Ll & ->). destruct d as [m w a0 b]. cbn [d_mem d_adr4 d_busy] in *. subst b.
  destruct (fl_init_pk F l1 m w a0 l2 (c_rsten c) (c_delays c) (c_gbu c)) as (w' & b' & r' & dl' & E); [lia|].
  eexists _, _. split; [exact E|]. split; [apply pk_only|]. split; [apply pk_sel|]. unfold ready. cbn [d_mem d_adr4]. auto.
Qed.
Lemma flash_chip_erase F c d : flash_size F -> selected c d -> d_wel d = false ->
  exists c' d', fl_erase F c 0 F = Some (true, c') /\ only_selected c c' /\ selected c' d' /\ d_mem d' = d_mem d /\ d_wel d' = false.
Proof.
  intros [HF MF] S W. destruct (pk_of c d S) as (l1 & l2 & Ll & ->). destruct d as [m w a0 b]. cbn [d_wel d_mem] in *. subst w.
  unfold fl_erase. rewrite (refuse_ok F 4096 0 F) by (unfold legal; lia). replace ((0 =? 0) && (F =? F)) with true by lia. rewrite wait_ok. cbn [obind]. rewrite op_ce.
  eexists _, _. split; [reflexivity|]. split; [apply pk_only|]. split; [apply pk_sel|]. split; reflexivity.
Qed.
Lemma flash_whole_write F c d buf : flash_size F -> selected c d -> ready F d -> d_wel d = false -> F <= zlen buf -> Forall byte buf ->
  exists c' d', fl_write F c buf 0 F = Some (true, c') /\ selected c' d' /\ forall i, 0 <= i < F -> at_ (d_mem d') i = Z.land (at_ (d_mem d) i) (at_ buf i).
Proof.
  intros HS S R W HB BB. destruct HS as [HF MF]. pose proof R as (R1 & R2 & R3).
  destruct (pk_of c d S) as (l1 & l2 & Ll & E0). destruct d as [m w a0 b]. cbn [d_mem d_adr4 d_wel] in *. subst a0 w. rewrite E0.
  unfold fl_write. rewrite refuse4 by (unfold legal; lia). unfold fl_erase. rewrite (refuse_ok F 4096 0 F) by (unfold legal; lia).
  replace ((0 =? 0) && (F =? F)) with true by lia. rewrite wait_ok. cbn [obind]. rewrite op_ce.
  destruct (fl_program_pk F l1 m false 0 l2 false (c_delays c) (c_gbu c) buf 0 F) as (m' & b' & r' & dl' & E & L & B); [lia|exact R1|unfold legal; lia|reflexivity|exact HB|].
  rewrite E. cbn [obind]. eexists _, _. split; [reflexivity|]. split; [apply pk_sel|]. cbn [d_mem]. intros i Hi. rewrite B by exact Hi.
  replace ((0 <=? i) && (i <? 0 + F)) with true by lia. replace (i - 0) with i by lia. reflexivity.
Qed.

(* the stack *)
Lemma st_size_ok F K : 0 <= K * F <= 2 ^ 31 -> st_size F K = K * F.
Proof. intro H. unfold st_size, u32. apply Z.mod_small. lia. Qed.
Lemma st_refuse_ok F K B a n : 0 < B -> legal (K * F) B a n -> K * F <= 2 ^ 31 -> ((n =? 0) || negb (n mod B =? 0) || (u32 (a + n) >? st_size F K)) = false.
Proof. intros HB Q HK. rewrite st_size_ok by (unfold legal in Q; lia). apply refuse_ok; [exact HB|exact Q|lia]. Qed.
Lemma st_refuse_not F K B a n : 0 < B -> ~ legal (K * F) B a n -> no_wrap a n -> 0 <= K * F <= 2 ^ 31 -> ((n =? 0) || negb (n mod B =? 0) || (u32 (a + n) >? st_size F K)) = true.
Proof. intros HB Q W HK. rewrite st_size_ok by exact HK. apply refuse_not; assumption. Qed.
Lemma stack_read F K s a n : stack_size F K -> stack_ok F K s -> legal (K * F) 1 a n ->
  exists v s', st_read F K s a n = Some (true, v, s') /\ stack_ok F K s' /\ shows v (stack_at F (s_chip s)) a n /\
    forall i, stack_at F (s_chip s') i = stack_at F (s_chip s) i.
Proof.
  intros ([HF MF] & HF2 & HK & HK2) Ok Q. unfold st_read. rewrite (st_refuse_ok F K 1 a n) by (assumption || lia). destruct Q as (Q1 & Q2 & Q3 & Q4).
  destruct (stack_read_loop F K a n ltac:(lia) HF2 HK2 ltac:(lia) Q3 Q4 (S (Z.to_nat n)) s 0 [] Ok ltac:(lia)) as (v & s' & E & Ok' & Sh & Sa).
  - split; [rewrite zlen_nil; lia|]. intros j Hj. lia.
  - lia.
  - exists v, s'. rewrite E. replace (Z.max 0 n) with n in Sh by lia. auto.
Qed.
Lemma stack_program F K s buf a n : stack_size F K -> stack_ok F K s -> legal (K * F) 256 a n -> a mod 256 = 0 -> n <= zlen buf -> Forall byte buf ->
  exists s', st_program F K s buf a n = Some (true, s') /\ stack_ok F K s' /\
    becomes (K * F) (stack_at F (s_chip s)) (stack_at F (s_chip s')) a n (fun i => Z.land (stack_at F (s_chip s) i) (at_ buf (i - a))).
Proof.
  intros ([HF MF] & HF2 & HK & HK2) Ok Q Ma HB BB. unfold st_program. rewrite (st_refuse_ok F K 256 a n) by (assumption || lia). destruct Q as (Q1 & Q2 & Q3 & Q4).
  destruct (stack_prog_loop F K buf a n ltac:(lia) HF2 HK2 ltac:(lia) MF Q3 Ma Q2 Q4 HB BB (S (Z.to_nat n)) s 0 Ok ltac:(lia) ltac:(lia) ltac:(lia)) as (s' & E & Ok' & B).
  exists s'. rewrite E. replace (a + 0) with a in B by lia. replace (n - 0) with n in B by lia. auto.
Qed.
Lemma stack_erase F K s a n : stack_size F K -> stack_ok F K s -> legal (K * F) 4096 a n -> a mod 4096 = 0 -> ~ covers_die F a n ->
  exists s', st_erase F K s a n = Some (true, s') /\ stack_ok F K s' /\ becomes (K * F) (stack_at F (s_chip s)) (stack_at F (s_chip s')) a n (fun _ => 255).
Proof.
  intros ([HF MF] & HF2 & HK & HK2) Ok Q Ma NC. unfold st_erase. rewrite (st_refuse_ok F K 4096 a n) by (assumption || lia). destruct Q as (Q1 & Q2 & Q3 & Q4).
  destruct (stack_erase_loop F K a n ltac:(lia) HF2 HK2 ltac:(lia) MF Q3 Ma Q2 Q4 NC (S (Z.to_nat n)) s 0 Ok ltac:(lia) ltac:(lia) ltac:(lia)) as (s' & E & Ok' & B).
  exists s'. rewrite E. replace (a + 0) with a in B by lia. replace (n - 0) with n in B by lia. auto.
Qed.
Lemma stack_write F K s buf a n : stack_size F K -> stack_ok F K s -> legal (K * F) 4096 a n -> a mod 4096 = 0 -> ~ covers_die F a n -> n <= zlen buf -> Forall byte buf ->
  exists s', st_write F K s buf a n = Some (true, s') /\ stack_ok F K s' /\
    becomes (K * F) (stack_at F (s_chip s)) (stack_at F (s_chip s')) a n (fun i => at_ buf (i - a)) /\
    exists s'', st_read F K s' a n = Some (true, firstn (Z.to_nat n) buf, s'').
Proof.
  intros SZ Ok Q Ma NC HB BB. pose proof SZ as ([HF MF] & HF2 & HK & HK2).
  destruct (stack_erase F K s a n SZ Ok Q Ma NC) as (s1 & E1 & Ok1 & B1). pose proof (legal_4096 _ _ _ Q) as Q2.
  destruct (stack_program F K s1 buf a n SZ Ok1 Q2 ltac:(lia) HB BB) as (s2 & E2 & Ok2 & B2).
  assert (B : becomes (K * F) (stack_at F (s_chip s)) (stack_at F (s_chip s2)) a n (fun i => at_ buf (i - a))).
  { intros i Hi. rewrite B2 by exact Hi. rewrite !B1 by exact Hi. destruct ((a <=? i) && (i <? a + n)) eqn:C; [|reflexivity].
    apply land255_byte. apply Forall_at; [exact BB|]. unfold legal in Q. lia. }
  exists s2. split.
  { unfold st_write. pose proof (st_refuse_ok F K 4096 a n ltac:(lia) Q HK2) as R.
    replace ((n =? 0) || negb (n mod 4096 =? 0) || negb (n mod 256 =? 0) || (u32 (a + n) >? st_size F K)) with false.
    - rewrite E1. cbn [obind]. rewrite E2. reflexivity.
    - destruct Q2 as (_ & -> & _). cbn [Z.eqb negb]. rewrite orb_false_r. symmetry. exact R. }
  split; [exact Ok2|]. split; [exact B|].
  destruct (stack_read F K s2 a n SZ Ok2) as (v & s3 & E3 & _ & Sh & _); [unfold legal in *; rewrite Z.mod_1_r; lia|].
  exists s3. rewrite E3. repeat f_equal. unfold legal in Q. apply (shows_firstn v (stack_at F (s_chip s2)) buf a n); [lia|exact Sh|].
  intros j Hj. rewrite B by lia. replace ((a <=? a + j) && (a + j <? a + n)) with true by lia. f_equal. lia.
Qed.
Lemma stack_refuse F K s buf a n : 0 <= K * F <= 2 ^ 31 -> no_wrap a n ->
  (~ legal (K * F) 1 a n -> st_read F K s a n = Some (false, [], s)) /\
  (~ legal (K * F) 256 a n -> st_program F K s buf a n = Some (false, s)) /\
  (~ legal (K * F) 4096 a n -> st_erase F K s a n = Some (false, s) /\ st_write F K s buf a n = Some (false, s)).
Proof.
  intros HK W. split; [|split]; intro Q.
  - unfold st_read. rewrite (st_refuse_not F K 1 a n ltac:(lia) Q W HK). reflexivity.
  - unfold st_program. rewrite (st_refuse_not F K 256 a n ltac:(lia) Q W HK). reflexivity.
  - pose proof (st_refuse_not F K 4096 a n ltac:(lia) Q W HK) as R. unfold st_erase, st_write. rewrite R. split; [reflexivity|].
    replace ((n =? 0) || negb (n mod 4096 =? 0) || negb (n mod 256 =? 0) || (u32 (a + n) >? st_size F K)) with true; [reflexivity|].
    destruct (negb (n mod 256 =? 0)); destruct (n =? 0), (negb (n mod 4096 =? 0)), (u32 (a + n) >? st_size F K); cbn in *; congruence.
Qed.
Lemma stack_init F K s d : stack_size F K -> zlen (c_dies (s_chip s)) = K -> Forall (die_ok F) (c_dies (s_chip s)) -> selected (s_chip s) d -> d_busy d = 0%nat ->
  exists s', st_initialize F s = Some (true, s') /\ stack_ok F K s' /\ forall i, stack_at F (s_chip s') i = stack_at F (s_chip s) i.
Proof.
  intros ([HF MF] & HF2 & HK & HK2) L A S B0. destruct (pk_of _ d S) as (l1 & l2 & Ll & E0). destruct d as [m w a0 b]. cbn [d_busy] in B0. subst b.
  assert (D : c_dies (s_chip s) = l1 ++ mkDie m w a0 0 :: l2) by (rewrite E0; reflexivity).
  assert (A' := A). rewrite D in A'. apply Forall_app in A'. destruct A' as [A1 A2]. destruct (Forall_inv A2) as (M1 & M2 & M3). apply Forall_inv_tail in A2. cbn [d_mem d_adr4] in *.
  unfold st_initialize.
  destruct (fl_init_pk F l1 m w a0 l2 (c_rsten (s_chip s)) (c_delays (s_chip s)) (c_gbu (s_chip s))) as (w' & b' & r' & dl' & E); [lia|].
  rewrite <- E0 in E. rewrite E. cbn [obind].
  assert (X : exists e t, l1 ++ mkDie m w' (F >? 2 ^ 24) b' :: l2 = e :: t).
  { destruct l1; [eexists _, _; reflexivity|eexists _, _; reflexivity]. } destruct X as ([m0 w0 a1 b0] & t & X).
  assert (A3 : Forall (die_ok F) (mkDie m0 w0 a1 b0 :: t)).
  { rewrite <- X. apply Forall_app. split; [exact A1|]. constructor; [|exact A2]. unfold die_ok. cbn [d_mem d_adr4]. split; [exact M1|]. split; [exact M2|lia]. }
  destruct (Forall_inv A3) as (T1 & T2 & T3). cbn [d_mem d_adr4] in *. apply Forall_inv_tail in A3.
  destruct (fl_select_pk F [] m0 w0 a1 b0 t dl' (c_gbu (s_chip s)) 0 (mkDie m w' (F >? 2 ^ 24) b') (pk l1 (mkDie m w' (F >? 2 ^ 24) b') l2 r' dl' (c_gbu (s_chip s))))
    as (y & w2 & b2 & r2 & dl2 & Es & _); [apply pk_sel|unfold pk; cbn [c_dies app]; exact X|reflexivity|reflexivity|reflexivity|exact T3|].
  rewrite Es. cbn [obind]. eexists. split; [reflexivity|]. split.
  - apply (stack_ok_pk F K [] m0 w2 b2 t r2 dl2 (c_gbu (s_chip s))); [|constructor|exact A3|exact T1|exact T2].
    rewrite zlen_nil. rewrite D in L. assert (Y := f_equal (@zlen die) X). rewrite zlen_app, !zlen_cons in *. lia.
  - intro i. apply stack_at_same. cbn [s_chip]. rewrite D. assert (Y := f_equal (map d_mem) X). rewrite map_app in *. cbn [map d_mem] in *. unfold pk. cbn [c_dies app map d_mem]. congruence.
Qed.
Lemma busy_loop F : 0 < F -> forall fuel c d, selected c d -> Forall (die_ok F) (c_dies c) -> Forall (fun x => d_busy x = 0%nat) (c_dies c) ->
  Forall (fun x => x = 0%nat) (c_delays c) -> forall k, 0 <= k <= zlen (c_dies c) -> k <= 255 -> k < Z.of_nat fuel -> (k = 0 -> c_sel c = 0%nat /\ ready F d) ->
  exists s', st_busy_loop fuel F (mkStk k c) = Some (false, s') /\ stack_ok F (zlen (c_dies c)) s' /\ forall i, stack_at F (s_chip s') i = stack_at F c i.
Proof.
  intro HF. induction fuel as [|fuel IH]; intros c d Sd A Bz Dz k Hk Hk2 Hf K0; [lia|]. cbn [st_busy_loop s_cur s_chip]. destruct (0 <? k) eqn:E.
  - assert (U : u8 (k - 1) = k - 1) by (unfold u8; apply Z.mod_small; lia). rewrite U.
    assert (X : exists d', nth_error (c_dies c) (Z.to_nat (k - 1)) = Some d').
    { destruct (nth_error (c_dies c) (Z.to_nat (k - 1))) eqn:X; [eauto|]. apply nth_error_None in X. unfold zlen in Hk. lia. }
    destruct X as ([m w a0 b] & X). destruct (nth_error_split _ _ X) as (l1 & l2 & D & Ll).
    assert (A' := A). rewrite D in A'. apply Forall_app in A'. destruct A' as [A1 A2]. destruct (Forall_inv A2) as (M1 & M2 & M3). apply Forall_inv_tail in A2. cbn [d_mem d_adr4] in *.
    assert (B' := Bz). rewrite D in B'. apply Forall_app in B'. destruct B' as [Z1 Z2]. pose proof (Forall_inv Z2) as Zb. apply Forall_inv_tail in Z2. cbn [d_busy] in Zb.
    destruct (fl_select_pk F l1 m w a0 b l2 (c_delays c) (c_gbu c) (k - 1) d c Sd D Ll eq_refl eq_refl M3) as (y & w' & b' & r' & dl' & Es & Ez).
    destruct (Ez Zb Dz) as (-> & -> & Dz'). rewrite Es. cbn [obind].
    assert (FB : fl_isBusy (pk l1 (mkDie m w' (F >? 2 ^ 24) 0) l2 r' dl' (c_gbu c)) = (false, pk l1 (mkDie m w' (F >? 2 ^ 24) 0) l2 false dl' (c_gbu c))).
    { unfold fl_isBusy, fl_op. rewrite frame_pk. destruct w'; reflexivity. }
    rewrite FB. replace (k - 1 - Z.of_nat 0) with (k - 1) by lia. rewrite U.
    destruct (IH (pk l1 (mkDie m w' (F >? 2 ^ 24) 0) l2 false dl' (c_gbu c)) (mkDie m w' (F >? 2 ^ 24) 0)) with (k := k - 1) as (s' & E' & Ok' & Sa').
    + apply pk_sel.
    + unfold pk. cbn [c_dies]. apply Forall_app. split; [exact A1|]. constructor; [|exact A2]. unfold die_ok. cbn [d_mem d_adr4]. split; [exact M1|]. split; [exact M2|lia].
    + unfold pk. cbn [c_dies]. apply Forall_app. split; [exact Z1|]. constructor; [reflexivity|exact Z2].
    + exact Dz'.
    + unfold pk. cbn [c_dies]. rewrite D in Hk. rewrite zlen_app, zlen_cons in *. lia.
    + lia.
    + lia.
    + intro K1. split; [unfold pk; cbn [c_sel]; lia|]. unfold ready. cbn [d_mem d_adr4]. auto.
    + exists s'. split; [exact E'|]. split.
      * replace (zlen (c_dies c)) with (zlen (c_dies (pk l1 (mkDie m w' (F >? 2 ^ 24) 0) l2 false dl' (c_gbu c)))); [exact Ok'|]. rewrite D. unfold pk. cbn [c_dies]. rewrite !zlen_app, !zlen_cons. reflexivity.
      * intro i. rewrite Sa'. apply stack_at_same. rewrite D. unfold pk. cbn [c_dies]. rewrite !map_app. reflexivity.
  - assert (k = 0) by lia. destruct (K0 ltac:(lia)) as [S0 R0]. exists (mkStk k c). split; [reflexivity|]. split; [|reflexivity].
    unfold stack_ok. cbn [s_chip s_cur]. split; [reflexivity|]. split; [exact A|]. split; [lia|]. exists d. auto.
Qed.
