From Verif Require Import Base BitsProofs BitLemmas DispModel DispSpec.

Lemma idx_inj w r c r' c' : 0 <= c < w -> 0 <= c' < w -> r * w + c = r' * w + c' -> r = r' /\ c = c'.
Proof. intros H H' E. destruct (Z.div_mod_unique w r r' c c' (or_introl H) (or_introl H') ltac:(lia)). lia. Qed.
Lemma idx_range w h r c : 0 <= r < h -> 0 <= c < w -> 0 <= r * w + c < w * h.
Proof. intros. nia. Qed.
Lemma nth_znth (l : list Z) i v : znth l i = Some v -> nth (Z.to_nat i) l 0 = v.
Proof. unfold znth. destruct (i <? 0); [discriminate|]. intro H. apply nth_error_nth. exact H. Qed.
Lemma znth_nth (l : list Z) i : 0 <= i < zlen l -> znth l i = Some (nth (Z.to_nat i) l 0).
Proof. intro H. destruct (znth_in_range l i H) as [v E]. rewrite E. f_equal. symmetry. apply nth_znth. exact E. Qed.
Lemma Forall_nth_byte l i : Forall (fun b => 0 <= b < 256) l -> 0 <= nth i l 0 < 256.
Proof. intro F. destruct (lt_dec i (length l)) as [H|H]; [rewrite Forall_forall in F; apply F, nth_In; exact H|rewrite nth_overflow by lia; lia]. Qed.

Lemma b_get_spec bw bh buf r c : g_ok bw bh buf -> 0 <= r < bh -> 0 <= c < bw ->
  exists b, b_get bw bh buf r c = Some b /\ 0 <= b < 256 /\ forall k, g_lit bw buf r c k = Z.testbit b k.
Proof.
  intros [L F] R C. exists (nth (Z.to_nat (r * bw + c)) buf 0). unfold b_get. assert ((0 <=? r) && (r <? bh) && (0 <=? c) && (c <? bw) = true) as -> by lia.
  pose proof (idx_range bw bh r c R C). rewrite znth_nth by lia. split; [reflexivity|]. split; [apply Forall_nth_byte; exact F|reflexivity].
Qed.
Lemma b_set_spec bw bh buf r c v : g_ok bw bh buf -> 0 <= r < bh -> 0 <= c < bw -> 0 <= v < 256 ->
  exists buf', b_set bw bh buf r c v = Some buf' /\ g_ok bw bh buf' /\
    forall r' c' k, 0 <= r' < bh -> 0 <= c' < bw -> g_lit bw buf' r' c' k = if (r' =? r) && (c' =? c) then Z.testbit v k else g_lit bw buf r' c' k.
Proof.
  intros [L F] R C V. pose proof (idx_range bw bh r c R C) as I. unfold b_set. assert ((0 <=? r) && (r <? bh) && (0 <=? c) && (c <? bw) = true) as -> by lia.
  destruct (zupd_in_range buf (r * bw + c) v ltac:(lia)) as (buf' & E & L' & N). exists buf'. split; [exact E|]. split.
  - split; [lia|]. rewrite Forall_forall. intros b Ib. destruct (In_nth _ _ 0 Ib) as (n & Hn & <-). assert (0 <= Z.of_nat n < zlen buf') as Rn by (unfold zlen; lia).
    pose proof (znth_nth buf' (Z.of_nat n) Rn) as Z1. rewrite N in Z1. rewrite Nat2Z.id in Z1. destruct (Z.of_nat n =? r * bw + c); [injection Z1 as <-; exact V|]. apply nth_znth in Z1. rewrite <- Z1. apply Forall_nth_byte. exact F.
  - intros r' c' k R' C'. pose proof (idx_range bw bh r' c' R' C') as I'. unfold g_lit. f_equal. pose proof (N (r' * bw + c')) as Z1. rewrite (znth_nth buf') in Z1 by lia.
    destruct ((r' =? r) && (c' =? c)) eqn:Ec.
    + assert (r' * bw + c' =? r * bw + c = true) as Eq by (assert (r' = r) as -> by lia; assert (c' = c) as -> by lia; lia). rewrite Eq in Z1. congruence.
    + assert (r' * bw + c' =? r * bw + c = false) as Eq. { apply Z.eqb_neq. intro X. destruct (idx_inj bw _ _ _ _ C' C X). lia. } rewrite Eq, (znth_nth buf) in Z1 by lia. congruence.
Qed.
Lemma u8_testbit x k : 0 <= k < 8 -> Z.testbit (u8 x) k = Z.testbit x k.
Proof. intro H. unfold u8. change 256 with (2 ^ 8). apply Z.mod_pow2_bits_low. lia. Qed.
Lemma u8_range x : 0 <= u8 x < 256. Proof. unfold u8. lia. Qed.
Lemma b_or_spec bw bh buf r c m : g_ok bw bh buf -> 0 <= r < bh -> 0 <= c < bw ->
  exists buf', b_or bw bh buf r c m = Some buf' /\ g_ok bw bh buf' /\
    forall r' c' k, 0 <= r' < bh -> 0 <= c' < bw -> 0 <= k < 8 -> g_lit bw buf' r' c' k = g_lit bw buf r' c' k || ((r' =? r) && (c' =? c) && Z.testbit m k).
Proof.
  intros O R C. destruct (b_get_spec bw bh buf r c O R C) as (b & E & B & T). unfold b_or. rewrite E. cbn [obind].
  destruct (b_set_spec bw bh buf r c (u8 (Z.lor b m)) O R C (u8_range _)) as (buf' & E' & O' & T'). exists buf'. split; [exact E'|]. split; [exact O'|].
  intros r' c' k R' C' K. rewrite T' by assumption. destruct ((r' =? r) && (c' =? c)) eqn:Ec; [|rewrite orb_false_r; reflexivity]. rewrite u8_testbit, Z.lor_spec by lia. assert (r' = r) as -> by lia. assert (c' = c) as -> by lia. rewrite T. reflexivity.
Qed.
Lemma b_and_spec bw bh buf r c m : g_ok bw bh buf -> 0 <= r < bh -> 0 <= c < bw ->
  exists buf', b_and bw bh buf r c m = Some buf' /\ g_ok bw bh buf' /\
    forall r' c' k, 0 <= r' < bh -> 0 <= c' < bw -> 0 <= k < 8 -> g_lit bw buf' r' c' k = g_lit bw buf r' c' k && (negb ((r' =? r) && (c' =? c)) || Z.testbit m k).
Proof.
  intros O R C. destruct (b_get_spec bw bh buf r c O R C) as (b & E & B & T). unfold b_and. rewrite E. cbn [obind].
  destruct (b_set_spec bw bh buf r c (u8 (Z.land b m)) O R C (u8_range _)) as (buf' & E' & O' & T'). exists buf'. split; [exact E'|]. split; [exact O'|].
  intros r' c' k R' C' K. rewrite T' by assumption. destruct ((r' =? r) && (c' =? c)) eqn:Ec; [|cbn [negb orb]; rewrite andb_true_r; reflexivity]. rewrite u8_testbit, Z.land_spec by lia. assert (r' = r) as -> by lia. assert (c' = c) as -> by lia. rewrite T. reflexivity.
Qed.
Lemma bit_test m k : 0 <= m -> Z.testbit (Z.shiftl 1 m) k = (k =? m).
Proof. intro H. rewrite Z.shiftl_1_l. destruct (Z.eqb_spec k m) as [->|N]; [apply Z.pow2_bits_true; exact H|apply Z.pow2_bits_false; lia]. Qed.
Lemma land_bit b m : 0 <= b < 256 -> 0 <= m < 8 -> negb (Z.land b (Z.shiftl 1 m) =? 0) = Z.testbit b m.
Proof.
  intros B M. destruct (Z.testbit b m) eqn:E.
  - apply negb_true_iff, Z.eqb_neq. intro X. assert (Z.testbit (Z.land b (Z.shiftl 1 m)) m = true) as Y by (rewrite Z.land_spec, E, bit_test, Z.eqb_refl by lia; reflexivity). rewrite X, Z.bits_0 in Y. discriminate.
  - apply negb_false_iff, Z.eqb_eq. apply Z.bits_inj'. intros n N. rewrite Z.land_spec, bit_test, Z.bits_0 by lia. destruct (Z.eqb_spec n m) as [->|]; [rewrite E; reflexivity|apply andb_false_r].
Qed.

(* ---- what is common to both displays ---- *)
Section Display.
Variables (W H : Z) (lit : list Z -> Z -> Z -> bool) (ok : list Z -> Prop).
(* f writes the value v at the given pixel, and nothing outside of the display *)
Definition writes (f : Z -> Z -> list Z -> option (list Z)) (v : bool) : Prop :=
  forall x y buf, ok buf -> 0 <= x -> 0 <= y ->
    exists buf', f x y buf = Some buf' /\ ok buf' /\ forall x' y', 0 <= x' < W -> 0 <= y' < H -> lit buf' x' y' = if (x' =? x) && (y' =? y) then v else lit buf x' y'.
(* f paints the set T with img *)
Definition paints (f : list Z -> option (list Z)) (T : Z -> Z -> Prop) (img : Z -> Z -> bool) : Prop :=
  forall buf, ok buf -> exists buf', f buf = Some buf' /\ ok buf' /\ painted W H (lit buf) (lit buf') T img.
Lemma paints_ext f T T' img : (forall x y, 0 <= x < W -> 0 <= y < H -> T x y <-> T' x y) -> paints f T img -> paints f T' img.
Proof. intros E P buf O. destruct (P buf O) as (buf' & F & O' & D). exists buf'. split; [exact F|]. split; [exact O'|]. intros x y X Y. specialize (D x y X Y). specialize (E x y X Y). tauto. Qed.
Lemma paints_id T img : (forall x y, 0 <= x < W -> 0 <= y < H -> ~ T x y) -> paints (fun buf => Some buf) T img.
Proof. intros N buf O. exists buf. split; [reflexivity|]. split; [exact O|]. intros x y X Y. specialize (N x y X Y). tauto. Qed.
Lemma paints_seq f g T U img : (forall x y, T x y \/ ~ T x y) -> (forall x y, U x y \/ ~ U x y) -> paints f T img -> paints g U img -> paints (fun buf => do buf <- f buf; g buf) (fun x y => T x y \/ U x y) img.
Proof.
  intros DT DU P Q buf O. destruct (P buf O) as (b1 & F & O1 & D1). destruct (Q b1 O1) as (b2 & G & O2 & D2). exists b2. rewrite F. cbn [obind]. split; [exact G|]. split; [exact O2|].
  intros x y X Y. specialize (D1 x y X Y). specialize (D2 x y X Y). specialize (DT x y). specialize (DU x y). destruct D1 as [P1 P2], D2 as [Q1 Q2]. destruct DT as [A|A], DU as [B|B]; (split; intro I); first [exact (Q1 B)|rewrite (Q2 B); exact (P1 A)|rewrite (Q2 B); exact (P2 A)|tauto].
Qed.
Lemma paints_ofor n i f (T : Z -> Z -> Z -> Prop) img : (forall i x y, T i x y \/ ~ T i x y) -> (forall j, i <= j < i + Z.of_nat n -> paints (f j) (T j) img) ->
  paints (ofor n i f) (fun x y => exists j, i <= j < i + Z.of_nat n /\ T j x y) img.
Proof.
  intro D. revert i. induction n as [|n IH]; intros i P; cbn [ofor].
  - apply paints_id. intros x y _ _ (j & J & _). lia.
  - assert (forall k, exists T', (forall x y, T' x y \/ ~ T' x y) /\ forall x y, T' x y <-> exists j, k <= j < k + Z.of_nat n /\ T j x y) as Dec.
    { intro k. clear - D. induction n as [|n (T' & D' & E')]; [exists (fun _ _ => False); split; [tauto|intros x y; split; [tauto|intros (j & J & _); lia]]|].
      exists (fun x y => T' x y \/ T (k + Z.of_nat n) x y). split; [intros x y; specialize (D' x y); specialize (D (k + Z.of_nat n) x y); tauto|]. intros x y. rewrite E'. split.
      - intros [(j & J & Tj)|Tj]; [exists j|exists (k + Z.of_nat n)]; (split; [lia|exact Tj]).
      - intros (j & J & Tj). destruct (Z.eq_dec j (k + Z.of_nat n)) as [->|]; [right; exact Tj|left; exists j; split; [lia|exact Tj]]. }
    destruct (Dec (i + 1)) as (T' & D' & E').
    apply (paints_ext _ (fun x y => T i x y \/ T' x y)).
    + intros x y _ _. rewrite E'. split; [intros [A|(j & J & A)]; [exists i|exists j]; (split; [lia|exact A])|]. intros (j & J & A). destruct (Z.eq_dec j i) as [->|]; [left; exact A|right; exists j; split; [lia|exact A]].
    + apply paints_seq; [apply D|exact D'|apply P; lia|]. apply (paints_ext _ (fun x y => exists j, i + 1 <= j < i + 1 + Z.of_nat n /\ T j x y)); [intros x y _ _; symmetry; apply E'|]. apply IH. intros j J. apply P. lia.
Qed.
Lemma writes_paints f v x y img : writes f v -> 0 <= x -> 0 <= y -> img x y = v -> paints (f x y) (fun x' y' => x' = x /\ y' = y) img.
Proof.
  intros Wf X Y I buf O. destruct (Wf x y buf O X Y) as (buf' & F & O' & D). exists buf'. split; [exact F|]. split; [exact O'|]. intros x' y' X' Y'. rewrite D by assumption. split.
  - intros [-> ->]. rewrite !Z.eqb_refl. cbn. congruence.
  - intro N. assert ((x' =? x) && (y' =? y) = false) as -> by lia. reflexivity.
Qed.
(* the generic routines *)
Lemma gd_hline_paints put x y len : writes put true -> 0 <= x -> 0 <= y -> 0 <= len -> x + len < 32768 ->
  paints (gd_hline put x y len) (fun x' y' => x <= x' < x + len /\ y' = y) (fun _ _ => true).
Proof.
  intros P X Y L B. unfold gd_hline. rewrite (swrap_small 16 (x + len)) by (cbn; lia). apply (paints_ext _ (fun x' y' => exists j, x <= j < x + Z.of_nat (Z.to_nat (x + len - x)) /\ (x' = j /\ y' = y))).
  - intros x' y' _ _. split; [intros (j & J & -> & ->); lia|intros [A ->]; exists x'; lia].
  - apply (paints_ofor _ _ _ (fun j x' y' => x' = j /\ y' = y)); [intros; lia|]. intros j J. rewrite swrap_small by (cbn; lia). apply (writes_paints put true); [exact P|lia|lia|reflexivity].
Qed.
Lemma gd_vline_paints put x y len : writes put true -> 0 <= x -> 0 <= y -> 0 <= len -> y + len < 32768 ->
  paints (gd_vline put x y len) (fun x' y' => x' = x /\ y <= y' < y + len) (fun _ _ => true).
Proof.
  intros P X Y L B. unfold gd_vline. rewrite (swrap_small 16 (y + len)) by (cbn; lia). apply (paints_ext _ (fun x' y' => exists j, y <= j < y + Z.of_nat (Z.to_nat (y + len - y)) /\ (x' = x /\ y' = j))).
  - intros x' y' _ _. split; [intros (j & J & -> & ->); lia|intros [-> A]; exists y'; lia].
  - apply (paints_ofor _ _ _ (fun j x' y' => x' = x /\ y' = j)); [intros; lia|]. intros j J. rewrite swrap_small by (cbn; lia). apply (writes_paints put true); [exact P|lia|lia|reflexivity].
Qed.
Lemma gd_fill_paints put x y width height : writes put true -> 0 <= x < 32768 -> 0 <= y < 32768 -> 0 <= width -> 0 <= height ->
  paints (gd_fillRectangle put W H x y width height) (fun x' y' => x <= x' < x + width /\ y <= y' < y + height) (fun _ _ => true).
Proof.
  intros P X Y L B. unfold gd_fillRectangle. unfold u16. rewrite !Z.mod_small by lia.
  apply (paints_ext _ (fun x' y' => exists i, x <= i < x + Z.of_nat (Z.to_nat (Z.min (x + width) W - x)) /\ (x' = i /\ y <= y' < Z.min (y + height) H))).
  - intros x' y' A C. split; [intros (j & J & -> & D); lia|intros [D E]; exists x'; lia].
  - apply (paints_ofor _ _ _ (fun i x' y' => x' = i /\ y <= y' < Z.min (y + height) H)); [intros; lia|]. intros i I.
    apply (paints_ext _ (fun x' y' => exists k, y <= k < y + Z.of_nat (Z.to_nat (Z.min (y + height) H - y)) /\ (x' = i /\ y' = k))).
    + intros x' y' _ _. split; [intros (j & J & -> & ->); lia|intros [-> A]; exists y'; lia].
    + apply (paints_ofor _ _ _ (fun k x' y' => x' = i /\ y' = k)); [intros; lia|]. intros k K. apply (writes_paints put true); [exact P|lia|lia|reflexivity].
Qed.
Lemma gd_image_paints put clr x y width height data : writes put true -> writes clr false -> 0 <= x -> 0 <= y -> 0 <= width -> 0 <= height -> x + width < 32768 -> y + height < 32768 ->
  width * ((height + 7) / 8) <= zlen data ->
  paints (gd_drawImageRaw put clr x y width height data) (fun x' y' => x <= x' < x + width /\ y <= y' < y + height) (fun x' y' => img_lit data width (x' - x) (y' - y)).
Proof.
  intros P C X Y L B XW YH Ld. unfold gd_drawImageRaw. rewrite Z.quot_div_nonneg by lia. unfold u16 at 1. rewrite Z.mod_small by lia.
  apply (paints_ext _ (fun x' y' => exists i, 0 <= i < 0 + Z.of_nat (Z.to_nat width) /\ (x' = x + i /\ y <= y' < y + height))).
  - intros x' y' _ _. split; [intros (j & J & -> & D); lia|intros [D E]; exists (x' - x); lia].
  - apply (paints_ofor _ _ _ (fun i x' y' => x' = x + i /\ y <= y' < y + height)); [intros; lia|]. intros i I.
    apply (paints_ext _ (fun x' y' => exists k, 0 <= k < 0 + Z.of_nat (Z.to_nat ((height + 7) / 8)) /\ (x' = x + i /\ y + 8 * k <= y' < y + Z.min height (8 * k + 8)))).
    + intros x' y' _ _. split; [intros (j & J & -> & D); lia|intros [-> D]; exists ((y' - y) / 8); lia].
    + apply (paints_ofor _ _ _ (fun k x' y' => x' = x + i /\ y + 8 * k <= y' < y + Z.min height (8 * k + 8))); [intros; lia|]. intros k K.
      assert (0 <= i + k * width < zlen data) as Di by nia. rewrite (znth_nth data (i + k * width) Di). cbn [obind].
      unfold u16. rewrite Z.mod_small by lia. set (rh := if 8 <? height - k * 8 then 8 else height - k * 8). assert (rh = Z.min height (8 * k + 8) - 8 * k) as Rh by (unfold rh; destruct (8 <? height - k * 8) eqn:E8; lia).
      apply (paints_ext _ (fun x' y' => exists j, 0 <= j < 0 + Z.of_nat (Z.to_nat rh) /\ (x' = x + i /\ y' = y + 8 * k + j))).
      * intros x' y' _ _. split; [intros (j & J & -> & ->); lia|intros [-> D]; exists (y' - y - 8 * k); lia].
      * apply (paints_ofor _ _ _ (fun j x' y' => x' = x + i /\ y' = y + 8 * k + j)); [intros; lia|]. intros j J. rewrite (swrap_small 16 (x + i)), (swrap_small 16 (y + k * 8 + j)) by (cbn; lia). replace (y + k * 8 + j) with (y + 8 * k + j) by lia.
        assert (img_lit data width (x + i - x) (y + 8 * k + j - y) = Z.testbit (nth (Z.to_nat (i + k * width)) data 0) j) as Im.
        { unfold img_lit. replace ((y + 8 * k + j - y) / 8) with k by lia. replace ((y + 8 * k + j - y) mod 8) with j by lia. replace (x + i - x) with i by lia. reflexivity. }
        destruct (Z.testbit (nth (Z.to_nat (i + k * width)) data 0) j); [apply (writes_paints put true)|apply (writes_paints clr false)]; try assumption; lia.
Qed.
End Display.

(* ---- the vertical display ---- *)
Lemma v_set_writes W H : writes W H (v_lit W) (v_ok W H) (mv_setPixel W H) true.
Proof.
  intros x y buf (Hw & Hh & Hm & O) X Y. unfold mv_setPixel. destruct ((x <? W) && (y <? H)) eqn:E.
  - rewrite Z.rem_mod_nonneg, Z.quot_div_nonneg by lia. unfold sh. assert (y mod 8 <? 0 = false) as -> by lia. cbn [obind].
    destruct (b_or_spec W (H / 8) buf (y / 8) x (Z.shiftl 1 (y mod 8)) O ltac:(lia) ltac:(lia)) as (buf' & Eb & O' & T). exists buf'. split; [exact Eb|]. split; [repeat split; try lia; apply O'|].
    intros x' y' X' Y'. unfold v_lit. rewrite T, bit_test by lia. destruct ((x' =? x) && (y' =? y)) eqn:Ec.
    + assert (x' = x) as -> by lia. assert (y' = y) as -> by lia. rewrite !Z.eqb_refl. apply orb_true_r.
    + assert ((y' / 8 =? y / 8) && (x' =? x) && (y' mod 8 =? y mod 8) = false) as -> by lia. apply orb_false_r.
  - exists buf. split; [reflexivity|]. split; [repeat split; try lia; apply O|]. intros x' y' X' Y'. assert ((x' =? x) && (y' =? y) = false) as -> by lia. reflexivity.
Qed.
Lemma v_clear_writes W H : writes W H (v_lit W) (v_ok W H) (mv_clearPixel W H) false.
Proof.
  intros x y buf (Hw & Hh & Hm & O) X Y. unfold mv_clearPixel. destruct ((x <? W) && (y <? H)) eqn:E.
  - rewrite Z.rem_mod_nonneg, Z.quot_div_nonneg by lia. unfold sh. assert (y mod 8 <? 0 = false) as -> by lia. cbn [obind].
    destruct (b_and_spec W (H / 8) buf (y / 8) x (Z.lnot (Z.shiftl 1 (y mod 8))) O ltac:(lia) ltac:(lia)) as (buf' & Eb & O' & T). exists buf'. split; [exact Eb|]. split; [repeat split; try lia; apply O'|].
    intros x' y' X' Y'. unfold v_lit. rewrite T, Z.lnot_spec, bit_test by lia. destruct ((x' =? x) && (y' =? y)) eqn:Ec.
    + assert (x' = x) as -> by lia. assert (y' = y) as -> by lia. rewrite !Z.eqb_refl. apply andb_false_r.
    + assert (negb ((y' / 8 =? y / 8) && (x' =? x)) || negb (y' mod 8 =? y mod 8) = true) as -> by lia. apply andb_true_r.
  - exists buf. split; [reflexivity|]. split; [repeat split; try lia; apply O|]. intros x' y' X' Y'. assert ((x' =? x) && (y' =? y) = false) as -> by lia. reflexivity.
Qed.
Lemma v_get W H x y buf : v_ok W H buf -> 0 <= x -> 0 <= y -> mv_getPixel W H x y buf = Some ((x <? W) && (y <? H) && v_lit W buf x y).
Proof.
  intros (Hw & Hh & Hm & O) X Y. unfold mv_getPixel. destruct ((x <? W) && (y <? H)) eqn:E; [|reflexivity].
  rewrite Z.rem_mod_nonneg, Z.quot_div_nonneg by lia. unfold sh. assert (y mod 8 <? 0 = false) as -> by lia. cbn [obind].
  destruct (b_get_spec W (H / 8) buf (y / 8) x O ltac:(lia) ltac:(lia)) as (b & -> & B & T). cbn [obind]. rewrite land_bit by lia. unfold v_lit. rewrite T. reflexivity.
Qed.
Lemma h_set_writes W H : writes W H (h_lit W) (h_ok W H) (mh_setPixel W H) true.
Proof.
  intros x y buf (Hw & Hh & Hm & O) X Y. unfold mh_setPixel. destruct ((x <? W) && (y <? H)) eqn:E.
  - rewrite Z.rem_mod_nonneg, Z.quot_div_nonneg by lia. unfold sh. assert (x mod 8 <? 0 = false) as -> by lia. cbn [obind].
    destruct (b_or_spec (W / 8) H buf y (x / 8) (Z.shiftl 1 (x mod 8)) O ltac:(lia) ltac:(lia)) as (buf' & Eb & O' & T). exists buf'. split; [exact Eb|]. split; [repeat split; try lia; apply O'|].
    intros x' y' X' Y'. unfold h_lit. rewrite T, bit_test by lia. destruct ((x' =? x) && (y' =? y)) eqn:Ec.
    + assert (x' = x) as -> by lia. assert (y' = y) as -> by lia. rewrite !Z.eqb_refl. apply orb_true_r.
    + assert ((y' =? y) && (x' / 8 =? x / 8) && (x' mod 8 =? x mod 8) = false) as -> by lia. apply orb_false_r.
  - exists buf. split; [reflexivity|]. split; [repeat split; try lia; apply O|]. intros x' y' X' Y'. assert ((x' =? x) && (y' =? y) = false) as -> by lia. reflexivity.
Qed.
Lemma h_clear_writes W H : writes W H (h_lit W) (h_ok W H) (mh_clearPixel W H) false.
Proof.
  intros x y buf (Hw & Hh & Hm & O) X Y. unfold mh_clearPixel. destruct ((x <? W) && (y <? H)) eqn:E.
  - rewrite Z.rem_mod_nonneg, Z.quot_div_nonneg by lia. unfold sh. assert (x mod 8 <? 0 = false) as -> by lia. cbn [obind].
    destruct (b_and_spec (W / 8) H buf y (x / 8) (Z.lnot (Z.shiftl 1 (x mod 8))) O ltac:(lia) ltac:(lia)) as (buf' & Eb & O' & T). exists buf'. split; [exact Eb|]. split; [repeat split; try lia; apply O'|].
    intros x' y' X' Y'. unfold h_lit. rewrite T, Z.lnot_spec, bit_test by lia. destruct ((x' =? x) && (y' =? y)) eqn:Ec.
    + assert (x' = x) as -> by lia. assert (y' = y) as -> by lia. rewrite !Z.eqb_refl. apply andb_false_r.
    + assert (negb ((y' =? y) && (x' / 8 =? x / 8)) || negb (x' mod 8 =? x mod 8) = true) as -> by lia. apply andb_true_r.
  - exists buf. split; [reflexivity|]. split; [repeat split; try lia; apply O|]. intros x' y' X' Y'. assert ((x' =? x) && (y' =? y) = false) as -> by lia. reflexivity.
Qed.
Lemma h_get W H x y buf : h_ok W H buf -> 0 <= x -> 0 <= y -> mh_getPixel W H x y buf = Some ((x <? W) && (y <? H) && h_lit W buf x y).
Proof.
  intros (Hw & Hh & Hm & O) X Y. unfold mh_getPixel. destruct ((x <? W) && (y <? H)) eqn:E; [|reflexivity].
  rewrite Z.rem_mod_nonneg, Z.quot_div_nonneg by lia. unfold sh. assert (x mod 8 <? 0 = false) as -> by lia. cbn [obind].
  destruct (b_get_spec (W / 8) H buf y (x / 8) O ltac:(lia) ltac:(lia)) as (b & -> & B & T). cbn [obind]. rewrite land_bit by lia. unfold h_lit. rewrite T. reflexivity.
Qed.
(* a picture determines the buffer *)
Lemma g_ext bw bh a b : 0 < bw -> g_ok bw bh a -> g_ok bw bh b -> (forall r c k, 0 <= r < bh -> 0 <= c < bw -> 0 <= k < 8 -> g_lit bw a r c k = g_lit bw b r c k) -> a = b.
Proof.
  intros Hw [La Fa] [Lb Fb] E. unfold zlen in *. apply (nth_ext _ _ 0 0); [lia|]. intros n Hn.
  assert (Z.of_nat n / bw * bw + Z.of_nat n mod bw = Z.of_nat n) as D by (pose proof (Z.div_mod (Z.of_nat n) bw); lia). pose proof (Z.mod_pos_bound (Z.of_nat n) bw Hw) as M.
  assert (0 <= Z.of_nat n / bw < bh) as R by (split; [apply Z.div_pos; lia|apply Z.div_lt_upper_bound; lia]).
  apply Z.bits_inj'. intros k K. destruct (Z_lt_dec k 8) as [K8|K8].
  - specialize (E (Z.of_nat n / bw) (Z.of_nat n mod bw) k R M ltac:(lia)). unfold g_lit in E. rewrite D, Nat2Z.id in E. exact E.
  - pose proof (Forall_nth_byte a n Fa). pose proof (Forall_nth_byte b n Fb). rewrite !(Z.bits_above_log2) by (try lia; match goal with |- Z.log2 ?v < k => destruct (Z.eq_dec v 0) as [->|]; [cbn; lia|apply Z.log2_lt_pow2; [lia|apply Z.lt_le_trans with (2 ^ 8); [cbn; lia|apply Z.pow_le_mono_r; lia]]] end). reflexivity.
Qed.
Lemma v_ext W H a b : v_ok W H a -> v_ok W H b -> (forall x y, 0 <= x < W -> 0 <= y < H -> v_lit W a x y = v_lit W b x y) -> a = b.
Proof.
  intros (Hw & Hh & Hm & A) (_ & _ & _ & B) E. apply (g_ext W (H / 8)); [lia|exact A|exact B|]. intros r c k R C K. specialize (E c (8 * r + k) C ltac:(lia)). unfold v_lit in E. replace ((8 * r + k) / 8) with r in E by lia. replace ((8 * r + k) mod 8) with k in E by lia. exact E.
Qed.
(* two routines that paint the same set do the same *)
Lemma v_same W H f g T img : (forall x y, T x y \/ ~ T x y) -> paints W H (v_lit W) (v_ok W H) f T img -> paints W H (v_lit W) (v_ok W H) g T img -> forall buf, v_ok W H buf -> f buf = g buf.
Proof.
  intros D P Q buf O. destruct (P buf O) as (b1 & -> & O1 & D1). destruct (Q buf O) as (b2 & -> & O2 & D2). f_equal. apply (v_ext W H); [assumption|assumption|]. intros x y X Y. destruct (D1 x y X Y) as [A1 A2], (D2 x y X Y) as [B1 B2]. destruct (D x y) as [I|I]; [rewrite A1, B1|rewrite A2, B2]; auto.
Qed.
Lemma v_or_paints W H r c m (S : Z -> Z -> Prop) : 0 <= r < H / 8 -> 0 <= c < W -> (forall x y, 0 <= y < H -> S x y <-> (y / 8 = r /\ x = c /\ Z.testbit m (y mod 8) = true)) ->
  paints W H (v_lit W) (v_ok W H) (fun buf => b_or W (H / 8) buf r c m) S (fun _ _ => true).
Proof.
  intros R C E buf (Hw & Hh & Hm & O). destruct (b_or_spec W (H / 8) buf r c m O R C) as (buf' & F & O' & T). exists buf'. split; [exact F|]. split; [repeat split; try lia; apply O'|].
  intros x y X Y. unfold v_lit. rewrite T by lia. specialize (E x y Y). split; intro I.
  - apply E in I. destruct I as (-> & -> & ->). rewrite !Z.eqb_refl. apply orb_true_r.
  - assert ((y / 8 =? r) && (x =? c) && Z.testbit m (y mod 8) = false) as ->; [|apply orb_false_r]. destruct ((y / 8 =? r) && (x =? c) && Z.testbit m (y mod 8)) eqn:X1; [|reflexivity]. exfalso. apply I, E. rewrite !andb_true_iff in X1. destruct X1 as [[X1 X2] X3]. split; [lia|split; [lia|exact X3]].
Qed.
Lemma mv_hline_paints W H x y len : 0 <= x -> 0 <= len -> x + len < 32768 ->
  paints W H (v_lit W) (v_ok W H) (mv_hline W H x y len) (fun x' y' => x <= x' < x + len /\ y' = y) (fun _ _ => true).
Proof.
  intros X L B. unfold mv_hline. destruct ((0 <=? y) && (y <? H)) eqn:E.
  - unfold sh. rewrite Z.rem_mod_nonneg, Z.quot_div_nonneg by lia. assert (y mod 8 <? 0 = false) as -> by lia. cbn [obind]. rewrite swrap_small by (cbn; lia).
    apply (paints_ext W H _ _ _ (fun x' y' => exists j, x <= j < x + Z.of_nat (Z.to_nat (x + len - x)) /\ (x' = j /\ y' = y))); [intros x' y' _ _; split; [intros (j & J & -> & ->); lia|intros [A ->]; exists x'; lia]|].
    apply (paints_ofor W H _ _ _ _ _ (fun j x' y' => x' = j /\ y' = y)); [intros; lia|]. intros j J. destruct (j <? W) eqn:Ej; [|apply paints_id; intros; lia].
    intros buf O. pose proof O as (Hw & Hh & Hm & _). revert buf O. apply (v_or_paints W H (y / 8) j _ (fun x' y' => x' = j /\ y' = y)); [lia|lia|]. intros x' y' Y'. rewrite u8_testbit, bit_test by lia. lia.
  - apply paints_id. intros; lia.
Qed.

Lemma vloop_step fw W H x n y byte buf : mv_vloop fw W H x (S n) y byte buf = (do (byte, buf) <- (if y <? H / 8 then do buf <- b_or W (H / 8) buf y x byte; Some (255, buf) else Some (byte, buf)); mv_vloop fw W H x n (wrap fw (y + 1)) byte buf).
Proof. reflexivity. Qed.
(* the loop from row y to row y + n, starting with the line number a of row y *)
Lemma vloop_paints fw W H x n y byte a buf : 8 <= fw -> 0 <= x < W -> 0 <= y -> y + Z.of_nat n < 256 -> 8 * y <= a < 8 * y + 8 -> v_ok W H buf ->
  (forall k, 0 <= k < 8 -> Z.testbit byte k = (a <=? 8 * y + k)) ->
  exists byte' buf', mv_vloop fw W H x n y byte buf = Some (y + Z.of_nat n, byte', buf') /\ v_ok W H buf' /\ painted W H (v_lit W buf) (v_lit W buf') (fun x' y' => x' = x /\ a <= y' < 8 * (y + Z.of_nat n)) (fun _ _ => true) /\
    (y + Z.of_nat n < H / 8 -> forall k, 0 <= k < 8 -> Z.testbit byte' k = (Z.max a (8 * (y + Z.of_nat n)) <=? 8 * (y + Z.of_nat n) + k)).
Proof.
  intros Fw X. revert y byte a buf. induction n as [|n IH]; intros y byte a buf Y B A O M.
  - exists byte, buf. cbn [mv_vloop]. replace (y + Z.of_nat 0) with y by lia. split; [reflexivity|]. split; [exact O|]. split; [intros x' y' _ _; split; [lia|reflexivity]|]. intros _ k K. rewrite M by lia. lia.
  - rewrite vloop_step. pose proof O as (Hw & Hh & Hm & _). rewrite (wrap_small fw (y + 1)) by (assert (2 ^ 8 <= 2 ^ fw) by (apply Z.pow_le_mono_r; lia); lia).
    destruct (y <? H / 8) eqn:Ey.
    + destruct (v_or_paints W H y x byte (fun x' y' => x' = x /\ a <= y' < 8 * y + 8) ltac:(lia) X) with (buf := buf) as (b1 & E1 & O1 & D1); [|exact O|].
      { intros x' y' Y'. split; [intros [-> R]; split; [lia|]; split; [lia|]; rewrite M by lia; lia|intros (R & -> & T); rewrite M in T by lia; lia]. }
      rewrite E1. cbn [obind]. destruct (IH (y + 1) 255 (8 * (y + 1)) b1 ltac:(lia) ltac:(lia) ltac:(lia) O1) as (byte' & b2 & E2 & O2 & D2 & M2).
      { intros k K. transitivity true; [|lia]. change 255 with (Z.ones 8). rewrite Z.ones_spec_low by lia. reflexivity. }
      exists byte', b2. rewrite E2. replace (y + 1 + Z.of_nat n) with (y + Z.of_nat (S n)) in * by lia. split; [reflexivity|]. split; [exact O2|]. split.
      * intros x' y' X' Y'. destruct (D1 x' y' X' Y') as [P1 P2], (D2 x' y' X' Y') as [Q1 Q2]. split; intro I.
        -- destruct (Z_lt_dec y' (8 * y + 8)); [rewrite Q2 by lia; apply P1; lia|apply Q1; lia].
        -- rewrite Q2 by lia. apply P2. lia.
      * intros L k K. rewrite M2 by lia. lia.
    + cbn [obind]. destruct n as [|n0].
      * exists byte, buf. cbn [mv_vloop]. replace (y + Z.of_nat 1) with (y + 1) by lia. split; [reflexivity|]. split; [exact O|]. split; [intros x' y' X' Y'; split; [lia|reflexivity]|lia].
      * assert (forall m z, H / 8 <= z -> z + Z.of_nat m < 256 -> mv_vloop fw W H x m z byte buf = Some (z + Z.of_nat m, byte, buf)) as Skip.
        { clear - Fw Hh. induction m as [|m IH]; intros z Z1 Z2; [cbn [mv_vloop]; replace (z + Z.of_nat 0) with z by lia; reflexivity|]. rewrite vloop_step. assert (z <? H / 8 = false) as -> by lia. cbn [obind]. rewrite (wrap_small fw (z + 1)) by (assert (2 ^ 8 <= 2 ^ fw) by (apply Z.pow_le_mono_r; lia); lia). rewrite IH by lia. replace (z + 1 + Z.of_nat m) with (z + Z.of_nat (S m)) by lia. reflexivity. }
        exists byte, buf. rewrite Skip by lia. replace (y + 1 + Z.of_nat (S n0)) with (y + Z.of_nat (S (S n0))) by lia. split; [reflexivity|]. split; [exact O|]. split; [intros x' y' X' Y'; split; [lia|reflexivity]|lia].
Qed.
Lemma shiftl255 a k : 0 <= a < 8 -> 0 <= k < 8 -> Z.testbit (Z.shiftl 255 a) k = (a <=? k).
Proof. intros A K. rewrite Z.shiftl_spec by lia. change 255 with (Z.ones 8). destruct (Z_le_dec a k); [rewrite Z.ones_spec_low by lia; lia|rewrite Z.testbit_neg_r by lia; lia]. Qed.
Lemma shiftr255 a k : 0 <= k < 8 -> 0 < a -> Z.testbit (Z.shiftr 255 a) k = (k <? 8 - a).
Proof. intros K A. rewrite Z.shiftr_spec by lia. change 255 with (Z.ones 8). destruct (Z_lt_dec k (8 - a)); [rewrite Z.ones_spec_low by lia; lia|rewrite Z.ones_spec_high by lia; lia]. Qed.
Lemma mv_vline_paints fw W H x y len : 8 <= fw -> 0 <= x -> 0 <= y -> 0 <= len -> (y + len <= 127 \/ (y + len <= 248 /\ H <= 128)) ->
  paints W H (v_lit W) (v_ok W H) (mv_vline fw W H x y len) (fun x' y' => x' = x /\ y <= y' < y + len) (fun _ _ => true).
Proof.
  intros Fw X Y L B buf O. unfold mv_vline. destruct ((0 <=? x) && (x <? W)) eqn:E.
  2:{ exists buf. split; [reflexivity|]. split; [exact O|]. intros x' y' X' Y'. split; [lia|reflexivity]. }
  assert (2 ^ 8 <= 2 ^ fw) as Pf by (apply Z.pow_le_mono_r; lia). change (2 ^ 8) with 256 in Pf. pose proof O as (Hw & Hh & Hm & _).
  rewrite (Z.rem_mod_nonneg y), (Z.quot_div_nonneg y) by lia. unfold sh. assert (y mod 8 <? 0 = false) as -> by lia. cbn [obind].
  rewrite (wrap_small fw (y / 8)) by lia.
  assert (forall k, 0 <= k < 8 -> Z.testbit (wrap fw (Z.shiftl 255 (y mod 8))) k = (y <=? 8 * (y / 8) + k)) as M.
  { intros k K. rewrite wrap_testbit by lia. assert (k <? fw = true) as -> by lia. cbn [andb]. rewrite shiftl255 by lia. lia. }
  assert (exists e, Z.of_nat (Z.to_nat (wrap fw (u8 (Z.quot (swrap 8 (y + len)) 8) - y / 8))) = e - y / 8 /\ y / 8 <= e < 256 /\ ((y + len <= 127 /\ e = (y + len) / 8 /\ Z.rem (swrap 8 (y + len)) 8 = (y + len) mod 8) \/ (H <= 128 /\ 128 <= y + len /\ 240 <= e))) as (e & En & Er & Ec).
  { destruct (Z_le_dec (y + len) 127) as [S1|S1].
    - exists ((y + len) / 8). rewrite (swrap_small 8 (y + len)) by (cbn; lia). rewrite Z.quot_div_nonneg, Z.rem_mod_nonneg by lia. unfold u8. rewrite (Z.mod_small ((y + len) / 8)) by lia. rewrite wrap_small by lia. split; [lia|]. split; [lia|]. left. lia.
    - assert (swrap 8 (y + len) = y + len - 256) as -> by (unfold swrap; change (2 ^ (8 - 1)) with 128; change (2 ^ 8) with 256; lia). exists (256 - (256 - (y + len)) / 8).
      assert (Z.quot (y + len - 256) 8 = - ((256 - (y + len)) / 8)) as Q by (replace (y + len - 256) with (- (256 - (y + len))) by lia; rewrite Z.quot_opp_l, Z.quot_div_nonneg by lia; reflexivity).
      rewrite Q. assert (u8 (- ((256 - (y + len)) / 8)) = 256 - (256 - (y + len)) / 8) as -> by (unfold u8; lia). rewrite wrap_small by lia. split; [lia|]. split; [lia|]. right. lia. }
  set (n := Z.to_nat (wrap fw (u8 (Z.quot (swrap 8 (y + len)) 8) - y / 8))) in *. clearbody n.
  destruct (vloop_paints fw W H x n (y / 8) (wrap fw (Z.shiftl 255 (y mod 8))) y buf Fw ltac:(lia) ltac:(lia) ltac:(lia) ltac:(lia) O M) as (byte' & b1 & E1 & O1 & D1 & M1).
  rewrite E1. cbn [obind]. replace (y / 8 + Z.of_nat n) with e in * by lia.
  destruct (e <? H / 8) eqn:Ee.
  - destruct Ec as [(S1 & -> & Er')|Ec]; [|lia]. rewrite Er'.
    destruct (v_or_paints W H ((y + len) / 8) x (Z.land byte' (Z.shiftr 255 (8 - (y + len) mod 8))) (fun x' y' => x' = x /\ Z.max y (8 * ((y + len) / 8)) <= y' < y + len) ltac:(lia) ltac:(lia)) with (buf := b1) as (b2 & E2 & O2 & D2); [|exact O1|].
    { intros x' y' Y'. rewrite Z.land_spec. split.
      - intros [-> R]. split; [lia|]. split; [reflexivity|]. rewrite M1, shiftr255 by lia. lia.
      - intros (R & -> & T). rewrite M1, shiftr255 in T by lia. lia. }
    exists b2. split; [exact E2|]. split; [exact O2|]. intros x' y' X' Y'. destruct (D1 x' y' X' Y') as [P1 P2], (D2 x' y' X' Y') as [Q1 Q2]. split; intro I.
    + destruct (Z_lt_dec y' (8 * ((y + len) / 8))); [rewrite Q2 by lia; apply P1; lia|apply Q1; lia].
    + rewrite Q2 by lia. apply P2. lia.
  - exists b1. split; [reflexivity|]. split; [exact O1|]. intros x' y' X' Y'. destruct (D1 x' y' X' Y') as [P1 P2]. split; intro I; [apply P1|apply P2]; lia.
Qed.
Lemma v_byte_paints W H r c d img : 0 <= r < H / 8 -> 0 <= c < W -> 0 <= d < 256 -> (forall k, 0 <= k < 8 -> img c (8 * r + k) = Z.testbit d k) ->
  paints W H (v_lit W) (v_ok W H) (fun buf => b_set W (H / 8) buf r c d) (fun x y => x = c /\ 8 * r <= y < 8 * r + 8) img.
Proof.
  intros R C Dd I buf (Hw & Hh & Hm & O). destruct (b_set_spec W (H / 8) buf r c d O R C Dd) as (buf' & F & O' & T). exists buf'. split; [exact F|]. split; [repeat split; try lia; apply O'|].
  intros x y X Y. unfold v_lit. rewrite T by lia. split; intro S.
  - assert ((y / 8 =? r) && (x =? c) = true) as -> by lia. destruct S as [-> S]. replace y with (8 * r + y mod 8) at 2 by lia. rewrite I by lia. reflexivity.
  - assert ((y / 8 =? r) && (x =? c) = false) as -> by lia. reflexivity.
Qed.
Lemma mv_image_paints W H x y width height data : -32768 <= x -> x + width <= 65536 -> -32768 <= y -> Z.rem y 8 = 0 -> Z.rem height 8 = 0 -> 0 <= width -> 0 <= height < 65536 -> y + height <= H ->
  width * (height / 8) <= zlen data -> Forall (fun b => 0 <= b < 256) data -> 
  paints W H (v_lit W) (v_ok W H) (mv_drawImageRaw W H x y width height data) (fun x' y' => x <= x' < x + width /\ y <= y' < y + height) (fun x' y' => img_lit data width (x' - x) (y' - y)).
Proof.
  intros X XW Y Y8 H8 Wd Hd Fit Ld F buf O. pose proof O as (Hw & Hh & Hm & _). revert buf O. unfold mv_drawImageRaw. rewrite Y8, H8. cbn [Z.eqb andb].
  assert (exists q, y = 8 * q) as (q & ->) by (exists (Z.quot y 8); pose proof (Z.quot_rem' y 8); lia). clear Y8.
  rewrite Z.rem_mod_nonneg in H8 by lia. assert (exists h, height = 8 * h) as (h & ->) by (exists (height / 8); lia). clear H8.
  replace (8 * h / 8) with h in Ld by lia. replace (Z.quot (8 * q) 8) with q by (rewrite Z.mul_comm, Z.quot_mul; lia). rewrite Z.quot_div_nonneg by lia. assert (u16 ((8 * h + 7) / 8) = h) as -> by (unfold u16; lia).
  apply (paints_ext W H _ _ _ (fun x' y' => exists i, 0 <= i < 0 + Z.of_nat (Z.to_nat width) /\ (x' = x + i /\ 8 * q <= y' < 8 * q + 8 * h))).
  - intros x' y' _ _. split; [intros (j & J & -> & D); lia|intros [D E]; exists (x' - x); lia].
  - apply (paints_ofor W H _ _ _ _ _ (fun i x' y' => x' = x + i /\ 8 * q <= y' < 8 * q + 8 * h)); [intros; lia|]. intros i I.
    apply (paints_ext W H _ _ _ (fun x' y' => exists k, 0 <= k < 0 + Z.of_nat (Z.to_nat h) /\ (x' = x + i /\ 8 * (q + k) <= y' < 8 * (q + k) + 8))).
    + intros x' y' _ _. split; [intros (j & J & -> & D); lia|intros [-> D]; exists (y' / 8 - q); lia].
    + apply (paints_ofor W H _ _ _ _ _ (fun k x' y' => x' = x + i /\ 8 * (q + k) <= y' < 8 * (q + k) + 8)); [intros; lia|]. intros k K.
      assert (u16 (x + i) = if x + i <? 0 then x + i + 65536 else x + i) as -> by (unfold u16; destruct (x + i <? 0) eqn:E; lia).
      assert (u16 (k + u16 q) = if q + k <? 0 then q + k + 65536 else q + k) as -> by (unfold u16; destruct (q + k <? 0) eqn:E; lia).
      destruct ((0 <=? x + i) && (x + i <? W) && (0 <=? q + k)) eqn:In.
      * assert (x + i <? 0 = false) as -> by lia. assert (q + k <? 0 = false) as -> by lia. assert ((x + i <? W) && (q + k <? H) = true) as -> by lia.
        assert (0 <= i + k * width < zlen data) as Di by nia. rewrite (znth_nth data (i + k * width) Di). cbn [obind]. apply v_byte_paints; [lia|lia|apply Forall_nth_byte; exact F|].
        intros b B. unfold img_lit. replace (x + i - x) with i by lia. replace ((8 * (q + k) + b - 8 * q) / 8) with k by lia. replace ((8 * (q + k) + b - 8 * q) mod 8) with b by lia. reflexivity.
      * assert (((if x + i <? 0 then x + i + 65536 else x + i) <? W) && ((if q + k <? 0 then q + k + 65536 else q + k) <? H) = false) as -> by (destruct (x + i <? 0) eqn:E1, (q + k <? 0) eqn:E2; lia). apply paints_id. intros; lia.
Qed.
Lemma ofor_None {D} n i j (f : Z -> D -> option D) s : i <= j < i + Z.of_nat n -> (forall s, f j s = None) -> ofor n i f s = None.
Proof.
  revert i s. induction n as [|n IH]; intros i s J N; [lia|]. cbn [ofor]. destruct (Z.eq_dec i j) as [->|]; [rewrite N; reflexivity|]. destruct (f i s); cbn [obind]; [apply IH; [lia|exact N]|reflexivity].
Qed.
Lemma mv_rect_paints fw W H x y width height : 8 <= fw -> 0 <= x -> 0 <= y -> 1 <= width -> 1 <= height -> x + width < 32768 -> (y + height <= 127 \/ (y + height <= 248 /\ H <= 128)) ->
  paints W H (v_lit W) (v_ok W H) (gd_drawRectangle (mv_hline W H) (mv_vline fw W H) x y width height)
    (fun x' y' => x <= x' < x + width /\ y <= y' < y + height /\ (x' = x \/ x' = x + width - 1 \/ y' = y \/ y' = y + height - 1)) (fun _ _ => true).
Proof.
  intros Fw X Y Wd Hd XW YH. unfold gd_drawRectangle, u16. rewrite !Z.mod_small by lia. rewrite !swrap_small by (cbn; lia).
  apply (paints_ext W H _ _ _ (fun x' y' => (x <= x' < x + width /\ y' = y) \/ ((x <= x' < x + width /\ y' = y + height - 1) \/ ((x' = x /\ y <= y' < y + height) \/ (x' = x + width - 1 /\ y <= y' < y + height))))); [intros; lia|].
  apply (paints_seq W H _ _ (mv_hline W H x y width) (fun s => do s <- mv_hline W H x (y + height - 1) width s; do s <- mv_vline fw W H x y height s; mv_vline fw W H (x + width - 1) y height s)); [intros; lia|intros; lia|apply mv_hline_paints; lia|].
  apply (paints_seq W H _ _ (mv_hline W H x (y + height - 1) width) (fun s => do s <- mv_vline fw W H x y height s; mv_vline fw W H (x + width - 1) y height s)); [intros; lia|intros; lia|apply mv_hline_paints; lia|].
  apply (paints_seq W H _ _ (mv_vline fw W H x y height) (mv_vline fw W H (x + width - 1) y height)); [intros; lia|intros; lia|apply mv_vline_paints; lia|apply mv_vline_paints; lia].
Qed.
Lemma gd_rect_paints W H lit ok put x y width height : writes W H lit ok put true -> 0 <= x -> 0 <= y -> 1 <= width -> 1 <= height -> x + width < 32768 -> y + height < 32768 ->
  paints W H lit ok (gd_drawRectangle (gd_hline put) (gd_vline put) x y width height)
    (fun x' y' => x <= x' < x + width /\ y <= y' < y + height /\ (x' = x \/ x' = x + width - 1 \/ y' = y \/ y' = y + height - 1)) (fun _ _ => true).
Proof.
  intros P X Y Wd Hd XW YH. unfold gd_drawRectangle, u16. rewrite !Z.mod_small by lia. rewrite (swrap_small 16 (x + width - 1)), (swrap_small 16 (y + height - 1)) by (cbn; lia).
  apply (paints_ext W H _ _ _ (fun x' y' => (x <= x' < x + width /\ y' = y) \/ ((x <= x' < x + width /\ y' = y + height - 1) \/ ((x' = x /\ y <= y' < y + height) \/ (x' = x + width - 1 /\ y <= y' < y + height))))); [intros; lia|].
  apply (paints_seq W H _ _ (gd_hline put x y width) (fun s => do s <- gd_hline put x (y + height - 1) width s; do s <- gd_vline put x y height s; gd_vline put (x + width - 1) y height s)); [intros; lia|intros; lia|apply gd_hline_paints; (exact P || lia)|].
  apply (paints_seq W H _ _ (gd_hline put x (y + height - 1) width) (fun s => do s <- gd_vline put x y height s; gd_vline put (x + width - 1) y height s)); [intros; lia|intros; lia|apply gd_hline_paints; (exact P || lia)|].
  apply (paints_seq W H _ _ (gd_vline put x y height) (gd_vline put (x + width - 1) y height)); [intros; lia|intros; lia|apply gd_vline_paints; (exact P || lia)|apply gd_vline_paints; (exact P || lia)].
Qed.

(* ---- lines ---- *)
Definition pts (n : nat) (f : Z -> Z * Z) : list (Z * Z) := map (fun k => f (Z.of_nat k)) (seq 0 n).
Lemma plot_pts {D} (put : Z -> Z -> D -> option D) f a n s : plot put (map (fun k => f (Z.of_nat k)) (seq a n)) s = ofor n (Z.of_nat a) (fun k => put (fst (f k)) (snd (f k))) s.
Proof.
  revert a s. induction n as [|n IH]; intros a s; [reflexivity|]. cbn [seq map plot ofor]. destruct (f (Z.of_nat a)) as [x y] eqn:E. cbn [fst snd]. destruct (put x y s) as [s'|]; [|reflexivity]. cbn [obind]. rewrite IH. replace (Z.of_nat (S a)) with (Z.of_nat a + 1) by lia. reflexivity.
Qed.
Lemma ofor_ext {D} n a b (f g : Z -> D -> option D) s : (forall k s, 0 <= k < Z.of_nat n -> f (a + k) s = g (b + k) s) -> ofor n a f s = ofor n b g s.
Proof.
  revert a b s. induction n as [|n IH]; intros a b s E; [reflexivity|]. cbn [ofor]. pose proof (E 0 s ltac:(lia)) as E0. rewrite !Z.add_0_r in E0. rewrite E0. destruct (g b s) as [s'|]; [|reflexivity]. cbn [obind]. apply IH. intros k s0 K. replace (a + 1 + k) with (a + (k + 1)) by lia. replace (b + 1 + k) with (b + (k + 1)) by lia. apply E. lia.
Qed.
Lemma plot_ofor {D} (put : Z -> Z -> D -> option D) f n s : plot put (pts n f) s = ofor n 0 (fun k => put (fst (f k)) (snd (f k))) s.
Proof. apply (plot_pts put f 0 n s). Qed.
Lemma pts_len n f : length (pts n f) = n. Proof. unfold pts. rewrite map_length, seq_length. reflexivity. Qed.
Lemma pts_nth n f i d : (i < n)%nat -> nth i (pts n f) d = f (Z.of_nat i).
Proof. intro L. unfold pts. rewrite (nth_indep _ d (f (Z.of_nat 0))) by (rewrite map_length, seq_length; exact L). rewrite (map_nth (fun k => f (Z.of_nat k))). rewrite seq_nth by exact L. reflexivity. Qed.
Lemma pts_connected n f : (forall k, 0 <= k -> k + 1 < Z.of_nat n -> touch (f k) (f (k + 1))) -> connected (pts n f).
Proof. intros T i d L. rewrite pts_len in L. rewrite !pts_nth by lia. replace (Z.of_nat (S i)) with (Z.of_nat i + 1) by lia. apply T; lia. Qed.
Lemma pts_Forall n f (P : Z * Z -> Prop) : (forall k, 0 <= k < Z.of_nat n -> P (f k)) -> Forall P (pts n f).
Proof. intro H. unfold pts. rewrite Forall_map, Forall_forall. intros k K. apply in_seq in K. apply H. lia. Qed.

(* the row of the k-th pixel *)
Definition ym (dX dY k : Z) : Z := (k * dY + (dX - 1 - dX / 2)) / dX.
Lemma ym_err dX dY k : 0 < dX -> 0 <= dX / 2 - k * dY + ym dX dY k * dX < dX.
Proof. intro P. unfold ym. pose proof (Z.div_mod (k * dY + (dX - 1 - dX / 2)) dX ltac:(lia)) as D. pose proof (Z.mod_pos_bound (k * dY + (dX - 1 - dX / 2)) dX P). set (q := (k * dY + (dX - 1 - dX / 2)) / dX) in *. clearbody q. set (kd := k * dY) in *. clearbody kd. nia. Qed.
Lemma ym_uniq dX dY k m : 0 < dX -> 0 <= dX / 2 - k * dY + m * dX < dX -> m = ym dX dY k.
Proof. intros P R. pose proof (ym_err dX dY k P) as R'. set (q := ym dX dY k) in *. clearbody q. set (kd := k * dY) in *. clearbody kd. nia. Qed.
Lemma ym_0 dX dY : 0 < dX -> ym dX dY 0 = 0.
Proof. intro P. symmetry. apply ym_uniq; [exact P|]. lia. Qed.
Lemma ym_end dX dY : 0 < dX -> ym dX dY dX = dY.
Proof. intro P. symmetry. apply ym_uniq; [exact P|]. lia. Qed.
Lemma ym_step dX dY k : 0 < dX -> 0 <= dY <= dX -> ym dX dY k <= ym dX dY (k + 1) <= ym dX dY k + 1.
Proof. intros P R. pose proof (ym_err dX dY k P) as A. pose proof (ym_err dX dY (k + 1) P) as B. set (q := ym dX dY k) in *. set (q' := ym dX dY (k + 1)) in *. clearbody q q'. rewrite Z.mul_add_distr_r in B. set (kd := k * dY) in *. clearbody kd. nia. Qed.
Lemma ym_range dX dY k : 0 < dX -> 0 <= dY <= dX -> 0 <= k <= dX -> 0 <= ym dX dY k <= dY.
Proof.
  intros P R K. pose proof (ym_err dX dY k P) as A. set (q := ym dX dY k) in *. clearbody q. assert (0 <= k * dY) by nia. assert (k * dY <= dX * dY) by nia. set (kd := k * dY) in *. clearbody kd. nia.
Qed.
Lemma bresenham_path {D} (put : Z -> Z -> D -> option D) steep dX dY ys x1 y1 n k s : 0 < dX < 32768 -> 0 <= dY <= dX -> ys = 1 \/ ys = -1 -> -32768 <= x1 -> x1 + dX < 32768 -> -32768 <= y1 < 32768 -> -32768 <= y1 + ys * dY < 32768 ->
  0 <= k -> k + Z.of_nat n = dX + 1 ->
  gd_bresenham put steep dX dY ys n (x1 + k) (y1 + ys * ym dX dY k) (dX / 2 - k * dY + ym dX dY k * dX) s =
  ofor n k (fun k s => if steep then put (y1 + ys * ym dX dY k) (x1 + k) s else put (x1 + k) (y1 + ys * ym dX dY k) s) s.
Proof.
  intros P R S X1 X2 Y1 Y2. revert k s. induction n as [|n IH]; intros k s K N; [reflexivity|]. cbn [gd_bresenham ofor]. rewrite (swrap_small 16 (x1 + k)) by (cbn; lia).
  destruct (if steep then put (y1 + ys * ym dX dY k) (x1 + k) s else put (x1 + k) (y1 + ys * ym dX dY k) s) as [s'|]; [|reflexivity]. cbn [obind].
  destruct n as [|n]; [cbn [gd_bresenham ofor]; destruct (_ <? 0); reflexivity|]. rewrite <- IH by lia. clear IH.
  pose proof (ym_err dX dY k ltac:(lia)) as Ek. pose proof (ym_step dX dY k ltac:(lia) R) as St. pose proof (ym_err dX dY (k + 1) ltac:(lia)) as Ek1. pose proof (ym_range dX dY (k + 1) ltac:(lia) R ltac:(lia)) as Rk1.
  pose proof (ym_uniq dX dY (k + 1) (ym dX dY k) ltac:(lia)) as U. rewrite Z.mul_add_distr_r in *. set (e := dX / 2 - k * dY + ym dX dY k * dX) in *.
  rewrite (swrap_small 16 (e - dY)) by (cbn; lia). destruct (e - dY <? 0) eqn:El.
  - assert (ym dX dY (k + 1) = ym dX dY k + 1) as Q1 by (destruct (Z.eq_dec (ym dX dY (k + 1)) (ym dX dY k)) as [Q|]; [rewrite Q in Ek1; unfold e in *; lia|lia]). rewrite Q1 in *.
    rewrite (swrap_small 16 (e - dY + dX)) by (cbn; lia). assert (swrap 16 (y1 + ys * ym dX dY k + ys) = y1 + ys * (ym dX dY k + 1)) as ->.
    { rewrite swrap_small; [lia|lia|]. cbn. clear - S Rk1 Y1 Y2 R St. destruct S; subst ys; lia. }
    f_equal; unfold e; lia.
  - rewrite <- U by (unfold e in *; lia). f_equal; unfold e; lia.
Qed.
Lemma on_line_swap x1 y1 x2 y2 p : on_line x1 y1 x2 y2 p -> on_line x2 y2 x1 y1 p.
Proof.
  unfold on_line. intros (A & B & C). split; [|lia]. replace ((snd p - y2) * (x1 - x2) - (fst p - x2) * (y1 - y2)) with (- ((snd p - y1) * (x2 - x1) - (fst p - x1) * (y2 - y1))) by ring. rewrite Z.abs_opp. lia.
Qed.
Lemma on_line_flip x1 y1 x2 y2 x y : on_line x1 y1 x2 y2 (x, y) -> on_line y1 x1 y2 x2 (y, x).
Proof.
  unfold on_line. cbn [fst snd]. intros (A & B & C). split; [|lia]. replace ((x - x1) * (y2 - y1) - (y - y1) * (x2 - x1)) with (- ((y - y1) * (x2 - x1) - (x - x1) * (y2 - y1))) by ring. rewrite Z.abs_opp. lia.
Qed.
Lemma touch_flip a b c d : touch (a, b) (c, d) -> touch (b, a) (d, c).
Proof. unfold touch. cbn [fst snd]. intros (N & A & B). split; [intro X; apply N; congruence|]. lia. Qed.
Lemma good_swap x1 y1 x2 y2 l : good_line x1 y1 x2 y2 l -> good_line x2 y2 x1 y1 l.
Proof.
  intros (A & B & C & D). split; [lia|]. split; [tauto|]. split; [exact C|]. eapply Forall_impl; [|exact D]. intros p. apply on_line_swap.
Qed.
Lemma pts_hd n f : (0 < n)%nat -> hd_error (pts n f) = Some (f 0).
Proof. intro L. destruct n; [lia|]. reflexivity. Qed.
Lemma pts_last n f : (0 < n)%nat -> hd_error (rev (pts n f)) = Some (f (Z.of_nat n - 1)).
Proof. intro L. destruct n as [|n]; [lia|]. unfold pts. rewrite seq_S, map_app, rev_app_distr. cbn [map rev app hd_error]. replace (Z.of_nat (S n) - 1) with (Z.of_nat (0 + n)) by lia. reflexivity. Qed.
Lemma pts_good n f x1 y1 x2 y2 : Z.of_nat n = Z.max (Z.abs (x2 - x1)) (Z.abs (y2 - y1)) + 1 -> f 0 = (x1, y1) -> f (Z.of_nat n - 1) = (x2, y2) ->
  (forall k, 0 <= k -> k + 1 < Z.of_nat n -> touch (f k) (f (k + 1))) -> (forall k, 0 <= k < Z.of_nat n -> on_line x1 y1 x2 y2 (f k)) -> good_line x1 y1 x2 y2 (pts n f).
Proof.
  intros N A B T O. split; [rewrite pts_len; exact N|]. split; [left; rewrite pts_hd, pts_last by lia; rewrite A, B; split; reflexivity|]. split; [apply pts_connected; exact T|apply pts_Forall; exact O].
Qed.
(* the line from x1 to x2 > x1 with y as the minor direction *)
Definition bpt (x1 y1 dX dY ys k : Z) : Z * Z := (x1 + k, y1 + ys * ym dX dY k).
Lemma bpt_good x1 y1 x2 y2 : x1 < x2 -> Z.abs (y2 - y1) <= x2 - x1 -> let ys := if y1 <? y2 then 1 else -1 in
  good_line x1 y1 x2 y2 (pts (Z.to_nat (x2 - x1 + 1)) (bpt x1 y1 (x2 - x1) (Z.abs (y2 - y1)) ys)).
Proof.
  intros X Y ys. set (dX := x2 - x1) in *. set (dY := Z.abs (y2 - y1)) in *. assert (ys * dY = y2 - y1) as Ys by (unfold ys, dY; destruct (y1 <? y2) eqn:E; lia). assert (ys = 1 \/ ys = -1) as Y1 by (unfold ys; destruct (y1 <? y2); lia). clearbody ys.
  apply pts_good.
  - lia.
  - unfold bpt. rewrite ym_0 by lia. f_equal; lia.
  - unfold bpt. rewrite Z2Nat.id by lia. replace (dX + 1 - 1) with dX by lia. rewrite ym_end by lia. f_equal; lia.
  - intros k K N. unfold bpt, touch. cbn [fst snd]. pose proof (ym_step dX dY k ltac:(lia) ltac:(lia)). split; [intro Q; injection Q; lia|]. destruct Y1; subst ys; lia.
  - intros k K. unfold bpt, on_line. cbn [fst snd]. pose proof (ym_err dX dY k ltac:(lia)) as E. pose proof (ym_range dX dY k ltac:(lia) ltac:(lia) ltac:(lia)) as R.
    replace ((y1 + ys * ym dX dY k - y1) * (x2 - x1) - (x1 + k - x1) * (y2 - y1)) with (ys * (ym dX dY k * dX - k * dY)) by (rewrite <- Ys; unfold dX; ring). rewrite Z.abs_mul. set (q := ym dX dY k) in *. clearbody q. set (kd := k * dY) in *. set (qd := q * dX) in *. clearbody kd qd. split; [destruct Y1; subst ys; lia|]. destruct Y1; subst ys; lia.
Qed.
Definition flip (p : Z * Z) : Z * Z := (snd p, fst p).
Lemma flip_good x1 y1 x2 y2 n f : good_line x1 y1 x2 y2 (pts n f) -> good_line y1 x1 y2 x2 (pts n (fun k => flip (f k))).
Proof.
  intros (A & B & C & D). rewrite pts_len in A. assert (0 < n)%nat as N by lia. unfold good_line. rewrite pts_len, !pts_hd, !pts_last in * by exact N. split; [lia|]. split.
  - destruct B as [[B1 B2]|[B1 B2]]; [left|right]; (split; [injection B1 as B1; rewrite B1; reflexivity|injection B2 as B2; rewrite B2; reflexivity]).
  - split.
    + apply pts_connected. intros k K L. specialize (C (Z.to_nat k) (0, 0)). rewrite pts_len in C. specialize (C ltac:(lia)). rewrite !pts_nth in C by lia. rewrite Z2Nat.id in C by lia. replace (Z.of_nat (S (Z.to_nat k))) with (k + 1) in C by lia. destruct (f k), (f (k + 1)). apply touch_flip. exact C.
    + apply pts_Forall. intros k K. rewrite Forall_forall in D. specialize (D (f k)). destruct (f k) as [x y] eqn:E. apply on_line_flip. apply D. unfold pts. apply in_map_iff. exists (Z.to_nat k). rewrite Z2Nat.id by lia. split; [exact E|]. apply in_seq. lia.
Qed.
(* what drawLine draws with the generic drawHorizontalLine and drawVerticalLine *)
Lemma drawLine_path x1 y1 x2 y2 : -32768 <= x1 < 32768 -> -32768 <= x2 < 32768 -> -32768 <= y1 < 32768 -> -32768 <= y2 < 32768 -> Z.abs (x2 - x1) < 32768 -> Z.abs (y2 - y1) < 32768 ->
  (x1 = x2 -> y1 < 32767 /\ y2 < 32767) -> (y1 = y2 -> x1 < 32767 /\ x2 < 32767) ->
  exists l, good_line x1 y1 x2 y2 l /\ forall (D : Type) (put : Z -> Z -> D -> option D) s, gd_drawLine put (gd_hline put) (gd_vline put) x1 y1 x2 y2 s = plot put l s.
Proof.
  intros X1 X2 Y1 Y2 DX DY Vx Vy.
  assert (forall a b c, a <= b -> good_line c a c b (pts (Z.to_nat (b - a + 1)) (fun k => (c, a + k)))) as GV.
  { intros a b c L. apply pts_good; [lia|f_equal; lia|f_equal; lia| |].
    - intros k K N. unfold touch. cbn [fst snd]. split; [intro Q; injection Q; lia|lia].
    - intros k K. unfold on_line. cbn [fst snd]. rewrite Z.sub_diag, Z.mul_0_r. lia. }
  assert (forall a b c, a <= b -> good_line a c b c (pts (Z.to_nat (b - a + 1)) (fun k => (a + k, c)))) as GH by (intros a b c L; exact (flip_good _ _ _ _ _ _ (GV a b c L))).
  unfold gd_drawLine. destruct (Z.eqb_spec x1 x2) as [Ex|Nx].
  - subst x2. specialize (Vx eq_refl).
    assert (forall a b, -32768 <= a -> a <= b -> b < 32767 -> b - a < 32768 -> forall (D : Type) (put : Z -> Z -> D -> option D) s, gd_vline put x1 a (u16 (b - a + 1)) s = plot put (pts (Z.to_nat (b - a + 1)) (fun k => (x1, a + k))) s) as V.
    { intros a b A L B Bd D put s. rewrite plot_ofor. unfold gd_vline, u16. rewrite Z.mod_small by lia. rewrite (swrap_small 16 (a + (b - a + 1))) by (cbn; lia). replace (a + (b - a + 1) - a) with (b - a + 1) by lia. apply ofor_ext. intros k s0 K. cbn [fst snd]. rewrite swrap_small by (cbn; lia). reflexivity. }
    destruct (y2 <? y1) eqn:E.
    + exists (pts (Z.to_nat (y1 - y2 + 1)) (fun k => (x1, y2 + k))). split; [apply good_swap, GV; lia|]. intros D put s. apply V; lia.
    + exists (pts (Z.to_nat (y2 - y1 + 1)) (fun k => (x1, y1 + k))). split; [apply GV; lia|]. intros D put s. apply V; lia.
  - destruct (Z.eqb_spec y1 y2) as [Ey|Ny].
    + subst y2. specialize (Vy eq_refl).
      assert (forall a b, -32768 <= a -> a <= b -> b < 32767 -> b - a < 32768 -> forall (D : Type) (put : Z -> Z -> D -> option D) s, gd_hline put a y1 (u16 (b - a + 1)) s = plot put (pts (Z.to_nat (b - a + 1)) (fun k => (a + k, y1))) s) as V.
      { intros a b A L B Bd D put s. rewrite plot_ofor. unfold gd_hline, u16. rewrite Z.mod_small by lia. rewrite (swrap_small 16 (a + (b - a + 1))) by (cbn; lia). replace (a + (b - a + 1) - a) with (b - a + 1) by lia. apply ofor_ext. intros k s0 K. cbn [fst snd]. rewrite swrap_small by (cbn; lia). reflexivity. }
      destruct (x2 <? x1) eqn:E.
      * exists (pts (Z.to_nat (x1 - x2 + 1)) (fun k => (x2 + k, y1))). split; [apply good_swap, GH; lia|]. intros D put s. apply V; lia.
      * exists (pts (Z.to_nat (x2 - x1 + 1)) (fun k => (x1 + k, y1))). split; [apply GH; lia|]. intros D put s. apply V; lia.
    + assert (forall steep a b c d, a < c -> Z.abs (d - b) <= c - a -> c - a < 32768 -> -32768 <= a -> c < 32768 -> -32768 <= b < 32768 -> -32768 <= d < 32768 ->
        exists n f, good_line a b c d (pts n f) /\ forall (D : Type) (put : Z -> Z -> D -> option D) s,
          gd_bresenham put steep (swrap 16 (c - a)) (swrap 16 (Z.abs (d - b))) (if b <? d then 1 else -1) (Z.to_nat (c - a + 1)) a b (Z.quot (swrap 16 (c - a)) 2) s = plot put (pts n (fun k => if steep : bool then flip (f k) else f k)) s) as G.
      { intros steep a b c d L M Bd A C B Dd. exists (Z.to_nat (c - a + 1)), (bpt a b (c - a) (Z.abs (d - b)) (if b <? d then 1 else -1)). split; [apply bpt_good; lia|]. intros D put s. rewrite plot_ofor. rewrite (swrap_small 16 (c - a)), (swrap_small 16 (Z.abs (d - b))) by (cbn; lia). rewrite Z.quot_div_nonneg by lia.
        set (ys := if b <? d then 1 else -1). assert (ys * Z.abs (d - b) = d - b) as Ys by (unfold ys; destruct (b <? d) eqn:E; lia). assert (ys = 1 \/ ys = -1) as Ys1 by (unfold ys; destruct (b <? d); lia). clearbody ys.
        pose proof (bresenham_path put steep (c - a) (Z.abs (d - b)) ys a b (Z.to_nat (c - a + 1)) 0 s ltac:(lia) ltac:(lia) Ys1 A ltac:(lia) B ltac:(lia) ltac:(lia) ltac:(lia)) as P. rewrite ym_0 in P by lia. replace (a + 0) with a in P by lia. replace (b + ys * 0) with b in P by lia. replace ((c - a) / 2 - 0 * Z.abs (d - b) + 0 * (c - a)) with ((c - a) / 2) in P by lia. rewrite P.
        apply ofor_ext. intros k s0 K. destruct steep; reflexivity. }
      destruct (Z.abs (x2 - x1) <? Z.abs (y2 - y1)) eqn:St.
      * destruct (y2 <? y1) eqn:E.
        -- destruct (G true y2 x2 y1 x1 ltac:(lia) ltac:(lia) ltac:(lia) ltac:(lia) ltac:(lia) ltac:(lia) ltac:(lia)) as (n & f & Gl & P). exists (pts n (fun k => flip (f k))). split; [apply good_swap, flip_good; exact Gl|]. intros D put s. apply P.
        -- destruct (G true y1 x1 y2 x2 ltac:(lia) ltac:(lia) ltac:(lia) ltac:(lia) ltac:(lia) ltac:(lia) ltac:(lia)) as (n & f & Gl & P). exists (pts n (fun k => flip (f k))). split; [apply flip_good; exact Gl|]. intros D put s. apply P.
      * destruct (x2 <? x1) eqn:E.
        -- destruct (G false x2 y2 x1 y1 ltac:(lia) ltac:(lia) ltac:(lia) ltac:(lia) ltac:(lia) ltac:(lia) ltac:(lia)) as (n & f & Gl & P). exists (pts n f). split; [apply good_swap; exact Gl|]. intros D put s. apply P.
        -- destruct (G false x1 y1 x2 y2 ltac:(lia) ltac:(lia) ltac:(lia) ltac:(lia) ltac:(lia) ltac:(lia) ltac:(lia)) as (n & f & Gl & P). exists (pts n f). split; [exact Gl|]. intros D put s. apply P.
Qed.
