From Coq Require Import ZArith List Bool Lia.
From Verif Require Import Base BitLemmas BitsProofs CanProofs SliceLemmas TlcModel TlcSpec.
Import ListNotations.
Open Scope Z_scope.

(** * Fields of numbers *)
Lemma field_low w c d x y : 0 < w -> 0 <= d < c -> x mod 2 ^ (w * c) = y mod 2 ^ (w * c) -> field w d x = field w d y.
Proof.
  intros W D E. unfold field.
  assert (forall z, z / 2 ^ (w * d) mod 2 ^ w = (z mod 2 ^ (w * c)) / 2 ^ (w * d) mod 2 ^ w) as K.
  { intro z. assert (w * c = w * d + (w + w * (c - d - 1))) as -> by ring.
    assert (0 <= w * d) by nia. assert (0 <= w * (c - d - 1)) by nia.
    rewrite (Z.pow_add_r 2 (w * d)) by lia.
    rewrite Z.rem_mul_r by (try apply Z.pow_nonzero; try (apply Z.pow_pos_nonneg); lia).
    rewrite (Z.add_comm (z mod 2 ^ (w * d))), (Z.mul_comm (2 ^ (w * d))), Z.div_add_l by (apply Z.pow_nonzero; lia).
    rewrite (Z.div_small (z mod 2 ^ (w * d))) by (apply Z.mod_pos_bound, Z.pow_pos_nonneg; lia). rewrite Z.add_0_r.
    rewrite Z.pow_add_r by lia. rewrite Z.rem_mul_r by (try apply Z.pow_nonzero; try (apply Z.pow_pos_nonneg); lia).
    rewrite (Z.mul_comm (2 ^ w) (_ mod _)), Z.mod_add by (apply Z.pow_nonzero; lia). rewrite Z.mod_mod by (apply Z.pow_nonzero; lia). reflexivity. }
  rewrite (K x), (K y), E. reflexivity.
Qed.
Lemma field_high w c d x y : 0 < w -> 0 <= c < d -> x / 2 ^ (w * c + w) = y / 2 ^ (w * c + w) -> field w d x = field w d y.
Proof.
  intros W D E. unfold field. assert (w * d = (w * c + w) + w * (d - c - 1)) as -> by ring.
  assert (0 <= w * c + w) by nia. assert (0 <= w * (d - c - 1)) by nia.
  rewrite !Z.pow_add_r by nia. rewrite <- (Z.pow_add_r 2 (w * c) w) by nia.
  rewrite <- !Z.div_div by (try apply Z.pow_nonzero; try (apply Z.pow_pos_nonneg); lia). rewrite E. reflexivity.
Qed.
Lemma field_parts w c h f l : 0 < w -> 0 <= c -> 0 <= f < 2 ^ w -> 0 <= l < 2 ^ (w * c) ->
  let x := h * 2 ^ (w * c + w) + f * 2 ^ (w * c) + l in
  field w c x = f /\ x mod 2 ^ (w * c) = l /\ x / 2 ^ (w * c + w) = h.
Proof.
  intros W C F L x. unfold x, field. clear x. assert (0 <= w * c) by nia.
  rewrite Z.pow_add_r by lia. set (p := 2 ^ (w * c)) in *. set (q := 2 ^ w) in *. assert (0 < p) by lia. assert (0 < q) by lia.
  replace (h * (p * q) + f * p + l) with ((h * q + f) * p + l) by ring.
  rewrite Z.div_add_l, (Z.div_small l p), Z.add_0_r by lia.
  repeat split.
  - rewrite Z.add_comm, Z.mod_add by lia. apply Z.mod_small; lia.
  - rewrite Z.add_comm, Z.mod_add by lia. apply Z.mod_small; lia.
  - rewrite <- Z.div_div by lia. rewrite Z.div_add_l, (Z.div_small l p), Z.add_0_r by lia.
    rewrite Z.div_add_l, (Z.div_small f q) by lia. lia.
Qed.
(** Replacing the bits [s .. s+w-1] of the number at byte [q] from the end. *)
Lemma field_update w c q s A B ph pl f g : 0 < w -> 0 <= c -> 0 <= q -> 0 <= s -> 8 * q + s = w * c -> 0 <= B < 256 ^ q ->
  0 <= f < 2 ^ w -> 0 <= g < 2 ^ w -> 0 <= pl < 2 ^ s ->
  let x := A * 2 ^ (w * c + w) + (ph * 2 ^ (s + w) + f * 2 ^ s + pl) * 256 ^ q + B in let y := A * 2 ^ (w * c + w) + (ph * 2 ^ (s + w) + g * 2 ^ s + pl) * 256 ^ q + B in
  field w c x = f /\ forall d, 0 <= d -> field w d y = if d =? c then g else field w d x.
Proof.
  intros W C Q Hs E HB F G PL x y.
  assert (256 ^ q = 2 ^ (8 * q)) as P8 by (rewrite Z.pow_mul_r by lia; reflexivity).
  assert (2 ^ (w * c + w) = 256 ^ q * 2 ^ (s + w)) as E2. { rewrite P8, <- E, <- Z.pow_add_r by lia. f_equal. lia. }
  assert (2 ^ (w * c) = 256 ^ q * 2 ^ s) as E3. { rewrite P8, <- E, <- Z.pow_add_r by lia. f_equal. }
  assert (x = (A + ph) * 2 ^ (w * c + w) + f * 2 ^ (w * c) + (pl * 256 ^ q + B)) as X. { unfold x. rewrite E2, E3. ring. }
  assert (y = (A + ph) * 2 ^ (w * c + w) + g * 2 ^ (w * c) + (pl * 256 ^ q + B)) as Y. { unfold y. rewrite E2, E3. ring. }
  assert (0 <= pl * 256 ^ q + B < 2 ^ (w * c)) as L. { rewrite E3. clear -HB PL. nia. }
  clearbody x y. clear P8 E2 E3.
  destruct (field_parts w c (A + ph) f _ W C F L) as [X1 [X2 X3]]. destruct (field_parts w c (A + ph) g _ W C G L) as [Y1 [Y2 Y3]].
  rewrite <- X in X1, X2, X3. rewrite <- Y in Y1, Y2, Y3. split; [exact X1|]. clear X Y L HB PL.
  intros d D. destruct (Z.eqb_spec d c) as [->|N]; [exact Y1|].
  destruct (Z.lt_ge_cases d c).
  - apply (field_low w c); [exact W|split; assumption|congruence].
  - apply (field_high w c); [exact W|split; [exact C|clear -N H; lia]|congruence].
Qed.

(** * Big-endian numbers *)
Lemma be_app_gen (a : list Z) : forall z, fold_left (fun a b => 256 * a + b) a z = z * 256 ^ zlen a + be a.
Proof.
  unfold be. induction a as [|x a IH]; intro z; cbn [fold_left].
  - change (zlen []) with 0. change (256 ^ 0) with 1. lia.
  - rewrite (IH (256 * z + x)), (IH (256 * 0 + x)). rewrite zlen_cons. pose proof (zlen_nonneg a).
    rewrite Z.pow_add_r by lia. change (256 ^ 1) with 256. ring.
Qed.
Lemma be_app a b : be (a ++ b) = be a * 256 ^ zlen b + be b.
Proof. unfold be at 1. rewrite fold_left_app. apply be_app_gen. Qed.
Lemma be_range l : bytes l -> 0 <= be l < 256 ^ zlen l.
Proof.
  induction l as [|x l IH] using rev_ind; intro H.
  - change (zlen []) with 0. unfold be. cbn. lia.
  - apply Forall_app in H. destruct H as [H1 H2]. apply Forall_inv in H2. specialize (IH H1). rewrite be_app, zlen_app. change (zlen [x]) with 1.
    pose proof (zlen_nonneg l). rewrite Z.pow_add_r by lia. change (256 ^ 1) with 256. unfold be at 2 4. cbn [fold_left]. lia.
Qed.
(** Two bytes [x y] at index [i]. *)
Lemma split2 (l : list Z) i : 0 <= i -> i + 2 <= zlen l -> exists a x y b, l = a ++ [x; y] ++ b /\ zlen a = i.
Proof.
  intros I0 I1. exists (firstn (Z.to_nat i) l). pose proof (firstn_skipn (Z.to_nat i) l) as E. pose proof (skipn_zlen l i ltac:(lia)) as L.
  destruct (skipn (Z.to_nat i) l) as [|x [|y b]]; [rewrite zlen_nil in L; lia|rewrite zlen_cons, zlen_nil in L; lia|].
  exists x, y, b. split; [symmetry; exact E|apply firstn_zlen; lia].
Qed.
Lemma split1 (l : list Z) i : 0 <= i -> i + 1 <= zlen l -> exists a x b, l = a ++ [x] ++ b /\ zlen a = i.
Proof.
  intros I0 I1. exists (firstn (Z.to_nat i) l). pose proof (firstn_skipn (Z.to_nat i) l) as E. pose proof (skipn_zlen l i ltac:(lia)) as L.
  destruct (skipn (Z.to_nat i) l) as [|x b]; [rewrite zlen_nil in L; lia|].
  exists x, b. split; [symmetry; exact E|apply firstn_zlen; lia].
Qed.
Lemma znth_at {A} (a : list A) x b i : zlen a = i -> znth (a ++ x :: b) i = Some x.
Proof. intro H. rewrite znth_app_r by lia. rewrite H, Z.sub_diag. apply znth_0. Qed.
Lemma znth_at1 {A} (a : list A) x y b i : zlen a = i -> znth (a ++ x :: y :: b) (i + 1) = Some y.
Proof. intro H. rewrite znth_app_r by lia. replace (i + 1 - zlen a) with 1 by lia. reflexivity. Qed.
Lemma zupd_at {A} (a : list A) x v b i : zlen a = i -> zupd (a ++ x :: b) i v = Some (a ++ v :: b).
Proof.
  intro H. assert (0 <= i < zlen (a ++ x :: b)) as R. { rewrite zlen_app, zlen_cons. pose proof (zlen_nonneg a). pose proof (zlen_nonneg b). lia. }
  rewrite (zupd_ok _ i v R).
  rewrite firstn_app_exact by (unfold zlen in H; lia). replace (a ++ x :: b) with ((a ++ [x]) ++ b) by (rewrite <- app_assoc; reflexivity).
  rewrite skipn_app_exact; [reflexivity|]. rewrite app_length. cbn [length]. unfold zlen in H. lia.
Qed.
Lemma zupd_at1 {A} (a : list A) x y v b i : zlen a = i -> zupd (a ++ x :: y :: b) (i + 1) v = Some (a ++ x :: v :: b).
Proof.
  intro H. replace (a ++ x :: y :: b) with ((a ++ [x]) ++ y :: b) by (rewrite <- app_assoc; reflexivity).
  rewrite zupd_at by (rewrite zlen_app; change (zlen [x]) with 1; lia). rewrite <- app_assoc. reflexivity.
Qed.
Lemma be_2 a x y b : be (a ++ [x; y] ++ b) = be a * 256 ^ (zlen b + 2) + (256 * x + y) * 256 ^ zlen b + be b.
Proof.
  rewrite be_app, be_app, zlen_app. change (zlen [x; y]) with 2. rewrite (Z.add_comm 2). unfold be at 2. cbn [fold_left]. ring.
Qed.
Lemma be_1 a x b : be (a ++ [x] ++ b) = be a * 256 ^ (zlen b + 1) + x * 256 ^ zlen b + be b.
Proof. rewrite be_app, be_app, zlen_app. change (zlen [x]) with 1. rewrite (Z.add_comm 1). unfold be at 2. cbn [fold_left]. ring. Qed.

(** * Bits of bytes *)
Lemma byte_sweep (f g : Z -> Z) : forallb (fun n => f (Z.of_nat n) =? g (Z.of_nat n)) (seq 0 256) = true -> forall x, 0 <= x < 256 -> f x = g x.
Proof.
  intros H x R. rewrite forallb_forall in H. specialize (H (Z.to_nat x)). rewrite in_seq in H.
  rewrite Z2Nat.id in H by lia. apply Z.eqb_eq, H. lia.
Qed.
Lemma and_f0 x : 0 <= x < 256 -> Z.land x 0xf0 = Z.shiftl (x / 16) 4.
Proof. apply (byte_sweep (fun x => Z.land x 0xf0) (fun x => Z.shiftl (x / 16) 4)). vm_compute. reflexivity. Qed.
Lemma and_c0 x : 0 <= x < 256 -> Z.land x 0xc0 = Z.shiftl (x / 64) 6.
Proof. apply (byte_sweep (fun x => Z.land x 0xc0) (fun x => Z.shiftl (x / 64) 6)). vm_compute. reflexivity. Qed.
Lemma and_fc x : 0 <= x < 256 -> Z.land x 0xfc = Z.shiftl (x / 4) 2.
Proof. apply (byte_sweep (fun x => Z.land x 0xfc) (fun x => Z.shiftl (x / 4) 2)). vm_compute. reflexivity. Qed.
Lemma and_0f x : Z.land x 0x0f = x mod 16.
Proof. apply (land_ones_mod x 4). lia. Qed.
Lemma and_3f x : Z.land x 0x3f = x mod 64.
Proof. apply (land_ones_mod x 6). lia. Qed.
Lemma and_03 x : Z.land x 0x03 = x mod 4.
Proof. apply (land_ones_mod x 2). lia. Qed.
Lemma and_1 x : Z.land x 1 = x mod 2.
Proof. apply (land_ones_mod x 1). lia. Qed.
Lemma shr x k : 0 <= k -> Z.shiftr x k = x / 2 ^ k.
Proof. apply Z.shiftr_div_pow2. Qed.
Lemma shl x k : 0 <= k -> Z.shiftl x k = x * 2 ^ k.
Proof. apply Z.shiftl_mul_pow2. Qed.

Lemma upd2 w c s a x y b x' y' ph pl f g : 0 < w -> 0 <= c -> 0 <= s -> s + w <= 16 -> 8 * zlen b + s = w * c -> bytes b ->
  0 <= f < 2 ^ w -> 0 <= g < 2 ^ w -> 0 <= pl < 2 ^ s ->
  256 * x + y = ph * 2 ^ (s + w) + f * 2 ^ s + pl -> 256 * x' + y' = ph * 2 ^ (s + w) + g * 2 ^ s + pl ->
  field w c (be (a ++ [x; y] ++ b)) = f /\ forall d, 0 <= d -> field w d (be (a ++ [x'; y'] ++ b)) = if d =? c then g else field w d (be (a ++ [x; y] ++ b)).
Proof.
  intros W C Hs SW E B F G PL EP EP'. rewrite !be_2, EP, EP'. pose proof (zlen_nonneg b) as Q.
  assert (256 ^ (zlen b + 2) = 2 ^ (16 - s - w) * 2 ^ (w * c + w)) as ->.
  { change 256 with (2 ^ 8). rewrite <- Z.pow_mul_r, <- Z.pow_add_r by lia. f_equal. lia. }
  rewrite Z.mul_assoc. apply field_update; try assumption. apply be_range. exact B.
Qed.
Lemma upd1 w c s a x b x' ph pl f g : 0 < w -> 0 <= c -> 0 <= s -> s + w <= 8 -> 8 * zlen b + s = w * c -> bytes b ->
  0 <= f < 2 ^ w -> 0 <= g < 2 ^ w -> 0 <= pl < 2 ^ s ->
  x = ph * 2 ^ (s + w) + f * 2 ^ s + pl -> x' = ph * 2 ^ (s + w) + g * 2 ^ s + pl ->
  field w c (be (a ++ [x] ++ b)) = f /\ forall d, 0 <= d -> field w d (be (a ++ [x'] ++ b)) = if d =? c then g else field w d (be (a ++ [x] ++ b)).
Proof.
  intros W C Hs SW E B F G PL EP EP'. rewrite !be_1, EP, EP'. pose proof (zlen_nonneg b) as Q.
  assert (256 ^ (zlen b + 1) = 2 ^ (8 - s - w) * 2 ^ (w * c + w)) as ->.
  { change 256 with (2 ^ 8). rewrite <- Z.pow_mul_r, <- Z.pow_add_r by lia. f_equal. lia. }
  rewrite Z.mul_assoc. apply field_update; try assumption. apply be_range. exact B.
Qed.

(** * The grayscale values *)
Lemma gs_index C c : C mod 2 = 0 -> 0 <= c < C -> C <= 43690 ->
  exists i, u16 (Z.shiftr ((C - 1 - c) * 3) 1) = i /\ 0 <= i /\
    8 * (C * 3 / 2 - i - 2) + (if c mod 2 =? 0 then 0 else 4) = 12 * c /\ i + 2 <= C * 3 / 2.
Proof.
  intros M R B. eexists. split; [reflexivity|]. rewrite shr by lia. change (2 ^ 1) with 2. unfold u16, wrap.
  rewrite Z.mod_small by (change (2 ^ 16) with 65536; lia). destruct (c mod 2 =? 0) eqn:Q; lia.
Qed.
Lemma odd_first v : 0 <= v < 65536 -> u8 (Z.shiftr v 4) = v / 16 mod 256.
Proof. intro R. rewrite shr by lia. reflexivity. Qed.
Lemma odd_second v y : 0 <= v -> Z.lor (u8 (Z.shiftl v 4)) (Z.land y 15) = (v mod 16) * 16 + y mod 16.
Proof.
  intro R. rewrite and_0f. assert (u8 (Z.shiftl v 4) = Z.shiftl (v mod 16) 4) as ->.
  { rewrite !shl by lia. unfold u8, wrap. change (2 ^ 4) with 16. change (2 ^ 8) with 256. lia. }
  apply lor_high; lia.
Qed.
Lemma even_first v x : 0 <= v -> 0 <= x < 256 -> Z.lor (Z.land (u8 (Z.shiftr v 8)) 15) (Z.land x 240) = (x / 16) * 16 + v / 256 mod 16.
Proof.
  intros R X. rewrite and_0f, and_f0 by exact X. rewrite Z.lor_comm. unfold u8, wrap. rewrite shr by lia. change (2 ^ 8) with 256.
  rewrite lor_high by lia. change (2 ^ 4) with 16. lia.
Qed.
Lemma bytes_2 a x y b : bytes (a ++ [x; y] ++ b) <-> bytes a /\ 0 <= x < 256 /\ 0 <= y < 256 /\ bytes b.
Proof.
  unfold bytes. rewrite !Forall_app. split.
  - intros [A [M B]]. pose proof (Forall_inv M). pose proof (Forall_inv (Forall_inv_tail M)). cbv beta in *. tauto.
  - intros [A [X [Y B]]]. repeat split; try assumption. repeat constructor; lia.
Qed.
Lemma bytes_1 a x b : bytes (a ++ [x] ++ b) <-> bytes a /\ 0 <= x < 256 /\ bytes b.
Proof.
  unfold bytes. rewrite !Forall_app. split.
  - intros [A [M B]]. pose proof (Forall_inv M). cbv beta in *. tauto.
  - intros [A [X B]]. repeat split; try assumption. repeat constructor; lia.
Qed.

Lemma set_channel C c v gs : C mod 2 = 0 -> C <= 43690 -> 0 <= c < C -> 0 <= v < 65536 -> zlen gs = C * 3 / 2 -> bytes gs ->
  exists gs', setChannel C c v gs = Some gs' /\ zlen gs' = zlen gs /\ bytes gs' /\
    getChannel C c gs = Some (field 12 c (be gs)) /\
    forall d, 0 <= d -> field 12 d (be gs') = if d =? c then v mod 4096 else field 12 d (be gs).
Proof.
  intros M B R V L HB. destruct (gs_index C c M R B) as [i [EI [I0 [EQ I2]]]].
  unfold setChannel, getChannel. rewrite EI. destruct (C - 1 <? c) eqn:Q; [lia|]. clear Q. rewrite and_1.
  destruct (split2 gs i I0 ltac:(lia)) as [a [x [y [b [E Za]]]]]. subst gs. apply bytes_2 in HB. destruct HB as [Ba [Bx [By Bb]]].
  assert (zlen b = C * 3 / 2 - i - 2) as Zb. { rewrite !zlen_app in L. change (zlen [x; y]) with 2 in L. lia. }
  rewrite <- Zb in EQ. cbn [app]. rewrite (znth_at a x (y :: b) i Za), (znth_at1 a x y b i Za). cbn [obind].
  destruct (c mod 2 =? 0) eqn:Q; cbn [negb].
  - rewrite (zupd_at a x _ (y :: b) i Za). cbn [obind]. rewrite (zupd_at1 a _ y _ b i Za). rewrite even_first by lia.
    eexists. split; [reflexivity|].
    destruct (upd2 12 c 0 a x y b (x / 16 * 16 + v / 256 mod 16) (u8 v) (x / 16) 0 (256 * (x mod 16) + y) (v mod 4096)) as [U1 U2]; try lia; try assumption.
    { unfold u8, wrap. change (2 ^ (0 + 12)) with 4096. change (2 ^ 0) with 1. change (2 ^ 8) with 256. lia. }
    split; [rewrite !zlen_app, !zlen_cons; reflexivity|].
    split. { apply (bytes_2 a _ _ b). unfold u8, wrap. change (2 ^ 8) with 256. split; [exact Ba|]. split; [lia|]. split; [lia|exact Bb]. }
    split; [|exact U2]. f_equal. etransitivity; [|symmetry; exact U1].
    rewrite and_0f. unfold u16, wrap. rewrite lor_high by lia. change (2 ^ 8) with 256. change (2 ^ 16) with 65536. lia.
  - rewrite (zupd_at a x _ (y :: b) i Za). cbn [obind]. rewrite (znth_at1 a _ y b i Za). cbn [obind].
    rewrite (zupd_at1 a _ y _ b i Za). rewrite odd_second, odd_first by lia.
    eexists. split; [reflexivity|].
    destruct (upd2 12 c 4 a x y b (v / 16 mod 256) (v mod 16 * 16 + y mod 16) 0 (y mod 16) (16 * x + y / 16) (v mod 4096)) as [U1 U2]; try lia; try assumption.
    split; [rewrite !zlen_app, !zlen_cons; reflexivity|].
    split. { apply (bytes_2 a _ _ b). split; [exact Ba|]. split; [lia|]. split; [lia|exact Bb]. }
    split; [|exact U2]. f_equal. etransitivity; [|symmetry; exact U1].
    rewrite shr by lia. change (2 ^ 4) with 16. unfold u16, wrap. rewrite lor_high by lia. change (2 ^ 4) with 16. change (2 ^ 16) with 65536. lia.
Qed.

(** * The dot correction *)
Lemma dc_index C c : C mod 4 = 0 -> 0 <= c < C -> C < 65536 ->
  exists i, u16 (Z.shiftr ((C - 1 - c) * 3) 2) = i /\ 0 <= i /\
    8 * (C * 3 / 4 - i - 1) = 6 * c - (if c mod 4 =? 0 then 0 else if c mod 4 =? 1 then -2 else if c mod 4 =? 2 then -4 else 2) /\
    i + (if c mod 4 =? 0 then 1 else if c mod 4 =? 1 then 2 else if c mod 4 =? 2 then 2 else 1) <= C * 3 / 4.
Proof.
  intros M R B. eexists. split; [reflexivity|]. rewrite shr by lia. change (2 ^ 2) with 4. unfold u16, wrap.
  rewrite Z.mod_small by (change (2 ^ 16) with 65536; lia).
  destruct (c mod 4 =? 0) eqn:Q; [lia|]. destruct (c mod 4 =? 1) eqn:Q1; [lia|]. destruct (c mod 4 =? 2) eqn:Q2; lia.
Qed.
Lemma set_dot C c v dc : C mod 4 = 0 -> C < 65536 -> 0 <= c < C -> 0 <= v < 64 -> zlen dc = C * 3 / 4 -> bytes dc ->
  exists dc', setDotCorrection C c v dc = Some dc' /\ zlen dc' = zlen dc /\ bytes dc' /\
    getDotCorrection C c dc = Some (field 6 c (be dc)) /\
    forall d, 0 <= d -> field 6 d (be dc') = if d =? c then v else field 6 d (be dc).
Proof.
  intros M B R V L HB. destruct (dc_index C c M R B) as [i [EI [I0 [EQ I2]]]].
  unfold setDotCorrection, getDotCorrection. rewrite EI. destruct (C - 1 <? c) eqn:Q; [lia|]. clear Q EI. rewrite and_03.
  assert (c mod 4 = 0 \/ c mod 4 = 1 \/ c mod 4 = 2 \/ c mod 4 = 3) as Cs by lia.
  destruct Cs as [Q|[Q|[Q|Q]]]; rewrite Q in *; cbn [Z.eqb Pos.eqb] in EQ, I2.
  - destruct (split1 dc i I0 ltac:(lia)) as [a [x [b [E Za]]]]. subst dc. apply bytes_1 in HB. destruct HB as [Ba [Bx Bb]].
    assert (zlen b = C * 3 / 4 - i - 1) as Zb. { rewrite !zlen_app in L. change (zlen [x]) with 1 in L. lia. }
    rewrite <- Zb in EQ. cbn [app]. rewrite (znth_at a x b i Za). cbn [obind]. rewrite (zupd_at a x _ b i Za).
    rewrite and_c0, and_3f, lor_high by lia. change (2 ^ 6) with 64.
    eexists. split; [reflexivity|].
    destruct (upd1 6 c 0 a x b (x / 64 * 64 + v) (x / 64) 0 (x mod 64) v) as [U1 U2]; try lia; try assumption.
    split; [rewrite !zlen_app, !zlen_cons; reflexivity|].
    split. { apply (bytes_1 a _ b). split; [exact Ba|]. split; [lia|exact Bb]. }
    split; [|exact U2]. f_equal. symmetry. exact U1.
  - destruct (split2 dc i I0 ltac:(lia)) as [a [x [y [b [E Za]]]]]. subst dc. apply bytes_2 in HB. destruct HB as [Ba [Bx [By Bb]]].
    assert (zlen b + 1 = C * 3 / 4 - i - 1) as Zb. { rewrite !zlen_app in L. change (zlen [x; y]) with 2 in L. lia. }
    rewrite <- Zb in EQ. cbn [app]. rewrite (znth_at a x (y :: b) i Za). cbn [obind]. rewrite (zupd_at a x _ (y :: b) i Za). cbn [obind].
    rewrite !(znth_at1 a _ y b i Za). cbn [obind]. rewrite (zupd_at1 a _ y _ b i Za).
    rewrite and_0f, and_f0, and_3f, and_c0, (Z.lor_comm (y mod 64)), !shr, !lor_high by (rewrite ?shr by lia; lia). unfold u8, wrap.
    change (2 ^ 6) with 64. change (2 ^ 4) with 16. change (2 ^ 2) with 4. change (2 ^ 8) with 256.
    eexists. split; [reflexivity|].
    destruct (upd2 6 c 6 a x y b (x / 16 * 16 + v / 4) ((v * 64 + y mod 64) mod 256) (x / 16) (y mod 64) (x mod 16 * 4 + y / 64) v) as [U1 U2]; try lia; try assumption.
    split; [rewrite !zlen_app, !zlen_cons; reflexivity|].
    split. { apply (bytes_2 a _ _ b). split; [exact Ba|]. split; [lia|]. split; [lia|exact Bb]. }
    split; [|exact U2]. f_equal. etransitivity; [|symmetry; exact U1]. rewrite (shl (y / 64) 6) by lia. change (2 ^ 6) with 64.
    rewrite Z.div_mul by lia. rewrite lor_high by lia. change (2 ^ 2) with 4. lia.
  - destruct (split2 dc i I0 ltac:(lia)) as [a [x [y [b [E Za]]]]]. subst dc. apply bytes_2 in HB. destruct HB as [Ba [Bx [By Bb]]].
    assert (zlen b + 1 = C * 3 / 4 - i - 1) as Zb. { rewrite !zlen_app in L. change (zlen [x; y]) with 2 in L. lia. }
    rewrite <- Zb in EQ. cbn [app]. rewrite (znth_at a x (y :: b) i Za). cbn [obind]. rewrite (zupd_at a x _ (y :: b) i Za). cbn [obind].
    rewrite !(znth_at1 a _ y b i Za). cbn [obind]. rewrite (zupd_at1 a _ y _ b i Za).
    rewrite and_0f, and_f0, and_fc, and_03, (Z.lor_comm (y mod 16)), !shr, !lor_high by (rewrite ?shr by lia; lia). unfold u8, wrap.
    change (2 ^ 6) with 64. change (2 ^ 4) with 16. change (2 ^ 2) with 4. change (2 ^ 8) with 256.
    eexists. split; [reflexivity|].
    destruct (upd2 6 c 4 a x y b (x / 4 * 4 + v / 16) ((v * 16 + y mod 16) mod 256) (x / 4) (y mod 16) (x mod 4 * 16 + y / 16) v) as [U1 U2]; try lia; try assumption.
    split; [rewrite !zlen_app, !zlen_cons; reflexivity|].
    split. { apply (bytes_2 a _ _ b). split; [exact Ba|]. split; [lia|]. split; [lia|exact Bb]. }
    split; [|exact U2]. f_equal. etransitivity; [|symmetry; exact U1]. rewrite (shl (y / 16) 4) by lia. change (2 ^ 4) with 16.
    rewrite Z.div_mul by lia. rewrite lor_high by lia. change (2 ^ 4) with 16. lia.
  - destruct (split1 dc i I0 ltac:(lia)) as [a [x [b [E Za]]]]. subst dc. apply bytes_1 in HB. destruct HB as [Ba [Bx Bb]].
    assert (zlen b = C * 3 / 4 - i - 1) as Zb. { rewrite !zlen_app in L. change (zlen [x]) with 1 in L. lia. }
    rewrite <- Zb in EQ. cbn [app]. rewrite (znth_at a x b i Za). cbn [obind]. rewrite (zupd_at a x _ b i Za).
    rewrite and_03, and_fc, (Z.lor_comm (x mod 4)), lor_high by lia. unfold u8, wrap. rewrite shr, shl by lia. change (2 ^ 2) with 4. change (2 ^ 8) with 256.
    eexists. split; [reflexivity|].
    destruct (upd1 6 c 2 a x b ((v * 4 + x mod 4) mod 256) 0 (x mod 4) (x / 4) v) as [U1 U2]; try lia; try assumption.
    split; [rewrite !zlen_app, !zlen_cons; reflexivity|].
    split. { apply (bytes_1 a _ b). split; [exact Ba|]. split; [lia|exact Bb]. }
    split; [|exact U2]. f_equal. rewrite Z.div_mul by lia. symmetry. exact U1.
Qed.

(** * All channels *)
Fixpoint triples (n : nat) (a b c : Z) : list Z := match n with O => [] | S n => triples n a b c ++ [a; b; c] end.
Lemma triples_len n a b c : zlen (triples n a b c) = 3 * Z.of_nat n.
Proof. induction n as [|n IH]; [reflexivity|]. cbn [triples]. rewrite zlen_app, IH. change (zlen [a; b; c]) with 3. lia. Qed.
Lemma fill_ok a b c : forall k fuel done rest, zlen rest = 3 * Z.of_nat k -> (k < fuel)%nat -> forall n, n = 3 * Z.of_nat (done + k) ->
  fill fuel n a b c (3 * Z.of_nat done) (triples done a b c ++ rest) = Some (triples (done + k) a b c).
Proof.
  induction k as [|k IH]; intros fuel done rest L F n N; (destruct fuel as [|fuel]; [lia|]); cbn [fill].
  - destruct (3 * Z.of_nat done <? n) eqn:Q; [lia|]. apply zlen_0_nil in L. subst rest. rewrite app_nil_r, Nat.add_0_r. reflexivity.
  - destruct (3 * Z.of_nat done <? n) eqn:Q; [|lia]. destruct rest as [|x [|y [|z rest]]]; rewrite ?zlen_cons, ?zlen_nil in L; try lia.
    rewrite (zupd_at _ x a _ _ (triples_len done a b c)). cbn [obind].
    rewrite (zupd_at1 _ a y b _ _ (triples_len done a b c)). cbn [obind].
    replace (triples done a b c ++ a :: b :: z :: rest) with ((triples done a b c ++ [a]) ++ b :: z :: rest) by (rewrite <- app_assoc; reflexivity).
    replace (3 * Z.of_nat done + 2) with (3 * Z.of_nat done + 1 + 1) by lia.
    rewrite (zupd_at1 _ b z c rest (3 * Z.of_nat done + 1)) by (rewrite zlen_app, triples_len; reflexivity). cbn [obind].
    replace ((triples done a b c ++ [a]) ++ b :: c :: rest) with (triples (S done) a b c ++ rest) by (cbn [triples]; rewrite <- !app_assoc; reflexivity).
    replace (3 * Z.of_nat done + 3) with (3 * Z.of_nat (S done)) by lia.
    rewrite (IH fuel (S done) rest) by lia. f_equal. f_equal. lia.
Qed.
Lemma triples_fields w k a b c v : 0 < w -> k * w = 24 -> 0 <= a < 256 -> 0 <= b < 256 -> 0 <= c < 256 ->
  (forall d, 0 <= d < k -> field w d (65536 * a + 256 * b + c) = v) ->
  forall n, bytes (triples n a b c) /\ forall d, 0 <= d < k * Z.of_nat n -> field w d (be (triples n a b c)) = v.
Proof.
  intros W K Ra Rb Rc H. induction n as [|n [IB IH]].
  - split; [constructor|]. intros d D. lia.
  - cbn [triples]. split; [apply Forall_app; split; [exact IB|repeat constructor; lia]|].
    intros d D. rewrite be_app. change (zlen [a; b; c]) with 3. set (T := be (triples n a b c)) in *.
    assert (be [a; b; c] = 65536 * a + 256 * b + c) as -> by (unfold be; cbn [fold_left]; lia). set (t := 65536 * a + 256 * b + c) in *.
    assert (0 <= t < 2 ^ 24) as Rt by (unfold t; lia). change (256 ^ 3) with (2 ^ 24).
    destruct (Z.lt_ge_cases d k) as [Lo|Hi].
    + rewrite <- (H d ltac:(lia)). apply (field_low w k); [exact W|lia|]. rewrite (Z.mul_comm w k), K. rewrite Z.add_comm, Z.mod_add by lia. reflexivity.
    + rewrite <- (IH (d - k) ltac:(lia)). unfold field. replace (w * d) with (24 + w * (d - k)) by (rewrite <- K; ring).
      assert (0 <= w * (d - k)) by nia. rewrite Z.pow_add_r by lia. rewrite <- Z.div_div by (try apply Z.pow_nonzero; try (apply Z.pow_pos_nonneg); lia).
      rewrite Z.div_add_l, (Z.div_small t), Z.add_0_r by lia. reflexivity.
Qed.
Lemma set_all C v gs : C mod 2 = 0 -> 0 <= C -> 0 <= v < 65536 -> zlen gs = C * 3 / 2 ->
  exists gs', setAllChannels C v gs = Some gs' /\ zlen gs' = zlen gs /\ bytes gs' /\ forall d, 0 <= d < C -> field 12 d (be gs') = v mod 4096.
Proof.
  intros M P V L. unfold setAllChannels, gs_size. set (k := Z.to_nat (C / 2)).
  pose proof (fill_ok (u8 (Z.shiftr v 4)) (Z.lor (u8 (Z.shiftl v 4)) (Z.land (u8 (Z.shiftr v 8)) 15)) (u8 v) k (S (length gs)) 0 gs) as F.
  cbn [triples app] in F. change (3 * Z.of_nat 0) with 0 in F. rewrite F by (unfold zlen in *; unfold k; lia). clear F. cbn [plus].
  rewrite odd_second, odd_first by lia. unfold u8, wrap. rewrite shr by lia. change (2 ^ 8) with 256.
  eexists. split; [reflexivity|]. split; [rewrite triples_len; unfold k; lia|].
  destruct (triples_fields 12 2 (v / 16 mod 256) (v mod 16 * 16 + (v / 256) mod 256 mod 16) (v mod 256) (v mod 4096)) with (n := k) as [T1 T2]; try lia.
  { intros d D. assert (d = 0 \/ d = 1) as [-> | ->] by lia; unfold field.
    - change (2 ^ (12 * 0)) with 1. change (2 ^ 12) with 4096. lia.
    - change (2 ^ (12 * 1)) with 4096. change (2 ^ 12) with 4096. lia. }
  split; [exact T1|]. intros d D. apply T2. unfold k. lia.
Qed.
Lemma set_all_dot C v dc : C mod 4 = 0 -> 0 <= C -> 0 <= v < 64 -> zlen dc = C * 3 / 4 ->
  exists dc', setAllDotCorrection C v dc = Some dc' /\ zlen dc' = zlen dc /\ bytes dc' /\ forall d, 0 <= d < C -> field 6 d (be dc') = v.
Proof.
  intros M P V L. unfold setAllDotCorrection, dc_size. set (k := Z.to_nat (C / 4)).
  pose proof (fun a b c => fill_ok a b c k (S (length dc)) 0 dc) as F.
  cbn [triples app] in F. change (3 * Z.of_nat 0) with 0 in F. rewrite F by (unfold zlen in *; unfold k; lia). clear F. cbn [plus].
  rewrite !lor_high by (rewrite ?shr by lia; lia). unfold u8, wrap. rewrite !shr by lia.
  change (2 ^ 8) with 256. change (2 ^ 2) with 4. change (2 ^ 4) with 16. change (2 ^ 6) with 64.
  eexists. split; [reflexivity|]. split; [rewrite triples_len; unfold k; lia|].
  destruct (triples_fields 6 4 ((v * 4 + v / 16) mod 256) ((v * 16 + v / 4) mod 256) ((v * 64 + v) mod 256) v) with (n := k) as [T1 T2]; try lia.
  { intros d D. assert (d = 0 \/ d = 1 \/ d = 2 \/ d = 3) as [-> | [-> | [-> | ->]]] by lia; unfold field.
    - change (2 ^ (6 * 0)) with 1. change (2 ^ 6) with 64. lia.
    - change (2 ^ (6 * 1)) with 64. change (2 ^ 6) with 64. lia.
    - change (2 ^ (6 * 2)) with 4096. change (2 ^ 6) with 64. lia.
    - change (2 ^ (6 * 3)) with 262144. change (2 ^ 6) with 64. lia. }
  split; [exact T1|]. intros d D. apply T2. unfold k. lia.
Qed.
