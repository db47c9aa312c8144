From Coq Require Import ZArith List Bool Lia.
From Coq Require Import Floats.SpecFloat.
From Verif Require Import Base BitLemmas BitsProofs ColorModel ColorSpec.
Import ListNotations.
Open Scope Z_scope.

Lemma wrap8_small x : 0 <= x < 256 -> wrap 8 x = x.
Proof. intro. apply wrap_small. change (2 ^ 8) with 256. lia. Qed.
Lemma u16_small x : 0 <= x < 65536 -> u16 x = x.
Proof. intro. unfold u16. apply Z.mod_small. lia. Qed.
Lemma u8_small x : 0 <= x < 256 -> u8 x = x.
Proof. intro. unfold u8. apply Z.mod_small. lia. Qed.
Lemma u32_small x : 0 <= x < 4294967296 -> u32 x = x.
Proof. intro. unfold u32. apply Z.mod_small. lia. Qed.

(** A finite sweep over the bytes. *)
Definition bytes256 : list Z := map Z.of_nat (seq 0 256).
Lemma byte_sweep (P : Z -> bool) : forallb P bytes256 = true -> forall x, is_byte x -> P x = true.
Proof.
  intros H x X. rewrite forallb_forall in H. apply H. unfold bytes256. apply in_map_iff.
  exists (Z.to_nat x). split; [apply Z2Nat.id; red in X; lia|]. apply in_seq. red in X. lia.
Qed.

Lemma shl8 x : Z.shiftl x 8 = 256 * x.
Proof. rewrite Z.shiftl_mul_pow2 by lia. change (2 ^ 8) with 256. lia. Qed.
Lemma shl16 x : Z.shiftl x 16 = 65536 * x.
Proof. rewrite Z.shiftl_mul_pow2 by lia. change (2 ^ 16) with 65536. lia. Qed.
Lemma shr8 x : Z.shiftr x 8 = x / 256.
Proof. rewrite Z.shiftr_div_pow2 by lia. reflexivity. Qed.
Lemma shr16 x : Z.shiftr x 16 = x / 65536.
Proof. rewrite Z.shiftr_div_pow2 by lia. reflexivity. Qed.
Lemma shr3 x : Z.shiftr x 3 = x / 8.
Proof. rewrite Z.shiftr_div_pow2 by lia. reflexivity. Qed.
Lemma shr5 x : Z.shiftr x 5 = x / 32.
Proof. rewrite Z.shiftr_div_pow2 by lia. reflexivity. Qed.
Lemma shr11 x : Z.shiftr x 11 = x / 2048.
Proof. rewrite Z.shiftr_div_pow2 by lia. reflexivity. Qed.

(** ** HSV to RGB *)
Lemma attenuation_range n h : 0 <= attenuation n h <= 256.
Proof. unfold attenuation. lia. Qed.

Lemma channel_full n h s v : attenuation n h = 0 -> channel n h s v = v.
Proof. intro A. unfold channel. rewrite A. rewrite Z.mul_0_r, Z.sub_0_r, Z.mul_comm. apply Z.div_mul. lia. Qed.

Lemma channel_low n h s v : attenuation n h = 256 -> channel n h s v = (256 * v - v * s) / 256.
Proof.
  intro A. unfold channel. rewrite A. replace (65536 * v - v * s * 256) with ((256 * v - v * s) * 256) by lia.
  change 65536 with (256 * 256). rewrite Z.div_mul_cancel_r by lia. reflexivity.
Qed.

Lemma mul_bounds v s f m : 0 <= v < 256 -> 0 <= s < m -> 0 <= f <= 256 -> m <= 256 -> 0 <= v * s /\ v * s <= 255 * v /\ 0 <= v * s * f /\ v * s * f <= 65280 * v.
Proof. intros. assert (v * s <= v * 255) by nia. assert (0 <= v * s) by nia. split; [lia|]. split; [lia|]. split; nia. Qed.

Lemma channel_bounds n h s v : is_byte s -> is_byte v ->
  (256 * v - v * s) / 256 <= channel n h s v <= v.
Proof.
  unfold is_byte. intros S V. pose proof (attenuation_range n h) as A. unfold channel. set (a := attenuation n h) in *.
  destruct (mul_bounds v s a 256 V S A (Z.le_refl _)) as (P & Q & R & T).
  split.
  - apply Z.div_le_lower_bound; [lia|]. assert (v * s * a <= v * s * 256) by nia.
    pose proof (Z.mul_div_le (256 * v - v * s) 256 ltac:(lia)). nia.
  - apply Z.div_le_upper_bound; lia.
Qed.

(** The sector and the fraction the code derives from the hue, against the
    attenuations of the three channels: a sweep over the 256 hues. *)
Definition frac_of (h6 : Z) : Z :=
  let i := h6 / 256 in
  let f := u16 (256 * Z.lor i 1 - h6) in
  if Z.land i 1 =? 0 then f else u16 (- f).
Definition sector_ok (h : Z) : bool :=
  let h6 := 6 * h in
  let i := h6 / 256 in
  let f := frac_of h6 in
  let r := attenuation 5 h in
  let g := attenuation 3 h in
  let b := attenuation 1 h in
  ((0 <=? f) && (f <=? 256) &&
   (((i =? 0) && (r =? 0) && (g =? f) && (b =? 256)) ||
    ((i =? 1) && (r =? f) && (g =? 0) && (b =? 256)) ||
    ((i =? 2) && (r =? 256) && (g =? 0) && (b =? f)) ||
    ((i =? 3) && (r =? 256) && (g =? f) && (b =? 0)) ||
    ((i =? 4) && (r =? f) && (g =? 256) && (b =? 0)) ||
    ((i =? 5) && (r =? 0) && (g =? 256) && (b =? f))))%bool.
Lemma sectors h : is_byte h -> sector_ok h = true.
Proof. apply byte_sweep. vm_compute. reflexivity. Qed.

Lemma rgb_of_hsv_channels c : is_byte (hue c) -> is_byte (sat c) -> is_byte (val c) ->
  rgb_of_hsv 8 c = Rgb (channel 5 (hue c) (sat c) (val c)) (channel 3 (hue c) (sat c) (val c)) (channel 1 (hue c) (sat c) (val c)).
Proof.
  destruct c as [h s v]. cbn [hue sat val]. intros H S V. pose proof (sectors h H) as SE.
  unfold is_byte in H, S, V.
  assert (VS : 0 <= v * s /\ v * s <= 255 * v) by (split; nia).
  unfold rgb_of_hsv. cbn [hue sat val].
  rewrite (swrap_small 32 (v * s)) by (change (2 ^ (32 - 1)) with 2147483648; lia).
  rewrite (u16_small (v * s)) by lia. rewrite (u16_small (6 * h)) by lia.
  rewrite !shl8, !shr8, !shl16, !shr16. rewrite (wrap8_small v) by lia.
  assert (P : 0 <= (256 * v - v * s) / 256 < 256) by lia.
  rewrite (wrap8_small ((256 * v - v * s) / 256)) by exact P.
  rewrite (wrap8_small (6 * h / 256)) by lia.
  change (if Z.land (6 * h / 256) 1 =? 0 then u16 (256 * Z.lor (6 * h / 256) 1 - 6 * h) else u16 (- u16 (256 * Z.lor (6 * h / 256) 1 - 6 * h))) with (frac_of (6 * h)).
  rewrite (u32_small (65536 * v)) by lia.
  unfold sector_ok in SE. cbv zeta in SE. set (i := 6 * h / 256) in *. set (f := frac_of (6 * h)) in *.
  apply andb_prop in SE. destruct SE as [F SE]. apply andb_prop in F. destruct F as [F1 F2].
  revert SE. assert (F : 0 <= f <= 256) by lia. clear F1 F2. clearbody i f.
  destruct (mul_bounds v s f 256 V S F (Z.le_refl _)) as (A & B & C & D).
  rewrite (u32_small (v * s * f)) by lia. rewrite u32_small by lia. rewrite wrap8_small by lia.
  assert (FULL : forall n, attenuation n h =? 0 = true -> v = channel n h s v) by (intros; symmetry; apply channel_full; lia).
  assert (LOW : forall n, attenuation n h =? 256 = true -> (256 * v - v * s) / 256 = channel n h s v) by (intros; symmetry; apply channel_low; lia).
  assert (MID : forall n, attenuation n h =? f = true -> (65536 * v - v * s * f) / 65536 = channel n h s v).
  { intros n N. unfold channel. apply Z.eqb_eq in N. rewrite N. reflexivity. }
  intro SE. clear - SE FULL LOW MID.
  assert (SE' : forall a b c d, (a && b && c && d)%bool = true -> a = true /\ b = true /\ c = true /\ d = true) by (intros [] [] [] []; auto).
  assert (OR : forall a b, (a || b)%bool = true -> a = true \/ b = true) by (intros [] []; auto).
  repeat (apply OR in SE; destruct SE as [SE|SE]); apply SE' in SE; destruct SE as (I & R & G & Bl);
  apply Z.eqb_eq in I; rewrite I; cbn [Z.eqb Pos.eqb]; f_equal; first [apply FULL; assumption | apply LOW; assumption | apply MID; assumption].
Qed.

Lemma channel_max h s v : is_byte h -> is_byte s -> is_byte v ->
  max3 (channel 5 h s v) (channel 3 h s v) (channel 1 h s v) = v.
Proof.
  intros H S V. pose proof (channel_bounds 5 h s v S V). pose proof (channel_bounds 3 h s v S V). pose proof (channel_bounds 1 h s v S V).
  assert (A : attenuation 5 h = 0 \/ attenuation 3 h = 0 \/ attenuation 1 h = 0) by (pose proof (sectors h H) as SE; unfold sector_ok in SE; cbv zeta in SE; destruct (attenuation 5 h =? 0) eqn:E5; destruct (attenuation 3 h =? 0) eqn:E3; destruct (attenuation 1 h =? 0) eqn:E1; try lia; exfalso; clear - SE; rewrite ?andb_false_r, ?andb_false_l in SE; discriminate SE).
  unfold max3. destruct A as [A|[A|A]]; apply (channel_full _ _ s v) in A; lia.
Qed.

Lemma channel_min h s v : is_byte h -> is_byte s -> is_byte v ->
  min3 (channel 5 h s v) (channel 3 h s v) (channel 1 h s v) = (256 * v - v * s) / 256.
Proof.
  intros H S V. pose proof (channel_bounds 5 h s v S V). pose proof (channel_bounds 3 h s v S V). pose proof (channel_bounds 1 h s v S V).
  assert (A : attenuation 5 h = 256 \/ attenuation 3 h = 256 \/ attenuation 1 h = 256) by (pose proof (sectors h H) as SE; unfold sector_ok in SE; cbv zeta in SE; destruct (attenuation 5 h =? 256) eqn:E5; destruct (attenuation 3 h =? 256) eqn:E3; destruct (attenuation 1 h =? 256) eqn:E1; try lia; exfalso; clear - SE; rewrite ?andb_false_r, ?andb_false_l in SE; discriminate SE).
  unfold min3. destruct A as [A|[A|A]]; apply (channel_low _ _ s v) in A; lia.
Qed.

Lemma grey_iff s v : is_byte s -> is_byte v -> ((256 * v - v * s) / 256 = v <-> v * s = 0).
Proof. unfold is_byte. intros S V. assert (0 <= v * s) by nia. split; lia. Qed.

Lemma channel_accuracy n h s v : is_byte s -> is_byte v ->
  - 65280 < 65280 * channel n h s v - (65280 * v - v * s * attenuation n h) < 65280.
Proof.
  unfold is_byte. intros S V. pose proof (attenuation_range n h) as A. unfold channel. set (a := attenuation n h) in *.
  destruct (mul_bounds v s a 256 V S A (Z.le_refl _)) as (P & Q & R & T). set (q := v * s * a) in *. clearbody q. lia.
Qed.

Lemma hsv16_black c T : T = 8 \/ T = 16 -> is_word (hue c) ->
  1536 <= (6 * hue c) mod 65536 -> rgb_of_hsv T c = Rgb 0 0 0.
Proof.
  intros TT H X. unfold rgb_of_hsv. cbv zeta.
  set (i := wrap T (Z.shiftr (u16 (6 * hue c)) 8)).
  assert (I : 6 <= i).
  { unfold i, wrap. rewrite shr8. unfold u16. destruct TT as [-> | ->]; [change (2 ^ 8) with 256|change (2 ^ 16) with 65536]; lia. }
  clearbody i.
  repeat match goal with |- context [i =? ?k] => replace (i =? k) with false by lia end. reflexivity.
Qed.

(** ** RGB565 *)
Lemma land248 x : is_byte x -> Z.land x 248 = 8 * (x / 8).
Proof. intro H. apply Z.eqb_eq. exact (byte_sweep (fun x => Z.land x 248 =? 8 * (x / 8)) eq_refl x H). Qed.
Lemma land252 x : is_byte x -> Z.land x 252 = 4 * (x / 4).
Proof. intro H. apply Z.eqb_eq. exact (byte_sweep (fun x => Z.land x 252 =? 4 * (x / 4)) eq_refl x H). Qed.
Lemma land252_mod x : Z.land x 252 = 4 * (x mod 256 / 4).
Proof.
  rewrite <- land252 by (red; lia). rewrite <- (land_FF x). rewrite <- Z.land_assoc. reflexivity.
Qed.
Lemma land63 x : Z.land x 63 = x mod 64.
Proof. apply (land_ones_mod x 6). lia. Qed.
Lemma land31 x : Z.land x 31 = x mod 32.
Proof. apply (land_ones_mod x 5). lia. Qed.

Lemma pack565 r g b : 0 <= r < 32 -> 0 <= g < 64 -> 0 <= b < 32 ->
  u16 (Z.lor (Z.lor (r * 2048) (g * 32)) b) = r * 2048 + g * 32 + b.
Proof.
  intros R G B.
  change 2048 with (2 ^ 11) in *. rewrite (add_disj r (g * 32) 11) by (change (2 ^ 11) with 2048; lia).
  change (2 ^ 11) with 2048. replace (r * 2048 + g * 32) with ((r * 64 + g) * 2 ^ 5) by (change (2 ^ 5) with 32; lia).
  rewrite (add_disj (r * 64 + g) b 5) by (change (2 ^ 5) with 32; lia). change (2 ^ 5) with 32. apply u16_small. lia.
Qed.

Lemma rgb565_eq r g b : is_byte r -> is_byte g -> is_byte b ->
  rgb565 r g b = r / 8 * 2048 + g / 4 * 32 + b / 8.
Proof.
  intros R G B. unfold rgb565. rewrite land248, land252 by assumption. red in R, G, B. rewrite shr3.
  rewrite (u16_small (8 * (r / 8))), (u16_small (4 * (g / 4))), (u16_small (b / 8)) by lia.
  rewrite shl8. rewrite Z.shiftl_mul_pow2 by lia. change (2 ^ 3) with 8.
  replace (256 * (8 * (r / 8))) with (r / 8 * 2048) by lia. replace (4 * (g / 4) * 8) with (g / 4 * 32) by lia.
  apply pack565; lia.
Qed.

Lemma rgb_of_565_eq c : is_word c ->
  rgb_of_565 8 c = Rgb (8 * red5 c) (4 * green6 c) (8 * blue5 c).
Proof.
  unfold is_word. intro C. unfold rgb_of_565, red5, green6, blue5. rewrite shr8, shr3. rewrite land248 by (red; lia).
  rewrite land252_mod. rewrite Z.shiftl_mul_pow2 by lia. change (2 ^ 3) with 8.
  rewrite (wrap8_small (8 * (c / 256 / 8))) by lia. rewrite (wrap8_small (4 * _)) by lia. unfold wrap. change (2 ^ 8) with 256.
  f_equal; lia.
Qed.

Lemma clamp8_eq x lo hi : lo <= hi -> clamp8 x lo hi = Z.max lo (Z.min x hi).
Proof. intro. unfold clamp8. destruct (x <? lo) eqn:A; [lia|]. destruct (hi <? x) eqn:B; lia. Qed.

Lemma swrap8_small x : -128 <= x < 128 -> swrap 8 x = x.
Proof. intro. apply swrap_small; [change (2 ^ (8 - 1)) with 128|]; lia. Qed.

Lemma add565_eq a b : is_word a -> is_word b ->
  add565 a b = Z.min 31 (red5 a + red5 b) * 2048 + Z.min 63 (green6 a + green6 b) * 32 + Z.min 31 (blue5 a + blue5 b).
Proof.
  unfold is_word. intros A B. unfold add565, red5, green6, blue5. rewrite !shr11, !shr5, !land63, !land31.
  assert (0 <= a / 2048 < 32) by lia. assert (0 <= b / 2048 < 32) by lia.
  assert (0 <= a / 32 mod 64 < 64) by lia. assert (0 <= b / 32 mod 64 < 64) by lia.
  assert (0 <= a mod 32 < 32) by lia. assert (0 <= b mod 32 < 32) by lia.
  set (ra := a / 2048) in *. set (rb := b / 2048) in *. set (ga := a / 32 mod 64) in *. set (gb := b / 32 mod 64) in *.
  set (ba := a mod 32) in *. set (bb := b mod 32) in *. clearbody ra rb ga gb ba bb.
  rewrite !swrap8_small by lia. rewrite !clamp8_eq by lia. rewrite !Z.shiftl_mul_pow2 by lia.
  change (2 ^ 11) with 2048. change (2 ^ 5) with 32.
  rewrite !(u16_small (Z.max _ _ * _)) by lia. rewrite (u16_small (Z.max _ _)) by lia.
  rewrite pack565 by lia. lia.
Qed.

Lemma sub565_eq a b : is_word a -> is_word b ->
  sub565 a b = Z.max 0 (red5 a - red5 b) * 2048 + Z.max 0 (green6 a - green6 b) * 32 + Z.max 0 (blue5 a - blue5 b).
Proof.
  unfold is_word. intros A B. unfold sub565, red5, green6, blue5. rewrite !shr11, !shr5, !land63, !land31.
  assert (0 <= a / 2048 < 32) by lia. assert (0 <= b / 2048 < 32) by lia.
  assert (0 <= a / 32 mod 64 < 64) by lia. assert (0 <= b / 32 mod 64 < 64) by lia.
  assert (0 <= a mod 32 < 32) by lia. assert (0 <= b mod 32 < 32) by lia.
  set (ra := a / 2048) in *. set (rb := b / 2048) in *. set (ga := a / 32 mod 64) in *. set (gb := b / 32 mod 64) in *.
  set (ba := a mod 32) in *. set (bb := b mod 32) in *. clearbody ra rb ga gb ba bb.
  rewrite !swrap8_small by lia. rewrite !clamp8_eq by lia. rewrite !Z.shiftl_mul_pow2 by lia.
  change (2 ^ 11) with 2048. change (2 ^ 5) with 32.
  rewrite !(u16_small (Z.max _ _ * _)) by lia. rewrite (u16_small (Z.max _ _)) by lia.
  rewrite pack565 by lia. lia.
Qed.

(** ** RGB to HSV *)
Definition nonneg (x : spec_float) : Prop :=
  match x with S754_zero _ => True | S754_finite false _ _ => True | _ => False end.
Definition sflt (a b : spec_float) : Prop := SFcompare a b = Some Lt.

Lemma sflt_trans a b c : nonneg a -> nonneg b -> nonneg c -> sflt a b -> sflt b c -> sflt a c.
Proof.
  unfold sflt. destruct a as [|  | |[] ma ea]; try contradiction; destruct b as [| | |[] mb eb]; try contradiction; destruct c as [| | |[] mc ec]; try contradiction; intros _ _ _; cbn [SFcompare]; try discriminate; try reflexivity.
  intros A B. destruct (ea ?= eb) eqn:E1; try discriminate; destruct (eb ?= ec) eqn:E2; try discriminate.
  - apply Z.compare_eq in E1, E2. subst. rewrite Z.compare_refl. f_equal.
    assert (A' : Pos.compare_cont Eq ma mb = Lt) by congruence. assert (B' : Pos.compare_cont Eq mb mc = Lt) by congruence.
    change (Pos.compare ma mb = Lt) in A'. change (Pos.compare mb mc = Lt) in B'. change (Pos.compare ma mc = Lt).
    rewrite Pos.compare_lt_iff in *. lia.
  - apply Z.compare_eq in E1. subst. rewrite E2. reflexivity.
  - apply Z.compare_eq in E2. subst. rewrite E1. reflexivity.
  - rewrite Z.compare_lt_iff in *. replace (ea ?= ec) with Lt; [reflexivity|]. symmetry. apply Z.compare_lt_iff. lia.
Qed.

Definition nonneg_b (x : spec_float) : bool :=
  match x with S754_zero _ => true | S754_finite false _ _ => true | _ => false end.
Definition lt_b (a b : spec_float) : bool := match SFcompare a b with Some Lt => true | _ => false end.
Definition gt_b (a b : spec_float) : bool := match SFcompare a b with Some Gt => true | _ => false end.

Lemma norm_step x : is_byte x -> nonneg (norm x) /\ (x < 255 -> sflt (norm x) (norm (x + 1))).
Proof.
  intro H.
  assert (E : (nonneg_b (norm x) && (negb (x <? 255) || lt_b (norm x) (norm (x + 1))))%bool = true).
  { revert x H. apply byte_sweep. vm_compute. reflexivity. }
  apply andb_prop in E. destruct E as [E1 E2]. split.
  - destruct (norm x) as [| | |[] m e]; try discriminate E1; exact I.
  - intro L. replace (x <? 255) with true in E2 by lia. cbn [negb orb] in E2. unfold lt_b in E2. unfold sflt.
    destruct (SFcompare (norm x) (norm (x + 1))) as [[]|]; try discriminate; reflexivity.
Qed.

Lemma norm_lt x y : 0 <= x -> x < y -> y < 256 -> sflt (norm x) (norm y).
Proof.
  intros X L Y. replace y with (x + 1 + Z.of_nat (Z.to_nat (y - x - 1))) in * by lia.
  remember (Z.to_nat (y - x - 1)) as n eqn:E. clear E y L. induction n as [|n IH].
  - rewrite Z.add_0_r. apply norm_step; [red|]; lia.
  - apply (sflt_trans _ (norm (x + 1 + Z.of_nat n))).
    + apply norm_step. red. lia.
    + apply norm_step. red. lia.
    + apply norm_step. red. lia.
    + apply IH. lia.
    + replace (x + 1 + Z.of_nat (Datatypes.S n)) with (x + 1 + Z.of_nat n + 1) by lia. apply norm_step; [red|]; lia.
Qed.

Lemma sflt_gt a b : nonneg a -> nonneg b -> sflt a b -> SFcompare b a = Some Gt.
Proof.
  unfold sflt. destruct a as [|  | |[] ma ea]; try contradiction; destruct b as [| | |[] mb eb]; try contradiction; intros _ _; cbn [SFcompare]; try discriminate; try reflexivity.
  intro A. rewrite (Z.compare_antisym ea eb). destruct (ea ?= eb) eqn:E1; try discriminate; cbn [CompOpp]; [|reflexivity].
  f_equal. assert (A' : Pos.compare ma mb = Lt) by (unfold Pos.compare; congruence).
  change (Pos.compare mb ma = Gt). rewrite Pos.compare_antisym, A'. reflexivity.
Qed.
Lemma sf_refl a : nonneg a -> SFcompare a a = Some Eq.
Proof.
  destruct a as [| | |[] m e]; try contradiction; intros _; cbn [SFcompare]; [reflexivity|].
  rewrite Z.compare_refl. f_equal. change (Pos.compare m m = Eq). apply Pos.compare_refl.
Qed.

Lemma norm_nonneg x : is_byte x -> nonneg (norm x).
Proof. intro H. apply norm_step. exact H. Qed.

Lemma norm_compare x y : is_byte x -> is_byte y -> SFcompare (norm x) (norm y) = Some (x ?= y).
Proof.
  intros X Y. destruct (Z.compare_spec x y) as [E|E|E].
  - subst. apply sf_refl. apply norm_nonneg. exact X.
  - apply norm_lt; red in X, Y; lia.
  - apply sflt_gt; [apply norm_nonneg; exact Y|apply norm_nonneg; exact X|]. apply norm_lt; red in X, Y; lia.
Qed.
Lemma norm_ltb x y : is_byte x -> is_byte y -> SFltb (norm x) (norm y) = (x <? y).
Proof. intros X Y. unfold SFltb. rewrite norm_compare by assumption. unfold Z.ltb. destruct (x ?= y); reflexivity. Qed.
Lemma norm_eqb x y : is_byte x -> is_byte y -> SFeqb (norm x) (norm y) = (x =? y).
Proof. intros X Y. unfold SFeqb. rewrite norm_compare by assumption. rewrite Z.eqb_compare. destruct (x ?= y); reflexivity. Qed.
Lemma fmax_norm x y : is_byte x -> is_byte y -> fmax (norm x) (norm y) = norm (Z.max x y).
Proof. intros X Y. unfold fmax. rewrite norm_ltb by assumption. destruct (x <? y) eqn:E; f_equal; lia. Qed.
Lemma fmin_norm x y : is_byte x -> is_byte y -> fmin (norm x) (norm y) = norm (Z.min x y).
Proof. intros X Y. unfold fmin. rewrite norm_ltb by assumption. destruct (y <? x) eqn:E; f_equal; lia. Qed.

Lemma grey_value x : is_byte x -> trunc8 (fmul (norm x) (fz 255)) = Some x.
Proof.
  intro H. assert (E : (match trunc8 (fmul (norm x) (fz 255)) with Some y => y =? x | None => false end) = true).
  { revert x H. apply byte_sweep. vm_compute. reflexivity. }
  destruct (trunc8 _); [|discriminate]. f_equal. lia.
Qed.

Lemma grey_sat x : is_byte x -> SFeqb (norm x) (fz 0) = (x =? 0) /\ trunc8 (fmul (fdiv (fsub (norm x) (norm x)) (norm x)) (fz 255)) = (if x =? 0 then None else Some 0).
Proof.
  intro H. assert (E : (Bool.eqb (SFeqb (norm x) (fz 0)) (x =? 0) &&
    match trunc8 (fmul (fdiv (fsub (norm x) (norm x)) (norm x)) (fz 255)) with Some y => negb (x =? 0) && (y =? 0) | None => x =? 0 end)%bool = true).
  { revert x H. apply byte_sweep. vm_compute. reflexivity. }
  apply andb_prop in E. destruct E as [E1 E2]. apply Bool.eqb_prop in E1. split; [exact E1|].
  destruct (trunc8 _); destruct (x =? 0); try discriminate; [|reflexivity]. f_equal. cbn [negb andb] in E2. lia.
Qed.

Lemma full_sat x : is_byte x -> 0 < x -> trunc8 (fmul (fdiv (fsub (norm x) (norm 0)) (norm x)) (fz 255)) = Some 255.
Proof.
  intros H L. assert (E : (negb (0 <? x) || match trunc8 (fmul (fdiv (fsub (norm x) (norm 0)) (norm x)) (fz 255)) with Some y => y =? 255 | None => false end)%bool = true).
  { revert x H L. assert (forall x, is_byte x -> (negb (0 <? x) || match trunc8 (fmul (fdiv (fsub (norm x) (norm 0)) (norm x)) (fz 255)) with Some y => y =? 255 | None => false end)%bool = true) by (apply byte_sweep; vm_compute; reflexivity). auto. }
  replace (0 <? x) with true in E by lia. cbn [negb orb] in E. destruct (trunc8 _); [|discriminate]. f_equal. lia.
Qed.

Lemma max_byte x y : is_byte x -> is_byte y -> is_byte (Z.max x y).
Proof. unfold is_byte. lia. Qed.
Lemma min_byte x y : is_byte x -> is_byte y -> is_byte (Z.min x y).
Proof. unfold is_byte. lia. Qed.

Lemma hsv_value c h : is_byte (red c) -> is_byte (green c) -> is_byte (blue c) ->
  hsv_of_rgb c = Some h -> val h = max3 (red c) (green c) (blue c).
Proof.
  destruct c as [r g b]. cbn [red green blue]. intros R G B. unfold hsv_of_rgb. cbn [red green blue].
  rewrite (fmax_norm g b), (fmin_norm g b), fmax_norm, fmin_norm by auto using max_byte, min_byte.
  rewrite !norm_eqb by auto using max_byte, min_byte.
  assert (M : is_byte (Z.max r (Z.max g b))) by auto using max_byte. unfold max3.
  set (mx := Z.max r (Z.max g b)) in *. set (mn := Z.min r (Z.min g b)) in *.
  rewrite (grey_value mx M).
  destruct (mx =? mn) eqn:E1; [|destruct (mx =? r) eqn:E2; [|destruct (mx =? g) eqn:E3]];
  cbn [obind]; intro H;
  repeat match type of H with (do x <- ?e; _) = Some _ => destruct e as [?|]; [cbn [obind] in H|discriminate H] end;
  apply (f_equal (option_map val)) in H; cbn [option_map val] in H; injection H as H; unfold mx, mn in *; lia.
Qed.

Lemma hsv_saturated c h : is_byte (red c) -> is_byte (green c) -> is_byte (blue c) ->
  min3 (red c) (green c) (blue c) = 0 -> 0 < max3 (red c) (green c) (blue c) ->
  hsv_of_rgb c = Some h -> sat h = 255.
Proof.
  destruct c as [r g b]. cbn [red green blue]. intros R G B. unfold hsv_of_rgb. cbn [red green blue].
  rewrite (fmax_norm g b), (fmin_norm g b), fmax_norm, fmin_norm by auto using max_byte, min_byte.
  assert (M : is_byte (Z.max r (Z.max g b))) by auto using max_byte. unfold max3, min3.
  set (mx := Z.max r (Z.max g b)) in *. intros MN MX. rewrite MN.
  destruct (grey_sat mx M) as [Z _]. rewrite Z. replace (mx =? 0) with false by lia. rewrite (full_sat mx M MX).
  match goal with |- (let '(_, _) := ?e in _) = _ -> _ => destruct e as [ht v] end.
  intro H.
  repeat match type of H with (do x <- ?e; _) = Some _ => destruct e as [?|]; [cbn [obind] in H|discriminate H] end.
  cbn [obind] in H. injection H as H. subst h. reflexivity.
Qed.

Lemma hsv_grey x : is_byte x -> hsv_of_rgb (Rgb x x x) = Some (Hsv 0 0 x).
Proof.
  intro H. unfold hsv_of_rgb. cbn [red green blue].
  rewrite !fmax_norm, !fmin_norm by auto using max_byte, min_byte.
  rewrite !Z.max_id, !Z.min_id. rewrite norm_eqb by assumption. rewrite Z.eqb_refl.
  rewrite grey_value by assumption. destruct (grey_sat x H) as [A B]. rewrite A, B.
  replace (trunc8 (fmul (fz 0) (fdiv (fz 255) (fz 360)))) with (Some 0) by (vm_compute; reflexivity).
  replace (SFltb (fz 0) (fz 0)) with false by (vm_compute; reflexivity).
  destruct (x =? 0); reflexivity.
Qed.
