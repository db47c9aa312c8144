(** C59 — colour conversions. *)
From Coq Require Import ZArith List Bool Lia.
From Verif Require Import Base ColorModel ColorSpec ColorProofs.
Open Scope Z_scope.

(** Every 8 bit HSV colour becomes the RGB colour of the closed HSV formula,
    each channel rounded down: no intermediate of the code wraps. *)
Theorem C59_hsv_to_rgb h s v : is_byte h -> is_byte s -> is_byte v ->
  rgb_of_hsv 8 (Hsv h s v) = Rgb (channel 5 h s v) (channel 3 h s v) (channel 1 h s v).
Proof. intros H S V. exact (rgb_of_hsv_channels (Hsv h s v) H S V). Qed.
Example C59_hsv_to_rgb_case : is_byte 214 /\ is_byte 123 /\ is_byte 218 /\
  rgb_of_hsv 8 (Hsv 214 123 218) = Rgb 218 113 216 /\ channel 3 214 123 218 = 113.
Proof. unfold is_byte. split; [lia|]. split; [lia|]. split; [lia|]. split; vm_compute; reflexivity. Qed.

(** The largest channel is the HSV value, the smallest v(1 - s/256), and every
    channel is a byte. *)
Theorem C59_hsv_gamut h s v : is_byte h -> is_byte s -> is_byte v ->
  let c := rgb_of_hsv 8 (Hsv h s v) in
  max3 (red c) (green c) (blue c) = v /\
  min3 (red c) (green c) (blue c) = v * (256 - s) / 256 /\
  is_byte (red c) /\ is_byte (green c) /\ is_byte (blue c).
Proof.
  intros H S V c. unfold c. rewrite C59_hsv_to_rgb by assumption. cbn [red green blue].
  pose proof (channel_max h s v H S V) as M. pose proof (channel_min h s v H S V) as N.
  replace (v * (256 - s)) with (256 * v - v * s) by lia.
  split; [exact M|]. split; [exact N|].
  pose proof (channel_bounds 5 h s v S V). pose proof (channel_bounds 3 h s v S V). pose proof (channel_bounds 1 h s v S V).
  assert (0 <= (256 * v - v * s) / 256) by (apply Z.div_pos; [red in S, V; nia|lia]).
  unfold is_byte in *. lia.
Qed.
Example C59_hsv_gamut_case : is_byte 60 /\ is_byte 200 /\ is_byte 90 /\
  rgb_of_hsv 8 (Hsv 60 200 90) = Rgb 61 90 19.
Proof. unfold is_byte. split; [lia|]. split; [lia|]. split; [lia|]. vm_compute. reflexivity. Qed.

(** The result is grey exactly when the value or the saturation is zero. *)
Theorem C59_hsv_grey h s v : is_byte h -> is_byte s -> is_byte v ->
  let c := rgb_of_hsv 8 (Hsv h s v) in
  red c = green c /\ green c = blue c <-> v = 0 \/ s = 0.
Proof.
  intros H S V c. destruct (C59_hsv_gamut h s v H S V) as (M & N & _). fold c in M, N.
  replace (v * (256 - s)) with (256 * v - v * s) in N by lia.
  pose proof (grey_iff s v S V) as G. unfold max3, min3 in M, N.
  assert (Z0 : v * s = 0 <-> v = 0 \/ s = 0) by (split; [apply Z.mul_eq_0|intros [-> | ->]; lia]).
  rewrite <- Z0, <- G. split; intro E; lia.
Qed.
Example C59_hsv_grey_case :
  rgb_of_hsv 8 (Hsv 77 0 200) = Rgb 200 200 200 /\ rgb_of_hsv 8 (Hsv 77 1 200) = Rgb 199 200 199.
Proof. split; vm_compute; reflexivity. Qed.

(** Against the definition with saturation s/255 every channel is off by less
    than one. *)
Theorem C59_hsv_accuracy h s v n : is_byte h -> is_byte s -> is_byte v -> n = 5 \/ n = 3 \/ n = 1 ->
  let c := rgb_of_hsv 8 (Hsv h s v) in
  let x := if n =? 5 then red c else if n =? 3 then green c else blue c in
  - (255 * 256) < 255 * 256 * x - (255 * 256 * v - v * s * attenuation n h) < 255 * 256.
Proof.
  intros H S V N c x. unfold x, c. rewrite C59_hsv_to_rgb by assumption. cbn [red green blue].
  pose proof (channel_accuracy n h s v S V) as A.
  destruct N as [-> |[-> | ->]]; cbn [Z.eqb Pos.eqb]; lia.
Qed.
Example C59_hsv_accuracy_case :
  attenuation 1 60 = 256 /\ 255 * 256 * 90 - 90 * 200 * 256 = 65280 * 19 + 26880 /\ blue (rgb_of_hsv 8 (Hsv 60 200 90)) = 19.
Proof. split; [|split]; vm_compute; reflexivity. Qed.

(** Rgb565 from an HSV colour carries the top bits of those channels. *)
Theorem C59_hsv_to_565 h s v : is_byte h -> is_byte s -> is_byte v ->
  let c := rgb565_of_hsv (Hsv h s v) in
  red5 c = channel 5 h s v / 8 /\ green6 c = channel 3 h s v / 4 /\ blue5 c = channel 1 h s v / 8.
Proof.
  intros H S V c. unfold c, rgb565_of_hsv, rgb565_of_rgb. rewrite C59_hsv_to_rgb by assumption. cbn [red green blue].
  destruct (C59_hsv_gamut h s v H S V) as (_ & _ & R & G & B). rewrite C59_hsv_to_rgb in R, G, B by assumption. cbn [red green blue] in R, G, B.
  rewrite !u8_small by assumption. rewrite rgb565_eq by assumption. unfold is_byte, red5, green6, blue5 in *. lia.
Qed.
Example C59_hsv_to_565_case : rgb565_of_hsv (Hsv 60 200 90) = 15042 /\ 15042 = 7 * 2048 + 22 * 32 + 2.
Proof. split; vm_compute; reflexivity. Qed.

(** The 16 bit instantiation is not usable: every hue whose sixfold is not below
    1536 modulo 65536 gives black, whatever value and saturation are ... *)
Theorem C59_hsv16_black h s v T : T = 8 \/ T = 16 -> is_word h ->
  1536 <= (6 * h) mod 65536 -> rgb_of_hsv T (Hsv h s v) = Rgb 0 0 0.
Proof. intros TT H X. exact (hsv16_black (Hsv h s v) T TT H X). Qed.
Example C59_hsv16_black_case : is_word 16384 /\ 1536 <= (6 * 16384) mod 65536 /\ rgb_of_hsv 16 (Hsv 16384 0 65535) = Rgb 0 0 0.
Proof. unfold is_word. split; [lia|]. split; [lia|]. vm_compute. reflexivity. Qed.

(** ... so that the maximum is not the value there. *)
Theorem C59_hsv16_refuted : exists h s v, is_word h /\ is_word s /\ is_word v /\
  let c := rgb_of_hsv 16 (Hsv h s v) in max3 (red c) (green c) (blue c) <> v.
Proof. exists 16384, 0, 65535. unfold is_word. split; [lia|]. split; [lia|]. split; [lia|]. vm_compute. discriminate. Qed.

(** ** RGB565 *)
(** Packing keeps the top five, six and five bits of the channels, in the layout
    RRRRRGGG GGGBBBBB. *)
Theorem C59_565_pack r g b : is_byte r -> is_byte g -> is_byte b ->
  let c := rgb565_of_rgb (Rgb r g b) in
  is_word c /\ red5 c = r / 8 /\ green6 c = g / 4 /\ blue5 c = b / 8.
Proof.
  intros R G B c. unfold c, rgb565_of_rgb. cbn [red green blue]. rewrite !u8_small by assumption.
  rewrite rgb565_eq by assumption. unfold is_byte, is_word, red5, green6, blue5 in *. lia.
Qed.
Example C59_565_pack_case : is_byte 218 /\ is_byte 112 /\ is_byte 214 /\ rgb565_of_rgb (Rgb 218 112 214) = 56218.
Proof. unfold is_byte. split; [lia|]. split; [lia|]. split; [lia|]. vm_compute. reflexivity. Qed.

(** Unpacking to 8 bit channels and packing again is the identity. *)
Theorem C59_565_round_trip c : is_word c -> rgb565_of_rgb (rgb_of_565 8 c) = c.
Proof.
  intro C. rewrite rgb_of_565_eq by assumption. unfold rgb565_of_rgb. cbn [red green blue].
  unfold is_word in C. assert (0 <= red5 c < 32) by (unfold red5; lia). assert (0 <= green6 c < 64) by (unfold green6; lia). assert (0 <= blue5 c < 32) by (unfold blue5; lia).
  rewrite !u8_small by lia. rewrite rgb565_eq by (red; lia). unfold red5, green6, blue5 in *. lia.
Qed.
Example C59_565_round_trip_case : is_word 56218 /\ rgb_of_565 8 56218 = Rgb 216 112 208.
Proof. unfold is_word. split; [lia|]. vm_compute. reflexivity. Qed.

(** Packing and unpacking loses less than one quantisation step, downwards. *)
Theorem C59_565_quantisation r g b : is_byte r -> is_byte g -> is_byte b ->
  let c := rgb_of_565 8 (rgb565_of_rgb (Rgb r g b)) in
  0 <= r - red c < 8 /\ 0 <= g - green c < 4 /\ 0 <= b - blue c < 8.
Proof.
  intros R G B c. destruct (C59_565_pack r g b R G B) as (W & X & Y & Z). unfold c. rewrite rgb_of_565_eq by exact W.
  cbn [red green blue]. rewrite X, Y, Z. unfold is_byte in *. lia.
Qed.
Example C59_565_quantisation_case : is_byte 255 /\ rgb_of_565 8 (rgb565_of_rgb (Rgb 255 255 255)) = Rgb 248 252 248.
Proof. unfold is_byte. split; [lia|]. vm_compute. reflexivity. Qed.

(** The 16 bit colours lose their scale: a widened white packs to black, and
    the blue of a 16 bit colour unpacked from RGB565 contains foreign bits. *)
Theorem C59_565_wide_refuted :
  (exists r g b, is_byte r /\ is_byte g /\ is_byte b /\
     rgb565_of_rgb (rgb_widen (Rgb r g b)) <> rgb565_of_rgb (Rgb r g b)) /\
  (exists c, is_word c /\ blue5 c = 0 /\ blue (rgb_of_565 16 c) <> 0).
Proof.
  unfold is_byte, is_word. split.
  - exists 255, 255, 255. split; [lia|]. split; [lia|]. split; [lia|]. vm_compute. discriminate.
  - exists 32. split; [lia|]. split; [reflexivity|]. vm_compute. discriminate.
Qed.

(** operator+ adds every channel on its own and saturates it. *)
Theorem C59_565_add a b : is_word a -> is_word b ->
  let c := add565 a b in
  is_word c /\ red5 c = Z.min 31 (red5 a + red5 b) /\
  green6 c = Z.min 63 (green6 a + green6 b) /\ blue5 c = Z.min 31 (blue5 a + blue5 b).
Proof.
  intros A B c. unfold c. rewrite add565_eq by assumption. unfold is_word in *.
  assert (0 <= red5 a < 32) by (unfold red5; lia). assert (0 <= green6 a < 64) by (unfold green6; lia). assert (0 <= blue5 a < 32) by (unfold blue5; lia).
  assert (0 <= red5 b < 32) by (unfold red5; lia). assert (0 <= green6 b < 64) by (unfold green6; lia). assert (0 <= blue5 b < 32) by (unfold blue5; lia).
  set (r := Z.min 31 _). set (g := Z.min 63 _). set (bl := Z.min 31 (blue5 a + blue5 b)).
  assert (0 <= r < 32) by (unfold r; lia). assert (0 <= g < 64) by (unfold g; lia). assert (0 <= bl < 32) by (unfold bl; lia).
  clearbody r g bl. unfold red5, green6, blue5. lia.
Qed.
Example C59_565_add_case : is_word 56218 /\ is_word 32799 /\ red5 56218 + red5 32799 = 43 /\
  add565 56218 32799 = 31 * 2048 + 28 * 32 + 31.
Proof. unfold is_word. split; [lia|]. split; [lia|]. split; vm_compute; reflexivity. Qed.

(** operator- subtracts every channel on its own and stops at zero. *)
Theorem C59_565_sub a b : is_word a -> is_word b ->
  let c := sub565 a b in
  is_word c /\ red5 c = Z.max 0 (red5 a - red5 b) /\
  green6 c = Z.max 0 (green6 a - green6 b) /\ blue5 c = Z.max 0 (blue5 a - blue5 b).
Proof.
  intros A B c. unfold c. rewrite sub565_eq by assumption. unfold is_word in *.
  assert (0 <= red5 a < 32) by (unfold red5; lia). assert (0 <= green6 a < 64) by (unfold green6; lia). assert (0 <= blue5 a < 32) by (unfold blue5; lia).
  assert (0 <= red5 b < 32) by (unfold red5; lia). assert (0 <= green6 b < 64) by (unfold green6; lia). assert (0 <= blue5 b < 32) by (unfold blue5; lia).
  set (r := Z.max 0 (red5 a - red5 b)). set (g := Z.max 0 (green6 a - green6 b)). set (bl := Z.max 0 (blue5 a - blue5 b)).
  assert (0 <= r < 32) by (unfold r; lia). assert (0 <= g < 64) by (unfold g; lia). assert (0 <= bl < 32) by (unfold bl; lia).
  clearbody r g bl. unfold red5, green6, blue5. lia.
Qed.
Example C59_565_sub_case : is_word 56218 /\ sub565 56218 32799 = 23424.
Proof. unfold is_word. split; [lia|]. vm_compute. reflexivity. Qed.

(** ** Widths *)
(** Widening to 16 bits and narrowing again is the identity. *)
Theorem C59_widen_narrow a b c : is_byte a -> is_byte b -> is_byte c ->
  rgb_narrow (rgb_widen (Rgb a b c)) = Rgb a b c /\ hsv_narrow (hsv_widen (Hsv a b c)) = Hsv a b c.
Proof.
  unfold is_byte. intros A B C.
  assert (K : forall x, 0 <= x < 256 -> u8 (Z.shiftr (u16 (Z.shiftl x 8)) 8) = x).
  { intros x X. rewrite shl8, shr8. unfold u8, u16. lia. }
  unfold rgb_narrow, rgb_widen, hsv_narrow, hsv_widen. cbn [red green blue hue sat val]. rewrite !K by lia. split; reflexivity.
Qed.
Example C59_widen_narrow_case : is_byte 218 /\ rgb_widen (Rgb 218 112 214) = Rgb 55808 28672 54784.
Proof. unfold is_byte. split; [lia|]. vm_compute. reflexivity. Qed.

(** ** RGB to HSV, in single precision *)
(** The value is the largest channel, for every colour that is converted
    without a float to integer overflow.  Missing: that no colour overflows, and
    the accuracy of the hue. *)
Theorem C59_hsv_value_partial r g b h : is_byte r -> is_byte g -> is_byte b ->
  hsv_of_rgb (Rgb r g b) = Some h -> val h = max3 r g b.
Proof. intros R G B H. exact (hsv_value (Rgb r g b) h R G B H). Qed.
Example C59_hsv_value_partial_case : hsv_of_rgb (Rgb 124 128 10) = Some (Hsv 43 235 128).
Proof. vm_compute. reflexivity. Qed.

(** A colour with a zero channel that is not black is fully saturated. *)
Theorem C59_hsv_saturated_partial r g b h : is_byte r -> is_byte g -> is_byte b ->
  min3 r g b = 0 -> 0 < max3 r g b -> hsv_of_rgb (Rgb r g b) = Some h -> sat h = 255.
Proof. intros R G B M N H. exact (hsv_saturated (Rgb r g b) h R G B M N H). Qed.
Example C59_hsv_saturated_partial_case : min3 7 0 3 = 0 /\ hsv_of_rgb (Rgb 7 0 3) = Some (Hsv 236 255 7).
Proof. split; vm_compute; reflexivity. Qed.

(** Every grey keeps its value exactly through HSV and back, despite the
    division by and multiplication with 255 in single precision. *)
Theorem C59_grey_round_trip x : is_byte x ->
  hsv_of_rgb (Rgb x x x) = Some (Hsv 0 0 x) /\ rgb_of_hsv 8 (Hsv 0 0 x) = Rgb x x x.
Proof.
  intro X. split; [apply hsv_grey; exact X|]. rewrite C59_hsv_to_rgb by (assumption || (red; lia)).
  assert (K : forall n, channel n 0 0 x = x).
  { intro n. unfold channel. rewrite Z.mul_0_r, Z.mul_0_l, Z.sub_0_r, Z.mul_comm. apply Z.div_mul. lia. }
  rewrite !K. reflexivity.
Qed.
Example C59_grey_round_trip_case : is_byte 47 /\ hsv_of_rgb (Rgb 47 47 47) = Some (Hsv 0 0 47).
Proof. unfold is_byte. split; [lia|]. vm_compute. reflexivity. Qed.

(** A zero saturation does not mean grey: the saturation is truncated. *)
Theorem C59_hsv_sat_refuted : exists r g b h, is_byte r /\ is_byte g /\ is_byte b /\
  hsv_of_rgb (Rgb r g b) = Some h /\ sat h = 0 /\ 0 < max3 r g b - min3 r g b /\
  (max3 r g b - min3 r g b) * 255 / max3 r g b = 1.
Proof.
  exists 255, 254, 254, (Hsv 0 0 255). unfold is_byte. split; [lia|]. split; [lia|]. split; [lia|].
  split; [vm_compute; reflexivity|]. split; [reflexivity|]. split; vm_compute; reflexivity.
Qed.

Print Assumptions C59_hsv_to_rgb.
Print Assumptions C59_hsv_gamut.
Print Assumptions C59_hsv_grey.
Print Assumptions C59_hsv_accuracy.
Print Assumptions C59_hsv_to_565.
Print Assumptions C59_hsv16_black.
Print Assumptions C59_hsv16_refuted.
Print Assumptions C59_565_pack.
Print Assumptions C59_565_round_trip.
Print Assumptions C59_565_quantisation.
Print Assumptions C59_565_wide_refuted.
Print Assumptions C59_565_add.
Print Assumptions C59_565_sub.
Print Assumptions C59_widen_narrow.
Print Assumptions C59_hsv_value_partial.
Print Assumptions C59_hsv_saturated_partial.
Print Assumptions C59_grey_round_trip.
Print Assumptions C59_hsv_sat_refuted.
