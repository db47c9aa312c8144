(* Theorems for C56 (pixels of monochrome displays) and C57 (lines) *)
From Verif Require Import Base DispModel DispSpec DispProofs.

(* ---- C56: single pixels, vertically packed display ---- *)
Theorem C56_vertical_pixel : forall W H x y buf, v_ok W H buf -> 0 <= x -> 0 <= y ->
  exists b1 b2, mv_setPixel W H x y buf = Some b1 /\ v_ok W H b1 /\ mv_clearPixel W H x y buf = Some b2 /\ v_ok W H b2 /\
    (forall x' y', 0 <= x' < W -> 0 <= y' < H -> v_lit W b1 x' y' = if (x' =? x) && (y' =? y) then true else v_lit W buf x' y') /\
    (forall x' y', 0 <= x' < W -> 0 <= y' < H -> v_lit W b2 x' y' = if (x' =? x) && (y' =? y) then false else v_lit W buf x' y') /\
    mv_getPixel W H x y buf = Some ((x <? W) && (y <? H) && v_lit W buf x y) /\ (W <= x \/ H <= y -> b1 = buf /\ b2 = buf).
Proof.
  intros W H x y buf O X Y. destruct (v_set_writes W H x y buf O X Y) as (b1 & E1 & O1 & D1). destruct (v_clear_writes W H x y buf O X Y) as (b2 & E2 & O2 & D2). exists b1, b2.
  split; [exact E1|]. split; [exact O1|]. split; [exact E2|]. split; [exact O2|]. split; [exact D1|]. split; [exact D2|]. split; [apply v_get; assumption|].
  intro Out. split; apply (v_ext W H); try assumption; intros x' y' X' Y'; [rewrite D1|rewrite D2]; try assumption; assert ((x' =? x) && (y' =? y) = false) as -> by lia; reflexivity.
Qed.
Example C56_vertical_pixel_example : v_ok 3 16 [0; 0; 5; 7; 255; 0] /\ mv_setPixel 3 16 1 3 [0; 0; 5; 7; 255; 0] = Some [0; 8; 5; 7; 255; 0] /\
  mv_clearPixel 3 16 1 15 [0; 0; 5; 7; 255; 0] = Some [0; 0; 5; 7; 127; 0] /\ mv_getPixel 3 16 2 2 [0; 0; 5; 7; 255; 0] = Some true /\ mv_setPixel 3 16 3 0 [0; 0; 5; 7; 255; 0] = Some [0; 0; 5; 7; 255; 0].
Proof. split; [repeat split; try reflexivity; repeat (apply Forall_cons; [cbv beta; lia|]); constructor|]. split; [|split; [|split]]; vm_compute; reflexivity. Qed.
Print Assumptions C56_vertical_pixel.

Theorem C56_horizontal_pixel : forall W H x y buf, h_ok W H buf -> 0 <= x -> 0 <= y ->
  exists b1 b2, mh_setPixel W H x y buf = Some b1 /\ h_ok W H b1 /\ mh_clearPixel W H x y buf = Some b2 /\ h_ok W H b2 /\
    (forall x' y', 0 <= x' < W -> 0 <= y' < H -> h_lit W b1 x' y' = if (x' =? x) && (y' =? y) then true else h_lit W buf x' y') /\
    (forall x' y', 0 <= x' < W -> 0 <= y' < H -> h_lit W b2 x' y' = if (x' =? x) && (y' =? y) then false else h_lit W buf x' y') /\
    mh_getPixel W H x y buf = Some ((x <? W) && (y <? H) && h_lit W buf x y) /\ (W <= x \/ H <= y -> b1 = buf /\ b2 = buf).
Proof.
  intros W H x y buf O X Y. destruct (h_set_writes W H x y buf O X Y) as (b1 & E1 & O1 & D1). destruct (h_clear_writes W H x y buf O X Y) as (b2 & E2 & O2 & D2). exists b1, b2.
  split; [exact E1|]. split; [exact O1|]. split; [exact E2|]. split; [exact O2|]. split; [exact D1|]. split; [exact D2|]. split; [apply h_get; assumption|].
  intro Out. unfold mh_setPixel in E1. unfold mh_clearPixel in E2. assert ((x <? W) && (y <? H) = false) as Q by lia. rewrite Q in E1, E2. split; congruence.
Qed.
Example C56_horizontal_pixel_example : h_ok 16 2 [0; 0; 5; 7] /\ mh_setPixel 16 2 11 0 [0; 0; 5; 7] = Some [0; 8; 5; 7] /\
  mh_clearPixel 16 2 2 1 [0; 0; 5; 7] = Some [0; 0; 1; 7] /\ mh_getPixel 16 2 2 1 [0; 0; 5; 7] = Some true /\ mh_setPixel 16 2 0 2 [0; 0; 5; 7] = Some [0; 0; 5; 7].
Proof. split; [repeat split; try reflexivity; repeat (apply Forall_cons; [cbv beta; lia|]); constructor|]. split; [|split; [|split]]; vm_compute; reflexivity. Qed.
Print Assumptions C56_horizontal_pixel.

(* negative coordinates are not checked: every access with one is undefined (a negative shift or an access in front of the buffer) *)
Theorem C56_negative_undefined : forall W H x y buf, x < W -> y < H -> x < 0 \/ y < 0 ->
  mv_setPixel W H x y buf = None /\ mv_clearPixel W H x y buf = None /\ mv_getPixel W H x y buf = None /\
  mh_setPixel W H x y buf = None /\ mh_clearPixel W H x y buf = None /\ mh_getPixel W H x y buf = None.
Proof.
  intros W H x y buf X Y N. unfold mv_setPixel, mv_clearPixel, mv_getPixel, mh_setPixel, mh_clearPixel, mh_getPixel. assert ((x <? W) && (y <? H) = true) as -> by lia.
  assert (forall bw bh r c, r < 0 \/ c < 0 -> b_get bw bh buf r c = None) as G by (intros bw bh r c R; unfold b_get; assert ((0 <=? r) && (r <? bh) && (0 <=? c) && (c <? bw) = false) as -> by lia; reflexivity).
  pose proof (Z.quot_rem' y 8) as Qy. pose proof (Z.quot_rem' x 8) as Qx.
  assert (forall (A : Type) bw bh (f : Z -> option A), (Z.rem y 8 < 0 \/ Z.quot y 8 < 0 \/ x < 0) -> (do m <- sh 1 (Z.rem y 8); do b <- b_get bw bh buf (Z.quot y 8) x; f m) = None) as Gv.
  { intros A bw bh f R. unfold sh. destruct (Z.rem y 8 <? 0) eqn:E; [reflexivity|]. cbn [obind]. rewrite G by lia. reflexivity. }
  assert (forall (A : Type) bw bh (f : Z -> option A), (Z.rem x 8 < 0 \/ Z.quot x 8 < 0 \/ y < 0) -> (do m <- sh 1 (Z.rem x 8); do b <- b_get bw bh buf y (Z.quot x 8); f m) = None) as Gh.
  { intros A bw bh f R. unfold sh. destruct (Z.rem x 8 <? 0) eqn:E; [reflexivity|]. cbn [obind]. rewrite G by lia. reflexivity. }
  assert (Z.rem y 8 < 0 \/ Z.quot y 8 < 0 \/ x < 0) as Ry by (destruct N as [N|N]; [lia|]; destruct (Z_lt_dec (Z.rem y 8) 0); [lia|]; right; left; assert (Z.rem y 8 <= 0) by (apply Z.rem_nonpos; lia); lia).
  assert (Z.rem x 8 < 0 \/ Z.quot x 8 < 0 \/ y < 0) as Rx by (destruct N as [N|N]; [|lia]; destruct (Z_lt_dec (Z.rem x 8) 0); [lia|]; right; left; assert (Z.rem x 8 <= 0) by (apply Z.rem_nonpos; lia); lia).
  unfold b_or, b_and, sh. destruct (Z.rem y 8 <? 0) eqn:Ey, (Z.rem x 8 <? 0) eqn:Ex; cbn [obind]; rewrite ?G by lia; cbn [obind]; repeat split; reflexivity.
Qed.
Example C56_negative_undefined_example : mv_setPixel 3 16 (-1) 3 [0; 0; 5; 7; 255; 0] = None /\ mh_setPixel 16 2 3 (-1) [0; 0; 5; 7] = None.
Proof. split; reflexivity. Qed.
Print Assumptions C56_negative_undefined.

(* the overload clearPixel(Point) sets the pixel *)
Theorem C56_clear_point_refuted : exists W H x y buf buf', v_ok W H buf /\ 0 <= x < W /\ 0 <= y < H /\ gd_clearPixelPoint (mv_setPixel W H) x y buf = Some buf' /\ mv_getPixel W H x y buf' = Some true.
Proof.
  exists 2, 8, 1, 3, [0; 0], [0; 8]. split; [repeat split; try reflexivity; repeat (apply Forall_cons; [cbv beta; lia|]); constructor|]. split; [lia|]. split; [lia|]. split; vm_compute; reflexivity.
Qed.
Print Assumptions C56_clear_point_refuted.

(* clear() *)
Theorem C56_clear : forall W H buf, v_ok W H buf -> v_ok W H (mo_clear buf) /\ forall x y, 0 <= x < W -> 0 <= y < H -> v_lit W (mo_clear buf) x y = false.
Proof.
  intros W H buf (Hw & Hh & Hm & L & F). split; [repeat split; try lia; [unfold mo_clear; rewrite zlen_map; exact L|unfold mo_clear; rewrite Forall_map; eapply Forall_impl; [|exact F]; cbv beta; lia]|].
  intros x y X Y. unfold v_lit, g_lit, mo_clear. pose proof (map_nth (fun _ : Z => 0) buf 0 (Z.to_nat (y / 8 * W + x))) as M. cbv beta in M. rewrite M. apply Z.bits_0.
Qed.
Example C56_clear_example : mo_clear [1; 2; 255] = [0; 0; 0] /\ v_ok 3 8 [1; 2; 255].
Proof. split; [reflexivity|]. repeat split; try reflexivity; repeat (apply Forall_cons; [cbv beta; lia|]); constructor. Qed.
Print Assumptions C56_clear.

(* ---- C56: the fast lines of the vertically packed display are the generic ones, and draw exactly the line ---- *)
Theorem C56_fast_hline : forall W H x y len buf, v_ok W H buf -> 0 <= x -> 0 <= y -> 0 <= len -> x + len < 32768 ->
  mv_hline W H x y len buf = gd_hline (mv_setPixel W H) x y len buf /\
  exists buf', mv_hline W H x y len buf = Some buf' /\ v_ok W H buf' /\ painted W H (v_lit W buf) (v_lit W buf') (fun x' y' => x <= x' < x + len /\ y' = y) (fun _ _ => true).
Proof.
  intros W H x y len buf O X Y L B. split; [|apply mv_hline_paints; assumption]. apply (v_same W H (mv_hline W H x y len) (gd_hline (mv_setPixel W H) x y len) (fun x' y' => x <= x' < x + len /\ y' = y) (fun _ _ => true)); [intros; lia|apply mv_hline_paints; assumption|apply gd_hline_paints; try assumption; apply v_set_writes|exact O].
Qed.
Example C56_fast_hline_example : v_ok 4 8 [0; 1; 0; 0] /\ mv_hline 4 8 1 2 9 [0; 1; 0; 0] = Some [0; 5; 4; 4].
Proof. split; [repeat split; try reflexivity; repeat (apply Forall_cons; [cbv beta; lia|]); constructor|vm_compute; reflexivity]. Qed.
Print Assumptions C56_fast_hline.

(* the vertical one as long as the line ends above 128 (or 249 on a display of at most 128 lines) *)
Theorem C56_fast_vline_partial : forall fw W H x y len buf, (fw = 8 \/ fw = 32) -> v_ok W H buf -> 0 <= x -> 0 <= y -> 0 <= len -> (y + len <= 127 \/ (y + len <= 248 /\ H <= 128)) ->
  mv_vline fw W H x y len buf = gd_vline (mv_setPixel W H) x y len buf /\
  exists buf', mv_vline fw W H x y len buf = Some buf' /\ v_ok W H buf' /\ painted W H (v_lit W buf) (v_lit W buf') (fun x' y' => x' = x /\ y <= y' < y + len) (fun _ _ => true).
Proof.
  intros fw W H x y len buf Fw O X Y L B. split; [|apply mv_vline_paints; try assumption; lia]. apply (v_same W H (mv_vline fw W H x y len) (gd_vline (mv_setPixel W H) x y len) (fun x' y' => x' = x /\ y <= y' < y + len) (fun _ _ => true)); [intros; lia|apply mv_vline_paints; try assumption; lia|apply gd_vline_paints; try assumption; [apply v_set_writes|lia]|exact O].
Qed.
Example C56_fast_vline_partial_example : v_ok 1 24 [0; 0; 0] /\ mv_vline 8 1 24 0 5 13 [0; 0; 0] = Some [224; 255; 3] /\ mv_vline 32 1 24 0 5 200 [0; 0; 0] = Some [224; 255; 255].
Proof. split; [repeat split; try reflexivity; repeat (apply Forall_cons; [cbv beta; lia|]); constructor|]. split; vm_compute; reflexivity. Qed.
Print Assumptions C56_fast_vline_partial.

(* what is missing: the end of the line is kept in 8 bits. A line of 200 pixels on a display of 256 lines reaches the bottom; one of 250
   pixels on a display of 64 lines is not drawn at all; and one from line 16 of 248 pixels also covers the first 16 lines *)
Theorem C56_fast_vline_refuted :
  (exists buf, mv_vline 8 1 256 0 0 200 (repeat 0 32) = Some buf /\ v_lit 1 buf 0 255 = true /\ exists buf', gd_vline (mv_setPixel 1 256) 0 0 200 (repeat 0 32) = Some buf' /\ v_lit 1 buf' 0 255 = false) /\
  (exists buf, mv_vline 8 1 64 0 0 250 (repeat 0 8) = Some (repeat 0 8) /\ gd_vline (mv_setPixel 1 64) 0 0 250 (repeat 0 8) = Some buf /\ buf = repeat 255 8) /\
  (exists buf, mv_vline 8 1 64 0 16 248 (repeat 0 8) = Some buf /\ v_lit 1 buf 0 0 = true).
Proof.
  split; [exists (repeat 255 32)|split; [exists (repeat 255 8)|exists (repeat 255 1 ++ [0] ++ repeat 255 6)]].
  - split; [vm_compute; reflexivity|]. split; [vm_compute; reflexivity|]. exists (repeat 255 25 ++ repeat 0 7). split; vm_compute; reflexivity.
  - split; [vm_compute; reflexivity|]. split; vm_compute; reflexivity.
  - split; vm_compute; reflexivity.
Qed.
Print Assumptions C56_fast_vline_refuted.

(* rectangles *)
Theorem C56_rectangle : forall fw W H x y width height buf, (fw = 8 \/ fw = 32) -> v_ok W H buf -> 0 <= x -> 0 <= y -> 1 <= width -> 1 <= height -> x + width < 32768 -> (y + height <= 127 \/ (y + height <= 248 /\ H <= 128)) ->
  exists buf', gd_drawRectangle (mv_hline W H) (mv_vline fw W H) x y width height buf = Some buf' /\ v_ok W H buf' /\
    painted W H (v_lit W buf) (v_lit W buf') (fun x' y' => x <= x' < x + width /\ y <= y' < y + height /\ (x' = x \/ x' = x + width - 1 \/ y' = y \/ y' = y + height - 1)) (fun _ _ => true).
Proof. intros fw W H x y width height buf Fw O X Y A B C D. apply mv_rect_paints; try assumption; lia. Qed.
Example C56_rectangle_example : gd_drawRectangle (mv_hline 5 8) (mv_vline 8 5 8) 1 2 3 4 [0; 0; 0; 0; 0] = Some [0; 60; 36; 60; 0].
Proof. vm_compute. reflexivity. Qed.
Print Assumptions C56_rectangle.

Theorem C56_horizontal_rectangle : forall W H x y width height buf, h_ok W H buf -> 0 <= x -> 0 <= y -> 1 <= width -> 1 <= height -> x + width < 32768 -> y + height < 32768 ->
  exists buf', gd_drawRectangle (gd_hline (mh_setPixel W H)) (gd_vline (mh_setPixel W H)) x y width height buf = Some buf' /\ h_ok W H buf' /\
    painted W H (h_lit W buf) (h_lit W buf') (fun x' y' => x <= x' < x + width /\ y <= y' < y + height /\ (x' = x \/ x' = x + width - 1 \/ y' = y \/ y' = y + height - 1)) (fun _ _ => true).
Proof. intros W H x y width height buf O X Y A B C D. apply gd_rect_paints; try assumption. apply h_set_writes. Qed.
Example C56_horizontal_rectangle_example : h_ok 8 4 [0; 0; 0; 0] /\ gd_drawRectangle (gd_hline (mh_setPixel 8 4)) (gd_vline (mh_setPixel 8 4)) 1 0 4 3 [0; 0; 0; 0] = Some [30; 18; 30; 0].
Proof. split; [repeat split; try reflexivity; repeat (apply Forall_cons; [cbv beta; lia|]); constructor|vm_compute; reflexivity]. Qed.
Print Assumptions C56_horizontal_rectangle.

Theorem C56_fill : forall W H x y width height, 0 <= x < 32768 -> 0 <= y < 32768 -> 0 <= width -> 0 <= height ->
  (forall buf, v_ok W H buf -> exists buf', gd_fillRectangle (mv_setPixel W H) W H x y width height buf = Some buf' /\ v_ok W H buf' /\
     painted W H (v_lit W buf) (v_lit W buf') (fun x' y' => x <= x' < x + width /\ y <= y' < y + height) (fun _ _ => true)) /\
  (forall buf, h_ok W H buf -> exists buf', gd_fillRectangle (mh_setPixel W H) W H x y width height buf = Some buf' /\ h_ok W H buf' /\
     painted W H (h_lit W buf) (h_lit W buf') (fun x' y' => x <= x' < x + width /\ y <= y' < y + height) (fun _ _ => true)).
Proof.
  intros W H x y width height X Y A B. split; apply gd_fill_paints; try assumption; [apply v_set_writes|apply h_set_writes].
Qed.
Example C56_fill_example : gd_fillRectangle (mv_setPixel 4 8) 4 8 2 6 60000 60000 [0; 0; 0; 1] = Some [0; 0; 192; 193].
Proof. vm_compute. reflexivity. Qed.
Print Assumptions C56_fill.
(* a rectangle that begins left of the display is not drawn at all, although 4 of its columns are on the display *)
Theorem C56_fill_refuted : exists W H x y width height buf, v_ok W H buf /\ -32768 <= x /\ gd_fillRectangle (mv_setPixel W H) W H x y width height buf = Some buf /\ v_lit W buf 0 0 = false /\ x <= 0 < x + width /\ y <= 0 < y + height.
Proof.
  exists 4, 8, (-1), 0, 5, 5, [0; 0; 0; 0]. split; [repeat split; try reflexivity; repeat (apply Forall_cons; [cbv beta; lia|]); constructor|]. split; [lia|]. split; [vm_compute; reflexivity|]. split; [reflexivity|]. split; lia.
Qed.
Print Assumptions C56_fill_refuted.

(* ---- C56: images ---- *)
(* the fast routine also clips at the left, top and right border; the image must not reach below the display *)
Theorem C56_fast_image : forall W H x y width height data buf, v_ok W H buf -> -32768 <= x -> x + width <= 65536 -> -32768 <= y -> Z.rem y 8 = 0 -> Z.rem height 8 = 0 -> 0 <= width -> 0 <= height < 65536 -> y + height <= H ->
  width * (height / 8) <= zlen data -> Forall (fun b => 0 <= b < 256) data ->
  exists buf', mv_drawImageRaw W H x y width height data buf = Some buf' /\ v_ok W H buf' /\
    painted W H (v_lit W buf) (v_lit W buf') (fun x' y' => x <= x' < x + width /\ y <= y' < y + height) (fun x' y' => img_lit data width (x' - x) (y' - y)).
Proof. intros W H x y width height data buf O A B C D E F G Hh I J. apply mv_image_paints; assumption. Qed.
Example C56_fast_image_example : mv_drawImageRaw 3 16 (-1) (-8) 2 16 [1; 2; 3; 4] [9; 9; 9; 9; 9; 9] = Some [4; 9; 9; 9; 9; 9] /\ mv_drawImageRaw 3 16 2 8 2 8 [1; 2] [9; 9; 9; 9; 9; 9] = Some [9; 9; 9; 9; 9; 1].
Proof. split; vm_compute; reflexivity. Qed.
Print Assumptions C56_fast_image.

(* if it does reach below, the row is compared with the number of lines instead of the number of rows, and the image is written behind the buffer *)
Theorem C56_fast_image_undefined : forall W H x y width height data buf i k, 0 < W < 32768 -> 0 < H < 32768 -> H mod 8 = 0 -> -32768 <= x < 32768 -> 0 <= y < 32768 -> Z.rem y 8 = 0 -> 0 <= height < 65536 -> Z.rem height 8 = 0 ->
  0 <= i < width -> 0 <= x + i < W -> 0 <= k < height / 8 -> H / 8 <= y / 8 + k < H ->
  mv_drawImageRaw W H x y width height data buf = None.
Proof.
  intros W H x y width height data buf i k Hw Hh H8 X Y Y8 Hd Hd8 I XI K YK. unfold mv_drawImageRaw. rewrite Y8, Hd8. cbn [Z.eqb andb].
  apply (ofor_None _ _ i); [lia|]. intro b. apply (ofor_None _ _ k); [rewrite Z.quot_div_nonneg by lia; unfold u16; rewrite Z.rem_mod_nonneg in Hd8 by lia; lia|]. intro b'.
  assert (u16 (x + i) = x + i) as -> by (unfold u16; lia). rewrite Z.quot_div_nonneg by lia. assert (u16 (k + u16 (y / 8)) = y / 8 + k) as -> by (unfold u16; lia).
  assert ((x + i <? W) && (y / 8 + k <? H) = true) as -> by lia. destruct (znth data (i + k * width)); [|reflexivity]. cbn [obind]. unfold b_set. assert ((0 <=? y / 8 + k) && (y / 8 + k <? H / 8) && (0 <=? x + i) && (x + i <? W) = false) as -> by lia. reflexivity.
Qed.
Example C56_fast_image_undefined_example : mv_drawImageRaw 3 16 0 8 1 16 [1; 2] [9; 9; 9; 9; 9; 9] = None.
Proof. vm_compute. reflexivity. Qed.
Print Assumptions C56_fast_image_undefined.

(* images of any height at any place with the generic routine, clipped at the right and at the bottom *)
Theorem C56_image : forall W H x y width height data, 0 <= x -> 0 <= y -> 0 <= width -> 0 <= height -> x + width < 32768 -> y + height < 32768 -> width * ((height + 7) / 8) <= zlen data ->
  (forall buf, v_ok W H buf -> exists buf', gd_drawImageRaw (mv_setPixel W H) (mv_clearPixel W H) x y width height data buf = Some buf' /\ v_ok W H buf' /\
    painted W H (v_lit W buf) (v_lit W buf') (fun x' y' => x <= x' < x + width /\ y <= y' < y + height) (fun x' y' => img_lit data width (x' - x) (y' - y))) /\
  (forall buf, h_ok W H buf -> exists buf', gd_drawImageRaw (mh_setPixel W H) (mh_clearPixel W H) x y width height data buf = Some buf' /\ h_ok W H buf' /\
    painted W H (h_lit W buf) (h_lit W buf') (fun x' y' => x <= x' < x + width /\ y <= y' < y + height) (fun x' y' => img_lit data width (x' - x) (y' - y))).
Proof.
  intros W H x y width height data X Y A B C D L. split; apply gd_image_paints; try assumption; [apply v_set_writes|apply v_clear_writes|apply h_set_writes|apply h_clear_writes].
Qed.
Example C56_image_example : gd_drawImageRaw (mv_setPixel 2 16) (mv_clearPixel 2 16) 1 5 2 5 [21; 31] [0; 255; 0; 255] = Some [0; 191; 0; 254].
Proof. vm_compute. reflexivity. Qed.
Print Assumptions C56_image.

(* the fast routine and the generic one agree *)
Theorem C56_fast_image_same : forall W H x y width height data buf, v_ok W H buf -> 0 <= x -> 0 <= y -> 0 <= width -> 0 <= height -> x + width < 32768 -> y + height <= H -> y mod 8 = 0 -> height mod 8 = 0 ->
  width * (height / 8) <= zlen data -> Forall (fun b => 0 <= b < 256) data ->
  mv_drawImageRaw W H x y width height data buf = gd_drawImageRaw (mv_setPixel W H) (mv_clearPixel W H) x y width height data buf.
Proof.
  intros W H x y width height data buf O X Y A B C D Y8 H8 L F. pose proof O as (Hw & Hh & Hm & _).
  apply (v_same W H (mv_drawImageRaw W H x y width height data) (gd_drawImageRaw (mv_setPixel W H) (mv_clearPixel W H) x y width height data) (fun x' y' => x <= x' < x + width /\ y <= y' < y + height) (fun x' y' => img_lit data width (x' - x) (y' - y))); [intros; lia| | |exact O].
  - apply mv_image_paints; try assumption; try lia; rewrite Z.rem_mod_nonneg by lia; lia.
  - apply gd_image_paints; try assumption; try lia; [apply v_set_writes|apply v_clear_writes|]. replace ((height + 7) / 8) with (height / 8) by lia. exact L.
Qed.
Example C56_fast_image_same_example : mv_drawImageRaw 3 16 2 8 2 8 [1; 2] [9; 9; 9; 9; 9; 9] = Some [9; 9; 9; 9; 9; 1] /\ gd_drawImageRaw (mv_setPixel 3 16) (mv_clearPixel 3 16) 2 8 2 8 [1; 2] [9; 9; 9; 9; 9; 9] = Some [9; 9; 9; 9; 9; 1].
Proof. split; vm_compute; reflexivity. Qed.
Print Assumptions C56_fast_image_same.

(* together: drawImageRaw of the vertically packed display, at any place; only images whose first line and height are multiples of 8
   must not reach below the display *)
Theorem C56_vertical_image : forall W H x y width height data buf, v_ok W H buf -> 0 <= x -> 0 <= y -> 0 <= width -> 0 <= height -> x + width < 32768 -> y + height < 32768 ->
  (y mod 8 = 0 -> height mod 8 = 0 -> y + height <= H) -> width * ((height + 7) / 8) <= zlen data -> Forall (fun b => 0 <= b < 256) data ->
  exists buf', mv_drawImageRaw W H x y width height data buf = Some buf' /\ v_ok W H buf' /\
    painted W H (v_lit W buf) (v_lit W buf') (fun x' y' => x <= x' < x + width /\ y <= y' < y + height) (fun x' y' => img_lit data width (x' - x) (y' - y)).
Proof.
  intros W H x y width height data buf O X Y A B C D Fit L F. destruct ((Z.rem y 8 =? 0) && (Z.rem height 8 =? 0)) eqn:E.
  - rewrite !Z.rem_mod_nonneg in E by lia. rewrite C56_fast_image_same; try assumption; try lia; [apply C56_image; assumption|]. replace (height / 8) with ((height + 7) / 8) by lia. exact L.
  - unfold mv_drawImageRaw. rewrite E. apply C56_image; assumption.
Qed.
Example C56_vertical_image_example : mv_drawImageRaw 2 8 1 0 2 5 [21; 31] [0; 255] = Some [0; 245] /\ mv_drawImageRaw 2 8 1 0 1 8 [21] [0; 255] = Some [0; 21].
Proof. split; vm_compute; reflexivity. Qed.
Print Assumptions C56_vertical_image.

(* ---- C57 ---- *)
(* for any display with the generic drawHorizontalLine and drawVerticalLine; lines parallel to an axis must not touch coordinate 32767 *)
Theorem C57_line : forall x1 y1 x2 y2, -32768 <= x1 < 32768 -> -32768 <= x2 < 32768 -> -32768 <= y1 < 32768 -> -32768 <= y2 < 32768 -> Z.abs (x2 - x1) < 32768 -> Z.abs (y2 - y1) < 32768 ->
  (x1 = x2 -> y1 < 32767 /\ y2 < 32767) -> (y1 = y2 -> x1 < 32767 /\ x2 < 32767) ->
  exists l, good_line x1 y1 x2 y2 l /\ forall (D : Type) (put : Z -> Z -> D -> option D) s, gd_drawLine put (gd_hline put) (gd_vline put) x1 y1 x2 y2 s = plot put l s.
Proof. exact drawLine_path. Qed.
Example C57_line_example : gd_drawLine (fun x y l => Some ((x, y) :: l)) (fun _ _ _ l => None) (fun _ _ _ l => None) 7 (-1) 6 1 ([] : list (Z * Z)) = Some [(6, 1); (7, 0); (7, -1)] /\
  gd_drawLine (fun x y l => Some ((x, y) :: l)) (fun _ _ _ l => None) (fun _ _ _ l => None) 0 0 5 2 ([] : list (Z * Z)) = Some [(5, 2); (4, 2); (3, 1); (2, 1); (1, 0); (0, 0)].
Proof. split; vm_compute; reflexivity. Qed.
Print Assumptions C57_line.

(* the same on the vertically packed display: neither of the fast routines changes the picture. The coordinates are those of C56 *)
Theorem C57_vertical_display : forall fw W H x1 y1 x2 y2 buf, (fw = 8 \/ fw = 32) -> v_ok W H buf -> 0 <= x1 < 32767 -> 0 <= x2 < 32767 -> 0 <= y1 < 32767 -> 0 <= y2 < 32767 ->
  (x1 = x2 -> Z.max y1 y2 < 127 \/ (Z.max y1 y2 < 248 /\ H <= 128)) ->
  gd_drawLine (mv_setPixel W H) (mv_hline W H) (mv_vline fw W H) x1 y1 x2 y2 buf = gd_drawLine (mv_setPixel W H) (gd_hline (mv_setPixel W H)) (gd_vline (mv_setPixel W H)) x1 y1 x2 y2 buf.
Proof.
  intros fw W H x1 y1 x2 y2 buf Fw O X1 X2 Y1 Y2 V. unfold gd_drawLine. destruct (Z.eqb_spec x1 x2) as [E|N].
  - destruct (y2 <? y1) eqn:L; unfold u16; rewrite Z.mod_small by lia; apply C56_fast_vline_partial; try assumption; lia.
  - destruct (y1 =? y2); [|reflexivity]. destruct (x2 <? x1) eqn:L; unfold u16; rewrite Z.mod_small by lia; apply C56_fast_hline; try assumption; lia.
Qed.
Example C57_vertical_display_example : gd_drawLine (mv_setPixel 4 8) (mv_hline 4 8) (mv_vline 8 4 8) 0 0 3 6 [0; 0; 0; 0] = Some [3; 12; 48; 64].
Proof. vm_compute. reflexivity. Qed.
Print Assumptions C57_vertical_display.

(* outside of the conditions: a horizontal line that ends at coordinate 32767 is not drawn *)
Theorem C57_border_refuted : exists x1 y1 x2 y2, 0 <= x1 <= 32767 /\ 0 <= x2 <= 32767 /\ y1 = y2 /\ x1 < x2 /\
  forall (D : Type) (put : Z -> Z -> D -> option D) s, gd_drawLine put (gd_hline put) (gd_vline put) x1 y1 x2 y2 s = Some s.
Proof. exists 32760, 0, 32767, 0. repeat split; try lia. Qed.
Print Assumptions C57_border_refuted.
