(* Graphic displays. Source: src/modm/ui/display/ of /repo. Coordinates are int16_t values; int has (at least) 32 bits and
   int_fast16_t and uint_fast16_t as well, uint_fast8_t has fw bits (8 or 32). A drawing routine works on a state D through the (virtual)
   functions setPixel, clearPixel ...; for the monochrome displays D is the buffer, a list of bytes, row after row. *)
From Verif Require Import Base.

(* the loop for (i = i0; n times; ++i) of graphic_display.cpp:73, 94, 103, 274-281, graphic_display_fill.cpp:22-23 and
   monochrome_graphic_display_vertical_impl.hpp:29, 79-81 *)
Fixpoint ofor {D} (n : nat) (i : Z) (f : Z -> D -> option D) (s : D) : option D :=
  match n with O => Some s | S n => do s <- f i s; ofor n (i + 1) f s end.

(* ---- the generic routines, for any display ---- *)
(* graphic_display.cpp:91-98 *)
Definition gd_hline {D} (put : Z -> Z -> D -> option D) (x y len : Z) (s : D) : option D :=
  ofor (Z.to_nat (swrap 16 (x + len) - x)) x (fun i => put (swrap 16 i) y) s.
(* graphic_display.cpp:100-107 *)
Definition gd_vline {D} (put : Z -> Z -> D -> option D) (x y len : Z) (s : D) : option D :=
  ofor (Z.to_nat (swrap 16 (y + len) - y)) y (fun i => put x (swrap 16 i)) s.
(* graphic_display.cpp:73-87: the Bresenham loop from x on, with the variables y and error *)
Fixpoint gd_bresenham {D} (put : Z -> Z -> D -> option D) (steep : bool) (deltaX deltaY yStep : Z) (n : nat) (x y error : Z) (s : D) : option D :=
  match n with
  | O => Some s
  | S n =>
      do s <- (if steep then put y (swrap 16 x) s else put (swrap 16 x) y s);
      let error := swrap 16 (error - deltaY) in
      if error <? 0 then gd_bresenham put steep deltaX deltaY yStep n (x + 1) (swrap 16 (y + yStep)) (swrap 16 (error + deltaX)) s
      else gd_bresenham put steep deltaX deltaY yStep n (x + 1) y error s
  end.
(* graphic_display.cpp:32-89; hline and vline are virtual. The lengths are converted to uint16_t *)
Definition gd_drawLine {D} (put : Z -> Z -> D -> option D) (hline vline : Z -> Z -> Z -> D -> option D) (x1 y1 x2 y2 : Z) (s : D) : option D :=
  if x1 =? x2 then
    let (y1, y2) := if y2 <? y1 then (y2, y1) else (y1, y2) in
    vline x1 y1 (u16 (y2 - y1 + 1)) s
  else if y1 =? y2 then
    let (x1, x2) := if x2 <? x1 then (x2, x1) else (x1, x2) in
    hline x1 y1 (u16 (x2 - x1 + 1)) s
  else
    let steep := Z.abs (x2 - x1) <? Z.abs (y2 - y1) in
    let '(x1, y1, x2, y2) := if steep then (y1, x1, y2, x2) else (x1, y1, x2, y2) in
    let '(x1, y1, x2, y2) := if x2 <? x1 then (x2, y2, x1, y1) else (x1, y1, x2, y2) in
    let deltaX := swrap 16 (x2 - x1) in
    let deltaY := swrap 16 (Z.abs (y2 - y1)) in
    let error := Z.quot deltaX 2 in
    let yStep := if y1 <? y2 then 1 else -1 in
    gd_bresenham put steep deltaX deltaY yStep (Z.to_nat (x2 - x1 + 1)) x1 y1 error s.
(* graphic_display.cpp:109-119 *)
Definition gd_drawRectangle {D} (hline vline : Z -> Z -> Z -> D -> option D) (x y width height : Z) (s : D) : option D :=
  let x2 := u16 (x + width - 1) in
  let y2 := u16 (y + height - 1) in
  do s <- hline x y width s;
  do s <- hline x (swrap 16 y2) width s;
  do s <- vline x y height s;
  vline (swrap 16 x2) y height s.
(* graphic_display_fill.cpp:18-25; W and H are getWidth() and getHeight() *)
Definition gd_fillRectangle {D} (put : Z -> Z -> D -> option D) (W H : Z) (x y width height : Z) (s : D) : option D :=
  ofor (Z.to_nat (Z.min (x + width) W - u16 x)) (u16 x) (fun i =>
    ofor (Z.to_nat (Z.min (y + height) H - u16 y)) (u16 y) (fun k => put i k)) s.
(* graphic_display.cpp:269-292; data is the image in the Flash memory (an access outside is undefined) *)
Definition gd_drawImageRaw {D} (put clr : Z -> Z -> D -> option D) (x y width height : Z) (data : list Z) (s : D) : option D :=
  ofor (Z.to_nat width) 0 (fun i =>
    ofor (Z.to_nat (u16 (Z.quot (height + 7) 8))) 0 (fun k s =>
      do byte <- znth data (i + k * width);
      let rowHeight := u16 (height - k * 8) in
      let rowHeight := if 8 <? rowHeight then 8 else rowHeight in
      ofor (Z.to_nat rowHeight) 0 (fun j s =>
        if Z.testbit byte j then put (swrap 16 (x + i)) (swrap 16 (y + k * 8 + j)) s
        else clr (swrap 16 (x + i)) (swrap 16 (y + k * 8 + j)) s) s)) s.
(* graphic_display.hpp:127-131: clearPixel(glcd::Point) *)
Definition gd_clearPixelPoint {D} (put : Z -> Z -> D -> option D) (x y : Z) (s : D) : option D := put x y s.

(* ---- the buffer of the monochrome displays ---- *)
(* monochrome_graphic_display.hpp:79 buffer[BufferHeight][BufferWidth], read access *)
Definition b_get (bw bh : Z) (buf : list Z) (r c : Z) : option Z :=
  if (0 <=? r) && (r <? bh) && (0 <=? c) && (c <? bw) then znth buf (r * bw + c) else None.
(* monochrome_graphic_display.hpp:79, write access *)
Definition b_set (bw bh : Z) (buf : list Z) (r c v : Z) : option (list Z) :=
  if (0 <=? r) && (r <? bh) && (0 <=? c) && (c <? bw) then zupd buf (r * bw + c) v else None.
(* buffer[r][c] |= v in monochrome_graphic_display_vertical_impl.hpp:31, 53, 62, 103 and ..._horizontal_impl.hpp:21 *)
Definition b_or (bw bh : Z) (buf : list Z) (r c v : Z) : option (list Z) :=
  do b <- b_get bw bh buf r c; b_set bw bh buf r c (u8 (Z.lor b v)).
(* buffer[r][c] &= v in monochrome_graphic_display_vertical_impl.hpp:110 and ..._horizontal_impl.hpp:28 *)
Definition b_and (bw bh : Z) (buf : list Z) (r c v : Z) : option (list Z) :=
  do b <- b_get bw bh buf r c; b_set bw bh buf r c (u8 (Z.land b v)).
(* the operator << of monochrome_graphic_display_vertical_impl.hpp:28, 48, 103 ...; undefined for a negative distance *)
Definition sh (v n : Z) : option Z := if n <? 0 then None else Some (Z.shiftl v n).
(* monochrome_graphic_display_impl.hpp:19-26 (the cursor is not modelled) *)
Definition mo_clear (buf : list Z) : list Z := map (fun _ => 0) buf.

(* ---- MonochromeGraphicDisplayVertical: bytes of 8 pixels above each other ---- *)
(* monochrome_graphic_display_vertical_impl.hpp:99-104 *)
Definition mv_setPixel (W H x y : Z) (buf : list Z) : option (list Z) :=
  if (x <? W) && (y <? H) then do m <- sh 1 (Z.rem y 8); b_or W (H / 8) buf (Z.quot y 8) x m else Some buf.
(* monochrome_graphic_display_vertical_impl.hpp:106-111 *)
Definition mv_clearPixel (W H x y : Z) (buf : list Z) : option (list Z) :=
  if (x <? W) && (y <? H) then do m <- sh 1 (Z.rem y 8); b_and W (H / 8) buf (Z.quot y 8) x (Z.lnot m) else Some buf.
(* monochrome_graphic_display_vertical_impl.hpp:113-124 *)
Definition mv_getPixel (W H x y : Z) (buf : list Z) : option bool :=
  if (x <? W) && (y <? H) then do m <- sh 1 (Z.rem y 8); do b <- b_get W (H / 8) buf (Z.quot y 8) x; Some (negb (Z.land b m =? 0)) else Some false.
(* monochrome_graphic_display_vertical_impl.hpp:19-34 *)
Definition mv_hline (W H x y len : Z) (buf : list Z) : option (list Z) :=
  if (0 <=? y) && (y <? H) then
    do m <- sh 1 (Z.rem y 8);
    ofor (Z.to_nat (swrap 16 (x + len) - x)) x (fun i buf => if i <? W then b_or W (H / 8) buf (Z.quot y 8) i (u8 m) else Some buf) buf
  else Some buf.
(* monochrome_graphic_display_vertical_impl.hpp:49-57: the loop, n times *)
Fixpoint mv_vloop (fw W H x : Z) (n : nat) (y byte : Z) (buf : list Z) : option (Z * Z * list Z) :=
  match n with
  | O => Some (y, byte, buf)
  | S n =>
      do (byte, buf) <- (if y <? H / 8 then do buf <- b_or W (H / 8) buf y x byte; Some (255, buf) else Some (byte, buf));
      mv_vloop fw W H x n (wrap fw (y + 1)) byte buf
  end.
(* monochrome_graphic_display_vertical_impl.hpp:36-65; y reaches y_last after (y_last - y) mod 2^fw rounds *)
Definition mv_vline (fw W H x y len : Z) (buf : list Z) : option (list Z) :=
  if (0 <=? x) && (x <? W) then
    let end_y := swrap 8 (y + len) in
    let y_last := u8 (Z.quot end_y 8) in
    let y0 := wrap fw (Z.quot y 8) in
    do byte <- sh 255 (Z.rem y 8);
    do (y, byte, buf) <- mv_vloop fw W H x (Z.to_nat (wrap fw (y_last - y0))) y0 (wrap fw byte) buf;
    if y <? H / 8 then b_or W (H / 8) buf y x (Z.land byte (Z.shiftr 255 (8 - Z.rem end_y 8))) else Some buf
  else Some buf.
(* monochrome_graphic_display_vertical_impl.hpp:67-97 *)
Definition mv_drawImageRaw (W H x y width height : Z) (data buf : list Z) : option (list Z) :=
  if (Z.rem y 8 =? 0) && (Z.rem height 8 =? 0) then
    let row := u16 (Z.quot y 8) in
    let rowCount := u16 (Z.quot (height + 7) 8) in
    ofor (Z.to_nat width) 0 (fun i =>
      ofor (Z.to_nat rowCount) 0 (fun k buf =>
        let c := u16 (x + i) in
        let r := u16 (k + row) in
        if (c <? W) && (r <? H) then do d <- znth data (i + k * width); b_set W (H / 8) buf r c d else Some buf)) buf
  else gd_drawImageRaw (mv_setPixel W H) (mv_clearPixel W H) x y width height data buf.

(* ---- MonochromeGraphicDisplayHorizontal: bytes of 8 pixels side by side ---- *)
(* monochrome_graphic_display_horizontal_impl.hpp:17-22 *)
Definition mh_setPixel (W H x y : Z) (buf : list Z) : option (list Z) :=
  if (x <? W) && (y <? H) then do m <- sh 1 (Z.rem x 8); b_or (W / 8) H buf y (Z.quot x 8) m else Some buf.
(* monochrome_graphic_display_horizontal_impl.hpp:24-29 *)
Definition mh_clearPixel (W H x y : Z) (buf : list Z) : option (list Z) :=
  if (x <? W) && (y <? H) then do m <- sh 1 (Z.rem x 8); b_and (W / 8) H buf y (Z.quot x 8) (Z.lnot m) else Some buf.
(* monochrome_graphic_display_horizontal_impl.hpp:31-39 *)
Definition mh_getPixel (W H x y : Z) (buf : list Z) : option bool :=
  if (x <? W) && (y <? H) then do m <- sh 1 (Z.rem x 8); do b <- b_get (W / 8) H buf y (Z.quot x 8); Some (negb (Z.land b m =? 0)) else Some false.
