From Verif Require Import Base.

(* bit k of the byte in row r and column c of a buffer with rows of bw bytes *)
Definition g_lit (bw : Z) (buf : list Z) (r c k : Z) : bool := Z.testbit (nth (Z.to_nat (r * bw + c)) buf 0) k.
(* the pixel at column x and line y of a vertically packed display *)
Definition v_lit (W : Z) (buf : list Z) (x y : Z) : bool := g_lit W buf (y / 8) x (y mod 8).
(* ... and of a horizontally packed one *)
Definition h_lit (W : Z) (buf : list Z) (x y : Z) : bool := g_lit (W / 8) buf y (x / 8) (x mod 8).
(* a buffer of bh rows of bw bytes *)
Definition g_ok (bw bh : Z) (buf : list Z) : Prop := zlen buf = bw * bh /\ Forall (fun b => 0 <= b < 256) buf.
(* a display of W times H pixels and its buffer *)
Definition v_ok (W H : Z) (buf : list Z) : Prop := 0 < W < 32768 /\ 0 < H < 32768 /\ H mod 8 = 0 /\ g_ok W (H / 8) buf.
Definition h_ok (W H : Z) (buf : list Z) : Prop := 0 < W < 32768 /\ 0 < H < 32768 /\ W mod 8 = 0 /\ g_ok (W / 8) H buf.
(* within the display, the picture new is the picture old with the pixels of the set S showing img *)
Definition painted (W H : Z) (old new : Z -> Z -> bool) (S : Z -> Z -> Prop) (img : Z -> Z -> bool) : Prop :=
  forall x y, 0 <= x < W -> 0 <= y < H -> (S x y -> new x y = img x y) /\ (~ S x y -> new x y = old x y).
(* pixel (x, y) of an image stored in bytes of 8 pixels above each other, width bytes per row *)
Definition img_lit (data : list Z) (width x y : Z) : bool := Z.testbit (nth (Z.to_nat (x + y / 8 * width)) data 0) (y mod 8).
(* draws a list of points, one after the other, on any display *)
Fixpoint plot {D} (put : Z -> Z -> D -> option D) (l : list (Z * Z)) (s : D) : option D :=
  match l with [] => Some s | (x, y) :: l => do s <- put x y s; plot put l s end.
(* two points touch each other, at an edge or a corner *)
Definition touch (p q : Z * Z) : Prop := p <> q /\ Z.abs (fst q - fst p) <= 1 /\ Z.abs (snd q - snd p) <= 1.
(* consecutive points touch *)
Definition connected (l : list (Z * Z)) : Prop := forall i d, (S i < length l)%nat -> touch (nth i l d) (nth (S i) l d).
(* p is at most half a pixel away (in the direction of the shorter side) from the straight line from (x1, y1) to (x2, y2), and not beyond its ends *)
Definition on_line (x1 y1 x2 y2 : Z) (p : Z * Z) : Prop :=
  2 * Z.abs ((snd p - y1) * (x2 - x1) - (fst p - x1) * (y2 - y1)) <= Z.max (Z.abs (x2 - x1)) (Z.abs (y2 - y1)) /\
  Z.min x1 x2 <= fst p <= Z.max x1 x2 /\ Z.min y1 y2 <= snd p <= Z.max y1 y2.
(* a line: as many points as the longer side needs, from one end to the other, connected and close to the straight line *)
Definition good_line (x1 y1 x2 y2 : Z) (l : list (Z * Z)) : Prop :=
  Z.of_nat (length l) = Z.max (Z.abs (x2 - x1)) (Z.abs (y2 - y1)) + 1 /\
  ((hd_error l = Some (x1, y1) /\ hd_error (rev l) = Some (x2, y2)) \/ (hd_error l = Some (x2, y2) /\ hd_error (rev l) = Some (x1, y1))) /\
  connected l /\ Forall (on_line x1 y1 x2 y2) l.
