(* Model of the integer geometry of /repo/src/modm/math/geometry: vector2_impl.hpp, line_segment_2d_impl.hpp, polygon_2d_impl.hpp, ray_2d_impl.hpp, with the
   types of geometric_traits.hpp. modm is compiled with -fwrapv, so signed arithmetic wraps. Floating point coordinates, lengths, angles, distances, circles and
   the computation of intersection points are left out. *)
From Verif Require Import Base.

(* coordinates: T has tb bits (signed or not), WideType is signed with tw bits, int has ib bits; geometric_traits.hpp:47-110 *)
Record ctype := { tb : Z; ts : bool; tw : Z; ib : Z }.
(* geometric_traits.hpp:47-60 *)
Definition int8_on (int_bits : Z) : ctype := {| tb := 8; ts := true; tw := 16; ib := int_bits |}.
(* geometric_traits.hpp:62-76 *)
Definition uint8_on (int_bits : Z) : ctype := {| tb := 8; ts := false; tw := 16; ib := int_bits |}.
(* geometric_traits.hpp:78-91 *)
Definition int16_on (int_bits : Z) : ctype := {| tb := 16; ts := true; tw := 32; ib := int_bits |}.
(* geometric_traits.hpp:93-110 *)
Definition int32_on (int_bits : Z) : ctype := {| tb := 32; ts := true; tw := 32; ib := int_bits |}.
(* conversion to T; geometric_traits.hpp:47-110 *)
Definition toT (T : ctype) (x : Z) : Z := if ts T then swrap (tb T) x else wrap (tb T) x.
(* conversion to WideType; geometric_traits.hpp:47-110 *)
Definition toW (T : ctype) (x : Z) : Z := swrap (tw T) x.
(* arithmetic on two T after the integer promotions; vector2_impl.hpp:412 *)
Definition inT (T : ctype) (x : Z) : Z := swrap (Z.max (ib T) (tb T)) x.
(* arithmetic on two WideType after the integer promotions; vector2_impl.hpp:135 *)
Definition inW (T : ctype) (x : Z) : Z := swrap (Z.max (ib T) (tw T)) x.
(* a vector is the pair of its coordinates; vector2.hpp:71-75 *)
Definition vec := (Z * Z)%type.
(* vector2_impl.hpp:407-413 *)
Definition vsub (T : ctype) (a b : vec) : vec := (toT T (inT T (fst a - fst b)), toT T (inT T (snd a - snd b))).
(* toOrthogonalVector, vector2_impl.hpp:262-267 *)
Definition orthogonal (T : ctype) (a : vec) : vec := (snd a, toT T (inT T (- fst a))).
(* vector2_impl.hpp:128-136 *)
Definition getLengthSquared (T : ctype) (a : vec) : Z :=
  let tx := toW T (fst a) in let ty := toW T (snd a) in toW T (inW T (inW T (tx * tx) + inW T (ty * ty))).
(* vector2_impl.hpp:236-242 *)
Definition dot (T : ctype) (a b : vec) : Z :=
  toW T (inW T (inW T (toW T (fst a) * toW T (fst b)) + inW T (toW T (snd a) * toW T (snd b)))).
(* vector2_impl.hpp:245-251 *)
Definition cross (T : ctype) (a b : vec) : Z :=
  toW T (inW T (inW T (toW T (fst a) * toW T (snd b)) - inW T (toW T (snd a) * toW T (fst b)))).
(* vector2_impl.hpp:278-312 *)
Definition ccw (T : ctype) (a b c : vec) : Z :=
  let dx1 := toW T (inT T (fst b - fst a)) in
  let dy1 := toW T (inT T (snd b - snd a)) in
  let dx2 := toW T (inT T (fst c - fst a)) in
  let dy2 := toW T (inT T (snd c - snd a)) in
  let d1 := toW T (inW T (dx1 * dy2)) in
  let d2 := toW T (inW T (dy1 * dx2)) in
  if d1 >? d2 then 1 else if d1 <? d2 then -1
  else if (inW T (dx1 * dx2) <? 0) || (inW T (dy1 * dy2) <? 0) then -1
  else if inW T (inW T (dx1 * dx1) + inW T (dy1 * dy1)) >=? inW T (inW T (dx2 * dx2) + inW T (dy2 * dy2)) then 0 else 1.
(* a segment is the pair of its end points; line_segment_2d.hpp:119-121. LineSegment2D::intersects, line_segment_2d_impl.hpp:160-168 *)
Definition segment := (vec * vec)%type.
(* line_segment_2d_impl.hpp:160-168 *)
Definition intersects (T : ctype) (s o : segment) : bool :=
  (ccw T (fst s) (snd s) (fst o) * ccw T (fst s) (snd s) (snd o) <=? 0) && (ccw T (fst o) (snd o) (fst s) * ccw T (fst o) (snd o) (snd s) <=? 0).
(* ownSegment(points[i], points[(i + 1) % n]), polygon_2d_impl.hpp:67,106,124,164 *)
Definition edge (p : list vec) (i : nat) : segment := (nth i p (0, 0), nth (Nat.modulo (i + 1) (length p)) p (0, 0)).
(* the edges in the order of the loops; polygon_2d_impl.hpp:63,104,122,163 *)
Definition edges (p : list vec) : list segment := map (edge p) (seq 0 (length p)).
(* polygon_2d_impl.hpp:56-77 *)
Definition polygon_intersects (T : ctype) (p q : list vec) : bool := existsb (fun e => existsb (intersects T e) (edges q)) (edges p).
(* polygon_2d_impl.hpp:99-114 *)
Definition polygon_intersects_segment (T : ctype) (p : list vec) (s : segment) : bool := existsb (intersects T s) (edges p).
(* the loop of isInside, polygon_2d_impl.hpp:163-182 *)
Fixpoint inside_loop (T : ctype) (l : list segment) (point : vec) (cw_ ccw_ : bool) : bool :=
  match l with
  | [] => cw_ || ccw_
  | e :: l => let r := ccw T (fst e) (snd e) point in
      if r =? 0 then true else if r =? 1 then inside_loop T l point false ccw_ else if r =? -1 then inside_loop T l point cw_ false else inside_loop T l point cw_ ccw_
  end.
(* polygon_2d_impl.hpp:155-183 *)
Definition isInside (T : ctype) (p : list vec) (point : vec) : bool := inside_loop T (edges p) point true true.
(* Ray2D::intersects, ray_2d_impl.hpp:143-165; the ray is its base point and its direction *)
Definition ray_intersects (T : ctype) (base direction : vec) (line : segment) : bool :=
  let startToPoint := vsub T (fst line) base in
  let endToPoint := vsub T (snd line) base in
  let dt := orthogonal T direction in
  if inW T (dot T startToPoint dt * dot T endToPoint dt) <? 0 then
    let pointToStart := vsub T base (fst line) in
    let lt := orthogonal T (vsub T (snd line) (fst line)) in
    inW T (dot T pointToStart lt * dot T direction lt) <? 0
  else false.
(* polygon_2d_impl.hpp:117-132 *)
Definition polygon_intersects_ray (T : ctype) (p : list vec) (base direction : vec) : bool := existsb (ray_intersects T base direction) (edges p).
