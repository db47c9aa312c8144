(* Points, segments and polygons in the plane, exactly. Points of a segment with rational parameter t / n. *)
From Verif Require Import Base GeoModel.

Definition valid_type (T : ctype) : Prop := exists int_bits, (int_bits = 16 \/ int_bits = 32) /\
  (T = int8_on int_bits \/ T = uint8_on int_bits \/ T = int16_on int_bits \/ T = int32_on int_bits).
(* a value of T *)
Definition isT (T : ctype) (x : Z) : Prop := if ts T then - 2 ^ (tb T - 1) <= x < 2 ^ (tb T - 1) else 0 <= x < 2 ^ tb T.
Definition vecT (T : ctype) (a : vec) : Prop := isT T (fst a) /\ isT T (snd a).
(* how far two points may be from each other in each coordinate, for sums of two squares to fit in WideType *)
Definition reach (T : ctype) : Z := if tw T =? 16 then 127 else 32767.
Definition near (d : Z) (a b : vec) : Prop := Z.abs (fst a - fst b) <= d /\ Z.abs (snd a - snd b) <= d.
Definition all_near (d : Z) (l : list vec) : Prop := forall a b, In a l -> In b l -> near d a b.

(* twice the signed area of the triangle a b c *)
Definition area (a b c : vec) : Z := (fst b - fst a) * (snd c - snd a) - (snd b - snd a) * (fst c - fst a).
(* p = a + t / n (b - a) with 0 <= t / n <= 1 *)
Definition on_segment (a b p : vec) : Prop := exists n t, 0 < n /\ 0 <= t <= n /\
  n * (fst p - fst a) = t * (fst b - fst a) /\ n * (snd p - snd a) = t * (snd b - snd a).
(* on the line through a and b, after b and before a *)
Definition behind (a b p : vec) : Prop := exists n t, 0 < n /\ n < t /\ n * (fst p - fst a) = t * (fst b - fst a) /\ n * (snd p - snd a) = t * (snd b - snd a).
Definition before (a b p : vec) : Prop := exists n t, 0 < n /\ t < 0 /\ n * (fst p - fst a) = t * (fst b - fst a) /\ n * (snd p - snd a) = t * (snd b - snd a).
(* a + t / n (b - a) = c + u / n (d - c) *)
Definition meet (s o : segment) : Prop := exists n t u, 0 < n /\ 0 <= t <= n /\ 0 <= u <= n /\
  n * fst (fst s) + t * (fst (snd s) - fst (fst s)) = n * fst (fst o) + u * (fst (snd o) - fst (fst o)) /\
  n * snd (fst s) + t * (snd (snd s) - snd (fst s)) = n * snd (fst o) + u * (snd (snd o) - snd (fst o)).
(* the ray from base hits the inside of the segment, crossing it *)
Definition ray_crosses (base direction : vec) (o : segment) : Prop := exists n t u, 0 < n /\ 0 < t /\ 0 < u < n /\
  fst direction * (snd (snd o) - snd (fst o)) - snd direction * (fst (snd o) - fst (fst o)) <> 0 /\
  n * fst base + t * fst direction = n * fst (fst o) + u * (fst (snd o) - fst (fst o)) /\
  n * snd base + t * snd direction = n * snd (fst o) + u * (snd (snd o) - snd (fst o)).
(* the ray and the (closed) segment have a point in common *)
Definition ray_meets (base direction : vec) (o : segment) : Prop := exists n t u, 0 < n /\ 0 <= t /\ 0 <= u <= n /\
  n * fst base + t * fst direction = n * fst (fst o) + u * (fst (snd o) - fst (fst o)) /\
  n * snd base + t * snd direction = n * snd (fst o) + u * (snd (snd o) - snd (fst o)).
(* the vertices, cyclically *)
Definition vertex (p : list vec) (i : nat) : vec := nth (Nat.modulo i (length p)) p (0, 0).
Definition side (p : list vec) (i : nat) : segment := (vertex p i, vertex p (S i)).
(* strictly convex, counter-clockwise for o = 1, clockwise for o = -1: every vertex is on the same side of every side, consecutive sides turn strictly *)
Definition convex (o : Z) (p : list vec) : Prop := (o = 1 \/ o = -1) /\ (3 <= length p)%nat /\
  (forall i j, 0 <= o * area (vertex p i) (vertex p (S i)) (vertex p j)) /\ (forall i, 0 < o * area (vertex p i) (vertex p (S i)) (vertex p (S (S i)))).
(* in the closed area: on the inner side of each side *)
Definition inside (o : Z) (p : list vec) (v : vec) : Prop := forall i, 0 <= o * area (vertex p i) (vertex p (S i)) v.
(* for rays: how far points may be from each other, and how long the direction may be, for products of two dot products to fit *)
Definition ray_reach (T : ctype) : Z := if Z.max (ib T) (tw T) =? 16 then 9 else if tw T =? 16 then 127 else 151.
