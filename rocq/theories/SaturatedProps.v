(* C22: saturating arithmetic *)
From Verif Require Import Base IntTypes SaturatedModel SaturatedSpec SaturatedProofs.

(* C22. For every pair of integer types, x + y, x += y, x - y and x -= y give the exact result clamped to the range of T,
   for all operands. Missing: y may not be the smallest value of a signed type of 32 or 64 bits (see the refutation). *)
Theorem C22_add_sub_exact_partial :
  forall t u x y, c_type t -> c_type u -> in_type t x -> in_type u y -> ~ unnegatable u y ->
    sat_add t u x y = clamp t (x + y) /\ sat_sub t u x y = clamp t (x - y).
Proof. exact add_exact. Qed.
Print Assumptions C22_add_sub_exact_partial.
Example C22_add_sub_example :
  sat_add (mkTy false 8) (mkTy true 16) 200 (-300) = 0 /\ sat_add (mkTy false 8) (mkTy false 32) 200 100 = 255 /\
  sat_sub (mkTy true 8) (mkTy true 8) 100 (-128) = 127 /\ sat_sub (mkTy true 16) (mkTy false 8) (-32700) 200 = -32768 /\
  clamp (mkTy false 8) (-100) = 0 /\ ~ unnegatable (mkTy true 8) (-128).
Proof. vm_compute. repeat split; auto. intros (_ & H & _). apply H. reflexivity. Qed.

(* C22. The exception is real: adding the smallest int32_t to -1 gives the LARGEST value, subtracting it from 0 the smallest. *)
Theorem C22_add_int_min_refuted :
  (exists t u x y, c_type t /\ c_type u /\ in_type t x /\ in_type u y /\ x + y < tmin t /\ sat_add t u x y = tmax t) /\
  (exists t u x y, c_type t /\ c_type u /\ in_type t x /\ in_type u y /\ tmax t < x - y /\ sat_sub t u x y = tmin t).
Proof.
  split; [exists (mkTy true 32), (mkTy true 32), (-1), (- 2 ^ 31)|exists (mkTy true 32), (mkTy true 32), 0, (- 2 ^ 31)];
  unfold c_type, in_type; cbn [wd sg]; vm_compute; repeat split; try tauto; congruence.
Qed.
Print Assumptions C22_add_int_min_refuted.

(* C22. Increment and decrement stop at the limits. *)
Theorem C22_increment_decrement :
  forall t x, c_type t -> in_type t x -> sat_inc t x = clamp t (x + 1) /\ sat_dec t x = clamp t (x - 1).
Proof. exact incdec_exact. Qed.
Print Assumptions C22_increment_decrement.
Example C22_increment_decrement_example :
  sat_inc (mkTy true 8) 127 = 127 /\ sat_inc (mkTy true 8) 5 = 6 /\ sat_dec (mkTy false 16) 0 = 0 /\ in_type (mkTy true 8) 127.
Proof. vm_compute. repeat split; congruence. Qed.

(* C22. Conversion between any two integer types other than uint64_t (for which it does not compile) clamps. *)
Theorem C22_conversion :
  forall t u v, c_type t -> c_type u -> ~ is_uint64 t -> ~ is_uint64 u -> in_type u v ->
    sat_convert t u v = Some (clamp t v).
Proof. exact convert_exact. Qed.
Print Assumptions C22_conversion.
Example C22_conversion_example :
  sat_convert (mkTy false 8) (mkTy true 16) (-5) = Some 0 /\ sat_convert (mkTy true 8) (mkTy false 32) 4000000000 = Some 127 /\
  sat_convert (mkTy true 32) (mkTy true 64) (- 2 ^ 40) = Some (- 2 ^ 31) /\ sat_convert (mkTy true 16) (mkTy true 8) (-128) = Some (-128).
Proof. vm_compute. auto. Qed.

(* C22. Multiplication clamps whenever the product does not fall below the smallest value; the assigning form with a
   negative right operand does so for signed T and |product| <= max. Missing: negative overflow (see the refutation). *)
Theorem C22_mul_exact_partial :
  (forall t x y, c_type t -> in_type t x -> in_type t y -> tmin t <= x * y -> sat_mul t x y = clamp t (x * y)) /\
  (forall t u x y, c_type t -> in_type t x -> in_type u y -> 0 <= y -> tmin t <= x * y ->
    sat_mul_assign t u x y = clamp t (x * y)) /\
  (forall t u x y, c_type t -> c_type u -> sg t = true -> in_type t x -> in_type u y -> y < 0 -> ~ unnegatable u y ->
    - tmax t <= x * y <= tmax t -> sat_mul_assign t u x y = clamp t (x * y)).
Proof. exact (conj mul_exact (conj mul_assign_nonneg mul_assign_neg)). Qed.
Print Assumptions C22_mul_exact_partial.
Example C22_mul_example :
  sat_mul (mkTy true 8) (-20) (-20) = 127 /\ sat_mul_assign (mkTy false 8) (mkTy false 16) 100 300 = 255 /\
  sat_mul_assign (mkTy true 16) (mkTy true 8) 100 (-128) = -12800.
Proof. vm_compute. auto. Qed.

(* C22. Products below the smallest value: `*` gives the LARGEST value, `*=` gives -max although the exact product
   -128 is representable, and for an unsigned T the negation wraps around. *)
Theorem C22_mul_negative_refuted :
  (exists t x y, c_type t /\ in_type t x /\ in_type t y /\ x * y < tmin t /\ sat_mul t x y = tmax t) /\
  (exists t u x y, c_type t /\ c_type u /\ in_type t x /\ in_type u y /\ in_type t (x * y) /\ sat_mul_assign t u x y <> x * y) /\
  (exists t u x y, c_type t /\ c_type u /\ in_type t x /\ in_type u y /\ x * y < 0 /\ sg t = false /\ sat_mul_assign t u x y = 251).
Proof.
  split; [|split].
  - exists (mkTy true 8), 100, (-100). unfold c_type, in_type. cbn [wd]. vm_compute. repeat split; try tauto; congruence.
  - exists (mkTy true 8), (mkTy true 8), 64, (-2). unfold c_type, in_type. cbn [wd]. vm_compute. repeat split; try tauto; congruence.
  - exists (mkTy false 8), (mkTy true 8), 5, (-1). unfold c_type, in_type. cbn [wd]. vm_compute. repeat split; try tauto; congruence.
Qed.
Print Assumptions C22_mul_negative_refuted.

(* C22. Negation and absolute value, except of the smallest value of a signed type. *)
Theorem C22_negate_absolute_partial :
  (forall t x, c_type t -> in_type t x ->
    (sg t = true -> x <> tmin t -> sat_neg t x = clamp t (- x)) /\ (sg t = false -> wd t <> 64 -> sat_neg t x = - x)) /\
  (forall t x, c_type t -> sg t = true -> in_type t x -> x <> tmin t -> sat_absolute t x = clamp t (Z.abs x)).
Proof. exact (conj neg_exact abs_exact). Qed.
Print Assumptions C22_negate_absolute_partial.
Example C22_negate_absolute_example :
  sat_neg (mkTy true 8) 127 = -127 /\ sat_neg (mkTy false 8) 255 = -255 /\ sat_absolute (mkTy true 16) (-32767) = 32767.
Proof. vm_compute. auto. Qed.

(* C22. ... of which neither the negation nor the absolute value is clamped: both stay negative. *)
Theorem C22_negate_absolute_min_refuted :
  forall t, c_type t -> sg t = true -> sat_neg t (tmin t) = tmin t /\ sat_absolute t (tmin t) = tmin t /\ tmin t < 0.
Proof.
  intros [s w] Ht Hs. cbn in Hs. subst s. unfold c_type in Ht. cbn [wd] in Ht.
  destruct Ht as [->|[->|[->| ->]]]; vm_compute; auto.
Qed.
Print Assumptions C22_negate_absolute_min_refuted.
Example C22_negate_absolute_min_example : sat_neg (mkTy true 8) (-128) = -128 /\ clamp (mkTy true 8) 128 = 127.
Proof. vm_compute. auto. Qed.
