(* The integer types of C++, shared by the models of the generic (template) classes. Nothing here is specific to one file
   of /repo: [conv] is the conversion of C++20 [conv.integral] (modulo 2^w), and because modm is compiled with -fwrapv
   (/repo/tools/build_script_generator/common.py:231) signed arithmetic is the exact result followed by [conv]. *)
From Verif Require Import Base.

(* a C++ integer type: signedness and width (8, 16, 32 or 64) *)
(* e.g. the template parameter of /repo/src/modm/math/saturation/saturated.hpp:36-46 *)
Record ity := mkTy { sg : bool; wd : Z }.
(* std::numeric_limits<T>::min/max, e.g. /repo/src/modm/math/saturation/saturated.hpp:47-48 *)
Definition tmin (t : ity) : Z := if sg t then - 2 ^ (wd t - 1) else 0.
(* saturated.hpp:47-48 *)
Definition tmax (t : ity) : Z := if sg t then 2 ^ (wd t - 1) - 1 else 2 ^ wd t - 1.
(* conversion to T *)
(* common.py:231 (-fwrapv) *)
Definition conv (t : ity) (x : Z) : Z := if sg t then swrap (wd t) x else wrap (wd t) x.
(* integral promotion to a 32 bit int (C++ [conv.prom]); both int8_t..uint16_t become int *)
(* common.py:231 (-fwrapv); no file of its own *)
Definition promote (t : ity) : ity := if wd t <? 32 then mkTy true 32 else t.


(* saturated.hpp:47-48 *)
Definition in_type (t : ity) (x : Z) : Prop := tmin t <= x <= tmax t.
(* the integer types of C++ *)
(* saturated.hpp:36-46 *)
Definition c_type (t : ity) : Prop := wd t = 8 \/ wd t = 16 \/ wd t = 32 \/ wd t = 64.

Lemma conv_small t x : 0 < wd t -> in_type t x -> conv t x = x.
Proof.
  intros Hw Hx. unfold in_type, tmin, tmax, conv in *. destruct (sg t).
  - apply swrap_small; lia.
  - apply wrap_small; lia.
Qed.
Lemma c_type_pos t : c_type t -> 8 <= wd t. Proof. unfold c_type. lia. Qed.
Lemma tmin_tmax t : 0 < wd t -> tmin t <= 0 /\ 0 <= tmax t /\ (sg t = true -> tmin t = - tmax t - 1).
Proof.
  intro H. unfold tmin, tmax. pose proof (Z.pow_pos_nonneg 2 (wd t - 1) ltac:(lia) ltac:(lia)).
  pose proof (Z.pow_pos_nonneg 2 (wd t) ltac:(lia) ltac:(lia)). destruct (sg t); lia.
Qed.


Lemma conv_in_type t x : 0 < wd t -> in_type t (conv t x).
Proof.
  intro H. unfold in_type, conv, tmin, tmax. destruct (sg t).
  - pose proof (swrap_range (wd t) x H). lia.
  - pose proof (wrap_range (wd t) x ltac:(lia)). lia.
Qed.
(* conversion is a function of the residue class *)
Lemma conv_cong t x y : 0 < wd t -> x mod 2 ^ wd t = y mod 2 ^ wd t -> conv t x = conv t y.
Proof.
  intros Hw H. assert (2 ^ wd t <> 0) by (pose proof (Z.pow_pos_nonneg 2 (wd t)); lia).
  unfold conv, swrap, wrap. destruct (sg t); [|exact H].
  rewrite (Z.add_mod x), (Z.add_mod y), H by assumption. reflexivity.
Qed.
Lemma conv_mod t x : 0 < wd t -> conv t x mod 2 ^ wd t = x mod 2 ^ wd t.
Proof.
  intros Hw. assert (2 ^ wd t <> 0) by (pose proof (Z.pow_pos_nonneg 2 (wd t)); lia).
  unfold conv, swrap, wrap. destruct (sg t); [|apply Z.mod_mod; assumption].
  rewrite Zminus_mod_idemp_l. f_equal. lia.
Qed.
Lemma conv_add_l t x y : 0 < wd t -> conv t (conv t x + y) = conv t (x + y).
Proof.
  intro Hw. apply conv_cong; [assumption|]. rewrite <- Zplus_mod_idemp_l, conv_mod, Zplus_mod_idemp_l by assumption. reflexivity.
Qed.
Lemma conv_add_r t x y : 0 < wd t -> conv t (x + conv t y) = conv t (x + y).
Proof. intro Hw. rewrite Z.add_comm, conv_add_l, Z.add_comm by assumption. reflexivity. Qed.
Lemma conv_sub_l t x y : 0 < wd t -> conv t (conv t x - y) = conv t (x - y).
Proof. intro Hw. rewrite <- !Z.add_opp_r. apply conv_add_l. assumption. Qed.
Lemma conv_mul_l t x y : 0 < wd t -> conv t (conv t x * y) = conv t (x * y).
Proof.
  intro Hw. apply conv_cong; [assumption|]. rewrite <- Zmult_mod_idemp_l, conv_mod, Zmult_mod_idemp_l by assumption. reflexivity.
Qed.
Lemma conv_mul_r t x y : 0 < wd t -> conv t (x * conv t y) = conv t (x * y).
Proof. intro Hw. rewrite Z.mul_comm, conv_mul_l, Z.mul_comm by assumption. reflexivity. Qed.
Lemma conv_conv t x : 0 < wd t -> conv t (conv t x) = conv t x.
Proof. intro Hw. apply conv_cong; [assumption|]. apply conv_mod. assumption. Qed.
