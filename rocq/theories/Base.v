(* Shared vocabulary of all models: Z-indexed bounds-checked arrays and machine words.
   Nothing here is specific to one file of /repo; the definitions encode C++ array access
   (an access outside the array is undefined behaviour, represented by None) and unsigned
   machine words (C++ [basic.fundamental]: arithmetic modulo 2^w). *)
From Coq Require Export ZArith List Bool Lia.
From Coq Require Export ZifyBool ZifyNat ZifyN.
Export ListNotations.
Global Open Scope Z_scope.
Ltac Zify.zify_post_hook ::= Z.div_mod_to_equations.

(* C++ conversion to a w bit unsigned type. *)
Definition wrap (w x : Z) : Z := x mod 2 ^ w.
Definition u8 (x : Z) : Z := x mod 256.
Definition u16 (x : Z) : Z := x mod 65536.
Definition u32 (x : Z) : Z := x mod 4294967296.

(* C++ conversion to a w bit signed type (two's complement, modulo 2^w). *)
Definition swrap (w x : Z) : Z := (x + 2 ^ (w - 1)) mod 2 ^ w - 2 ^ (w - 1).

(* number of elements of an array *)
Definition zlen {A} (l : list A) : Z := Z.of_nat (length l).

(* array read l[i]; None = out of bounds *)
Definition znth {A} (l : list A) (i : Z) : option A :=
  if i <? 0 then None else nth_error l (Z.to_nat i).

Fixpoint upd_nat {A} (l : list A) (n : nat) (v : A) : option (list A) :=
  match l, n with
  | [], _ => None
  | _ :: t, O => Some (v :: t)
  | x :: t, S m => match upd_nat t m v with Some t' => Some (x :: t') | None => None end
  end.

(* array write l[i] = v; None = out of bounds *)
Definition zupd {A} (l : list A) (i : Z) (v : A) : option (list A) :=
  if i <? 0 then None else upd_nat l (Z.to_nat i) v.

(* sequencing of operations that may be undefined *)
Definition obind {A B} (o : option A) (f : A -> option B) : option B :=
  match o with Some x => f x | None => None end.
Notation "'do' x <- e ; f" := (obind e (fun x => f))
  (at level 200, x pattern, e at level 100, f at level 200, right associativity).

(* ---- lemmas ---- *)
Lemma zlen_nonneg {A} (l : list A) : 0 <= zlen l.
Proof. unfold zlen; lia. Qed.

Lemma zlen_nil (A : Type) : zlen (@nil A) = 0.
Proof. reflexivity. Qed.

Lemma zlen_cons {A} (x : A) l : zlen (x :: l) = 1 + zlen l.
Proof. unfold zlen; cbn [length]; lia. Qed.

Lemma zlen_app {A} (l1 l2 : list A) : zlen (l1 ++ l2) = zlen l1 + zlen l2.
Proof. unfold zlen; rewrite app_length; lia. Qed.

Lemma zlen_map {A B} (f : A -> B) l : zlen (map f l) = zlen l.
Proof. unfold zlen; rewrite map_length; reflexivity. Qed.

Lemma zlen_rev {A} (l : list A) : zlen (rev l) = zlen l.
Proof. unfold zlen; rewrite rev_length; reflexivity. Qed.

Lemma zlen_repeat {A} (x : A) n : zlen (repeat x n) = Z.of_nat n.
Proof. unfold zlen; rewrite repeat_length; reflexivity. Qed.

Lemma zlen_0_nil {A} (l : list A) : zlen l = 0 -> l = [].
Proof. destruct l; [reflexivity|]. rewrite zlen_cons. pose proof (zlen_nonneg l). lia. Qed.

Lemma znth_Some {A} (l : list A) i x : znth l i = Some x -> 0 <= i < zlen l.
Proof.
  unfold znth, zlen. destruct (i <? 0) eqn:E; [discriminate|].
  intro H. assert (nth_error l (Z.to_nat i) <> None) as H1 by congruence.
  apply nth_error_Some in H1. lia.
Qed.

Lemma znth_in_range {A} (l : list A) i : 0 <= i < zlen l -> exists x, znth l i = Some x.
Proof.
  unfold znth, zlen. intro H. destruct (i <? 0) eqn:E; [lia|].
  destruct (nth_error l (Z.to_nat i)) as [x|] eqn:E1; [eauto|].
  apply nth_error_None in E1. lia.
Qed.

Lemma znth_None {A} (l : list A) i : znth l i = None <-> (i < 0 \/ zlen l <= i).
Proof.
  split.
  - intro H. destruct (Z_lt_dec i 0) as [|Hi]; [lia|].
    destruct (Z_lt_dec i (zlen l)) as [Hl|]; [|lia].
    destruct (znth_in_range l i) as [x Hx]; [lia|congruence].
  - intro H. destruct (znth l i) eqn:E; [|reflexivity].
    apply znth_Some in E. lia.
Qed.

Lemma znth_0 {A} (x : A) l : znth (x :: l) 0 = Some x.
Proof. reflexivity. Qed.

Lemma znth_cons {A} (x : A) l i : 0 < i -> znth (x :: l) i = znth l (i - 1).
Proof.
  intro H. unfold znth. destruct (i <? 0) eqn:E; [lia|]. destruct (i - 1 <? 0) eqn:E1; [lia|].
  replace (Z.to_nat i) with (S (Z.to_nat (i - 1))) by lia. reflexivity.
Qed.

Lemma znth_app_l {A} (l1 l2 : list A) i : i < zlen l1 -> znth (l1 ++ l2) i = znth l1 i.
Proof.
  unfold znth, zlen. intro H. destruct (i <? 0) eqn:E; [reflexivity|].
  apply nth_error_app1. lia.
Qed.

Lemma znth_app_r {A} (l1 l2 : list A) i : zlen l1 <= i -> znth (l1 ++ l2) i = znth l2 (i - zlen l1).
Proof.
  unfold znth, zlen. intro H. destruct (i <? 0) eqn:E; [lia|].
  destruct (i - Z.of_nat (length l1) <? 0) eqn:E1; [lia|].
  rewrite nth_error_app2 by lia. f_equal. lia.
Qed.

Lemma upd_nat_spec {A} (l : list A) n v :
  (n < length l)%nat ->
  exists l', upd_nat l n v = Some l' /\ length l' = length l /\
    forall k, nth_error l' k = if Nat.eqb k n then Some v else nth_error l k.
Proof.
  revert n. induction l as [|x t IH]; intros n H; cbn [length] in H; [lia|].
  destruct n as [|m]; cbn [upd_nat].
  - exists (v :: t). repeat split. intros [|k]; reflexivity.
  - destruct (IH m) as (t' & E & L & G); [lia|]. rewrite E. exists (x :: t').
    split; [reflexivity|]. split; [cbn; lia|].
    intros [|k]; cbn; [reflexivity|apply G].
Qed.

Lemma upd_nat_None {A} (l : list A) n v : (length l <= n)%nat -> upd_nat l n v = None.
Proof.
  revert n. induction l as [|x t IH]; intros n H; [reflexivity|].
  destruct n; cbn in *; [lia|]. rewrite IH by lia. reflexivity.
Qed.

Lemma zupd_in_range {A} (l : list A) i v :
  0 <= i < zlen l ->
  exists l', zupd l i v = Some l' /\ zlen l' = zlen l /\
    forall k, znth l' k = if k =? i then Some v else znth l k.
Proof.
  unfold zupd, zlen. intro H. destruct (i <? 0) eqn:E; [lia|].
  destruct (upd_nat_spec l (Z.to_nat i) v) as (l' & E1 & L & G); [lia|].
  exists l'. split; [exact E1|]. split; [lia|].
  intro k. unfold znth. destruct (k <? 0) eqn:Ek.
  - destruct (k =? i) eqn:Eki; [lia|reflexivity].
  - rewrite G. destruct (Nat.eqb_spec (Z.to_nat k) (Z.to_nat i)); destruct (k =? i) eqn:Eki; try reflexivity; lia.
Qed.

Lemma zupd_Some {A} (l : list A) i v l' :
  zupd l i v = Some l' ->
  0 <= i < zlen l /\ zlen l' = zlen l /\
    forall k, znth l' k = if k =? i then Some v else znth l k.
Proof.
  intro H. destruct (Z_lt_dec i 0) as [Hi|Hi].
  { unfold zupd in H. destruct (i <? 0) eqn:E; [discriminate|lia]. }
  destruct (Z_lt_dec i (zlen l)) as [Hl|Hl].
  - destruct (zupd_in_range l i v) as (l2 & E & L & G); [lia|].
    rewrite E in H. injection H as <-. auto with zarith.
  - unfold zupd in H. destruct (i <? 0) eqn:E; [discriminate|].
    rewrite upd_nat_None in H; [discriminate|]. unfold zlen in Hl. lia.
Qed.

Lemma zupd_None {A} (l : list A) i v : zupd l i v = None <-> (i < 0 \/ zlen l <= i).
Proof.
  split.
  - intro H. destruct (Z_lt_dec i 0); [lia|]. destruct (Z_lt_dec i (zlen l)); [|lia].
    destruct (zupd_in_range l i v) as (l2 & E & _); [lia|congruence].
  - intro H. destruct (zupd l i v) eqn:E; [|reflexivity]. apply zupd_Some in E. lia.
Qed.

Lemma znth_ext {A} (l1 l2 : list A) : (forall i, 0 <= i -> znth l1 i = znth l2 i) -> l1 = l2.
Proof.
  revert l2. induction l1 as [|x t IH]; intros [|y s] H.
  - reflexivity.
  - specialize (H 0 ltac:(lia)). discriminate.
  - specialize (H 0 ltac:(lia)). discriminate.
  - pose proof (H 0 ltac:(lia)) as H0. rewrite !znth_0 in H0. injection H0 as ->. f_equal.
    apply IH. intros i Hi. specialize (H (i + 1) ltac:(lia)).
    rewrite !znth_cons in H by lia. replace (i + 1 - 1) with i in H by lia. exact H.
Qed.

Lemma znth_map {A B} (f : A -> B) l i : znth (map f l) i = option_map f (znth l i).
Proof. unfold znth. destruct (i <? 0); [reflexivity|]. apply nth_error_map. Qed.

Lemma znth_repeat {A} (x : A) n i : 0 <= i < Z.of_nat n -> znth (repeat x n) i = Some x.
Proof.
  intro H. destruct (znth_in_range (repeat x n) i) as [y Hy]; [rewrite zlen_repeat; lia|].
  rewrite Hy. f_equal. unfold znth in Hy. destruct (i <? 0); [discriminate|].
  apply nth_error_In in Hy. apply repeat_spec in Hy. exact Hy.
Qed.

Lemma wrap_range w x : 0 <= w -> 0 <= wrap w x < 2 ^ w.
Proof. intro H. unfold wrap. apply Z.mod_pos_bound. apply Z.pow_pos_nonneg; lia. Qed.

Lemma wrap_small w x : 0 <= x < 2 ^ w -> wrap w x = x.
Proof. intro H. unfold wrap. apply Z.mod_small. exact H. Qed.

Lemma swrap_small w x : - 2 ^ (w - 1) <= x < 2 ^ (w - 1) -> 0 < w -> swrap w x = x.
Proof.
  intros H Hw. unfold swrap.
  assert (2 ^ w = 2 * 2 ^ (w - 1)) as E.
  { replace w with (1 + (w - 1)) at 1 by lia. rewrite Z.pow_add_r by lia. reflexivity. }
  rewrite E. rewrite Z.mod_small by lia. lia.
Qed.

Lemma swrap_range w x : 0 < w -> - 2 ^ (w - 1) <= swrap w x < 2 ^ (w - 1).
Proof.
  intros Hw. unfold swrap.
  assert (2 ^ w = 2 * 2 ^ (w - 1)) as E.
  { replace w with (1 + (w - 1)) at 1 by lia. rewrite Z.pow_add_r by lia. reflexivity. }
  assert (0 < 2 ^ (w - 1)) by (apply Z.pow_pos_nonneg; lia).
  pose proof (Z.mod_pos_bound (x + 2 ^ (w - 1)) (2 ^ w)). lia.
Qed.
