(** C60 — inplace_any. *)
From Coq Require Import ZArith List Bool Lia.
From Verif Require Import Base AnyModel AnySpec AnyProofs.
Import ListNotations.
Open Scope Z_scope.

(** A program used in the examples: types 1 and 2; moving leaves 0. *)
Definition leave0 (t v : Z) : Z := 0.
Definition demo : list op :=
  [OCreateValue 10 1 7; OCreate 11; OCopy 11 10; OValue 10 2 5; OSwap 10 11 90; OCreateMove 12 11; OReset 10].
Definition demo_state : st := result leave0 demo start.
Example demo_runs : succeeds leave0 demo start = true /\
  map (contents demo_state) [10; 11; 12; 90] = [Empty; Holds 2 0; Holds 2 5; Nothing] /\
  log demo_state = [Ctor 0; Ctor 1; Dtor 0; Ctor 2; Ctor 3; Dtor 1; Ctor 4; Dtor 2; Ctor 5; Dtor 3; Ctor 6; Dtor 5].
Proof. split; [vm_compute; reflexivity|]. split; vm_compute; reflexivity. Qed.
Lemma demo_reach : reach leave0 demo_state.
Proof. apply (result_reach leave0 demo start); [constructor|vm_compute; reflexivity]. Qed.

(** No allowed operation runs into undefined behaviour. *)
Theorem C60_defined mf s o : reach mf s -> legal (contents s) o -> exists s', exec mf o s = Some s'.
Proof. intros R L. destruct (exec_ok mf s o (reach_inv mf s R) L) as (s' & E & _). exists s'. exact E. Qed.
Example C60_defined_case : reach leave0 demo_state /\ legal (contents demo_state) (OFrom 10 12 2).
Proof. split; [exact demo_reach|]. apply legalb_ok. vm_compute. reflexivity. Qed.

(** Every object is constructed at most once, destroyed at most once and only
    after its construction; the objects that are alive are exactly the contents
    of the existing inplace_any objects, one each. *)
Theorem C60_exactly_once mf s : reach mf s ->
  (forall id, (calls (log s) (Ctor id) <= 1)%nat /\ (calls (log s) (Dtor id) <= 1)%nat) /\
  (forall l1 id l2, log s = l1 ++ Dtor id :: l2 -> In (Ctor id) l1) /\
  (forall id, (In (Ctor id) (log s) /\ ~ In (Dtor id) (log s)) <-> exists i, inside s i id) /\
  (forall i j id, inside s i id -> inside s j id -> i = j).
Proof.
  intro R. pose proof (reach_inv mf s R) as I. split; [|split; [exact (inv_order s I)|split]].
  - intro id. unfold calls. pose proof (inv_nodup s I) as N.
    split; apply (proj1 (NoDup_count_occ _ _) N).
  - intro id. split.
    + intros [A B]. exact (inv_held s I id A B).
    + intros [i H]. exact (inv_alive s I i id H).
  - exact (inv_one s I).
Qed.
Example C60_exactly_once_case : reach leave0 demo_state /\ inside demo_state 12 6 /\ inside demo_state 11 4 /\
  calls (log demo_state) (Dtor 5) = 1%nat.
Proof.
  split; [exact demo_reach|]. split; [|split; [|vm_compute; reflexivity]].
  - exists (Any (Some (Obj 6 2 5)) (Some 2)), (Obj 6 2 5). split; [vm_compute; reflexivity|]. split; reflexivity.
  - exists (Any (Some (Obj 4 2 0)) (Some 2)), (Obj 4 2 0). split; [vm_compute; reflexivity|]. split; reflexivity.
Qed.

(** Once all inplace_any objects are gone, every object ever constructed has been
    destroyed exactly once, and nothing else has been destroyed. *)
Theorem C60_all_destroyed mf s : reach mf s -> (forall i, contents s i = Nothing) ->
  forall id, calls (log s) (Ctor id) = calls (log s) (Dtor id).
Proof.
  intros R N id. pose proof (reach_inv mf s R) as I.
  assert (EV : forall e, calls (log s) e = (if in_dec (fun x y : event => ltac:(decide equality; apply Z.eq_dec) : {x = y} + {x <> y}) e (log s) then 1 else 0)%nat).
  { intro e. unfold calls. destruct (in_dec _ e (log s)) as [H|H].
    - apply (proj1 (NoDup_count_occ' _ _) (inv_nodup s I) e H).
    - apply (proj1 (count_occ_not_In _ _ _) H). }
  rewrite !EV. destruct (in_dec _ (Ctor id) (log s)) as [C|C]; destruct (in_dec _ (Dtor id) (log s)) as [D|D]; try reflexivity; exfalso.
  - destruct (inv_held s I id C D) as [i (a & o & H & _)]. pose proof (N i) as Z. apply contents_nothing in Z. congruence.
  - apply in_split in D. destruct D as (l1 & l2 & D). apply C. rewrite D, in_app_iff. left. exact (inv_order s I l1 id l2 D).
Qed.
Example C60_all_destroyed_case :
  let s := result leave0 (demo ++ [ODestroy 10; ODestroy 11; ODestroy 12]) start in
  reach leave0 s /\ (forall i, contents s i = Nothing) /\
  calls (log s) (Ctor 6) = 1%nat /\ calls (log s) (Dtor 6) = 1%nat.
Proof.
  intro s. split; [apply result_reach; [constructor|vm_compute; reflexivity]|]. split; [|split; vm_compute; reflexivity].
  intro i. unfold s, contents. vm_compute. destruct i as [|p|p]; try reflexivity.
  repeat (destruct p as [p|p|]; try reflexivity).
Qed.

(** Every operation has its intended effect on the contents of all objects.
    Missing: the swap of a holding with an empty object, see C60_swap_refuted. *)
Theorem C60_contents_partial mf s o s' : reach mf s -> legal (contents s) o -> ~ lopsided (contents s) o ->
  exec mf o s = Some s' -> forall k, contents s' k = effect mf o (contents s) k.
Proof.
  intros R L N E k. destruct (exec_ok mf s o (reach_inv mf s R) L) as (s2 & E2 & _ & C). rewrite E in E2. injection E2 as <-. rewrite C.
  destruct o as [i|i j|i j|i t v|i|i j|i j|i j|i j|i t v|i j t|i|i j tmp]; try reflexivity.
  cbn [real_effect effect lopsided legal] in *. destruct L as (L1 & L2 & L3). unfold exists_at in *.
  destruct (Z.eqb_spec i j) as [->|IJ].
  - unfold upd. destruct (Z.eqb_spec k j) as [->|]; reflexivity.
  - destruct (contents s i) as [| |ti vi] eqn:Ci; destruct (contents s j) as [| |tj vj] eqn:Cj; try reflexivity; exfalso; apply N; [left|right]; eauto.
Qed.
Example C60_contents_partial_case : reach leave0 demo_state /\ legal (contents demo_state) (OSwap 11 12 90) /\
  ~ lopsided (contents demo_state) (OSwap 11 12 90) /\
  effect leave0 (OSwap 11 12 90) (contents demo_state) 11 = Holds 2 5.
Proof.
  split; [exact demo_reach|]. split; [apply legalb_ok; vm_compute; reflexivity|].
  split; [|vm_compute; reflexivity]. intros [[H _]|[H _]]; vm_compute in H; discriminate H.
Qed.

(** has_value() and any_cast report exactly that content. *)
Theorem C60_observe mf s i t : reach mf s ->
  match contents s i with
  | Nothing => has_value i s = None
  | Empty => has_value i s = Some false /\ any_cast_ptr t i s = Some None
  | Holds t' v => has_value i s = Some true /\
      (t = t' -> exists o, any_cast_ptr t i s = Some (Some o) /\ oval o = v) /\
      (t <> t' -> any_cast_ptr t i s = Some None)
  end.
Proof.
  intro R. pose proof (reach_inv mf s R) as I. destruct (contents s i) as [| |t' v] eqn:C.
  - unfold has_value. rewrite (contents_nothing s i C). reflexivity.
  - unfold has_value, any_cast_ptr. rewrite (contents_empty s i I C). split; reflexivity.
  - unfold has_value, any_cast_ptr. destruct (contents_holds s i t' v I C) as [id E]. rewrite E. cbn [obind handler storage oty].
    split; [reflexivity|]. split.
    + intros ->. rewrite Z.eqb_refl. eexists. split; reflexivity.
    + intro T. replace (t' =? t) with false by lia. reflexivity.
Qed.
Example C60_observe_case : contents demo_state 12 = Holds 2 5 /\
  any_cast_ptr 2 12 demo_state = Some (Some (Obj 6 2 5)) /\ any_cast_ptr 1 12 demo_state = Some None.
Proof. split; [|split]; vm_compute; reflexivity. Qed.

(** The last value assigned stays readable whatever is done to other objects. *)
Theorem C60_last_value mf s i t v ops : reach mf s -> legal_run mf (OValue i t v :: ops) s ->
  Forall (fun o => ~ writes o i) ops ->
  exists s', run mf (OValue i t v :: ops) s = Some s' /\
    exists o, any_cast_ptr t i s' = Some (Some o) /\ oval o = v.
Proof.
  intros R [L LR] F. destruct (exec_ok mf s _ (reach_inv mf s R) L) as (s1 & E1 & I1 & C1).
  assert (R1 : reach mf s1) by (eapply reach_step; eassumption). specialize (LR s1 E1).
  assert (H1 : contents s1 i = Holds t v) by (rewrite C1; apply upd_same). cbn [run]. rewrite E1. cbn [obind].
  clear s R L E1 C1 I1. revert s1 R1 LR H1. induction ops as [|o ops IH]; intros s R LR H.
  - exists s. split; [reflexivity|]. pose proof (C60_observe mf s i t R) as O. rewrite H in O. exact (proj1 (proj2 O) eq_refl).
  - destruct LR as [L LR]. destruct (exec_ok mf s o (reach_inv mf s R) L) as (s1 & E1 & I1 & C1). cbn [run]. rewrite E1. cbn [obind].
    apply (IH (Forall_inv_tail F)); [eapply reach_step; eassumption|exact (LR s1 E1)|]. rewrite C1.
    pose proof (Forall_inv F) as W. cbn beta in W. rewrite <- H.
    destruct o; cbn [writes real_effect effect] in *; unfold upd;
    repeat match goal with |- context [?a =? ?b] => destruct (Z.eqb_spec a b); subst; try tauto end; try reflexivity;
    repeat match goal with |- context [contents s ?x] => destruct (contents s x) end; unfold upd;
    repeat match goal with |- context [?a =? ?b] => destruct (Z.eqb_spec a b); subst; try tauto end; reflexivity.
Qed.
Example C60_last_value_case : legal_run leave0 [OValue 10 1 42; OReset 11; OMove 11 12] demo_state /\
  Forall (fun o => ~ writes o 10) [OReset 11; OMove 11 12].
Proof.
  split.
  - apply result_reach; [exact demo_reach|vm_compute; reflexivity].
  - repeat constructor; cbn; lia.
Qed.

(** A move leaves the source holding a moved-from object: it is not empty. *)
Theorem C60_moved_from mf s i j s' t v : reach mf s -> i <> j -> contents s i <> Nothing -> contents s j = Holds t v ->
  exec mf (OMove i j) s = Some s' -> contents s' i = Holds t v /\ contents s' j = Holds t (mf t v) /\ has_value j s' = Some true.
Proof.
  intros R IJ N H E. assert (L : legal (contents s) (OMove i j)) by (split; [exact N|unfold exists_at; rewrite H; discriminate]).
  assert (LL : ~ lopsided (contents s) (OMove i j)) by (intros []).
  pose proof (C60_contents_partial mf s (OMove i j) s' R L LL E) as C. cbn [effect] in C.
  assert (R' : reach mf s') by (eapply reach_step; eassumption). pose proof (C60_observe mf s' j 0 R') as O.
  pose proof (C i) as Ci. pose proof (C j) as Cj. replace (i =? j) with false in * by lia. rewrite H in *. cbn [moved] in *.
  rewrite upd_same in Ci. rewrite upd_other, upd_same in Cj by auto. rewrite Cj in O. split; [exact Ci|]. split; [exact Cj|]. exact (proj1 O).
Qed.
Example C60_moved_from_case : contents demo_state 12 = Holds 2 5 /\ contents demo_state 10 = Empty /\
  contents (result leave0 [OMove 10 12] demo_state) 12 = Holds 2 0.
Proof. split; [|split]; vm_compute; reflexivity. Qed.

(** Swapping a holding object with an empty one: afterwards both hold a value. *)
Theorem C60_swap_lopsided mf s i j tmp s' t v : reach mf s -> contents s i = Holds t v -> contents s j = Empty -> contents s tmp = Nothing ->
  exec mf (OSwap i j tmp) s = Some s' \/ exec mf (OSwap j i tmp) s = Some s' ->
  contents s' j = Holds t v /\ contents s' i = Holds t (mf t v) /\ has_value i s' = Some true.
Proof.
  intros R Hi Hj Ht E. assert (IJ : i <> j) by congruence.
  assert (C : same (contents s') (upd (upd (contents s) i (Holds t (mf t v))) j (Holds t v)) /\ reach mf s').
  { destruct E as [E|E].
    - assert (L : legal (contents s) (OSwap i j tmp)) by (split; [unfold exists_at; congruence|split; [unfold exists_at; congruence|exact Ht]]).
      destruct (exec_ok mf s _ (reach_inv mf s R) L) as (s2 & E2 & _ & C). rewrite E in E2. injection E2 as <-.
      split; [|eapply reach_step; eassumption]. intro k. rewrite C. cbn [real_effect]. replace (i =? j) with false by lia. rewrite Hi, Hj. reflexivity.
    - assert (L : legal (contents s) (OSwap j i tmp)) by (split; [unfold exists_at; congruence|split; [unfold exists_at; congruence|exact Ht]]).
      destruct (exec_ok mf s _ (reach_inv mf s R) L) as (s2 & E2 & _ & C). rewrite E in E2. injection E2 as <-.
      split; [|eapply reach_step; eassumption]. intro k. rewrite C. cbn [real_effect]. replace (j =? i) with false by lia. rewrite Hi, Hj. reflexivity. }
  destruct C as [C R']. pose proof (C60_observe mf s' i 0 R') as O. rewrite (C i) in O.
  rewrite (C j), upd_same, (C i). rewrite upd_other, upd_same in * by auto. split; [reflexivity|]. split; [reflexivity|]. exact (proj1 O).
Qed.
Example C60_swap_lopsided_case : contents demo_state 12 = Holds 2 5 /\ contents demo_state 10 = Empty /\ contents demo_state 90 = Nothing /\
  succeeds leave0 [OSwap 12 10 90] demo_state = true.
Proof. split; [|split; [|split]]; vm_compute; reflexivity. Qed.

(** So swap does not exchange the two contents. *)
Theorem C60_swap_refuted : exists mf s i j tmp s', reach mf s /\ legal (contents s) (OSwap i j tmp) /\
  exec mf (OSwap i j tmp) s = Some s' /\ contents s j = Empty /\ contents s' i <> Empty.
Proof.
  assert (L : legal (contents demo_state) (OSwap 12 10 90)) by (apply legalb_ok; vm_compute; reflexivity).
  destruct (C60_defined leave0 demo_state (OSwap 12 10 90) demo_reach L) as [s' E].
  exists leave0, demo_state, 12, 10, 90, s'. split; [exact demo_reach|]. split; [exact L|]. split; [exact E|]. split; [vm_compute; reflexivity|].
  destruct (C60_swap_lopsided leave0 demo_state 12 10 90 s' 2 5 demo_reach) as (_ & H & _);
    [vm_compute; reflexivity|vm_compute; reflexivity|vm_compute; reflexivity|left; exact E|]. rewrite H. discriminate.
Qed.

(** Assigning (or emplacing) a reference to the own content reads a destroyed
    object, whatever the content is. *)
Theorem C60_own_content_undefined mf s i t v : reach mf s -> contents s i = Holds t v -> exec mf (OFrom i i t) s = None.
Proof.
  intros R H. pose proof (reach_inv mf s R) as I. cbn [exec]. unfold assign_from, any_cast_ref. destruct (contents_holds s i t v I H) as [id E].
  rewrite E. cbn [obind handler]. rewrite Z.eqb_refl. cbn [obind].
  destruct (destruct_ok s i I) as (s1 & R1 & I1 & C1); [congruence|]. rewrite R1. cbn [obind].
  assert (X : contents s1 i = Empty) by (rewrite C1; apply upd_same). rewrite (contents_empty s1 i I1 X). reflexivity.
Qed.
Example C60_own_content_undefined_case : reach leave0 demo_state /\ contents demo_state 12 = Holds 2 5.
Proof. split; [exact demo_reach|vm_compute; reflexivity]. Qed.

(** A cast to a type the object does not hold stops in the assertion instead of
    reading the storage. *)
Theorem C60_bad_cast mf s i j t : reach mf s -> (forall v, contents s j <> Holds t v) ->
  any_cast_ref t j s = None /\ exec mf (OFrom i j t) s = None.
Proof.
  intros R N. pose proof (reach_inv mf s R) as I.
  assert (K : any_cast_ref t j s = None).
  { unfold any_cast_ref. destruct (contents s j) as [| |t' v] eqn:C.
    - rewrite (contents_nothing s j C). reflexivity.
    - rewrite (contents_empty s j I C). reflexivity.
    - destruct (contents_holds s j t' v I C) as [id E]. rewrite E. cbn [obind handler]. destruct (Z.eqb_spec t' t) as [->|]; [|reflexivity].
      exfalso. exact (N v eq_refl). }
  split; [exact K|]. cbn [exec]. unfold assign_from. rewrite K. reflexivity.
Qed.
Example C60_bad_cast_case : reach leave0 demo_state /\ contents demo_state 12 = Holds 2 5 /\ any_cast_ref 1 12 demo_state = None.
Proof. split; [exact demo_reach|]. split; vm_compute; reflexivity. Qed.

Print Assumptions C60_bad_cast.
Print Assumptions C60_defined.
Print Assumptions C60_exactly_once.
Print Assumptions C60_all_destroyed.
Print Assumptions C60_contents_partial.
Print Assumptions C60_observe.
Print Assumptions C60_last_value.
Print Assumptions C60_moved_from.
Print Assumptions C60_swap_lopsided.
Print Assumptions C60_swap_refuted.
Print Assumptions C60_own_content_undefined.
