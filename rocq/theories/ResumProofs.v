From Coq Require Import ZArith List Bool Lia.
From Verif Require Import Base SliceLemmas ResumModel ResumSpec.
Import ListNotations.
Open Scope Z_scope.

(** *** Lists *)
Lemma zlen_app' {A} (a b : list A) : zlen (a ++ b) = zlen a + zlen b.
Proof. unfold zlen. rewrite app_length. lia. Qed.
Lemma zlen_nn {A} (a : list A) : 0 <= zlen a.
Proof. unfold zlen. lia. Qed.
Lemma zlen_cons' {A} (x : A) a : zlen (x :: a) = 1 + zlen a.
Proof. unfold zlen. cbn [length]. lia. Qed.
Lemma znth_mid {A} (a : list A) x b : znth (a ++ x :: b) (zlen a) = Some x.
Proof. unfold znth, zlen. replace (Z.of_nat (length a) <? 0) with false by lia. rewrite Nat2Z.id, nth_error_app2, Nat.sub_diag by lia. reflexivity. Qed.
Lemma znth_past {A} (a : list A) : znth a (zlen a) = None.
Proof. unfold znth, zlen. replace (Z.of_nat (length a) <? 0) with false by lia. rewrite Nat2Z.id. apply nth_error_None. lia. Qed.
Lemma zupd_mid {A} (a : list A) x b y : zupd (a ++ x :: b) (zlen a) y = Some (a ++ y :: b).
Proof.
  unfold zupd, zlen. replace (Z.of_nat (length a) <? 0) with false by lia. rewrite Nat2Z.id. induction a as [|h a IH]; [reflexivity|]. cbn. rewrite IH. reflexivity.
Qed.
Lemma znth_range {A} (l : list A) i x : znth l i = Some x -> 0 <= i < zlen l.
Proof.
  unfold znth, zlen. destruct (i <? 0) eqn:E; [discriminate|]. intro H.
  assert (nth_error l (Z.to_nat i) <> None) by congruence. apply nth_error_Some in H0. lia.
Qed.

(** *** Case labels *)
Lemma fn_small P f : small P -> 0 <= counter (fn P f) /\ zlen (body (fn P f)) <= 253.
Proof.
  intro S. unfold fn. destruct (znth P f) as [x|] eqn:E; [|cbn; unfold zlen; cbn; lia].
  unfold small in S. rewrite Forall_forall in S. apply S. unfold znth in E. destruct (f <? 0); [discriminate|]. apply nth_error_In in E. exact E.
Qed.
Lemma number_pos c : 1 <= number c <= 255.
Proof. unfold number. pose proof (Z.mod_pos_bound c 255). lia. Qed.
Lemma label_pos P f k : 1 <= label P f k <= 255.
Proof. apply number_pos. Qed.
Lemma mod_of_number c : (number c - 1) mod 255 = c mod 255.
Proof. unfold number. replace (c mod 255 + 1 - 1) with (c mod 255) by lia. apply Z.mod_mod. lia. Qed.

Lemma entry_label P f j : small P -> labelled P f j ->
  entry P f (label P f j) = match stmt_at P f j with Some Yield => Some (j + 1) | _ => Some j end.
Proof.
  intros S LB. unfold labelled in LB. destruct (fn_small P f S) as [C B].
  assert (J : 0 <= j < zlen (body (fn P f))).
  { unfold stmt_at in LB. destruct (znth (body (fn P f)) j) eqn:E; [apply znth_range in E; exact E|contradiction]. }
  unfold entry. pose proof (label_pos P f j) as LP. replace (label P f j =? Stopped) with false by (unfold Stopped; lia).
  assert (NB : label P f j <> begin_label P f).
  { unfold label, begin_label, number. set (c := counter (fn P f)) in *. intro E. assert ((c + 2 + j) mod 255 = (c + 1) mod 255) by lia. clear E.
    pose proof (Z.div_mod (c + 2 + j) 255). pose proof (Z.div_mod (c + 1) 255). lia. }
  replace (label P f j =? begin_label P f) with false by lia.
  assert (K : (label P f j - 1 - (counter (fn P f) + 2)) mod 255 = j).
  { unfold label. rewrite Zminus_mod, mod_of_number, <- Zminus_mod. replace (counter (fn P f) + 2 + j - (counter (fn P f) + 2)) with j by lia. apply Z.mod_small. lia. }
  rewrite K. destruct (stmt_at P f j) as [[]|]; try contradiction; reflexivity.
Qed.

Lemma entry_other P f g j : small P -> no_clash P -> 0 <= f < zlen P -> 0 <= g < zlen P -> f <> g -> labelled P f j ->
  entry P g (label P f j) = None.
Proof.
  intros S N F G FG LB. unfold entry. pose proof (label_pos P f j) as LP. replace (label P f j =? Stopped) with false by (unfold Stopped; lia).
  destruct (label P f j =? begin_label P g) eqn:E.
  - exfalso. apply (N f g j (-1) F G FG LB (or_introl eq_refl)). unfold label, begin_label, number in E.
    set (a := counter (fn P f)) in *. set (b := counter (fn P g)) in *. assert (Q : (a + 2 + j) mod 255 = (b + 1) mod 255) by lia.
    replace (a + j - (b + -1)) with (a + 2 + j - (b + 1)) by lia. rewrite Zminus_mod, Q, Z.sub_diag. reflexivity.
  - set (k := (label P f j - 1 - (counter (fn P g) + 2)) mod 255).
    assert (NL : ~ labelled P g k).
    { intro LK. apply (N f g j k F G FG LB (or_intror LK)). unfold k, label. set (a := counter (fn P f)). set (b := counter (fn P g)).
      rewrite (Zminus_mod (number _ - 1)), mod_of_number, <- Zminus_mod. rewrite (Zminus_mod (a + j)), (Zplus_mod b), Z.mod_mod, <- Zplus_mod, <- Zminus_mod by lia.
      replace (a + j - (b + (a + 2 + j - (b + 2)))) with 0 by lia. reflexivity. }
    unfold labelled in NL. destruct (stmt_at P g k) as [[]|]; try reflexivity; exfalso; apply NL; exact Logic.I.
Qed.

(** *** Nested functions *)
Definition zeros (l : list Z) : Prop := Forall (fun x => x = 0) l.

Lemma steps_app L P a es b es2 c : steps L P a es b -> steps L P b es2 c -> steps L P a (es ++ es2) c.
Proof. induction 1; intro H2; [exact H2|]. cbn [app]. econstructor; eauto. Qed.
Lemma steps_snoc L P a es b e c : steps L P a es b -> step L P b e c -> steps L P a (es ++ [e]) c.
Proof. intros A B. apply (steps_app _ _ _ _ _ _ _ A). econstructor; [exact B|constructor]. Qed.

(** The stored states of the levels from here on, outermost frame first. *)
Inductive chain (P : list func) : list Z -> list (Z * Z) -> Prop :=
  | ch_yield f j zs : stmt_at P f j = Some Yield -> zeros zs -> chain P (label P f j :: zs) [(f, j + 1)]
  | ch_wait f j zs : stmt_at P f j = Some Wait -> zeros zs -> chain P (label P f j :: zs) [(f, j)]
  | ch_call f j g k zs r : stmt_at P f j = Some (Call g) -> chain P zs ((g, k) :: r) -> chain P (label P f j :: zs) ((f, j) :: (g, k) :: r).

Fixpoint pending (ch : list (Z * Z)) : list event :=
  match ch with
  | [] => [] | [_] => []
  | x :: r => Ev (fst x) (snd x) true :: pending r
  end.

Section N.
Variable L : Z.
Variable cond : list event -> bool.
Variable P : list func.
Hypothesis SM : small P.

Lemma idx_own s pre x zs : states s = pre ++ x :: zs -> zlen (states s) = L -> level s = zlen pre + 1 -> (if L =? 1 then 0 else level s - 1) = zlen pre.
Proof. intros E Q V. rewrite E, zlen_app', zlen_cons' in Q. pose proof (zlen_nn pre). pose proof (zlen_nn zs). destruct (L =? 1) eqn:B; lia. Qed.
Lemma set_own s pre x zs y k : states s = pre ++ x :: zs -> zlen (states s) = L -> level s = zlen pre + 1 ->
  setRf L y s k = k (St (level s) (pre ++ y :: zs) (log s)).
Proof. intros E Q V. unfold setRf, put. rewrite (idx_own s pre x zs E Q V), E, zupd_mid. reflexivity. Qed.
Lemma stop_own s pre x zs k : states s = pre ++ x :: zs -> zlen (states s) = L -> level s = zlen pre + 1 ->
  stopRf L s k = k (St (level s) (pre ++ 0 :: zs) (log s)).
Proof. intros E Q V. unfold stopRf, put. rewrite (idx_own s pre x zs E Q V), E, zupd_mid. reflexivity. Qed.
Lemma push_own s pre x zs k : states s = pre ++ x :: zs -> zlen (states s) = L -> level s = zlen pre ->
  pushRf L s k = k x (St (zlen pre + 1) (states s) (log s)).
Proof.
  intros E Q V. unfold pushRf. pose proof (zlen_nn pre) as PP. pose proof (zlen_nn zs) as PZ.
  assert (ZL : zlen (pre ++ x :: zs) = L) by (rewrite <- E; exact Q). rewrite zlen_app', zlen_cons' in ZL.
  rewrite E. destruct (L =? 1) eqn:B.
  - replace 0 with (zlen pre) by lia. rewrite znth_mid. replace (zlen pre + 1) with 1 by lia. reflexivity.
  - rewrite V, znth_mid. reflexivity.
Qed.
Lemma pop_own (pre : list Z) x zs s : zlen (pre ++ x :: zs) = L -> level s = zlen pre + 1 -> popRf L s = St (zlen pre) (states s) (log s).
Proof. intros Q V. rewrite zlen_app', zlen_cons' in Q. pose proof (zlen_nn pre). pose proof (zlen_nn zs). unfold popRf. f_equal. destruct (L =? 1) eqn:B; lia. Qed.
Lemma ok_own s pre sts : 1 <= L -> states s = pre ++ sts -> zlen (states s) = L -> level s = zlen pre -> nestingOkRf L true s = match sts with [] => false | _ => true end.
Proof.
  intros L1 E Q V. rewrite E, zlen_app' in Q. pose proof (zlen_nn pre). unfold nestingOkRf. destruct sts as [|x zs].
  - cbn [zlen length] in Q. unfold zlen in Q at 2. cbn in Q. destruct (L =? 1) eqn:B; lia.
  - rewrite zlen_cons' in Q. pose proof (zlen_nn zs). destruct (L =? 1) eqn:B; lia.
Qed.

(** How a call of function [f] at a level with the outer states [pre] and the
    outer frames [o] ends, started with stack [c]. *)
Definition ends (f : Z) (pre : list Z) (o c : stack) (l0 : list event) (r : Z) (s' : st) : Prop :=
  exists es, log s' = l0 ++ es /\ level s' = zlen pre /\ zlen (states s') = L /\
   ((r = rStop /\ (exists zs, states s' = pre ++ zs /\ zeros zs) /\ steps L P c es (return_to o)) \/
    (r = rRunning /\ exists sts k t es1 e c1, states s' = pre ++ sts /\ chain P sts ((f, k) :: t) /\ es = es1 ++ [e] /\
       steps L P c es1 c1 /\ pause P c1 e (rev ((f, k) :: t) ++ o))).

Lemma ends_step f pre o c e c1 l0 r s' : step L P c e c1 -> ends f pre o c1 (l0 ++ [e]) r s' -> ends f pre o c l0 r s'.
Proof.
  intros S (es & E1 & E2 & E3 & H). exists (e :: es). split; [rewrite E1, <- app_assoc; reflexivity|]. split; [exact E2|]. split; [exact E3|].
  destruct H as [(R & ZZ & T)|(R & sts & k & t & es1 & e1 & c2 & Q1 & Q2 & Q3 & Q4 & Q5)].
  - left. split; [exact R|]. split; [exact ZZ|]. econstructor; eauto.
  - right. split; [exact R|]. exists sts, k, t, (e :: es1), e1, c2. split; [exact Q1|]. split; [exact Q2|]. split; [rewrite Q3; reflexivity|]. split; [econstructor; eauto|exact Q5].
Qed.
Lemma ends_steps f pre o c es c1 l0 r s' : steps L P c es c1 -> ends f pre o c1 (l0 ++ es) r s' -> ends f pre o c l0 r s'.
Proof.
  intro S. revert l0. induction S as [c|c e c1 es c2 S1 S2 IH]; intros l0 E; [rewrite app_nil_r in E; exact E|].
  apply (ends_step f pre o c e c1 l0 r s' S1). apply IH. rewrite <- app_assoc. exact E.
Qed.

Definition good (f : Z) (pre : list Z) (o c : stack) (l0 : list event) (x : res) : Prop :=
  match x with Done r s' => ends f pre o c l0 r s' | Undef => False | Fuel => True end.

Lemma good_step f pre o c e c1 l0 x : step L P c e c1 -> good f pre o c1 (l0 ++ [e]) x -> good f pre o c l0 x.
Proof. intros S. destruct x; cbn; auto. apply ends_step. exact S. Qed.
Lemma good_steps f pre o c es c1 l0 x : steps L P c es c1 -> good f pre o c1 (l0 ++ es) x -> good f pre o c l0 x.
Proof. intros S. destruct x; cbn; auto. apply ends_steps. exact S. Qed.

(** Executing with nothing suspended above. *)
Definition exec_good (n : nat) : Prop := forall f k s pre x zs o,
  states s = pre ++ x :: zs -> zeros zs -> zlen (states s) = L -> level s = zlen pre + 1 -> zlen o = zlen pre ->
  good f pre o ((f, k) :: o) (log s) (exec L true cond P n f k s).

Lemma enter_fresh n f s pre x zs o : 1 <= L -> exec_good n -> states s = pre ++ x :: zs -> x = 0 -> zeros zs -> zlen (states s) = L -> level s = zlen pre -> zlen o = zlen pre ->
  good f pre o ((f, 0) :: o) (log s) (enter L true P (exec L true cond P n) f s).
Proof.
  intros L1 EX E X ZZ Q V O. unfold enter. rewrite (ok_own s pre (x :: zs) L1 E Q V). cbn [negb].
  rewrite (push_own s pre x zs _ E Q V). subst x. cbn [Z.eqb Stopped].
  rewrite (set_own _ pre 0 zs); [|exact E|exact Q|reflexivity].
  cbn [level states log].
  assert (Q' : zlen (pre ++ begin_label P f :: zs) = L) by (rewrite E in Q; rewrite zlen_app', zlen_cons' in *; lia).
  exact (EX f 0 (St (zlen pre + 1) (pre ++ begin_label P f :: zs) (log s)) pre _ zs o eq_refl ZZ Q' eq_refl O).
Qed.

Lemma enter_full n f s pre : 1 <= L -> states s = pre -> zlen (states s) = L -> level s = zlen pre -> enter L true P (exec L true cond P n) f s = Done rNestingError s.
Proof. intros L1 E Q V. unfold enter. rewrite (ok_own s pre [] L1); [reflexivity|rewrite app_nil_r; exact E|exact Q|exact V]. Qed.

Lemma zlen_swap {A} (pre : list A) x y zs : zlen (pre ++ x :: zs) = L -> zlen (pre ++ y :: zs) = L.
Proof. rewrite !zlen_app', !zlen_cons'. auto. Qed.

Lemma zeros_chain_app pre x zs0 : zeros zs0 -> (pre ++ [x]) ++ zs0 = pre ++ x :: zs0.
Proof. intros _. rewrite <- app_assoc. reflexivity. Qed.

(** After the called function [g] has returned. *)
Lemma after_call n f j g s1 pre o lg c0 x :
  exec_good n -> zlen o = zlen pre -> stmt_at P f j = Some (Call g) ->
  good g (pre ++ [label P f j]) ((f, j) :: o) c0 lg x ->
  s1 = x ->
  good f pre o c0 lg (match s1 with
     | Done r s => if rNestingError <? r then Done rRunning (popRf L s) else exec L true cond P n f (j + 1) s
     | Undef => Undef | Fuel => Fuel end).
Proof.
  intros EX O SC G ->. destruct x as [r s| |]; [|exact G|exact Logic.I]. cbn [good] in G.
  destruct G as (es & E1 & E2 & E3 & H). rewrite zlen_app', zlen_cons' in E2. cbn [zlen length] in E2. change (zlen (@nil Z)) with 0 in E2.
  destruct H as [(R & (zs & Z1 & Z2) & T)|(R & sts & k & t & es1 & e & c1 & Q1 & Q2 & Q3 & Q4 & Q5)].
  - subst r. cbn [rStop rNestingError Z.ltb Z.compare]. cbn [return_to] in T. rewrite <- app_assoc in Z1. cbn [app] in Z1.
    apply (good_steps f pre o c0 es _ lg _ T). rewrite <- E1.
    apply (EX f (j + 1) s pre (label P f j) zs o); [exact Z1|exact Z2|exact E3|lia|exact O].
  - subst r. cbn [rRunning rNestingError Z.ltb Z.compare Pos.compare Pos.compare_cont]. cbn [good]. rewrite <- app_assoc in Q1. cbn [app] in Q1.
    exists es. rewrite (pop_own pre (label P f j) sts); [|rewrite <- Q1; exact E3|lia]. cbn [log level states].
    split; [exact E1|]. split; [reflexivity|]. split; [exact E3|]. right. split; [reflexivity|].
    exists (label P f j :: sts), j, ((g, k) :: t), es1, e, c1. split; [exact Q1|]. split; [apply ch_call; [exact SC|exact Q2]|]. split; [exact Q3|]. split; [exact Q4|].
    cbn [rev] in *. rewrite <- !app_assoc in *. cbn [app] in *. exact Q5.
Qed.

Lemma exec_ok : 1 <= L -> forall n, exec_good n.
Proof.
  intro L1. induction n as [|n IH]; intros f k s pre x zs o E ZZ Q V O; [exact Logic.I|].
  assert (Q2 : zlen (pre ++ x :: zs) = L) by (rewrite <- E; exact Q).
  cbn [exec]. destruct (stmt_at P f k) as [t|] eqn:T; [destruct t|].
  - apply (good_step f pre o _ (Ev f k true) ((f, k + 1) :: o)); [apply s_work; exact T|]. apply (IH f (k + 1) (note (Ev f k true) s) pre x zs o); assumption.
  - rewrite (set_own (note (Ev f k true) s) pre x zs); [|exact E|exact Q|exact V]. cbn [level log note states].
    rewrite (pop_own pre (label P f k) zs); [|exact (zlen_swap _ _ _ _ Q2)|exact V]. cbn [states log good].
    exists [Ev f k true]. cbn [log level states]. split; [reflexivity|]. split; [reflexivity|]. split; [exact (zlen_swap _ _ _ _ Q2)|]. right. split; [reflexivity|].
    exists (label P f k :: zs), (k + 1), [], [], (Ev f k true), ((f, k) :: o). split; [reflexivity|]. split; [apply ch_yield; assumption|]. split; [reflexivity|]. split; [constructor|]. cbn [rev app]. apply p_yield. exact T.
  - rewrite (set_own s pre x zs); [|exact E|exact Q|exact V]. cbn [level log note states]. destruct (cond (log s)) eqn:C.
    + rewrite (pop_own pre (label P f k) zs); [|exact (zlen_swap _ _ _ _ Q2)|exact V]. cbn [states log good].
      exists [Ev f k true]. cbn [log level states]. split; [reflexivity|]. split; [reflexivity|]. split; [exact (zlen_swap _ _ _ _ Q2)|]. right. split; [reflexivity|].
      exists (label P f k :: zs), k, [], [], (Ev f k true), ((f, k) :: o). split; [reflexivity|]. split; [apply ch_wait; assumption|]. split; [reflexivity|]. split; [constructor|]. cbn [rev app]. apply p_wait. exact T.
    + apply (good_step f pre o _ (Ev f k false) ((f, k + 1) :: o)); [apply s_wait; exact T|].
      apply (IH f (k + 1) (St (level s) (pre ++ label P f k :: zs) (log s ++ [Ev f k false])) pre (label P f k) zs o); [reflexivity|exact ZZ|exact (zlen_swap _ _ _ _ Q2)|exact V|exact O].
  - rewrite (set_own (note (Ev f k true) s) pre x zs); [|exact E|exact Q|exact V]. cbn [level log note states].
    set (s1 := St (level s) (pre ++ label P f k :: zs) (log s ++ [Ev f k true])).
    assert (V1 : level s1 = zlen (pre ++ [label P f k])) by (cbn [level s1]; rewrite zlen_app', zlen_cons'; change (zlen (@nil Z)) with 0; lia).
    assert (Q1 : zlen (states s1) = L) by (exact (zlen_swap _ _ _ _ Q2)).
    assert (OL : zlen ((f, k) :: o) = zlen (pre ++ [label P f k])) by (rewrite zlen_app', !zlen_cons'; change (zlen (@nil Z)) with 0; lia).
    destruct zs as [|z zs].
    + rewrite (enter_full n g s1 (pre ++ [label P f k]) L1 eq_refl Q1 V1). cbn [rNestingError Z.ltb Z.compare Pos.compare Pos.compare_cont].
      apply (good_step f pre o _ (Ev f k true) ((f, k + 1) :: o)).
      * apply (s_too_deep L P f k g o T). rewrite zlen_cons', O. rewrite zlen_app', zlen_cons' in Q2. change (zlen (@nil Z)) with 0 in Q2. lia.
      * apply (IH f (k + 1) s1 pre (label P f k) [] o); [reflexivity|exact ZZ|exact Q1|exact V|exact O].
    + apply (good_step f pre o _ (Ev f k true) ((g, 0) :: (f, k) :: o)).
      * apply (s_call L P f k g o T). rewrite zlen_cons', O. rewrite zlen_app', !zlen_cons' in Q2. pose proof (zlen_nn zs). lia.
      * apply (after_call n f k g _ pre o (log s ++ [Ev f k true]) _ (enter L true P (exec L true cond P n) g s1)); [exact IH|exact O|exact T| |reflexivity].
        apply (enter_fresh n g s1 (pre ++ [label P f k]) z zs ((f, k) :: o)); [exact L1|exact IH|cbn [states s1]; rewrite <- app_assoc; reflexivity|exact (Forall_inv ZZ)|exact (Forall_inv_tail ZZ)|exact Q1|exact V1|exact OL].
  - apply (good_step f pre o _ (Ev f k (cond (log s))) ((f, if cond (log s) then k0 else k + 1) :: o)); [apply s_branch; exact T|]. apply (IH f _ (note _ s) pre x zs o); assumption.
  - rewrite (stop_own (note (Ev f k true) s) pre x zs); [|exact E|exact Q|exact V]. cbn [level log note states].
    rewrite (pop_own pre 0 zs); [|exact (zlen_swap _ _ _ _ Q2)|exact V]. cbn [states log good]. exists [Ev f k true]. cbn [log level states]. split; [reflexivity|]. split; [reflexivity|]. split; [exact (zlen_swap _ _ _ _ Q2)|].
    left. split; [reflexivity|]. split; [exists (0 :: zs); split; [reflexivity|constructor; [reflexivity|exact ZZ]]|]. econstructor; [apply s_end; right; exact T|constructor].
  - rewrite (stop_own (note (Ev f k true) s) pre x zs); [|exact E|exact Q|exact V]. cbn [level log note states].
    rewrite (pop_own pre 0 zs); [|exact (zlen_swap _ _ _ _ Q2)|exact V]. cbn [states log good]. exists [Ev f k true]. cbn [log level states]. split; [reflexivity|]. split; [reflexivity|]. split; [exact (zlen_swap _ _ _ _ Q2)|].
    left. split; [reflexivity|]. split; [exists (0 :: zs); split; [reflexivity|constructor; [reflexivity|exact ZZ]]|]. econstructor; [apply s_end; left; exact T|constructor].
Qed.

Lemma chain_head sts ch : chain P sts ch -> exists f j zs k t, sts = label P f j :: zs /\ ch = (f, k) :: t /\ labelled P f j /\ entry P f (label P f j) = Some k.
Proof.
  intro C. inversion C as [f j zs T ZZ|f j zs T ZZ|f j g k zs r T C']; subst.
  - exists f, j, zs, (j + 1), []. assert (LB : labelled P f j) by (unfold labelled; rewrite T; exact Logic.I). repeat split; try exact LB. rewrite (entry_label P f j SM LB), T. reflexivity.
  - exists f, j, zs, j, []. assert (LB : labelled P f j) by (unfold labelled; rewrite T; exact Logic.I). repeat split; try exact LB. rewrite (entry_label P f j SM LB), T. reflexivity.
  - exists f, j, zs, j, ((g, k) :: r). assert (LB : labelled P f j) by (unfold labelled; rewrite T; exact Logic.I). repeat split; try exact LB. rewrite (entry_label P f j SM LB), T. reflexivity.
Qed.

(** Resuming. *)
Lemma enter_resume : 1 <= L -> forall sts ch, chain P sts ch -> forall n f k t s pre o, ch = (f, k) :: t ->
  states s = pre ++ sts -> zlen (states s) = L -> level s = zlen pre -> zlen o = zlen pre ->
  good f pre o (rev ch ++ o) (log s ++ pending ch) (enter L true P (exec L true cond P n) f s).
Proof.
  intros L1 sts ch C. induction C as [f0 j zs T ZZ|f0 j zs T ZZ|f0 j g k0 zs r T C IH]; intros n f k t s pre o F E Q V O.
  - injection F as -> <- <-. unfold enter. rewrite (ok_own s pre _ L1 E Q V). cbn [negb]. rewrite (push_own s pre _ zs _ E Q V).
    pose proof (label_pos P f j). replace (label P f j =? Stopped) with false by (unfold Stopped; lia).
    assert (LB : labelled P f j) by (unfold labelled; rewrite T; exact Logic.I). rewrite (entry_label P f j SM LB), T. cbn [pending rev app]. rewrite app_nil_r.
    apply (exec_ok L1 n f (j + 1) (St (zlen pre + 1) (states s) (log s)) pre (label P f j) zs o); [exact E|exact ZZ|exact Q|reflexivity|exact O].
  - injection F as -> <- <-. unfold enter. rewrite (ok_own s pre _ L1 E Q V). cbn [negb]. rewrite (push_own s pre _ zs _ E Q V).
    pose proof (label_pos P f j). replace (label P f j =? Stopped) with false by (unfold Stopped; lia).
    assert (LB : labelled P f j) by (unfold labelled; rewrite T; exact Logic.I). rewrite (entry_label P f j SM LB), T. cbn [pending rev app]. rewrite app_nil_r.
    apply (exec_ok L1 n f j (St (zlen pre + 1) (states s) (log s)) pre (label P f j) zs o); [exact E|exact ZZ|exact Q|reflexivity|exact O].
  - injection F as -> -> <-. unfold enter. rewrite (ok_own s pre _ L1 E Q V). cbn [negb]. rewrite (push_own s pre _ zs _ E Q V).
    pose proof (label_pos P f k). replace (label P f k =? Stopped) with false by (unfold Stopped; lia).
    assert (LB : labelled P f k) by (unfold labelled; rewrite T; exact Logic.I). rewrite (entry_label P f k SM LB), T.
    destruct n as [|n]; [exact Logic.I|]. cbn [exec]. rewrite T.
    rewrite (set_own _ pre (label P f k) zs); [|exact E|exact Q|reflexivity]. cbn [level log note states]. rewrite <- E.
    set (s1 := St (zlen pre + 1) (states s) (log s ++ [Ev f k true])).
    change (pending ((f, k) :: (g, k0) :: r)) with ([Ev f k true] ++ pending ((g, k0) :: r)). rewrite app_assoc.
    apply (after_call n f k g _ pre o (log s1 ++ pending ((g, k0) :: r)) _ (enter L true P (exec L true cond P n) g s1)); [apply exec_ok; exact L1|exact O|exact T| |reflexivity].
    pose proof (IH n g k0 r s1 (pre ++ [label P f k]) ((f, k) :: o) eq_refl) as G.
    change (rev ((f, k) :: (g, k0) :: r)) with (rev ((g, k0) :: r) ++ [(f, k)]). rewrite <- app_assoc. cbn [app].
    apply G; [cbn [states s1]; rewrite <- app_assoc; exact E|exact Q|cbn [level s1]; rewrite zlen_app', zlen_cons'; change (zlen (@nil Z)) with 0; lia|rewrite zlen_app', !zlen_cons'; change (zlen (@nil Z)) with 0; lia].
Qed.
End N.

Lemma pending_again c : pending (rev c) = again c.
Proof.
  unfold again. destruct c as [|x c]; [reflexivity|]. cbn [rev tl]. rewrite <- map_rev. generalize (rev c). intro l.
  induction l as [|y l IH]; [reflexivity|]. cbn [app map]. rewrite <- IH. destruct l; reflexivity.
Qed.

(** Between the calls of the user. *)
Definition idle L P (s : st) (c : stack) : Prop :=
  level s = 0 /\ zlen (states s) = L /\ ((c = [] /\ zeros (states s)) \/ chain P (states s) (rev c)) /\
  (forall f, outermost c = Some f -> 0 <= f < zlen P).

Lemma idle_running L P s c : 1 <= L -> idle L P s c -> isResumableRunning L s = Some (match c with [] => false | _ => true end).
Proof.
  intros L1 (V & Q & H & _). unfold isResumableRunning, isStoppedRf. rewrite V. replace (if L =? 1 then 0 else 0) with 0 by (destruct (L =? 1); reflexivity).
  destruct H as [[-> Zs]|C].
  - destruct (states s) as [|x l]; [change (zlen (@nil Z)) with 0 in Q; lia|]. pose proof (Forall_inv Zs) as X. cbv beta in X. subst x. reflexivity.
  - destruct c as [|x c]; [inversion C|]. inversion C as [f j zs T Zz E|f j zs T Zz E|f j g k zs r T C' E]; cbn [znth Z.ltb Z.compare Z.to_nat nth_error obind]; pose proof (label_pos P f j); replace (label P f j =? Stopped) with false by (unfold Stopped; lia); reflexivity.
Qed.

Lemma outermost_rev f k t : outermost (rev ((f, k) :: t)) = Some f.
Proof. unfold outermost. rewrite rev_involutive. reflexivity. Qed.

Lemma ends_call L P f c0 es0 s s' r : 1 <= L -> 0 <= f < zlen P -> ends L P f [] [] c0 (log s ++ es0) r s' ->
  exists es c', slice L P c0 es c' /\ log s' = log s ++ es0 ++ es /\ idle L P s' c' /\ r = match c' with [] => rStop | _ => rRunning end.
Proof.
  intros L1 F (es & E1 & E2 & E3 & H). exists es. change (zlen (@nil Z)) with 0 in E2.
  destruct H as [(R & (zs & Z1 & Z2) & T)|(R & sts & k & t & es1 & e & c1 & Q1 & Q2 & Q3 & Q4 & Q5)].
  - exists []. cbn [return_to] in T. split; [apply sl_end; exact T|]. split; [rewrite E1, <- app_assoc; reflexivity|]. split; [|exact R].
    split; [exact E2|]. split; [exact E3|]. cbn [app] in Z1. split; [left; split; [reflexivity|rewrite Z1; exact Z2]|]. intros g G. discriminate.
  - rewrite app_nil_r in Q5. exists (rev ((f, k) :: t)). split; [subst es; eapply sl_pause; eassumption|]. split; [rewrite E1, <- app_assoc; reflexivity|].
    split; [|rewrite R; destruct (rev ((f, k) :: t)) eqn:RV; [|reflexivity]; cbn [rev] in RV; destruct (rev t); discriminate].
    split; [exact E2|]. split; [exact E3|]. cbn [app] in Q1. split; [right; rewrite rev_involutive, Q1; exact Q2|]. intros g G. rewrite outermost_rev in G. injection G as <-. exact F.
Qed.

Lemma run_call L cond P n f s c : 1 <= L -> small P -> no_clash P -> 0 <= f < zlen P -> idle L P s c ->
  match nested_run L true cond P n f s with
  | Undef => False
  | Fuel => True
  | Done r s' => exists es c', call L P f c r es c' /\ log s' = log s ++ es /\ idle L P s' c'
  end.
Proof.
  intros L1 SM NC F I. pose proof I as (V & Q & H & B). unfold nested_run. destruct H as [[-> Zs]|C].
  - destruct (states s) as [|x zs] eqn:E; [change (zlen (@nil Z)) with 0 in Q; lia|].
    pose proof (enter_fresh L cond P n f s [] x zs [] L1 (exec_ok L cond P L1 n) E (Forall_inv Zs) (Forall_inv_tail Zs)) as G. rewrite E in G. specialize (G Q V eq_refl).
    destruct (enter L true P (exec L true cond P n) f s) as [r s'| |]; [|exact G|exact Logic.I]. cbn [good] in G. rewrite <- (app_nil_r (log s)) in G.
    destruct (ends_call L P f _ [] s s' r L1 F G) as (es & c' & S1 & S2 & S3 & S4). exists es, c'. split; [rewrite S4; apply c_start; exact S1|]. split; [exact S2|exact S3].
  - destruct (chain_head P SM _ _ C) as (g & j & zs & k & t & E & R & LB & EN).
    assert (CR : c = rev ((g, k) :: t)) by (rewrite <- R, rev_involutive; reflexivity).
    assert (OM : outermost c = Some g) by (rewrite CR; apply outermost_rev).
    destruct (Z.eq_dec g f) as [->|NE].
    + pose proof (enter_resume L cond P SM L1 _ _ C n f k t s [] [] R eq_refl Q V eq_refl) as G. rewrite pending_again, app_nil_r, rev_involutive in G.
      destruct (enter L true P (exec L true cond P n) f s) as [r s'| |]; [|exact G|exact Logic.I]. cbn [good] in G.
      destruct (ends_call L P f c (again c) s s' r L1 F G) as (es & c' & S1 & S2 & S3 & S4). exists (again c ++ es), c'. split; [rewrite S4; apply c_resume; assumption|]. split; [exact S2|exact S3].
    + unfold enter. assert (E' : states s = [] ++ label P g j :: zs) by exact E. rewrite (ok_own L s [] _ L1 E' Q V). cbn [negb]. rewrite (push_own L s [] _ zs _ E' Q V).
      pose proof (label_pos P g j). replace (label P g j =? Stopped) with false by (unfold Stopped; lia).
      rewrite (entry_other P g f j SM NC (B g OM) F NE LB). rewrite (pop_own L [] (label P g j) zs); [|rewrite <- E'; exact Q|reflexivity]. cbn [states log].
      exists [], c. split; [apply (c_busy L P f g c OM NE)|]. split; [cbn [log]; rewrite app_nil_r; reflexivity|]. split; [reflexivity|]. split; [exact Q|]. split; [right; exact C|exact B].
Qed.

Lemma stop_from_ok L rest : forall n pre, zlen (pre ++ rest) = L -> (length rest <= n)%nat -> stop_from L n (zlen pre) (pre ++ rest) = Some (pre ++ repeat 0 (length rest)).
Proof.
  induction rest as [|x rest IH]; intros n pre Q N.
  - rewrite zlen_app' in Q. change (zlen (@nil Z)) with 0 in Q. destruct n; [reflexivity|]. cbn [stop_from]. replace (zlen pre <? L) with false by lia. reflexivity.
  - destruct n as [|n]; [cbn in N; lia|]. cbn [stop_from]. pose proof Q as Q'. rewrite zlen_app', zlen_cons' in Q'. pose proof (zlen_nn rest). replace (zlen pre <? L) with true by lia.
    rewrite zupd_mid. cbn [obind]. pose proof (IH n (pre ++ [0])) as G. rewrite !zlen_app', !zlen_cons' in G. change (zlen (@nil Z)) with 0 in G.
    rewrite <- !app_assoc in G. cbn [app] in G. replace (zlen pre + (1 + 0)) with (zlen pre + 1) in G by lia. cbn [length repeat]. apply G; [lia|cbn in N; lia].
Qed.

Lemma stop_levels L s pre rest : 1 <= L -> states s = pre ++ rest -> zlen (states s) = L -> level s = zlen pre -> (L = 1 -> pre = []) ->
  stopResumable L s = Some (St (level s) (pre ++ repeat 0 (length rest)) (log s)).
Proof.
  intros L1 E Q V O. unfold stopResumable. replace (if L =? 1 then 0 else level s) with (zlen pre).
  - rewrite E, stop_from_ok; [reflexivity|rewrite <- E; exact Q|]. rewrite E in Q. unfold zlen in Q. rewrite app_length in Q. lia.
  - destruct (Z.eqb_spec L 1) as [B|B]; [rewrite (O B); reflexivity|symmetry; exact V].
Qed.

Lemma zeros_repeat n : zeros (repeat 0 n).
Proof. induction n; constructor; auto. Qed.

Lemma idle_stop L P s c : 1 <= L -> idle L P s c -> exists s', stopResumable L s = Some s' /\ log s' = log s /\ idle L P s' [].
Proof.
  intros L1 (V & Q & _). eexists. split; [apply (stop_levels L s [] (states s) L1 eq_refl Q V); reflexivity|]. split; [reflexivity|].
  split; [exact V|]. split; [cbn [states app]; unfold zlen; rewrite repeat_length; exact Q|]. split; [left; split; [reflexivity|apply zeros_repeat]|]. discriminate.
Qed.

Lemma uses_history L cond P fuel : 1 <= L -> small P -> no_clash P -> forall us s c rs0 s' rs, inside P us -> idle L P s c ->
  nested_uses L true cond P fuel us s rs0 = Some (s', rs) ->
  exists rs1 es c', history L P us c rs1 es c' /\ rs = rs0 ++ rs1 /\ log s' = log s ++ es /\ idle L P s' c'.
Proof.
  intros L1 SM NC. induction us as [|[f|] us IH]; intros s c rs0 s' rs IN I U; cbn [nested_uses] in U.
  - injection U as <- <-. exists [], [], c. rewrite !app_nil_r. split; [constructor|auto].
  - pose proof (run_call L cond P fuel f s c L1 SM NC (Forall_inv IN) I) as R. destruct (nested_run L true cond P fuel f s) as [r s1| |]; [|contradiction|discriminate].
    destruct R as (es & c1 & R1 & R2 & R3). destruct (IH s1 c1 _ s' rs (Forall_inv_tail IN) R3 U) as (rs1 & es1 & c2 & H1 & H2 & H3 & H4).
    exists (r :: rs1), (es ++ es1), c2. split; [econstructor; eassumption|]. split; [rewrite H2, <- app_assoc; reflexivity|]. split; [rewrite H3, R2, <- app_assoc; reflexivity|exact H4].
  - destruct (idle_stop L P s c L1 I) as (s1 & S1 & S2 & S3). rewrite S1 in U. cbn [obind] in U. destruct (IH s1 [] _ s' rs (Forall_inv_tail IN) S3 U) as (rs1 & es1 & c2 & H1 & H2 & H3 & H4).
    exists rs1, es1, c2. split; [constructor; exact H1|]. split; [exact H2|]. split; [rewrite H3, S2; reflexivity|exact H4].
Qed.

Lemma idle_new L P : 1 <= L -> idle L P (nested_new L) [].
Proof. intro L1. split; [reflexivity|]. split; [cbn; unfold zlen; rewrite repeat_length; lia|]. split; [left; split; [reflexivity|apply zeros_repeat]|]. discriminate. Qed.

(** *** Independent functions *)
Section I.
Variable cond : list event -> bool.
Variable P : list func.
Variable rank : Z -> nat.
Hypothesis SM : small P.
Hypothesis PR : proper P rank.

Definition mine (f : Z) (l : list event) := filter (about f) l.
Lemma mine_app f a b : mine f (a ++ b) = mine f a ++ mine f b.
Proof. apply filter_app. Qed.

Lemma follows_app f k l k1 l2 k2 : follows P f k l k1 -> follows P f k1 l2 k2 -> follows P f k (l ++ l2) k2.
Proof.
  induction 1; intro F; cbn [app]; [exact F| | | | | |].
  - destruct es as [|e es]; [contradiction|]. apply f_begin; [discriminate|intros es' E; cbn [app] in E; inversion E; subst; eapply H0; reflexivity|]. apply IHfollows. exact F.
  - apply f_work; auto.
  - apply f_wait; auto.
  - eapply f_branch; eauto.
  - apply f_end; auto.
  - apply f_halt; auto.
Qed.

(** Where the function stands according to its state. *)
Definition at_ (f x : Z) (k : option Z) : Prop :=
  (x = 0 /\ k = None) \/ exists j, x = label P f j /\ labelled P f j /\ k = entry P f x.
Definition fine (s : st) (h : Z) : Prop :=
  exists x k, znth (states s) h = Some x /\ at_ h x k /\ follows P h None (mine h (log s)) k.
(** Inside the function, at statement [k]. *)
Definition cur (s : st) (f k : Z) : Prop :=
  follows P f None (mine f (log s)) (Some k) \/ (k = 0 /\ follows P f None (mine f (log s)) None).

Lemma cur_ext s f k b k' : cur s f k -> follows P f (Some k) [Ev f k b] k' -> follows P f None (mine f (log s ++ [Ev f k b])) k'.
Proof.
  intros C F. rewrite mine_app. cbn [mine filter about]. rewrite Z.eqb_refl. destruct C as [C|[-> C]]; [eapply follows_app; eassumption|].
  eapply follows_app; [exact C|]. apply f_begin; [discriminate|discriminate|exact F].
Qed.

Lemma mine_other h f k b l : h <> f -> mine h (l ++ [Ev f k b]) = mine h l.
Proof. intro N. rewrite mine_app. cbn [mine filter about]. replace (f =? h) with false by lia. apply app_nil_r. Qed.

Definition same (s s' : st) (h : Z) : Prop := znth (states s') h = znth (states s) h /\ mine h (log s') = mine h (log s).
Lemma same_fine s s' h : same s s' h -> fine s h -> fine s' h.
Proof. intros [A B] (x & k & F1 & F2 & F3). exists x, k. rewrite A, B. auto. Qed.

Definition below (s : st) (f : Z) : Prop := zlen (states s) = zlen P /\ forall h, 0 <= h < zlen P -> (rank h < rank f)%nat -> fine s h.

Definition pgood (f : Z) (s : st) (x : res) : Prop :=
  match x with
  | Undef => False
  | Fuel => True
  | Done r s' => below s' f /\ fine s' f /\ (forall h, h <> f -> (rank f <= rank h)%nat -> same s s' h) /\
      exists v, znth (states s') f = Some v /\ ((r = rStop /\ v = 0) \/ (r = rRunning /\ v <> 0))
  end.

Lemma put_ok f x s k : 0 <= f < zlen (states s) -> exists l, put f x s k = k (St (level s) l (log s)) /\ zlen l = zlen (states s) /\ znth l f = Some x /\ (forall h, h <> f -> znth l h = znth (states s) h).
Proof.
  intro R. unfold put. destruct (zupd_in_range (states s) f x R) as (l & E & Q & G). rewrite E. exists l. split; [reflexivity|]. split; [exact Q|]. split; [rewrite G, Z.eqb_refl; reflexivity|].
  intros h N. rewrite G. replace (h =? f) with false by lia. reflexivity.
Qed.

Lemma same_trans s s1 s2 h : same s s1 h -> same s1 s2 h -> same s s2 h.
Proof. intros [A B] [C D]. split; congruence. Qed.

(** A step of [f] which changes only the state of [f] and logs only [f]. *)
Lemma below_step s s1 f : below s f -> zlen (states s1) = zlen (states s) -> (forall h, h <> f -> same s s1 h) -> below s1 f.
Proof. intros [B1 B2] Q S. split; [congruence|]. intros h H R. apply (same_fine s s1 h); [apply S; intros ->; lia|apply B2; assumption]. Qed.

Lemma pgood_trans s s1 f x : (forall h, h <> f -> same s s1 h) -> pgood f s1 x -> pgood f s x.
Proof.
  intros S G. destruct x as [r s'| |]; [|exact G|exact G]. destruct G as (G1 & G2 & G3 & G4). split; [exact G1|]. split; [exact G2|]. split; [|exact G4].
  intros h N R. apply (same_trans s s1 s' h (S h N)). apply G3; assumption.
Qed.

Lemma plain_enter_ok n g s : (forall f k s, 0 <= f < zlen P -> below s f -> cur s f k -> pgood f s (plain_exec cond P n f k s)) ->
  0 <= g < zlen P -> below s g -> fine s g -> pgood g s (plain_enter P (plain_exec cond P n) g s).
Proof.
  intros EX G B (x & k & F1 & F2 & F3). unfold plain_enter. rewrite F1. destruct F2 as [[-> ->]|(j & -> & LB & ->)].
  - cbn [Z.eqb Stopped]. destruct (put_ok g (begin_label P g) s (plain_exec cond P n g 0)) as (l & E & Q & W1 & W2); [rewrite (proj1 B); exact G|]. rewrite E.
    set (s1 := St (level s) l (log s)). assert (S1 : forall h, h <> g -> same s s1 h) by (intros h N; split; [apply W2; exact N|reflexivity]).
    apply (pgood_trans s s1 g); [exact S1|]. apply EX; [exact G|apply (below_step s); assumption|right; split; [reflexivity|exact F3]].
  - pose proof (label_pos P g j). replace (label P g j =? Stopped) with false by (unfold Stopped; lia). rewrite (entry_label P g j SM LB) in *.
    destruct (stmt_at P g j) as [[]|] eqn:T; apply EX; try assumption; left; exact F3.
Qed.

Lemma plain_exec_ok n : forall f k s, 0 <= f < zlen P -> below s f -> cur s f k -> pgood f s (plain_exec cond P n f k s).
Proof.
  induction n as [|n IH]; intros f k s F B C; [exact Logic.I|]. cbn [plain_exec].
  assert (FR : 0 <= f < zlen (states s)) by (rewrite (proj1 B); exact F).
  assert (NT : forall b, forall h, h <> f -> same s (note (Ev f k b) s) h) by (intros b h N; split; [reflexivity|cbn [note log]; apply mine_other; exact N]).
  destruct (stmt_at P f k) as [t|] eqn:T; [destruct t|].
  - apply (pgood_trans s _ f _ (NT true)). apply IH; [exact F|apply (below_step s); [exact B|reflexivity|apply NT]|]. left. apply (cur_ext s f k true); [exact C|]. apply f_work; [left; exact T|constructor].
  - destruct (put_ok f (label P f k) (note (Ev f k true) s) (fun s => Done rRunning s) FR) as (l & E & Q & W1 & W2). rewrite E. cbn [level log note states] in *.
    set (s1 := St (level s) l (log s ++ [Ev f k true])).
    assert (S1 : forall h, h <> f -> same s s1 h) by (intros h N; split; [apply W2; exact N|apply mine_other; exact N]).
    assert (LB : labelled P f k) by (unfold labelled; rewrite T; exact Logic.I).
    split; [apply (below_step s); assumption|]. split; [|split; [intros h N _; apply S1; exact N|exists (label P f k); split; [exact W1|right; split; [reflexivity|pose proof (label_pos P f k); lia]]]].
    exists (label P f k), (Some (k + 1)). split; [exact W1|]. split; [right; exists k; split; [reflexivity|]; split; [exact LB|]; rewrite (entry_label P f k SM LB), T; reflexivity|].
    apply (cur_ext s f k true); [exact C|]. apply f_work; [right; exact T|constructor].
  - set (K := fun s0 => _). destruct (put_ok f (label P f k) s K FR) as (l & E & Q & W1 & W2). rewrite E. subst K. cbn [level log note states] in *.
    destruct (cond (log s)) eqn:CD.
    + set (s1 := St (level s) l (log s ++ [Ev f k true])).
      assert (S1 : forall h, h <> f -> same s s1 h) by (intros h N; split; [apply W2; exact N|apply mine_other; exact N]).
      assert (LB : labelled P f k) by (unfold labelled; rewrite T; exact Logic.I).
      split; [apply (below_step s); assumption|]. split; [|split; [intros h N _; apply S1; exact N|exists (label P f k); split; [exact W1|right; split; [reflexivity|pose proof (label_pos P f k); lia]]]].
      exists (label P f k), (Some k). split; [exact W1|]. split; [right; exists k; split; [reflexivity|]; split; [exact LB|]; rewrite (entry_label P f k SM LB), T; reflexivity|].
      apply (cur_ext s f k true); [exact C|]. apply (f_wait P f k true); [left; exact T|constructor].
    + set (s1 := St (level s) l (log s ++ [Ev f k false])).
      assert (S1 : forall h, h <> f -> same s s1 h) by (intros h N; split; [apply W2; exact N|apply mine_other; exact N]).
      apply (pgood_trans s s1 f _ S1). apply IH; [exact F|apply (below_step s); assumption|]. left. apply (cur_ext s f k false); [exact C|]. apply (f_wait P f k false); [left; exact T|constructor].
  - set (K := fun s0 => _). destruct (put_ok f (label P f k) s K FR) as (l & E & Q & W1 & W2). rewrite E. subst K. cbn [level log note states] in *. cbv beta.
    set (s1 := St (level s) l (log s)). destruct (PR f k g T) as [GR RK].
    assert (S1 : forall h, h <> f -> same s s1 h) by (intros h N; split; [apply W2; exact N|reflexivity]).
    assert (B1 : below s1 f) by (apply (below_step s); assumption).
    assert (B1' : below s1 g) by (split; [exact (proj1 B1)|intros h H R; apply (proj2 B1 h H); lia]).
    pose proof (plain_enter_ok n g s1 IH GR B1' (proj2 B1 g GR RK)) as G.
    destruct (plain_enter P (plain_exec cond P n) g s1) as [r s2| |]; [|exact G|exact Logic.I]. destruct G as (G1 & G2 & G3 & v & G4 & G5).
    assert (NF : f <> g) by (intros ->; lia).
    destruct (G3 f NF) as [SF1 SF2]; [lia|]. cbn [s1 states log] in SF1, SF2. rewrite W1 in SF1.
    assert (S2 : forall h, h <> f -> (rank f <= rank h)%nat -> same s s2 h) by (intros h N R; apply (same_trans s s1 s2 h (S1 h N)); apply G3; [intros ->; lia|lia]).
    assert (B2 : below s2 f).
    { split; [exact (proj1 G1)|]. intros h H R. destruct (Z.eq_dec h g) as [->|N]; [exact G2|]. destruct (Nat.lt_ge_cases (rank h) (rank g)) as [LT|GE]; [apply (proj2 G1 h H LT)|].
      apply (same_fine s1 s2 h); [apply G3; assumption|apply (proj2 B1 h H R)]. }
    assert (C2 : cur s2 f k) by (unfold cur; rewrite SF2; exact C).
    assert (LB : labelled P f k) by (unfold labelled; rewrite T; exact Logic.I).
    destruct G5 as [[-> V0]|[-> V1]].
    + cbn [rStop rNestingError Z.ltb Z.compare]. set (s3 := note (Ev f k false) s2).
      assert (S3 : forall h, h <> f -> same s2 s3 h) by (intros h N; split; [reflexivity|apply mine_other; exact N]).
      assert (G : pgood f s3 (plain_exec cond P n f (k + 1) s3)).
      { apply IH; [exact F|apply (below_step s2); [exact B2|reflexivity|exact S3]|]. left. apply (cur_ext s2 f k false); [exact C2|]. apply (f_wait P f k false); [right; exists g; exact T|constructor]. }
      destruct (plain_exec cond P n f (k + 1) s3) as [r s'| |]; [|exact G|exact Logic.I]. destruct G as (H1 & H2 & H3 & H4). split; [exact H1|]. split; [exact H2|]. split; [|exact H4].
      intros h N R. apply (same_trans s s2 s' h (S2 h N R)). apply (same_trans s2 s3 s' h (S3 h N)). apply H3; assumption.
    + cbn [rRunning rNestingError Z.ltb Z.compare Pos.compare Pos.compare_cont]. set (s3 := note (Ev f k true) s2).
      assert (S3 : forall h, h <> f -> same s2 s3 h) by (intros h N; split; [reflexivity|apply mine_other; exact N]).
      split; [apply (below_step s2); [exact B2|reflexivity|exact S3]|]. split; [|split].
      * exists (label P f k), (Some k). split; [exact SF1|]. split; [right; exists k; split; [reflexivity|]; split; [exact LB|]; rewrite (entry_label P f k SM LB), T; reflexivity|].
        apply (cur_ext s2 f k true); [exact C2|]. apply (f_wait P f k true); [right; exists g; exact T|constructor].
      * intros h N R. apply (same_trans s s2 s3 h (S2 h N R) (S3 h N)).
      * exists (label P f k). split; [exact SF1|]. right. split; [reflexivity|]. pose proof (label_pos P f k). lia.
  - apply (pgood_trans s _ f _ (NT (cond (log s)))). apply IH; [exact F|apply (below_step s); [exact B|reflexivity|apply NT]|]. left. apply (cur_ext s f k (cond (log s))); [exact C|]. apply (f_branch P f k k0); [exact T|constructor].
  - destruct (put_ok f Stopped (note (Ev f k true) s) (fun s => Done rStop s) FR) as (l & E & Q & W1 & W2). rewrite E. cbn [level log note states] in *.
    set (s1 := St (level s) l (log s ++ [Ev f k true])).
    assert (S1 : forall h, h <> f -> same s s1 h) by (intros h N; split; [apply W2; exact N|apply mine_other; exact N]).
    split; [apply (below_step s); assumption|]. split; [|split; [intros h N _; apply S1; exact N|exists 0; split; [exact W1|left; split; reflexivity]]].
    exists 0, None. split; [exact W1|]. split; [left; split; reflexivity|]. apply (cur_ext s f k true); [exact C|]. apply f_end; [right; exact T|constructor].
  - destruct (put_ok f Stopped (note (Ev f k true) s) (fun s => Done rStop s) FR) as (l & E & Q & W1 & W2). rewrite E. cbn [level log note states] in *.
    set (s1 := St (level s) l (log s ++ [Ev f k true])).
    assert (S1 : forall h, h <> f -> same s s1 h) by (intros h N; split; [apply W2; exact N|apply mine_other; exact N]).
    split; [apply (below_step s); assumption|]. split; [|split; [intros h N _; apply S1; exact N|exists 0; split; [exact W1|left; split; reflexivity]]].
    exists 0, None. split; [exact W1|]. split; [left; split; reflexivity|]. apply (cur_ext s f k true); [exact C|]. apply f_end; [left; exact T|constructor].
Qed.

(** Between the calls of the user. *)
Definition sound (s : st) : Prop := zlen (states s) = zlen P /\ forall h, 0 <= h < zlen P -> fine s h.

Lemma sound_run n f s : 0 <= f < zlen P -> sound s ->
  match plain_run cond P n f s with
  | Undef => False
  | Fuel => True
  | Done r s' => sound s' /\ exists v, znth (states s') f = Some v /\ ((r = rStop /\ v = 0) \/ (r = rRunning /\ v <> 0))
  end.
Proof.
  intros F [Q A]. assert (B : below s f) by (split; [exact Q|intros h H _; apply A; exact H]).
  pose proof (plain_enter_ok n f s (plain_exec_ok n) F B (A f F)) as G. unfold plain_run.
  destruct (plain_enter P (plain_exec cond P n) f s) as [r s'| |]; [|exact G|exact Logic.I]. destruct G as (G1 & G2 & G3 & G4). split; [|exact G4].
  split; [exact (proj1 G1)|]. intros h H. destruct (Z.eq_dec h f) as [->|N]; [exact G2|]. destruct (Nat.lt_ge_cases (rank h) (rank f)) as [LT|GE]; [apply (proj2 G1 h H LT)|].
  apply (same_fine s s' h); [apply G3; assumption|apply A; exact H].
Qed.

Lemma sound_stop i s b s' : 0 <= i -> sound s -> plain_stop i s = Some (b, s') -> sound s'.
Proof.
  intros I0 [Q A] E. unfold plain_stop in E. destruct (i <? zlen (states s)) eqn:R; [|injection E as <- <-; split; assumption].
  destruct (zupd_in_range (states s) i Stopped) as (l & U & UL & G); [lia|]. rewrite U in E. injection E as <- <-. split; [cbn [states]; congruence|].
  intros h H. destruct (A h H) as (x & k & F1 & F2 & F3). unfold fine. cbn [states log]. rewrite G, mine_app. destruct (Z.eqb_spec h i) as [->|N].
  - exists 0, None. split; [reflexivity|]. split; [left; split; reflexivity|]. cbn [mine filter about]. rewrite Z.eqb_refl. eapply follows_app; [exact F3|]. apply f_halt. constructor.
  - exists x, k. split; [exact F1|]. split; [exact F2|]. cbn [mine filter about]. replace (i =? h) with false by lia. rewrite app_nil_r. exact F3.
Qed.

Lemma halts_follow h : forall l k, follows P h k (mine h (map (fun i => Halt (Z.of_nat i)) l)) (if existsb (fun i => Z.of_nat i =? h) l then None else k).
Proof.
  induction l as [|i l IH]; intro k; [constructor|]. cbn [map mine filter about existsb]. destruct (Z.of_nat i =? h) eqn:E; cbn [orb].
  - apply Z.eqb_eq in E. rewrite E. apply f_halt. specialize (IH None). destruct (existsb _ l); exact IH.
  - apply IH.
Qed.

Lemma sound_stopall s : sound s -> sound (stopAllResumables s).
Proof.
  intros [Q A]. split; [cbn [stopAllResumables states]; unfold zlen; rewrite map_length; exact Q|]. intros h H. destruct (A h H) as (x & k & F1 & F2 & F3).
  exists 0, None. cbn [stopAllResumables states log]. split; [rewrite znth_map, F1; reflexivity|]. split; [left; split; reflexivity|]. rewrite mine_app. eapply follows_app; [exact F3|].
  pose proof (halts_follow h (seq 0 (length (states s))) k) as G. replace (existsb _ _) with true in G; [exact G|]. symmetry. apply existsb_exists. exists (Z.to_nat h). split; [|lia].
  apply in_seq. unfold zlen in Q at 1. lia.
Qed.

Definition pinside (us : list puse) : Prop :=
  Forall (fun u => match u with PRun f => 0 <= f < zlen P | PStop i => 0 <= i | PStopAll => True end) us.

Lemma plain_uses_sound n : forall us s s', pinside us -> sound s -> plain_uses cond P n us s = Some s' -> sound s'.
Proof.
  induction us as [|[f|i|] us IH]; intros s s' IN S U; cbn [plain_uses] in U.
  - injection U as <-. exact S.
  - pose proof (sound_run n f s (Forall_inv IN) S) as R. destruct (plain_run cond P n f s) as [r s1| |]; [|discriminate|discriminate]. apply (IH s1); [exact (Forall_inv_tail IN)|apply R|exact U].
  - destruct (plain_stop i s) as [[b s1]|] eqn:E; [|discriminate]. cbn [obind snd] in U. apply (IH s1); [exact (Forall_inv_tail IN)|apply (sound_stop i s b s1 (Forall_inv IN) S E)|exact U].
  - apply (IH (stopAllResumables s)); [exact (Forall_inv_tail IN)|apply sound_stopall; exact S|exact U].
Qed.

Lemma sound_new : sound (plain_new (zlen P)).
Proof.
  split; [cbn; unfold zlen; rewrite repeat_length; lia|]. intros h H. exists 0, None. split; [|split; [left; split; reflexivity|constructor]].
  cbn [plain_new states]. rewrite znth_repeat by lia. reflexivity.
Qed.

Lemma sound_running s h : sound s -> 0 <= h < zlen P -> exists k, follows P h None (mine h (log s)) k /\ plain_running s h = Some (match k with None => false | Some _ => true end).
Proof.
  intros [Q A] H. destruct (A h H) as (x & k & F1 & F2 & F3). exists k. split; [exact F3|]. unfold plain_running. replace (h <? zlen (states s)) with true by lia. rewrite F1. cbn [obind].
  destruct F2 as [[-> ->]|(j & -> & LB & ->)]; [reflexivity|]. pose proof (label_pos P h j). replace (label P h j =? Stopped) with false by (unfold Stopped; lia).
  rewrite (entry_label P h j SM LB). destruct (stmt_at P h j) as [[]|]; reflexivity.
Qed.
End I.

Lemma plain_running_some s i : 0 <= i -> plain_running s i = Some (match znth (states s) i with Some x => negb (x =? 0) | None => false end).
Proof.
  intro I0. unfold plain_running. destruct (i <? zlen (states s)) eqn:E; destruct (znth (states s) i) as [x|] eqn:X; try reflexivity.
  - exfalso. unfold znth, zlen in *. destruct (i <? 0) eqn:N; [lia|]. apply nth_error_None in X. lia.
  - apply znth_range in X. lia.
Qed.
