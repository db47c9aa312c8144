(* Proofs about the critical sections and atomic operations. *)
From Verif Require Import Base SliceLemmas AtomModel AtomSpec.

Section P.
  Variable w : Z.
  Hypothesis wpos : 0 < w.
  Notation val := (join w).
  Lemma pw : 0 < 2 ^ w. Proof. apply Z.pow_pos_nonneg; lia. Qed.
  Lemma pow_len n : 2 ^ (w * Z.of_nat (S n)) = 2 ^ w * 2 ^ (w * Z.of_nat n).
  Proof. replace (w * Z.of_nat (S n)) with (w + w * Z.of_nat n) by lia. apply Z.pow_add_r; lia. Qed.
  Lemma split_length n : forall x, length (split w n x) = n.
  Proof. induction n as [|n IH]; intros x; cbn [split length]; [reflexivity|]. now rewrite IH. Qed.
  Lemma split_words n : forall x, words w n (split w n x).
  Proof.
    intros x; split; [apply split_length|]. revert x; induction n as [|n IH]; intros x; cbn [split]; constructor.
    - apply Z.mod_pos_bound, pw.
    - apply IH.
  Qed.
  Lemma join_split n : forall x, val (split w n x) = x mod 2 ^ (w * Z.of_nat n).
  Proof.
    induction n as [|n IH]; intros x; cbn [split join].
    - replace (w * Z.of_nat 0) with 0 by lia. change (2 ^ 0) with 1. now rewrite Z.mod_1_r.
    - rewrite IH, pow_len. symmetry. apply Z.rem_mul_r; [pose proof pw; lia|]. apply Z.pow_pos_nonneg; lia.
  Qed.
  Lemma join_range n : forall l, words w n l -> 0 <= val l < 2 ^ (w * Z.of_nat n).
  Proof.
    induction n as [|n IH]; intros l [L F].
    - destruct l; [|discriminate]. cbn [join]. replace (w * Z.of_nat 0) with 0 by lia. change (2 ^ 0) with 1. lia.
    - destruct l as [|x l]; [discriminate|]. inversion F as [|? ? X F']; subst. injection L as L.
      cbn [join]. rewrite pow_len. pose proof (IH l (conj L F')) as R. pose proof pw as P.
      remember (2 ^ w) as B. remember (2 ^ (w * Z.of_nat n)) as C. remember (val l) as v. clear - X R P. nia.
  Qed.
  Lemma join_inj n : forall a b, words w n a -> words w n b -> val a = val b -> a = b.
  Proof.
    induction n as [|n IH]; intros a b [L F] [L' F'] E.
    - destruct a, b; congruence || discriminate.
    - destruct a as [|x a]; [discriminate|]. destruct b as [|y b]; [discriminate|].
      inversion F as [|? ? X G]; subst. inversion F' as [|? ? Y G']; subst. injection L as L. injection L' as L'. cbn [join] in E.
      pose proof pw as P.
      assert (x = y /\ val a = val b) as [-> EV].
      { remember (2 ^ w) as B. remember (val a) as v. remember (val b) as u. clear - X Y E P. assert (v = u) by nia. subst. lia. }
      f_equal. apply (IH a b); [split; assumption..|assumption].
  Qed.

  Definition len (n : nat) : Z := w * Z.of_nat n.
  Lemma land_range a b n : 0 <= n -> 0 <= a < 2 ^ n -> 0 <= b -> 0 <= Z.land a b < 2 ^ n.
  Proof.
    intros N A B. assert (0 <= Z.land a b) by (apply Z.land_nonneg; lia). split; [assumption|].
    destruct (Z.eq_dec (Z.land a b) 0) as [->|NZ]; [apply Z.pow_pos_nonneg; lia|].
    apply Z.log2_lt_pow2; [lia|]. eapply Z.le_lt_trans; [apply Z.log2_land; lia|].
    destruct (Z.eq_dec a 0) as [->|NA]; [rewrite Z.land_0_l in NZ; lia|].
    eapply Z.le_lt_trans; [apply Z.le_min_l|]. apply Z.log2_lt_pow2; lia.
  Qed.
  Lemma lor_range a b n : 0 <= n -> 0 <= a < 2 ^ n -> 0 <= b < 2 ^ n -> 0 <= Z.lor a b < 2 ^ n.
  Proof.
    intros N A B. assert (0 <= Z.lor a b) by (apply Z.lor_nonneg; lia). split; [assumption|].
    destruct (Z.eq_dec (Z.lor a b) 0) as [->|NZ]; [apply Z.pow_pos_nonneg; lia|].
    apply Z.log2_lt_pow2; [lia|]. rewrite Z.log2_lor by lia.
    destruct (Z.eq_dec n 0) as [->|NN]. { change (2 ^ 0) with 1 in *. assert (a = 0) by lia. assert (b = 0) by lia. subst. now cbn in NZ. }
    apply Z.max_lub_lt.
    - destruct (Z.eq_dec a 0) as [->|NA]; [cbn; lia|apply Z.log2_lt_pow2; lia].
    - destruct (Z.eq_dec b 0) as [->|NA]; [cbn; lia|apply Z.log2_lt_pow2; lia].
  Qed.
  Lemma lxor_range a b n : 0 <= n -> 0 <= a < 2 ^ n -> 0 <= b < 2 ^ n -> 0 <= Z.lxor a b < 2 ^ n.
  Proof.
    intros N A B. assert (0 <= Z.lxor a b) by (apply Z.lxor_nonneg; lia). split; [assumption|].
    destruct (Z.eq_dec (Z.lxor a b) 0) as [->|NZ]; [apply Z.pow_pos_nonneg; lia|].
    apply Z.log2_lt_pow2; [lia|]. eapply Z.le_lt_trans; [apply Z.log2_lxor; lia|].
    destruct (Z.eq_dec n 0) as [->|NN]. { change (2 ^ 0) with 1 in *. assert (a = 0) by lia. assert (b = 0) by lia. subst. now cbn in NZ. }
    apply Z.max_lub_lt.
    - destruct (Z.eq_dec a 0) as [->|NA]; [cbn; lia|apply Z.log2_lt_pow2; lia].
    - destruct (Z.eq_dec b 0) as [->|NA]; [cbn; lia|apply Z.log2_lt_pow2; lia].
  Qed.
  Lemma len_nonneg n : 0 <= len n. Proof. unfold len. nia. Qed.
  Lemma calc_words k n a b : words w n a -> words w n (calc w k a b).
  Proof. intros [L _]. unfold calc. rewrite L. apply split_words. Qed.
  Lemma calc_spec k n a b : words w n a -> words w n b -> val (calc w k a b) = alu_spec (len n) k (val a) (val b).
  Proof.
    intros A B. pose proof (join_range n a A) as RA. pose proof (join_range n b B) as RB. fold (len n) in RA, RB.
    pose proof (len_nonneg n) as N. unfold calc. destruct A as [LA _]. rewrite LA, join_split. fold (len n).
    remember (val a) as x. remember (val b) as y. remember (len n) as L.
    destruct k; cbn [alu_spec]; try reflexivity.
    - apply Z.mod_small, land_range; lia.
    - apply Z.mod_small, lor_range; lia.
    - apply Z.mod_small, lxor_range; lia.
    - pose proof (land_range x y L N RA (proj1 RB)) as R. remember (Z.land x y) as v. unfold Z.lnot.
      symmetry. apply (Z.mod_unique _ _ (-1)); lia.
  Qed.

  (* one operation on words does what it should on the number *)
  Definition after (o : op) (old : list Z) : list Z := match newval w o old with Some v => v | None => old end.
  Lemma after_words n o old : valid_op w n o -> words w n old -> words w n (after o old).
  Proof.
    intros V W. unfold after. destruct o as [|v|v|e d|k v|k v]; cbn [newval valid_op] in *; try assumption.
    - destruct (list_eq_dec Z.eq_dec old e); [apply V|exact W].
    - now apply calc_words.
    - now apply calc_words.
  Qed.
  Lemma op_ok n o old : valid_op w n o -> words w n old ->
    op_spec w (len n) o (val old) = (val (after o old), reply_of w (result w o old)).
  Proof.
    intros V W. unfold after. destruct o as [|v|v|e d|k v|k v]; cbn [newval result op_spec reply_of valid_op] in *; try reflexivity.
    - destruct V as [VE VD]. destruct (list_eq_dec Z.eq_dec old e) as [->|NE]; cbn [reply_of].
      + now rewrite Z.eqb_refl.
      + destruct (Z.eqb_spec (val old) (val e)) as [E|E]; [|reflexivity]. exfalso. apply NE. now apply (join_inj n).
    - now rewrite (calc_spec k n).
    - now rewrite (calc_spec k n).
  Qed.
  Lemma newval_acc o old acc : reads o = false -> newval w o old = newval w o acc.
  Proof. destruct o; cbn; congruence. Qed.
  Lemma result_acc o old acc : reads o = false -> result w o old = result w o acc.
  Proof. destruct o; cbn; congruence. Qed.
  Lemma newval_ro o old : writes o = false -> newval w o old = None.
  Proof. destruct o; cbn; congruence. Qed.

  Lemma sequence_app L l l' : forall x, sequence w L (l ++ l') x =
    let '(y, r) := sequence w L l x in let '(z, r') := sequence w L l' y in (z, r ++ r').
  Proof.
    induction l as [|o l IH]; intros x; cbn [app sequence].
    - destruct (sequence w L l' x); reflexivity.
    - destruct (op_spec w L o x) as [y r]. rewrite IH. destruct (sequence w L l y) as [z rs]. destruct (sequence w L l' z). reflexivity.
  Qed.

  (** *** Masks *)
  Fixpoint ok (c : list instr) (sc : list (bool * bool)) (m : bool) : Prop :=
    match c with
    | [] => sc = [] /\ m = false
    | Save b :: c => ok c ((b, m) :: sc) m
    | SetMask b :: c => ok c sc b
    | Leave :: c => match sc with [] => False | (_, m') :: sc => ok c sc m' end
    | _ :: c => m = true /\ ok c sc m
    end.
  Definition level (sc : list (bool * bool)) : bool := match sc with [] => false | (b, _) :: _ => b end.
  Fixpoint chain (sc : list (bool * bool)) : Prop := match sc with [] => True | (_, m) :: sc => m = level sc /\ chain sc end.
  Definition pending (c : list instr) : bool := match c with SetMask _ :: _ => true | _ => false end.
  (* every Save is followed by its SetMask *)
  Fixpoint paired (c : list instr) : Prop :=
    match c with
    | [] => True
    | Save b :: c => paired c /\ exists c', c = SetMask b :: c'
    | SetMask b :: c => paired c /\ pending c = false
    | Leave :: c | Rd _ :: c | Wr _ _ :: c | Commit _ :: c => paired c /\ pending c = false
    end.
  Definition agree (c : list instr) (sc : list (bool * bool)) (m : bool) : Prop :=
    chain sc /\ match c with SetMask b :: _ => exists sc', sc = (b, m) :: sc' | _ => m = level sc end.

  Lemma ok_map_rd l c sc m : m = true -> ok c sc m -> ok (map Rd l ++ c) sc m.
  Proof. induction l; cbn [map app ok]; auto. Qed.
  Lemma ok_map_wr o l c sc m : m = true -> ok c sc m -> ok (map (Wr o) l ++ c) sc m.
  Proof. induction l; cbn [map app ok]; auto. Qed.
  Lemma ok_op n o c sc m : ok c sc m -> ok (op_code n o ++ c) sc m.
  Proof.
    intros O. unfold op_code. cbn [app ok]. rewrite <- !app_assoc.
    assert (ok ([Commit o; Leave] ++ c) ((true, m) :: sc) true) as K by (cbn [app ok]; auto).
    destruct (reads o), (writes o); cbn [app]; auto using ok_map_rd, ok_map_wr.
  Qed.
  Lemma stmt_ind2 (P : stmt -> Prop) : (forall o, P (Do o)) -> (forall b body, Forall P body -> P (Block b body)) -> forall s, P s.
  Proof.
    intros H1 H2. fix IH 1. intros [o|b body]; [apply H1|]. apply H2. induction body as [|s body IHb]; constructor; auto.
  Qed.
  Lemma ok_stmt n s : forall c sc m, ok c sc m -> ok (stmt_code n s ++ c) sc m.
  Proof.
    induction s as [o|b body IH] using stmt_ind2; intros c sc m O; cbn [stmt_code].
    - now apply ok_op.
    - cbn [app ok]. rewrite <- app_assoc. cbn [app].
      assert (forall sc' m', ok (Leave :: c) sc' m' -> ok (flat_map (stmt_code n) body ++ Leave :: c) sc' m') as K.
      { clear O. induction IH as [|s body H _ IHb]; intros sc' m' O; cbn [flat_map app]; [exact O|]. rewrite <- app_assoc. apply H. now apply IHb. }
      apply K. cbn [ok]. exact O.
  Qed.
  Lemma ok_prog n p : ok (prog_code n p) [] false.
  Proof.
    unfold prog_code. induction p as [|s p IH]; cbn [flat_map]; [split; reflexivity|]. now apply ok_stmt.
  Qed.

  Lemma pending_rd l c : pending c = false -> pending (map Rd l ++ c) = false.
  Proof. destruct l; cbn; auto. Qed.
  Lemma pending_wr o l c : pending c = false -> pending (map (Wr o) l ++ c) = false.
  Proof. destruct l; cbn; auto. Qed.
  Lemma paired_rd l c : paired c /\ pending c = false -> paired (map Rd l ++ c) /\ pending (map Rd l ++ c) = false.
  Proof. induction l as [|x l IH]; cbn [map app paired pending]; auto. Qed.
  Lemma paired_wr o l c : paired c /\ pending c = false -> paired (map (Wr o) l ++ c) /\ pending (map (Wr o) l ++ c) = false.
  Proof. induction l as [|x l IH]; cbn [map app paired pending]; auto. Qed.
  Lemma paired_op n o c : paired c /\ pending c = false -> paired (op_code n o ++ c) /\ pending (op_code n o ++ c) = false.
  Proof.
    intros H. unfold op_code. cbn [app paired pending]. rewrite <- !app_assoc.
    assert (paired ([Commit o; Leave] ++ c) /\ pending ([Commit o; Leave] ++ c) = false) as K by (cbn [app paired pending]; tauto).
    split; [|reflexivity]. split; [|eexists; reflexivity].
    destruct (reads o), (writes o); cbn [app]; auto using paired_rd, paired_wr.
  Qed.
  Lemma paired_stmt n s : forall c, paired c /\ pending c = false -> paired (stmt_code n s ++ c) /\ pending (stmt_code n s ++ c) = false.
  Proof.
    induction s as [o|b body IH] using stmt_ind2; intros c H; cbn [stmt_code].
    - now apply paired_op.
    - cbn [app paired pending]. rewrite <- app_assoc. cbn [app].
      assert (paired (Leave :: c) /\ pending (Leave :: c) = false) as K by (cbn [paired pending]; auto).
      assert (paired (flat_map (stmt_code n) body ++ Leave :: c) /\ pending (flat_map (stmt_code n) body ++ Leave :: c) = false) as K'.
      { clear H. revert K. generalize (Leave :: c). induction IH as [|s body H _ IHb]; intros c' K; cbn [flat_map app]; [exact K|].
        rewrite <- app_assoc. apply H. now apply IHb. }
      split; [|reflexivity]. split; [exact K'|eexists; reflexivity].
  Qed.
  Lemma paired_prog n p : paired (prog_code n p) /\ pending (prog_code n p) = false.
  Proof. unfold prog_code. induction p as [|s p IH]; cbn [flat_map]; [split; cbn; trivial|]. now apply paired_stmt. Qed.

  (** *** Between operations *)
  Definition rdcode (n i : nat) : list instr := map Rd (seq i (n - i)).
  Definition wrcode (n : nat) (o : op) (i : nat) : list instr := if writes o then map (Wr o) (seq i (n - i)) else [].
  Definition fin (o : op) (c : list instr) : list instr := Commit o :: Leave :: c.
  Inductive idle (n : nat) : list instr -> Prop :=
  | i_nil : idle n []
  | i_save b c : idle n c -> idle n (Save b :: c)
  | i_set b c : idle n c -> idle n (SetMask b :: c)
  | i_leave c : idle n c -> idle n (Leave :: c)
  | i_op o c : valid_op w n o -> idle n c ->
      idle n (SetMask true :: (if reads o then rdcode n 0 else []) ++ wrcode n o 0 ++ fin o c).
  Lemma idle_op n o c : valid_op w n o -> idle n c -> idle n (op_code n o ++ c).
  Proof.
    intros V H. unfold op_code. cbn [app]. rewrite <- !app_assoc. apply i_save.
    pose proof (i_op n o c V H) as K. unfold rdcode, wrcode, fin in K. rewrite Nat.sub_0_r in K. exact K.
  Qed.
  Lemma idle_stmt n s : forall c, valid_stmt w n s -> idle n c -> idle n (stmt_code n s ++ c).
  Proof.
    induction s as [o|b body IH] using stmt_ind2; intros c V H; inversion V as [? VO|? ? VB]; subst; cbn [stmt_code].
    - now apply idle_op.
    - cbn [app]. apply i_save, i_set. rewrite <- app_assoc. cbn [app].
      assert (idle n (Leave :: c)) as K by now apply i_leave.
      clear H V. revert K. generalize (Leave :: c). induction IH as [|s body Hs _ IHb]; intros c' K; cbn [flat_map app]; [exact K|].
      inversion VB; subst. rewrite <- app_assoc. apply Hs; auto.
  Qed.
  Lemma idle_prog n p : Forall (valid_stmt w n) p -> idle n (prog_code n p).
  Proof. unfold prog_code. induction 1; cbn [flat_map]; [constructor|]. now apply idle_stmt. Qed.

  Inductive phase (n : nat) (old m : list Z) : list instr -> list Z -> Prop :=
  | p_idle c a : idle n c -> m = old -> phase n old m c a
  | p_read o i c : valid_op w n o -> idle n c -> reads o = true -> (i <= n)%nat -> m = old ->
      phase n old m (rdcode n i ++ wrcode n o 0 ++ fin o c) (firstn i old)
  | p_write o i c a : valid_op w n o -> idle n c -> writes o = true -> (i <= n)%nat -> (reads o = true -> a = old) ->
      m = match newval w o old with Some v => firstn i v ++ skipn i old | None => old end ->
      phase n old m (wrcode n o i ++ fin o c) a.

  Record inv (n : nat) (x0 : Z) (s : core) : Prop := {
    iv_old : exists old, words w n old /\ sequence w (len n) (map fst (log s)) x0 = (val old, map (fun p => reply_of w (snd p)) (log s)) /\
             match frames s with [] => False | f :: _ => phase n old (mem s) (code f) (acc f) end;
    iv_top : match frames s with [] => False | f :: rest =>
               ok (code f) (scope f) (mask s) /\ paired (code f) /\ agree (code f) (scope f) (mask s) /\
               Forall (fun g => idle n (code g) /\ ok (code g) (scope g) false /\ paired (code g) /\ agree (code g) (scope g) false) rest end }.

  Lemma inv_boot n m main : words w n m -> Forall (valid_stmt w n) main -> inv n (val m) (boot n m main).
  Proof.
    intros W V. split; cbn.
    - exists m. split; [exact W|]. split; [reflexivity|]. constructor; [now apply idle_prog|reflexivity].
    - split; [apply ok_prog|]. split; [apply paired_prog|]. split; [|constructor].
      split; [exact I|]. pose proof (proj2 (paired_prog n main)) as P. destruct (prog_code n main) as [|[]]; cbn in *; congruence.
  Qed.

  Lemma rdcode_step n i : (i < n)%nat -> rdcode n i = Rd i :: rdcode n (S i).
  Proof. intros H. unfold rdcode. replace (n - i)%nat with (S (n - S i)) by lia. reflexivity. Qed.
  Lemma rdcode_end n : rdcode n n = []. Proof. unfold rdcode. now rewrite Nat.sub_diag. Qed.
  Lemma wrcode_step n o i : writes o = true -> (i < n)%nat -> wrcode n o i = Wr o i :: wrcode n o (S i).
  Proof. intros W H. unfold wrcode. rewrite W. replace (n - i)%nat with (S (n - S i)) by lia. reflexivity. Qed.
  Lemma wrcode_end n o : wrcode n o n = []. Proof. unfold wrcode. rewrite Nat.sub_diag. now destruct (writes o). Qed.
  Lemma firstn_snoc {A} (l : list A) i x : nth_error l i = Some x -> firstn (S i) l = firstn i l ++ [x].
  Proof.
    revert i; induction l as [|y l IH]; intros [|i] E; cbn in E; try discriminate.
    - injection E as ->. reflexivity.
    - cbn [firstn app]. f_equal. now apply IH.
  Qed.
  Lemma skipn_more {A} (l : list A) i : skipn 1 (skipn i l) = skipn (S i) l.
  Proof. revert l; induction i as [|i IH]; intros [|x l]; try reflexivity. change (skipn 1 (skipn i l) = skipn (S i) l). apply IH. Qed.
  Lemma splice (v old : list Z) n i x : length v = n -> length old = n -> (i < n)%nat -> nth_error v i = Some x ->
    zupd (firstn i v ++ skipn i old) (Z.of_nat i) x = Some (firstn (S i) v ++ skipn (S i) old).
  Proof.
    intros V O I E. rewrite zupd_ok by (unfold zlen; rewrite app_length, firstn_length, skipn_length; lia).
    rewrite Nat2Z.id. f_equal. rewrite (firstn_snoc v i x E), <- app_assoc. cbn [app].
    assert (length (firstn i v) = i) as L by (rewrite firstn_length; lia).
    rewrite firstn_app, firstn_firstn, L, Nat.sub_diag, Nat.min_id. cbn [firstn]. rewrite app_nil_r. f_equal. f_equal.
    rewrite skipn_app, L. rewrite (skipn_all2 (firstn i v)) by lia. cbn [app].
    replace (S i - i)%nat with 1%nat by lia. apply skipn_more.
  Qed.

  (* what is left after each phase, by the next instruction *)
  Lemma phase_rd n old m i c a : words w n old -> phase n old m (Rd i :: c) a ->
    exists x, nth_error m i = Some x /\ phase n old m c (a ++ [x]).
  Proof.
    intros [L _] P. inversion P as [c0 a0 H|o j c0 V H R J M E1 E2|o j c0 a0 V H R J A M E1 E2].
    - inversion H.
    - destruct (Nat.eq_dec j n) as [->|N].
      { exfalso. rewrite rdcode_end in E1. unfold wrcode, fin in E1. destruct (writes o); [|discriminate]. cbn [app] in E1.
        destruct (n - 0)%nat; discriminate. }
      rewrite rdcode_step in E1 by lia. cbn [app] in E1. injection E1 as <- <-.
      destruct (nth_error old j) as [x|] eqn:NX; [|apply nth_error_None in NX; lia].
      exists x. split; [now rewrite M|]. rewrite <- (firstn_snoc old j x NX). apply p_read; auto. lia.
    - exfalso. unfold wrcode, fin in E1. destruct (writes o); [|discriminate]. destruct (n - j)%nat; discriminate.
  Qed.
  Lemma phase_to_write n old m o i c a : words w n old -> phase n old m (Wr o i :: c) a ->
    exists c', (i < n)%nat /\ valid_op w n o /\ idle n c' /\ writes o = true /\ (reads o = true -> a = old) /\ c = wrcode n o (S i) ++ fin o c' /\
      m = match newval w o old with Some v => firstn i v ++ skipn i old | None => old end.
  Proof.
    intros [L _] P. inversion P as [c0 a0 H|o' j c0 V H R J M E1 E2|o' j c0 a0 V H R J A M E1 E2].
    - inversion H.
    - destruct (Nat.eq_dec j n) as [->|N]; [|rewrite rdcode_step in E1 by lia; discriminate].
      rewrite rdcode_end in E1. cbn [app] in E1. destruct (writes o') eqn:W.
      2: { unfold wrcode, fin in E1. rewrite W in E1. discriminate. }
      destruct n as [|n]. { rewrite wrcode_end in E1. discriminate. }
      rewrite wrcode_step in E1 by (assumption || lia). cbn [app] in E1. injection E1 as <- <- <-.
      exists c0. rewrite M. split; [lia|]. split; [exact V|]. split; [exact H|]. split; [exact W|]. split.
      { intros _. subst a. rewrite <- L. apply firstn_all. }
      split; [reflexivity|]. destruct (newval w o' old); reflexivity.
    - destruct (Nat.eq_dec j n) as [->|N]. { rewrite wrcode_end in E1. discriminate. }
      rewrite wrcode_step in E1 by (assumption || lia). cbn [app] in E1. injection E1 as <- <- <-.
      exists c0. repeat split; auto. lia.
  Qed.
  Lemma phase_commit n old m o c a : words w n old -> phase n old m (Commit o :: c) a ->
    valid_op w n o /\ idle n c /\ m = after o old /\ (reads o = true -> a = old).
  Proof.
    intros W P. pose proof W as [L _]. inversion P as [c0 a0 H|o' j c0 V H R J M E1 E2|o' j c0 a0 V H R J A M E1 E2].
    - inversion H.
    - destruct (Nat.eq_dec j n) as [->|N]; [|rewrite rdcode_step in E1 by lia; discriminate].
      rewrite rdcode_end in E1. cbn [app] in E1.
      assert (a = old) as -> by (subst a; rewrite <- L; apply firstn_all).
      destruct (writes o') eqn:WR.
      + destruct n as [|n]; [|rewrite wrcode_step in E1 by (assumption || lia); discriminate].
        rewrite wrcode_end in E1. unfold fin in E1. cbn [app] in E1. injection E1 as <- <-. split; [exact V|]. split; [now apply i_leave|].
        split; [|auto]. rewrite M. pose proof (after_words 0 o' old V W) as [LA _]. destruct (after o' old), old; try discriminate. reflexivity.
      + unfold wrcode, fin in E1. rewrite WR in E1. cbn [app] in E1. injection E1 as <- <-. split; [exact V|]. split; [now apply i_leave|]. split; [|auto].
        unfold after. now rewrite newval_ro.
    - destruct (Nat.eq_dec j n) as [->|N]; [|rewrite wrcode_step in E1 by (assumption || lia); discriminate].
      rewrite wrcode_end in E1. unfold fin in E1. cbn [app] in E1. injection E1 as <- <-. split; [exact V|]. split; [now apply i_leave|]. split; [|exact A].
      rewrite M. pose proof (after_words n o' old V W) as [LA _]. unfold after in *. destruct (newval w o' old) as [v|]; [|reflexivity].
      rewrite <- LA at 1. rewrite firstn_all, skipn_all2 by lia. apply app_nil_r.
  Qed.
  Definition access (i : instr) : bool := match i with Rd _ | Wr _ _ | Commit _ => true | _ => false end.
  Lemma phase_idle n old m i c a : phase n old m (i :: c) a -> access i = false -> idle n (i :: c) /\ m = old.
  Proof.
    intros P A. inversion P as [c0 a0 H M|o' j c0 V H R J M E1 E2|o' j c0 a0 V H R J A' M E1 E2]; subst; [auto|exfalso..].
    - destruct (Nat.eq_dec j n) as [->|N]; [|rewrite rdcode_step in E1 by lia; injection E1 as <- _; discriminate].
      rewrite rdcode_end in E1. unfold wrcode, fin in E1. destruct (writes o'), (n - 0)%nat; cbn [seq map app] in E1; injection E1 as <- _; discriminate.
    - unfold wrcode, fin in E1. destruct (writes o'), (n - j)%nat; cbn [seq map app] in E1; injection E1 as <- _; discriminate.
  Qed.

  Lemma agree_next i c sc m : paired (i :: c) -> agree (i :: c) sc m -> access i = true -> agree c sc m.
  Proof.
    intros P [C A] X. split; [exact C|]. destruct i; try discriminate; cbn [paired] in P; destruct P as [_ P]; destruct c as [|[]]; cbn in *; congruence.
  Qed.
  Lemma exec_ok n x0 s f rest : inv n x0 s -> frames s = f :: rest -> code f <> [] -> exists s', exec w f rest s = Some s' /\ inv n x0 s'.
  Proof.
    intros [[old (W & SQ & PH)] T] F NE. rewrite F in PH, T. destruct T as (OK & PA & AG & RS).
    unfold exec. destruct (code f) as [|i c] eqn:C; [congruence|].
    destruct i as [b|b| |i|o i|o].
    - destruct (phase_idle _ _ _ _ _ _ PH eq_refl) as [H M]. eexists; split; [reflexivity|]. split; cbn.
      + exists old. split; [exact W|]. split; [exact SQ|]. constructor; [|exact M]. now inversion H.
      + cbn [ok paired] in OK, PA. destruct AG as [CH AG]. destruct PA as [PA [c' E]]. split; [exact OK|]. split; [exact PA|]. split; [|exact RS].
        rewrite E. split; [cbn [chain]; auto|]. eexists; reflexivity.
    - destruct (phase_idle _ _ _ _ _ _ PH eq_refl) as [H M]. eexists; split; [reflexivity|]. split; cbn.
      + exists old. split; [exact W|]. split; [exact SQ|]. inversion H as [|? ? H1|b' ? H2|? H3|o c' V H4]; subst.
        * constructor; [assumption|reflexivity].
        * destruct (reads o) eqn:R.
          -- change (@nil Z) with (firstn 0 (mem s)). apply p_read; auto. lia.
          -- cbn [app]. destruct (writes o) eqn:WR; [|destruct o; discriminate].
             apply p_write; auto; [lia|congruence|]. destruct (newval w o (mem s)); reflexivity.
      + cbn [ok paired] in OK, PA. destruct AG as [CH [sc' E]]. split; [exact OK|]. split; [apply PA|]. split; [|exact RS].
        split; [exact CH|]. rewrite E. destruct PA as [_ PA]. destruct c as [|[]]; cbn in *; congruence.
    - destruct (phase_idle _ _ _ _ _ _ PH eq_refl) as [H M]. cbn [ok] in OK. destruct (scope f) as [|[b m] sc] eqn:SC; [contradiction|].
      eexists; split; [reflexivity|]. split; cbn.
      + exists old. split; [exact W|]. split; [exact SQ|]. constructor; [|exact M]. now inversion H.
      + cbn [paired] in PA. destruct AG as [[CH CH'] AG]. split; [exact OK|]. split; [apply PA|]. split; [|exact RS].
        split; [exact CH'|]. destruct PA as [_ PA]. destruct c as [|[]]; cbn in *; congruence.
    - destruct (phase_rd _ _ _ _ _ _ W PH) as (x & NX & PH'). rewrite NX. cbn [obind]. eexists; split; [reflexivity|]. split; cbn.
      + exists old. auto.
      + pose proof (agree_next _ _ _ _ PA AG eq_refl). cbn [ok paired] in OK, PA. split; [apply OK|]. split; [apply PA|]. split; assumption.
    - destruct (phase_to_write _ _ _ _ _ _ _ W PH) as (c' & I & V & ID & WR & A & E & M).
      assert (newval w o (acc f) = newval w o old) as NV.
      { destruct (reads o) eqn:R; [now rewrite A|now apply newval_acc]. }
      assert (forall m', m' = match newval w o old with Some v => firstn (S i) v ++ skipn (S i) old | None => old end ->
        inv n x0 (Core m' (mask s) (Fr c (acc f) (scope f) :: rest) (log s))) as K.
      { intros m' EM. split; cbn.
        - exists old. split; [exact W|]. split; [exact SQ|]. rewrite E. apply p_write; auto.
        - pose proof (agree_next _ _ _ _ PA AG eq_refl). cbn [ok paired] in OK, PA. split; [apply OK|]. split; [apply PA|]. split; assumption. }
      rewrite NV. pose proof (after_words n o old V W) as [LA _]. unfold after in LA.
      destruct (newval w o old) as [v|] eqn:EV.
      + destruct (nth_error v i) as [x|] eqn:NX; [|apply nth_error_None in NX; lia]. cbn [obind].
        rewrite M, (splice v old n i x LA (proj1 W) I NX). cbn [obind]. eexists; split; [reflexivity|]. now apply K.
      + eexists; split; [reflexivity|]. now apply K.
    - destruct (phase_commit _ _ _ _ _ _ W PH) as (V & ID & M & A). eexists; split; [reflexivity|]. split; cbn.
      + exists (after o old). split; [now apply after_words|]. split.
        * rewrite !map_app, sequence_app, SQ. cbn [map fst snd sequence]. rewrite (op_ok n o old V W). f_equal. f_equal. f_equal. f_equal.
          destruct (reads o) eqn:R; [now rewrite A|now apply result_acc].
        * constructor; [exact ID|exact M].
      + pose proof (agree_next _ _ _ _ PA AG eq_refl). cbn [ok paired] in OK, PA. split; [apply OK|]. split; [apply PA|]. split; assumption.
  Qed.
  Lemma mask_access n old m c a sc : phase n old m c a -> ok c sc false -> idle n c /\ m = old.
  Proof.
    intros P O. destruct c as [|i c].
    - inversion P as [c0 a0 H M|o' j c0 V H R J M E1 E2|o' j c0 a0 V H R J A' M E1 E2]; subst; auto.
      + exfalso. apply app_eq_nil in E1 as [_ E1]. apply app_eq_nil in E1 as [_ E1]. discriminate.
      + exfalso. apply app_eq_nil in E1 as [_ E1]. discriminate.
    - apply (phase_idle _ _ _ _ _ _ P). destruct i; try reflexivity; cbn [ok] in O; destruct O; discriminate.
  Qed.
  Lemma inv_step n x0 s s' : inv n x0 s -> step w n s s' -> inv n x0 s'.
  Proof.
    intros I ST. destruct ST as [s f rest s' F E|s p M V|s f rest F C NE].
    - destruct (exec_ok n x0 s f rest I F) as (s2 & E2 & I2); [|congruence]. intros C. unfold exec in E. rewrite C in E. discriminate.
    - destruct I as [[old (W & SQ & PH)] T]. destruct (frames s) as [|f rest] eqn:F; [contradiction|]. destruct T as (OK & PA & AG & RS).
      rewrite M in *. destruct (mask_access _ _ _ _ _ _ PH OK) as [ID MM]. split; cbn.
      + exists old. split; [exact W|]. split; [exact SQ|]. constructor; [now apply idle_prog|exact MM].
      + split; [apply ok_prog|]. split; [apply paired_prog|]. split; [|constructor; [repeat split; assumption || apply AG|exact RS]].
        split; [exact I|]. pose proof (proj2 (paired_prog n p)) as P. destruct (prog_code n p) as [|[]]; cbn in *; congruence.
    - destruct I as [[old (W & SQ & PH)] T]. rewrite F in *. destruct T as (OK & PA & AG & RS).
      rewrite C in *. destruct OK as [SC M]. destruct rest as [|g rest]; [congruence|]. inversion RS as [|? ? (ID & OG & PG & AGG) RS']; subst.
      rewrite M in *. destruct (mask_access _ _ _ _ _ [] PH) as [_ MM]; [split; reflexivity|]. split; cbn.
      + exists old. split; [exact W|]. split; [exact SQ|]. now apply p_idle.
      + auto.
  Qed.
  Lemma inv_reach n m main s : words w n m -> Forall (valid_stmt w n) main -> reach w n m main s -> inv n (val m) s.
  Proof. intros W V R. induction R; [now apply inv_boot|eapply inv_step; eassumption]. Qed.

  Lemma inv_consistent n x0 s : inv n x0 s ->
    map (fun p => reply_of w (snd p)) (log s) = snd (sequence w (len n) (map fst (log s)) x0) /\
    (mask s = false -> words w n (mem s) /\ val (mem s) = fst (sequence w (len n) (map fst (log s)) x0)).
  Proof.
    intros [[old (W & SQ & PH)] T]. rewrite SQ. cbn [fst snd]. split; [reflexivity|]. intros M.
    destruct (frames s) as [|f rest]; [contradiction|]. destruct T as (OK & _). rewrite M in OK.
    destruct (mask_access _ _ _ _ _ _ PH OK) as [_ ->]. auto.
  Qed.
  Lemma inv_masks n x0 s f rest : inv n x0 s -> frames s = f :: rest ->
    (code f = [] -> mask s = false) /\
    (pending (code f) = false -> mask s = level (scope f)) /\
    Forall (fun g => pending (code g) = false -> level (scope g) = false) rest.
  Proof.
    intros [_ T] F. rewrite F in T. destruct T as (OK & PA & AG & RS). split; [|split].
    - intros C. rewrite C in OK. apply OK.
    - intros P. destruct AG as [_ AG]. destruct (code f) as [|[]]; cbn in *; congruence.
    - eapply Forall_impl; [|exact RS]. cbn. intros g (_ & _ & _ & [_ A]) P. destruct (code g) as [|[]]; cbn in *; congruence.
  Qed.
End P.

(** *** Priorities *)
Lemma lock_priority_spec pb p b : 1 <= pb <= 8 -> 1 <= p < 2 ^ pb ->
  lock_priority pb p b = if (b =? 0) || (p * 2 ^ (8 - pb) <? b) then p * 2 ^ (8 - pb) else b.
Proof.
  intros B P. unfold lock_priority, set_basepri_max.
  assert (Z.land (u32 (Z.shiftl p (8 - pb))) 255 = p * 2 ^ (8 - pb)) as E.
  { rewrite Z.shiftl_mul_pow2 by lia. assert (0 < p * 2 ^ (8 - pb) < 256) as R.
    { assert (0 < 2 ^ (8 - pb)) by (apply Z.pow_pos_nonneg; lia). split; [nia|].
      replace 256 with (2 ^ pb * 2 ^ (8 - pb)) by (rewrite <- Z.pow_add_r by lia; now replace (pb + (8 - pb)) with 8 by lia). nia. }
    unfold u32, wrap. rewrite (Z.mod_small (p * _)) by (change (2 ^ 32) with 4294967296; lia).
    change 255 with (Z.ones 8). rewrite Z.land_ones by lia. apply Z.mod_small. change (2 ^ 8) with 256. lia. }
  rewrite E. assert (0 < p * 2 ^ (8 - pb)) by (assert (0 < 2 ^ (8 - pb)) by (apply Z.pow_pos_nonneg; lia); nia).
  destruct (Z.eqb_spec (p * 2 ^ (8 - pb)) 0); [lia|]. reflexivity.
Qed.
