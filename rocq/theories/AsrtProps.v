(* Theorems about assertions (C89). *)
From Verif Require Import Base AsrtModel AsrtSpec.
From Coq Require Import Permutation.

(* which bits are set after asking *)
Lemma ask_spec hs i : forall b, 0 <= b < 256 ->
  fst (ask hs i b) = fold_left Z.lor (map (fun h => bit (snd h i)) hs) b /\ snd (ask hs i b) = map (fun h => Called (fst h) i) hs.
Proof.
  induction hs as [|[n h] hs IH]; intros b B; cbn [ask map fold_left]; [auto|].
  assert (0 <= Z.lor b (bit (h i)) < 256) as B'.
  { split; [apply Z.lor_nonneg; destruct (h i); cbn; lia|]. apply (Z.log2_lt_cancel _ (2 ^ 8)). rewrite Z.log2_lor by (destruct (h i); cbn; lia).
    change (Z.log2 (2 ^ 8)) with 8. apply Z.max_lub_lt; [destruct (Z.eq_dec b 0) as [->|]; [cbn; lia|apply Z.log2_lt_pow2; [lia|exact (proj2 B)]]|destruct (h i); cbn; lia]. }
  destruct (IH _ B') as [E1 E2]. destruct (ask hs i (Z.lor b (bit (h i)))) as [b' t]. cbn in *. split; [exact E1|now f_equal].
Qed.
Lemma fold_lor l : forall b k, 0 <= k -> Z.testbit (fold_left Z.lor l b) k = Z.testbit b k || existsb (fun x => Z.testbit x k) l.
Proof.
  induction l as [|x l IH]; intros b k K; cbn [fold_left existsb]; [now rewrite orb_false_r|].
  rewrite IH by assumption. rewrite Z.lor_spec. now rewrite orb_assoc.
Qed.
Definition has (a : abandonment) (l : list abandonment) : bool := existsb (fun x => match a, x with DontCare, DontCare | Ignore, Ignore | Fail, Fail | Debug, Debug => true | _, _ => false end) l.
Lemma has_in a l : has a l = true <-> In a l.
Proof.
  unfold has. rewrite existsb_exists. split.
  - intros (x & H & E). destruct a, x; try discriminate; exact H.
  - intros H. exists a. split; [exact H|]. destruct a; reflexivity.
Qed.
Definition num (a : abandonment) : Z := match a with DontCare => 0 | Ignore => 1 | Fail => 2 | Debug => 7 end.
Lemma collected b l a : Z.testbit (fold_left Z.lor (map bit l) b) (num a) = Z.testbit b (num a) || has a l.
Proof.
  rewrite fold_lor by (destruct a; cbn; lia). f_equal. unfold has. induction l as [|x l IH]; [reflexivity|]. cbn [map existsb]. rewrite IH. f_equal.
  destruct a, x; reflexivity.
Qed.
Lemma collected_high b l k : 0 <= k -> k <> 0 -> k <> 1 -> k <> 2 -> k <> 7 -> Z.testbit b k = false -> Z.testbit (fold_left Z.lor (map bit l) b) k = false.
Proof.
  intros K K0 K1 K2 K7 B. rewrite fold_lor, B by assumption. cbn [orb]. induction l as [|x l IH]; [reflexivity|]. cbn [map existsb]. rewrite IH, orb_false_r.
  destruct x; cbn [bit]; [change 1 with (2 ^ 0)|change 2 with (2 ^ 1)|change 4 with (2 ^ 2)|change 128 with (2 ^ 7)]; rewrite Z.pow2_bits_eqb by lia; apply Z.eqb_neq; lia.
Qed.
(* the decision, from the four bits *)
Lemma decision b : 0 <= b -> (forall k, 0 <= k -> k <> 0 -> k <> 1 -> k <> 2 -> k <> 7 -> Z.testbit b k = false) ->
  (Z.land b (255 - bit Debug) =? bit DontCare) || negb (Z.land (Z.land b (255 - bit Debug)) (bit Fail) =? 0) =
  Z.testbit b 2 || (Z.testbit b 0 && negb (Z.testbit b 1)).
Proof.
  intros B H.
  assert (b = Z.b2z (Z.testbit b 0) + 2 * Z.b2z (Z.testbit b 1) + 4 * Z.b2z (Z.testbit b 2) + 128 * Z.b2z (Z.testbit b 7)) as E.
  { remember (Z.b2z (Z.testbit b 0) + 2 * Z.b2z (Z.testbit b 1) + 4 * Z.b2z (Z.testbit b 2) + 128 * Z.b2z (Z.testbit b 7)) as c.
    apply Z.bits_inj'. intros k K.
    assert (Z.testbit c k = (if k =? 0 then Z.testbit b 0 else if k =? 1 then Z.testbit b 1 else if k =? 2 then Z.testbit b 2 else if k =? 7 then Z.testbit b 7 else false)) as ->.
    { rewrite Heqc. destruct (Z.ltb_spec k 8) as [L|L].
      - assert (k = 0 \/ k = 1 \/ k = 2 \/ k = 3 \/ k = 4 \/ k = 5 \/ k = 6 \/ k = 7) as O by lia.
        destruct O as [->|[->|[->|[->|[->|[->|[->| -> ]]]]]]]; destruct (Z.testbit b 0), (Z.testbit b 1), (Z.testbit b 2), (Z.testbit b 7); reflexivity.
      - rewrite !(proj2 (Z.eqb_neq _ _)) by lia. apply Z.bits_above_log2; [destruct (Z.testbit b 0), (Z.testbit b 1), (Z.testbit b 2), (Z.testbit b 7); cbn; lia|].
        apply Z.lt_le_trans with 8; [|lia]. destruct (Z.testbit b 0), (Z.testbit b 1), (Z.testbit b 2), (Z.testbit b 7); cbn; lia. }
    destruct (Z.eqb_spec k 0) as [->|]; [reflexivity|]. destruct (Z.eqb_spec k 1) as [->|]; [reflexivity|]. destruct (Z.eqb_spec k 2) as [->|]; [reflexivity|].
    destruct (Z.eqb_spec k 7) as [->|]; [reflexivity|]. now apply H. }
  rewrite E at 1 2. destruct (Z.testbit b 0), (Z.testbit b 1), (Z.testbit b 2), (Z.testbit b 7); reflexivity.
Qed.
Lemma fold_nonneg l : forall b, 0 <= b -> 0 <= fold_left Z.lor (map bit l) b.
Proof. induction l as [|x l IH]; intros b B; cbn [map fold_left]; [exact B|]. apply IH, Z.lor_nonneg. destruct x; cbn; lia. Qed.
Definition answers (hs : list handler) (i : info) : list abandonment := map (fun h => snd h i) hs.
Definition default_resumes (m : macro) : bool := match m with ContinueIgnore | ContinueIgnoreDebug => true | _ => false end.
Definition abandonsb (m : macro) (l : list abandonment) : bool := match m with Assert => true | _ => has Fail l || (negb (has Ignore l) && negb (default_resumes m)) end.
Lemma abandonsb_ok m l : abandonsb m l = true <-> abandons m l.
Proof.
  unfold abandonsb, abandons, resumes_by_default.
  assert (has Ignore l = false <-> ~ In Ignore l) as NI.
  { rewrite <- has_in. destruct (has Ignore l); split; intros; congruence || auto. }
  destruct m; cbn [default_resumes negb]; rewrite ?andb_true_r, ?andb_false_r, ?orb_false_r, ?orb_true_iff, ?negb_true_iff, ?has_in, ?NI; intuition congruence.
Qed.
Lemma report_spec hs nm ctx m : let i := Info nm ctx (macro_behavior m) in
  exists b, 0 <= b < 256 /\
  report hs i = (negb (abandonsb m (answers hs i)),
    map (fun h => Called (fst h) i) hs ++ if abandonsb m (answers hs i) then [Abandoned (Info nm ctx b)] else []) /\
  (forall a, Z.testbit b (num a) = Z.testbit (macro_behavior m) (num a) || has a (answers hs i)) /\
  (forall k, 0 <= k -> k <> 0 -> k <> 1 -> k <> 2 -> k <> 7 -> Z.testbit b k = false).
Proof.
  intros i. unfold report. assert (0 <= macro_behavior m < 256) as R by (destruct m; cbn; lia).
  destruct (ask_spec hs i (behavior i) R) as [E1 E2]. destruct (ask hs i (behavior i)) as [b t]. cbn [fst snd] in *.
  assert (map (fun h : nat * (info -> abandonment) => bit (snd h i)) hs = map bit (answers hs i)) as EM by (unfold answers; now rewrite map_map).
  rewrite EM in E1. change (behavior i) with (macro_behavior m) in E1.
  assert (0 <= b) as B0 by (rewrite E1; apply fold_nonneg; lia).
  assert (forall k, 0 <= k -> k <> 0 -> k <> 1 -> k <> 2 -> k <> 7 -> Z.testbit b k = false) as HB.
  { intros k K K0 K1 K2 K7. rewrite E1. apply collected_high; try assumption.
    destruct (Z.ltb_spec k 8) as [L|L]; [|apply Z.bits_above_log2; [lia|]; apply Z.lt_le_trans with 8; [destruct m; cbn; lia|lia]].
    assert (k = 3 \/ k = 4 \/ k = 5 \/ k = 6) as O by lia. destruct O as [->|[->|[->| -> ]]]; destruct m; reflexivity. }
  assert (forall a, Z.testbit b (num a) = Z.testbit (macro_behavior m) (num a) || has a (answers hs i)) as C by (intros a; rewrite E1; apply collected).
  exists b. split; [split; [exact B0|]|].
  { destruct (Z.ltb_spec b 256) as [L|L]; [exact L|exfalso].
    assert (8 <= Z.log2 b) as LG by (change 8 with (Z.log2 256); now apply Z.log2_le_mono).
    assert (Z.testbit b (Z.log2 b) = false) as X by (apply HB; lia). rewrite Z.bit_log2 in X by lia. discriminate. }
  split; [|exact (conj C HB)]. rewrite decision by assumption.
  assert (Z.testbit b 2 || (Z.testbit b 0 && negb (Z.testbit b 1)) = abandonsb m (answers hs i)) as ->.
  { change 2 with (num Fail) at 1. change 0 with (num DontCare). change 1 with (num Ignore). rewrite !C. unfold abandonsb.
    destruct m; cbn; destruct (has Fail (answers hs i)), (has Ignore (answers hs i)), (has DontCare (answers hs i)); reflexivity. }
  rewrite E2. destruct (abandonsb m (answers hs i)); cbn [negb]; [reflexivity|now rewrite app_nil_r].
Qed.

(* A failed assertion is decided by the documented rules from the answers of all handlers. Every handler is called once, with the assertion's own
   behavior; the condition is evaluated once; the value is the condition; the code the compiler may assume unreachable is not reached. *)
Theorem C89_outcome : forall S debug_build hs m (cond : S -> bool * S) nm ctx s,
  let v := fst (cond s) in let i := Info nm ctx (macro_behavior m) in
  let '(o, s', t) := assertion debug_build hs m cond nm ctx s in
  s' = snd (cond s) /\
  (v = true \/ ~ active debug_build m -> o = Some (Some v) /\ t = []) /\
  (v = false -> active debug_build m ->
    (abandons m (map (fun h => snd h i) hs) -> o = Some None /\ exists b, t = map (fun h => Called (fst h) i) hs ++ [Abandoned (Info nm ctx b)]) /\
    (~ abandons m (map (fun h => snd h i) hs) -> o = Some (Some false) /\ t = map (fun h => Called (fst h) i) hs)).
Proof.
  intros S db hs m cond nm ctx s v i. unfold assertion. destruct (cond s) as [c s1] eqn:EC. cbn [fst snd] in *. subst v.
  assert (debug_only m && negb db = true <-> ~ active db m) as A.
  { unfold active. destruct m, db; cbn; intuition (congruence || discriminate). }
  destruct (debug_only m && negb db) eqn:D.
  - split; [reflexivity|]. split; [auto|]. intros _ X. now destruct (proj1 A eq_refl X).
  - destruct c; [split; [reflexivity|]; split; [auto|discriminate]|].
    destruct (report_spec hs nm ctx m) as (b & RB & E & _). rewrite E. fold i. fold (answers hs i).
    destruct (abandonsb m (answers hs i)) eqn:AB; cbn [negb].
    + split; [reflexivity|]. split; [intros [X|X]; [discriminate|apply A in X; discriminate]|]. intros _ _. split.
      * intros _. split; [reflexivity|]. now exists b.
      * intros X. now destruct (X (proj1 (abandonsb_ok m _) AB)).
    + split; [reflexivity|]. split; [intros [X|X]; [discriminate|apply A in X; discriminate]|]. intros _ _. split.
      * intros X. apply abandonsb_ok in X. congruence.
      * intros _. split; [|apply app_nil_r]. destruct m; try reflexivity. discriminate AB.
Qed.
(* a CAN driver's overflow (name 7): one handler ignores exactly this assertion, another one only logs; a third would fail it *)
Definition quiet : list handler := [(1%nat, fun i => if name i =? 7 then Ignore else DontCare); (2%nat, fun _ => DontCare)].
Definition strict : list handler := quiet ++ [(3%nat, fun _ => Fail)].
Example C89_outcome_ex :
  assertion true quiet ContinueFail (fun n : Z => (n =? 5, n + 1)) 7 0 3 = (Some (Some false), 4, [Called 1 (Info 7 0 1); Called 2 (Info 7 0 1)]) /\
  assertion true quiet ContinueFail (fun n : Z => (n =? 5, n + 1)) 8 0 3 = (Some None, 4, [Called 1 (Info 8 0 1); Called 2 (Info 8 0 1); Abandoned (Info 8 0 1)]) /\
  assertion true strict ContinueIgnore (fun n : Z => (n =? 5, n + 1)) 7 0 3 =
    (Some None, 4, [Called 1 (Info 7 0 2); Called 2 (Info 7 0 2); Called 3 (Info 7 0 2); Abandoned (Info 7 0 7)]) /\
  assertion false strict ContinueFailDebug (fun n : Z => (n =? 5, n + 1)) 7 0 3 = (Some (Some false), 4, []).
Proof. repeat split; reflexivity. Qed.

(* The linker may put the handlers into any order: the outcome is the same. *)
Theorem C89_order : forall S debug_build hs hs' m (cond : S -> bool * S) nm ctx s, Permutation hs hs' ->
  fst (assertion debug_build hs m cond nm ctx s) = fst (assertion debug_build hs' m cond nm ctx s) /\
  Permutation (snd (assertion debug_build hs m cond nm ctx s)) (snd (assertion debug_build hs' m cond nm ctx s)).
Proof.
  intros S db hs hs' m cond nm ctx s P. unfold assertion. destruct (cond s) as [c s1].
  destruct (debug_only m && negb db); [split; reflexivity|]. destruct c; [split; reflexivity|].
  destruct (report_spec hs nm ctx m) as (b & RB & E & C & HB). destruct (report_spec hs' nm ctx m) as (b' & RB' & E' & C' & HB'). rewrite E, E'.
  set (i := Info nm ctx (macro_behavior m)) in *.
  assert (forall a, has a (answers hs i) = has a (answers hs' i)) as HE.
  { intros a. assert (Permutation (answers hs i) (answers hs' i)) as PA by (apply Permutation_map; exact P).
    destruct (has a (answers hs i)) eqn:X; symmetry.
    - apply has_in. apply has_in in X. now apply (Permutation_in _ PA).
    - destruct (has a (answers hs' i)) eqn:Y; [|reflexivity]. apply has_in in Y. apply (Permutation_in _ (Permutation_sym PA)) in Y. apply has_in in Y. congruence. }
  assert (abandonsb m (answers hs i) = abandonsb m (answers hs' i)) as AE by (unfold abandonsb; now rewrite !HE).
  rewrite <- AE.
  assert (Permutation (map (fun h : handler => Called (fst h) i) hs) (map (fun h : handler => Called (fst h) i) hs')) as PM by (apply Permutation_map; exact P).
  assert (b = b') as EB.
  { apply Z.bits_inj'. intros k K.
    destruct (Z.eq_dec k 0) as [->|]; [change 0 with (num DontCare); now rewrite C, C', HE|].
    destruct (Z.eq_dec k 1) as [->|]; [change 1 with (num Ignore); now rewrite C, C', HE|].
    destruct (Z.eq_dec k 2) as [->|]; [change 2 with (num Fail); now rewrite C, C', HE|].
    destruct (Z.eq_dec k 7) as [->|]; [change 7 with (num Debug); now rewrite C, C', HE|].
    now rewrite HB, HB'. }
  destruct (abandonsb m (answers hs i)); cbn [negb]; (split; [reflexivity|]); cbn [snd]; rewrite ?EB; now apply Permutation_app_tail.
Qed.
Example C89_order_ex : Permutation strict (rev strict) /\
  assertion true (rev strict) ContinueIgnore (fun n : Z => (n =? 5, n + 1)) 7 0 3 =
    (Some None, 4, [Called 3 (Info 7 0 2); Called 2 (Info 7 0 2); Called 1 (Info 7 0 2); Abandoned (Info 7 0 7)]).
Proof. split; [apply Permutation_rev|reflexivity]. Qed.

Print Assumptions C89_outcome.
Print Assumptions C89_order.
