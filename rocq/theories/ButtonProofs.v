From Verif Require Import Base BitsProofs ButtonModel ButtonSpec.

Lemma testbit_zero z : (forall j, 0 <= j -> Z.testbit z j = false) -> z = 0.
Proof. intro H. apply Z.bits_inj. intro n. rewrite Z.bits_0. destruct (Z.lt_ge_cases n 0) as [L|L]; [apply Z.testbit_neg_r; exact L|apply H; exact L]. Qed.

(* the bits of the state after update *)
Lemma update_bits w rm t iv s v j : 0 <= j < w ->
  let d := Z.testbit (b_deb s) j in let x := negb (Z.testbit v j) in let i := xorb d x in
  let c0 := negb (Z.testbit (b_ct0 s) j && i) in let c1 := xorb c0 (Z.testbit (b_ct1 s) j && i) in let k := i && (c0 && c1) in
  let s' := bg_update w rm t iv s v in
  Z.testbit (b_deb s') j = xorb d k /\ Z.testbit (b_ct0 s') j = c0 /\ Z.testbit (b_ct1 s') j = c1 /\
  Z.testbit (b_pressed s') j = Z.testbit (b_pressed s) j || (xorb d k && k) /\ Z.testbit (b_released s') j = Z.testbit (b_released s) j || (negb (xorb d k) && k).
Proof.
  intro J. cbv zeta. unfold bg_update. assert ((j <? w) = true) as Jw by lia.
  assert (forall a b c d e f g h k l m n, b_deb (if h =? 0 then mkB a b c k d e l else mkB f g m n d e l) = if h =? 0 then a else f) as _ by (intros; destruct (h =? 0); reflexivity).
  match goal with |- context [if ?c =? 0 then _ else _] => destruct (c =? 0) end; match goal with |- context [if ?c =? 0 then _ else _] => destruct (c =? 0) | _ => idtac end;
  cbn [b_deb b_ct0 b_ct1 b_pressed b_released];
  repeat (rewrite ?Z.lor_spec, ?Z.land_spec, ?Z.lxor_spec, ?wrap_testbit, ?Z.lnot_spec, ?Jw by lia); repeat split; reflexivity.
Qed.

(* the newest n samples differ from d, the one before (if any) does not *)
Fixpoint runs (d : bool) (n : nat) (h : list bool) : Prop :=
  match n with
  | O => match h with [] => True | x :: _ => x = d end
  | S m => match h with x :: r => x = negb d /\ runs d m r | [] => False end
  end.
Definition binv (j : Z) (s : bgroup) (h : list bool) : Prop :=
  Z.testbit (b_deb s) j = level h /\ exists n, (n <= 3)%nat /\ runs (level h) n h /\ Z.testbit (b_ct0 s) j = Nat.even n /\ Z.testbit (b_ct1 s) j = (n <? 2)%nat.
Lemma level_step h n x : (n <= 3)%nat -> runs (level h) n h ->
  level (x :: h) = (if xorb (level h) x && (n =? 3)%nat then x else level h) /\ runs (level (x :: h)) (if xorb (level h) x then if (n =? 3)%nat then 0 else S n else 0) (x :: h).
Proof.
  intros Hn R. assert (level (x :: h) = match h with b :: c :: e :: _ => if Bool.eqb x (negb (level h)) && Bool.eqb b (negb (level h)) && Bool.eqb c (negb (level h)) && Bool.eqb e (negb (level h)) then negb (level h) else level h | _ => level h end) as L.
  { cbn [level]. destruct h as [|b [|c [|e r]]]; reflexivity. }
  set (d := level h) in *. clearbody d.
  assert (level (x :: h) = (if xorb d x && (n =? 3)%nat then x else d)) as E.
  { rewrite L. clear L. destruct n as [|[|[|[|n]]]]; try lia; cbn [runs] in R; cbn [Nat.eqb].
    - destruct h as [|b [|c [|e r]]]; rewrite ?andb_false_r; try reflexivity. subst b. destruct d, x; reflexivity.
    - destruct h as [|b [|c [|e r]]]; rewrite ?andb_false_r; try reflexivity; destruct R as [-> R]. subst c. destruct d, x; reflexivity.
    - destruct h as [|b [|c [|e r]]]; rewrite ?andb_false_r; try reflexivity; destruct R as [-> [-> R]]. subst e. destruct d, x; reflexivity.
    - destruct h as [|b [|c [|e r]]]; try tauto. destruct R as [-> [-> [-> R]]]. destruct d, x; reflexivity. }
  split; [exact E|]. rewrite E. destruct (xorb d x) eqn:X; cbn [andb]; [|cbn [runs]; destruct d, x; try discriminate; reflexivity].
  destruct (n =? 3)%nat; cbn [runs]; [reflexivity|]. split; [destruct d, x; try discriminate; reflexivity|exact R].
Qed.
Lemma update_inv w rm t iv s v j h : 0 <= j < w -> binv j s h -> let s' := bg_update w rm t iv s v in let x := negb (Z.testbit v j) in
  binv j s' (x :: h) /\
  Z.testbit (b_pressed s') j = Z.testbit (b_pressed s) j || (negb (level h) && level (x :: h)) /\ Z.testbit (b_released s') j = Z.testbit (b_released s) j || (level h && negb (level (x :: h))).
Proof.
  intros J (D & n & N & R & C0 & C1). cbv zeta. pose proof (update_bits w rm t iv s v j J) as U. cbv zeta in U. destruct U as (U1 & U2 & U3 & U4 & U5).
  destruct (level_step h n (negb (Z.testbit v j)) N R) as [L R']. set (x := negb (Z.testbit v j)) in *. set (s' := bg_update w rm t iv s v) in *. rewrite D, C0, C1 in *. unfold binv. rewrite U1, U2, U3, U4, U5. rewrite L in R' |- *. clearbody x s'.
  set (d := level h) in *. clearbody d.
  assert (xorb d (xorb d x && (negb (Nat.even n && xorb d x) && xorb (negb (Nat.even n && xorb d x)) ((n <? 2)%nat && xorb d x))) = (if xorb d x && (n =? 3)%nat then x else d)) as E.
  { destruct n as [|[|[|[|n]]]]; try lia; destruct d, x; reflexivity. }
  split; [split; [exact E|]|].
  - exists (if xorb d x then if (n =? 3)%nat then 0%nat else S n else 0%nat). split; [destruct n as [|[|[|[|n]]]]; try lia; destruct (xorb d x); cbn; lia|]. split; [exact R'|].
    destruct n as [|[|[|[|n]]]]; try lia; destruct d, x; split; reflexivity.
  - split; [f_equal|f_equal]; destruct n as [|[|[|[|n]]]]; try lia; destruct d, x; reflexivity.
Qed.
Definition three : list bool := [true; true; true].
Lemma init_inv t j : binv j (bg_init t) three.
Proof. split; [apply Z.bits_0|]. exists 3%nat. split; [lia|]. split; [cbn; tauto|]. split; apply Z.bits_0. Qed.
Lemma single_land m j : 0 <= j -> (Z.land (2 ^ j) m =? 0) = negb (Z.testbit m j).
Proof.
  intro J. destruct (Z.testbit m j) eqn:T; cbn [negb].
  - apply Z.eqb_neq. intro E. apply (f_equal (fun z => Z.testbit z j)) in E. rewrite Z.land_spec, Z.bits_0, Z.pow2_bits_true, T in E by exact J. discriminate.
  - apply Z.eqb_eq. apply testbit_zero. intros i I. rewrite Z.land_spec, Z.pow2_bits_eqb by exact J. destruct (j =? i) eqn:K; [|reflexivity]. assert (i = j) by lia. subst i. rewrite T. reflexivity.
Qed.
Lemma clear_bit v m j : 0 <= j -> Z.testbit (fst (bg_read_and_clear v m)) j = Z.testbit v j && negb (Z.testbit m j).
Proof. intro J. unfold bg_read_and_clear. cbn [fst]. rewrite Z.lxor_spec, Z.land_spec. destruct (Z.testbit v j), (Z.testbit m j); reflexivity. Qed.
Lemma clear_answer v m : 0 <= m -> (snd (bg_read_and_clear v m) = true <-> exists j, 0 <= j /\ Z.testbit m j = true /\ Z.testbit v j = true).
Proof.
  intro M0. unfold bg_read_and_clear. cbn [snd]. assert (0 <= Z.land m v) as Ln by (apply Z.land_nonneg; left; exact M0). split.
  - intro H. destruct (Z.land m v =? 0) eqn:E; [discriminate|].
    exists (Z.log2 (Z.land m v)). split; [apply Z.log2_nonneg|]. assert (Z.testbit (Z.land m v) (Z.log2 (Z.land m v)) = true) as B by (apply Z.bit_log2; lia). rewrite Z.land_spec in B. apply andb_prop in B. exact B.
  - intros (j & J & M & V). destruct (Z.land m v =? 0) eqn:E; [|reflexivity]. exfalso. assert (Z.land m v = 0) as E' by lia. apply (f_equal (fun z => Z.testbit z j)) in E'. rewrite Z.land_spec, M, V, Z.bits_0 in E'. discriminate.
Qed.
Lemma run_inv w rm t iv j l : forall s s' r h, 0 <= j < w -> binv j s h -> bg_run w rm t iv s l = (s', r) ->
  binv j s' (samples j (inputs l) ++ h) /\
  (Forall (fun c => match c with CPressed m => exists k, 0 <= k /\ m = 2 ^ k | _ => True end) l ->
   reports j l r + (if Z.testbit (b_pressed s') j then 1 else 0) <= (if Z.testbit (b_pressed s) j then 1 else 0) + presses (samples j (inputs l)) h).
Proof.
  induction l as [|c l IH]; intros s s' r h J B E; cbn [bg_run] in E.
  - injection E as <- <-. split; [exact B|]. intros _. cbn. unfold reports. cbn. lia.
  - destruct (bg_call w rm t iv s c) as [s1 x] eqn:Ec. destruct (bg_run w rm t iv s1 l) as [s2 r2] eqn:Er. injection E as <- <-.
    assert (forall a b l, reports j (a :: l) (b :: r2) = (match a with CPressed m => if (m =? 2 ^ j) && b then 1 else 0 | _ => 0 end) + reports j l r2) as Rep.
    { intros a b l0. unfold reports. cbn [combine filter fst snd]. destruct a; try lia. destruct ((mask =? 2 ^ j) && b); rewrite ?zlen_cons; lia. }
    destruct c as [v|m|m]; cbn [bg_call] in Ec.
    + injection Ec as <- <-. destruct (update_inv w rm t iv s v j h J B) as (B1 & P1 & _). destruct (IH _ _ _ _ J B1 Er) as [B2 Q].
      assert (samples j (inputs (CUpdate v :: l)) = samples j (inputs l) ++ [negb (Z.testbit v j)]) as Sa. { unfold samples, inputs. cbn [flat_map]. rewrite (rev_app_distr [v]). cbn [rev app]. rewrite map_app. reflexivity. }
      split; [rewrite Sa, <- app_assoc; exact B2|]. intro F. pose proof (Forall_inv_tail F) as Fl; clear F. specialize (Q Fl). rewrite Rep, Sa.
      assert (forall a h, presses (a ++ [negb (Z.testbit v j)]) h = presses a (negb (Z.testbit v j) :: h) + (if negb (level h) && level (negb (Z.testbit v j) :: h) then 1 else 0)) as Pa.
      { induction a as [|y a IHa]; intro h0; cbn [app presses]; [lia|]. rewrite IHa. rewrite <- !app_assoc. cbn [app]. lia. }
      rewrite Pa. rewrite P1 in Q. destruct (Z.testbit (b_pressed s) j); cbn [orb] in Q; destruct (negb (level h) && level (negb (Z.testbit v j) :: h)); lia.
    + unfold bg_isPressed in Ec. destruct (bg_read_and_clear (b_pressed s) m) as [v1 x1] eqn:Ev. injection Ec as <- <-. assert (binv j (mkB (b_deb s) v1 (b_released s) (b_repeated s) (b_ct0 s) (b_ct1 s) (b_counter s)) h) as B1 by exact B.
      destruct (IH _ _ _ _ J B1 Er) as [B2 Q]. split; [exact B2|]. intro F. pose proof (Forall_inv F) as (k & K & ->); pose proof (Forall_inv_tail F) as Fl; clear F. specialize (Q Fl). rewrite Rep. cbn [inputs flat_map]. cbn [b_pressed] in Q.
      pose proof (clear_bit (b_pressed s) (2 ^ k) j ltac:(lia)) as Cb. rewrite Ev in Cb. cbn [fst] in Cb. rewrite Cb in Q. rewrite Z.pow2_bits_eqb in Q by exact K. unfold inputs in Q.
      destruct (Z.eq_dec k j) as [->|Nk].
      * rewrite !Z.eqb_refl in *. unfold bg_read_and_clear in Ev. injection Ev as _ <-. rewrite single_land by exact K. destruct (Z.testbit (b_pressed s) j); cbn [negb andb app] in *; lia.
      * assert ((k =? j) = false) as Kj by lia. rewrite Kj in Q. assert ((2 ^ k =? 2 ^ j) = false) as ->. { apply Z.eqb_neq. intro P. apply Z.pow_inj_r in P; lia. }
        destruct (Z.testbit (b_pressed s) j); cbn [negb andb app] in *; lia.
    + unfold bg_isReleased in Ec. destruct (bg_read_and_clear (b_released s) m) as [v1 x1] eqn:Ev. injection Ec as <- <-. assert (binv j (mkB (b_deb s) (b_pressed s) v1 (b_repeated s) (b_ct0 s) (b_ct1 s) (b_counter s)) h) as B1 by exact B.
      destruct (IH _ _ _ _ J B1 Er) as [B2 Q]. split; [exact B2|]. intro F. pose proof (Forall_inv_tail F) as Fl; clear F. specialize (Q Fl). rewrite Rep. cbn [inputs flat_map b_pressed] in *. unfold inputs in Q. cbn [app]. lia.
Qed.
Lemma level_three h : level ((h ++ [false]) ++ three) = level (h ++ [false]).
Proof.
  induction h as [|x h IH]; [reflexivity|]. cbn [app]. assert (forall r, level (x :: r) = match r with b :: c :: e :: _ => if Bool.eqb x (negb (level r)) && Bool.eqb b (negb (level r)) && Bool.eqb c (negb (level r)) && Bool.eqb e (negb (level r)) then negb (level r) else level r | _ => level r end) as L.
  { intro r. cbn [level]. destruct r as [|b [|c [|e r]]]; reflexivity. }
  rewrite !L, IH. destruct h as [|b [|c [|e r]]]; cbn [app]; try reflexivity.
  - cbn. destruct x; reflexivity.
  - cbn. destruct x, b; reflexivity.
Qed.

(* ---- repetition ---- *)
Lemma update_counter w rm t iv s v : let s' := bg_update w rm t iv s v in let c := u16 ((if Z.land (b_deb s') rm =? 0 then t else b_counter s) - 1) in
  b_counter s' = (if c =? 0 then iv else c) /\ b_repeated s' = Z.lor (b_repeated s) (if c =? 0 then Z.land (b_deb s') rm else 0).
Proof.
  cbv zeta. unfold bg_update. set (deb := Z.lxor (b_deb s) _). set (k := u16 ((if Z.land deb rm =? 0 then t else b_counter s) - 1)).
  destruct (k =? 0) eqn:K; cbn [b_deb b_counter b_repeated]; fold deb; fold k; rewrite K; [split; reflexivity|]. rewrite Z.lor_0_r. split; reflexivity.
Qed.
Definition counter_at (t iv k : Z) : Z := if k <? t - 1 then t - 1 - k else iv - (k - (t - 1)) mod iv.
Lemma counter_step t iv k : 2 <= t < 65536 -> 1 <= iv < 65536 -> 0 <= k ->
  (u16 (counter_at t iv k - 1) =? 0) = ((t - 1 <=? k + 1) && ((k + 1 - (t - 1)) mod iv =? 0)) /\
  (if u16 (counter_at t iv k - 1) =? 0 then iv else u16 (counter_at t iv k - 1)) = counter_at t iv (k + 1).
Proof.
  intros T I K. unfold counter_at. destruct (k <? t - 1) eqn:A.
  - unfold u16. rewrite Z.mod_small by lia. destruct (k + 1 <? t - 1) eqn:B.
    + assert ((t - 1 - k - 1 =? 0) = false) as -> by lia. assert ((t - 1 <=? k + 1) = false) as -> by lia. split; [reflexivity|lia].
    + assert (k + 1 = t - 1) by lia. assert (t - 1 - k - 1 = 0) as -> by lia. assert (k + 1 - (t - 1) = 0) as -> by lia. rewrite Z.mod_0_l by lia. assert ((t - 1 <=? k + 1) = true) as -> by lia. split; [reflexivity|cbn; lia].
  - assert ((k + 1 <? t - 1) = false) as -> by lia. assert ((t - 1 <=? k + 1) = true) as -> by lia. cbn [andb]. set (a := k - (t - 1)). replace (k + 1 - (t - 1)) with (a + 1) by lia. assert (0 <= a) as A0 by lia. clearbody a.
    pose proof (Z.mod_pos_bound a iv ltac:(lia)) as R. unfold u16. rewrite Z.mod_small by lia.
    destruct (Z.eq_dec (a mod iv) (iv - 1)) as [E|E].
    + assert ((a + 1) mod iv = 0) as ->. { pose proof (Z.div_mod a iv ltac:(lia)) as D. replace (a + 1) with (0 + (a / iv + 1) * iv) by lia. rewrite Z.mod_add by lia. apply Z.mod_0_l. lia. }
      assert (iv - a mod iv - 1 = 0) as -> by lia. split; [reflexivity|cbn; lia].
    + assert ((a + 1) mod iv = a mod iv + 1) as ->. { pose proof (Z.div_mod a iv ltac:(lia)) as D. replace (a + 1) with (a mod iv + 1 + a / iv * iv) by lia. rewrite Z.mod_add by lia. apply Z.mod_small. lia. }
      assert ((iv - a mod iv - 1 =? 0) = false) as -> by lia. assert ((a mod iv + 1 =? 0) = false) as -> by lia. split; [reflexivity|lia].
Qed.
Lemma short_spec w s j : 0 <= j < w -> snd (bg_isPressedShort w s (2 ^ j)) = Z.testbit (b_pressed s) j && negb (Z.testbit (b_deb s) j).
Proof.
  intro J. unfold bg_isPressedShort. cbn [snd]. rewrite <- Z.land_assoc, single_land by lia. rewrite negb_involutive, Z.land_spec, wrap_testbit, Z.lnot_spec by lia. assert ((j <? w) = true) as -> by lia. reflexivity.
Qed.
Lemma long_spec s j : 0 <= j -> snd (bg_isPressedLong s (2 ^ j)) = Z.testbit (b_repeated s) j && Z.testbit (b_pressed s) j.
Proof.
  intro J. unfold bg_isPressedLong. cbn [snd]. rewrite <- Z.land_assoc, single_land by lia. rewrite negb_involutive, Z.land_spec. reflexivity.
Qed.
Lemma repeat_run w rm t iv ins : forall s k, 2 <= t < 65536 -> 1 <= iv < 65536 -> 0 <= k -> b_counter s = counter_at t iv k ->
  (forall n, (1 <= n <= length ins)%nat -> Z.land (b_deb (fold_left (bg_update w rm t iv) (firstn n ins) s)) rm <> 0) ->
  forall n, (n < length ins)%nat ->
  let s' := fold_left (bg_update w rm t iv) (firstn (S n) ins) s in
  b_repeated s' = Z.lor (b_repeated (fold_left (bg_update w rm t iv) (firstn n ins) s))
    (if (t - 1 <=? k + Z.of_nat n + 1) && ((k + Z.of_nat n + 1 - (t - 1)) mod iv =? 0) then Z.land (b_deb s') rm else 0).
Proof.
  induction ins as [|v ins IH]; intros s k T I K C H n N; cbn [length] in N; [lia|]. cbv zeta.
  destruct (update_counter w rm t iv s v) as [Uc Ur]. pose proof (H 1%nat ltac:(cbn [length]; lia)) as H1. cbn [firstn fold_left] in H1.
  assert ((Z.land (b_deb (bg_update w rm t iv s v)) rm =? 0) = false) as E by lia. rewrite E, C in Uc, Ur. destruct (counter_step t iv k T I K) as [Fs Cs]. rewrite Cs in Uc. rewrite Fs in Ur.
  destruct n as [|n].
  - cbn [firstn fold_left]. replace (k + Z.of_nat 0 + 1) with (k + 1) by lia. exact Ur.
  - cbn [firstn fold_left]. replace (k + Z.of_nat (S n) + 1) with ((k + 1) + Z.of_nat n + 1) by lia. specialize (IH (bg_update w rm t iv s v) (k + 1) T I ltac:(lia) Uc). cbv zeta in IH. apply IH; [|lia].
    intros m M. exact (H (S m) ltac:(cbn [length]; lia)).
Qed.
