From Verif Require Import Base BitsProofs EncModel EncSpec.

Lemma mod4_cases p : p mod 4 = 0 \/ p mod 4 = 1 \/ p mod 4 = 2 \/ p mod 4 = 3.
Proof. pose proof (Z.mod_pos_bound p 4 ltac:(lia)). lia. Qed.
Lemma raw_gray p : ei_raw (gray p) = p mod 4.
Proof. unfold gray. destruct (mod4_cases p) as [->|[->|[->| ->]]]; reflexivity. Qed.
Lemma land_ones x k : 0 <= k -> Z.land x (2 ^ k - 1) = x mod 2 ^ k.
Proof. intro K. replace (2 ^ k - 1) with (Z.ones k) by (rewrite Z.ones_equiv; lia). apply Z.land_ones. exact K. Qed.
Lemma update_step d s p dx : ei_last s = p mod 4 -> -1 <= dx <= 1 ->
  ei_update d s (gray (p + dx)) = if dx =? 0 then s else mkEI ((p + dx) mod 4) (swrap d (ei_delta s + dx)).
Proof.
  intros L X. unfold ei_update. rewrite raw_gray, L. assert (dx = -1 \/ dx = 0 \/ dx = 1) as [->|[->| ->]] by lia.
  - cbn [Z.eqb]. rewrite (Z.add_mod p (-1) 4) by lia. destruct (mod4_cases p) as [->|[->|[->| ->]]]; reflexivity.
  - rewrite Z.add_0_r. rewrite Z.sub_diag. reflexivity.
  - cbn [Z.eqb]. rewrite (Z.add_mod p 1 4) by lia. destruct (mod4_cases p) as [->|[->|[->| ->]]]; reflexivity.
Qed.
(* f: the part of the count left over by the last query, m: the steps since *)
Lemma run_count d k l : forall s p s' p' r f m, 0 <= k -> k < d - 1 -> ei_last s = p mod 4 -> sampled l -> calm (2 ^ (d - 1) - 2 ^ k) m l -> 0 <= f < 2 ^ k -> ei_delta s = f + m ->
  ei_run d k s p l = (s', p', r) -> 2 ^ k * zsum r + ei_delta s' = ei_delta s + travelled l /\ ei_last s' = p' mod 4 /\ p' = p + travelled l.
Proof.
  induction l as [|c l IH]; intros s p s' p' r f m K D L Sa C F E R; cbn [ei_run] in R.
  - injection R as <- <- <-. cbn. lia.
  - pose proof (Forall_inv Sa) as S1. pose proof (Forall_inv_tail Sa) as S2. destruct c as [dx|]; cbn [calm] in C.
    + destruct C as [C1 C2]. assert (travelled (Sample dx :: l) = dx + travelled l) as -> by reflexivity.
      rewrite (update_step d s p dx L S1) in R. destruct (dx =? 0) eqn:Dx.
      * assert (dx = 0) as -> by lia. rewrite Z.add_0_r in *. destruct (IH _ _ _ _ _ f m K D L S2 C2 F E R) as (A & B & G). repeat split; [lia|exact B|lia].
      * assert (swrap d (ei_delta s + dx) = ei_delta s + dx) as Sw. { apply swrap_small; lia. }
        rewrite Sw in R. destruct (IH _ _ _ _ _ f (m + dx) K D (eq_refl : ei_last (mkEI ((p + dx) mod 4) (ei_delta s + dx)) = _) S2 C2 F ltac:(cbn [ei_delta]; lia) R) as (A & B & G). cbn [ei_delta] in A. repeat split; [lia|exact B|lia].
    + unfold ei_getDelta in R. destruct (ei_run d k _ p l) as [[s2 p2] r2] eqn:R2. injection R as <- <- <-. assert (travelled (Query :: l) = travelled l) as -> by reflexivity.
      rewrite land_ones in R2 by exact K. pose proof (Z.mod_pos_bound (ei_delta s) (2 ^ k) ltac:(apply Z.pow_pos_nonneg; lia)) as M.
      destruct (IH _ _ _ _ _ (ei_delta s mod 2 ^ k) 0 K D (L : ei_last (mkEI (ei_last s) (ei_delta s mod 2 ^ k)) = _) S2 C M ltac:(cbn [ei_delta]; lia) R2) as (A & B & G). cbn [ei_delta] in A.
      repeat split; [|exact B|exact G]. unfold zsum. cbn [fold_right]. fold (zsum r2). rewrite Z.shiftr_div_pow2 by exact K. pose proof (Z.div_mod (ei_delta s) (2 ^ k) ltac:(lia)). nia.
Qed.

(* the lines that belong to a state of the output driver *)
Definition phase (s : ostate) : Z := match s with State0 => 2 | State1 => 3 | State2 => 0 | State3 => 1 end.
Definition aligned (s : eoutput) : Prop := lines s = gray (phase (eo_state s)).
Definition ticks (s : eoutput) (c : ocall) : bool := match c with OUpdate true => eo_actual s <? eo_setpoint s | _ => false end.
Lemma forward_step s c : aligned s -> (match c with OUpdate true => eo_actual s <= eo_setpoint s | _ => True end) ->
  aligned (eo_call s c) /\ phase (eo_state (eo_call s c)) = (phase (eo_state s) + (if ticks s c then 1 else 0)) mod 4 /\ eo_actual (eo_call s c) = eo_actual s + (if ticks s c then 1 else 0).
Proof.
  intros A F. destruct s as [sp ac st a b]. unfold aligned, lines in *. destruct c as [v|[|]]; cbn [eo_call ticks eo_setPosition eo_actual eo_setpoint eo_state eo_a eo_b] in *.
  - split; [exact A|]. destruct st; cbn; lia.
  - unfold eo_update. cbn [negb eo_actual eo_setpoint eo_state eo_a eo_b]. destruct (ac <? sp) eqn:E.
    + destruct st; cbn [phase eo_state eo_a eo_b eo_actual] in *; destruct a, b; cbn in A |- *; try discriminate; repeat split; lia.
    + assert ((sp <? ac) = false) as -> by lia. cbn [eo_state eo_a eo_b eo_actual]. split; [exact A|]. destruct st; cbn; lia.
  - unfold eo_update. cbn [negb eo_state eo_a eo_b eo_actual]. split; [exact A|]. destruct st; cbn; lia.
Qed.
Lemma forward_run l : forall s q, aligned s -> forward s l -> phase (eo_state s) = q mod 4 ->
  let s' := fold_left eo_call l s in aligned s' /\ phase (eo_state s') = (q + (eo_actual s' - eo_actual s)) mod 4 /\ eo_actual s <= eo_actual s' <= eo_actual s + zlen l.
Proof.
  induction l as [|c l IH]; intros s q A F Q; cbn [fold_left].
  - cbv zeta. split; [exact A|]. rewrite zlen_nil. split; [|lia]. rewrite Q. f_equal. lia.
  - destruct F as [F1 F2]. destruct (forward_step s c A F1) as (A1 & P1 & N1). rewrite Q in P1. rewrite Z.add_mod_idemp_l in P1 by lia. destruct (IH _ _ A1 F2 P1) as (A2 & P2 & N2). cbv zeta in *. split; [exact A2|]. rewrite zlen_cons. split; [|destruct (ticks s c); lia].
    rewrite P2, N1. f_equal. lia.
Qed.
Lemma gray_mod q : gray (q mod 4) = gray q.
Proof. unfold gray. rewrite Z.mod_mod by lia. reflexivity. Qed.
(* the input driver sampling the output driver after every call *)
Fixpoint both (d : Z) (o : eoutput) (i : einput) (l : list ocall) : eoutput * einput :=
  match l with [] => (o, i) | c :: l => let o := eo_call o c in both d o (ei_update d i (lines o)) l end.
Lemma both_count d l : forall o i q o' i', aligned o -> forward o l -> phase (eo_state o) = q mod 4 -> ei_last i = q mod 4 -> 0 < d -> 0 <= ei_delta i -> ei_delta i + zlen l < 2 ^ (d - 1) ->
  both d o i l = (o', i') -> ei_delta i' = ei_delta i + (eo_actual o' - eo_actual o).
Proof.
  induction l as [|c l IH]; intros o i q o' i' A F Q L D I0 B R; cbn [both] in R.
  - injection R as <- <-. lia.
  - rewrite zlen_cons in B. pose proof (zlen_nonneg l) as Zl. destruct F as [F1 F2]. destruct (forward_step o c A F1) as (A1 & P1 & N1). rewrite Q in P1. rewrite Z.add_mod_idemp_l in P1 by lia.
    assert (lines (eo_call o c) = gray (q + (if ticks o c then 1 else 0))) as Ln by (unfold aligned in A1; rewrite A1, P1; apply gray_mod). rewrite Ln in R.
    rewrite (update_step d i q _ L) in R by (destruct (ticks o c); lia). destruct (ticks o c); cbn [Z.eqb] in R.
    + rewrite swrap_small in R by lia. specialize (IH _ _ (q + 1) o' i' A1 F2 P1 (eq_refl : ei_last (mkEI ((q + 1) mod 4) (ei_delta i + 1)) = _) D). cbn [ei_delta] in IH. specialize (IH ltac:(lia) ltac:(lia) R). lia.
    + rewrite Z.add_0_r in P1. specialize (IH _ _ q o' i' A1 F2 P1 L D I0 ltac:(lia) R). lia.
Qed.
Lemma run_query d k l : forall s p s' p' r, ei_run d k s p l = (s', p', r) -> ei_run d k s p (l ++ [Query]) = (fst (ei_getDelta k s'), p', r ++ [snd (ei_getDelta k s')]).
Proof.
  induction l as [|c l IH]; intros s p s' p' r R; cbn [ei_run app] in *.
  - injection R as <- <- <-. reflexivity.
  - destruct c as [dx|]; [apply IH; exact R|]. unfold ei_getDelta in *. destruct (ei_run d k _ p l) as [[s2 p2] r2] eqn:E. injection R as <- <- <-. rewrite (IH _ _ _ _ _ E). reflexivity.
Qed.
