From Verif Require Import Base IntTypes WindowSpec WindowLemmas FilterModel FilterSpec.

(* ---- Debounce ---- *)
Definition d_inv (m l u : Z) (d : debounce) : Prop := d_max d = m /\ d_lower d = l /\ d_upper d = u /\ 0 <= d_sum d <= m.
Lemma d_init_inv m l u : d_valid m l u -> d_inv m l u (d_init m l u).
Proof.
  intros (H1 & H2). unfold d_inv, d_init. cbn [d_max d_sum d_lower d_upper]. replace (u =? 0) with false by lia. cbn [negb].
  repeat split; try reflexivity; rewrite Z.quot_div_nonneg by lia; lia.
Qed.
Lemma d_step_inv m l u d o : d_valid m l u -> d_inv m l u d -> d_inv m l u (d_step d o).
Proof.
  intros (H1 & H2) (A & B & C & D). unfold d_inv. destruct o as [b|b]; cbn [d_step].
  - unfold d_update. cbn [d_max d_lower d_upper d_sum]. repeat split; try assumption;
    destruct b; cbn [andb negb]; destruct (_ <? _) eqn:E; try lia.
  - unfold d_reset. destruct b; cbn [d_max d_lower d_upper d_sum]; repeat split; try assumption; lia.
Qed.
Lemma d_run_inv m l u os d : d_valid m l u -> d_inv m l u d -> d_inv m l u (fold_left d_step os d).
Proof. intro Hv. revert d; induction os; intros d H; cbn; [exact H|]. apply IHos, d_step_inv; assumption. Qed.
Lemma d_change d b : d_state (d_update d b) <> d_state d ->
  (d_state d = false /\ d_upper d <= d_sum (d_update d b)) \/ (d_state d = true /\ d_sum (d_update d b) <= d_lower d).
Proof.
  unfold d_update. cbn [d_state d_sum]. set (s := if b && _ then _ else _). clearbody s.
  destruct (d_state d); cbn [andb negb].
  - destruct (s <=? d_lower d) eqn:E; [right; split; [reflexivity|lia]|congruence].
  - destruct (d_upper d <=? s) eqn:E; [left; split; [reflexivity|lia]|congruence].
Qed.
Lemma d_repeat m l u b d k : d_valid m l u -> d_inv m l u d ->
  d_sum (fold_left d_update (repeat b k) d) = (if b then Z.min m (d_sum d + Z.of_nat k) else Z.max 0 (d_sum d - Z.of_nat k)) /\
  d_inv m l u (fold_left d_update (repeat b k) d).
Proof.
  intro Hv. revert d; induction k as [|k IH]; intros d Hd; cbn [repeat fold_left].
  - destruct Hd as (? & ? & ? & ?). split; [destruct b; lia|unfold d_inv; auto].
  - pose proof (d_step_inv m l u d (DUpdate b) Hv Hd) as Hi. cbn [d_step] in Hi. destruct (IH _ Hi) as [A B]. split; [|exact B].
    rewrite A. destruct Hd as (Hm & _ & _ & Hs). unfold d_update. cbn [d_sum]. rewrite Hm.
    destruct b; cbn [andb negb]; destruct (_ <? _) eqn:E; lia.
Qed.
Lemma d_settles m l u b d k : d_valid m l u -> d_inv m l u d -> (Z.to_nat m <= k)%nat ->
  d_state (fold_left d_update (repeat b k) d) = b.
Proof.
  intros Hv Hd Hk. destruct Hv as (H1 & H2).
  destruct k as [|k]; [lia|]. replace (repeat b (S k)) with (repeat b k ++ [b]).
  2:{ clear. induction k; cbn; [reflexivity|]. rewrite IHk. reflexivity. }
  rewrite fold_left_app. cbn [fold_left].
  pose proof (d_repeat m l u b d k (conj H1 H2) Hd) as [A (B1 & B2 & B3 & B4)].
  set (e := fold_left d_update (repeat b k) d) in *. destruct Hd as (_ & _ & _ & Hs).
  unfold d_update. cbn [d_state]. rewrite B1, B2, B3.
  destruct b; cbn [andb negb].
  - replace (if d_sum e <? m then d_sum e + 1 else d_sum e) with m by (destruct (d_sum e <? m) eqn:E; lia).
    replace (m <=? l) with false by lia. replace (u <=? m) with true by lia. destruct (d_state e); reflexivity.
  - replace (if 0 <? d_sum e then d_sum e - 1 else d_sum e) with 0 by (destruct (0 <? d_sum e) eqn:E; lia).
    replace (0 <=? l) with true by lia. replace (u <=? 0) with false by lia. destruct (d_state e); reflexivity.
Qed.

(* ---- MovingAverage ---- *)
Lemma sum_app l l' : sum_list (l ++ l') = sum_list l + sum_list l'. Proof. induction l; cbn; lia. Qed.
Lemma sum_repeat x n : sum_list (repeat x n) = Z.of_nat n * x.
Proof. induction n; [reflexivity|]. cbn [repeat sum_list]. rewrite IHn. lia. Qed.
Definition a_inv (t : ity) (n : nat) (w : list Z) (m : movavg) : Prop :=
  ring (a_index m) (a_buffer m) w /\ length w = n /\ length (a_buffer m) = n /\ a_sum m = conv t (sum_list w).
Lemma a_reset_inv t n m v : 0 <= a_index m < Z.of_nat n -> a_inv t n (repeat v n) (a_reset t n m v).
Proof.
  intro Hi. unfold a_inv, a_reset. cbn [a_index a_buffer a_sum]. rewrite !repeat_length, sum_repeat. repeat split; try lia.
  - rewrite zlen_repeat. lia.
  - rewrite <- (firstn_skipn (Z.to_nat (a_index m)) (repeat v n)) at 3.
    (* both parts are constant *)
    assert (forall k, firstn k (repeat v n) = repeat v (Nat.min k n)) as F.
    { clear. intro k. revert k. induction n; intros [|k]; cbn; try reflexivity. rewrite IHn. reflexivity. }
    assert (forall k, skipn k (repeat v n) = repeat v (n - k)) as S.
    { clear. intro k. revert k. induction n; intros [|k]; cbn; try reflexivity. apply IHn. }
    rewrite F, S, <- !repeat_app. f_equal. lia.
Qed.
Lemma a_update_inv t n w m x : 0 < wd t -> (0 < n)%nat -> a_inv t n w m ->
  exists m', a_update t n m x = Some m' /\ a_inv t n (tl w ++ [x]) m'.
Proof.
  intros Ht Hn (Hr & Hw & Hb & Hs).
  destruct (ring_push _ _ _ x Hr) as (o & b' & E1 & E2 & E3 & L & R).
  assert (zlen (a_buffer m) = Z.of_nat n) as Ez by (unfold zlen; lia). rewrite Ez in R.
  destruct Hr as (Hi & _).
  assert (w = o :: tl w) as Ew by (destruct w; cbn in *; congruence).
  unfold a_update. rewrite E1, E3. cbn [obind]. eexists. split; [reflexivity|]. unfold a_inv. cbn [a_index a_buffer a_sum].
  split; [|split; [|split]].
  - replace (a_index m + 1 =? Z.of_nat n) with (Z.of_nat n <=? a_index m + 1) by lia. exact R.
  - rewrite Ew in Hw. cbn in Hw. rewrite app_length. cbn. lia.
  - unfold zlen in *. lia.
  - rewrite Hs, conv_add_l by assumption. rewrite Ew. cbn [tl sum_list]. rewrite sum_app. cbn [sum_list].
    replace (conv t (o + sum_list (tl w)) - o + x) with (conv t (o + sum_list (tl w)) + (x - o)) by lia.
    rewrite conv_add_l by assumption. f_equal. lia.
Qed.
Lemma a_run_inv t n os v h m : 0 < wd t -> (0 < n)%nat -> a_inv t n (window n v h) m ->
  exists m', a_run t n m os = Some m' /\
    a_inv t n (window n (fst (a_window v h os)) (snd (a_window v h os))) m'.
Proof.
  intros Ht Hn. revert v h m. induction os as [|[x|x] os IH]; intros v h m Hi; cbn [a_run a_window].
  - exists m. split; [reflexivity|exact Hi].
  - destruct (a_update_inv t n _ m x Ht Hn Hi) as (m1 & E & I). cbn [a_step]. rewrite E. cbn [obind]. apply IH.
    rewrite window_snoc by assumption. exact I.
  - cbn [a_step obind]. apply IH. rewrite window_nil. apply a_reset_inv.
    destruct Hi as ((Hi & _) & _ & Hb & _). unfold zlen in Hi. lia.
Qed.
Lemma a_correct t n v os : 0 < wd t -> (0 < n)%nat ->
  exists m, a_run t n (a_init t n v) os = Some m /\ a_sum m = conv t (sum_list (a_last n v os)).
Proof.
  intros Ht Hn. unfold a_last.
  destruct (a_run_inv t n os v [] (a_init t n v) Ht Hn) as (m & E & (_ & _ & _ & I)).
  { rewrite window_nil. apply a_reset_inv. cbn. lia. }
  exists m. split; [exact E|]. destruct (a_window v [] os). exact I.
Qed.
Lemma in_type_quot t s n : 0 < wd t -> in_type t s -> 0 < n -> in_type t (Z.quot s n).
Proof.
  unfold in_type. intros Ht H Hn. pose proof (tmin_tmax t Ht).
  destruct (Z_le_dec 0 s).
  - rewrite Z.quot_div_nonneg by lia. assert (0 <= s / n <= s) by (split; [apply Z.div_pos; lia|apply Z.div_le_upper_bound; nia]). lia.
  - replace s with (- (- s)) by lia. rewrite Z.quot_opp_l by lia. rewrite Z.quot_div_nonneg by lia.
    assert (0 <= (- s) / n <= - s) by (split; [apply Z.div_pos; lia|apply Z.div_le_upper_bound; nia]). lia.
Qed.
Lemma a_value t n v os : 0 < wd t -> (0 < n)%nat -> in_type t (Z.of_nat n) -> in_type t (sum_list (a_last n v os)) ->
  exists m, a_run t n (a_init t n v) os = Some m /\ a_getValue t n m = Z.quot (sum_list (a_last n v os)) (Z.of_nat n).
Proof.
  intros Ht Hn Hin Hs. destruct (a_correct t n v os Ht Hn) as (m & E & S). exists m. split; [exact E|].
  unfold a_getValue. rewrite S, (conv_small t (sum_list _)), (conv_small t (Z.of_nat n)) by assumption.
  apply conv_small; [assumption|]. apply in_type_quot; assumption || lia.
Qed.

(* ---- Ramp ---- *)
Lemma r_update_exact t r : 0 < wd t -> r_wf t r -> r_near t r -> r_value (r_update t r) = ramp_after r 1 /\
  r_target (r_update t r) = r_target r /\ r_inc (r_update t r) = r_inc r /\ r_dec (r_update t r) = r_dec r.
Proof.
  intros Ht (Ha & Hb & Hc & Hd) Hn. unfold in_type, r_near in *. pose proof (tmin_tmax t Ht).
  unfold r_update, ramp_after. destruct (r_value r <? r_target r) eqn:E.
  - rewrite (conv_small t (_ - _)) by (assumption || (unfold in_type; lia)).
    destruct (r_inc r <? _) eqn:E1; cbn [r_value r_target r_inc r_dec]; repeat split; try lia.
    rewrite conv_small by (assumption || (unfold in_type; lia)). lia.
  - rewrite (conv_small t (_ - _)) by (assumption || (unfold in_type; lia)).
    destruct (r_dec r <? _) eqn:E1; cbn [r_value r_target r_inc r_dec]; repeat split; try lia.
    rewrite conv_small by (assumption || (unfold in_type; lia)). lia.
Qed.
Lemma r_update_wf t r : 0 < wd t -> r_wf t r -> r_near t r -> r_wf t (r_update t r) /\ r_near t (r_update t r).
Proof.
  intros Ht Hw Hn. destruct (r_update_exact t r Ht Hw Hn) as (A & B & C & D).
  destruct Hw as (Ha & Hb & Hc & Hd). unfold r_wf, r_near, in_type in *. rewrite A, B, C, D. unfold ramp_after.
  destruct (r_value r <? r_target r) eqn:E; lia.
Qed.
Lemma r_updates t r k : 0 < wd t -> r_wf t r -> r_near t r ->
  r_value (Nat.iter k (r_update t) r) = ramp_after r (Z.of_nat k) /\
  r_target (Nat.iter k (r_update t) r) = r_target r.
Proof.
  intros Ht Hw Hn.
  assert (r_wf t (Nat.iter k (r_update t) r) /\ r_near t (Nat.iter k (r_update t) r) /\
    r_value (Nat.iter k (r_update t) r) = ramp_after r (Z.of_nat k) /\
    r_target (Nat.iter k (r_update t) r) = r_target r /\ r_inc (Nat.iter k (r_update t) r) = r_inc r /\
    r_dec (Nat.iter k (r_update t) r) = r_dec r) as H.
  { induction k as [|k IH].
    - cbn [Nat.iter nat_rect Nat.iter]. split; [exact Hw|]. split; [exact Hn|]. repeat split.
      unfold ramp_after. destruct (r_value r <? r_target r) eqn:E; cbn; lia.
    - change (Nat.iter (S k) (r_update t) r) with (r_update t (Nat.iter k (r_update t) r)).
      destruct IH as (W & N & V & T & I & D). destruct (r_update_exact t _ Ht W N) as (A & B & C & E).
      destruct (r_update_wf t _ Ht W N) as [W' N']. split; [exact W'|]. split; [exact N'|].
      rewrite A, B, C, E. split; [|auto]. unfold ramp_after in *. rewrite V, T, I, D.
      destruct Hw as (_ & _ & Hi & Hd).
      replace (Z.of_nat (S k)) with (Z.of_nat k + 1) by lia. rewrite !Z.mul_add_distr_r, !Z.mul_1_l.
      assert (0 <= Z.of_nat k * r_inc r) by (apply Z.mul_nonneg_nonneg; lia).
      assert (0 <= Z.of_nat k * r_dec r) by (apply Z.mul_nonneg_nonneg; lia).
      destruct (r_value r <? r_target r) eqn:E1; match goal with |- context [?a <? ?b] => destruct (a <? b) eqn:E2 end; lia. }
  tauto.
Qed.
Lemma conv_le t d : 0 < wd t -> 0 <= d -> conv t d <= d /\ (0 <= conv t d -> d < 2 ^ wd t -> conv t d = d).
Proof.
  intros Ht Hd. assert (0 < 2 ^ wd t) by (apply Z.pow_pos_nonneg; lia).
  assert (2 ^ wd t = 2 * 2 ^ (wd t - 1)) as E.
  { replace (wd t) with (1 + (wd t - 1)) at 1 by lia. rewrite Z.pow_add_r by lia. reflexivity. }
  unfold conv, swrap, wrap. destruct (sg t).
  - split.
    + pose proof (Z.mod_le (d + 2 ^ (wd t - 1)) (2 ^ wd t)). lia.
    + intros H1 H2. destruct (Z_lt_dec (d + 2 ^ (wd t - 1)) (2 ^ wd t)).
      * rewrite Z.mod_small in * by lia. lia.
      * exfalso. replace (d + 2 ^ (wd t - 1)) with (d - 2 ^ (wd t - 1) + 1 * 2 ^ wd t) in H1 by lia.
        rewrite Z.mod_add, Z.mod_small in H1 by lia. lia.
  - split; [apply Z.mod_le; lia|]. intros _ H2. apply Z.mod_small. lia.
Qed.
(* whatever the distance, an update that does not arrive moves by exactly one step towards the target *)
Lemma r_update_any t r : 0 < wd t -> r_wf t r ->
  let r' := r_update t r in
  r_wf t r' /\ r_target r' = r_target r /\
  ((r_value r' = r_target r /\ r_reached r' = true) \/ (r_value r' <> r_target r /\ r_reached r' = r_reached r /\ r_value r <> r_target r)).
Proof.
  intros Ht (Ha & Hb & Hc & Hd). unfold in_type in *. pose proof (tmin_tmax t Ht).
  assert (tmax t - tmin t < 2 ^ wd t) as Hspan.
  { unfold tmax, tmin. destruct (sg t); [|lia]. replace (wd t) with (1 + (wd t - 1)) at 3 by lia. rewrite Z.pow_add_r by lia. lia. }
  cbv zeta. unfold r_update. destruct (r_value r <? r_target r) eqn:E.
  - pose proof (conv_le t (r_target r - r_value r) Ht ltac:(lia)) as [H1 H2].
    destruct (r_inc r <? _) eqn:E1; cbn [r_value r_target r_inc r_dec r_reached].
    + rewrite H2 in E1 by lia. rewrite conv_small by (assumption || (unfold in_type; lia)).
      split; [unfold r_wf, in_type; cbn; lia|]. split; [reflexivity|]. right. repeat split; lia.
    + split; [unfold r_wf, in_type; cbn; lia|]. auto.
  - pose proof (conv_le t (r_value r - r_target r) Ht ltac:(lia)) as [H1 H2].
    destruct (r_dec r <? _) eqn:E1; cbn [r_value r_target r_inc r_dec r_reached].
    + rewrite H2 in E1 by lia. rewrite conv_small by (assumption || (unfold in_type; lia)).
      split; [unfold r_wf, in_type; cbn; lia|]. split; [reflexivity|]. right. repeat split; lia.
    + split; [unfold r_wf, in_type; cbn; lia|]. auto.
Qed.
Lemma r_flag t os r : 0 < wd t -> r_wf t r -> (r_reached r = true -> r_value r = r_target r) ->
  Forall no_reset os -> Forall (target_ok t) os ->
  let r' := fold_left (r_step t) os r in r_wf t r' /\ (r_reached r' = true -> r_value r' = r_target r').
Proof.
  intro Ht. revert r. induction os as [|o os IH]; intros r Hw Hf Hn Ho; cbn [fold_left]; [auto|].
  inversion Hn; inversion Ho; subst. apply IH; try assumption; destruct o as [x| |x]; cbn [r_step no_reset target_ok] in *; try contradiction.
  - destruct Hw as (_ & B & C & D). unfold r_wf, r_setTarget. cbn. auto.
  - apply (r_update_any t r Ht Hw).
  - cbn. congruence.
  - destruct (r_update_any t r Ht Hw) as (_ & E & [[A B]|(A & B & C)]); cbv zeta in *; rewrite E; [auto|]. rewrite B. intro R. specialize (Hf R). congruence.
Qed.

(* ---- Pid ---- *)
Lemma signed_limits t : 0 < wd t -> sg t = true -> tmin t = - tmax t - 1.
Proof. intros H E. destruct (tmin_tmax t H) as (_ & _ & A). auto. Qed.
Lemma promote_limits t : 0 < wd t -> wd t <= 64 -> sg t = true -> tmax t <= tmax (promote t) /\ tmin (promote t) <= tmin t /\ 0 < wd (promote t).
Proof.
  intros H H64 E. unfold promote. destruct (wd t <? 32) eqn:E1; [|lia]. unfold tmin, tmax. rewrite E. cbn [sg wd].
  assert (2 ^ (wd t - 1) <= 2 ^ (32 - 1)) by (apply Z.pow_le_mono_r; lia). lia.
Qed.
Lemma neg_limit t m : 0 < wd t -> wd t <= 64 -> sg t = true -> 0 <= m <= tmax t -> conv (promote t) (- m) = - m /\ conv t (- m) = - m.
Proof.
  intros H H64 E Hm. destruct (promote_limits t H H64 E) as (A & B & C). pose proof (signed_limits t H E).
  split; apply conv_small; try assumption; unfold in_type; lia.
Qed.
Lemma p_temp_bound t p e : 0 < wd t -> wd t <= 64 -> sg t = true -> limits_ok t (p_par p) ->
  Z.abs (p_tempErrorSum t p e) <= maxErrorSum (p_par p).
Proof.
  intros H H64 E (Hl & _). unfold p_tempErrorSum. destruct (neg_limit t _ H H64 E Hl) as [-> Hc].
  destruct (_ <? _) eqn:E1; [lia|]. destruct (_ <? - _) eqn:E2; [rewrite Hc; lia|lia].
Qed.
Lemma p_bounds t scale p e ext : 0 < wd t -> wd t <= 64 -> sg t = true -> limits_ok t (p_par p) ->
  let p' := p_update t scale p e ext in
  Z.abs (p_output p') <= maxOutput (p_par p) /\ Z.abs (p_errorSum p') <= maxErrorSum (p_par p) /\ p_par p' = p_par p.
Proof.
  intros H H64 E Hl. pose proof (p_temp_bound t p e H H64 E Hl) as Ht. destruct Hl as (Hl1 & Hl2).
  cbv zeta. unfold p_update. set (temp := p_tempErrorSum t p e) in *. set (tmp := p_raw t scale p e temp). clearbody tmp.
  destruct (neg_limit t _ H H64 E Hl2) as [-> Hc]. pose proof (signed_limits t H E).
  destruct (_ <? tmp) eqn:E1; [|destruct (tmp <? _) eqn:E2]; cbn [p_output p_errorSum p_par].
  - split; [lia|]. split; [|reflexivity]. destruct (negb true || _) eqn:E3; cbn in *; lia.
  - rewrite Hc. split; [lia|]. split; [|reflexivity]. destruct (negb true || _) eqn:E3; cbn in *; lia.
  - rewrite conv_small by (assumption || (unfold in_type; lia)). split; [lia|]. split; [|reflexivity].
    destruct (negb ext || _) eqn:E3; [lia|]. destruct ext; cbn in E3; [lia|discriminate].
Qed.
Lemma p_windup t scale p e ext : 0 < wd t -> wd t <= 64 -> sg t = true -> limits_ok t (p_par p) ->
  (ext = true \/ maxOutput (p_par p) < Z.abs (p_raw t scale p e (p_tempErrorSum t p e))) ->
  Z.abs (p_errorSum (p_update t scale p e ext)) <= Z.abs (p_errorSum p).
Proof.
  intros H H64 E (Hl1 & Hl2) Hlim. unfold p_update. set (temp := p_tempErrorSum t p e) in *.
  set (tmp := p_raw t scale p e temp) in *. clearbody tmp. destruct (neg_limit t _ H H64 E Hl2) as [-> Hc].
  destruct (_ <? tmp) eqn:E1; [|destruct (tmp <? _) eqn:E2]; cbn [p_errorSum].
  - destruct (negb true || _) eqn:E3; cbn in *; lia.
  - destruct (negb true || _) eqn:E3; cbn in *; lia.
  - destruct Hlim as [->|Hlim]; [|lia]. destruct (negb true || _) eqn:E3; cbn in *; lia.
Qed.

Lemma conv_narrow t r x : 0 < wd t -> wd t <= wd r -> conv t (conv r x) = conv t x.
Proof.
  intros Ht Hr. apply conv_cong; [assumption|].
  assert (2 ^ wd r = 2 ^ (wd r - wd t) * 2 ^ wd t) as E by (rewrite <- Z.pow_add_r by lia; f_equal; lia).
  assert (0 < 2 ^ wd t) by (apply Z.pow_pos_nonneg; lia). assert (0 < 2 ^ wd r) by (apply Z.pow_pos_nonneg; lia).
  pose proof (conv_mod r x ltac:(lia)) as Hm. set (c := conv r x) in *.
  pose proof (Z.div_mod c (2 ^ wd r) ltac:(lia)) as D1. pose proof (Z.div_mod x (2 ^ wd r) ltac:(lia)) as D2. rewrite Hm in D1.
  assert (c = x + ((c / 2 ^ wd r - x / 2 ^ wd r) * 2 ^ (wd r - wd t)) * 2 ^ wd t) as -> by (rewrite <- Z.mul_assoc, <- E; nia).
  apply Z.mod_add. lia.
Qed.
(* ---- Pid: the exact formula ---- *)
Lemma arith_exact f t u x y : 0 < wd (usual t u) -> in_type (usual t u) x -> in_type (usual t u) y -> in_type (usual t u) (f x y) ->
  arith f t u x y = f x y.
Proof. intros H Hx Hy Hf. unfold arith. cbv zeta. rewrite (conv_small _ x), (conv_small _ y) by assumption. apply conv_small; assumption. Qed.
Lemma p_temp_exact t p e : 0 < wd t -> wd t <= 64 -> sg t = true -> limits_ok t (p_par p) -> in_type t (p_errorSum p) -> in_type t e ->
  in_type t (p_errorSum p + e) -> p_tempErrorSum t p e = pid_sum p e.
Proof.
  intros H H64 E (Hl & _) Hs He Hse. unfold p_tempErrorSum, pid_sum, clamp_to.
  destruct (promote_limits t H H64 E) as (A & B & C).
  assert (usual t t = promote t) as Eu.
  { unfold usual. rewrite Z.eqb_refl. destruct (promote t) as [s w] eqn:Ep. cbn [sg wd]. destruct s; reflexivity. }
  rewrite arith_exact; rewrite ?Eu; unfold in_type in *; try lia.
  rewrite (conv_small t) by (assumption || (unfold in_type; lia)).
  destruct (neg_limit t _ H H64 E Hl) as [-> Hc]. 
  destruct (_ <? p_errorSum p + e) eqn:E1; [lia|]. destruct (p_errorSum p + e <? _) eqn:E2; [rewrite Hc; lia|lia].
Qed.

Lemma prod_bound n x y : 0 <= n -> - n <= x <= n -> - n <= y <= n -> - (n * n) <= x * y <= n * n.
Proof. intros. nia. Qed.
Lemma pid_prod t x y : pid_type t -> in_type t x -> in_type t y -> in_type (wide t) (x * y).
Proof.
  intros Ht Hx Hy. pose proof (prod_bound (2 ^ (wd t - 1)) x y).
  destruct Ht as [->|[->| ->]]; cbn [wd] in *; unfold in_type, tmin, tmax, wide in *; cbn [sg wd] in *; 
  [change (2 ^ (8 - 1)) with 128 in *; change (2 ^ (2 * 8 - 1)) with 32768|
   change (2 ^ (16 - 1)) with 32768 in *; change (2 ^ (2 * 16 - 1)) with 2147483648|
   change (2 ^ (32 - 1)) with 2147483648 in *; change (2 ^ (2 * 32 - 1)) with 9223372036854775808]; lia.
Qed.
Lemma in_wider t u x : tmin u <= tmin t -> tmax t <= tmax u -> in_type t x -> in_type u x.
Proof. unfold in_type. lia. Qed.
Lemma p_raw_exact t scale p e : pid_type t -> in_type t (pid_sum p e) -> pid_fits t p e ->
  p_raw t scale p e (pid_sum p e) = conv (wide t) (arith Z.quot (wide t) uint_t (pid_total p e (pid_sum p e)) scale).
Proof.
  intros Ht Hs (H1 & H2 & H3 & H4 & H5 & H6 & H7 & H8 & H9). unfold p_raw. cbv zeta.
  set (w := wide t) in *.
  assert (0 < wd w) as Hw by (destruct Ht as [->|[->| ->]]; reflexivity).
  (* the common types are all at least as wide as w, and signed *)
  assert (forall x, in_type w x -> in_type (usual w t) x) as U1.
  { intro x. apply in_wider; destruct Ht as [->|[->| ->]]; vm_compute; congruence. }
  assert (forall x, in_type w x -> in_type (usual w (usual w t)) x) as U2.
  { intro x. apply in_wider; destruct Ht as [->|[->| ->]]; vm_compute; congruence. }
  assert (forall x, in_type w x -> in_type (usual w (usual t t)) x) as U3.
  { intro x. apply in_wider; destruct Ht as [->|[->| ->]]; vm_compute; congruence. }
  assert (forall x, in_type w x -> in_type (usual w (usual w (usual t t))) x) as U4.
  { intro x. apply in_wider; destruct Ht as [->|[->| ->]]; vm_compute; congruence. }
  assert (forall x, in_type t x -> in_type w x) as U5.
  { intro x. apply in_wider; destruct Ht as [->|[->| ->]]; vm_compute; congruence. }
  assert (forall x, in_type t x -> in_type (usual t t) x) as U6.
  { intro x. apply in_wider; destruct Ht as [->|[->| ->]]; vm_compute; congruence. }
  assert (0 < wd (usual w t) /\ 0 < wd (usual w (usual w t)) /\ 0 < wd (usual w (usual t t)) /\
          0 < wd (usual w (usual w (usual t t))) /\ 0 < wd (usual t t)) as (P1 & P2 & P3 & P4 & P5).
  { destruct Ht as [->|[->| ->]]; vm_compute; auto. }
  assert (in_type w (kp (p_par p) * e)) as Q1 by (apply pid_prod; assumption).
  assert (in_type w (ki (p_par p) * pid_sum p e)) as Q2 by (apply pid_prod; assumption).
  assert (in_type w (kd (p_par p) * (e - p_lastError p))) as Q3 by (apply pid_prod; assumption).
  assert (in_type w 0) as Q0 by (destruct Ht as [->|[->| ->]]; vm_compute; split; congruence).
  rewrite !(conv_small w (kp _)), !(conv_small w (ki _)), !(conv_small w (kd _)) by auto.
  rewrite (arith_exact Z.mul w t (kp _)) by auto. rewrite (arith_exact Z.mul w t (ki _)) by auto.
  rewrite (arith_exact Z.sub t t) by auto. rewrite (arith_exact Z.mul w (usual t t)) by auto.
  rewrite (arith_exact Z.add w (usual w t) 0) by auto. rewrite Z.add_0_l, (conv_small w (kp _ * e)) by auto.
  rewrite (arith_exact Z.add w (usual w t)) by auto. rewrite (conv_small w (kp _ * e + _)) by auto.
  rewrite (arith_exact Z.add w (usual w (usual t t))); [|try assumption; auto..].
  rewrite (conv_small w (_ + _ + _)) by assumption. reflexivity.
Qed.
Lemma p_division t scale x : pid_type t -> 0 < scale < 2 ^ 32 -> in_type (wide t) x -> division_ok t scale x ->
  conv (wide t) (arith Z.quot (wide t) uint_t x scale) = Z.quot x scale.
Proof.
  intros Ht Hsc Hx Hd. assert (0 < wd (wide t)) as Hw by (destruct Ht as [->|[->| ->]]; reflexivity).
  pose proof (in_type_quot (wide t) x scale Hw Hx ltac:(lia)) as Hq.
  destruct (Z.eq_dec (wd t) 32) as [E32|E32].
  - destruct Ht as [->|[->| ->]]; try (cbn in E32; lia).
    rewrite arith_exact; [apply conv_small; assumption|reflexivity|exact Hx| |exact Hq].
    change (usual (wide (mkTy true 32)) uint_t) with (mkTy true 64). unfold in_type. change (tmin (mkTy true 64)) with (-9223372036854775808).
    change (tmax (mkTy true 64)) with 9223372036854775807. change (2 ^ 32) with 4294967296 in Hsc. lia.
  - assert (usual (wide t) uint_t = uint_t) as Eu by (destruct Ht as [->|[->| ->]]; try reflexivity; exfalso; apply E32; reflexivity).
    destruct (Z_le_dec 0 x) as [H0|H0].
    + assert (in_type uint_t x) as Hxu.
      { destruct Ht as [->|[->| ->]]; unfold in_type, tmin, tmax, wide, uint_t in *; cbn [sg wd] in *; [..|lia];
        [change (2 ^ (2 * 8 - 1)) with 32768 in *|change (2 ^ (2 * 16 - 1)) with 2147483648 in *]; change (2 ^ 32) with 4294967296 in *; lia. }
      rewrite arith_exact; rewrite ?Eu; [apply conv_small; assumption|reflexivity|exact Hxu| |].
      * unfold in_type, tmin, tmax, uint_t. cbn [sg wd]. lia.
      * apply in_type_quot; [reflexivity|exact Hxu|lia].
    + destruct Hd as [Hd|[->|Hd]]; try lia.
      unfold arith. cbv zeta. rewrite Eu. rewrite (conv_small uint_t 1) by (vm_compute; intuition congruence). rewrite !Z.quot_1_r.
      rewrite conv_conv by reflexivity.
      (* back from unsigned int to the narrower or equal wide type *)
      rewrite conv_narrow; [apply conv_small; assumption|assumption|].
      destruct Ht as [->|[->| ->]]; vm_compute; try congruence. exfalso; apply E32; reflexivity.
Qed.
Lemma p_exact t scale p e ext : pid_type t -> 0 < scale < 2 ^ 32 -> limits_ok t (p_par p) -> in_type t (p_errorSum p) ->
  pid_fits t p e -> division_ok t scale (pid_total p e (pid_sum p e)) ->
  p_output (p_update t scale p e ext) = clamp_to (maxOutput (p_par p)) (pid_formula p scale e).
Proof.
  intros Ht Hsc Hl Hs Hf Hd.
  assert (0 < wd t /\ wd t <= 64 /\ sg t = true) as (A & B & C) by (destruct Ht as [->|[->| ->]]; cbn; lia).
  pose proof Hf as (H1 & H2 & H3 & H4 & H5 & H6 & H7 & H8 & H9). pose proof (signed_limits t A C).
  assert (p_raw t scale p e (p_tempErrorSum t p e) = pid_formula p scale e) as E.
  { rewrite p_temp_exact by assumption. rewrite p_raw_exact; [|assumption| |assumption].
    - rewrite p_division by assumption. reflexivity.
    - destruct Hl as (Hl & _). unfold in_type, pid_sum, clamp_to in *. lia. }
  destruct Hl as (Hl1 & Hl2). unfold p_update. rewrite E. destruct (neg_limit t _ A B C Hl2) as [-> Hc].
  unfold clamp_to. destruct (_ <? pid_formula p scale e) eqn:E1; [cbn; lia|].
  destruct (pid_formula p scale e <? _) eqn:E2; cbn [p_output]; [rewrite Hc; lia|].
  rewrite conv_small by (assumption || (unfold in_type; lia)). lia.
Qed.
Lemma p_integrates t scale p e ext : pid_type t -> 0 < scale < 2 ^ 32 -> limits_ok t (p_par p) -> in_type t (p_errorSum p) ->
  pid_fits t p e -> division_ok t scale (pid_total p e (pid_sum p e)) ->
  p_lastError (p_update t scale p e ext) = e /\
  (ext = false -> Z.abs (pid_formula p scale e) <= maxOutput (p_par p) -> p_errorSum (p_update t scale p e ext) = pid_sum p e).
Proof.
  intros Ht Hsc Hl Hs Hf Hd.
  assert (0 < wd t /\ wd t <= 64 /\ sg t = true) as (A & B & C) by (destruct Ht as [->|[->| ->]]; cbn; lia).
  pose proof Hf as (H1 & H2 & H3 & H4 & H5 & H6 & H7 & H8 & H9). pose proof (signed_limits t A C).
  assert (p_raw t scale p e (p_tempErrorSum t p e) = pid_formula p scale e) as E.
  { rewrite p_temp_exact by assumption. rewrite p_raw_exact; [|assumption| |assumption].
    - rewrite p_division by assumption. reflexivity.
    - destruct Hl as (Hl & _). unfold in_type, pid_sum, clamp_to in *. lia. }
  pose proof (p_temp_exact t p e) as T. split.
  - unfold p_update. destruct (_ <? _); [reflexivity|]. destruct (_ <? _); reflexivity.
  - intros -> Hb. destruct Hl as (Hl1 & Hl2). unfold p_update. rewrite E. destruct (neg_limit t _ A B C Hl2) as [-> Hc].
    destruct (_ <? pid_formula p scale e) eqn:E1; [lia|]. destruct (pid_formula p scale e <? _) eqn:E2; [lia|].
    cbn [negb orb p_errorSum]. apply T; try assumption. split; assumption.
Qed.

(* ---- Fir ---- *)
Lemma usual_wide t u : 0 < wd t -> wd t <= wd (usual t u).
Proof.
  intro H. unfold usual. assert (wd t <= wd (promote t)) by (unfold promote; destruct (wd t <? 32) eqn:E; cbn; lia).
  destruct (wd (promote t) =? wd (promote u)) eqn:E1; [cbn; lia|]. destruct (_ <? wd (promote u)) eqn:E2; lia.
Qed.
Lemma f_mac_ok t f sum i x c : 0 < wd t -> znth (f_taps f) (f_index f + i) = Some x -> znth (f_coef f) i = Some c ->
  f_mac t f sum i = Some (conv t (sum + c * x)).
Proof.
  intros Ht Hx Hc. unfold f_mac. rewrite Hx, Hc. cbn [obind]. f_equal. unfold arith at 1. cbv zeta.
  set (r := usual t (promote t)). assert (wd t <= wd r) by (apply usual_wide; assumption).
  rewrite conv_narrow by assumption. rewrite <- conv_add_l, conv_narrow, conv_add_l by assumption.
  rewrite <- conv_add_r, conv_narrow by assumption.
  unfold arith. cbv zeta. set (r' := usual t t). assert (wd t <= wd r') by (apply usual_wide; assumption).
  rewrite conv_narrow by assumption.
  rewrite <- (conv_mul_l t (conv r' x)), conv_narrow, conv_mul_l by assumption.
  rewrite <- (conv_mul_r t x (conv r' c)), conv_narrow, conv_mul_r by assumption.
  rewrite conv_add_r by assumption. f_equal. lia.
Qed.
Lemma f_rest_app t f k k' sum i : f_rest t f (k + k') sum i = (do s <- f_rest t f k sum i; f_rest t f k' s (i + Z.of_nat k)).
Proof.
  revert sum i; induction k as [|k IH]; intros sum i; cbn [f_rest Nat.add obind].
  - change (Z.of_nat 0) with 0. rewrite Z.add_0_r. reflexivity.
  - destruct (f_mac t f sum i); cbn [obind]; [|reflexivity]. rewrite IH. replace (i + Z.of_nat (S k)) with (i + 1 + Z.of_nat k) by lia. reflexivity.
Qed.
Lemma f_unrolled_rest t f k sum i : f_unrolled t f k sum i = f_rest t f (4 * k) sum i.
Proof.
  revert sum i; induction k as [|k IH]; intros sum i; [reflexivity|].
  replace (4 * S k)%nat with (4 + 4 * k)%nat by lia. rewrite f_rest_app. cbn [f_unrolled f_rest].
  replace (i + 1 + 1) with (i + 2) by lia. replace (i + 2 + 1) with (i + 3) by lia.
  destruct (f_mac t f sum i) as [s1|]; cbn [obind]; [|reflexivity].
  destruct (f_mac t f s1 (i + 1)) as [s2|]; cbn [obind]; [|reflexivity].
  destruct (f_mac t f s2 (i + 2)) as [s3|]; cbn [obind]; [|reflexivity].
  destruct (f_mac t f s3 (i + 3)) as [s4|]; cbn [obind]; [|reflexivity]. apply IH.
Qed.
Lemma f_rest_dot t f c x sum i : 0 < wd t -> length c = length x -> in_type t sum -> 
  (forall j, 0 <= j < zlen c -> znth (f_coef f) (i + j) = znth c j) ->
  (forall j, 0 <= j < zlen x -> znth (f_taps f) (f_index f + (i + j)) = znth x j) ->
  f_rest t f (length c) sum i = Some (conv t (sum + dot c x)).
Proof.
  intros Ht. revert x sum i. induction c as [|a c IH]; intros [|b x] sum i Hl Hs Hc Hx; cbn in Hl; try discriminate.
  - cbn [length f_rest dot]. rewrite Z.add_0_r, conv_small by assumption. reflexivity.
  - cbn [length f_rest]. pose proof (zlen_nonneg c). pose proof (zlen_nonneg x).
    pose proof (Hc 0) as Y0. pose proof (Hx 0) as Y1. rewrite Z.add_0_r, znth_0 in Y0, Y1. rewrite zlen_cons in *.
    rewrite (f_mac_ok t f sum i b a) by (assumption || (try apply Y1; try apply Y0; lia)). cbn [obind].
    rewrite (IH x).
    + cbn [dot]. rewrite conv_add_l by assumption. do 2 f_equal. lia.
    + lia.
    + apply conv_in_type; assumption.
    + intros j Hj. specialize (Hc (j + 1) ltac:(lia)). rewrite znth_cons in Hc by lia.
      replace (j + 1 - 1) with j in Hc by lia. rewrite <- Hc. f_equal. lia.
    + intros j Hj. specialize (Hx (j + 1) ltac:(lia)). rewrite znth_cons in Hx by lia.
      replace (j + 1 - 1) with j in Hx by lia. rewrite <- Hx. f_equal. lia.
Qed.
Lemma f_shift_spec b k taps : 0 <= b -> b + Z.of_nat k < zlen taps ->
  exists taps', f_shift b k taps = Some taps' /\ zlen taps' = zlen taps /\
    forall j, znth taps' j = if (b + 1 <=? j) && (j <=? b + Z.of_nat k) then znth taps (j - b - 1) else znth taps j.
Proof.
  intro Hb. revert taps; induction k as [|k IH]; intros taps Hk.
  - exists taps. split; [reflexivity|]. split; [reflexivity|]. intro j.
    destruct ((b + 1 <=? j) && (j <=? b + Z.of_nat 0)) eqn:E; [lia|reflexivity].
  - cbn [f_shift]. destruct (znth_in_range taps (b + Z.of_nat (S k) - b - 1)) as [x Hx]; [lia|]. rewrite Hx. cbn [obind].
    destruct (zupd_in_range taps (b + Z.of_nat (S k)) x) as (t1 & E1 & L1 & G1); [lia|]. rewrite E1. cbn [obind].
    destruct (IH t1) as (t2 & E2 & L2 & G2); [lia|]. exists t2. split; [exact E2|]. split; [lia|].
    intro j. rewrite G2, !G1.
    destruct ((b + 1 <=? j) && (j <=? b + Z.of_nat k)) eqn:A; destruct ((b + 1 <=? j) && (j <=? b + Z.of_nat (S k))) eqn:B; try lia.
    + replace (j - b - 1 =? b + Z.of_nat (S k)) with false by lia. reflexivity.
    + replace (j =? b + Z.of_nat (S k)) with true by lia. rewrite <- Hx. f_equal. lia.
    + replace (j =? b + Z.of_nat (S k)) with false by lia. reflexivity.
Qed.
Definition f_inv (n b : nat) (coef w : list Z) (f : fir) : Prop :=
  zlen (f_taps f) = Z.of_nat (n + b) /\ 0 <= f_index f <= Z.of_nat b /\ length w = n /\ f_coef f = coef /\
  forall k, 0 <= k < Z.of_nat n -> znth (f_taps f) (f_index f + k) = znth (rev w) k.
Lemma f_reset_inv n b coef f : f_coef f = coef -> f_inv n b coef (repeat 0 n) (f_reset n b f).
Proof.
  intro Hc. unfold f_inv, f_reset. cbn [f_taps f_index f_coef]. rewrite zlen_repeat, repeat_length. repeat split; try lia; try exact Hc.
  intros k Hk. rewrite znth_repeat by lia.
  assert (rev (repeat 0 n) = repeat 0 n) as ->.
  { clear. assert (forall m, repeat 0 m ++ [0] = 0 :: repeat 0 m) as A by (induction m; cbn; congruence).
    induction n; cbn; [reflexivity|]. rewrite IHn. apply A. }
  symmetry. apply znth_repeat. lia.
Qed.
Lemma f_append_inv n b coef w f x : (0 < n)%nat -> f_inv n b coef w f ->
  exists f', f_append n b f x = Some f' /\ f_inv n b coef (tl w ++ [x]) f'.
Proof.
  intros Hn (Hl & Hi & Hw & Hc & Hk). unfold f_append.
  destruct w as [|y w]; [cbn in Hw; lia|]. cbn [tl]. cbn [rev] in Hk. cbn [length] in Hw.
  assert (forall k, 0 <= k < Z.of_nat n - 1 -> znth (rev w ++ [y]) k = znth (rev w) k) as Hpre.
  { intros k H. apply znth_app_l. rewrite zlen_rev. unfold zlen. lia. }
  assert (forall taps idx, zlen taps = Z.of_nat (n + b) -> 0 <= idx <= Z.of_nat b ->
    (forall k, 0 <= k < Z.of_nat n - 1 -> znth taps (idx + 1 + k) = znth (rev w) k) ->
    exists f', (do taps <- zupd taps idx x; Some (mkFir (f_output f) taps (f_coef f) idx)) = Some f' /\ f_inv n b coef (w ++ [x]) f') as H.
  { intros taps idx Ht Hx Hg. destruct (zupd_in_range taps idx x) as (t1 & E1 & L1 & G1); [lia|]. rewrite E1. cbn [obind].
    eexists. split; [reflexivity|]. unfold f_inv. cbn [f_taps f_index f_coef]. repeat split; try lia; try assumption.
    - rewrite app_length. cbn. lia.
    - intros k Hk'. rewrite G1, rev_app_distr. cbn [rev app].
      destruct (idx + k =? idx) eqn:E.
      + replace k with 0 by lia. reflexivity.
      + rewrite znth_cons by lia. rewrite <- Hg by lia. f_equal. lia. }
  destruct (0 <? f_index f) eqn:E.
  - cbn [obind]. apply H; [exact Hl|lia|]. intros k H'. replace (f_index f - 1 + 1 + k) with (f_index f + k) by lia.
    rewrite Hk by lia. apply Hpre. lia.
  - assert (f_index f = 0) as E0 by lia.
    destruct (f_shift_spec (Z.of_nat b) (n - 1) (f_taps f)) as (t1 & E1 & L1 & G1); [lia|lia|].
    rewrite E1. cbn [obind]. apply H; [lia|lia|]. intros k H'. rewrite G1.
    replace ((Z.of_nat b + 1 <=? Z.of_nat b + 1 + k) && (Z.of_nat b + 1 + k <=? Z.of_nat b + Z.of_nat (n - 1))) with true by lia.
    replace (Z.of_nat b + 1 + k - Z.of_nat b - 1) with (f_index f + k) by lia. rewrite Hk by lia. apply Hpre. lia.
Qed.
Lemma f_update_inv t n b coef w f scale : 0 < wd t -> length coef = n -> f_inv n b coef w f ->
  exists f', f_update t n scale f = Some f' /\ f_inv n b coef w f' /\
    f_output f' = conv t (arith Z.quot t (mkTy true 32) (conv t (dot coef (rev w))) scale).
Proof.
  intros Ht Hc Hi. pose proof Hi as (Hl & Hx & Hw & Hcf & Hk). unfold f_update. rewrite f_unrolled_rest.
  assert (f_rest t f n 0 0 = Some (conv t (dot coef (rev w)))) as E.
  { rewrite <- Hc at 1. rewrite (f_rest_dot t f coef (rev w)).
    - reflexivity.
    - assumption.
    - rewrite rev_length. lia.
    - pose proof (tmin_tmax t Ht). unfold in_type. lia.
    - intros j Hj. rewrite Hcf, Z.add_0_l. reflexivity.
    - intros j Hj. rewrite zlen_rev in Hj. unfold zlen in Hj. rewrite Z.add_0_l. apply Hk. lia. }
  pose proof (Nat.div_mod n 4 ltac:(lia)) as Hdm.
  rewrite Hdm in E at 1. rewrite f_rest_app in E.
  destruct (f_rest t f (4 * (n / 4)) 0 0) as [s|] eqn:E1; cbn [obind] in *; [|discriminate].
  replace (Z.of_nat (n - n mod 4)) with (0 + Z.of_nat (4 * (n / 4))) by lia. rewrite E. cbn [obind].
  eexists. split; [reflexivity|]. split; [unfold f_inv; cbn [f_taps f_index f_coef]; auto|reflexivity].
Qed.
Lemma f_run_inv t n b coef scale os h f : 0 < wd t -> (0 < n)%nat -> length coef = n -> f_inv n b coef (window n 0 h) f ->
  exists f', f_run t n b scale f os = Some f' /\ f_inv n b coef (window n 0 (f_hist h os)) f'.
Proof.
  intros Ht Hn Hc. revert h f. induction os as [|[x| |] os IH]; intros h f Hi; cbn [f_run f_hist f_step].
  - eauto.
  - destruct (f_append_inv n b coef _ f x Hn Hi) as (f1 & E & I). rewrite E. cbn [obind]. apply IH. rewrite window_snoc by assumption. exact I.
  - destruct (f_update_inv t n b coef _ f scale Ht Hc Hi) as (f1 & E & I & _). rewrite E. cbn [obind]. apply IH, I.
  - cbn [obind]. apply IH. rewrite window_nil. apply f_reset_inv. apply Hi.
Qed.
Lemma f_run_app t n b scale os os' f : f_run t n b scale f (os ++ os') = (do f' <- f_run t n b scale f os; f_run t n b scale f' os').
Proof.
  revert f; induction os as [|o os IH]; intro f; cbn [f_run app obind]; [reflexivity|].
  destruct (f_step t n b scale f o); cbn [obind]; [apply IH|reflexivity].
Qed.
Lemma f_correct t n b coef scale u os : 0 < wd t -> (0 < n)%nat -> length coef = n ->
  exists f, f_run t n b scale (f_init n b coef u) (os ++ [FUpdate]) = Some f /\
    f_output f = conv t (arith Z.quot t (mkTy true 32) (conv t (convolution n coef os)) scale).
Proof.
  intros Ht Hn Hc. destruct (f_run_inv t n b coef scale os [] (f_init n b coef u) Ht Hn Hc) as (f1 & E1 & I1).
  { rewrite window_nil. apply f_reset_inv. reflexivity. }
  destruct (f_update_inv t n b coef _ f1 scale Ht Hc I1) as (f2 & E2 & _ & O).
  exists f2. rewrite f_run_app, E1. cbn [obind f_run f_step]. rewrite E2. cbn [obind]. split; [reflexivity|exact O].
Qed.
Lemma f_quot t s scale : c_type t -> in_type t s -> 0 < scale < 2 ^ 31 -> conv t (arith Z.quot t (mkTy true 32) s scale) = Z.quot s scale.
Proof.
  intros Ht Hs Hsc. assert (0 < wd t) as Hw by (destruct Ht as [H|[H|[H|H]]]; lia).
  pose proof (in_type_quot t s scale Hw Hs ltac:(lia)) as Hq.
  assert (0 < wd (usual t (mkTy true 32)) /\ (forall x, in_type t x -> in_type (usual t (mkTy true 32)) x) /\
    in_type (usual t (mkTy true 32)) scale) as (A & B & C).
  { destruct t as [s' w]. unfold c_type in Ht. cbn [wd] in Ht.
    destruct s'; destruct Ht as [->|[->|[->| ->]]]; (split; [reflexivity|]; split;
      [intro x; apply in_wider; vm_compute; congruence|]);
    unfold in_type; match goal with |- ?a <= _ <= ?b => let a' := eval vm_compute in a in let b' := eval vm_compute in b in change a with a'; change b with b' end;
    change (2 ^ 31) with 2147483648 in Hsc; lia. }
  rewrite arith_exact by auto. apply conv_small; assumption.
Qed.
