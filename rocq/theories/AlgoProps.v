(* C29 - C32: interpolation, prescalers, range *)
From Verif Require Import Base IntTypes FilterModel AlgoModel AlgoSpec AlgoProofs.
From Coq Require Import Sorted.

(* C29. Outside the table the first and the last value are returned. *)
Theorem C29_clamps_outside :
  forall tin tout table v,
    (forall p rest, table = p :: rest -> v <= fst p -> lin_interpolate tin tout table v = Some (snd p)) /\
    (forall a p, increasing table -> table = a ++ [p] -> fst p < v -> lin_interpolate tin tout table v = Some (snd p)).
Proof.
  intros tin tout table v. split.
  - intros p rest -> H. apply lin_low; exact H.
  - intros a p Hs -> H. apply lin_high; assumption.
Qed.
Print Assumptions C29_clamps_outside.
Example C29_clamps_example :
  let t := [(-200, -50); (50, 0); (100, 30000)] in
  increasing t /\ lin_interpolate (mkTy true 16) (mkTy true 16) t (-300) = Some (-50) /\
  lin_interpolate (mkTy true 16) (mkTy true 16) t 101 = Some 30000.
Proof. cbv zeta. split; [repeat constructor|vm_compute; auto]. Qed.

(* C29. At the support points the value is exact. Needs: the outputs fit the signed type of their width, no overflow
   in a segment, and the common type of input and wide output type is signed (see the refutations). *)
Theorem C29_exact_at_points_partial :
  forall tin tout table p, let r := usual tin (lin_wide tout) in
    lin_types tin tout r -> increasing table -> (forall p q, neighbours table p q -> lin_fits tin tout r p q) -> In p table ->
    lin_interpolate tin tout table (fst p) = Some (snd p).
Proof. exact lin_point. Qed.
Print Assumptions C29_exact_at_points_partial.

(* C29. Between two neighbouring points the value is the truncated line, and lies between the two support values. *)
Theorem C29_between_neighbours_partial :
  forall tin tout table p q v, let r := usual tin (lin_wide tout) in
    lin_types tin tout r -> increasing table -> neighbours table p q -> lin_fits tin tout r p q -> fst p < v <= fst q ->
    exists y, lin_interpolate tin tout table v = Some y /\ between (snd p) (snd q) y /\
      y = snd p + Z.quot ((v - fst p) * (snd q - snd p)) (fst q - fst p).
Proof.
  cbv zeta. intros tin tout table p q v Ht Hs (a & b & E) Hf Hv. eexists. split.
  - apply (lin_loop_inside tin tout table p q v a b); assumption.
  - rewrite lin_segment_exact by assumption. split; [|reflexivity].
    pose proof (quot_between (v - fst p) (snd q - snd p) (fst q - fst p) ltac:(lia) ltac:(lia)) as B.
    revert B. generalize (Z.quot ((v - fst p) * (snd q - snd p)) (fst q - fst p)). unfold between. intros; lia.
Qed.
Print Assumptions C29_between_neighbours_partial.
Example C29_between_example :
  let t := [(-200, -50); (50, 0); (100, 30000)] in let i := mkTy true 16 in
  lin_types i i (usual i (lin_wide i)) /\ lin_fits i i (usual i (lin_wide i)) (-200, -50) (50, 0) /\ lin_fits i i (usual i (lin_wide i)) (50, 0) (100, 30000) /\
  lin_interpolate i i t 0 = Some (-10) /\ lin_interpolate i i t 50 = Some 0 /\ lin_interpolate i i t 99 = Some 29400.
Proof. vm_compute. repeat split; auto; congruence. Qed.

(* C29. Outputs of an unsigned type that do not fit the signed type: Pair<uint8_t, uint8_t>, 0..100 -> 0..200, at 50. *)
Theorem C29_unsigned_output_refuted :
  exists tin tout p q v y, increasing [p; q] /\ in_type tout (snd p) /\ in_type tout (snd q) /\ in_type tin (fst p) /\ in_type tin (fst q) /\
    fst p < v <= fst q /\ lin_interpolate tin tout [p; q] v = Some y /\ ~ between (snd p) (snd q) y.
Proof.
  exists (mkTy false 8), (mkTy false 8), (0, 0), (100, 200), 50, 228.
  split; [repeat constructor|]. unfold between. repeat (split; [vm_compute; intuition congruence|]). cbn. lia.
Qed.
Print Assumptions C29_unsigned_output_refuted.
(* C29. A 32 bit unsigned input makes a falling 16 bit segment unsigned: Pair<uint32_t, int16_t>, 0..10 -> 100..0, at 5. *)
Theorem C29_unsigned_input_refuted :
  exists tin tout p q v y, increasing [p; q] /\ in_type tout (snd p) /\ in_type tout (snd q) /\ in_type tin (fst p) /\ in_type tin (fst q) /\
    sg tout = true /\ fst p < v <= fst q /\ lin_interpolate tin tout [p; q] v = Some y /\ ~ between (snd p) (snd q) y.
Proof.
  exists (mkTy false 32), (mkTy true 16), (0, 100), (10, 0), 5. eexists.
  split; [repeat constructor|]. unfold between. do 6 (split; [vm_compute; intuition congruence|]). split; [vm_compute; reflexivity|]. cbn. lia.
Qed.
Print Assumptions C29_unsigned_input_refuted.
(* C29. Signed inputs further apart than the type: Pair<int8_t, int16_t>, -100..100 -> 0..100, at 0 gives -178. *)
Theorem C29_input_distance_refuted :
  exists tin tout p q v y, increasing [p; q] /\ in_type tout (snd p) /\ in_type tout (snd q) /\ in_type tin (fst p) /\ in_type tin (fst q) /\
    sg tout = true /\ fst p < v <= fst q /\ lin_interpolate tin tout [p; q] v = Some y /\ ~ between (snd p) (snd q) y.
Proof.
  exists (mkTy true 8), (mkTy true 16), (-100, 0), (100, 100), 0, (-178).
  split; [repeat constructor|]. unfold between. do 6 (split; [vm_compute; intuition congruence|]). split; [vm_compute; reflexivity|]. cbn. lia.
Qed.
Print Assumptions C29_input_distance_refuted.

(* C30. from_range/from_list: the result is in the list, and no other prescaler gives an (integer) frequency closer to the
   desired one. *)
Theorem C30_from_range_optimal :
  forall inp df l, 0 < df -> 0 <= inp -> l <> [] -> ascending l -> Forall (fun p => 0 < p) l ->
    exists r, ps_from_range inp df l = Some r /\ admissible l (ps_index r) (ps_prescaler r) /\ ps_frequency r = inp / ps_prescaler r /\
      forall q, In q l -> closer_hz inp df (ps_prescaler r) q.
Proof. exact ps_range_spec. Qed.
Print Assumptions C30_from_range_optimal.
Example C30_from_range_example :
  ascending [2; 4; 6; 16; 32] /\ ps_from_range 48000000 4500000 [2; 4; 6; 16; 32] = Some (mkPresc 3 16 3000000) /\
  ps_from_range 48000000 5500001 [2; 4; 6; 16; 32] = Some (mkPresc 2 6 8000000).
Proof. split; [repeat constructor|vm_compute; auto]. Qed.
(* C30. from_linear: the same for all prescalers of [begin, end]. *)
Theorem C30_from_linear_optimal :
  forall inp df bgn nd, 0 < df -> 0 <= inp -> 1 <= bgn <= nd ->
    let r := ps_from_linear inp df bgn nd in
    bgn <= ps_prescaler r <= nd /\ ps_index r = ps_prescaler r - bgn /\ ps_frequency r = inp / ps_prescaler r /\
    forall q, bgn <= q <= nd -> closer_hz inp df (ps_prescaler r) q.
Proof. exact ps_linear_spec. Qed.
Print Assumptions C30_from_linear_optimal.
Example C30_from_linear_example :
  ps_from_linear 1000 300 1 100 = mkPresc 2 3 333 /\ ps_from_linear 1000 300 5 100 = mkPresc 0 5 200 /\ ps_from_linear 1000 3 1 10 = mkPresc 9 10 100.
Proof. vm_compute. auto. Qed.
(* C30. from_power: optimal among the powers of two of [begin, end] with respect to the real frequency input / p. *)
Theorem C30_from_power_optimal :
  forall inp df a b fuel, 0 < df -> 0 <= inp -> 0 <= a <= b -> b < 32 -> (32 <= fuel)%nat ->
    exists r c, ps_from_power fuel inp df (2 ^ a) (2 ^ b) = Some r /\ ps_prescaler r = 2 ^ c /\ a <= c <= b /\ ps_index r = c - a /\
      ps_frequency r = inp / ps_prescaler r /\ forall e, a <= e <= b -> closer_real inp df (ps_prescaler r) (2 ^ e).
Proof. exact ps_power_spec. Qed.
Print Assumptions C30_from_power_optimal.
Example C30_from_power_example :
  ps_from_power 32 4000 3000 1 256 = Some (mkPresc 0 1 4000) /\ ps_from_power 32 4001 3000 1 256 = Some (mkPresc 1 2 2000) /\
  ps_from_power 32 4001 3 1 256 = Some (mkPresc 8 256 15).
Proof. vm_compute. auto. Qed.
(* C30. from_range compares frequencies truncated to whole Hz: with respect to the real frequency it is not optimal. *)
Theorem C30_from_range_real_refuted :
  exists inp df l r q, ascending l /\ ps_from_range inp df l = Some r /\ In q l /\ ~ closer_real inp df (ps_prescaler r) q.
Proof.
  exists 59, 5, [10; 12], (mkPresc 0 10 5), 12. split; [repeat constructor|]. split; [vm_compute; reflexivity|]. split; [cbn; auto|].
  unfold closer_real. cbn. lia.
Qed.
Print Assumptions C30_from_range_real_refuted.

(* C31. The result is a prescaler of the list (at its index) and a counter of [1, max_counter]; its product is at least as close
   to the ratio as every product p * c whose prescaler p can reach the ratio (max_counter * p >= ratio), and as every product if
   no prescaler can. Missing: prescalers with max_counter * p below the ratio, which are skipped. *)
Theorem C31_optimal_partial :
  forall inp df maxc l, 0 < df -> 0 <= inp -> 1 <= maxc -> Forall (fun p => 0 < p /\ p * maxc < 2 ^ 32) l -> l <> [] ->
    exists r, pc_from_range inp df maxc l = Some r /\ admissible l (pc_index r) (pc_prescaler r) /\ 1 <= pc_counter r <= maxc /\
      forall p c, In p l -> 1 <= c <= maxc -> (inp <= maxc * p * df \/ (forall q, In q l -> maxc * q * df < inp)) ->
        closer_ratio inp df (pc_prescaler r * pc_counter r) (p * c).
Proof. intros inp df maxc l Hdf _. exact (pc_spec inp df maxc l Hdf). Qed.
Print Assumptions C31_optimal_partial.
Example C31_optimal_example :
  pc_from_range 1000 7 20 [2; 3; 8; 16] = Some (mkPc 2 8 18) /\ pc_from_range 5 7 20 [2; 3; 8; 16] = Some (mkPc 0 2 1) /\
  pc_from_range 10000 7 20 [2; 3; 8; 16] = Some (mkPc 3 16 20).
Proof. vm_compute. auto. Qed.
(* C31. from_power with an even max_counter: optimal among all prescalers and counters. *)
Theorem C31_from_power_optimal :
  forall inp df maxc a b, 0 < df -> 0 <= inp -> 1 <= maxc -> Z.even maxc = true -> 0 <= a -> 0 <= b -> 2 ^ Z.max a b * maxc < 2 ^ 32 ->
    exists r i, pc_from_power inp df maxc (2 ^ a) (2 ^ b) = Some r /\ pc_prescaler r = 2 ^ i /\ Z.min a b <= i <= Z.max a b /\
      1 <= pc_counter r <= maxc /\
      forall e c, Z.min a b <= e <= Z.max a b -> 1 <= c <= maxc -> closer_ratio inp df (pc_prescaler r * pc_counter r) (2 ^ e * c).
Proof. exact pc_power_spec. Qed.
Print Assumptions C31_from_power_optimal.
Example C31_from_power_example :
  pc_from_power 48000000 1000 1024 1 32768 = Some (mkPc 6 64 750) /\ pc_from_power 48000000 1000 1024 32768 1 = Some (mkPc 8 128 375).
Proof. vm_compute. auto. Qed.
(* C31. In general a skipped prescaler may be better: {3, 10}, max_counter 5, ratio 16: 3 * 5 = 15, but 10 * 2 = 20 is chosen. *)
Theorem C31_skipped_prescaler_refuted :
  exists inp df maxc l r p c, 1 <= maxc /\ Forall (fun p => 0 < p /\ p * maxc < 2 ^ 32) l /\ pc_from_range inp df maxc l = Some r /\
    In p l /\ 1 <= c <= maxc /\ ~ closer_ratio inp df (pc_prescaler r * pc_counter r) (p * c).
Proof.
  exists 16, 1, 5, [3; 10], (mkPc 1 10 2), 3, 5. split; [lia|]. split; [repeat constructor; lia|]. split; [vm_compute; reflexivity|].
  split; [cbn; auto|]. split; [lia|]. unfold closer_ratio. cbn. lia.
Qed.
Print Assumptions C31_skipped_prescaler_refuted.
(* C31. ... also for powers of two when max_counter is odd. *)
Theorem C31_from_power_odd_refuted :
  exists inp df maxc a b r e c, 1 <= maxc /\ 2 ^ Z.max a b * maxc < 2 ^ 32 /\ pc_from_power inp df maxc (2 ^ a) (2 ^ b) = Some r /\
    Z.min a b <= e <= Z.max a b /\ 1 <= c <= maxc /\ ~ closer_ratio inp df (pc_prescaler r * pc_counter r) (2 ^ e * c).
Proof.
  exists 21, 4, 5, 0, 1, (mkPc 1 2 3), 0, 5. split; [lia|]. split; [cbn; lia|]. split; [vm_compute; reflexivity|].
  split; [cbn; lia|]. split; [lia|]. unfold closer_ratio. cbn. lia.
Qed.
Print Assumptions C31_from_power_odd_refuted.
(* C31. If max * max_counter reaches 2^32 the product wraps: prescaler 65536, max_counter 65536, ratio 1000000 is clamped to
   65536 * 65536 although the counter 15 is within 2% of the ratio. *)
Theorem C31_overflow_refuted :
  exists inp df maxc l r p c, pc_from_range inp df maxc l = Some r /\ In p l /\ 1 <= c <= maxc /\
    ~ closer_ratio inp df (pc_prescaler r * pc_counter r) (p * c).
Proof.
  exists 1000000, 1, 65536, [65536], (mkPc 0 65536 65536), 65536, 15. split; [vm_compute; reflexivity|]. split; [cbn; auto|]. split; [lia|].
  unfold closer_ratio. cbn. lia.
Qed.
Print Assumptions C31_overflow_refuted.

(* C32. [n] is the number of values of the sequence. Iteration visits exactly the sequence and ends, unless the first value
   after it wraps back into the interval. *)
Theorem C32_exact_partial :
  forall t start stop step n, c_type t -> in_type t start -> in_type t stop -> step <> 0 ->
    (0 < step -> start <= stop) -> (step < 0 -> stop <= start) -> 0 <= n ->
    (forall i, 0 <= i -> (before step (start + i * step) stop <-> i < n)) ->
    (n = 0 \/ ~ rg_inside start stop step (conv t (start + n * step))) ->
    exists l, (forall fuel, (Z.to_nat n < fuel)%nat -> rg_values fuel t start stop step = Some l) /\ arithmetic start stop step l.
Proof.
  intros t start stop step n Ht H1 H2 H3 H4 H5 H6 H7 H8. apply rg_correct; try assumption.
  - apply c_type_pos in Ht. lia.
  - unfold rg_validate. lia.
Qed.
Print Assumptions C32_exact_partial.
Example C32_exact_example :
  rg_values 100 (mkTy false 8) 10 50 15 = Some [10; 25; 40] /\ rg_values 100 (mkTy true 8) 100 (-100) (-50) = Some [100; 50; 0; -50] /\
  rg_values 100 (mkTy true 8) (-20) 120 100 = Some [-20; 80].
Proof. vm_compute. auto. Qed.
(* C32. ... and if it does wrap back, the iteration does not visit exactly the sequence: the condition is necessary. *)
Theorem C32_condition_necessary :
  forall t start stop step n, c_type t -> in_type t start -> in_type t stop -> step <> 0 ->
    (0 < step -> start <= stop) -> (step < 0 -> stop <= start) -> 0 < n ->
    (forall i, 0 <= i -> (before step (start + i * step) stop <-> i < n)) ->
    rg_inside start stop step (conv t (start + n * step)) ->
    forall fuel l, rg_values fuel t start stop step = Some l -> ~ arithmetic start stop step l.
Proof.
  intros t start stop step n Ht H1 H2 H3 H4 H5 H6 H7 H8. pose proof (c_type_pos t Ht).
  apply (rg_wrong t start stop step) with (n := n); try assumption; try lia. unfold rg_validate. lia.
Qed.
Print Assumptions C32_condition_necessary.
Example C32_condition_necessary_example :
  rg_inside 0 255 16 (conv (mkTy false 8) (0 + 16 * 16)) /\ rg_values 1000 (mkTy false 8) 0 250 55 <> Some [0; 55; 110; 165; 220].
Proof. vm_compute. intuition congruence. Qed.
(* C32. range(stop) and range(start, stop), step 1: no condition. *)
Theorem C32_step_one :
  forall t start stop, c_type t -> in_type t start -> in_type t stop ->
    exists l, (forall fuel, (Z.to_nat (stop - start) < fuel)%nat -> rg_values fuel t start stop 1 = Some l) /\ arithmetic start stop 1 l.
Proof.
  intros t start stop Ht H1 H2. pose proof (c_type_pos t Ht). destruct (Z_le_dec start stop) as [C|C].
  - apply C32_exact_partial; try assumption; try lia.
    + intros i Hi. unfold before. cbn. lia.
    + right. replace (start + (stop - start) * 1) with stop by lia. rewrite conv_small by (assumption || lia). unfold rg_inside. cbn. lia.
  - exists []. split.
    + intros [|fuel] Hf; [lia|]. unfold rg_values, rg_validate. cbv zeta.
      destruct (stop <? start) eqn:E; [|lia]. cbn. rewrite Z.ltb_irrefl. reflexivity.
    + split; [intros i Hi; rewrite zlen_nil in Hi; lia|]. intros i Hi. rewrite zlen_nil. unfold before. cbn. lia.
Qed.
Print Assumptions C32_step_one.
Example C32_step_one_example : rg_values 300 (mkTy true 8) 125 127 1 = Some [125; 126] /\ rg_values 300 (mkTy false 8) 5 3 1 = Some [].
Proof. vm_compute. auto. Qed.
(* C32. A zero step, or a step leading away from stop, gives the empty range. *)
Theorem C32_empty :
  forall t start stop step fuel, (0 < fuel)%nat -> step = 0 \/ (start <= stop /\ step < 0) \/ (stop <= start /\ 0 < step) ->
    rg_values fuel t start stop step = Some [].
Proof.
  intros t start stop step [|fuel] Hf H; [lia|]. unfold rg_values. cbn [rg_loop]. cbv zeta.
  destruct (rg_validate start stop step) eqn:E.
  - assert (rg_more start stop step start = false) as -> by (unfold rg_validate, rg_more in *; destruct (0 <? step) eqn:E1; lia). reflexivity.
  - unfold rg_more. cbn. rewrite Z.ltb_irrefl. reflexivity.
Qed.
Print Assumptions C32_empty.
Example C32_empty_example : rg_values 1 (mkTy true 8) 5 9 (-2) = Some [] /\ rg_values 1 (mkTy true 8) 5 9 0 = Some [].
Proof. vm_compute. auto. Qed.
(* C32. range<uint8_t>(0, 255, 10) never ends. *)
Theorem C32_termination_refuted :
  exists t start stop step, c_type t /\ in_type t start /\ in_type t stop /\ 0 < step /\ start <= stop /\
    forall fuel, rg_values fuel t start stop step = None.
Proof.
  exists (mkTy false 8), 0, 255, 10. unfold c_type. cbn [wd]. split; [tauto|]. split; [vm_compute; intuition congruence|].
  split; [vm_compute; intuition congruence|]. split; [lia|]. split; [lia|]. intro fuel. unfold rg_values. change (rg_validate 0 255 10) with true. cbv zeta iota.
  assert (forall f k, 0 <= k <= 127 -> rg_loop f (mkTy false 8) 0 255 10 (2 * k) = None) as H; [|apply (H fuel 0); lia].
  induction f as [|f IH]; intros k Hk; [reflexivity|]. cbn [rg_loop].
  assert (rg_more 0 255 10 (2 * k) = true) as -> by (unfold rg_more; change (0 <? 10) with true; cbv iota; lia).
  assert (conv (mkTy false 8) (2 * k + 10) = 2 * ((k + 5) mod 128)) as ->.
  { unfold conv. cbn [sg wd]. unfold wrap. change (2 ^ 8) with 256. lia. }
  rewrite IH; [reflexivity|]. lia.
Qed.
Print Assumptions C32_termination_refuted.
