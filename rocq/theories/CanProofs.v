From Verif Require Import Base BitLemmas SliceLemmas CrcSpec CrcProofs CanModel CanSpec.

Lemma sweep n (f : Z -> bool) : forallb f (map Z.of_nat (seq 0 n)) = true -> forall x, 0 <= x < Z.of_nat n -> f x = true.
Proof.
  intros H x R. rewrite forallb_forall in H. apply H. apply in_map_iff. exists (Z.to_nat x). split; [lia|]. apply in_seq. lia.
Qed.
Lemma lor_high a b n : 0 <= n -> 0 <= b < 2 ^ n -> Z.lor (Z.shiftl a n) b = a * 2 ^ n + b.
Proof.
  intros N B. rewrite <- Z.lxor_lor; [apply lxor_small_shift; assumption|].
  apply Z.bits_inj_0. intro i. rewrite Z.land_spec. destruct (Z.lt_ge_cases i 0); [rewrite !Z.testbit_neg_r by lia; reflexivity|].
  destruct (Z.lt_ge_cases i n).
  - rewrite Z.shiftl_spec_low by lia. reflexivity.
  - rewrite (testbit_high b n i) by lia. apply andb_false_r.
Qed.

(* ---- lengths ---- *)
Definition fitsb (n l : Z) : bool :=
  existsb (Z.eqb l) can_lengths && (n <=? l) && forallb (fun l' => negb (n <=? l') || (l <=? l')) can_lengths.
Lemma fitsb_ok n l : fitsb n l = true -> fits n l.
Proof.
  unfold fitsb, fits. intro H. apply andb_prop in H. destruct H as [H F]. apply andb_prop in H. destruct H as [E L].
  apply existsb_exists in E. destruct E as (x & I & E). assert (l = x) as -> by lia. split; [exact I|]. split; [lia|].
  intros l' I' N. rewrite forallb_forall in F. specialize (F l' I'). lia.
Qed.
Lemma setDlc_ok cap m d : can_capacity cap -> zlen (c_data m) = cap -> 0 <= d < 16 ->
  exists m' t, can_setDataLengthCode cap m d = Some m' /\ consistent cap m' /\ znth can_lengths d = Some t /\ c_len m' = Z.min t cap /\
    c_id m' = c_id m /\ c_rtr m' = c_rtr m /\ c_ext m' = c_ext m /\ c_brs m' = c_brs m /\ c_data m' = c_data m /\
    c_fd m' = (c_fd m || (8 <? c_len m')).
Proof.
  intros C D R.
  assert (forall d, 0 <= d < Z.of_nat 16 -> forallb (fun cap =>
     match dlc_down 17 cap d, znth can_lengths d with
     | Some d', Some t => match znth can_lengths d' with Some l => (l =? Z.min t cap) && Bool.eqb (8 <? d') (8 <? l) | None => false end
     | _, _ => false end) [8; 12; 16; 20; 24; 32; 48; 64] = true) as S.
  { apply (sweep 16 (fun d => forallb (fun cap => match dlc_down 17 cap d, znth can_lengths d with
     | Some d', Some t => match znth can_lengths d' with Some l => (l =? Z.min t cap) && Bool.eqb (8 <? d') (8 <? l) | None => false end
     | _, _ => false end) [8; 12; 16; 20; 24; 32; 48; 64])). vm_compute. reflexivity. }
  specialize (S d R). rewrite forallb_forall in S. specialize (S cap C). unfold can_setDataLengthCode.
  destruct (dlc_down 17 cap d) as [d'|]; [|discriminate]. destruct (znth can_lengths d) as [t|]; [|discriminate].
  cbn [obind]. change dlcConversionTable with can_lengths. destruct (znth can_lengths d') as [l|] eqn:El; [|discriminate]. cbn [obind].
  apply andb_prop in S. destruct S as [S1 S2]. apply eqb_prop in S2.
  do 2 eexists. split; [reflexivity|]. split; [split; [exact El|cbn [c_len c_data]; split; [lia|exact D]]|]. split; [reflexivity|].
  cbn [c_len c_id c_rtr c_ext c_brs c_data c_fd]. split; [lia|]. do 5 (split; [reflexivity|]). rewrite S2. destruct (8 <? l), (c_fd m); reflexivity.
Qed.
Lemma setLength_ok cap m n : can_capacity cap -> zlen (c_data m) = cap -> 0 <= n < 256 ->
  exists m', can_setLength cap m n = Some m' /\ consistent cap m' /\ fits (Z.min n cap) (c_len m') /\
    c_id m' = c_id m /\ c_rtr m' = c_rtr m /\ c_ext m' = c_ext m /\ c_brs m' = c_brs m /\ c_data m' = c_data m /\
    c_fd m' = (c_fd m || (8 <? c_len m')).
Proof.
  intros C D R. unfold can_setLength. destruct (cap <=? 8) eqn:E8.
  - assert (cap = 8) as -> by (unfold can_capacity in C; cbn in C; lia).
    assert (forall n, 0 <= n < Z.of_nat 256 -> (match znth can_lengths (Z.min n 8) with Some l => l =? Z.min n 8 | None => false end) && fitsb (Z.min n 8) (Z.min n 8) = true) as S.
    { apply (sweep 256 (fun n => (match znth can_lengths (Z.min n 8) with Some l => l =? Z.min n 8 | None => false end) && fitsb (Z.min n 8) (Z.min n 8))). vm_compute. reflexivity. }
    specialize (S n ltac:(lia)). apply andb_prop in S. destruct S as [S1 S2]. apply fitsb_ok in S2.
    eexists. split; [reflexivity|]. cbn [c_len c_id c_rtr c_ext c_brs c_data c_fd].
    split; [|split; [exact S2|]].
    + unfold consistent. cbn [c_dlc c_len c_data]. destruct (znth can_lengths (Z.min n 8)) as [l|]; [|discriminate]. assert (l = Z.min n 8) as -> by lia.
      split; [reflexivity|]. split; [lia|exact D].
    + do 5 (split; [reflexivity|]). assert ((8 <? Z.min n 8) = false) as -> by lia. destruct (c_fd m); reflexivity.
  - assert (forall n, 0 <= n < Z.of_nat 256 -> forallb (fun cap =>
       match dlc_up 17 (Z.min n cap) 0 with Some d => (0 <=? d) && (d <? 16) && match znth can_lengths d with Some t => fitsb (Z.min n cap) (Z.min t cap) | None => false end
       | None => false end) [8; 12; 16; 20; 24; 32; 48; 64] = true) as S.
    { apply (sweep 256 (fun n => forallb (fun cap =>
       match dlc_up 17 (Z.min n cap) 0 with Some d => (0 <=? d) && (d <? 16) && match znth can_lengths d with Some t => fitsb (Z.min n cap) (Z.min t cap) | None => false end
       | None => false end) [8; 12; 16; 20; 24; 32; 48; 64])). vm_compute. reflexivity. }
    specialize (S n ltac:(lia)). rewrite forallb_forall in S. specialize (S cap C).
    destruct (dlc_up 17 (Z.min n cap) 0) as [d|]; [|discriminate]. cbn [obind].
    destruct (setDlc_ok cap m d C D ltac:(lia)) as (m' & t & E & K & Et & L & Rest). rewrite Et in S. apply andb_prop in S. destruct S as [_ S]. apply fitsb_ok in S.
    exists m'. split; [exact E|]. split; [exact K|]. rewrite L in *. split; [exact S|]. exact Rest.
Qed.

Lemma cap_pos cap : can_capacity cap -> 8 <= cap <= 64. Proof. unfold can_capacity. cbn. lia. Qed.
Lemma new_ok cap id n : can_capacity cap -> 0 <= n < 256 ->
  exists m, can_new cap id n = Some m /\ consistent cap m /\ fits (Z.min n cap) (c_len m) /\ c_id m = id /\ c_rtr m = false /\ c_ext m = true /\ c_brs m = false /\
    c_data m = repeat 0 (Z.to_nat cap) /\ c_fd m = (8 <? c_len m).
Proof.
  intros C R. pose proof (cap_pos cap C). unfold can_new.
  destruct (setLength_ok cap (mkCan id false false false true 0 0 (repeat 0 (Z.to_nat cap))) n C) as (m & E & K); [cbn [c_data]; rewrite zlen_repeat; lia|exact R|].
  exists m. split; [exact E|]. exact K.
Qed.
Lemma fits_range n l : fits n l -> 0 <= l <= 64.
Proof. intros (I & _). unfold can_lengths in I. cbn in I. lia. Qed.
Lemma fits_exact n : In n can_lengths -> forall l, fits n l -> l = n.
Proof. intros I l (I' & L & M). specialize (M n I ltac:(lia)). lia. Qed.

Lemma copy64_ok n : forall i m x data, 0 <= i -> i + Z.of_nat n = c_len m -> c_len m <= zlen data ->
  exists data', can_copy64 n i m x data = Some data' /\ zlen data' = zlen data /\
    forall k, znth data' k = if (i <=? k) && (k <? c_len m) then Some (x / 256 ^ (c_len m - 1 - k) mod 256) else znth data k.
Proof.
  induction n as [|n IH]; intros i m x data I L D; cbn [can_copy64].
  - exists data. split; [reflexivity|]. split; [reflexivity|]. intro k. assert ((i <=? k) && (k <? c_len m) = false) as -> by lia. reflexivity.
  - destruct (zupd_in_range data i (u8 (Z.shiftr x ((7 - i - (8 - c_len m)) * 8)))) as (d1 & E1 & L1 & G1); [lia|]. rewrite E1. cbn [obind].
    destruct (IH (i + 1) m x d1 ltac:(lia) ltac:(lia) ltac:(lia)) as (d2 & E2 & L2 & G2). exists d2. split; [exact E2|]. split; [lia|].
    intro k. rewrite G2. destruct (Z.eq_dec k i) as [->|N].
    + assert ((i + 1 <=? i) && (i <? c_len m) = false) as -> by lia. assert ((i <=? i) && (i <? c_len m) = true) as -> by lia.
      rewrite G1, Z.eqb_refl. f_equal. unfold u8. rewrite Z.shiftr_div_pow2 by lia. f_equal. f_equal. change 256 with (2 ^ 8). rewrite <- Z.pow_mul_r by lia. f_equal. lia.
    + assert ((i + 1 <=? k) = (i <=? k)) as -> by lia. rewrite G1. assert ((k =? i) = false) as -> by lia. reflexivity.
Qed.
Lemma copy_ok n : forall i src data, 0 <= i -> i + Z.of_nat n <= zlen src -> i + Z.of_nat n <= zlen data ->
  exists data', can_copy n i src data = Some data' /\ zlen data' = zlen data /\
    forall k, znth data' k = if (i <=? k) && (k <? i + Z.of_nat n) then znth src k else znth data k.
Proof.
  induction n as [|n IH]; intros i src data I L D; cbn [can_copy].
  - exists data. split; [reflexivity|]. split; [reflexivity|]. intro k. assert ((i <=? k) && (k <? i + Z.of_nat 0) = false) as -> by lia. reflexivity.
  - destruct (znth_in_range src i) as [b Eb]; [lia|]. rewrite Eb. cbn [obind].
    destruct (zupd_in_range data i b) as (d1 & E1 & L1 & G1); [lia|]. rewrite E1. cbn [obind].
    destruct (IH (i + 1) src d1 ltac:(lia) ltac:(lia) ltac:(lia)) as (d2 & E2 & L2 & G2). exists d2. split; [exact E2|]. split; [lia|].
    intro k. rewrite G2. destruct (Z.eq_dec k i) as [->|N].
    + assert ((i + 1 <=? i) && (i <? i + 1 + Z.of_nat n) = false) as -> by lia. assert ((i <=? i) && (i <? i + Z.of_nat (S n)) = true) as -> by lia.
      rewrite G1, Z.eqb_refl. symmetry. exact Eb.
    + replace (i + 1 + Z.of_nat n) with (i + Z.of_nat (S n)) by lia. assert ((i + 1 <=? k) = (i <=? k)) as -> by lia. rewrite G1. assert ((k =? i) = false) as -> by lia. reflexivity.
Qed.
Lemma copy_short n : forall i src data, 0 <= i <= zlen src -> zlen src < i + Z.of_nat n -> can_copy n i src data = None.
Proof.
  induction n as [|n IH]; intros i src data I L; [lia|]. cbn [can_copy]. destruct (znth src i) as [b|] eqn:E; [|reflexivity]. cbn [obind].
  apply znth_Some in E. destruct (zupd data i b); [|reflexivity]. cbn [obind]. apply IH; lia.
Qed.

(* ---- the text format ---- *)
Lemma charToByte_ok c e : charToByte c e = match hex_value c with Some v => (v, e) | None => (0, true) end.
Proof.
  unfold charToByte, hex_value. destruct ((48 <=? c) && (c <=? 57)); [reflexivity|].
  destruct ((65 <=? c) && (c <=? 70)); [f_equal; lia|]. destruct ((97 <=? c) && (c <=? 102)); [f_equal; lia|reflexivity].
Qed.
Lemma hex_value_range c v : hex_value c = Some v -> 0 <= v < 16.
Proof.
  unfold hex_value. destruct ((48 <=? c) && (c <=? 57)) eqn:E1; [intros [= <-]; lia|].
  destruct ((65 <=? c) && (c <=? 70)) eqn:E2; [intros [= <-]; lia|]. destruct ((97 <=? c) && (c <=? 102)) eqn:E3; [intros [= <-]; lia|discriminate].
Qed.
(* value of a digit, 0 for other characters *)
Definition hv (c : Z) : Z := match hex_value c with Some v => v | None => 0 end.
Definition he (c : Z) : bool := match hex_value c with Some _ => false | None => true end.
Lemma hv_range c : 0 <= hv c < 16.
Proof. unfold hv. destruct (hex_value c) eqn:E; [eapply hex_value_range; eauto|lia]. Qed.
Lemma charToByte_hv c e : charToByte c e = (hv c, e || he c).
Proof. rewrite charToByte_ok. unfold hv, he. destruct (hex_value c); [rewrite orb_false_r; reflexivity|rewrite orb_true_r; reflexivity]. Qed.
Lemma hexToByte_ok mem i a b e : znth mem i = Some a -> znth mem (i + 1) = Some b ->
  hexToByte mem i e = Some (16 * hv a + hv b, e || he a || he b).
Proof.
  intros A B. unfold hexToByte. rewrite A, B. cbn [obind]. rewrite !charToByte_hv. cbn iota beta.
  pose proof (hv_range a). pose proof (hv_range b). rewrite lor_high by (change (2 ^ 4) with 16; lia). unfold u8. rewrite Z.mod_small by (change (2 ^ 4) with 16; lia).
  f_equal. f_equal. change (2 ^ 4) with 16. lia.
Qed.

Lemma data_ok n : forall pre ds tail old1 old2 e, length ds = (2 * n)%nat -> (n <= length old2)%nat ->
  exists vals e', lw_data n (zlen old1) (pre ++ ds ++ tail) (zlen pre) (old1 ++ old2) e = Some (old1 ++ vals ++ skipn n old2, e') /\
    length vals = n /\ match hex_bytes ds with Some bs => vals = bs /\ e' = e | None => e' = true end.
Proof.
  induction n as [|n IH]; intros pre ds tail old1 old2 e L O; cbn [lw_data].
  - destruct ds; [|discriminate]. exists [], e. cbn [hex_bytes skipn app length]. auto.
  - destruct ds as [|a [|b ds]]; [discriminate|cbn in L; lia|]. cbn [length] in L. destruct old2 as [|o old2]; [cbn in O; lia|]. cbn [length] in O.
    rewrite (hexToByte_ok _ _ a b).
    2: { rewrite znth_app_r, Z.sub_diag by lia. reflexivity. }
    2: { rewrite znth_app_r by lia. replace (zlen pre + 1 - zlen pre) with 1 by lia. reflexivity. }
    cbn [obind].
    assert (zupd (old1 ++ o :: old2) (zlen old1) (16 * hv a + hv b) = Some ((old1 ++ [16 * hv a + hv b]) ++ old2)) as ->.
    { rewrite zupd_ok by (rewrite zlen_app, zlen_cons; pose proof (zlen_nonneg old1); pose proof (zlen_nonneg old2); lia).
      f_equal. unfold zlen. rewrite Nat2Z.id, firstn_app_exact by reflexivity. rewrite <- app_assoc. cbn [app]. f_equal. f_equal.
      change (old1 ++ o :: old2) with (old1 ++ [o] ++ old2). rewrite app_assoc. apply skipn_app_exact. rewrite app_length. cbn. lia. }
    cbn [obind].
    destruct (IH (pre ++ [a; b]) ds tail (old1 ++ [16 * hv a + hv b]) old2 (e || he a || he b) ltac:(lia) ltac:(lia)) as (vals & e' & E & Lv & M).
    replace (zlen (pre ++ [a; b])) with (zlen pre + 2) in E by (rewrite zlen_app, !zlen_cons, zlen_nil; lia).
    replace (zlen (old1 ++ [16 * hv a + hv b])) with (zlen old1 + 1) in E by (rewrite zlen_app, !zlen_cons, zlen_nil; lia).
    replace ((pre ++ [a; b]) ++ ds ++ tail) with (pre ++ (a :: b :: ds) ++ tail) in E by (rewrite <- app_assoc; reflexivity).
    rewrite E. exists (16 * hv a + hv b :: vals), e'. split; [rewrite <- app_assoc; reflexivity|]. split; [cbn; lia|].
    cbn [hex_bytes]. unfold hv, he in *. destruct (hex_value a) as [x|]; cbn [obind].
    + destruct (hex_value b) as [y|]; cbn [obind].
      * rewrite !orb_false_r in M. destruct (hex_bytes ds); cbn [obind]; [destruct M as [-> ->]; auto|exact M].
      * rewrite orb_true_r in M. destruct (hex_bytes ds); [destruct M; assumption|exact M].
    + rewrite orb_true_r in M. cbn [orb] in M. destruct (hex_bytes ds); [destruct M; assumption|exact M].
Qed.
Lemma hex_bytes_length s : forall bs, hex_bytes s = Some bs -> length s = (2 * length bs)%nat.
Proof.
  assert (forall n s, (length s <= n)%nat -> forall bs, hex_bytes s = Some bs -> length s = (2 * length bs)%nat) as H.
  { induction n as [|n IH]; intros [|a [|b t]] L bs; cbn [length hex_bytes] in *; try discriminate; try lia; try (intros [= <-]; reflexivity).
    destruct (hex_value a); [|discriminate]. destruct (hex_value b); [|discriminate]. cbn [obind].
    destruct (hex_bytes t) as [u|] eqn:E; [|discriminate]. cbn [obind]. intros [= <-]. specialize (IH t ltac:(lia) u E). cbn [length]. lia. }
  intros bs. apply (H (length s)). lia.
Qed.

Definition hN (ids : list Z) : Z := fold_left (fun a c => 16 * a + hv c) ids 0.
Definition hE (ids : list Z) : bool := existsb he ids.
Lemma hex_number_hv ids : forall acc, hex_number acc ids = if hE ids then None else Some (fold_left (fun a c => 16 * a + hv c) ids acc).
Proof.
  induction ids as [|c r IH]; intro acc; cbn [hex_number hE existsb fold_left]; [reflexivity|]. unfold he at 1, hv at 2.
  destruct (hex_value c) as [v|] eqn:E; cbn [orb]; [|reflexivity]. rewrite IH. reflexivity.
Qed.
Lemma id32 a b c d : 0 <= a < 256 -> 0 <= b < 256 -> 0 <= c < 256 -> 0 <= d < 256 ->
  u32 (Z.lor (Z.shiftl (u16 (Z.lor (u16 (Z.shiftl a 8)) b)) 16) (u16 (Z.lor (u16 (Z.shiftl c 8)) d))) = ((a * 256 + b) * 256 + c) * 256 + d.
Proof.
  intros A B C D. assert (forall x, 0 <= x < 256 -> u16 (Z.shiftl x 8) = Z.shiftl x 8) as U.
  { intros x X. rewrite Z.shiftl_mul_pow2 by lia. change (2 ^ 8) with 256. unfold u16. lia. }
  rewrite (U a A), (U c C), (lor_high a b 8), (lor_high c d 8) by (change (2 ^ 8) with 256; lia). change (2 ^ 8) with 256.
  unfold u16. rewrite (Z.mod_small (a * 256 + b)) by lia. rewrite (Z.mod_small (c * 256 + d)) by lia.
  rewrite lor_high by (change (2 ^ 16) with 65536; lia). change (2 ^ 16) with 65536. unfold u32. rewrite Z.mod_small by lia. lia.
Qed.
Lemma id12 a b : 0 <= a < 16 -> 0 <= b < 256 -> u16 (Z.lor (u16 (Z.shiftl a 8)) b) = a * 256 + b.
Proof.
  intros A B. assert (u16 (Z.shiftl a 8) = Z.shiftl a 8) as ->.
  { rewrite Z.shiftl_mul_pow2 by lia. change (2 ^ 8) with 256. unfold u16. lia. }
  rewrite lor_high by (change (2 ^ 8) with 256; lia). change (2 ^ 8) with 256. unfold u16. lia.
Qed.

Definition is_ext (k : Z) : bool := (k =? 82) || (k =? 84).
Definition is_rtr (k : Z) : bool := (k =? 114) || (k =? 82).
Lemma convert_eq k ids d ds m : zlen ids = (if is_ext k then 8 else 3) ->
  convertToCanMessage (k :: ids ++ d :: ds) m =
    let len := u8 (d - 48) in
    let out r i l := mkCan i (c_fd m) (c_brs m) r (is_ext k) l l in
    if 8 <? len then Some (false, out (c_rtr m) (c_id m) len (c_data m))
    else if negb (zlen ds =? (if is_rtr k then 0 else 2 * len)) then Some (false, out (is_rtr k) (c_id m) len (c_data m))
    else if (if is_ext k then 0x1fffffff <? hN ids else 0x7ff <? hN ids) then Some (false, out (is_rtr k) (hN ids) len (c_data m))
    else if is_rtr k then Some (negb (hE ids), out true (hN ids) len (c_data m))
    else do (data, e) <- lw_data (Z.to_nat len) 0 ((k :: ids ++ [d]) ++ ds ++ [0]) (zlen (k :: ids ++ [d])) (c_data m) (hE ids);
         Some (negb e, out false (hN ids) len data).
Proof.
  intro L. unfold convertToCanMessage. cbv zeta. change (znth ((k :: ids ++ d :: ds) ++ [0]) 0) with (Some k). cbn [obind].
  fold (is_ext k). fold (is_rtr k). cbn [c_id c_fd c_brs c_rtr c_ext c_dlc c_len c_data].
  assert (zlen (k :: ids ++ d :: ds) = (if is_ext k then 9 else 4) + 1 + zlen ds) as Ls.
  { rewrite zlen_cons, zlen_app, zlen_cons, L. destruct (is_ext k); lia. }
  pose proof (zlen_nonneg ds). rewrite Ls.
  assert (((if is_ext k then 9 else 4) + 1 + zlen ds <? (if is_ext k then 9 else 4) + 1) = false) as -> by (destruct (is_ext k); lia).
  assert (znth ((k :: ids ++ d :: ds) ++ [0]) (if is_ext k then 9 else 4) = Some d) as ->.
  { change (k :: ids ++ d :: ds) with ((k :: ids) ++ d :: ds). rewrite <- app_assoc, znth_app_r by (rewrite zlen_cons, L; destruct (is_ext k); lia).
    rewrite zlen_cons, L. destruct (is_ext k); reflexivity. }
  cbn [obind]. destruct (8 <? u8 (d - 48)) eqn:E8; [reflexivity|].
  assert ((if is_rtr k then negb ((if is_ext k then 9 else 4) + 1 + zlen ds =? (if is_ext k then 9 else 4) + 1)
     else negb ((if is_ext k then 9 else 4) + 1 + zlen ds =? u8 (d - 48) * 2 + (if is_ext k then 9 else 4) + 1)) = negb (zlen ds =? (if is_rtr k then 0 else 2 * u8 (d - 48)))) as ->.
  { destruct (is_rtr k); f_equal; lia. }
  destruct (negb (zlen ds =? (if is_rtr k then 0 else 2 * u8 (d - 48)))) eqn:El; [reflexivity|].
  assert (forall (X : list Z -> Z -> Z * bool -> option (bool * can_msg)),
     (do y <- (if is_ext k then
        do (a, error) <- hexToByte ((k :: ids ++ d :: ds) ++ [0]) 1 false;
        do (b, error) <- hexToByte ((k :: ids ++ d :: ds) ++ [0]) 3 error;
        do (c, error) <- hexToByte ((k :: ids ++ d :: ds) ++ [0]) 5 error;
        do (d0, error) <- hexToByte ((k :: ids ++ d :: ds) ++ [0]) 7 error;
        Some (u32 (Z.lor (Z.shiftl (u16 (Z.lor (u16 (Z.shiftl a 8)) b)) 16) (u16 (Z.lor (u16 (Z.shiftl c 8)) d0))), error)
      else do a <- znth ((k :: ids ++ d :: ds) ++ [0]) 1;
        let (x, error) := charToByte a false in
        do (b, error) <- hexToByte ((k :: ids ++ d :: ds) ++ [0]) 2 error;
        Some (u16 (Z.lor (u16 (Z.shiftl x 8)) b), error)); X ids d y) = X ids d (hN ids, hE ids)) as Q.
  { intro X. destruct (is_ext k).
    - destruct ids as [|c1 [|c2 [|c3 [|c4 [|c5 [|c6 [|c7 [|c8 [|? ?]]]]]]]]]; rewrite ?zlen_cons, ?zlen_nil in L; try (pose proof (zlen_nonneg ids)); try (clear - L; lia).
      2: { exfalso. pose proof (zlen_nonneg l). lia. }
      rewrite (hexToByte_ok _ 1 c1 c2) by reflexivity. cbn [obind]. rewrite (hexToByte_ok _ 3 c3 c4) by reflexivity. cbn [obind].
      rewrite (hexToByte_ok _ 5 c5 c6) by reflexivity. cbn [obind]. rewrite (hexToByte_ok _ 7 c7 c8) by reflexivity. cbn [obind].
      pose proof (hv_range c1). pose proof (hv_range c2). pose proof (hv_range c3). pose proof (hv_range c4).
      pose proof (hv_range c5). pose proof (hv_range c6). pose proof (hv_range c7). pose proof (hv_range c8).
      rewrite id32 by lia. f_equal. f_equal.
      + unfold hN. cbn [fold_left]. lia.
      + unfold hE. cbn [existsb orb]. rewrite orb_false_r, !orb_assoc. reflexivity.
    - destruct ids as [|c1 [|c2 [|c3 [|? ?]]]]; rewrite ?zlen_cons, ?zlen_nil in L; try (clear - L; lia).
      2: { exfalso. pose proof (zlen_nonneg l). lia. }
      change (znth ((k :: [c1; c2; c3] ++ d :: ds) ++ [0]) 1) with (Some c1). cbn [obind]. rewrite charToByte_hv. cbn iota beta.
      rewrite (hexToByte_ok _ 2 c2 c3) by reflexivity. cbn [obind].
      pose proof (hv_range c1). pose proof (hv_range c2). pose proof (hv_range c3).
      rewrite id12 by lia. f_equal. f_equal.
      + unfold hN. cbn [fold_left]. lia.
      + unfold hE. cbn [existsb orb]. rewrite orb_false_r, !orb_assoc. reflexivity. }
  assert ((k :: ids ++ d :: ds) ++ [0] = (k :: ids ++ [d]) ++ ds ++ [0]) as Em.
  { cbn [app]. rewrite <- !app_assoc. reflexivity. }
  assert ((if is_ext k then 9 else 4) + 1 = zlen (k :: ids ++ [d])) as Ep.
  { rewrite zlen_cons, zlen_app, zlen_cons, zlen_nil, L. destruct (is_ext k); lia. }
  rewrite (Q (fun ids d y => let (id, error) := y in
     if (if is_ext k then 0x1fffffff <? id else 0x7ff <? id) then Some (false, mkCan id (c_fd m) (c_brs m) (is_rtr k) (is_ext k) (u8 (d - 48)) (u8 (d - 48)) (c_data m))
     else if is_rtr k then Some (negb error, mkCan id (c_fd m) (c_brs m) (is_rtr k) (is_ext k) (u8 (d - 48)) (u8 (d - 48)) (c_data m))
     else do (data, error) <- lw_data (Z.to_nat (u8 (d - 48))) 0 ((k :: ids ++ d :: ds) ++ [0]) ((if is_ext k then 9 else 4) + 1) (c_data m) error;
          Some (negb error, mkCan id (c_fd m) (c_brs m) (is_rtr k) (is_ext k) (u8 (d - 48)) (u8 (d - 48)) data))).
  rewrite Em, Ep. destruct (is_rtr k); reflexivity.
Qed.

Lemma split_id k (t : list Z) : (if is_ext k then 9 else 4) <= zlen t -> exists ids d ds, t = ids ++ d :: ds /\ zlen ids = (if is_ext k then 8 else 3).
Proof.
  intro L. set (n := if is_ext k then 8%nat else 3%nat). assert (n < length t)%nat as N by (unfold n, zlen in *; destruct (is_ext k); lia).
  destruct (skipn n t) as [|d ds] eqn:E; [apply (f_equal (@length Z)) in E; rewrite skipn_length in E; cbn in E; lia|].
  exists (firstn n t), d, ds. split; [rewrite <- E; symmetry; apply firstn_skipn|].
  unfold zlen. rewrite firstn_length. unfold n. destruct (is_ext k); lia.
Qed.
Lemma lawicel_form s ext rtr id len data : lawicel s ext rtr id len data ->
  exists k ids ds, s = k :: ids ++ (48 + len) :: ds /\ ext = is_ext k /\ rtr = is_rtr k /\ zlen ids = (if is_ext k then 8 else 3) /\
    hE ids = false /\ id = hN ids /\ id < (if is_ext k then 2 ^ 29 else 2 ^ 11) /\ 0 <= len <= 8 /\ hex_bytes ds = Some data /\ zlen data = (if is_rtr k then 0 else len).
Proof.
  intros (k & ids & ds & S & E & R & L & H & B & Rl & D & Ld). exists k, ids, ds. unfold is_ext, is_rtr. rewrite (orb_comm (k =? 114)). subst ext rtr.
  rewrite hex_number_hv in H. destruct (hE ids); [discriminate|]. injection H as <-. auto 12.
Qed.

Lemma convert_spec s m : 8 <= zlen (c_data m) ->
  Forall (fun c => 0 <= c < 256) s ->
  exists b m', convertToCanMessage s m = Some (b, m') /\
    (b = true -> c_dlc m' = c_len m' /\ zlen (c_data m') = zlen (c_data m) /\ (c_rtr m' = true -> c_data m' = c_data m)) /\
    forall ext rtr id len data, lawicel s ext rtr id len data <->
      b = true /\ c_ext m' = ext /\ c_rtr m' = rtr /\ c_id m' = id /\ c_len m' = len /\ data = (if rtr then [] else firstn (Z.to_nat len) (c_data m')).
Proof.
  intros D BS.
  assert (forall b m', convertToCanMessage s m = Some (b, m') -> b = false -> (forall ext rtr id len data, ~ lawicel s ext rtr id len data) ->
     exists b m', convertToCanMessage s m = Some (b, m') /\
    (b = true -> c_dlc m' = c_len m' /\ zlen (c_data m') = zlen (c_data m) /\ (c_rtr m' = true -> c_data m' = c_data m)) /\
    forall ext rtr id len data, lawicel s ext rtr id len data <->
      b = true /\ c_ext m' = ext /\ c_rtr m' = rtr /\ c_id m' = id /\ c_len m' = len /\ data = (if rtr then [] else firstn (Z.to_nat len) (c_data m'))) as Rej.
  { intros b m' E -> N. exists false, m'. split; [exact E|]. split; [discriminate|]. intros. split; [intro X; destruct (N _ _ _ _ _ X)|intros [X _]; discriminate X]. }
  destruct s as [|k t].
  { eapply Rej; [reflexivity|reflexivity|]. intros ? ? ? ? ? X. apply lawicel_form in X. destruct X as (? & ? & ? & X & _). discriminate X. }
  destruct (Z.lt_ge_cases (zlen t) (if is_ext k then 9 else 4)) as [Sh|Lo].
  { assert (convertToCanMessage (k :: t) m = Some (false, mkCan (c_id m) (c_fd m) (c_brs m) (c_rtr m) (is_ext k) (c_dlc m) (c_len m) (c_data m))) as E.
    { unfold convertToCanMessage. change (znth ((k :: t) ++ [0]) 0) with (Some k). cbv zeta. cbn [obind]. fold (is_ext k).
      assert ((zlen (k :: t) <? (if is_ext k then 9 else 4) + 1) = true) as -> by (rewrite zlen_cons; destruct (is_ext k); lia). reflexivity. }
    eapply Rej; [exact E|reflexivity|].
    intros ? ? ? ? ? X. apply lawicel_form in X. destruct X as (k' & ids & ds & X & _ & _ & Li & _). injection X as <- ->.
    rewrite zlen_app, zlen_cons, Li in Sh. pose proof (zlen_nonneg ds). destruct (is_ext k); lia. }
  destruct (split_id k t Lo) as (ids & d & ds & -> & L). clear Lo.
  assert (0 <= d < 256) as Bd. { apply (proj1 (Forall_forall _ _) BS). right. apply in_or_app. right. left. reflexivity. }
  pose proof (convert_eq k ids d ds m L) as E. cbv zeta in E.
  (* the parts of a text of this form are these *)
  assert (forall ext rtr id len data, lawicel (k :: ids ++ d :: ds) ext rtr id len data ->
     len = u8 (d - 48) /\ (8 <? u8 (d - 48)) = false /\ ext = is_ext k /\ rtr = is_rtr k /\ id = hN ids /\ hE ids = false /\ 
     (if is_ext k then 0x1fffffff <? hN ids else 0x7ff <? hN ids) = false /\ hex_bytes ds = Some data /\ zlen data = (if is_rtr k then 0 else len)) as Inv.
  { intros ext rtr id len data X. apply lawicel_form in X. destruct X as (k' & ids' & ds' & X & -> & -> & L' & H' & -> & R & Rl & Hd & Ld).
    injection X as <- X.
    assert (ids = ids' /\ d :: ds = (48 + len) :: ds') as [<- Y].
    { apply app_eq_app in X. destruct X as (z & [[P Q]|[P Q]]); destruct z as [|z0 z]; rewrite ?app_nil_r in P; subst; cbn [app] in Q; auto;
        exfalso; rewrite zlen_app, zlen_cons in *; pose proof (zlen_nonneg z); destruct (is_ext k); lia. }
    assert (d = 48 + len) as Yd by congruence. assert (ds' = ds) as -> by congruence. assert (len = u8 (d - 48)) as Yl by (unfold u8; lia).
    split; [exact Yl|]. split; [lia|]. do 3 (split; [reflexivity|]). split; [exact H'|]. split; [destruct (is_ext k); lia|]. split; [exact Hd|exact Ld]. }
  destruct (8 <? u8 (d - 48)) eqn:E8.
  { eapply Rej; [exact E|reflexivity|]. intros ? ? ? ? ? X. apply Inv in X. destruct X as (_ & X & _). discriminate X. }
  destruct (negb (zlen ds =? (if is_rtr k then 0 else 2 * u8 (d - 48)))) eqn:El.
  { eapply Rej; [exact E|reflexivity|]. intros ? ? ? ? ? X. apply Inv in X. destruct X as (X1 & _ & _ & _ & _ & _ & _ & X2 & X3).
    apply hex_bytes_length in X2. unfold zlen in *. destruct (is_rtr k); lia. }
  destruct (if is_ext k then 0x1fffffff <? hN ids else 0x7ff <? hN ids) eqn:Ei.
  { eapply Rej; [exact E|reflexivity|]. intros ? ? ? ? ? X. apply Inv in X. destruct X as (_ & _ & _ & _ & _ & _ & X & _). discriminate X. }
  assert (hE ids = false -> forall data, hex_bytes ds = Some data -> zlen data = (if is_rtr k then 0 else u8 (d - 48)) ->
    lawicel (k :: ids ++ d :: ds) (is_ext k) (is_rtr k) (hN ids) (u8 (d - 48)) data) as Build.
  { intros HE data Hd Ld. exists k, ids, ds. assert (0 <= u8 (d - 48)) by (unfold u8; lia).
    split. { assert (48 + u8 (d - 48) = d) as -> by (unfold u8 in *; lia). reflexivity. }
    split; [reflexivity|]. split; [apply orb_comm|]. split; [exact L|]. split; [rewrite hex_number_hv, HE; reflexivity|].
    split; [destruct (is_ext k); lia|]. split; [lia|]. split; [exact Hd|exact Ld]. }
  destruct (is_rtr k) eqn:Er.
  - destruct (hE ids) eqn:HE; cbn [negb] in E.
    { eapply Rej; [exact E|reflexivity|]. intros ? ? ? ? ? X. apply Inv in X. destruct X as (_ & _ & _ & _ & _ & X & _). discriminate X. }
    assert (ds = []) as -> by (apply zlen_0_nil; lia).
    do 2 eexists. split; [exact E|]. cbn [c_dlc c_len c_data c_rtr c_ext c_id]. split; [auto|]. intros ext rtr id len data. split.
    + intro X. apply Inv in X. destruct X as (-> & _ & -> & -> & -> & _ & _ & X & _). injection X as <-. auto 10.
    + intros (_ & <- & <- & <- & <- & ->). apply Build; reflexivity.
  - destruct (data_ok (Z.to_nat (u8 (d - 48))) (k :: ids ++ [d]) ds [0] [] (c_data m) (hE ids)) as (vals & e' & Ed & Lv & M).
    { unfold zlen in El. assert (0 <= u8 (d - 48)) by (unfold u8; lia). lia. }
    { unfold zlen in D. lia. }
    cbn [app] in Ed. change (zlen (@nil Z)) with 0 in Ed. change ((k :: ids ++ [d]) ++ ds ++ [0]) with (k :: (ids ++ [d]) ++ ds ++ [0]) in E.
    rewrite Ed in E. cbn [obind] in E.
    assert (firstn (Z.to_nat (u8 (d - 48))) (vals ++ skipn (Z.to_nat (u8 (d - 48))) (c_data m)) = vals) as Fv.
    { apply firstn_app_exact. symmetry. exact Lv. }
    destruct (hex_bytes ds) as [bs|] eqn:Hb.
    + destruct M as [-> ->]. destruct (hE ids) eqn:HE; cbn [negb] in E.
      { eapply Rej; [exact E|reflexivity|]. intros ? ? ? ? ? X. apply Inv in X. destruct X as (_ & _ & _ & _ & _ & X & _). discriminate X. }
      do 2 eexists. split; [exact E|]. cbn [c_dlc c_len c_data c_rtr c_ext c_id].
      split. { intros _. split; [reflexivity|]. split; [|discriminate]. unfold zlen in *. rewrite app_length, skipn_length. lia. }
      intros ext rtr id len data. split.
      * intro X. apply Inv in X. destruct X as (-> & _ & -> & -> & -> & _ & _ & X & _). injection X as <-. rewrite Fv. auto 10.
      * intros (_ & <- & <- & <- & <- & ->). rewrite Fv. apply Build; [reflexivity|reflexivity|]. unfold zlen. rewrite Lv. unfold u8. lia.
    + subst e'. cbn [negb] in E. eapply Rej; [exact E|reflexivity|]. intros ? ? ? ? ? X. apply Inv in X. destruct X as (_ & _ & _ & _ & _ & _ & _ & X & _). discriminate X.
Qed.

(* ---- text from a message ---- *)
Lemma byteToHex_ok x : 0 <= x -> 0 < byteToHex x < 256 /\ hex_value (byteToHex x) = Some (x mod 16).
Proof.
  intro X. unfold byteToHex. cbv zeta. assert (Z.land x 15 = x mod 16) as -> by (apply (land_ones_mod x 4); lia).
  assert (0 <= x mod 16 < 16) as R by lia. set (y := x mod 16) in *. clearbody y. unfold hex_value.
  destruct (y <? 10) eqn:E.
  - split; [lia|]. assert ((48 <=? 48 + y) && (48 + y <=? 57) = true) as -> by lia. f_equal. lia.
  - split; [lia|]. assert ((48 <=? 65 + (y - 10)) && (65 + (y - 10) <=? 57) = false) as -> by lia.
    assert ((65 <=? 65 + (y - 10)) && (65 + (y - 10) <=? 70) = true) as -> by lia. f_equal. lia.
Qed.
Definition hex2 (b : Z) : list Z := [byteToHex (Z.shiftr b 4); byteToHex b].
Lemma hex2_bytes bs : Forall byte bs -> hex_bytes (flat_map hex2 bs) = Some bs /\ c_string (flat_map hex2 bs).
Proof.
  induction 1 as [|b t B T [IH1 IH2]]; cbn [flat_map hex2 app hex_bytes]; [split; [reflexivity|constructor]|].
  unfold byte in B. assert (Z.shiftr b 4 = b / 16) as S by (rewrite Z.shiftr_div_pow2 by lia; reflexivity). rewrite S.
  destruct (byteToHex_ok (b / 16) ltac:(lia)) as [R1 V1]. destruct (byteToHex_ok b ltac:(lia)) as [R2 V2].
  rewrite V1, V2, IH1. cbn [obind]. split; [f_equal; f_equal; lia|]. constructor; [exact R1|]. constructor; [exact R2|exact IH2].
Qed.
Lemma upd_at (a : list Z) x b y i : i = zlen a -> zupd (a ++ x :: b) i y = Some (a ++ y :: b).
Proof.
  intros ->. rewrite zupd_ok by (rewrite zlen_app, zlen_cons; pose proof (zlen_nonneg a); pose proof (zlen_nonneg b); lia).
  f_equal. unfold zlen. rewrite Nat2Z.id, firstn_app_exact by reflexivity. f_equal. f_equal.
  change (a ++ x :: b) with (a ++ [x] ++ b). rewrite app_assoc. apply skipn_app_exact. rewrite app_length. cbn. lia.
Qed.
Lemma lw_hex_ok n : forall i data begin pre out, 0 <= i -> i + Z.of_nat n <= zlen data -> (2 * n < length out)%nat -> zlen pre = begin + 2 * i ->
  lw_hex n i data begin (pre ++ out) = Some (pre ++ flat_map hex2 (firstn n (skipn (Z.to_nat i) data)) ++ 0 :: skipn (S (2 * n)) out).
Proof.
  induction n as [|n IH]; intros i data begin pre out I D O P; cbn [lw_hex].
  - destruct out as [|o out]; [cbn in O; lia|]. rewrite upd_at by (symmetry; exact P). reflexivity.
  - destruct (znth_in_range data i) as [b Eb]; [lia|]. rewrite Eb. cbn [obind].
    destruct out as [|o1 [|o2 out]]; [cbn in O; lia|cbn in O; lia|]. rewrite upd_at by (symmetry; exact P). cbn [obind].
    replace (pre ++ byteToHex (Z.shiftr b 4) :: o2 :: out) with ((pre ++ [byteToHex (Z.shiftr b 4)]) ++ o2 :: out) by (rewrite <- app_assoc; reflexivity).
    rewrite upd_at by (rewrite zlen_app, zlen_cons, zlen_nil; lia). cbn [obind].
    replace ((pre ++ [byteToHex (Z.shiftr b 4)]) ++ byteToHex b :: out) with ((pre ++ hex2 b) ++ out) by (unfold hex2; rewrite <- !app_assoc; reflexivity).
    cbn [length] in O. rewrite IH; [|lia|lia|lia|unfold hex2; rewrite zlen_app, !zlen_cons, zlen_nil; lia].
    assert (skipn (Z.to_nat i) data = b :: skipn (Z.to_nat (i + 1)) data) as ->.
    { unfold znth in Eb. destruct (i <? 0); [discriminate|]. replace (Z.to_nat (i + 1)) with (S (Z.to_nat i)) by lia.
      clear - Eb. revert data Eb. induction (Z.to_nat i) as [|j IHj]; intros [|x t] E; cbn in *; try discriminate; [injection E as ->; reflexivity|]. apply IHj, E. }
    cbn [firstn flat_map]. rewrite <- !app_assoc. replace (2 * S n)%nat with (S (S (2 * n))) by lia. reflexivity.
Qed.

Lemma len_digit l : 0 <= l <= 8 -> byteToHex l = 48 + l.
Proof. intro R. unfold byteToHex. cbv zeta. assert (Z.land l 15 = l mod 16) as -> by (apply (land_ones_mod l 4); lia). rewrite Z.mod_small by lia. assert ((l <? 10) = true) as -> by lia. reflexivity. Qed.
Lemma hex2_number b acc r : byte b -> hex_number acc (hex2 b ++ r) = hex_number (256 * acc + b) r.
Proof.
  intro B. unfold byte in B. unfold hex2. cbn [app hex_number]. assert (Z.shiftr b 4 = b / 16) as -> by (rewrite Z.shiftr_div_pow2 by lia; reflexivity).
  destruct (byteToHex_ok (b / 16) ltac:(lia)) as [_ ->]. destruct (byteToHex_ok b ltac:(lia)) as [_ ->]. f_equal. lia.
Qed.
Lemma hex2_string b : byte b -> c_string (hex2 b).
Proof.
  intro B. unfold byte in B. unfold hex2. assert (Z.shiftr b 4 = b / 16) as -> by (rewrite Z.shiftr_div_pow2 by lia; reflexivity).
  constructor; [apply byteToHex_ok; lia|]. constructor; [apply byteToHex_ok; lia|constructor].
Qed.
(* the digits of an identifier *)
Definition id_digits (ext : bool) (id : Z) : list Z :=
  if ext then hex2 (u8 (Z.shiftr id 24)) ++ hex2 (u8 (Z.shiftr id 16)) ++ hex2 (u8 (Z.shiftr id 8)) ++ hex2 (u8 (Z.shiftr id 0))
  else byteToHex (u8 (Z.shiftr id 8)) :: hex2 (u8 id).
Lemma id_digits_ok (ext : bool) id : 0 <= id < (if ext then 2 ^ 29 else 2 ^ 11) ->
  hex_number 0 (id_digits ext id) = Some id /\ c_string (id_digits ext id) /\ zlen (id_digits ext id) = if ext then 8 else 3.
Proof.
  intro R. unfold id_digits. assert (forall x, byte (u8 x)) as B by (intro x; unfold byte, u8; lia). destruct ext.
  - rewrite !hex2_number by apply B. split.
    + rewrite <- (app_nil_r (hex2 (u8 (Z.shiftr id 0)))), hex2_number by apply B. cbn [hex_number]. f_equal.
      rewrite !Z.shiftr_div_pow2 by lia. change (2 ^ 24) with 16777216. change (2 ^ 16) with 65536. change (2 ^ 8) with 256. change (2 ^ 0) with 1. unfold u8. lia.
    + split; [|reflexivity]. unfold c_string. repeat (apply Forall_app; split); apply hex2_string, B.
  - split; [|split; [|reflexivity]].
    + cbn [hex_number]. assert (0 <= u8 (Z.shiftr id 8)) as P by (unfold u8; lia). destruct (byteToHex_ok _ P) as [_ ->].
      rewrite <- (app_nil_r (hex2 (u8 id))), hex2_number by apply B. cbn [hex_number]. f_equal.
      rewrite Z.shiftr_div_pow2 by lia. change (2 ^ 8) with 256. unfold u8. lia.
    + constructor; [apply byteToHex_ok; unfold u8; lia|apply hex2_string, B].
Qed.

Lemma to_string_ok m out : can20 m -> 27 <= zlen out ->
  exists s tail, convertToString m out = Some (s ++ 0 :: tail) /\ zlen (s ++ 0 :: tail) = zlen out /\ c_string s /\ kind_ok s /\
    lawicel s (c_ext m) (c_rtr m) (c_id m) (c_len m) (if c_rtr m then [] else firstn (Z.to_nat (c_len m)) (c_data m)).
Proof.
  intros (Ri & Rl & Ld & Bd) Lo.
  set (k := if c_ext m then if c_rtr m then 82 else 84 else if c_rtr m then 114 else 116).
  assert (In k [116; 84; 114; 82] /\ (k =? 82) || (k =? 84) = c_ext m /\ (k =? 82) || (k =? 114) = c_rtr m /\ 0 < k < 256) as (Ki & Ke & Kr & Kb).
  { unfold k. destruct (c_ext m), (c_rtr m); cbn; split; auto; split; auto; split; auto; lia. }
  destruct (id_digits_ok (c_ext m) (c_id m) Ri) as (Hn & Hs & Hl). pose proof (len_digit (c_len m) Rl) as Hd.
  set (head := k :: id_digits (c_ext m) (c_id m) ++ [byteToHex (c_len m)]).
  assert (c_string head) as Sh.
  { unfold head. constructor; [exact Kb|]. apply Forall_app. split; [exact Hs|]. constructor; [rewrite Hd; lia|constructor]. }
  assert (exists out1, (do out <- zupd out 0 k;
    (if c_ext m then
       do out <- lw_id 4 (c_id m) out;
       do out <- zupd out 9 (byteToHex (c_len m)); do out <- zupd out 10 0; Some (out, 10)
     else
       do out <- zupd out 1 (byteToHex (u8 (Z.shiftr (c_id m) 8)));
       do out <- zupd out 2 (byteToHex (Z.shiftr (u8 (c_id m)) 4));
       do out <- zupd out 3 (byteToHex (u8 (c_id m)));
       do out <- zupd out 4 (byteToHex (c_len m)); do out <- zupd out 5 0; Some (out, 5))) = Some (head ++ 0 :: out1, zlen head) /\ zlen (head ++ 0 :: out1) = zlen out) as (out1 & E1 & L1).
  { do 11 (destruct out as [|? out]; [rewrite ?zlen_cons, zlen_nil in Lo; exfalso; lia|]).
    unfold head, id_digits. clearbody k. clear - k. set (x1 := byteToHex (c_len m)). clearbody x1. destruct (c_ext m).
    - exists out. cbn -[byteToHex Z.shiftr u8 zlen]. split; [reflexivity|]. rewrite !zlen_cons. reflexivity.
    - eexists. cbn -[byteToHex Z.shiftr u8 zlen]. split; [reflexivity|]. rewrite !zlen_cons. reflexivity. }
  unfold convertToString. fold k. 
  assert (forall (X : list Z * Z -> option (list Z)) (f : list Z -> option (list Z * Z)), (do o <- zupd out 0 k; do p <- f o; X p) = (do p <- (do o <- zupd out 0 k; f o); X p)) as As.
  { intros X f. destruct (zupd out 0 k); reflexivity. }
  rewrite As. rewrite E1. cbn [obind].
  assert (Z.of_nat (length (firstn (Z.to_nat (c_len m)) (c_data m))) = c_len m) as Lf by (rewrite firstn_length; unfold zlen in Ld; lia).
  destruct (c_rtr m) eqn:Er.
  - exists head, out1. split; [reflexivity|]. split; [exact L1|]. split; [exact Sh|]. split; [exists k, (id_digits (c_ext m) (c_id m) ++ [byteToHex (c_len m)]); auto|].
    exists k, (id_digits (c_ext m) (c_id m)), []. rewrite Hd in *. unfold head. rewrite Hd.
    split; [reflexivity|]. rewrite Ke, Kr. split; [reflexivity|]. split; [reflexivity|]. split; [exact Hl|]. split; [exact Hn|]. split; [lia|]. split; [lia|]. split; reflexivity.
  - rewrite lw_hex_ok; [|lia|lia| |lia].
    2: { rewrite zlen_app, zlen_cons in L1. unfold head in L1. rewrite zlen_cons, zlen_app, zlen_cons, zlen_nil, Hl in L1. unfold zlen in *. cbn [length]. destruct (c_ext m); lia. }
    rewrite app_assoc. cbn [skipn Z.to_nat]. rewrite <- app_assoc.
    set (data := firstn (Z.to_nat (c_len m)) (c_data m)) in *.
    assert (Forall byte data) as Bdata by (rewrite <- (firstn_skipn (Z.to_nat (c_len m)) (c_data m)) in Bd; apply Forall_app in Bd; apply Bd).
    destruct (hex2_bytes data Bdata) as [Hb Sb].
    exists (head ++ flat_map hex2 data). eexists. split; [rewrite <- app_assoc; reflexivity|].
    split. { rewrite !zlen_app, zlen_cons in *. apply hex_bytes_length in Hb. unfold zlen in *. rewrite skipn_length. cbn [length]. rewrite Hb.
      unfold head in *. cbn [length] in *. rewrite app_length in *. cbn [length] in *. destruct (c_ext m); lia. }
    split; [apply Forall_app; split; assumption|]. split; [exists k; eexists; split; [reflexivity|exact Ki]|].
    exists k, (id_digits (c_ext m) (c_id m)), (flat_map hex2 data). unfold head. rewrite Hd.
    split; [cbn [app]; rewrite <- app_assoc; reflexivity|]. rewrite Ke, Kr. split; [reflexivity|]. split; [reflexivity|]. split; [exact Hl|]. split; [exact Hn|]. split; [lia|]. split; [lia|].
    split; [exact Hb|exact Lf].
Qed.
