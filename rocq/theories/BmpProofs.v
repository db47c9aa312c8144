(* Proofs about the pressure sensors BMP085/BMP180 and BME280. *)
From Verif Require Import Base BitLemmas BxProofs CrcSpec PrsModel PrsSpec PrsProofs PrsCrcProofs BmpModel BmpSpec.

Lemma s16_small x : -32768 <= x < 32768 -> s16 x = x.
Proof. intros R. unfold s16. apply swrap_small; [exact R | lia]. Qed.
Lemma u16_small x : 0 <= x < 65536 -> u16 x = x.
Proof. intros R. unfold u16. apply Z.mod_small. exact R. Qed.
Lemma u32_small x : 0 <= x < 4294967296 -> u32 x = x.
Proof. intros R. unfold u32. apply Z.mod_small. exact R. Qed.
Lemma muls_ok a b : int16 a -> int16 b -> muls a b = a * b.
Proof.
  unfold int16. intros A B. unfold muls. rewrite !s16_small by assumption.
  pose proof (mul_bound a b 32768 32768 ltac:(lia) ltac:(lia)). apply i32_small. lia.
Qed.
Lemma mulu_ok a b : uint16 a -> uint16 b -> mulu a b = a * b.
Proof.
  unfold uint16. intros A B. unfold mulu. rewrite !u16_small by assumption. apply u32_small. split; [nia |].
  pose proof (mul_bound a b 65535 65535 ltac:(lia) ltac:(lia)). lia.
Qed.
Lemma or8 a b : byte_ok a -> byte_ok b -> Z.lor (Z.shiftl a 8) b = a * 256 + b.
Proof.
  unfold byte_ok. intros A B. rewrite Z.shiftl_mul_pow2 by lia. rewrite (lor_add a b 8) by (change (2 ^ 8) with 256; lia). reflexivity.
Qed.
Lemma div_bound x k A : 0 < k -> - (A * k) <= x <= A * k -> - A <= x / k <= A.
Proof.
  intros K [L H]. split; [apply Z.div_le_lower_bound; lia |]. apply Z.div_le_upper_bound; lia.
Qed.
Lemma raw5_bytes r : raw5_ok r -> exists a b c d e, r = [a; b; c; d; e] /\ byte_ok a /\ byte_ok b /\ byte_ok c /\ byte_ok d /\ byte_ok e.
Proof.
  intros [L F]. destruct r as [| a r]; [discriminate |]. destruct r as [| b r]; [discriminate |]. destruct r as [| c r]; [discriminate |].
  destruct r as [| d r]; [discriminate |]. destruct r as [| e r]; [discriminate |]. destruct r; [| discriminate].
  do 5 (match goal with H : Forall byte_ok (_ :: _) |- _ => inversion H; clear H; subst end). exists a, b, c, d, e. split; [reflexivity |]. tauto.
Qed.
Lemma UT_ok r : raw5_ok r -> ut085 r = UT r /\ 0 <= UT r < 65536.
Proof.
  intros R. destruct (raw5_bytes r R) as (a & b & c & d & e & -> & A & B & _). unfold ut085, UT. cbn [nth]. rewrite or8 by assumption.
  unfold byte_ok in *. split; [apply u16_small |]; lia.
Qed.
Lemma UP_ok oss r : raw5_ok r -> 0 <= oss <= 3 -> up085 oss r = UP oss r /\ 0 <= UP oss r < 16777216.
Proof.
  intros R O. destruct (raw5_bytes r R) as (a & b & c & d & e & -> & _ & _ & C & D & E). unfold up085, UP. cbn [nth].
  pose proof (raw24_ok c d e C D E) as W. unfold raw24 in W. rewrite W. rewrite shr by lia. split; [reflexivity |].
  unfold byte_ok in *. assert (P : 1 <= 2 ^ (8 - oss)) by (apply (Z.pow_le_mono_r 2 0); lia). clear W.
  set (x := c * 65536 + d * 256 + e). assert (X : 0 <= x < 16777216) by (subst x; lia). clearbody x. clear - X P. generalize dependent (2 ^ (8 - oss)). intros k P.
  split; [apply Z.div_pos; lia |]. apply Z.div_lt_upper_bound; nia.
Qed.

Lemma x1_ok c r : cal_ok c -> raw5_ok r -> ac5 c < 32768 -> -32768 <= UT r - ac6 c < 32768 -> x1_085 c r = X1s c r /\ -32768 <= X1s c r <= 32768.
Proof.
  intros (_ & _ & _ & _ & A5 & A6 & _) R L5 D. destruct (UT_ok r R) as [E U]. unfold x1_085, X1s. rewrite E. unfold uint16 in *.
  rewrite i32_small by lia. rewrite muls_ok by (unfold int16; lia). rewrite shr by lia. change (2 ^ 15) with 32768. split; [reflexivity |].
  apply (div_bound _ 32768 32768); [lia |]. pose proof (mul_bound (UT r - ac6 c) (ac5 c) 32768 32768 ltac:(lia) ltac:(lia)). lia.
Qed.
Lemma quot_bound a b A : - A <= a <= A -> b <> 0 -> - A <= Z.quot a b <= A.
Proof.
  intros HA N. assert (Q : Z.abs (Z.quot a b) <= Z.abs a).
  { rewrite <- Z.quot_abs by exact N. apply Z.quot_le_upper_bound; [lia |]. assert (1 <= Z.abs b) by lia. nia. }
  lia.
Qed.
Lemma b5_ok c r : cal_ok c -> raw5_ok r -> ac5 c < 32768 -> -32768 <= UT r - ac6 c < 32768 -> X1s c r + md c <> 0 -> b5_085 c r = Some (B5s c r).
Proof.
  intros CO R L5 D N. destruct (x1_ok c r CO R L5 D) as [E B]. unfold b5_085, B5s. rewrite E.
  destruct CO as (_ & _ & _ & _ & _ & _ & _ & _ & _ & MC & MD). unfold int16 in *. cbv zeta. rewrite (i32_small (X1s c r + md c)) by lia.
  destruct (Z.eqb_spec (X1s c r + md c) 0) as [Q | _]; [contradiction |]. rewrite Z.shiftl_mul_pow2 by lia. change (2 ^ 11) with 2048.
  rewrite (i32_small (mc c * 2048)) by lia. pose proof (quot_bound (mc c * 2048) (X1s c r + md c) 67108864 ltac:(lia) N).
  rewrite i32_small by lia. reflexivity.
Qed.
Lemma temp_ok c r : cal_ok c -> raw5_ok r -> ac5 c < 32768 -> -32768 <= UT r - ac6 c < 32768 -> X1s c r + md c <> 0 -> -32768 <= Ts c r < 32768 ->
  temp085 c r = Some (Ts c r).
Proof.
  intros CO R L5 D N T. unfold temp085. rewrite b5_ok by assumption. unfold Ts in *.
  assert (B : -524288 <= B5s c r + 8 < 524288) by (clear - T; lia). rewrite i32_small by lia. rewrite shr by lia. change (2 ^ 4) with 16.
  rewrite s16_small by exact T. reflexivity.
Qed.

Lemma b47_ok c oss up b5 : cal_ok c -> 0 <= oss <= 3 -> 0 <= up < 16777216 -> -7585 <= b5 <= 15585 -> 0 <= B7s c oss b5 up < 4294967296 ->
  b47_085 c oss up b5 = (B4s c b5, B7s c oss b5 up).
Proof.
  intros (A1 & A2 & A3 & A4 & _ & _ & B1 & B2 & _) O U R B7. unfold b47_085. cbv zeta.
  assert (E6 : s16 (i32 (b5 - 4000)) = B6s b5) by (unfold B6s; rewrite i32_small by lia; apply s16_small; lia). rewrite E6.
  assert (R6 : -11585 <= B6s b5 <= 11585) by (unfold B6s; lia).
  assert (I6 : int16 (B6s b5)) by (unfold int16; lia).
  assert (EK : Z.shiftr (muls (B6s b5) (B6s b5)) 12 = K6 b5) by (rewrite muls_ok by assumption; rewrite shr by lia; reflexivity). rewrite EK.
  assert (RK : 0 <= K6 b5 <= 32767).
  { unfold K6. pose proof (sq_bound (B6s b5) 11585 R6) as Q. unfold sq in Q. clear - Q. set (x := B6s b5 * B6s b5) in *. clearbody x. lia. }
  assert (IK : int16 (K6 b5)) by (unfold int16; lia).
  rewrite !muls_ok by (try assumption; unfold int16; lia). rewrite !shr by lia.
  change (2 ^ 11) with 2048. change (2 ^ 13) with 8192. change (2 ^ 16) with 65536. change (2 ^ 15) with 32768. change (2 ^ 2) with 4.
  assert (Q1 : -524288 <= cb2 c * K6 b5 / 2048 <= 524288).
  { apply (div_bound _ 2048 524288); [lia |]. pose proof (mul_bound (cb2 c) (K6 b5) 32768 32767 ltac:(unfold int16 in *; lia) ltac:(lia)). lia. }
  assert (Q2 : -185360 <= ac2 c * B6s b5 / 2048 <= 185360).
  { apply (div_bound _ 2048 185360); [lia |]. pose proof (mul_bound (ac2 c) (B6s b5) 32768 11585 ltac:(unfold int16 in *; lia) ltac:(lia)). lia. }
  assert (Q3 : -46340 <= ac3 c * B6s b5 / 8192 <= 46340).
  { apply (div_bound _ 8192 46340); [lia |]. pose proof (mul_bound (ac3 c) (B6s b5) 32768 11585 ltac:(unfold int16 in *; lia) ltac:(lia)). lia. }
  assert (Q4 : -16384 <= cb1 c * K6 b5 / 65536 <= 16384).
  { apply (div_bound _ 65536 16384); [lia |]. pose proof (mul_bound (cb1 c) (K6 b5) 32768 32767 ltac:(unfold int16 in *; lia) ltac:(lia)). lia. }
  f_equal.
  - unfold B4s. set (y1 := ac3 c * B6s b5 / 8192) in *. set (y2 := cb1 c * K6 b5 / 65536) in *. clearbody y1 y2. clear - A4 Q3 Q4.
    rewrite (i32_small (y1 + y2)) by lia. rewrite (i32_small (y1 + y2 + 2)) by lia. set (z := (y1 + y2 + 2) / 4). assert (Rz : -20000 <= z <= 20000) by (subst z; lia).
    clearbody z. rewrite i32_small by lia. rewrite mulu_ok; [reflexivity | exact A4 | unfold uint16; lia].
  - unfold B7s, B3s in *. set (y1 := cb2 c * K6 b5 / 2048) in *. set (y2 := ac2 c * B6s b5 / 2048) in *. clearbody y1 y2. unfold int16 in A1. clear - A1 Q1 Q2 B7 O U.
    rewrite (i32_small (y1 + y2)) by lia. rewrite (i32_small (ac1 c * 4 + (y1 + y2))) by lia. rewrite Z.shiftl_mul_pow2 by lia.
    set (g := ac1 c * 4 + (y1 + y2)) in *. assert (Rg : -900000 <= g <= 900000) by (subst g; lia). clearbody g. clear A1 Q1 Q2.
    assert (P : 1 <= 2 ^ oss <= 8) by (split; [apply (Z.pow_le_mono_r 2 0) | apply (Z.pow_le_mono_r 2 oss 3)]; lia).
    assert (RS : 6250 <= 50000 / 2 ^ oss).
    { apply Z.div_le_lower_bound; lia. }
    generalize dependent (2 ^ oss). intros k B7 P RS. pose proof (mul_bound g k 900000 8 ltac:(lia) ltac:(lia)) as M. set (h := g * k) in *. clearbody h.
    rewrite (i32_small h) by lia. rewrite (i32_small (h + 2)) by lia. set (b3 := (h + 2) / 4) in *. set (s := 50000 / k) in *. clearbody s b3.
    assert (D : 0 <= up - b3 < 4294967296) by (clear - B7 RS; nia). rewrite (u32_small (up - b3)) by exact D. apply u32_small. exact B7.
Qed.
Lemma B4_pos c b5 : cal_ok c -> 2 <= ac4 c -> -7585 <= b5 <= 15585 -> 1 <= B4s c b5.
Proof.
  intros (A1 & A2 & A3 & A4 & _ & _ & B1 & B2 & _) L4 R. unfold B4s.
  assert (R6 : -11585 <= B6s b5 <= 11585) by (unfold B6s; lia).
  assert (RK : 0 <= K6 b5 <= 32767).
  { unfold K6. pose proof (sq_bound (B6s b5) 11585 R6) as Q. unfold sq in Q. clear - Q. set (x := B6s b5 * B6s b5) in *. clearbody x. lia. }
  assert (Q3 : -46340 <= ac3 c * B6s b5 / 8192 <= 46340).
  { apply (div_bound _ 8192 46340); [lia |]. pose proof (mul_bound (ac3 c) (B6s b5) 32768 11585 ltac:(unfold int16 in *; lia) ltac:(lia)). lia. }
  assert (Q4 : -16384 <= cb1 c * K6 b5 / 65536 <= 16384).
  { apply (div_bound _ 65536 16384); [lia |]. pose proof (mul_bound (cb1 c) (K6 b5) 32768 32767 ltac:(unfold int16 in *; lia) ltac:(lia)). lia. }
  set (y1 := ac3 c * B6s b5 / 8192) in *. set (y2 := cb1 c * K6 b5 / 65536) in *. clearbody y1 y2. clear - L4 Q3 Q4.
  set (z := (y1 + y2 + 2) / 4). assert (Rz : -15682 <= z) by (subst z; lia). clearbody z. clear Q3 Q4. apply Z.div_le_lower_bound; [lia |]. nia.
Qed.
Lemma last_ok b4 b7 : 1 <= b4 -> 0 <= b7 < 4294967296 -> P0s b4 b7 < 215296 -> last085 b4 b7 = Some (Ps (P0s b4 b7)).
Proof.
  intros B4 B7 P. unfold last085. destruct (Z.eqb_spec b4 0) as [Q | _]; [lia |].
  assert (E : (if b7 <? 2147483648 then i32 (u32 (Z.shiftl b7 1) / b4) else i32 (u32 (Z.shiftl (b7 / b4) 1))) = P0s b4 b7 /\ 0 <= P0s b4 b7).
  { unfold P0s in *. rewrite !Z.shiftl_mul_pow2 by lia. change (2 ^ 1) with 2. destruct (Z.ltb_spec b7 2147483648) as [L | L].
    - rewrite u32_small by lia. assert (0 <= b7 * 2 / b4) by (apply Z.div_pos; lia). split; [apply i32_small; lia | assumption].
    - assert (0 <= b7 / b4) by (apply Z.div_pos; lia). rewrite u32_small by lia. split; [apply i32_small; lia | lia]. }
  destruct E as [E N]. rewrite E. set (p := P0s b4 b7) in *. clearbody p. clear - P N. cbv zeta. rewrite !shr by lia.
  change (2 ^ 8) with 256. change (2 ^ 16) with 65536. change (2 ^ 4) with 16. unfold Ps. set (q := p / 256). assert (Rq : 0 <= q <= 840) by (subst q; lia).
  rewrite mulu_ok by (unfold uint16; lia). pose proof (mul_bound q q 840 840 ltac:(lia) ltac:(lia)) as M. assert (M0 : 0 <= q * q) by nia. clearbody q.
  set (w := q * q) in *. clearbody w. rewrite (i32_small w) by lia. rewrite (i32_small (w * 3038)) by lia. rewrite (i32_small (-7357 * p)) by lia.
  set (y1 := w * 3038 / 65536). set (y2 := -7357 * p / 65536). assert (0 <= y1 <= 40000) by (subst y1; lia). assert (-30000 <= y2 <= 0) by (subst y2; lia).
  clearbody y1 y2. rewrite (i32_small (y1 + y2)) by lia. rewrite (i32_small (y1 + y2 + 3791)) by lia. rewrite i32_small by lia. reflexivity.
Qed.
Lemma press_ok c oss r : cal_ok c -> raw5_ok r -> 0 <= oss <= 3 -> ac5 c < 32768 -> 2 <= ac4 c -> -32768 <= UT r - ac6 c < 32768 -> X1s c r + md c <> 0 ->
  -7585 <= B5s c r <= 15585 -> 0 <= B7s c oss (B5s c r) (UP oss r) < 4294967296 -> P0s (B4s c (B5s c r)) (B7s c oss (B5s c r) (UP oss r)) < 215296 ->
  press085 c oss r = Some (Ps (P0s (B4s c (B5s c r)) (B7s c oss (B5s c r) (UP oss r)))).
Proof.
  intros CO R O L5 L4 D N B5 B7 P. unfold press085. rewrite b5_ok by assumption. destruct (UP_ok oss r R O) as [EU RU]. rewrite EU.
  rewrite b47_ok by assumption. apply last_ok; [apply B4_pos; assumption | exact B7 | exact P].
Qed.

(** *** BME280 *)
Lemma raw8_bytes r : raw8_ok r -> byte_ok (nth 3 r 0) /\ byte_ok (nth 4 r 0) /\ byte_ok (nth 5 r 0).
Proof.
  intros [L F]. assert (G : forall i, (i < 8)%nat -> byte_ok (nth i r 0)). { intros i I. rewrite Forall_forall in F. apply F. apply nth_In. lia. }
  split; [| split]; apply G; lia.
Qed.
Lemma adc_ok r : raw8_ok r -> adc280 r = ADC r /\ 0 <= ADC r < 1048576.
Proof.
  intros R. destruct (raw8_bytes r R) as (A & B & C). unfold adc280, ADC. set (a := nth 3 r 0) in *. set (b := nth 4 r 0) in *. set (c := nth 5 r 0) in *. clearbody a b c.
  assert (W : Z.lor (Z.lor (Z.shiftl a 16) (Z.shiftl b 8)) c = a * 65536 + b * 256 + c).
  { pose proof (raw24_ok a b c A B C) as W. unfold raw24 in W. rewrite <- W. symmetry. apply u32_small.
    unfold byte_ok in *. rewrite !Z.shiftl_mul_pow2 by lia. change (b * 2 ^ 8) with (b * 256). change (a * 2 ^ 16) with (a * 65536).
    pose proof (lor_add a (b * 256) 16 ltac:(lia)) as E1. change (2 ^ 16) with 65536 in E1. rewrite E1 by (clear - B; lia).
    replace (a * 65536 + b * 256) with ((a * 256 + b) * 2 ^ 8) by (change (2 ^ 8) with 256; ring).
    rewrite lor_add by (change (2 ^ 8) with 256; lia). change (2 ^ 8) with 256. clear - A B C. lia. }
  rewrite W. unfold byte_ok in *. rewrite i32_small by lia. rewrite shr by lia. change (2 ^ 4) with 16. clear W. split; [reflexivity | lia].
Qed.
Definition noflow (x : Z) : Prop := -2147483648 <= x < 2147483648.
Lemma fine_ok T1 T2 T3 r : raw8_ok r -> uint16 T1 -> int16 T2 -> int16 T3 ->
  noflow (V1 T1 T2 r) -> -46340 <= ADC r / 16 - T1 <= 46340 -> noflow (V2 T1 T3 r) ->
  fine280 T1 T2 T3 r = FINE T1 T2 T3 r /\ temp280 (fine280 T1 T2 T3 r) = T280 (FINE T1 T2 T3 r).
Proof.
  intros R HT1 HT2 HT3 N1 ND N2. destruct (adc_ok r R) as [EA RA]. unfold uint16, int16, noflow in *.
  assert (E : fine280 T1 T2 T3 r = FINE T1 T2 T3 r /\ -1200000 <= FINE T1 T2 T3 r <= 1200000).
  { unfold fine280. rewrite EA. unfold FINE, V1, V2 in *. cbv zeta. rewrite !shr by lia. change (2 ^ 3) with 8. change (2 ^ 4) with 16. change (2 ^ 11) with 2048.
    change (2 ^ 12) with 4096. change (2 ^ 14) with 16384. rewrite Z.shiftl_mul_pow2 by lia. change (2 ^ 1) with 2.
    assert (0 <= ADC r / 8 < 131072) by (clear - RA; lia). set (e := ADC r / 8) in *. clearbody e. set (d := ADC r / 16 - T1) in *. clearbody d.
    rewrite (i32_small (T1 * 2)) by lia. rewrite (i32_small (e - T1 * 2)) by lia. rewrite (i32_small d) by lia.
    pose proof (mul_bound d d 46340 46340 ND ND) as M. rewrite (i32_small (d * d)) by lia. rewrite (i32_small ((e - T1 * 2) * T2)) by exact N1.
    rewrite (i32_small (d * d / 4096 * T3)) by exact N2. set (y1 := (e - T1 * 2) * T2) in *. set (y2 := d * d / 4096 * T3) in *. clearbody y1 y2. clear - N1 N2.
    assert (-1048576 <= y1 / 2048 <= 1048576) by lia. assert (-131072 <= y2 / 16384 <= 131072) by lia. rewrite i32_small by lia. split; [reflexivity | lia]. }
  destruct E as [E B]. split; [exact E |]. rewrite E. unfold temp280, T280. clear - B. set (f := FINE T1 T2 T3 r) in *. clearbody f.
  rewrite (i32_small (f * 5)) by lia. rewrite i32_small by lia. rewrite shr by lia. reflexivity.
Qed.
Lemma swrap_sgn w x : 0 < w -> 0 <= x < 2 ^ w -> swrap w x = sgn w x.
Proof.
  intros W X. unfold swrap, sgn. assert (E : 2 ^ w = 2 * 2 ^ (w - 1)) by (rewrite <- Z.pow_succ_r by lia; f_equal; lia). rewrite E in *.
  assert (0 < 2 ^ (w - 1)) by (apply Z.pow_pos_nonneg; lia). generalize dependent (2 ^ (w - 1)). intros k E X K. destruct (Z.ltb_spec x k) as [L | L].
  - rewrite Z.mod_small by lia. lia.
  - replace (x + k) with (x - k + 1 * (2 * k)) by ring. rewrite Z.mod_add by lia. rewrite Z.mod_small by lia. lia.
Qed.
Lemma or4 a b : byte_ok a -> 0 <= b < 16 -> Z.lor (Z.shiftl a 4) b = a * 16 + b.
Proof.
  unfold byte_ok. intros A B. rewrite Z.shiftl_mul_pow2 by lia. rewrite (lor_add a b 4) by (change (2 ^ 4) with 16; lia). reflexivity.
Qed.
(* H4 and H5 come without their sign *)
Definition H280u (b : list Z) : list Z :=
  [ sgn 16 (nth 1 b 0 * 256 + nth 0 b 0); nth 2 b 0; nth 3 b 0 * 16 + nth 4 b 0 mod 16; nth 5 b 0 * 16 + nth 4 b 0 / 16; sgn 8 (nth 6 b 0) ].
Lemma humidity_ok b : length b = 7%nat -> Forall byte_ok b -> humidity280 b = H280u b.
Proof.
  intros L F. assert (G : forall i, (i < 7)%nat -> byte_ok (nth i b 0)). { intros i Hi. rewrite Forall_forall in F. apply F. apply nth_In. lia. }
  pose proof (G 0%nat ltac:(lia)) as G0. pose proof (G 1%nat ltac:(lia)) as G1. pose proof (G 3%nat ltac:(lia)) as G3. pose proof (G 4%nat ltac:(lia)) as G4.
  pose proof (G 5%nat ltac:(lia)) as G5. pose proof (G 6%nat ltac:(lia)) as G6. clear G L F. unfold humidity280, H280u.
  generalize dependent (nth 0 b 0). generalize dependent (nth 1 b 0). generalize dependent (nth 3 b 0). generalize dependent (nth 4 b 0).
  generalize dependent (nth 5 b 0). generalize dependent (nth 6 b 0). intros b6 G6 b5 G5 b4 G4 b3 G3 b1 G1 b0 G0.
  assert (M : Z.land b4 15 = b4 mod 16) by (change 15 with (Z.ones 4); rewrite Z.land_ones by lia; reflexivity). rewrite M.
  rewrite shr by lia. change (2 ^ 4) with 16. unfold byte_ok in G4.
  rewrite or8 by assumption. rewrite (or4 b3) by (try assumption; clear - G4; lia). rewrite (or4 b5) by (try assumption; clear - G4; lia).
  unfold byte_ok in *. unfold s16 at 1. rewrite swrap_sgn by (try change (2 ^ 16) with 65536; lia). rewrite swrap_sgn by (try change (2 ^ 8) with 256; lia).
  rewrite !s16_small by (clear - G3 G4 G5; lia). reflexivity.
Qed.

(** *** The data objects *)
Section Cache.
Variables (always : bool) (fine : list Z -> Z) (tv : Z -> Z) (pv : Z -> list Z -> option Z).
(* the flag says that the values belong to the bytes *)
Definition fresh (d : bdata) : Prop :=
  (b_tcalc d = true -> b_fine d = fine (b_raw d) /\ b_temp d = tv (fine (b_raw d)))
  /\ (b_pcalc d = true -> pv (fine (b_raw d)) (b_raw d) = Some (b_press d)).
Definition freshT (d : bdata) : Prop := b_tcalc d = true -> b_fine d = fine (b_raw d) /\ b_temp d = tv (fine (b_raw d)).
Lemma getT_T d : freshT d -> freshT (snd (getT fine tv d)) /\ b_raw (snd (getT fine tv d)) = b_raw d /\ fst (getT fine tv d) = tv (fine (b_raw d))
  /\ b_pcalc (snd (getT fine tv d)) = b_pcalc d /\ b_press (snd (getT fine tv d)) = b_press d.
Proof.
  intros F. unfold getT. destruct (b_tcalc d) eqn:E; cbn [fst snd].
  - destruct (F E) as [_ T]. split; [exact F |]. split; [reflexivity |]. split; [exact T |]. split; reflexivity.
  - unfold calcT, freshT. cbn. split; [intros _; split; reflexivity |]. split; [reflexivity |]. split; [reflexivity |]. split; reflexivity.
Qed.
Lemma calcP_T d : freshT d -> freshT (calcP always fine tv pv d) /\ b_raw (calcP always fine tv pv d) = b_raw d
  /\ forall p, pv (fine (b_raw d)) (b_raw d) = Some p -> b_press (calcP always fine tv pv d) = p /\ b_pcalc (calcP always fine tv pv d) = true.
Proof.
  intros F. unfold calcP. set (d1 := if always || negb (b_tcalc d) then calcT fine tv d else d).
  assert (A : freshT d1 /\ b_raw d1 = b_raw d /\ b_fine d1 = fine (b_raw d)).
  { subst d1. destruct (b_tcalc d) eqn:E; destruct always; cbn [orb negb]; try (unfold calcT, freshT; cbn; split; [intros _; split; reflexivity | split; reflexivity]).
    split; [exact F |]. split; [reflexivity |]. exact (proj1 (F E)). }
  clearbody d1. destruct A as (F1 & R1 & N1). rewrite N1, R1. destruct (pv (fine (b_raw d)) (b_raw d)) as [p |] eqn:P.
  - cbn. split. { unfold freshT in *. cbn. rewrite R1 in F1. rewrite N1 in F1. exact F1. }
    split; [reflexivity |]. intros p' E. injection E as <-. split; reflexivity.
  - split; [exact F1 |]. split; [exact R1 |]. intros p E. discriminate.
Qed.
Lemma gets_T l : forall d, freshT d -> freshT (snd (gets always fine tv pv l d)) /\ b_raw (snd (gets always fine tv pv l d)) = b_raw d.
Proof.
  induction l as [| b l IH]; intros d F; [split; [exact F | reflexivity] |]. cbn [gets].
  assert (A : freshT (snd (if b then getP always fine tv pv d else getT fine tv d)) /\ b_raw (snd (if b then getP always fine tv pv d else getT fine tv d)) = b_raw d).
  { destruct b.
    - unfold getP. destruct (b_pcalc d); cbn [snd]; [split; [exact F | reflexivity] |]. destruct (calcP_T d F) as (X & Y & _). split; assumption.
    - destruct (getT_T d F) as (X & Y & _). split; assumption. }
  destruct (if b then getP always fine tv pv d else getT fine tv d) as [v d1]. cbn [snd] in A. destruct A as [A B]. specialize (IH d1 A).
  destruct (gets always fine tv pv l d1) as [vs d2]. cbn [snd] in *. rewrite <- B. exact IH.
Qed.
Lemma gets_fresh p l : forall d, freshT d -> (b_pcalc d = true -> b_press d = p) -> pv (fine (b_raw d)) (b_raw d) = Some p ->
  fst (gets always fine tv pv l d) = map (fun b : bool => if b then p else tv (fine (b_raw d))) l.
Proof.
  induction l as [| b l IH]; intros d F FP E; [reflexivity |]. cbn [gets map].
  assert (A : freshT (snd (if b then getP always fine tv pv d else getT fine tv d)) /\ b_raw (snd (if b then getP always fine tv pv d else getT fine tv d)) = b_raw d
    /\ (b_pcalc (snd (if b then getP always fine tv pv d else getT fine tv d)) = true -> b_press (snd (if b then getP always fine tv pv d else getT fine tv d)) = p)
    /\ fst (if b then getP always fine tv pv d else getT fine tv d) = if b then p else tv (fine (b_raw d))).
  { destruct b.
    - unfold getP. destruct (b_pcalc d) eqn:C; cbn [fst snd].
      + split; [exact F |]. split; [reflexivity |]. split; [intros _; apply FP; reflexivity | apply FP; reflexivity].
      + destruct (calcP_T d F) as (X & Y & W). destruct (W p E) as [W1 W2]. split; [exact X |]. split; [exact Y |]. split; [intros _; exact W1 | exact W1].
    - destruct (getT_T d F) as (X & Y & W & C & Q). split; [exact X |]. split; [exact Y |]. split; [| exact W]. rewrite C, Q. exact FP. }
  destruct (if b then getP always fine tv pv d else getT fine tv d) as [v d1]. cbn [fst snd] in A. destruct A as (A & B & C & D). rewrite <- B in E.
  specialize (IH d1 A C E). destruct (gets always fine tv pv l d1) as [vs d2]. cbn [fst] in *. rewrite IH. rewrite D, B. reflexivity.
Qed.
End Cache.

Lemma cache085 fine tv pv t0 t1 p0 p1 p2 l l2 d p :
  (forall r r', firstn 2 r = firstn 2 r' -> fine r = fine r') -> length (b_raw d) = 5%nat ->
  pv (fine [t0; t1; p0; p1; p2]) [t0; t1; p0; p1; p2] = Some p ->
  fst (gets true fine tv pv l2 (readout085 fine tv pv t0 t1 p0 p1 p2 [] l [] d)) = map (fun b : bool => if b then p else tv (fine [t0; t1; p0; p1; p2])) l2.
Proof.
  intros H L E. unfold readout085. cbn [gets snd]. set (d1 := arrive ([t0; t1] ++ skipn 2 (b_raw d)) (touchT d)).
  assert (F1 : freshT fine tv d1) by (intros Q; discriminate Q). destruct (gets_T true fine tv pv l d1 F1) as [F2 R2]. set (d2 := snd (gets true fine tv pv l d1)) in *.
  clearbody d2. assert (E2 : firstn 2 (b_raw d2) = [t0; t1]) by (rewrite R2; reflexivity). rewrite E2. cbn [app].
  apply (gets_fresh true fine tv pv p l2 (arrive [t0; t1; p0; p1; p2] (touchP d2))).
  - intros Q. cbn in *. destruct (F2 Q) as [A B]. assert (X : fine (b_raw d2) = fine [t0; t1; p0; p1; p2]) by (apply H; rewrite E2; reflexivity). rewrite <- X. split; assumption.
  - intros Q. discriminate Q.
  - exact E.
Qed.
Lemma cache280 fine tv pv bytes l2 d p : pv (fine bytes) bytes = Some p ->
  fst (gets false fine tv pv l2 (readout280 fine tv pv bytes [] d)) = map (fun b : bool => if b then p else tv (fine bytes)) l2.
Proof.
  intros E. unfold readout280. cbn [gets snd]. apply (gets_fresh false fine tv pv p l2 (arrive bytes (touchP (touchT d)))).
  - intros Q. discriminate Q.
  - intros Q. discriminate Q.
  - exact E.
Qed.
