(* Proofs about the compensation of the pressure sensors. *)
From Verif Require Import Base BitLemmas BxProofs CrcSpec PrsModel PrsSpec.

Lemma i32_small x : -2147483648 <= x < 2147483648 -> i32 x = x.
Proof. intros R. unfold i32. apply swrap_small; [exact R | lia]. Qed.
Lemma i64_small x : -9223372036854775808 <= x < 9223372036854775808 -> i64 x = x.
Proof. intros R. unfold i64. apply swrap_small; [exact R | lia]. Qed.
Lemma mul_bound a b A B : - A <= a <= A -> - B <= b <= B -> - (A * B) <= a * b <= A * B.
Proof.
  intros HA HB. rewrite <- Z.abs_le. rewrite Z.abs_mul. apply Z.mul_le_mono_nonneg; lia.
Qed.
Lemma mul_bound_pos a b A B : - A <= a <= A -> 0 <= b <= B -> - (A * B) <= a * b <= A * B.
Proof. intros HA HB. apply mul_bound; lia. Qed.
Lemma sq_bound a A : - A <= a <= A -> 0 <= sq a <= A * A.
Proof. intros HA. unfold sq. split; [nia |]. pose proof (mul_bound a a A A HA HA). lia. Qed.
Lemma shr x k : 0 <= k -> Z.shiftr x k = x / 2 ^ k.
Proof. intros K. apply Z.shiftr_div_pow2. exact K. Qed.

Lemma raw24_ok a b c : byte a -> byte b -> byte c -> raw24 a b c = a * 65536 + b * 256 + c.
Proof.
  unfold byte. intros A B C. unfold raw24. rewrite !Z.shiftl_mul_pow2 by lia. change (b * 2 ^ 8) with (b * 256). change (a * 2 ^ 16) with (a * 65536).
  pose proof (lor_add a (b * 256) 16 ltac:(lia)) as E1. change (2 ^ 16) with 65536 in E1. rewrite E1 by (clear - B; lia).
  replace (a * 65536 + b * 256) with ((a * 256 + b) * 2 ^ 8) by (change (2 ^ 8) with 256; ring).
  rewrite lor_add by (change (2 ^ 8) with 256; lia). change (2 ^ 8) with 256. unfold u32. apply Z.mod_small. clear - A B C. lia.
Qed.
Lemma raw_bytes r : raw_ok r -> exists a b c d e f, r = [a; b; c; d; e; f] /\ byte a /\ byte b /\ byte c /\ byte d /\ byte e /\ byte f.
Proof.
  intros [L F]. destruct r as [| a r]; [discriminate |]. destruct r as [| b r]; [discriminate |]. destruct r as [| c r]; [discriminate |].
  destruct r as [| d r]; [discriminate |]. destruct r as [| e r]; [discriminate |]. destruct r as [| f r]; [discriminate |]. destruct r; [| discriminate].
  do 6 (match goal with H : Forall byte (_ :: _) |- _ => inversion H; clear H; subst end). exists a, b, c, d, e, f. split; [reflexivity |]. tauto.
Qed.
Lemma D_range r : raw_ok r -> 0 <= D1_of r < 16777216 /\ 0 <= D2_of r < 16777216
  /\ raw24 (nth 0 r 0) (nth 1 r 0) (nth 2 r 0) = D1_of r /\ raw24 (nth 3 r 0) (nth 4 r 0) (nth 5 r 0) = D2_of r.
Proof.
  intros R. destruct (raw_bytes r R) as (a & b & c & d & e & f & -> & A & B & C & D & E & F). unfold D1_of, D2_of. cbn [nth].
  rewrite !raw24_ok by assumption. unfold byte in *. split; [lia |]. split; [lia |]. split; reflexivity.
Qed.
Lemma C_range p n : prom_ok p -> 0 <= nth n p 0 < 65536.
Proof.
  intros [L F]. destruct (Nat.lt_ge_cases n (length p)) as [Q | Q].
  - rewrite Forall_forall in F. apply F. apply nth_In. exact Q.
  - rewrite nth_overflow by exact Q. lia.
Qed.
Lemma dT_range p r : prom_ok p -> raw_ok r -> -16777216 <= dT_of p r <= 16777216
  /\ i32 (u32 (raw24 (nth 3 r 0) (nth 4 r 0) (nth 5 r 0) - u32 (Z.shiftl (nth 5 p 0) 8))) = dT_of p r.
Proof.
  intros P R. destruct (D_range r R) as (_ & D & _ & E). pose proof (C_range p 5 P) as C. rewrite E. unfold dT_of. split; [lia |].
  rewrite Z.shiftl_mul_pow2 by lia. change (2 ^ 8) with 256. unfold u32 at 2. rewrite Z.mod_small by (clear - C; lia).
  generalize dependent (nth 5 p 0). intros c C. generalize dependent (D2_of r). intros d D _. unfold u32, i32, swrap. change (2 ^ (32 - 1)) with 2147483648. change (2 ^ 32) with 4294967296.
  clear - C D. lia.
Qed.

(* the common part: first order values *)
Section Core.
Variables c1 c2 c3 c4 c6 dT : Z.
Hypothesis H1 : 0 <= c1 < 65536.
Hypothesis H2 : 0 <= c2 < 65536.
Hypothesis H3 : 0 <= c3 < 65536.
Hypothesis H4 : 0 <= c4 < 65536.
Hypothesis H6 : 0 <= c6 < 65536.
Hypothesis HT : -16777216 <= dT <= 16777216.
Lemma prod_range c : 0 <= c < 65536 -> -1099511627776 <= c * dT <= 1099511627776.
Proof. intros C. pose proof (mul_bound dT c 16777216 65536 HT ltac:(lia)). lia. Qed.
Lemma off_ok : i64 (i64 (Z.shiftl c2 16) + Z.shiftr (i64 (c4 * dT)) 7) = c2 * 65536 + c4 * dT / 128.
Proof.
  pose proof (prod_range c4 H4) as P. rewrite (i64_small (c4 * dT)) by lia. rewrite Z.shiftl_mul_pow2, shr by lia. change (2 ^ 16) with 65536. change (2 ^ 7) with 128.
  rewrite (i64_small (c2 * 65536)) by lia. revert P. generalize (c4 * dT). intros x P. apply i64_small. clear - H2 P. lia.
Qed.
Lemma sens_ok : i64 (i64 (Z.shiftl c1 15) + Z.shiftr (i64 (c3 * dT)) 8) = c1 * 32768 + c3 * dT / 256.
Proof.
  pose proof (prod_range c3 H3) as P. rewrite (i64_small (c3 * dT)) by lia. rewrite Z.shiftl_mul_pow2, shr by lia. change (2 ^ 15) with 32768. change (2 ^ 8) with 256.
  rewrite (i64_small (c1 * 32768)) by lia. revert P. generalize (c3 * dT). intros x P. apply i64_small. clear - H1 P. lia.
Qed.
Lemma temp_ok : i32 (i64 (2000 + Z.shiftr (i64 (dT * c6)) 23)) = 2000 + dT * c6 / 8388608 /\ -131072 <= dT * c6 / 8388608 <= 131072.
Proof.
  pose proof (prod_range c6 H6) as P. rewrite (Z.mul_comm c6 dT) in P. rewrite (i64_small (dT * c6)) by lia. rewrite shr by lia. change (2 ^ 23) with 8388608.
  revert P. generalize (dT * c6). intros x P. rewrite i64_small by (clear - P; lia). split; [apply i32_small; clear - P; lia | clear - P; lia].
Qed.
Lemma dT2 : i64 (dT * dT) = sq dT /\ 0 <= sq dT <= 281474976710656.
Proof. pose proof (sq_bound dT 16777216 HT) as S. split; [| exact S]. change (dT * dT) with (sq dT). apply i64_small. lia. Qed.
End Core.
(* k x^2 in int32_t *)
Lemma ksq k x B : 0 < k -> - B <= x <= B -> k * (B * B) < 2147483648 -> k * B < 2147483648 -> i32 (i32 (k * x) * x) = k * sq x.
Proof.
  intros K X HB HB1. assert (L : - (k * B) <= k * x <= k * B) by nia. rewrite (i32_small (k * x)) by lia.
  replace (k * x * x) with (k * sq x) by (unfold sq; ring). apply i32_small. pose proof (sq_bound x B X). nia.
Qed.
(* the pressure from SENS and OFF, with errors d8 / 2^8 and d7 / 2^7 *)
Lemma press_ok sens off D1 S8 O7 d8 d7 k :
  -17179869184 <= sens <= 17179869184 -> -34359738368 <= off <= 34359738368 -> 0 <= D1 < 16777216 ->
  256 * sens = S8 + d8 -> 128 * off = O7 + d7 -> -256 <= d8 <= 512 -> -128 <= d7 <= 256 -> k = 13 \/ k = 15 ->
  near (i32 (Z.shiftr (i64 (Z.shiftr (i64 (sens * D1)) 21 - off)) k)) (D1 * S8 - 2 ^ 22 * O7) (2 ^ (29 + k)).
Proof.
  intros HS HO HD E8 E7 B8 B7 HK.
  pose proof (mul_bound_pos sens D1 17179869184 16777216 HS ltac:(lia)) as PB. rewrite (i64_small (sens * D1)) by lia.
  rewrite (shr (sens * D1)) by lia. change (2 ^ 21) with 2097152.
  assert (R : -274877906944 <= sens * D1 / 2097152 - off <= 274877906944).
  { revert PB. generalize (sens * D1). intros x PB. clear - PB HO. lia. }
  rewrite i64_small by lia.
  assert (DS : 256 * (sens * D1) = D1 * S8 + D1 * d8) by (replace (256 * (sens * D1)) with (256 * sens * D1) by ring; rewrite E8; ring).
  assert (DB : -4294967296 <= D1 * d8 <= 8589934592) by nia.
  revert DS PB R. generalize (sens * D1) (D1 * S8) (D1 * d8) DB. intros X Y W HW DS PB R. clear HS E8 B8 DB.
  unfold near. destruct HK as [-> | ->]; rewrite shr by lia.
  - change (2 ^ (29 + 13)) with 4398046511104. change (2 ^ 13) with 8192. change (2 ^ 22) with 4194304.
    rewrite i32_small by (clear - R; lia). clear - HW DS E7 B7. lia.
  - change (2 ^ (29 + 15)) with 17592186044416. change (2 ^ 15) with 32768. change (2 ^ 22) with 4194304.
    rewrite i32_small by (clear - R; lia). clear - HW DS E7 B7. lia.
Qed.

Lemma values5611_ok p r : prom_ok p -> raw_ok r -> -15472 <= TEMP p r ->
  near (fst (values5611 p r)) (P44_5611 p r) (2 ^ 44) /\ near (snd (values5611 p r)) (T37_5611 p r) (2 ^ 37).
Proof.
  intros HP HR HL. unfold values5611.
  destruct (dT_range p r HP HR) as [BT ->]. destruct (D_range r HR) as (BD & _ & -> & _).
  pose proof (C_range p 1 HP) as B1. pose proof (C_range p 2 HP) as B2. pose proof (C_range p 3 HP) as B3. pose proof (C_range p 4 HP) as B4. pose proof (C_range p 6 HP) as B6.
  unfold P44_5611, T37_5611, SENS8, OFF7. unfold TEMP in *.
  set (dT := dT_of p r) in *. clearbody dT. set (D1 := D1_of r) in *. clearbody D1.
  set (c1 := nth 1 p 0) in *. set (c2 := nth 2 p 0) in *. set (c3 := nth 3 p 0) in *. set (c4 := nth 4 p 0) in *. set (c6 := nth 6 p 0) in *.
  clearbody c1 c2 c3 c4 c6. clear HP HR p r.
  cbv zeta. rewrite (off_ok c2 c4 dT B2 B4 BT), (sens_ok c1 c3 dT B1 B3 BT). destruct (temp_ok c6 dT B6 BT) as [-> BTe].
  destruct (dT2 dT BT) as [-> BS].
  pose proof (prod_range dT BT c3 B3) as P3. pose proof (prod_range dT BT c4 B4) as P4. pose proof (prod_range dT BT c6 B6) as P6.
  rewrite (Z.mul_comm c6 dT) in P6.
  set (X3 := c3 * dT) in *. clearbody X3. set (X4 := c4 * dT) in *. clearbody X4. set (X6 := dT * c6) in *. clearbody X6.
  set (Q := sq dT) in *. clearbody Q. set (q := X6 / 8388608) in *.
  assert (Hq : 8388608 * q <= X6 < 8388608 * q + 8388608) by (subst q; clear; lia). clearbody q.
  unfold OFF2_7_5611, SENS2_8_5611.
  destruct (2000 + q <? 2000) eqn:L20.
  - apply Z.ltb_lt in L20.
    assert (Rx : -17472 <= 2000 + q - 2000 <= 17472) by lia.
    pose proof (sq_bound (2000 + q - 2000) 17472 Rx) as Bx. rewrite (i32_small (2000 + q - 2000)) by lia.
    rewrite (ksq 5 _ 17472) by (lia || exact Rx).
    set (x2 := sq (2000 + q - 2000)) in *. clearbody x2.
    destruct (2000 + q <? -1500) eqn:L15.
    + apply Z.ltb_lt in L15. assert (Ry : -13972 <= 2000 + q + 1500 <= 13972) by lia.
      pose proof (sq_bound (2000 + q + 1500) 13972 Ry) as By. rewrite (i32_small (2000 + q + 1500)) by lia.
      rewrite (ksq 7 _ 13972) by (lia || exact Ry). rewrite (ksq 11 _ 13972) by (lia || exact Ry).
      set (y2 := sq (2000 + q + 1500)) in *. clearbody y2. rewrite !(shr _ 1), !(shr _ 31) by lia. change (2 ^ 1) with 2. change (2 ^ 31) with 2147483648.
      rewrite (i64_small (5 * x2 / 2 + 7 * y2)) by (clear - Bx By; lia). rewrite (i64_small (5 * x2 / 2 / 2 + 11 * y2 / 2)) by (clear - Bx By; lia).
      rewrite (i64_small (c2 * 65536 + X4 / 128 - _)) by (clear - Bx By B2 P4; lia). rewrite (i64_small (c1 * 32768 + X3 / 256 - _)) by (clear - Bx By B1 P3; lia).
      cbn [fst snd]. split.
      * refine (press_ok _ _ D1 _ _ (256 * (c1 * 32768 + X3 / 256 - (5 * x2 / 2 / 2 + 11 * y2 / 2)) - (c1 * 8388608 + X3 - (320 * x2 + 1408 * y2)))
                 (128 * (c2 * 65536 + X4 / 128 - (5 * x2 / 2 + 7 * y2)) - (c2 * 8388608 + X4 - (320 * x2 + 896 * y2))) 15 _ _ BD _ _ _ _ _).
        { clear - B1 P3 Bx By. lia. } { clear - B2 P4 Bx By. lia. } { ring. } { ring. } { clear - Bx By. lia. } { clear - Bx By. lia. } { right. reflexivity. }
      * unfold near. change (2 ^ 37) with 137438953472. rewrite i64_small by (clear - BTe BS Rx; lia). rewrite i32_small by (clear - BTe BS Rx; lia).
        clear - Hq BS. lia.
    + rewrite !(shr _ 1), !(shr _ 31) by lia. change (2 ^ 1) with 2. change (2 ^ 31) with 2147483648.
      rewrite (i64_small (c2 * 65536 + X4 / 128 - _)) by (clear - Bx B2 P4; lia). rewrite (i64_small (c1 * 32768 + X3 / 256 - _)) by (clear - Bx B1 P3; lia).
      cbn [fst snd]. split.
      * refine (press_ok _ _ D1 _ _ (256 * (c1 * 32768 + X3 / 256 - 5 * x2 / 2 / 2) - (c1 * 8388608 + X3 - (320 * x2 + 0)))
                 (128 * (c2 * 65536 + X4 / 128 - 5 * x2 / 2) - (c2 * 8388608 + X4 - (320 * x2 + 0))) 15 _ _ BD _ _ _ _ _).
        { clear - B1 P3 Bx. lia. } { clear - B2 P4 Bx. lia. } { ring. } { ring. } { clear - Bx. lia. } { clear - Bx. lia. } { right. reflexivity. }
      * unfold near. change (2 ^ 37) with 137438953472. rewrite i64_small by (clear - BTe BS Rx; lia). rewrite i32_small by (clear - BTe BS Rx; lia).
        clear - Hq BS. lia.
  - cbn [fst snd]. split.
    + refine (press_ok _ _ D1 _ _ (256 * (c1 * 32768 + X3 / 256) - (c1 * 8388608 + X3 - 0))
               (128 * (c2 * 65536 + X4 / 128) - (c2 * 8388608 + X4 - 0)) 15 _ _ BD _ _ _ _ _).
      { clear - B1 P3. lia. } { clear - B2 P4. lia. } { ring. } { ring. } { clear. lia. } { clear. lia. } { right. reflexivity. }
    + unfold near. change (2 ^ 37) with 137438953472. clear - Hq. lia.
Qed.
Lemma values5837_ok p r : prom_ok p -> raw_ok r -> -18724 <= TEMP p r <= 48340 ->
  near (fst (values5837 p r)) (P42_5837 p r) (2 ^ 42) /\ near (snd (values5837 p r)) (T37_5837 p r) (2 ^ 37).
Proof.
  intros HP HR HL. unfold values5837.
  destruct (dT_range p r HP HR) as [BT ->]. destruct (D_range r HR) as (BD & _ & -> & _).
  pose proof (C_range p 1 HP) as B1. pose proof (C_range p 2 HP) as B2. pose proof (C_range p 3 HP) as B3. pose proof (C_range p 4 HP) as B4. pose proof (C_range p 6 HP) as B6.
  unfold P42_5837, T37_5837, SENS8, OFF7. unfold TEMP in *.
  set (dT := dT_of p r) in *. clearbody dT. set (D1 := D1_of r) in *. clearbody D1.
  set (c1 := nth 1 p 0) in *. set (c2 := nth 2 p 0) in *. set (c3 := nth 3 p 0) in *. set (c4 := nth 4 p 0) in *. set (c6 := nth 6 p 0) in *.
  clearbody c1 c2 c3 c4 c6. clear HP HR p r.
  cbv zeta. rewrite (off_ok c2 c4 dT B2 B4 BT), (sens_ok c1 c3 dT B1 B3 BT). destruct (temp_ok c6 dT B6 BT) as [-> BTe].
  destruct (dT2 dT BT) as [-> BS].
  pose proof (prod_range dT BT c3 B3) as P3. pose proof (prod_range dT BT c4 B4) as P4. pose proof (prod_range dT BT c6 B6) as P6.
  rewrite (Z.mul_comm c6 dT) in P6.
  set (X3 := c3 * dT) in *. clearbody X3. set (X4 := c4 * dT) in *. clearbody X4. set (X6 := dT * c6) in *. clearbody X6.
  set (Q := sq dT) in *. clearbody Q. set (q := X6 / 8388608) in *.
  assert (Hq : 8388608 * q <= X6 < 8388608 * q + 8388608) by (subst q; clear; lia). clearbody q.
  unfold OFFi_7_5837, SENSi_8_5837.
  destruct (2000 + q <? 2000) eqn:L20.
  - apply Z.ltb_lt in L20.
    assert (Rx : -20724 <= 2000 + q - 2000 <= 20724) by lia.
    pose proof (sq_bound (2000 + q - 2000) 20724 Rx) as Bx. rewrite (i32_small (2000 + q - 2000)) by lia.
    rewrite (ksq 3 _ 20724) by (lia || exact Rx). rewrite (ksq 5 _ 20724) by (lia || exact Rx).
    rewrite (i64_small (3 * Q)) by (clear - BS; lia).
    set (x2 := sq (2000 + q - 2000)) in *. clearbody x2.
    destruct (2000 + q <? -1500) eqn:L15.
    + apply Z.ltb_lt in L15. assert (Ry : -17224 <= 2000 + q + 1500 <= 17224) by lia.
      pose proof (sq_bound (2000 + q + 1500) 17224 Ry) as By. rewrite (i32_small (2000 + q + 1500)) by lia.
      rewrite (ksq 7 _ 17224) by (lia || exact Ry). rewrite (ksq 4 _ 17224) by (lia || exact Ry).
      set (y2 := sq (2000 + q + 1500)) in *. clearbody y2. rewrite !(shr _ 1), !(shr _ 3), !(shr _ 33) by lia. change (2 ^ 1) with 2. change (2 ^ 3) with 8. change (2 ^ 33) with 8589934592.
      rewrite (i64_small (3 * x2 / 2 + 7 * y2)) by (clear - Bx By; lia). rewrite (i64_small (5 * x2 / 8 + 4 * y2)) by (clear - Bx By; lia).
      rewrite (i64_small (c2 * 65536 + X4 / 128 - _)) by (clear - Bx By B2 P4; lia). rewrite (i64_small (c1 * 32768 + X3 / 256 - _)) by (clear - Bx By B1 P3; lia).
      cbn [fst snd]. split.
      * refine (press_ok _ _ D1 _ _ (256 * (c1 * 32768 + X3 / 256 - (5 * x2 / 8 + 4 * y2)) - (c1 * 8388608 + X3 - (160 * x2 + 1024 * y2)))
                 (128 * (c2 * 65536 + X4 / 128 - (3 * x2 / 2 + 7 * y2)) - (c2 * 8388608 + X4 - (192 * x2 + 896 * y2))) 13 _ _ BD _ _ _ _ _).
        { clear - B1 P3 Bx By. lia. } { clear - B2 P4 Bx By. lia. } { ring. } { ring. } { clear - Bx By. lia. } { clear - Bx By. lia. } { left. reflexivity. }
      * unfold near. change (2 ^ 37) with 137438953472. rewrite i64_small by (clear - BTe BS Rx; lia). rewrite i32_small by (clear - BTe BS Rx; lia).
        clear - Hq BS. lia.
    + rewrite !(shr _ 1), !(shr _ 3), !(shr _ 33) by lia. change (2 ^ 1) with 2. change (2 ^ 3) with 8. change (2 ^ 33) with 8589934592.
      rewrite (i64_small (c2 * 65536 + X4 / 128 - _)) by (clear - Bx B2 P4; lia). rewrite (i64_small (c1 * 32768 + X3 / 256 - _)) by (clear - Bx B1 P3; lia).
      cbn [fst snd]. split.
      * refine (press_ok _ _ D1 _ _ (256 * (c1 * 32768 + X3 / 256 - 5 * x2 / 8) - (c1 * 8388608 + X3 - (160 * x2 + 0)))
                 (128 * (c2 * 65536 + X4 / 128 - 3 * x2 / 2) - (c2 * 8388608 + X4 - (192 * x2 + 0))) 13 _ _ BD _ _ _ _ _).
        { clear - B1 P3 Bx. lia. } { clear - B2 P4 Bx. lia. } { ring. } { ring. } { clear - Bx. lia. } { clear - Bx. lia. } { left. reflexivity. }
      * unfold near. change (2 ^ 37) with 137438953472. rewrite i64_small by (clear - BTe BS Rx; lia). rewrite i32_small by (clear - BTe BS Rx; lia).
        clear - Hq BS. lia.
  - apply Z.ltb_ge in L20. assert (Rx : -46340 <= 2000 + q - 2000 <= 46340) by lia.
    pose proof (sq_bound (2000 + q - 2000) 46340 Rx) as Bx. rewrite (i32_small (2000 + q - 2000)) by lia. rewrite (ksq 1 _ 46340) by (lia || exact Rx).
    rewrite (i64_small (2 * Q)) by (clear - BS; lia).
    set (x2 := sq (2000 + q - 2000)) in *. clearbody x2. rewrite !(shr _ 4), !(shr _ 37) by lia. change (2 ^ 4) with 16. change (2 ^ 37) with 137438953472.
    rewrite (i64_small (c2 * 65536 + X4 / 128 - _)) by (clear - Bx B2 P4; lia). rewrite (i64_small (c1 * 32768 + X3 / 256 - _)) by (clear - Bx B1 P3; lia).
    cbn [fst snd]. split.
    + refine (press_ok _ _ D1 _ _ (256 * (c1 * 32768 + X3 / 256 - 0) - (c1 * 8388608 + X3 - 0))
               (128 * (c2 * 65536 + X4 / 128 - 1 * x2 / 16) - (c2 * 8388608 + X4 - 8 * x2)) 13 _ _ BD _ _ _ _ _).
      { clear - B1 P3. lia. } { clear - B2 P4 Bx. lia. } { ring. } { ring. } { clear. lia. } { clear - Bx. lia. } { left. reflexivity. }
    + unfold near. rewrite i64_small by (clear - BTe BS Rx; lia). rewrite i32_small by (clear - BTe BS Rx; lia). clear - Hq BS. lia.
Qed.

(** *** The data object *)

Definition inv (values : list Z -> list Z -> Z * Z) (d : pdata) : Prop :=
  length (p_raw d) = 6%nat
  /\ (p_tcalc d = true -> forall a b c, p_temp d = snd (values (p_prom d) ([a; b; c] ++ skipn 3 (p_raw d))))
  /\ (p_tcalc d = true -> p_pcalc d = true -> p_press d = fst (values (p_prom d) (p_raw d))).
Definition temp_only (values : list Z -> list Z -> Z * Z) : Prop :=
  forall p a b c t t' a' b' c', t = t' -> snd (values p ([a; b; c] ++ t)) = snd (values p ([a'; b'; c'] ++ t')).
Lemma head3 (l : list Z) : length l = 6%nat -> l = [nth 0 l 0; nth 1 l 0; nth 2 l 0] ++ skipn 3 l.
Proof. intros L. do 6 (destruct l as [| ? l]; [discriminate |]). reflexivity. Qed.
Lemma calc_inv values d : temp_only values -> length (p_raw d) = 6%nat -> inv values (calculate values d).
Proof.
  intros T L. unfold calculate. destruct (values (p_prom d) (p_raw d)) as [p t] eqn:E. unfold inv. cbn [p_raw p_tcalc p_temp p_prom p_pcalc p_press].
  split; [exact L |]. split; intros _; [| intros _; rewrite E; reflexivity].
  intros a b c. pose proof (f_equal snd E) as E2. cbn [snd] in E2. rewrite <- E2. rewrite (head3 (p_raw d) L) at 1. apply T. reflexivity.
Qed.
Lemma reach_inv values d : temp_only values -> reach values d -> inv values d.
Proof.
  intros T H. induction H as [p r cp ct L | d b0 b1 b2 H IH | d b0 b1 b2 H IH | d H IH | d H IH].
  - split; [exact L |]. split; discriminate.
  - destruct IH as (L & A & B). unfold inv, pressureArrives. cbn [p_raw p_tcalc p_temp p_prom p_pcalc p_press]. split.
    + rewrite app_length, skipn_length, L. reflexivity.
    + split; [| discriminate]. intros Ht a b c. rewrite (A Ht a b c). reflexivity.
  - destruct IH as (L & A & B). unfold inv, temperatureArrives. cbn [p_raw p_tcalc p_temp p_prom p_pcalc p_press]. split.
    + rewrite app_length, firstn_length, L. reflexivity.
    + split; discriminate.
  - unfold getPressure. cbn [snd]. destruct (p_pcalc d); [exact IH |]. apply calc_inv; [exact T | apply IH].
  - unfold getTemperature. cbn [snd]. destruct (p_tcalc d); [exact IH |]. apply calc_inv; [exact T | apply IH].
Qed.
Lemma temp_only5611 : temp_only values5611.
Proof.
  intros p a b c t t' a' b' c' <-. unfold values5611. cbn [app nth].
  match goal with |- context [i32 (u32 ?x)] => generalize (i32 (u32 x)) end. intros dT. cbv zeta.
  generalize (raw24 a b c) (raw24 a' b' c'). intros D1 D1'. match goal with |- context [i32 (i64 (2000 + ?x))] => generalize (i32 (i64 (2000 + x))) end. intros temp.
  destruct (temp <? 2000); [destruct (temp <? -1500) |]; cbn [snd]; reflexivity.
Qed.
Lemma temp_only5837 : temp_only values5837.
Proof.
  intros p a b c t t' a' b' c' <-. unfold values5837. cbn [app nth].
  match goal with |- context [i32 (u32 ?x)] => generalize (i32 (u32 x)) end. intros dT. cbv zeta.
  generalize (raw24 a b c) (raw24 a' b' c'). intros D1 D1'. match goal with |- context [i32 (i64 (2000 + ?x))] => generalize (i32 (i64 (2000 + x))) end. intros temp.
  destruct (temp <? 2000); [destruct (temp <? -1500) |]; cbn [snd]; reflexivity.
Qed.
Lemma gets values d : temp_only values -> reach values d ->
  fst (getTemperature values d) = snd (values (p_prom d) (p_raw d))
  /\ fst (getPressure values (snd (getTemperature values d))) = fst (values (p_prom d) (p_raw d)).
Proof.
  intros T H. destruct (reach_inv values d T H) as (L & A & B). unfold getTemperature. cbn [fst snd].
  assert (K : forall d0, p_press (calculate values d0) = fst (values (p_prom d0) (p_raw d0)) /\ p_temp (calculate values d0) = snd (values (p_prom d0) (p_raw d0)) /\ p_pcalc (calculate values d0) = true).
  { intros d0. unfold calculate. destruct (values (p_prom d0) (p_raw d0)). split; [reflexivity |]. split; reflexivity. }
  destruct (p_tcalc d) eqn:Ht.
  - split; [rewrite (A eq_refl (nth 0 (p_raw d) 0) (nth 1 (p_raw d) 0) (nth 2 (p_raw d) 0)), <- (head3 _ L); reflexivity |].
    unfold getPressure. cbn [fst]. destruct (p_pcalc d) eqn:Hp; [apply B; reflexivity | apply K].
  - destruct (K d) as (K1 & K2 & K3). split; [exact K2 |]. unfold getPressure. rewrite K3. cbn [fst]. exact K1.
Qed.
