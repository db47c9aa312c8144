From Verif Require Import Base TimeModel TimeSpec.

(* the same sums with every fourth year a leap year *)
Definition jlength (y : Z) : Z := if LEAP_YEAR y then 366 else 365.
Definition jstart (y : Z) : Z := 365 * (y - 1970) + ((y - 1) / 4 - 492).
Definition jmonth (y m : Z) : Z := if m =? 1 then if LEAP_YEAR y then 29 else 28 else if (m =? 3) || (m =? 5) || (m =? 8) || (m =? 10) then 30 else 31.

Lemma sum_from_ext f g n : forall i, (forall j, i <= j < i + Z.of_nat n -> f j = g j) -> sum_from f i n = sum_from g i n.
Proof. induction n as [|n IH]; intros i H; cbn [sum_from]; [reflexivity|]. rewrite (H i) by lia. rewrite (IH (i + 1)); [reflexivity|]. intros j J. apply H. lia. Qed.
Lemma sum_from_shift f n : forall i c, sum_from (fun j => f (j + c)) i n = sum_from f (i + c) n.
Proof. induction n as [|n IH]; intros i c; cbn [sum_from]; [reflexivity|]. rewrite IH. replace (i + 1 + c) with (i + c + 1) by lia. reflexivity. Qed.
Lemma jstart_step y : jstart (y + 1) = jstart y + jlength y.
Proof. unfold jstart, jlength, LEAP_YEAR. destruct (y mod 4 =? 0) eqn:E; lia. Qed.
Lemma jsum n : forall y, sum_from jlength y n = jstart (y + Z.of_nat n) - jstart y.
Proof. induction n as [|n IH]; intros y; cbn [sum_from]; [replace (y + Z.of_nat 0) with y by lia; lia|]. rewrite IH, jstart_step. replace (y + 1 + Z.of_nat n) with (y + Z.of_nat (S n)) by lia. lia. Qed.
Lemma leap_same y : 1970 <= y < 2100 -> leap y = LEAP_YEAR y.
Proof. intro H. unfold leap, LEAP_YEAR. destruct (y mod 4 =? 0) eqn:E4; destruct (y mod 100 =? 0) eqn:E1; destruct (y mod 400 =? 0) eqn:E400; cbn [andb orb negb]; try reflexivity; lia. Qed.
Lemma start_same y : 1970 <= y <= 2100 -> year_start y = jstart y.
Proof.
  intro H. unfold year_start. rewrite (sum_from_ext _ jlength); [rewrite jsum; replace (1970 + Z.of_nat (Z.to_nat (y - 1970))) with y by lia; change (jstart 1970) with 0; lia|].
  intros j J. unfold year_length, jlength. rewrite leap_same by lia. reflexivity.
Qed.
Lemma start_later y : 2100 < y <= 2199 -> year_start y = jstart y - 1.
Proof.
  intro H. unfold year_start. assert (forall n i, 2101 <= i -> i + Z.of_nat n <= 2200 -> sum_from year_length i n = sum_from jlength i n) as L.
  { intros n i I1 I2. apply sum_from_ext. intros j J. unfold year_length, jlength. replace (leap j) with (LEAP_YEAR j); [reflexivity|].
    unfold leap, LEAP_YEAR. destruct (j mod 4 =? 0) eqn:E4; destruct (j mod 100 =? 0) eqn:E1; destruct (j mod 400 =? 0) eqn:E400; cbn [andb orb negb]; try reflexivity; lia. }
  assert (forall f a b i, sum_from f i (a + b) = sum_from f i a + sum_from f (i + Z.of_nat a) b) as Sp.
  { intros f a. induction a as [|a IH]; intros b i; cbn [sum_from plus]; [replace (i + Z.of_nat 0) with i by lia; lia|]. rewrite IH. replace (i + 1 + Z.of_nat a) with (i + Z.of_nat (S a)) by lia. lia. }
  replace (Z.to_nat (y - 1970)) with (130 + (1 + Z.to_nat (y - 2101)))%nat by lia. rewrite Sp, Sp. change (1970 + Z.of_nat 130) with 2100. change (2100 + Z.of_nat 1) with 2101.
  rewrite (L (Z.to_nat (y - 2101)) 2101) by lia. rewrite jsum. pose proof (start_same 2100 ltac:(lia)) as S0. unfold year_start in S0. change (Z.to_nat (2100 - 1970)) with 130%nat in S0. rewrite S0. change (sum_from year_length 2100 1) with 365.
  replace (2101 + Z.of_nat (Z.to_nat (y - 2101))) with y by lia. change (jstart 2101) with (jstart 2100 + 366). lia.
Qed.

(* ---- the loops ---- *)
Lemma years_ok fuel : forall y seconds, 1970 <= y <= 2107 -> jstart y <= seconds < 49711 -> (Z.to_nat (2108 - y) <= fuel)%nat ->
  exists Y, t_years fuel y (jstart y) seconds = Some (Y, jstart (Y + 1)) /\ 1970 <= Y <= 2106 /\ jstart Y <= seconds < jstart (Y + 1).
Proof.
  induction fuel as [|fuel IH]; intros y seconds Hy Hs Hf; [lia|]. cbn [t_years]. fold (jlength y). rewrite <- jstart_step.
  assert (0 <= jstart (y + 1) < 4294967296) as R by (unfold jstart; lia). unfold u32. rewrite (Z.mod_small _ _ R).
  destruct (jstart (y + 1) <=? seconds) eqn:L.
  - unfold u16. rewrite Z.mod_small by lia. assert (y <= 2105). { unfold jstart in L. lia. } apply IH; lia.
  - exists y. split; [reflexivity|]. split; [|lia]. unfold jstart in Hs. lia.
Qed.
Lemma days_ok m : 0 <= m < 12 -> znth monthDays m = Some (if m =? 1 then 28 else if (m =? 3) || (m =? 5) || (m =? 8) || (m =? 10) then 30 else 31).
Proof. intro H. assert (m = 0 \/ m = 1 \/ m = 2 \/ m = 3 \/ m = 4 \/ m = 5 \/ m = 6 \/ m = 7 \/ m = 8 \/ m = 9 \/ m = 10 \/ m = 11) as K by lia. repeat (destruct K as [->|K]; [reflexivity|]). rewrite K. reflexivity. Qed.
Lemma jmonth_pos y m : 28 <= jmonth y m <= 31.
Proof. unfold jmonth. destruct (m =? 1); [destruct (LEAP_YEAR y); lia|]. destruct ((m =? 3) || (m =? 5) || (m =? 8) || (m =? 10)); lia. Qed.
Lemma months_ok y n : forall k s, 0 <= k -> k + Z.of_nat n = 12 -> 0 <= s < sum_from (jmonth y) k n -> s < 400 ->
  exists m r, t_months n y k s = Some (m, r) /\ k <= m < 12 /\ 0 <= r < jmonth y m /\ s = sum_from (jmonth y) k (Z.to_nat (m - k)) + r.
Proof.
  induction n as [|n IH]; intros k s Hk Hn Hs H4; cbn [sum_from] in Hs; [lia|]. cbn [t_months].
  assert ((if k =? 1 then Some (if LEAP_YEAR y then 29 else 28) else znth monthDays k) = Some (jmonth y k)) as ->.
  { unfold jmonth. rewrite days_ok by lia. destruct (k =? 1); reflexivity. }
  cbn [obind]. pose proof (jmonth_pos y k). destruct (jmonth y k <=? s) eqn:L.
  - unfold u8, u32. rewrite !Z.mod_small by lia. destruct (IH (k + 1) (s - jmonth y k) ltac:(lia) ltac:(lia) ltac:(lia) ltac:(lia)) as (m & r & E & M & R & Hs').
    exists m, r. split; [exact E|]. split; [lia|]. split; [exact R|]. replace (Z.to_nat (m - k)) with (S (Z.to_nat (m - (k + 1)))) by lia. cbn [sum_from]. lia.
  - exists k, s. split; [reflexivity|]. split; [lia|]. split; [lia|]. replace (Z.to_nat (k - k)) with 0%nat by lia. cbn [sum_from]. lia.
Qed.
Lemma months_sum y : sum_from (jmonth y) 0 12 = jlength y.
Proof. unfold jmonth, jlength. cbn. destruct (LEAP_YEAR y); reflexivity. Qed.

Lemma toDate_ok fuel t : (200 <= fuel)%nat -> 0 <= t < 2 ^ 32 ->
  exists Y m r, t_toDate fuel t = Some (mkDate (t mod 60) (t / 60 mod 60) (t / 3600 mod 24) (r + 1) m (Y - 1900) ((t / 86400 + 4) mod 7) ((t / 86400 - jstart Y) mod 256)) /\
    1970 <= Y <= 2106 /\ 0 <= m < 12 /\ 0 <= r < jmonth Y m /\ t / 86400 = jstart Y + sum_from (jmonth Y) 0 (Z.to_nat m) + r.
Proof.
  intros Hf Ht. unfold t_toDate. assert (t / 60 / 60 / 24 = t / 86400) as -> by lia. assert (t / 60 / 60 = t / 3600) as -> by lia. set (n := t / 86400). assert (0 <= n < 49711) as Hn by (unfold n; lia).
  destruct (years_ok fuel 1970 n ltac:(lia) ltac:(change (jstart 1970) with 0; lia) ltac:(lia)) as (Y & EY & HY & HS). change (jstart 1970) with 0 in EY. rewrite EY. cbn [obind]. fold (jlength Y).
  assert (0 <= jstart Y) as J0 by (unfold jstart; lia). assert (jstart (Y + 1) < 60000) as J1 by (unfold jstart; lia). pose proof (jstart_step Y) as Js.
  assert (u32 (jstart (Y + 1) - jlength Y) = jstart Y) as -> by (unfold u32; rewrite Z.mod_small by lia; lia).
  assert (u32 (n - jstart Y) = n - jstart Y) as -> by (unfold u32; apply Z.mod_small; lia).
  destruct (months_ok Y 12 0 (n - jstart Y) ltac:(lia) eq_refl ltac:(rewrite months_sum; lia) ltac:(unfold jlength in Js; destruct (LEAP_YEAR Y); lia)) as (m & r & EM & HM & HR & Hs).
  rewrite EM. cbn [obind]. exists Y, m, r. rewrite Z.sub_0_r in Hs. pose proof (jmonth_pos Y m). split; [|split; [exact HY|]; split; [exact HM|]; split; [exact HR|lia]].
  assert (u32 (n + 4) = n + 4) as -> by (unfold u32; apply Z.mod_small; lia). assert (u8 (r + 1) = r + 1) as -> by (unfold u8; apply Z.mod_small; lia).
  assert (u8 m = m) as -> by (unfold u8; apply Z.mod_small; lia). assert (u8 (Y - 1900) = Y - 1900) as -> by (unfold u8; apply Z.mod_small; lia). reflexivity.
Qed.

(* ---- back ---- *)
Lemma u32_add a b : u32 (u32 a + b) = u32 (a + b). Proof. unfold u32. apply Zplus_mod_idemp_l. Qed.
Lemma u32_swrap a b : u32 (a + swrap 32 b) = u32 (a + b).
Proof. unfold u32, swrap. change (2 ^ (32 - 1)) with 2147483648. change (2 ^ 32) with 4294967296. rewrite Z.add_sub_assoc, Zminus_mod, Zplus_mod_idemp_r, <- Zminus_mod. f_equal. lia. Qed.
Lemma addYears_ok n : forall i s, t_addYears n i (u32 s) = u32 (s + 86400 * (sum_from jlength i n - 365 * Z.of_nat n)).
Proof.
  induction n as [|n IH]; intros i s; cbn [t_addYears sum_from]; [f_equal; lia|]. unfold jlength at 1. destruct (LEAP_YEAR i).
  - rewrite u32_add, IH. change SECONDS_PER_DAY with 86400. f_equal. lia.
  - rewrite IH. f_equal. lia.
Qed.
Lemma addMonths_ok y n : forall i s, 0 <= i -> i + Z.of_nat n <= 12 -> t_addMonths n y i (u32 s) = Some (u32 (s + 86400 * sum_from (jmonth y) i n)).
Proof.
  induction n as [|n IH]; intros i s Hi Hn; cbn [t_addMonths sum_from]; [do 2 f_equal; lia|].
  assert ((if (i =? 1) && LEAP_YEAR y then Some 29 else znth monthDays i) = Some (jmonth y i)) as ->.
  { unfold jmonth. rewrite days_ok by lia. destruct (i =? 1); cbn [andb]; [destruct (LEAP_YEAR y)|]; reflexivity. }
  cbn [obind]. rewrite u32_swrap, u32_add, IH by lia. change SECONDS_PER_DAY with 86400. do 2 f_equal. lia.
Qed.
Lemma toUnix_ok d : 70 <= t_year d < 256 -> 0 <= t_month d <= 12 ->
  t_toUnixTimestamp d = Some (u32 (86400 * (jstart (t_year d + 1900) + sum_from (jmonth (t_year d + 1900)) 0 (Z.to_nat (t_month d)) + t_day d - 1) + 3600 * t_hour d + 60 * t_minute d + t_second d)).
Proof.
  intros Hy Hm. unfold t_toUnixTimestamp. assert (u16 (t_year d + 1900) = t_year d + 1900) as -> by (unfold u16; apply Z.mod_small; lia). set (y := t_year d + 1900).
  assert (u32 (swrap 32 ((y - 1970) * (SECONDS_PER_DAY * 365))) = u32 (86400 * 365 * (y - 1970))) as ->. { rewrite <- (Z.add_0_l (swrap 32 _)), u32_swrap. f_equal. unfold SECONDS_PER_DAY. lia. }
  rewrite addYears_ok, addMonths_ok by lia. cbn [obind]. rewrite !u32_swrap. repeat (first [rewrite u32_add | rewrite <- Z.add_assoc]). f_equal. f_equal. rewrite jsum. replace (1970 + Z.of_nat (Z.to_nat (y - 1970))) with y by lia. change (jstart 1970) with 0.
  rewrite Z2Nat.id by lia. unfold SECONDS_PER_DAY. lia.
Qed.

(* ---- the calendar ---- *)
Lemma month_same y m : leap y = LEAP_YEAR y -> month_length y (m + 1) = jmonth y m.
Proof.
  intro L. unfold month_length, jmonth. rewrite L. replace (m + 1 =? 2) with (m =? 1) by lia. destruct (m =? 1); [reflexivity|].
  replace ((m + 1 =? 4) || (m + 1 =? 6) || (m + 1 =? 9) || (m + 1 =? 11)) with ((m =? 3) || (m =? 5) || (m =? 8) || (m =? 10)) by lia. reflexivity.
Qed.
Lemma months_same y n i : leap y = LEAP_YEAR y -> sum_from (month_length y) (i + 1) n = sum_from (jmonth y) i n.
Proof. intro L. rewrite <- sum_from_shift. apply sum_from_ext. intros j _. apply month_same. exact L. Qed.
Lemma sum_split f a : forall b i, sum_from f i (a + b) = sum_from f i a + sum_from f (i + Z.of_nat a) b.
Proof. induction a as [|a IH]; intros b i; cbn [sum_from plus]; [replace (i + Z.of_nat 0) with i by lia; lia|]. rewrite IH. replace (i + 1 + Z.of_nat a) with (i + Z.of_nat (S a)) by lia. lia. Qed.
Lemma sum_nonneg f n : forall i, (forall j, 0 <= f j) -> 0 <= sum_from f i n.
Proof. induction n as [|n IH]; intros i H; cbn [sum_from]; [lia|]. specialize (IH (i + 1) H). specialize (H i). lia. Qed.
Lemma month_length_pos y m : 0 <= month_length y m. Proof. unfold month_length. destruct (m =? 2); [destruct (leap y); lia|]. destruct ((m =? 4) || (m =? 6) || (m =? 9) || (m =? 11)); lia. Qed.
Lemma sum_le f a b i : (forall j, 0 <= f j) -> (a <= b)%nat -> sum_from f i a <= sum_from f i b.
Proof. intros H L. replace b with (a + (b - a))%nat by lia. rewrite sum_split. pose proof (sum_nonneg f (b - a) (i + Z.of_nat a) H). lia. Qed.
Lemma year_months y : sum_from (month_length y) 1 12 = year_length y.
Proof. unfold month_length, year_length. cbn. destruct (leap y); reflexivity. Qed.
Lemma sum_last f a i : sum_from f i (S a) = sum_from f i a + f (i + Z.of_nat a).
Proof. replace (S a) with (a + 1)%nat by lia. rewrite sum_split. cbn [sum_from]. lia. Qed.
Lemma day_of_year_range y m d : valid y m d -> 0 <= day_of_year y m d < year_length y.
Proof.
  intros (Y & M & D). unfold day_of_year. pose proof (sum_nonneg (month_length y) (Z.to_nat (m - 1)) 1 (month_length_pos y)) as P.
  pose proof (sum_le (month_length y) (S (Z.to_nat (m - 1))) 12 1 (month_length_pos y) ltac:(lia)) as Q. rewrite year_months, sum_last in Q. replace (1 + Z.of_nat (Z.to_nat (m - 1))) with m in Q by lia. lia.
Qed.
Lemma year_start_next y : 1970 <= y -> year_start (y + 1) = year_start y + year_length y.
Proof. intro H. unfold year_start. replace (Z.to_nat (y + 1 - 1970)) with (S (Z.to_nat (y - 1970))) by lia. rewrite sum_last. replace (1970 + Z.of_nat (Z.to_nat (y - 1970))) with y by lia. reflexivity. Qed.
Lemma year_start_mono y y' : 1970 <= y -> y < y' -> year_start y + year_length y <= year_start y'.
Proof.
  intros H L. rewrite <- year_start_next by exact H. unfold year_start. apply sum_le; [|lia]. intro j. unfold year_length. destruct (leap j); lia.
Qed.
Lemma date_unique n y m d y' m' d' : is_date n y m d -> is_date n y' m' d' -> y = y' /\ m = m' /\ d = d'.
Proof.
  intros [V E] [V' E']. pose proof (day_of_year_range y m d V) as R. pose proof (day_of_year_range y' m' d' V') as R'. pose proof V as (Y & M & D). pose proof V' as (Y' & M' & D').
  assert (y = y') as Ey. { destruct (Z.lt_trichotomy y y') as [L|[L|L]]; [|exact L|]; exfalso; [pose proof (year_start_mono y y' Y L)|pose proof (year_start_mono y' y Y' L)]; lia. }
  subst y'. split; [reflexivity|]. assert (day_of_year y m d = day_of_year y m' d') as Ed by lia. unfold day_of_year in Ed.
  assert (forall a c, 1 <= a -> a < c -> sum_from (month_length y) 1 (Z.to_nat (a - 1)) + month_length y a <= sum_from (month_length y) 1 (Z.to_nat (c - 1))) as Mo.
  { intros a c A L. pose proof (sum_le (month_length y) (S (Z.to_nat (a - 1))) (Z.to_nat (c - 1)) 1 (month_length_pos y) ltac:(lia)) as Q. rewrite sum_last in Q. replace (1 + Z.of_nat (Z.to_nat (a - 1))) with a in Q by lia. exact Q. }
  assert (m = m') as Em. { destruct (Z.lt_trichotomy m m') as [L|[L|L]]; [|exact L|]; exfalso; [pose proof (Mo m m' ltac:(lia) L)|pose proof (Mo m' m ltac:(lia) L)]; lia. }
  subst m'. split; [reflexivity|]. lia.
Qed.
