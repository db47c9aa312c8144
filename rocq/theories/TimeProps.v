(* C51: Unix time and calendar dates *)
From Verif Require Import Base TimeModel TimeSpec TimeProofs.

(* Converting there and back is the identity for every 32 bit time. *)
Theorem C51_round_trip fuel t : (200 <= fuel)%nat -> 0 <= t < 2 ^ 32 -> exists d, t_toDate fuel t = Some d /\ t_toUnixTimestamp d = Some t.
Proof.
  intros F T. destruct (toDate_ok fuel t F T) as (Y & m & r & E & HY & HM & HR & HN). eexists. split; [exact E|].
  rewrite toUnix_ok by (cbn [t_year t_month]; lia). cbn [t_year t_month t_day t_hour t_minute t_second]. replace (Y - 1900 + 1900) with Y by lia. f_equal.
  replace (jstart Y + sum_from (jmonth Y) 0 (Z.to_nat m) + (r + 1) - 1) with (t / 86400) by lia. unfold u32. change (2 ^ 32) with 4294967296 in T. rewrite Z.mod_small; lia.
Qed.
Example C51_round_trip_example : exists d, t_toDate 200 4294967295 = Some d /\ t_year d = 206 /\ t_month d = 1 /\ t_toUnixTimestamp d = Some 4294967295.
Proof. eexists. split; [vm_compute; reflexivity|]. split; [reflexivity|]. split; [reflexivity|]. vm_compute. reflexivity. Qed.
Print Assumptions C51_round_trip.

(* A date is determined by its day number. *)
Theorem C51_date_unique n y m d y' m' d' : is_date n y m d -> is_date n y' m' d' -> y = y' /\ m = m' /\ d = d'.
Proof. exact (date_unique n y m d y' m' d'). Qed.
Example C51_date_unique_example : is_date 11016 2000 2 29.
Proof. split; [unfold valid; vm_compute; intuition congruence|vm_compute; reflexivity]. Qed.
Print Assumptions C51_date_unique.

(* Until 2100-02-28 23:59:59 all fields are those of the Gregorian calendar (1970-01-01 was a Thursday), except that the day of the year is reduced modulo 256. *)
Theorem C51_date_partial fuel t d : (200 <= fuel)%nat -> 0 <= t < 4107542400 -> t_toDate fuel t = Some d ->
  is_date (t / 86400) (1900 + t_year d) (t_month d + 1) (t_day d) /\ t_wday d = (t / 86400 + 4) mod 7 /\
  t_yday d = day_of_year (1900 + t_year d) (t_month d + 1) (t_day d) mod 256 /\
  0 <= t_hour d < 24 /\ 0 <= t_minute d < 60 /\ 0 <= t_second d < 60 /\ t mod 86400 = 3600 * t_hour d + 60 * t_minute d + t_second d.
Proof.
  intros F T E. destruct (toDate_ok fuel t F ltac:(lia)) as (Y & m & r & E' & HY & HM & HR & HN). rewrite E in E'. injection E' as ->. cbn [t_year t_month t_day t_hour t_minute t_second t_wday t_yday].
  replace (1900 + (Y - 1900)) with Y by lia.
  assert (t / 86400 <= 47540) as N by lia. pose proof (sum_nonneg (jmonth Y) (Z.to_nat m) 0 ltac:(intro j; pose proof (jmonth_pos Y j); lia)) as P0.
  assert (Y <= 2100) as Y1 by (unfold jstart in HN; lia).
  assert (sum_from (month_length Y) 1 (Z.to_nat m) = sum_from (jmonth Y) 0 (Z.to_nat m) /\ r + 1 <= month_length Y (m + 1)) as [Es Er].
  { destruct (Z.eq_dec Y 2100) as [->|].
    - assert (m <= 1) as Hm. { destruct (Z.le_gt_cases m 1) as [L|L]; [exact L|]. exfalso. pose proof (sum_le (jmonth 2100) 2 (Z.to_nat m) 0 ltac:(intro j; pose proof (jmonth_pos 2100 j); lia) ltac:(lia)) as Q. change (sum_from (jmonth 2100) 0 2) with 60 in Q. change (jstart 2100) with 47482 in HN. lia. }
      assert (m = 0 \/ m = 1) as [->| ->] by lia; split; try reflexivity.
      + change (jmonth 2100 0) with 31 in HR. change (month_length 2100 (0 + 1)) with 31. lia.
      + change (jstart 2100) with 47482 in HN. change (sum_from (jmonth 2100) 0 (Z.to_nat 1)) with 31 in HN. change (month_length 2100 (1 + 1)) with 28. lia.
    - rewrite (month_same Y m) by (apply leap_same; lia). rewrite <- (months_same Y (Z.to_nat m) 0) by (apply leap_same; lia). split; [reflexivity|lia]. }
  assert (day_of_year Y (m + 1) (r + 1) = t / 86400 - jstart Y) as Ed. { unfold day_of_year. replace (m + 1 - 1) with m by lia. lia. }
  split; [split; [split; [lia|]; split; lia|rewrite start_same by lia; lia]|]. split; [reflexivity|]. split; [rewrite Ed; reflexivity|]. lia.
Qed.
Example C51_date_example : t_toDate 200 951868799 = Some (mkDate 59 59 23 29 1 100 2 59) /\ is_date (951868799 / 86400) 2000 2 29.
Proof. split; [vm_compute; reflexivity|]. split; [unfold valid; vm_compute; intuition congruence|vm_compute; reflexivity]. Qed.
Print Assumptions C51_date_partial.
Theorem C51_day_of_year_refuted : exists t d, t_toDate 200 t = Some d /\ is_date (t / 86400) 2000 12 31 /\ t_yday d = 109 /\ day_of_year 2000 12 31 = 365.
Proof.
  exists 978220800. eexists. split; [vm_compute; reflexivity|]. split; [split; [unfold valid; vm_compute; intuition congruence|vm_compute; reflexivity]|]. split; reflexivity.
Qed.
Print Assumptions C51_day_of_year_refuted.
(* From 2100-03-01 on every date is wrong (the header says "up to 2099" and the source "19-01-2038"). *)
Theorem C51_after_2100_wrong fuel t d : (200 <= fuel)%nat -> 4107542400 <= t < 2 ^ 32 -> t_toDate fuel t = Some d -> ~ is_date (t / 86400) (1900 + t_year d) (t_month d + 1) (t_day d).
Proof.
  intros F T E. destruct (toDate_ok fuel t F ltac:(lia)) as (Y & m & r & E' & HY & HM & HR & HN). rewrite E in E'. injection E' as ->. cbn [t_year t_month t_day].
  replace (1900 + (Y - 1900)) with Y by lia. intros [V Q]. unfold day_of_year in Q. replace (m + 1 - 1) with m in Q by lia.
  assert (47541 <= t / 86400) as N by lia.
  assert (sum_from (jmonth Y) 0 (Z.to_nat m) + r < jlength Y) as Lj.
  { rewrite <- months_sum. pose proof (sum_le (jmonth Y) (S (Z.to_nat m)) 12 0 ltac:(intro j; pose proof (jmonth_pos Y j); lia) ltac:(lia)) as K. rewrite sum_last in K. replace (0 + Z.of_nat (Z.to_nat m)) with m in K by lia. lia. }
  assert (2100 <= Y) as Y1 by (unfold jstart, jlength in *; destruct (LEAP_YEAR Y); lia).
  destruct (Z.eq_dec Y 2100) as [->|Ny].
  - rewrite start_same in Q by lia. change (jstart 2100) with 47482 in *.
    destruct (Z.le_gt_cases m 1) as [L|L].
    + destruct V as (_ & _ & Vd). assert (m = 0 \/ m = 1) as [->| ->] by lia.
      * change (jmonth 2100 0) with 31 in HR. change (sum_from (jmonth 2100) 0 (Z.to_nat 0)) with 0 in HN. lia.
      * change (sum_from (jmonth 2100) 0 (Z.to_nat 1)) with 31 in HN. change (month_length 2100 (1 + 1)) with 28 in Vd. lia.
    + assert (sum_from (jmonth 2100) 0 (Z.to_nat m) = sum_from (month_length 2100) 1 (Z.to_nat m) + 1) as K; [|lia].
      replace (Z.to_nat m) with (2 + Z.to_nat (m - 2))%nat by lia. rewrite !sum_split. change (sum_from (jmonth 2100) 0 2) with 60. change (sum_from (month_length 2100) 1 2) with 59.
      assert (sum_from (jmonth 2100) (0 + Z.of_nat 2) (Z.to_nat (m - 2)) = sum_from (month_length 2100) (1 + Z.of_nat 2) (Z.to_nat (m - 2))) as ->; [|lia].
      change (1 + Z.of_nat 2) with (2 + 1). change (0 + Z.of_nat 2) with 2. rewrite <- sum_from_shift. apply sum_from_ext. intros j J. unfold month_length, jmonth. assert ((j =? 1) = false) as -> by lia. assert ((j + 1 =? 2) = false) as -> by lia.
      replace ((j + 1 =? 4) || (j + 1 =? 6) || (j + 1 =? 9) || (j + 1 =? 11)) with ((j =? 3) || (j =? 5) || (j =? 8) || (j =? 10)) by lia. reflexivity.
  - rewrite start_later in Q by lia. replace (sum_from (month_length Y) 1 (Z.to_nat m)) with (sum_from (jmonth Y) 0 (Z.to_nat m)) in Q; [lia|]. symmetry. apply (months_same Y (Z.to_nat m) 0).
    unfold leap, LEAP_YEAR. destruct (Y mod 4 =? 0) eqn:E4; destruct (Y mod 100 =? 0) eqn:E1; destruct (Y mod 400 =? 0) eqn:E400; cbn [andb orb negb]; try reflexivity; lia.
Qed.
Example C51_after_2100_example : t_toDate 200 4107542400 = Some (mkDate 0 0 0 29 1 200 1 59) /\ is_date (4107542400 / 86400) 2100 3 1.
Proof. split; [vm_compute; reflexivity|]. split; [unfold valid; vm_compute; intuition congruence|vm_compute; reflexivity]. Qed.
Print Assumptions C51_after_2100_wrong.

(* The other direction: every Gregorian date and time from 1970 to 2099 is converted to its number of seconds. *)
Theorem C51_to_timestamp d : valid (1900 + t_year d) (t_month d + 1) (t_day d) -> t_year d < 200 -> 0 <= t_hour d < 24 -> 0 <= t_minute d < 60 -> 0 <= t_second d < 60 ->
  t_toUnixTimestamp d = Some (86400 * (year_start (1900 + t_year d) + day_of_year (1900 + t_year d) (t_month d + 1) (t_day d)) + 3600 * t_hour d + 60 * t_minute d + t_second d).
Proof.
  intros V Y H M S. pose proof (day_of_year_range _ _ _ V) as R. destruct V as (V1 & V2 & V3). rewrite toUnix_ok by lia. replace (t_year d + 1900) with (1900 + t_year d) by lia. set (y := 1900 + t_year d) in *.
  assert (leap y = LEAP_YEAR y) as L by (apply leap_same; lia). rewrite <- (months_same y (Z.to_nat (t_month d)) 0 L). change (0 + 1) with 1. rewrite <- start_same by lia. unfold day_of_year in *. replace (t_month d + 1 - 1) with (t_month d) in * by lia.
  f_equal. rewrite start_same in * by lia. unfold u32. replace (jstart y + (sum_from (month_length y) 1 (Z.to_nat (t_month d)) + t_day d - 1)) with (jstart y + sum_from (month_length y) 1 (Z.to_nat (t_month d)) + t_day d - 1) by lia.
  apply Z.mod_small. assert (0 <= jstart y <= 47117) as J by (unfold jstart; lia). unfold year_length in R. destruct (leap y); lia.
Qed.
Example C51_to_timestamp_example : valid (1900 + 124) (1 + 1) 29 /\ t_toUnixTimestamp (mkDate 56 34 12 29 1 124 0 0) = Some 1709210096.
Proof. split; [unfold valid; vm_compute; intuition congruence|vm_compute; reflexivity]. Qed.
Print Assumptions C51_to_timestamp.
