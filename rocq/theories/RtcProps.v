(* Property C103: the drivers of the real time clocks DS1302 and MCP7941x. *)
From Verif Require Import Base RtcModel RtcSpec RtcProofs.

(** *** Cases *)

Definition noon : show := mkShow 59 48 15 31 12 4 37 true false.
Definition ram56 : list Z := map (fun k => Z.of_nat k + 100) (seq 0 56).
Definition chip_regs : list Z := clock_regs noon (hour24 noon) ++ ram56.
Lemma chip_ok : regs_ok chip_regs.
Proof. split; [vm_compute; reflexivity |]. unfold byte. apply Forall_forall. intros x H. vm_compute in H. lia. Qed.
Lemma noon_ok : show_ok noon.
Proof. unfold show_ok; cbn; lia. Qed.
Definition wedding : DateTime := mkDt 31 12 99 59 48 23.
Lemma wedding_ok : dt_ok wedding.
Proof. unfold dt_ok; cbn; lia. Qed.

(** *** C103: DS1302 *)

(* a write of any register: exactly that register of the chip takes the value, or nothing changes when the chip is write protected and it is not
   the protect register; afterwards everything is at rest again and at no time did both sides drive the data line (w_clash of rest is false) *)
Theorem C103_write regs latch fl i d : (i < 64)%nat -> byte d ->
  exists latch', run (write (128 + 2 * Z.of_nat i) d) (rest regs latch fl)
  = (tt, rest (if Z.testbit (nth 7 regs 0) 7 && negb (Nat.eqb i 7) then regs else put regs i d) latch' fl).
Proof. intros L B. exists (Z.testbit d 7). exact (write_run regs latch fl i d L B). Qed.
Example C103_write_ex : exists latch', run (write 132 35) (rest chip_regs true false) = (tt, rest (put chip_regs 2 35) latch' false).
Proof. refine (C103_write chip_regs true false 2 35 _ _); [lia | unfold byte; lia]. Qed.
(* the burst read returns the eight clock registers, whatever they hold, and leaves everything at rest *)
Theorem C103_readRtc regs latch fl : regs_ok regs ->
  exists latch', run readRtc (rest regs latch fl) = (firstn 8 regs, rest regs latch' fl).
Proof. intros H. exists true. exact (readRtc_run regs latch fl H). Qed.
Example C103_readRtc_ex : fst (run readRtc (rest chip_regs false true)) = [217; 72; 21; 49; 18; 4; 55; 0].
Proof. destruct (C103_readRtc chip_regs false true chip_ok) as (l & E). rewrite E. vm_compute. reflexivity. Qed.
(* the read of a single register: there is no falling edge of the clock between the command and the first sample, so every bit arrives one place
   too high, bit 7 is lost and bit 0 is whatever the undriven line shows; the value is right only for 0 on a low and 255 on a high line *)
Theorem C103_read_wrong regs latch fl i : regs_ok regs -> (i < 64)%nat -> i <> 31%nat ->
  exists latch' v, run (read (129 + 2 * Z.of_nat i)) (rest regs latch fl) = (v, rest regs latch' fl)
  /\ v = (2 * nth i regs 0 + (if fl then 1 else 0)) mod 256
  /\ (v = nth i regs 0 <-> nth i regs 0 = if fl then 255 else 0).
Proof.
  intros [Len F] L N. destruct (read_run regs latch fl i L N F) as (l & E). exists l, ((2 * nth i regs 0 + (if fl then 1 else 0)) mod 256).
  split; [exact E |]. split; [reflexivity |]. pose proof (nth_byte regs i F) as B. unfold byte in B. destruct fl; lia.
Qed.
Example C103_read_wrong_ex : exists latch' v, run (read 131) (rest chip_regs false false) = (v, rest chip_regs latch' false) /\ v = 144 /\ v <> nth 1 chip_regs 0.
Proof.
  destruct (C103_read_wrong chip_regs false false 1 chip_ok) as (l & v & E & V & _); [lia | lia |]. exists l, v. split; [exact E |].
  rewrite V. split; vm_compute; [reflexivity | discriminate].
Qed.
Theorem C103_read_refuted : exists regs i l v, regs_ok regs /\ (i < 64)%nat /\ run (read (129 + 2 * Z.of_nat i)) (rest regs false false) = (v, rest regs l false) /\ v <> nth i regs 0.
Proof.
  destruct C103_read_wrong_ex as (l & v & E & V & N). exists chip_regs, 1%nat, l, v. split; [exact chip_ok |]. split; [lia |]. split; assumption.
Qed.
(* what the burst read gives of a chip that shows a time is that time, in the 24 hour mode and, except for the year, in the 12 hour mode *)
Theorem C103_fields t more latch fl : show_ok t -> regs_ok (clock_regs t (hour24 t) ++ more) ->
  let d := fst (run readRtc (rest (clock_regs t (hour24 t) ++ more) latch fl)) in
  getSeconds d = s_sec t /\ getMinutes d = s_min t /\ is24hours d = true /\ getHours d = s_hour t /\ getDate d = s_date t /\ getMonth d = s_month t
  /\ getDayOfWeek d = s_day t /\ isWriteProtected d = s_wp t.
Proof.
  intros (S & M & H & D & Mo & W & Y) R d. subst d. rewrite readRtc_run by exact R. cbn [fst]. unfold clock_regs at 1 2 3 4 5 6 7 8. cbn [app firstn].
  unfold getSeconds, getMinutes, getHours, is24hours, getDate, getMonth, getDayOfWeek, isWriteProtected, hour24. cbn [nth].
  rewrite hours24 by lia. change (0 =? 0) with true. cbv iota.
  split; [apply dbcd; [lia | destruct (s_ch t); lia] |]. split; [apply dbcd; lia |]. split; [reflexivity |]. split; [apply dbcd; lia |].
  split; [apply dbcd; lia |]. split; [apply dbcd; lia |]. split; [reflexivity |]. destruct (s_wp t); reflexivity.
Qed.
Example C103_fields_ex : let d := fst (run readRtc (rest chip_regs true true)) in getSeconds d = 59 /\ getHours d = 15 /\ getDate d = 31.
Proof.
  destruct (C103_fields noon ram56 true true noon_ok chip_ok) as (A & _ & _ & B & C & _). split; [exact A |]. split; [exact B | exact C].
Qed.
Theorem C103_fields_12h t more latch fl : show_ok t -> regs_ok (clock_regs t (hour12 t) ++ more) ->
  let d := fst (run readRtc (rest (clock_regs t (hour12 t) ++ more) latch fl)) in
  is24hours d = false /\ isPm d = (12 <=? s_hour t) /\ isAm d = negb (12 <=? s_hour t) /\ 1 <= getHours d <= 12
  /\ s_hour t = (getHours d mod 12) + (if isPm d then 12 else 0).
Proof.
  intros (S & M & H & D & Mo & W & Y) R d. subst d. rewrite readRtc_run by exact R. cbn [fst]. unfold clock_regs. cbn [app firstn].
  unfold getHours, is24hours, isAm, isPm. cbn [nth]. destruct (hours12 (s_hour t) H) as (A & B & C). unfold hour12, pm_of, h12_of. rewrite A, B, C.
  change (128 =? 0) with false. cbv iota. clear - H.
  assert (P : negb ((if 12 <=? s_hour t then 32 else 0) =? 0) = (12 <=? s_hour t)) by (destruct (12 <=? s_hour t); reflexivity). rewrite P.
  split; [reflexivity |]. split; [reflexivity |]. split; [reflexivity |]. split; [lia |]. destruct (12 <=? s_hour t) eqn:Q; lia.
Qed.
Example C103_fields_12h_ex : let d := fst (run readRtc (rest (clock_regs noon (hour12 noon) ++ ram56) true true)) in isPm d = true /\ getHours d = 3.
Proof.
  destruct (C103_fields_12h noon ram56 true true noon_ok) as (_ & A & _ & _ & B).
  - split; [vm_compute; reflexivity |]. unfold byte. apply Forall_forall. intros x H. vm_compute in H. lia.
  - split; [exact A | vm_compute; reflexivity].
Qed.
(* the year is handed out as it is in the register, in two decimal digits: from the tenth year of the century on it is too large *)
Theorem C103_year_wrong t more latch fl : show_ok t -> regs_ok (clock_regs t (hour24 t) ++ more) ->
  let d := fst (run readRtc (rest (clock_regs t (hour24 t) ++ more) latch fl)) in
  getYear d = s_year t + 6 * (s_year t / 10) /\ (getYear d = s_year t <-> s_year t < 10).
Proof.
  intros (S & M & H & D & Mo & W & Y) R d. subst d. rewrite readRtc_run by exact R. cbn [fst]. unfold clock_regs. cbn [app firstn].
  unfold getYear. cbn [nth]. unfold bcd. clear - Y. lia.
Qed.
Example C103_year_wrong_ex : getYear (fst (run readRtc (rest chip_regs true true))) = 55 /\ s_year noon = 37.
Proof. destruct (C103_year_wrong noon ram56 true true noon_ok chip_ok) as (A & _). split; [exact A | reflexivity]. Qed.
(* starting the oscillator of an unprotected chip clears the clock halt flag, but also the seconds *)
Theorem C103_oscillator regs latch fl : Z.testbit (nth 7 regs 0) 7 = false ->
  exists latch', run enableOscillator (rest regs latch fl) = (tt, rest (put regs 0 0) latch' fl).
Proof.
  intros P. destruct (C103_write regs latch fl 0 0) as (l & E); [lia | unfold byte; lia |]. rewrite P in E. exists l. exact E.
Qed.
Example C103_oscillator_ex : exists latch', run enableOscillator (rest chip_regs false true) = (tt, rest (0 :: tl chip_regs) latch' true).
Proof. refine (C103_oscillator chip_regs false true _). vm_compute. reflexivity. Qed.
(* write protection, once taken away, lets writes through; once set, it holds off every other register, also enableOscillator *)
Theorem C103_protect regs latch fl wp : (7 < length regs)%nat ->
  exists latch', run (writeProtect wp) (rest regs latch fl) = (tt, rest (put regs 7 (if wp then 128 else 0)) latch' fl)
  /\ (forall i d, (i < 64)%nat -> i <> 7%nat -> byte d ->
        exists l, run (write (128 + 2 * Z.of_nat i) d) (rest (put regs 7 (if wp then 128 else 0)) latch' fl)
                  = (tt, rest (if wp then put regs 7 128 else put (put regs 7 0) i d) l fl)).
Proof.
  intros L. destruct (C103_write regs latch fl 7 (if wp then 128 else 0)) as (l & E); [lia | unfold byte; destruct wp; lia |].
  cbn [Nat.eqb negb] in E. rewrite Bool.andb_false_r in E. exists l. split; [exact E |].
  intros i d Hi N B. destruct (C103_write (put regs 7 (if wp then 128 else 0)) l fl i d Hi B) as (l2 & E2). exists l2. rewrite E2.
  assert (T : nth 7 (put regs 7 (if wp then 128 else 0)) 0 = if wp then 128 else 0).
  { unfold put. rewrite app_nth2; rewrite firstn_length_le by lia; [reflexivity | lia]. }
  rewrite T. apply Nat.eqb_neq in N. rewrite N. destruct wp; reflexivity.
Qed.
Example C103_protect_ex : exists l, run (writeProtect true) (rest chip_regs false true) = (tt, rest (put chip_regs 7 128) l true).
Proof. destruct (C103_protect chip_regs false true true) as (l & E & _); [vm_compute; lia |]. exists l. exact E. Qed.

(** *** C103: MCP7941x *)

(* reading: a chip in the 24 hour mode that shows d gives d, whatever its status bits and day of the week; nothing is changed *)
Theorem C103_get d st wk leap more acks : dt_ok d ->
  irun getDateTime (mcp_regs d st wk leap ++ more) (true :: acks) = (Some d, mcp_regs d st wk leap ++ more).
Proof. exact (get_shown d st wk leap more acks). Qed.
Example C103_get_ex : irun getDateTime [217; 72; 35; 46; 49; 50; 153; 7] [true] = (Some wedding, [217; 72; 35; 46; 49; 50; 153; 7]).
Proof. refine (C103_get wedding true 46 true [7] [] wedding_ok). Qed.
(* setting: with both transactions the chip shows d with its oscillator started, and what is then read is d; the day of the week is lost *)
Theorem C103_set d regs acks : dt_ok d -> (7 <= length regs)%nat ->
  exists regs', irun (setDateTime d) regs (true :: true :: acks) = (true, regs')
  /\ regs' = mcp_regs d true 8 false ++ skipn 7 regs /\ irun getDateTime regs' [true] = (Some d, regs').
Proof.
  intros H L. do 7 (destruct regs as [| ? regs]; [cbn in L; lia |]). exists (mcp_regs d true 8 false ++ regs).
  split; [apply set_shown; exact H |]. split; [reflexivity |]. apply get_shown. exact H.
Qed.
Example C103_set_ex : exists regs', irun (setDateTime wedding) (repeat 77 9) [true; true] = (true, regs') /\ nth 3 regs' 0 mod 8 = 0.
Proof.
  destruct (C103_set wedding (repeat 77 9) [] wedding_ok) as (r & E & R & _); [cbn; lia |]. exists r. split; [exact E |]. rewrite R. vm_compute. reflexivity.
Qed.
(* a failure of the first transaction leaves the chip as it was; a failure of the second one leaves it stopped, with the new date and second 0 *)
Theorem C103_set_fails d regs acks : dt_ok d -> (7 <= length regs)%nat ->
  irun (setDateTime d) regs (false :: acks) = (false, regs)
  /\ irun (setDateTime d) regs (true :: false :: acks)
     = (false, mcp_regs (mkDt (days d) (months d) (years d) 0 (minutes d) (hours d)) false 8 false ++ skipn 7 regs).
Proof.
  intros H L. split; [reflexivity |]. do 7 (destruct regs as [| ? regs]; [cbn in L; lia |]). apply set_half. exact H.
Qed.
Example C103_set_fails_ex : Z.testbit (nth 0 (snd (irun (setDateTime wedding) (repeat 203 9) [true; false])) 0) 7 = false.
Proof. destruct (C103_set_fails wedding (repeat 203 9) [] wedding_ok) as (_ & E); [cbn; lia |]. rewrite E. vm_compute. reflexivity. Qed.
(* the oscillator is reported as running by every chip that answers *)
Theorem C103_running_wrong regs acks : Forall byte regs -> irun oscillatorRunning regs (true :: acks) = (true, regs).
Proof.
  intros F. unfold oscillatorRunning. cbn [irun]. f_equal.
  assert (B : byte (nth 0 (firstn 1 (skipn (Z.to_nat 3) regs)) 0)).
  { change (Z.to_nat 3) with 3%nat. destruct (skipn 3 regs) as [| x l] eqn:E; cbn [firstn nth]; [unfold byte; lia |].
    rewrite Forall_forall in F. apply F. rewrite <- (firstn_skipn 3 regs). apply in_or_app. right. rewrite E. left. reflexivity. }
  unfold byte in B. destruct (Z.eq_dec (nth 0 (firstn 1 (skipn (Z.to_nat 3) regs)) 0) 0) as [-> | N]; [reflexivity |].
  assert (P : 0 < Z.lor (nth 0 (firstn 1 (skipn (Z.to_nat 3) regs)) 0) 32); [| lia].
  assert (Q : 0 <= Z.lor (nth 0 (firstn 1 (skipn (Z.to_nat 3) regs)) 0) 32) by (apply Z.lor_nonneg; lia).
  assert (T : Z.lor (nth 0 (firstn 1 (skipn (Z.to_nat 3) regs)) 0) 32 <> 0) by (intros X; apply Z.lor_eq_0_l in X; contradiction). lia.
Qed.
Example C103_running_wrong_ex : irun oscillatorRunning [0; 72; 35; 8; 49; 18; 153] [true] = (true, [0; 72; 35; 8; 49; 18; 153]).
Proof. refine (C103_running_wrong _ [] _). unfold byte. repeat constructor; lia. Qed.
Theorem C103_running_refuted : exists regs, Forall byte regs /\ running regs = false /\ fst (irun oscillatorRunning regs [true]) = true.
Proof.
  exists [0; 72; 35; 8; 49; 18; 153]. split; [unfold byte; repeat constructor; lia |]. split; vm_compute; reflexivity.
Qed.

Print Assumptions C103_write.
Print Assumptions C103_readRtc.
Print Assumptions C103_read_wrong.
Print Assumptions C103_read_refuted.
Print Assumptions C103_fields.
Print Assumptions C103_fields_12h.
Print Assumptions C103_year_wrong.
Print Assumptions C103_oscillator.
Print Assumptions C103_protect.
Print Assumptions C103_get.
Print Assumptions C103_set.
Print Assumptions C103_set_fails.
Print Assumptions C103_running_wrong.
Print Assumptions C103_running_refuted.
