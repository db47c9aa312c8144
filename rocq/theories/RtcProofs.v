(* Proofs about the drivers of the real time clocks. *)
From Verif Require Import Base CanProofs RtcModel RtcSpec.

(** *** Bytes and bits *)

Definition bitat (b : Z) (i : nat) : bool := negb (Z.land (Nat.iter i (fun x => Z.shiftr x 1) b) 1 =? 0).
Definition bits8 (b : Z) : list bool := [Z.testbit b 0; Z.testbit b 1; Z.testbit b 2; Z.testbit b 3; Z.testbit b 4; Z.testbit b 5; Z.testbit b 6; Z.testbit b 7].
Lemma shifted_bits b : byte b ->
  [bitat b 0; bitat b 1; bitat b 2; bitat b 3; bitat b 4; bitat b 5; bitat b 6; bitat b 7] = bits8 b.
Proof.
  intros B. unfold byte in B.
  assert (E : forallb (fun b => forallb (fun i => Bool.eqb (bitat b i) (Z.testbit b (Z.of_nat i))) (seq 0 8)) (map Z.of_nat (seq 0 256)) = true) by (vm_compute; reflexivity).
  pose proof (sweep 256 _ E b B) as H. cbv beta in H. rewrite forallb_forall in H.
  assert (Q : forall i, (i < 8)%nat -> bitat b i = Z.testbit b (Z.of_nat i)) by (intros i L; apply Bool.eqb_prop; apply H; apply in_seq; lia).
  rewrite !Q by lia. reflexivity.
Qed.
Lemma bits8_byte b : byte b -> byte_of (bits8 b) = b.
Proof.
  intros B. apply Z.eqb_eq.
  refine (sweep 256 (fun b => byte_of (bits8 b) =? b) _ b B). vm_compute. reflexivity.
Qed.
Definition shift_in (l : list bool) (r : Z) : Z := fold_left (fun (ret : Z) (rr : bool) => u8 (Z.lor (Z.shiftr ret 1) (Z.shiftl (if rr then 1 else 0) 7))) l r.
Lemma shift_in8 b0 b1 b2 b3 b4 b5 b6 b7 : shift_in [b0; b1; b2; b3; b4; b5; b6; b7] 0 = byte_of [b0; b1; b2; b3; b4; b5; b6; b7].
Proof. destruct b0, b1, b2, b3, b4, b5, b6, b7; vm_compute; reflexivity. Qed.

(** *** DS1302: one byte *)

Ltac stepw := cbn [run ce sclk dir io rising falling line w_ce w_sclk w_in w_mode w_regs w_out w_latch w_drive w_float w_clash Bool.eqb orb andb length app Nat.eqb Z.eqb Pos.eqb].
Definition mmore (m : mode) : Prop := match m with MCmd | MWr _ => True | _ => False end.
Lemma bit_more A x (k : pins A) sc bits m regs latch fl : (length bits < 7)%nat -> mmore m ->
  run (PSclk false (PIo x (PSclk true k))) (mkW true sc bits m regs None latch true fl false) = run k (mkW true true (bits ++ [x]) m regs None x true fl false).
Proof.
  intros L M. assert (E : Nat.eqb (length (bits ++ [x])) 8 = false) by (rewrite app_length; cbn [length]; apply Nat.eqb_neq; lia).
  destruct m; try contradiction; destruct sc; cbn [run]; unfold sclk, rising, falling, io, line; stepw; rewrite E; reflexivity.
Qed.
Lemma bit_last A x (k : pins A) bits m regs latch fl : length bits = 7%nat -> mmore m ->
  run (PSclk false (PIo x (PSclk true k))) (mkW true true bits m regs None latch true fl false)
  = run k (mkW true true [] (match m with MCmd => decode (byte_of (bits ++ [x])) | _ => MOff end)
             (match m with MWr i => store regs i (byte_of (bits ++ [x])) | _ => regs end) None x true fl false).
Proof.
  intros L M. assert (E : Nat.eqb (length (bits ++ [x])) 8 = true) by (rewrite app_length; cbn [length]; apply Nat.eqb_eq; lia).
  destruct m; try contradiction; cbn [run]; unfold sclk, rising, falling, io, line; stepw; rewrite E; reflexivity.
Qed.
Lemma run_dir A o (k : pins A) w : run (PDir o k) w = run k (dir o w).
Proof. reflexivity. Qed.
Lemma send_byte A b (k : pins A) sc m regs latch drv fl : byte b -> mmore m ->
  run (writeByte b k) (mkW true sc [] m regs None latch drv fl false)
  = run k (mkW true true [] (match m with MCmd => decode b | _ => MOff end) (match m with MWr i => store regs i b | _ => regs end) None (Z.testbit b 7) true fl false).
Proof.
  intros B M.
  pose proof (shifted_bits b B) as S. pose proof (f_equal (fun l => nth 7 l false) S) as S7. cbv beta in S7. unfold bits8 in S7. cbn [nth] in S7.
  pose proof (bits8_byte b B) as V. rewrite <- S in V. rewrite <- S7. unfold bitat in V |- *. cbn [Nat.iter nat_rect] in V |- *. clear S S7.
  unfold writeByte. cbn [writeBits]. rewrite run_dir. unfold dir at 1. cbn [w_ce w_sclk w_in w_mode w_regs w_out w_latch w_drive w_float w_clash orb andb].
  do 7 (rewrite bit_more by first [exact M | (cbn [app length]; lia)]; cbn [app]).
  rewrite bit_last by first [exact M | reflexivity]. cbn [app]. rewrite V. reflexivity.
Qed.
Lemma send_cmd A b (k : pins A) sc regs latch drv fl : byte b ->
  run (writeByte b k) (mkW true sc [] MCmd regs None latch drv fl false) = run k (mkW true true [] (decode b) regs None (Z.testbit b 7) true fl false).
Proof. intros B. exact (send_byte A b k sc MCmd regs latch drv fl B I). Qed.
Lemma send_data A b (k : pins A) i regs latch drv fl : byte b ->
  run (writeByte b k) (mkW true true [] (MWr i) regs None latch drv fl false) = run k (mkW true true [] MOff (store regs i b) None (Z.testbit b 7) true fl false).
Proof. intros B. exact (send_byte A b k true (MWr i) regs latch drv fl B I). Qed.
(* one cycle of SCLK while the chip sends *)
Definition next (i : nat) (k : Z) (burst : bool) : mode := if k =? 7 then MRd (if burst then S i else i) 0 burst else MRd i (k + 1) burst.
Lemma bit_read A (k : bool -> pins A) sc i n burst regs out latch fl :
  run (PIn (fun rr => PSclk true (PSclk false (k rr)))) (mkW true sc [] (MRd i n burst) regs out latch false fl false)
  = run (k (match out with Some b => b | None => fl end)) (mkW true false [] (next i n burst) regs (Some (Z.testbit (nth i regs 0) n)) latch false fl false).
Proof. destruct sc; cbn [run]; unfold sclk, rising, falling, line; stepw; reflexivity. Qed.
Lemma receive A (k : Z -> pins A) i regs latch fl burst : byte (nth i regs 0) ->
  run (readBits 8 0 k) (mkW true false [] (MRd i 1 burst) regs (Some (Z.testbit (nth i regs 0) 0)) latch false fl false)
  = run (k (nth i regs 0)) (mkW true false [] (MRd (if burst then S i else i) 1 burst) regs
                              (Some (Z.testbit (nth (if burst then S i else i) regs 0) 0)) latch false fl false).
Proof.
  intros B. pose proof (bits8_byte _ B) as V. unfold bits8 in V. rewrite <- shift_in8 in V. unfold shift_in in V. cbn [fold_left] in V.
  cbn [readBits].
  do 8 (rewrite bit_read; unfold next; cbn [Z.eqb Pos.eqb Z.add Pos.add Pos.succ]). rewrite V. reflexivity.
Qed.
(* without the falling edge after the command *)
Lemma receive_late A (k : Z -> pins A) i regs latch fl : byte (nth i regs 0) ->
  run (readBits 8 0 k) (mkW true true [] (MRd i 0 false) regs None latch false fl false)
  = run (k ((2 * nth i regs 0 + (if fl then 1 else 0)) mod 256)) (mkW true false [] (MRd i 0 false) regs (Some (Z.testbit (nth i regs 0) 7)) latch false fl false).
Proof.
  intros B.
  assert (V : forall r, byte r -> shift_in [fl; Z.testbit r 0; Z.testbit r 1; Z.testbit r 2; Z.testbit r 3; Z.testbit r 4; Z.testbit r 5; Z.testbit r 6] 0
              = (2 * r + (if fl then 1 else 0)) mod 256).
  { intros r R. rewrite shift_in8. apply Z.eqb_eq.
    destruct fl; [refine (sweep 256 (fun r => byte_of [true; Z.testbit r 0; Z.testbit r 1; Z.testbit r 2; Z.testbit r 3; Z.testbit r 4; Z.testbit r 5; Z.testbit r 6] =? (2 * r + 1) mod 256) _ r R)
                 | refine (sweep 256 (fun r => byte_of [false; Z.testbit r 0; Z.testbit r 1; Z.testbit r 2; Z.testbit r 3; Z.testbit r 4; Z.testbit r 5; Z.testbit r 6] =? (2 * r + 0) mod 256) _ r R)];
      vm_compute; reflexivity. }
  specialize (V _ B). unfold shift_in in V. cbn [fold_left] in V.
  cbn [readBits].
  do 8 (rewrite bit_read; unfold next; cbn [Z.eqb Pos.eqb Z.add Pos.add Pos.succ]). rewrite V. reflexivity.
Qed.

(** *** DS1302: the functions *)

Lemma nth_byte l i : Forall byte l -> byte (nth i l 0).
Proof.
  intros F. destruct (Nat.lt_ge_cases i (length l)) as [L | L].
  - rewrite Forall_forall in F. apply F. apply nth_In. exact L.
  - rewrite nth_overflow by exact L. unfold byte. lia.
Qed.
Lemma decode_write a i : a = 128 + 2 * Z.of_nat i -> (i < 64)%nat -> decode a = MWr i.
Proof.
  intros -> L. assert (E : forallb (fun i => match decode (128 + 2 * i) with MWr j => Nat.eqb j (Z.to_nat i) | _ => false end) (map Z.of_nat (seq 0 64)) = true) by (vm_compute; reflexivity).
  pose proof (sweep 64 _ E (Z.of_nat i) ltac:(lia)) as H. cbv beta in H. destruct (decode (128 + 2 * Z.of_nat i)); try discriminate.
  apply Nat.eqb_eq in H. rewrite Nat2Z.id in H. congruence.
Qed.
Lemma decode_read a i : a = 129 + 2 * Z.of_nat i -> (i < 64)%nat -> i <> 31%nat -> decode a = MRd i 0 false.
Proof.
  intros -> L N.
  assert (E : forallb (fun i => (i =? 31) || match decode (129 + 2 * i) with MRd j 0 false => Nat.eqb j (Z.to_nat i) | _ => false end) (map Z.of_nat (seq 0 64)) = true) by (vm_compute; reflexivity).
  pose proof (sweep 64 _ E (Z.of_nat i) ltac:(lia)) as H. cbv beta in H.
  destruct (Z.of_nat i =? 31) eqn:Q; [apply Z.eqb_eq in Q; lia |]. cbn [orb] in H.
  destruct (decode (129 + 2 * Z.of_nat i)) as [| j | j k b |]; try discriminate. destruct k; try discriminate. destruct b; try discriminate.
  apply Nat.eqb_eq in H. rewrite Nat2Z.id in H. congruence.
Qed.
Lemma write_run regs latch fl i d : (i < 64)%nat -> byte d ->
  run (write (128 + 2 * Z.of_nat i) d) (rest regs latch fl) = (tt, rest (store regs i d) (Z.testbit d 7) fl).
Proof.
  intros L B. unfold write, rest. stepw. unfold ce. stepw.
  rewrite send_cmd by (unfold byte; lia). rewrite (decode_write _ i eq_refl L). rewrite send_data by exact B.
  stepw. unfold sclk, falling, dir, ce. stepw. reflexivity.
Qed.
Lemma read_run regs latch fl i : (i < 64)%nat -> i <> 31%nat -> Forall byte regs ->
  exists latch', run (read (129 + 2 * Z.of_nat i)) (rest regs latch fl) = ((2 * nth i regs 0 + (if fl then 1 else 0)) mod 256, rest regs latch' fl).
Proof.
  intros L N F. unfold read, rest. stepw. unfold ce. stepw.
  rewrite send_cmd by (unfold byte; lia). rewrite (decode_read _ i eq_refl L N). stepw. unfold dir. stepw.
  exists (Z.testbit (129 + 2 * Z.of_nat i) 7). rewrite receive_late by (apply nth_byte; exact F). cbn [run]. unfold ce. stepw. reflexivity.
Qed.
Lemma receive_all A (k : list Z -> pins A) regs latch fl : Forall byte regs -> forall n i acc,
  run (readBytes n acc k) (mkW true false [] (MRd i 1 true) regs (Some (Z.testbit (nth i regs 0) 0)) latch false fl false)
  = run (k (acc ++ map (fun j => nth j regs 0) (seq i n))) (mkW true false [] (MRd (i + n) 1 true) regs (Some (Z.testbit (nth (i + n) regs 0) 0)) latch false fl false).
Proof.
  intros F. induction n as [| n IH]; intros i acc.
  - cbn [readBytes seq map]. rewrite app_nil_r. rewrite Nat.add_0_r. reflexivity.
  - cbn [readBytes]. rewrite receive by (apply nth_byte; exact F). rewrite IH. cbn [seq map]. rewrite <- app_assoc. cbn [app].
    replace (S i + n)%nat with (i + S n)%nat by lia. reflexivity.
Qed.
Lemma readRtc_run regs latch fl : regs_ok regs ->
  run readRtc (rest regs latch fl) = (firstn 8 regs, rest regs true fl).
Proof.
  intros [Len F]. unfold readRtc, rest. stepw. unfold ce. stepw.
  rewrite send_cmd by (unfold byte; lia). change (decode 191) with (MRd 0 0 true). stepw. unfold dir. stepw. unfold sclk, falling. stepw.
  cbn [Z.add]. rewrite (receive_all _ _ regs _ fl F 8 0 []). cbn [run]. unfold ce. stepw. f_equal.
  do 8 (destruct regs as [| ? regs]; [discriminate |]). reflexivity.
Qed.

(** *** The data *)

Lemma dbcd n x : 0 <= n < 80 -> x = bcd n \/ x = bcd n + 128 -> doubleBcdToDecimal x = n.
Proof.
  intros R X.
  assert (E : forallb (fun n => (doubleBcdToDecimal (bcd n) =? n) && (doubleBcdToDecimal (bcd n + 128) =? n)) (map Z.of_nat (seq 0 80)) = true) by (vm_compute; reflexivity).
  pose proof (sweep 80 _ E n ltac:(lia)) as H. cbv beta in H. apply andb_prop in H. destruct H as [H1 H2]. apply Z.eqb_eq in H1, H2.
  destruct X as [-> | ->]; assumption.
Qed.
Lemma hours24 h : 0 <= h < 24 -> Z.land (bcd h) 128 = 0.
Proof.
  intros R. apply Z.eqb_eq. refine (sweep 24 (fun h => Z.land (bcd h) 128 =? 0) _ h R). vm_compute. reflexivity.
Qed.
Lemma hours12 h : 0 <= h < 24 ->
  let r := 128 + (if 12 <=? h then 32 else 0) + bcd ((h + 11) mod 12 + 1) in
  Z.land r 128 = 128 /\ Z.land r 32 = (if 12 <=? h then 32 else 0) /\ doubleBcdToDecimal (Z.land r 31) = (h + 11) mod 12 + 1.
Proof.
  intros R r.
  assert (E : forallb (fun h => let r := 128 + (if 12 <=? h then 32 else 0) + bcd ((h + 11) mod 12 + 1) in
    (Z.land r 128 =? 128) && (Z.land r 32 =? (if 12 <=? h then 32 else 0)) && (doubleBcdToDecimal (Z.land r 31) =? (h + 11) mod 12 + 1)) (map Z.of_nat (seq 0 24)) = true) by (vm_compute; reflexivity).
  pose proof (sweep 24 _ E h R) as H. cbv beta zeta in H. fold r in H. apply andb_prop in H. destruct H as [H H3]. apply andb_prop in H. destruct H as [H1 H2].
  apply Z.eqb_eq in H1, H2, H3. split; [exact H1 |]. split; [exact H2 | exact H3].
Qed.

(** *** MCP7941x *)

Lemma enc_bcd n : 0 <= n < 100 -> encodeBcd n = bcd n.
Proof. intros R. apply Z.eqb_eq. refine (sweep 100 (fun n => encodeBcd n =? bcd n) _ n R). vm_compute. reflexivity. Qed.
Lemma dec_bcd n : 0 <= n < 100 -> decodeBcd (bcd n) = n.
Proof. intros R. apply Z.eqb_eq. refine (sweep 100 (fun n => decodeBcd (bcd n) =? n) _ n R). vm_compute. reflexivity. Qed.
Lemma dec_sec n (st : bool) : 0 <= n < 60 -> decodeBcd (Z.land (bcd n + (if st then 128 else 0)) 127) = n.
Proof.
  intros R. apply Z.eqb_eq.
  destruct st; [refine (sweep 60 (fun n => decodeBcd (Z.land (bcd n + 128) 127) =? n) _ n R) | refine (sweep 60 (fun n => decodeBcd (Z.land (bcd n + 0) 127) =? n) _ n R)]; vm_compute; reflexivity.
Qed.
Lemma dec_hour n : 0 <= n < 24 -> decodeBcd (Z.land (bcd n) 63) = n.
Proof. intros R. apply Z.eqb_eq. refine (sweep 24 (fun n => decodeBcd (Z.land (bcd n) 63) =? n) _ n R). vm_compute. reflexivity. Qed.
Lemma dec_month n (leap : bool) : 0 <= n < 13 -> decodeBcd (Z.land (bcd n + (if leap then 32 else 0)) 31) = n.
Proof.
  intros R. apply Z.eqb_eq.
  destruct leap; [refine (sweep 13 (fun n => decodeBcd (Z.land (bcd n + 32) 31) =? n) _ n R) | refine (sweep 13 (fun n => decodeBcd (Z.land (bcd n + 0) 31) =? n) _ n R)]; vm_compute; reflexivity.
Qed.
Lemma sec_started n : 0 <= n < 60 -> Z.lor (bcd n) 128 = bcd n + 128.
Proof. intros R. apply Z.eqb_eq. refine (sweep 60 (fun n => Z.lor (bcd n) 128 =? bcd n + 128) _ n R). vm_compute. reflexivity. Qed.
Lemma get_shown d st wk leap more acks : dt_ok d ->
  irun getDateTime (mcp_regs d st wk leap ++ more) (true :: acks) = (Some d, mcp_regs d st wk leap ++ more).
Proof.
  intros (D & M & Y & S & Mi & H). unfold getDateTime, mcp_regs. cbn [irun app]. change (Z.to_nat 0) with 0%nat. cbn [skipn firstn nth].
  rewrite dec_sec, dec_hour, dec_month, !dec_bcd by lia. destruct d; reflexivity.
Qed.
Lemma set_shown d r0 r1 r2 r3 r4 r5 r6 more acks : dt_ok d ->
  irun (setDateTime d) (r0 :: r1 :: r2 :: r3 :: r4 :: r5 :: r6 :: more) (true :: true :: acks) = (true, mcp_regs d true 8 false ++ more).
Proof.
  intros (D & M & Y & S & Mi & H). unfold setDateTime, mcp_regs. cbn [irun negb]. change (Z.to_nat 0) with 0%nat. cbn [store_from put firstn skipn app].
  rewrite !enc_bcd by lia. rewrite sec_started by lia. rewrite Z.add_0_r. reflexivity.
Qed.
Lemma set_half d r0 r1 r2 r3 r4 r5 r6 more acks : dt_ok d ->
  irun (setDateTime d) (r0 :: r1 :: r2 :: r3 :: r4 :: r5 :: r6 :: more) (true :: false :: acks)
  = (false, mcp_regs (mkDt (days d) (months d) (years d) 0 (minutes d) (hours d)) false 8 false ++ more).
Proof.
  intros (D & M & Y & S & Mi & H). unfold setDateTime, mcp_regs. cbn [irun negb days months years seconds minutes hours]. change (Z.to_nat 0) with 0%nat.
  cbn [store_from put firstn skipn app]. rewrite !enc_bcd by lia. rewrite !Z.add_0_r. reflexivity.
Qed.
