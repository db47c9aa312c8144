(* C91: the output stream. *)
From Verif Require Import Base IosModel IosSpec IosProofs.
Local Open Scope Z_scope.

(* what is sent to the stream comes out as numerals of the values in the mode in force (two's complement in hexadecimal and binary, every digit of the type), and the
   mode afterwards is that of the last manipulator *)
Theorem C91_sequences_are_written_as_the_text_of_their_things : forall psize m l, psize = 2 \/ psize = 4 \/ psize = 8 -> Forall (valid psize) l -> Forall not_function l ->
  exists out, put_all psize m l = Some (mode_after m l, out) /\ text psize m l out.
Proof. intros psize m l Hs V N. apply (put_all_text psize l m Hs V N). Qed.
Example C91_sequences_case :
  let l := [IInt true 16 (-32768); IChar 32; Hex; IInt true 32 (-2); IByte 10; Bin; IByte 5; IBool true; Endl; IInt true 64 (-9223372036854775808); IText [65; 0; 66]; IPointer 4276994270] in
  Forall (valid 4) l /\ Forall not_function l /\
  option_map snd (put_all 4 Ascii l) = Some ([45;51;50;55;54;56] ++ [32] ++ [70;70;70;70;70;70;70;69] ++ [48;65] ++ [48;48;48;48;48;49;48;49] ++ [49] ++ [10]
    ++ [45;57;50;50;51;51;55;50;48;51;54;56;53;52;55;55;53;56;48;56] ++ [65] ++ [48;120;70;69;69;68;67;48;68;69]).
Proof.
  cbv zeta. split; [|split].
  - repeat (apply Forall_cons; [cbn [valid of_type]; first [exact Logic.I | (split; [lia|split; [discriminate|reflexivity]]) | (split; [discriminate|reflexivity]) | lia | (right; left; reflexivity)]|]); constructor.
  - repeat (apply Forall_cons; [exact Logic.I|]); constructor.
  - vm_compute. reflexivity.
Qed.

(* a numeral is determined by its base, its length and its value: the theorem above leaves no freedom in hexadecimal and binary mode *)
Lemma digit_bounds : forall c d, digit_value c = Some d -> 0 <= d.
Proof.
  intros c d. unfold digit_value. destruct (Z.leb_spec 48 c), (Z.leb_spec c 57), (Z.leb_spec 65 c), (Z.leb_spec c 70); cbn [andb]; intro E; try discriminate; injection E; lia.
Qed.
Lemma digit_inj : forall c c' d, digit_value c = Some d -> digit_value c' = Some d -> c = c'.
Proof.
  intros c c' d. unfold digit_value. destruct (Z.leb_spec 48 c), (Z.leb_spec c 57), (Z.leb_spec 65 c), (Z.leb_spec c 70); cbn [andb]; intro E; try discriminate; injection E as E;
  destruct (Z.leb_spec 48 c'), (Z.leb_spec c' 57), (Z.leb_spec 65 c'), (Z.leb_spec c' 70); cbn [andb]; intro E'; try discriminate; injection E' as E'; lia.
Qed.
Lemma read_unique : forall base l l' a a' v, 2 <= base -> length l = length l' -> read_from base a l = Some v -> read_from base a' l' = Some v -> a = a' /\ l = l'.
Proof.
  intros base l. induction l as [|c l IH]; intros [|c' l'] a a' v Hb HL E E'; try discriminate HL; cbn [read_from] in *.
  - split; congruence.
  - destruct (digit_value c) as [d|] eqn:D; [|discriminate]. destruct (digit_value c') as [d'|] eqn:D'; [|discriminate].
    destruct (Z.ltb_spec d base); [|discriminate]. destruct (Z.ltb_spec d' base); [|discriminate]. cbn [length] in HL. injection HL as HL.
    destruct (IH _ _ _ _ Hb HL E E') as [Q ->]. pose proof (digit_bounds _ _ D). pose proof (digit_bounds _ _ D').
    assert (a = a') by nia. subst a'. assert (d = d') by lia. subst d'. split; [reflexivity|]. f_equal. eapply digit_inj; eassumption.
Qed.
Theorem C91_a_numeral_of_given_length_is_unique : forall base l l' v, 2 <= base -> length l = length l' -> numeral base l v -> numeral base l' v -> l = l'.
Proof. intros base l l' v Hb HL [_ E] [_ E']. now destruct (read_unique base l l' 0 0 v Hb HL E E'). Qed.
Example C91_a_numeral_case : numeral 16 [48; 65] 10 /\ numeral 10 [49; 48] 10 /\ numeral 2 [49; 48; 49; 48] 10.
Proof. repeat split; discriminate. Qed.

(* the operator for function pointers does not write the function's address *)
Theorem C91_function_pointers_are_written_refuted : exists psize m slot p out, (psize = 2 \/ psize = 4 \/ psize = 8) /\ valid psize (IFunction slot p) /\
  put psize m (IFunction slot p) = Some (m, out) /\ ~ looks psize m (IFunction slot p) out.
Proof.
  exists 4, Ascii, 536903672, 134218000, [48; 120; 50; 48; 48; 48; 55; 70; 70; 56]. split; [tauto|]. split; [|split].
  - cbn. split; split; (discriminate || reflexivity).
  - vm_compute. reflexivity.
  - intros (l & E & _ & [_ N]). injection E as <-. vm_compute in N. discriminate N.
Qed.
(* what it writes is the address of its own parameter, whatever the function *)
Theorem C91_function_pointers_are_undetected : forall psize m slot p, psize = 2 \/ psize = 4 \/ psize = 8 -> 0 <= slot < 2 ^ (8 * psize) ->
  exists out, put psize m (IFunction slot p) = Some (m, out) /\ looks psize m (IPointer slot) out.
Proof. intros psize m slot p Hs Hr. destruct (put_looks psize m (IPointer slot) Hs Hr Logic.I) as (out & E & L). exists out. split; [exact E|exact L]. Qed.
Example C91_function_pointers_case : 0 <= 536903672 < 2 ^ (8 * 4) /\
  put 4 Ascii (IFunction 536903672 134218000) = put 4 Ascii (IFunction 536903672 134219999) /\ put 4 Ascii (IPointer 134218000) <> put 4 Ascii (IPointer 134219999).
Proof. split; [split; [discriminate|reflexivity]|]. split; [vm_compute; reflexivity|]. vm_compute. discriminate. Qed.

(* BlockIfFull: a device which keeps taking characters gets every character of every sequence, once and in order; it never gets anything else *)
Theorem C91_blocking_devices_lose_nothing : forall accepts, (forall k, exists j, (k <= j)%nat /\ accepts j = true) ->
  forall psize m l k, psize = 2 \/ psize = 4 \/ psize = 8 -> Forall (valid psize) l -> Forall not_function l ->
  exists out fuel n, put_all psize m l = Some (mode_after m l, out) /\ text psize m l out /\ wrapper_text fuel true accepts k out = Some (n, out).
Proof.
  intros accepts F psize m l k Hs V N. destruct (put_all_text psize l m Hs V N) as (out & E & T). destruct (text_block_live accepts F out k) as (fuel & n & W).
  exists out, fuel, n. now split.
Qed.
Example C91_blocking_case : let accepts := fun k => Nat.eqb (Nat.modulo k 3) 2 in
  (forall k, exists j, (k <= j)%nat /\ accepts j = true) /\ wrapper_text 3 true accepts 0 [72; 105; 33] = Some (9%nat, [72; 105; 33]).
Proof.
  cbv zeta. split; [|vm_compute; reflexivity]. intros k. exists (2 + k * 3)%nat. split; [lia|]. apply Nat.eqb_eq. rewrite Nat.mod_add by lia. reflexivity.
Qed.
Theorem C91_blocking_devices_get_nothing_else : forall accepts s fuel k n out, wrapper_text fuel true accepts k s = Some (n, out) -> out = s.
Proof. intros accepts s fuel k n out E. exact (text_block_safe accepts s fuel k n out E). Qed.
Example C91_nothing_else_case : wrapper_text 6 true (fun k => Nat.leb 5 k) 0 [72; 105] = Some (7%nat, [72; 105]) /\ wrapper_text 5 true (fun k => Nat.leb 5 k) 0 [72; 105] = None.
Proof. split; vm_compute; reflexivity. Qed.
(* and a device which takes nothing any more blocks the writer for ever *)
Theorem C91_blocking_on_a_dead_device_hangs : forall accepts k c s, (forall j, (k <= j)%nat -> accepts j = false) -> forall fuel, wrapper_text fuel true accepts k (c :: s) = None.
Proof.
  intros accepts k c s H fuel. cbn [wrapper_text]. destruct (wrapper_write fuel true accepts k c) as [[n out]|] eqn:W; [|reflexivity]. exfalso.
  destruct (write_block_safe _ _ _ _ _ _ W) as (_ & H1 & H2 & _). rewrite H in H2 by lia. discriminate.
Qed.
Example C91_dead_case : forall j, (3 <= j)%nat -> Nat.ltb j 3 = false. Proof. intros j H. apply Nat.ltb_ge. exact H. Qed.
(* DiscardIfFull: one call per character; the device gets the characters which it takes in these calls and loses the others *)
Theorem C91_discarding_devices_lose_what_they_refuse : forall accepts s fuel k, (0 < fuel)%nat -> wrapper_text fuel false accepts k s = Some ((k + length s)%nat, taken accepts k s).
Proof. intros accepts s fuel k H. exact (text_discard accepts s fuel k H). Qed.
Example C91_discarding_case : wrapper_text 1 false (fun k => Nat.leb k 2 || Nat.eqb k 5) 0 [1; 2; 3; 4; 5; 6] = Some (6%nat, [1; 2; 3; 6]) /\
  taken (fun k => Nat.leb k 2 || Nat.eqb k 5) 0 [1; 2; 3; 4; 5; 6] = [1; 2; 3; 6].
Proof. split; vm_compute; reflexivity. Qed.

(* reading: at most n - 1 characters go into the first of the n places, followed by the terminator; the rest of the buffer is kept, and so is the rest of the input *)
Theorem C91_get_fills_the_buffer_and_terminates_it : forall input buf n, (1 <= n <= length buf)%nat -> exists got rest,
  get input buf n = Some (got ++ 0 :: skipn (S (length got)) buf, rest) /\ input = got ++ rest /\ (length got <= n - 1)%nat /\ (rest <> [] -> length got = (n - 1)%nat).
Proof.
  intros input buf n Hn. exists (firstn (n - 1) input), (skipn (n - 1) input). split; [|split; [|split]].
  - destruct n as [|n]; [lia|]. replace (S n - 1)%nat with n by lia. exact (get_loop_spec n input [] buf 0 eq_refl ltac:(lia)).
  - symmetry. apply firstn_skipn.
  - apply firstn_le_length.
  - intro H. rewrite firstn_length. apply Nat.min_l. destruct (Nat.le_gt_cases (n - 1) (length input)) as [L|L]; [exact L|]. elim H. apply skipn_all2. lia.
Qed.
Example C91_get_case : get [1; 2; 3; 4] [9; 9; 9; 9; 9] 3 = Some ([1; 2; 0; 9; 9], [3; 4]) /\ get [1] [9; 9; 9; 9; 9] 3 = Some ([1; 0; 9; 9; 9], []) /\ get [1] [9] 0 = Some ([9], [1]).
Proof. split; [|split]; reflexivity. Qed.

Print Assumptions C91_sequences_are_written_as_the_text_of_their_things.
Print Assumptions C91_a_numeral_of_given_length_is_unique.
Print Assumptions C91_function_pointers_are_written_refuted.
Print Assumptions C91_function_pointers_are_undetected.
Print Assumptions C91_blocking_devices_lose_nothing.
Print Assumptions C91_blocking_devices_get_nothing_else.
Print Assumptions C91_blocking_on_a_dead_device_hangs.
Print Assumptions C91_discarding_devices_lose_what_they_refuse.
Print Assumptions C91_get_fills_the_buffer_and_terminates_it.
