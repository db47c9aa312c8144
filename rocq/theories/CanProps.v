(* C49, C50, C63, C64: CAN messages and the Lawicel text format *)
From Verif Require Import Base SliceLemmas CrcSpec CanModel CanSpec CanProofs.

Definition ex_ext : can_msg := mkCan 0x1ABCDEF3 false false false true 3 3 [0x7E; 0x0A; 0xF0; 4; 5; 6; 7; 8].
Definition ex_std : can_msg := mkCan 0x5A7 false false true false 8 8 [1; 2; 3; 4; 5; 6; 7; 8].
Definition ex_blank : can_msg := mkCan 77 true true false false 9 9 [255; 255; 255; 255; 255; 255; 255; 255].

(* ------------------------------------------------------------------------------------------------------------------------- *)
(* C49, round trip: every CAN 2.0 message (11 or 29 bit identifier, up to 8 bytes, with or without remote request) is written into any buffer of at
   least 27 characters without touching anything else, as a text of the format, and read back into any message object as it was. *)
Theorem C49_round_trip m out m0 : can20 m -> 27 <= zlen out -> 8 <= zlen (c_data m0) ->
  exists s tail m', convertToString m out = Some (s ++ 0 :: tail) /\ zlen (s ++ 0 :: tail) = zlen out /\ c_string s /\ kind_ok s /\
    lawicel s (c_ext m) (c_rtr m) (c_id m) (c_len m) (if c_rtr m then [] else firstn (Z.to_nat (c_len m)) (c_data m)) /\
    convertToCanMessage s m0 = Some (true, m') /\
    c_id m' = c_id m /\ c_ext m' = c_ext m /\ c_rtr m' = c_rtr m /\ c_len m' = c_len m /\ c_dlc m' = c_len m /\
    (c_rtr m = false -> firstn (Z.to_nat (c_len m)) (c_data m') = firstn (Z.to_nat (c_len m)) (c_data m)).
Proof.
  intros V O D. destruct (to_string_ok m out V O) as (s & tail & E & L & S & K & W).
  assert (Forall (fun c => 0 <= c < 256) s) as B by (eapply Forall_impl; [|exact S]; cbn; intros; lia).
  destruct (convert_spec s m0 D B) as (b & m' & E' & I & Q). apply Q in W as W'. destruct W' as (-> & A1 & A2 & A3 & A4 & A5).
  exists s, tail, m'. destruct (I eq_refl) as (I1 & _). do 6 (split; [assumption || reflexivity|]). split; [exact A3|]. split; [exact A1|]. split; [exact A2|]. split; [exact A4|]. split; [congruence|].
  intro R. rewrite R in A5. symmetry. exact A5.
Qed.
Example C49_round_trip_example : can20 ex_ext /\ can20 ex_std /\
  convertToString ex_ext (repeat 33 27) = Some ([84; 49; 65; 66; 67; 68; 69; 70; 51; 51; 55; 69; 48; 65; 70; 48] ++ 0 :: repeat 33 10) /\
  convertToCanMessage [84; 49; 65; 66; 67; 68; 69; 70; 51; 51; 55; 69; 48; 65; 70; 48] ex_blank =
    Some (true, mkCan 0x1ABCDEF3 true true false true 3 3 [0x7E; 0x0A; 0xF0; 255; 255; 255; 255; 255]) /\
  convertToString ex_std (repeat 33 27) = Some ([114; 53; 65; 55; 56] ++ 0 :: repeat 33 21).
Proof.
  assert (forall l, forallb (fun b => (0 <=? b) && (b <? 256)) l = true -> Forall byte l) as B.
  { intros l H. rewrite forallb_forall in H. apply Forall_forall. intros x I. specialize (H x I). unfold byte. lia. }
  split; [split; [cbn; lia|]; split; [cbn; lia|]; split; [cbn; lia|]; apply B; reflexivity|].
  split; [split; [cbn; lia|]; split; [cbn; lia|]; split; [cbn; lia|]; apply B; reflexivity|].
  split; [vm_compute; reflexivity|]. split; [vm_compute; reflexivity|]. vm_compute. reflexivity.
Qed.
Print Assumptions C49_round_trip.

(* Reading any C string: nothing beyond the terminator is read (the result is never None), and the text is accepted exactly if it has the form of the format, except
   that any first character other than T, r and R is taken for t. What is accepted determines all fields. Texts starting with the right letter: kind_ok. *)
Theorem C49_accepts_partial s m : c_string s -> 8 <= zlen (c_data m) ->
  exists b m', convertToCanMessage s m = Some (b, m') /\
    (b = true -> c_dlc m' = c_len m' /\ zlen (c_data m') = zlen (c_data m) /\ (c_rtr m' = true -> c_data m' = c_data m)) /\
    forall ext rtr id len data, lawicel s ext rtr id len data <->
      b = true /\ c_ext m' = ext /\ c_rtr m' = rtr /\ c_id m' = id /\ c_len m' = len /\
      data = (if rtr then [] else firstn (Z.to_nat len) (c_data m')).
Proof. intros S D. apply convert_spec; [exact D|]. eapply Forall_impl; [|exact S]. cbn. intros. lia. Qed.
Example C49_accepts_example :
  let ok s := option_map fst (convertToCanMessage s ex_blank) in
  lawicel [114; 53; 97; 70; 56] false true 0x5AF 8 [] /\
  ok [114; 53; 97; 70; 56] = Some true /\ ok [114; 57; 97; 70; 56] = Some false /\ ok [114; 53; 97; 71; 56] = Some false /\
  ok [116; 53; 97; 70; 49] = Some false /\ ok [116; 53; 97; 70; 57] = Some false /\ ok [] = Some false /\ ok [84; 53] = Some false.
Proof.
  split. { exists 114, [53; 97; 70], []. split; [reflexivity|]. split; [reflexivity|]. split; [reflexivity|]. split; [reflexivity|]. split; [reflexivity|].
    split; [cbn; lia|]. split; [lia|]. split; reflexivity. }
  split; [vm_compute; reflexivity|]. split; [vm_compute; reflexivity|]. split; [vm_compute; reflexivity|]. split; [vm_compute; reflexivity|].
  split; [vm_compute; reflexivity|]. split; vm_compute; reflexivity.
Qed.
Print Assumptions C49_accepts_partial.

(* So texts outside the format are accepted: x1230. *)
Theorem C49_accepts_refuted : exists s m', c_string s /\ ~ kind_ok s /\ convertToCanMessage s ex_blank = Some (true, m').
Proof.
  exists [120; 49; 50; 51; 48]. eexists. split; [repeat constructor|]. split; [|vm_compute; reflexivity].
  intros (k & r & E & I). injection E as <- _. cbn in I. lia.
Qed.
Print Assumptions C49_accepts_refuted.

(* ------------------------------------------------------------------------------------------------------------------------- *)
(* C50: for every buffer size and every requested length, the constructor and setLength store the smallest CAN length that holds the request
   (clipped to the buffer), with the matching data length code, within the buffer; longer than 8 bytes sets the FD flag; nothing else changes. *)
Theorem C50_setLength capacity m n : can_capacity capacity -> zlen (c_data m) = capacity -> 0 <= n < 256 ->
  exists m', can_setLength capacity m n = Some m' /\ consistent capacity m' /\ fits (Z.min n capacity) (c_len m') /\
    c_id m' = c_id m /\ c_rtr m' = c_rtr m /\ c_ext m' = c_ext m /\ c_brs m' = c_brs m /\ c_data m' = c_data m /\
    c_fd m' = (c_fd m || (8 <? c_len m')).
Proof. apply setLength_ok. Qed.
Example C50_setLength_example : can_setLength 64 (mkCan 5 false false false true 0 0 (repeat 7 64)) 33 = Some (mkCan 5 true false false true 14 48 (repeat 7 64)) /\
  fits 33 48 /\ can_setLength 8 ex_std 200 = Some ex_std.
Proof.
  split; [vm_compute; reflexivity|]. split; [|vm_compute; reflexivity]. apply fitsb_ok. reflexivity.
Qed.
Print Assumptions C50_setLength.

Theorem C50_constructor capacity id n : can_capacity capacity -> 0 <= n < 256 ->
  exists m, can_new capacity id n = Some m /\ consistent capacity m /\ fits (Z.min n capacity) (c_len m) /\
    c_id m = id /\ c_rtr m = false /\ c_ext m = true /\ c_brs m = false /\ c_data m = repeat 0 (Z.to_nat capacity) /\ c_fd m = (8 <? c_len m).
Proof. apply new_ok. Qed.
Example C50_constructor_example : can_new 24 9 21 = Some (mkCan 9 true false false true 12 24 (repeat 0 24)).
Proof. vm_compute. reflexivity. Qed.
Print Assumptions C50_constructor.

(* setDataLengthCode with a code of the CAN standard stores the length of that code, clipped to the buffer; from 16 on, which the
   uint8_t parameter permits, it reads outside the table. *)
Theorem C50_setDataLengthCode_partial capacity m d : can_capacity capacity -> zlen (c_data m) = capacity -> 0 <= d < 16 ->
  exists m' t, can_setDataLengthCode capacity m d = Some m' /\ consistent capacity m' /\ znth can_lengths d = Some t /\ c_len m' = Z.min t capacity /\
    c_id m' = c_id m /\ c_rtr m' = c_rtr m /\ c_ext m' = c_ext m /\ c_brs m' = c_brs m /\ c_data m' = c_data m /\
    c_fd m' = (c_fd m || (8 <? c_len m')).
Proof. apply setDlc_ok. Qed.
Example C50_setDataLengthCode_example : option_map (fun m => (c_dlc m, c_len m, c_fd m)) (can_setDataLengthCode 8 ex_std 15) = Some (8, 8, false) /\
  option_map (fun m => (c_dlc m, c_len m, c_fd m)) (can_setDataLengthCode 20 (mkCan 1 false false false true 0 0 (repeat 0 20)) 10) = Some (10, 16, true).
Proof. split; vm_compute; reflexivity. Qed.
Print Assumptions C50_setDataLengthCode_partial.

Theorem C50_large_code_undefined capacity m d : 16 <= d < 256 -> can_setDataLengthCode capacity m d = None.
Proof.
  intro R. unfold can_setDataLengthCode. cbn [dlc_down]. assert (znth dlcConversionTable d = None) as ->; [|reflexivity].
  apply znth_None. right. change (zlen dlcConversionTable) with 16. lia.
Qed.
Example C50_large_code_example : can_setDataLengthCode 64 ex_std 200 = None.
Proof. vm_compute. reflexivity. Qed.
Print Assumptions C50_large_code_undefined.

(* ------------------------------------------------------------------------------------------------------------------------- *)
(* C63: from a 64 bit value: big-endian, the rest of the buffer zero *)
Theorem C63_from_value capacity id n x ext : can_capacity capacity -> 0 <= n < 256 -> 0 <= x < 2 ^ 64 ->
  exists m, can_new64 capacity id n x ext = Some m /\ consistent capacity m /\ c_len m = Z.min n 8 /\ c_id m = id /\ c_ext m = ext /\ c_rtr m = false /\ c_fd m = false /\
    forall k, 0 <= k < capacity -> znth (c_data m) k = Some (if k <? c_len m then x / 256 ^ (c_len m - 1 - k) mod 256 else 0).
Proof.
  intros C N X. pose proof (cap_pos capacity C). unfold can_new64. destruct (new_ok capacity id (Z.min n 8) C ltac:(lia)) as (m & -> & (K1 & K2 & K3) & F & Ei & Er & Ee & Eb & Ed & Ef). cbn [obind].
  assert (c_len m = Z.min n 8) as L.
  { replace (Z.min (Z.min n 8) capacity) with (Z.min n 8) in F by lia. apply fits_exact; [unfold can_lengths; cbv [In]; lia|exact F]. }
  destruct (copy64_ok (Z.to_nat (c_len m)) 0 m x (c_data m)) as (d & -> & Ld & G); [lia|lia|lia|]. cbn [obind].
  eexists. split; [reflexivity|]. cbn [c_len c_id c_ext c_rtr c_fd c_data]. split; [unfold consistent; cbn [c_dlc c_len c_data]; split; [exact K1|split; lia]|].
  split; [exact L|]. split; [exact Ei|]. split; [reflexivity|]. split; [exact Er|]. split; [rewrite Ef, L; lia|].
  intros k R. rewrite G, Ed. destruct (k <? c_len m) eqn:E.
  - assert ((0 <=? k) && true = true) as -> by lia. reflexivity.
  - rewrite andb_false_r. unfold znth. destruct (k <? 0) eqn:E0; [lia|]. apply nth_error_repeat. lia.
Qed.
Example C63_from_value_example : can_new64 12 3 5 0x1122334455667788 false = Some (mkCan 3 false false false false 5 5 [0x44; 0x55; 0x66; 0x77; 0x88; 0; 0; 0; 0; 0; 0; 0]).
Proof. vm_compute. reflexivity. Qed.
Print Assumptions C63_from_value.

(* From an array, if the length is a CAN length (or the array has at least as many bytes as the next one): the bytes of the array, zeros behind them *)
Theorem C63_from_array_partial capacity id n src ext : can_capacity capacity -> 0 <= n < 256 -> 
  (forall l, fits (Z.min n capacity) l -> l <= zlen src) ->
  exists m, can_new_ptr capacity id n src ext = Some m /\ consistent capacity m /\ fits (Z.min n capacity) (c_len m) /\ c_id m = id /\ c_ext m = ext /\ c_rtr m = false /\
    forall k, 0 <= k < capacity -> znth (c_data m) k = if k <? c_len m then znth src k else Some 0.
Proof.
  intros C N A. pose proof (cap_pos capacity C). unfold can_new_ptr. destruct (new_ok capacity id n C N) as (m & -> & (K1 & K2 & K3) & F & Ei & Er & Ee & Eb & Ed & Ef). cbn [obind].
  specialize (A _ F). pose proof (fits_range _ _ F).
  destruct (copy_ok (Z.to_nat (c_len m)) 0 src (c_data m)) as (d & -> & Ld & G); [lia|lia|lia|]. cbn [obind].
  eexists. split; [reflexivity|]. cbn [c_len c_id c_ext c_rtr c_fd c_data]. split; [unfold consistent; cbn [c_dlc c_len c_data]; split; [exact K1|split; lia]|].
  split; [exact F|]. split; [exact Ei|]. split; [reflexivity|]. split; [exact Er|].
  intros k R. rewrite G, Ed. replace (0 + Z.of_nat (Z.to_nat (c_len m))) with (c_len m) by lia. destruct (k <? c_len m) eqn:E.
  - assert ((0 <=? k) && true = true) as -> by lia. reflexivity.
  - rewrite andb_false_r. unfold znth. destruct (k <? 0) eqn:E0; [lia|]. apply nth_error_repeat. lia.
Qed.
Example C63_from_array_example : can_new_ptr 12 3 2 [8; 9] true = Some (mkCan 3 false false false true 2 2 [8; 9; 0; 0; 0; 0; 0; 0; 0; 0; 0; 0]).
Proof. vm_compute. reflexivity. Qed.
Print Assumptions C63_from_array_partial.

(* Otherwise the array is read past its end: for every array of exactly the given number of bytes that is not a CAN length. *)
Theorem C63_from_array_undefined capacity id n src ext : can_capacity capacity -> 0 <= n <= capacity -> ~ In n can_lengths -> zlen src = n ->
  can_new_ptr capacity id n src ext = None.
Proof.
  intros C N I L. pose proof (cap_pos capacity C). unfold can_new_ptr. destruct (new_ok capacity id n C ltac:(lia)) as (m & -> & (K1 & K2 & K3) & F & _). cbn [obind].
  replace (Z.min n capacity) with n in F by lia. destruct F as (F1 & F2 & _). assert (c_len m <> n) by (intros <-; contradiction).
  rewrite copy_short by lia. reflexivity.
Qed.
Example C63_from_array_undefined_example : ~ In 9 can_lengths /\ can_new_ptr 64 3 9 [1; 2; 3; 4; 5; 6; 7; 8; 9] true = None.
Proof. split; [cbn; lia|vm_compute; reflexivity]. Qed.
Print Assumptions C63_from_array_undefined.

(* ------------------------------------------------------------------------------------------------------------------------- *)
(* C64: operator< is a strict weak order on messages with any identifiers *)
Theorem C64_strict_weak_order a b c :
  can_lt a a = false /\ (can_lt a b = true -> can_lt b c = true -> can_lt a c = true) /\
  (can_lt a b = false -> can_lt b a = false -> can_lt b c = false -> can_lt c b = false -> can_lt a c = false /\ can_lt c a = false).
Proof. unfold can_lt. split; [lia|]. split; [lia|]. intros. split; lia. Qed.
Example C64_strict_weak_order_example : can_lt ex_std ex_ext = true /\ can_lt ex_ext ex_std = false /\ can_lt ex_ext (mkCan 0x7FF false false false false 0 0 []) = true.
Proof. split; [vm_compute; reflexivity|]. split; vm_compute; reflexivity. Qed.
Print Assumptions C64_strict_weak_order.

(* With valid identifiers, a < b only if a wins arbitration; and every winner is less, except a standard frame against the extended frame with the
   same base identifier and 18 zero bits. *)
Theorem C64_arbitration_partial a b : valid_id a -> valid_id b ->
  (can_lt a b = true -> wins a b) /\
  (wins a b -> can_lt a b = true \/ c_ext a = false /\ c_ext b = true /\ c_id b = c_id a * 2 ^ 18).
Proof.
  unfold valid_id, can_lt, wins, base_id, u32. intros A B. rewrite !Z.shiftl_mul_pow2 by (destruct (c_ext a), (c_ext b); lia).
  change (2 ^ 18) with 262144. change (2 ^ 29) with 536870912 in *. change (2 ^ 11) with 2048 in *.
  destruct (c_ext a), (c_ext b); cbn beta iota in *; change (2 ^ 0) with 1; change (2 ^ 18) with 262144; split; lia.
Qed.
Example C64_arbitration_example : valid_id ex_ext /\ valid_id ex_std /\ wins ex_std ex_ext.
Proof. split; [vm_compute; split; congruence|]. split; [vm_compute; split; congruence|]. left. vm_compute. reflexivity. Qed.
Print Assumptions C64_arbitration_partial.

Theorem C64_arbitration_refuted : exists a b, valid_id a /\ valid_id b /\ wins a b /\ can_lt a b = false.
Proof.
  exists (mkCan 1 false false false false 0 0 []), (mkCan (2 ^ 18) false false false true 0 0 []).
  split; [vm_compute; split; congruence|]. split; [vm_compute; split; congruence|]. split; [|vm_compute; reflexivity]. right. split; [reflexivity|exact I].
Qed.
Print Assumptions C64_arbitration_refuted.
