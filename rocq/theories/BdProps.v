(* C58: block devices read back what was written and reject invalid ranges *)
From Verif Require Import Base SliceLemmas CrcSpec BdModel BdSpec BdProofs.

(* BdHeap: a legal request is served, the range then holds the data, every other byte is as before, and reading returns the data *)
Theorem C58_heap N d buf a n : N < 2 ^ 32 -> zlen d = N -> legal N 1 a n -> n <= zlen buf ->
  exists d', bh_write N d buf a n = Some (true, d') /\ bh_program N d buf a n = Some (true, d') /\ zlen d' = N /\
    becomes N (at_ d) (at_ d') a n (fun i => at_ buf (i - a)) /\ bh_read N d' a n = Some (true, firstn (Z.to_nat n) buf).
Proof.
  intros HN L Q HB. destruct (heap_write N d buf a n L Q HN HB) as (d' & E & L' & B). exists d'. split; [exact E|].
  destruct (heap_program N d buf a n L Q HN HB) as (d2 & E2 & _ & _). assert (d2 = d').
  { unfold bh_write, bh_erase in E. destruct (bh_refuse N a n); [discriminate|]. cbn [obind] in E. rewrite E2 in E. congruence. } subst d2.
  split; [exact E2|]. split; [exact L'|]. split; [exact B|].
  destruct (heap_read N d' a n L' Q HN) as (v & Ev & Sh). rewrite Ev. f_equal. f_equal. unfold legal in Q.
  apply (shows_firstn v (at_ d') buf a n); [lia|exact Sh|]. intros j Hj. rewrite B by lia. replace ((a <=? a + j) && (a + j <? a + n)) with true by lia. f_equal. lia.
Qed.
Example C58_heap_example : bh_write 8 [1; 2; 3; 4; 5; 6; 7; 8] [50; 60; 70] 5 3 = Some (true, [1; 2; 3; 4; 5; 50; 60; 70]) /\
  bh_read 8 [1; 2; 3; 4; 5; 50; 60; 70] 4 4 = Some (true, [5; 50; 60; 70]).
Proof. split; vm_compute; reflexivity. Qed.

(* BdHeap: an empty request or one beyond the end is refused, and nothing changes *)
Theorem C58_heap_refuses N d buf a n : no_wrap a n -> ~ legal N 1 a n ->
  bh_read N d a n = Some (false, []) /\ bh_program N d buf a n = Some (false, d) /\ bh_erase N d a n = Some (false, d) /\ bh_write N d buf a n = Some (false, d).
Proof. apply heap_refuse. Qed.
Example C58_heap_refuses_example : no_wrap 5 4 /\ ~ legal 8 1 5 4 /\ bh_write 8 [1; 2; 3; 4; 5; 6; 7; 8] [50; 60; 70; 80] 5 4 = Some (false, [1; 2; 3; 4; 5; 6; 7; 8]).
Proof. split; [unfold no_wrap; lia|]. split; [unfold legal; lia|]. vm_compute. reflexivity. Qed.

(* BdHeap: address + size is computed with 32 bits. A request that ends behind 2^32 passes the check if the remainder is small enough, and
   accesses memory outside the array *)
Theorem C58_heap_wrap_undefined N d buf a n : zlen d = N -> 0 <= a < 2 ^ 32 -> 0 < n < 2 ^ 32 -> 2 ^ 32 <= a + n -> a + n - 2 ^ 32 <= N -> N < 2 ^ 32 -> n <= zlen buf ->
  bh_read N d a n = None /\ bh_program N d buf a n = None /\ bh_write N d buf a n = None.
Proof. apply heap_wrap. Qed.
Example C58_heap_wrap_undefined_example : bh_program 8 [1; 2; 3; 4; 5; 6; 7; 8] [50; 60; 70; 80] 4294967294 4 = None.
Proof. apply (C58_heap_wrap_undefined 8 [1; 2; 3; 4; 5; 6; 7; 8] [50; 60; 70; 80] 4294967294 4); [reflexivity|lia|lia|lia|lia|lia|]. change (4 <= 4). lia. Qed.

(* BdMirror of two heaps, the second one not smaller: after a legal write both copies hold the data and nothing else has changed; reading returns it *)
Theorem C58_mirror_partial NA NB da db buf a n : NA <= NB -> NB < 2 ^ 32 -> zlen da = NA -> zlen db = NB -> legal NA 1 a n -> n <= zlen buf ->
  exists da' db', bm_write (bd_heap NA) (bd_heap NB) (da, db) buf a n = Some (true, (da', db')) /\
    bm_program (bd_heap NA) (bd_heap NB) (da, db) buf a n = Some (true, (da', db')) /\
    becomes NA (at_ da) (at_ da') a n (fun i => at_ buf (i - a)) /\ becomes NB (at_ db) (at_ db') a n (fun i => at_ buf (i - a)) /\
    bm_read (bd_heap NA) (bd_heap NB) (da', db') a n = Some (true, firstn (Z.to_nat n) buf).
Proof.
  intros H1 H2 L1 L2 Q HB. destruct (C58_heap NA da buf a n ltac:(lia) L1 Q HB) as (da' & A1 & A2 & _ & A3 & A4).
  assert (Q2 : legal NB 1 a n) by (unfold legal in *; lia).
  destruct (C58_heap NB db buf a n H2 L2 Q2 HB) as (db' & B1 & B2 & _ & B3 & _). exists da', db'.
  destruct Q as (Q1 & _). unfold bm_write, bm_program, bm_read, bd_heap. cbn [bd_esize bd_wsize bd_write bd_program bd_read fst snd Z.max Z.compare Pos.compare Pos.compare_cont].
  rewrite Z.mod_1_r. replace (n =? 0) with false by lia. cbn [orb negb Z.eqb]. rewrite A1, B1, A2, B2. auto.
Qed.
Example C58_mirror_partial_example : bm_write (bd_heap 4) (bd_heap 6) ([1; 2; 3; 4], [1; 2; 3; 4; 5; 6]) [90; 91] 2 2 = Some (true, ([1; 2; 90; 91], [1; 2; 90; 91; 5; 6])).
Proof. vm_compute. reflexivity. Qed.

(* BdMirror: whatever the devices are, success means that the first one has succeeded; for heaps of the same size illegal requests change nothing *)
Theorem C58_mirror_first SA SB (A : bdev SA) (B : bdev SB) s buf a n s' : bm_write A B s buf a n = Some (true, s') -> bd_write A (fst s) buf a n = Some (true, fst s').
Proof.
  unfold bm_write. destruct ((n =? 0) || negb (n mod Z.max (bd_esize A) (bd_esize B) =? 0) || negb (n mod Z.max (bd_wsize A) (bd_wsize B) =? 0)); [discriminate|].
  unfold bm_both. destruct (bd_write A (fst s) buf a n) as [[ra sa]|]; [|discriminate]. cbn [obind].
  destruct (bd_write B (snd s) buf a n) as [[rb sb]|]; [|discriminate]. cbn [obind]. intro H. injection H as H1 H2. subst s'. cbn [fst]. destruct ra; [reflexivity|discriminate].
Qed.
Example C58_mirror_first_example : bm_write (bd_heap 2) (bd_heap 2) ([1; 2], [3; 4]) [7] 1 1 = Some (true, ([1; 7], [3; 7])) /\ bh_write 2 [1; 2] [7] 1 1 = Some (true, [1; 7]).
Proof. split; vm_compute; reflexivity. Qed.
Theorem C58_mirror_refuses N da db buf a n : no_wrap a n -> ~ legal N 1 a n ->
  bm_write (bd_heap N) (bd_heap N) (da, db) buf a n = Some (false, (da, db)) /\ bm_program (bd_heap N) (bd_heap N) (da, db) buf a n = Some (false, (da, db)) /\
  bm_erase (bd_heap N) (bd_heap N) (da, db) a n = Some (false, (da, db)) /\ bm_read (bd_heap N) (bd_heap N) (da, db) a n = Some (false, []).
Proof.
  intros W Q. destruct (heap_refuse N da buf a n W Q) as (A1 & A2 & A3 & A4). destruct (heap_refuse N db buf a n W Q) as (_ & B2 & B3 & B4).
  unfold bm_write, bm_program, bm_erase, bm_read, bd_heap. cbn [bd_esize bd_wsize bd_write bd_program bd_erase bd_read fst snd]. rewrite A1, A2, A3, A4, B2, B3, B4.
  destruct ((n =? 0) || negb (n mod Z.max 1 1 =? 0)); cbn [orb]; [auto|]. destruct (negb (n mod Z.max 1 1 =? 0)); auto.
Qed.
Example C58_mirror_refuses_example : no_wrap 1 2 /\ ~ legal 2 1 1 2 /\ bm_write (bd_heap 2) (bd_heap 2) ([1; 2], [3; 4]) [7; 8] 1 2 = Some (false, ([1; 2], [3; 4])).
Proof. split; [unfold no_wrap; lia|]. split; [unfold legal; lia|]. vm_compute. reflexivity. Qed.

(* BdMirror tests resultA twice: with a smaller second device a write is reported as successful although the second copy has been refused,
   and with a larger one a write is reported as refused although the second copy has been changed *)
Theorem C58_mirror_refuted : exists NA NB da db buf a n,
  zlen da = NA /\ zlen db = NB /\ no_wrap a n /\
  bh_write NB db buf a n = Some (false, db) /\
  exists da', bm_write (bd_heap NA) (bd_heap NB) (da, db) buf a n = Some (true, (da', db)) /\ da' <> da.
Proof.
  exists 4, 2, [1; 2; 3; 4], [1; 2], [9], 3, 1. split; [reflexivity|]. split; [reflexivity|]. split; [unfold no_wrap; lia|]. split; [reflexivity|].
  exists [1; 2; 3; 9]. split; [reflexivity|discriminate].
Qed.
Theorem C58_mirror_refusal_refuted : exists NA NB da db buf a n db',
  zlen da = NA /\ zlen db = NB /\ no_wrap a n /\ bm_write (bd_heap NA) (bd_heap NB) (da, db) buf a n = Some (false, (da, db')) /\ db' <> db.
Proof.
  exists 2, 4, [1; 2], [1; 2; 3; 4], [9], 3, 1, [1; 2; 3; 9]. split; [reflexivity|]. split; [reflexivity|]. split; [unfold no_wrap; lia|]. split; [reflexivity|discriminate].
Qed.

(* a package of two dies of 8 KiB: die 0 holds zeros, die 1 fives; die 0 is selected and still busy; later operations take 0, 1, 2, ... status reads *)
Definition c58_die (v : Z) (b : nat) : die := mkDie (repeat v (Z.to_nat 8192)) false false b.
Definition c58_chip : chip := mkChip [c58_die 0 2; c58_die 5 0] 0 false [0; 1; 2; 3; 4]%nat true.
Lemma c58_die_ok v b : byte v -> die_ok 8192 (c58_die v b).
Proof. intro H. unfold die_ok, c58_die. cbn [d_mem d_adr4]. split; [rewrite zlen_repeat; lia|]. split; [|reflexivity]. apply Forall_forall. intros x Hx. apply repeat_spec in Hx. subst. exact H. Qed.
Lemma c58_die_ready v b : byte v -> ready 8192 (c58_die v b).
Proof. intro H. destruct (c58_die_ok v b H) as (A & B & C). split; [exact A|]. split; [exact B|]. reflexivity. Qed.
Lemma c58_size : flash_size 8192.
Proof. unfold flash_size. split; [lia|reflexivity]. Qed.
Lemma c58_bytes v n : byte v -> Forall byte (repeat v n).
Proof. intro H. apply Forall_forall. intros x Hx. apply repeat_spec in Hx. subst. exact H. Qed.

(* BdSpiFlash, on the chip modelled in BdModel.v, however long its operations take: initialize() prepares the die without changing its contents *)
Theorem C58_flash_initialize F c d : flash_size F -> selected c d -> d_busy d = 0%nat -> zlen (d_mem d) = F -> Forall byte (d_mem d) ->
  exists c' d', fl_initialize F c = Some (true, c') /\ only_selected c c' /\ selected c' d' /\ ready F d' /\ d_mem d' = d_mem d.
Proof. apply flash_init. Qed.
Example C58_flash_initialize_example : flash_size 8192 /\ selected (mkChip [c58_die 3 0] 0 false [4]%nat true) (c58_die 3 0) /\ zlen (d_mem (c58_die 3 0)) = 8192 /\
  Forall byte (d_mem (c58_die 3 0)).
Proof. split; [apply c58_size|]. split; [reflexivity|]. split; [unfold c58_die; cbn [d_mem]; rewrite zlen_repeat; lia|]. apply c58_bytes. unfold byte. lia. Qed.

(* reading returns the contents of the range and changes nothing *)
Theorem C58_flash_read F c d a n : flash_size F -> selected c d -> ready F d -> legal F 1 a n ->
  exists v c' d', fl_read F c a n = Some (true, v, c') /\ shows v (at_ (d_mem d)) a n /\ only_selected c c' /\ selected c' d' /\ ready F d' /\ d_mem d' = d_mem d.
Proof. apply flash_read. Qed.
Example C58_flash_read_example : flash_size 8192 /\ selected c58_chip (c58_die 0 2) /\ ready 8192 (c58_die 0 2) /\ legal 8192 1 8190 2.
Proof. split; [apply c58_size|]. split; [reflexivity|]. split; [apply c58_die_ready; unfold byte; lia|]. unfold legal. lia. Qed.

(* programming whole aligned pages: each byte becomes the conjunction of the old byte and the data *)
Theorem C58_flash_program F c d buf a n : flash_size F -> selected c d -> ready F d -> legal F 256 a n -> a mod 256 = 0 -> n <= zlen buf -> Forall byte buf ->
  exists c' d', fl_program F c buf a n = Some (true, c') /\ only_selected c c' /\ selected c' d' /\ ready F d' /\ d_wel d' = false /\
    becomes F (at_ (d_mem d)) (at_ (d_mem d')) a n (fun i => Z.land (at_ (d_mem d) i) (at_ buf (i - a))).
Proof. apply flash_program. Qed.
Example C58_flash_program_example : flash_size 8192 /\ selected c58_chip (c58_die 0 2) /\ ready 8192 (c58_die 0 2) /\ legal 8192 256 7680 512 /\ 7680 mod 256 = 0 /\
  512 <= zlen (repeat 77 (Z.to_nat 512)) /\ Forall byte (repeat 77 (Z.to_nat 512)).
Proof.
  split; [apply c58_size|]. split; [reflexivity|]. split; [apply c58_die_ready; unfold byte; lia|]. split; [unfold legal; lia|]. split; [reflexivity|].
  split; [rewrite zlen_repeat; lia|]. apply c58_bytes. unfold byte. lia.
Qed.

(* erasing whole aligned sectors, but not the whole chip *)
Theorem C58_flash_erase_partial F c d a n : flash_size F -> selected c d -> ready F d -> legal F 4096 a n -> a mod 4096 = 0 -> n <> F ->
  exists c' d', fl_erase F c a n = Some (true, c') /\ only_selected c c' /\ selected c' d' /\ ready F d' /\ d_wel d' = false /\
    becomes F (at_ (d_mem d)) (at_ (d_mem d')) a n (fun _ => 255).
Proof. apply flash_erase. Qed.
Example C58_flash_erase_partial_example : flash_size 8192 /\ selected c58_chip (c58_die 0 2) /\ ready 8192 (c58_die 0 2) /\ legal 8192 4096 4096 4096 /\ 4096 mod 4096 = 0 /\ 4096 <> 8192.
Proof. split; [apply c58_size|]. split; [reflexivity|]. split; [apply c58_die_ready; unfold byte; lia|]. split; [unfold legal; lia|]. split; [reflexivity|lia]. Qed.

(* writing whole aligned sectors, but not the whole chip: the range holds the data, everything else is as before, and reading returns the data *)
Theorem C58_flash_write_partial F c d buf a n : flash_size F -> selected c d -> ready F d -> legal F 4096 a n -> a mod 4096 = 0 -> n <> F -> n <= zlen buf -> Forall byte buf ->
  exists c' d', fl_write F c buf a n = Some (true, c') /\ only_selected c c' /\ selected c' d' /\ ready F d' /\
    becomes F (at_ (d_mem d)) (at_ (d_mem d')) a n (fun i => at_ buf (i - a)) /\
    exists c'', fl_read F c' a n = Some (true, firstn (Z.to_nat n) buf, c'').
Proof. apply flash_write. Qed.
Example C58_flash_write_partial_example : flash_size 8192 /\ selected c58_chip (c58_die 0 2) /\ ready 8192 (c58_die 0 2) /\ legal 8192 4096 4096 4096 /\ 4096 mod 4096 = 0 /\ 4096 <> 8192 /\
  4096 <= zlen (repeat 77 (Z.to_nat 4096)) /\ Forall byte (repeat 77 (Z.to_nat 4096)).
Proof.
  split; [apply c58_size|]. split; [reflexivity|]. split; [apply c58_die_ready; unfold byte; lia|]. split; [unfold legal; lia|]. split; [reflexivity|]. split; [lia|].
  split; [rewrite zlen_repeat; lia|]. apply c58_bytes. unfold byte. lia.
Qed.

(* illegal sizes and requests beyond the end are refused without sending anything *)
Theorem C58_flash_refuses F c buf a n : no_wrap a n ->
  (~ legal F 1 a n -> fl_read F c a n = Some (false, [], c)) /\
  (~ legal F 256 a n -> fl_program F c buf a n = Some (false, c)) /\
  (~ legal F 4096 a n -> fl_erase F c a n = Some (false, c) /\ fl_write F c buf a n = Some (false, c)).
Proof. apply flash_refuse. Qed.
Example C58_flash_refuses_example : no_wrap 8000 512 /\ ~ legal 8192 1 8000 512 /\ no_wrap 0 100 /\ ~ legal 8192 256 0 100 /\ no_wrap 0 512 /\ ~ legal 8192 4096 0 512.
Proof. unfold no_wrap, legal. repeat split; lia. Qed.

(* erasing the whole chip sends the instruction without the write enable before it: after any completed program or erase operation the chip ignores
   it, erase() returns true and nothing is erased. A write() of the whole chip then leaves the conjunction of the old contents and the data *)
Theorem C58_flash_chip_erase_ignored F c d : flash_size F -> selected c d -> d_wel d = false ->
  exists c' d', fl_erase F c 0 F = Some (true, c') /\ only_selected c c' /\ selected c' d' /\ d_mem d' = d_mem d /\ d_wel d' = false.
Proof. apply flash_chip_erase. Qed.
Theorem C58_flash_chip_write F c d buf : flash_size F -> selected c d -> ready F d -> d_wel d = false -> F <= zlen buf -> Forall byte buf ->
  exists c' d', fl_write F c buf 0 F = Some (true, c') /\ selected c' d' /\ forall i, 0 <= i < F -> at_ (d_mem d') i = Z.land (at_ (d_mem d) i) (at_ buf i).
Proof. apply flash_whole_write. Qed.
(* the example is the refutation: a chip full of zeros stays so, whatever is written *)
Theorem C58_flash_write_refuted : exists F c d buf c' d', flash_size F /\ selected c d /\ ready F d /\ legal F 4096 0 F /\ F <= zlen buf /\ Forall byte buf /\
  fl_write F c buf 0 F = Some (true, c') /\ selected c' d' /\ at_ (d_mem d') 100 <> at_ buf 100.
Proof.
  assert (R : ready 8192 (c58_die 0 2)) by (apply c58_die_ready; unfold byte; lia).
  assert (L : zlen (repeat 77 (Z.to_nat 8192)) = 8192) by (rewrite zlen_repeat; lia).
  assert (B : Forall byte (repeat 77 (Z.to_nat 8192))) by (apply c58_bytes; unfold byte; lia).
  destruct (flash_whole_write 8192 c58_chip (c58_die 0 2) (repeat 77 (Z.to_nat 8192)) c58_size eq_refl R eq_refl ltac:(lia) B) as (c' & d' & E & S & H).
  exists 8192, c58_chip, (c58_die 0 2), (repeat 77 (Z.to_nat 8192)), c', d'.
  split; [apply c58_size|]. split; [reflexivity|]. split; [exact R|]. split; [unfold legal; lia|]. split; [lia|]. split; [exact B|]. split; [exact E|]. split; [exact S|].
  rewrite H by lia. rewrite at_repeat by lia. unfold c58_die. cbn [d_mem]. rewrite at_repeat by lia. discriminate.
Qed.

(* the addresses are not checked: an unaligned program wraps within the page, an unaligned erase also erases bytes in front of the range and not its end,
   and a sum of address and size beyond 2^32 is accepted *)
Theorem C58_flash_unaligned_refuted : exists F c d buf, flash_size F /\ selected c d /\ ready F d /\ Forall byte buf /\ zlen buf = 256 /\ legal F 256 128 256 /\
  exists c' d', fl_program F c buf 128 256 = Some (true, c') /\ selected c' d' /\ at_ (d_mem d) 0 = 255 /\ at_ (d_mem d') 0 = 77 /\ at_ (d_mem d) 256 = 255 /\ at_ (d_mem d') 256 = 255.
Proof.
  exists 4096, (mkChip [mkDie (repeat 255 (Z.to_nat 4096)) false false 0] 0 false [] true), (mkDie (repeat 255 (Z.to_nat 4096)) false false 0), (repeat 77 (Z.to_nat 256)).
  split; [split; [lia|reflexivity]|]. split; [reflexivity|].
  split. { split; [unfold d_mem; rewrite zlen_repeat; lia|]. split; [apply c58_bytes; unfold byte; lia|reflexivity]. }
  split; [apply c58_bytes; unfold byte; lia|]. split; [rewrite zlen_repeat; lia|]. split; [unfold legal; lia|].
  eexists _, _. split; [vm_compute; reflexivity|]. split; [reflexivity|]. split; [reflexivity|]. split; [reflexivity|]. split; reflexivity.
Qed.
Theorem C58_flash_unaligned_erase_refuted : exists F c d, flash_size F /\ selected c d /\ ready F d /\ legal F 4096 2048 4096 /\
  exists c' d', fl_erase F c 2048 4096 = Some (true, c') /\ selected c' d' /\ at_ (d_mem d) 0 = 0 /\ at_ (d_mem d') 0 = 255 /\ at_ (d_mem d) 5000 = 0 /\ at_ (d_mem d') 5000 = 0.
Proof.
  exists 8192, (mkChip [c58_die 0 0] 0 false [] true), (c58_die 0 0).
  split; [apply c58_size|]. split; [reflexivity|]. split; [apply c58_die_ready; unfold byte; lia|]. split; [unfold legal; lia|].
  eexists _, _. split; [vm_compute; reflexivity|]. split; [reflexivity|]. split; [vm_compute; reflexivity|]. split; [reflexivity|]. split; [vm_compute; reflexivity|vm_compute; reflexivity].
Qed.
Theorem C58_flash_wrap_refuted : exists F c d a n, flash_size F /\ selected c d /\ ready F d /\ 0 <= a < 2 ^ 32 /\ 0 <= n < 2 ^ 32 /\ ~ legal F 1 a n /\
  exists v c', fl_read F c a n = Some (true, v, c').
Proof.
  exists 8192, (mkChip [c58_die 7 0] 0 false [] true), (c58_die 7 0), 4294967292, 8.
  split; [apply c58_size|]. split; [reflexivity|]. split; [apply c58_die_ready; unfold byte; lia|]. split; [lia|]. split; [lia|]. split; [unfold legal; lia|].
  exists [7; 7; 7; 7; 7; 7; 7; 7]. eexists. vm_compute. reflexivity.
Qed.

(* BdSpiStackFlash: initialize() reaches the state the other operations need *)
Theorem C58_stack_initialize F K s d : stack_size F K -> zlen (c_dies (s_chip s)) = K -> Forall (die_ok F) (c_dies (s_chip s)) -> selected (s_chip s) d -> d_busy d = 0%nat ->
  exists s', st_initialize F s = Some (true, s') /\ stack_ok F K s' /\ forall i, stack_at F (s_chip s') i = stack_at F (s_chip s) i.
Proof. apply stack_init. Qed.
Example C58_stack_initialize_example : stack_size 8192 2 /\ Forall (die_ok 8192) [c58_die 0 0; c58_die 5 4] /\ selected (mkChip [c58_die 0 0; c58_die 5 4] 0 false [1; 2; 3]%nat true) (c58_die 0 0).
Proof.
  split; [unfold stack_size; split; [apply c58_size|lia]|]. split; [constructor; [apply c58_die_ok; unfold byte; lia|constructor; [apply c58_die_ok; unfold byte; lia|constructor]]|reflexivity].
Qed.

(* reading, also across dies: address i is byte i mod F of die i / F *)
Theorem C58_stack_read F K s a n : stack_size F K -> stack_ok F K s -> legal (K * F) 1 a n ->
  exists v s', st_read F K s a n = Some (true, v, s') /\ stack_ok F K s' /\ shows v (stack_at F (s_chip s)) a n /\
    forall i, stack_at F (s_chip s') i = stack_at F (s_chip s) i.
Proof. apply stack_read. Qed.
Lemma c58_stack_ok : stack_ok 8192 2 (mkStk 0 c58_chip).
Proof.
  unfold stack_ok. cbn [s_chip s_cur]. split; [reflexivity|]. split; [constructor; [apply c58_die_ok; unfold byte; lia|constructor; [apply c58_die_ok; unfold byte; lia|constructor]]|].
  split; [reflexivity|]. exists (c58_die 0 2). split; [reflexivity|]. apply c58_die_ready. unfold byte. lia.
Qed.
Example C58_stack_read_example : stack_size 8192 2 /\ stack_ok 8192 2 (mkStk 0 c58_chip) /\ legal (2 * 8192) 1 8190 4 /\
  exists s', st_read 8192 2 (mkStk 0 c58_chip) 8190 4 = Some (true, [0; 0; 5; 5], s').
Proof.
  split; [unfold stack_size; split; [apply c58_size|lia]|]. split; [apply c58_stack_ok|]. split; [unfold legal; lia|]. eexists. vm_compute. reflexivity.
Qed.

(* programming whole aligned pages *)
Theorem C58_stack_program F K s buf a n : stack_size F K -> stack_ok F K s -> legal (K * F) 256 a n -> a mod 256 = 0 -> n <= zlen buf -> Forall byte buf ->
  exists s', st_program F K s buf a n = Some (true, s') /\ stack_ok F K s' /\
    becomes (K * F) (stack_at F (s_chip s)) (stack_at F (s_chip s')) a n (fun i => Z.land (stack_at F (s_chip s) i) (at_ buf (i - a))).
Proof. apply stack_program. Qed.
Example C58_stack_program_example : stack_size 8192 2 /\ stack_ok 8192 2 (mkStk 0 c58_chip) /\ legal (2 * 8192) 256 7936 512 /\ 7936 mod 256 = 0 /\ 512 <= zlen (repeat 77 (Z.to_nat 512)) /\
  Forall byte (repeat 77 (Z.to_nat 512)).
Proof.
  split; [unfold stack_size; split; [apply c58_size|lia]|]. split; [apply c58_stack_ok|]. split; [unfold legal; lia|]. split; [reflexivity|]. split; [rewrite zlen_repeat; lia|].
  apply c58_bytes. unfold byte. lia.
Qed.

(* writing whole aligned sectors, also across dies, as long as no die is covered completely *)
Theorem C58_stack_write_partial F K s buf a n : stack_size F K -> stack_ok F K s -> legal (K * F) 4096 a n -> a mod 4096 = 0 -> ~ covers_die F a n -> n <= zlen buf -> Forall byte buf ->
  exists s', st_write F K s buf a n = Some (true, s') /\ stack_ok F K s' /\
    becomes (K * F) (stack_at F (s_chip s)) (stack_at F (s_chip s')) a n (fun i => at_ buf (i - a)) /\
    exists s'', st_read F K s' a n = Some (true, firstn (Z.to_nat n) buf, s'').
Proof. apply stack_write. Qed.
Example C58_stack_write_partial_example : stack_size 8192 2 /\ stack_ok 8192 2 (mkStk 0 c58_chip) /\ legal (2 * 8192) 4096 4096 8192 /\ 4096 mod 4096 = 0 /\ ~ covers_die 8192 4096 8192 /\
  8192 <= zlen (repeat 77 (Z.to_nat 8192)) /\ Forall byte (repeat 77 (Z.to_nat 8192)).
Proof.
  split; [unfold stack_size; split; [apply c58_size|lia]|]. split; [apply c58_stack_ok|]. split; [unfold legal; lia|]. split; [reflexivity|].
  split; [intros [k Hk]; lia|]. split; [rewrite zlen_repeat; lia|]. apply c58_bytes. unfold byte. lia.
Qed.
Theorem C58_stack_erase_partial F K s a n : stack_size F K -> stack_ok F K s -> legal (K * F) 4096 a n -> a mod 4096 = 0 -> ~ covers_die F a n ->
  exists s', st_erase F K s a n = Some (true, s') /\ stack_ok F K s' /\ becomes (K * F) (stack_at F (s_chip s)) (stack_at F (s_chip s')) a n (fun _ => 255).
Proof. apply stack_erase. Qed.
Example C58_stack_erase_partial_example : stack_size 8192 2 /\ stack_ok 8192 2 (mkStk 0 c58_chip) /\ legal (2 * 8192) 4096 4096 8192 /\ ~ covers_die 8192 4096 8192.
Proof. split; [unfold stack_size; split; [apply c58_size|lia]|]. split; [apply c58_stack_ok|]. split; [unfold legal; lia|]. intros [k Hk]. lia. Qed.

(* a range that covers a whole die runs into the missing write enable *)
Theorem C58_stack_erase_refuted : exists F K s, stack_size F K /\ stack_ok F K s /\ legal (K * F) 4096 0 F /\
  exists s', st_erase F K s 0 F = Some (true, s') /\ stack_at F (s_chip s) 100 = 0 /\ stack_at F (s_chip s') 100 = 0.
Proof.
  exists 8192, 2, (mkStk 0 c58_chip). split; [unfold stack_size; split; [apply c58_size|lia]|]. split; [apply c58_stack_ok|]. split; [unfold legal; lia|].
  eexists. split; [vm_compute; reflexivity|]. split; vm_compute; reflexivity.
Qed.

Theorem C58_stack_refuses F K s buf a n : 0 <= K * F <= 2 ^ 31 -> no_wrap a n ->
  (~ legal (K * F) 1 a n -> st_read F K s a n = Some (false, [], s)) /\
  (~ legal (K * F) 256 a n -> st_program F K s buf a n = Some (false, s)) /\
  (~ legal (K * F) 4096 a n -> st_erase F K s a n = Some (false, s) /\ st_write F K s buf a n = Some (false, s)).
Proof. apply stack_refuse. Qed.
Example C58_stack_refuses_example : no_wrap 16000 512 /\ ~ legal (2 * 8192) 1 16000 512 /\ ~ legal (2 * 8192) 256 0 100 /\ ~ legal (2 * 8192) 4096 0 512.
Proof. unfold no_wrap, legal. repeat split; lia. Qed.

(* isBusy() of an idle stack answers no and keeps the driver's knowledge of the selected die *)
Theorem C58_stack_idle F K s : stack_size F K -> stack_ok F K s -> Forall (fun d => d_busy d = 0%nat) (c_dies (s_chip s)) -> Forall (fun x => x = 0%nat) (c_delays (s_chip s)) ->
  exists s', st_isBusy F K s = Some (false, s') /\ stack_ok F K s' /\ forall i, stack_at F (s_chip s') i = stack_at F (s_chip s) i.
Proof.
  intros ([HF _] & _ & HK & _) (L & A & Cu & d & Sd & R) B D. unfold st_isBusy.
  destruct (busy_loop F ltac:(lia) 257 (s_chip s) d Sd A B D K ltac:(lia) ltac:(lia) ltac:(lia) ltac:(lia)) as (s' & E & Ok & Sa).
  exists s'. rewrite <- L. rewrite <- L in E. auto.
Qed.
Example C58_stack_idle_example : st_isBusy 8192 2 (mkStk 0 (mkChip [c58_die 0 0; c58_die 5 0] 0 false [] true)) =
  Some (false, mkStk 0 (mkChip [c58_die 0 0; c58_die 5 0] 0 false [] true)).
Proof. vm_compute. reflexivity. Qed.
(* if selecting a die has to wait, --currentDie is evaluated again: isBusy() skips die 0 and leaves the driver with a wrong idea of the selected die;
   the next read returns the contents of the other die *)
Theorem C58_stack_busy_refuted : exists F K s s', stack_size F K /\ stack_ok F K s /\ st_isBusy F K s = Some (false, s') /\ s_cur s' <> Z.of_nat (c_sel (s_chip s')) /\
  exists v s'', st_read F K s' 10 1 = Some (true, [v], s'') /\ v <> stack_at F (s_chip s) 10.
Proof.
  exists 8192, 2, (mkStk 1 (mkChip [c58_die 0 0; c58_die 5 1] 1 false [] true)). eexists.
  split; [unfold stack_size; split; [apply c58_size|lia]|].
  split. { unfold stack_ok. cbn [s_chip s_cur]. split; [reflexivity|]. split; [constructor; [apply c58_die_ok; unfold byte; lia|constructor; [apply c58_die_ok; unfold byte; lia|constructor]]|].
    split; [reflexivity|]. exists (c58_die 5 1). split; [reflexivity|]. apply c58_die_ready. unfold byte. lia. }
  split; [vm_compute; reflexivity|]. split; [vm_compute; discriminate|]. eexists _, _. split; [vm_compute; reflexivity|]. vm_compute. discriminate.
Qed.
Print Assumptions C58_heap.
Print Assumptions C58_heap_refuses.
Print Assumptions C58_heap_wrap_undefined.
Print Assumptions C58_mirror_partial.
Print Assumptions C58_mirror_first.
Print Assumptions C58_mirror_refuses.
Print Assumptions C58_mirror_refuted.
Print Assumptions C58_mirror_refusal_refuted.
Print Assumptions C58_flash_initialize.
Print Assumptions C58_flash_read.
Print Assumptions C58_flash_program.
Print Assumptions C58_flash_erase_partial.
Print Assumptions C58_flash_write_partial.
Print Assumptions C58_flash_refuses.
Print Assumptions C58_flash_chip_erase_ignored.
Print Assumptions C58_flash_chip_write.
Print Assumptions C58_flash_write_refuted.
Print Assumptions C58_flash_unaligned_refuted.
Print Assumptions C58_flash_unaligned_erase_refuted.
Print Assumptions C58_flash_wrap_refuted.
Print Assumptions C58_stack_initialize.
Print Assumptions C58_stack_read.
Print Assumptions C58_stack_program.
Print Assumptions C58_stack_write_partial.
Print Assumptions C58_stack_erase_partial.
Print Assumptions C58_stack_erase_refuted.
Print Assumptions C58_stack_refuses.
Print Assumptions C58_stack_idle.
Print Assumptions C58_stack_busy_refuted.
