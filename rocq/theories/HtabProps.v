(* C78 and C79: the heap table and the storage of fault reports. *)
From Verif Require Import Base HtabModel HtabSpec HtabProofs.

(** ** C78: the heap table *)
(* find_largest fails only when no section has any of the traits. Otherwise its result is memory of adjoining sections with some of the
   traits each, at least as long as every single such section. *)
Theorem C78_find_largest_partial table mask : (forall t, In t table -> 0 < start t <= fin t /\ fin t < 2 ^ 32) ->
  (find_largest table 0 mask = (false, 0, 0) /\ forall t, In t table -> ~ has_some t mask) \/
  (exists a b, find_largest table 0 mask = (true, a, b) /\ joined (fun t => has_some t mask) table a b /\ (exists t, In t table /\ has_some t mask) /\
    forall t, In t table -> has_some t mask -> fin t - start t <= b - a).
Proof. intro R. exact (find_largest_ok table mask R). Qed.
Example C78_two_adjoining_sections : find_largest [Ent 9 1000 1100; Ent 31 2000 2080; Ent 31 2080 2200; Ent 4 3000 9000] 0 9 = (true, 2080, 2200) /\
  find_largest [Ent 9 1000 1050; Ent 31 2000 2080; Ent 31 2080 2200; Ent 4 3000 9000] 0 9 = (true, 2000, 2200) /\ find_largest [Ent 4 3000 9000] 0 9 = (false, 0, 0).
Proof. repeat split. Qed.

(* "Find the largest continuous memory section": adjoining sections are added up only when the first of them is the longest so far *)
Theorem C78_largest_continuous_refuted : exists table mask a b a' b', table_ok table /\ find_largest table 0 mask = (true, a, b) /\
  joined (fun t => has_all t mask) table a b /\ joined (fun t => has_all t mask) table a' b' /\ b - a < b' - a'.
Proof.
  set (A := Ent 9 1000 1100). set (B := Ent 9 2000 2080). set (C := Ent 9 2080 2170). exists [A; B; C], 9, 1000, 1100, 2000, 2170.
  assert (HA : forall x, traits x = 9 -> has_all x 9) by (intros x E i I T; rewrite E; exact T).
  split; [|split; [reflexivity|split; [apply (j_one _ [A; B; C] A); [left; reflexivity|apply HA; reflexivity]|split; [|lia]]]].
  - split.
    + intros t [<-|[<-|[<-|[]]]]; cbn; lia.
    + intros i j IJ t u. destruct (Z.to_nat i) as [|[|[|n]]] eqn:E1; destruct (Z.to_nat j) as [|[|[|m]]] eqn:E2; cbn; intros T U; try discriminate;
        try (apply nth_error_In in T; destruct T); try (apply nth_error_In in U; destruct U); try lia; injection T as <-; injection U as <-; cbn; lia.
  - apply (j_more _ [A; B; C] 2000 2080 C); [apply (j_one _ [A; B; C] B); [right; left; reflexivity|apply HA; reflexivity]|right; right; left; reflexivity|apply HA; reflexivity|reflexivity].
Qed.

(* "which satisfies at least the selected memory traits": one of them suffices, although a section with all of them exists *)
Theorem C78_at_least_the_traits_refuted : exists table mask t t', find_largest table 0 mask = (true, start t, fin t) /\ In t table /\ ~ has_all t mask /\
  In t' table /\ has_all t' mask /\ 0 < start t' < fin t' /\ (fin t <= start t' \/ fin t' <= start t).
Proof.
  (* a core coupled memory without DMA and a smaller one with DMA; the default mask asks for S-Bus and DMA *)
  exists [Ent 0x2003 0x10000000 0x10010000; Ent 0x1f 0x20000000 0x20008000], 9, (Ent 0x2003 0x10000000 0x10010000), (Ent 0x1f 0x20000000 0x20008000).
  split; [reflexivity|]. split; [left; reflexivity|]. split; [intro H; specialize (H 3 ltac:(lia) eq_refl); discriminate|]. split; [right; left; reflexivity|].
  split; [|cbn; lia]. intros i I T. cbn [traits]. assert (C : i = 0 \/ i = 3). { 
    destruct (Z.lt_ge_cases i 4) as [L|G]; [assert (D : i = 0 \/ i = 1 \/ i = 2 \/ i = 3) by lia; destruct D as [-> | [-> | [-> | -> ]]]; cbn in T; try discriminate; auto|].
    rewrite (Z.bits_above_log2 9 i ltac:(lia)) in T; [discriminate|]. change (Z.log2 9) with 3. lia. }
  destruct C as [-> | ->]; reflexivity.
Qed.

(* With a fault report in the last section, the loop over the table gives what is left of it. *)
Theorem C78_rest_of_the_last_section table t fault : table_ok (table ++ [t]) -> start t < fault < fin t -> sections (table ++ [t]) fault = [(traits t, fault, fin t, fin t - fault)].
Proof.
  intros [R D] FT. unfold sections, begin. replace (fault =? 0) with false by (destruct (R t); [rewrite in_app_iff; cbn; tauto|lia]).
  assert (E : find_fault (table ++ [t]) fault = Some ([t], fault - start t)).
  { assert (X : forall u, In u table -> fault < start u \/ fin u <= fault).
    { intros u U. apply In_nth_error in U. destruct U as (n & N). assert (L : (n < length table)%nat) by (apply nth_error_Some; congruence).
      destruct (D (Z.of_nat n) (Z.of_nat (length table)) ltac:(lia) u t) as [Q|Q].
      - rewrite Nat2Z.id, nth_error_app1 by exact L. exact N.
      - rewrite Nat2Z.id, nth_error_app2, Nat.sub_diag by lia. reflexivity.
      - right. lia.
      - left. lia. }
    clear D R. induction table as [|u r IH]; cbn [app find_fault].
    - replace ((start t <=? fault) && (fault <? fin t)) with true by lia. reflexivity.
    - replace ((start u <=? fault) && (fault <? fin u)) with false by (destruct (X u (or_introl eq_refl)); lia). apply IH. intros v V. apply X. right. exact V. }
  rewrite E. cbn [map]. unfold deref. destruct (R t) as [R1 R2]; [rewrite in_app_iff; cbn; tauto|].
  replace (start t + (fault - start t)) with fault by ring. rewrite u32_id; [reflexivity|]. assert (2 ^ 32 = 4294967296) by reflexivity. lia.
Qed.
Example C78_report_in_the_last_section : sections [Ent 9 1000 1100; Ent 9 2000 2200] 2040 = [(9, 2040, 2200, 160)].
Proof. reflexivity. Qed.

(* In any other case the offset of the report is added to the following sections as well: here memory of another section is lost, and
   the size of a short section becomes almost 4 GiB. *)
Theorem C78_later_sections_refuted : exists table fault t tr a b n, table_ok table /\ in_heap table fault /\ In t table /\ In (tr, a, b, n) (sections table fault) /\
  b = fin t /\ fin t < a /\ 2 ^ 31 < n.
Proof.
  exists [Ent 9 1000 1400; Ent 9 2000 2200], 1300, (Ent 9 2000 2200), 9, 2300, 2200, 4294967196. split; [|split; [|split; [right; left; reflexivity|split; [right; left; reflexivity|cbn; lia]]]].
  - split; [intros t [<-|[<-|[]]]; cbn; lia|]. intros i j IJ t u. destruct (Z.to_nat i) as [|[|n]] eqn:E1; destruct (Z.to_nat j) as [|[|m]] eqn:E2; cbn; intros T U; try discriminate;
      try (apply nth_error_In in T; destruct T); try (apply nth_error_In in U; destruct U); try lia; injection T as <-; injection U as <-; cbn; lia.
  - exists (Ent 9 1000 1400). cbn. split; [tauto|lia].
Qed.

(** ** C79: fault reports *)
(* A report that fits into the first section, away from the crash stack, is read back exactly after the reset, whatever the rest of the
   memory contains then; nothing but the bytes of the report is written, and the heap may start right behind it. *)
Theorem C79_report_is_read_back_partial t0 rest sym s data : let len := Z.of_nat (length data) in let table := t0 :: rest in
  0 < start t0 -> start t0 + len + 4 <= fin t0 -> fin t0 + 8 <= 2 ^ 32 -> Forall is_byte data ->
  (forall a, sym <= a < sym + 4 -> ~ in_report table len a) -> guard_ok table sym len s ->
  exists s', dump table sym s data = Some s' /\ (forall a, ~ in_report table len a -> mem s' a = mem s a) /\
    forall s2 n, mstart s2 = mstart s' -> mend s2 = mend s' -> (forall a, in_report table len a -> mem s2 a = mem s' a) -> guard_ok table sym len s2 -> (length data <= n)%nat ->
      exists s3, openRead table s2 = Some (s3, len) /\ report table sym s3 n = Some data /\ heap_start s3 mod 4 = 0 /\ start t0 + len + 4 <= heap_start s3 < start t0 + len + 8.
Proof.
  intros len table S0 HI TOP _ AP GU. assert (L0 : 0 <= len) by (unfold len; lia).
  assert (AP' : sym + 4 <= start t0 \/ start t0 + len + 4 <= sym).
  { pose proof (AP sym ltac:(lia)) as A1. pose proof (AP (sym + 3) ltac:(lia)) as A2. pose proof (AP (sym + 2) ltac:(lia)) as A3. pose proof (AP (sym + 1) ltac:(lia)) as A4. cbn in A1, A2, A3, A4. lia. }
  destruct (dump_ok t0 rest sym S0 ltac:(lia) s data HI AP' GU) as (s' & E & RD & WM & MS & ME & FR). exists s'. split; [exact E|]. split; [exact FR|].
  intros s2 n E1 E2 SAME GU2 LN.
  destruct (openRead_ok t0 rest sym S0 ltac:(lia) s2 data n HI TOP GU2) as (s3 & O1 & O2 & O3 & O4).
  - intros i I. rewrite SAME by (cbn; fold len in I; lia). apply RD. exact I.
  - fold len. unfold word in *. rewrite !SAME by (cbn; lia). exact WM.
  - rewrite E1. exact MS.
  - rewrite E2. exact ME.
  - exact LN.
  - exists s3. auto.
Qed.
Definition blank : fs := Fs (fun _ => 0) 0 0 0 0.
Example C79_a_report : let r := dump [Ent 9 1000 1020; Ent 9 2000 2200] 2100 blank [1; 2; 3; 0xEE; 5] in
  match r with Some s => match openRead [Ent 9 1000 1020; Ent 9 2000 2200] s with
    | Some (s3, n) => n = 5 /\ report [Ent 9 1000 1020; Ent 9 2000 2200] 2100 s3 99 = Some [1; 2; 3; 0xEE; 5] /\ heap_start s3 = 1012 | None => False end | None => False end.
Proof. vm_compute. split; [reflexivity|]. split; reflexivity. Qed.

(* The position moves to the next section only after passing the end of the section: a longer report overwrites a byte outside the heap. *)
Theorem C79_byte_behind_the_section_refuted : exists table sym s data s' a, table_ok table /\ in_heap table sym /\ Forall is_byte data /\ dump table sym s data = Some s' /\
  ~ in_heap table a /\ mem s' a <> mem s a.
Proof.
  set (table := [Ent 9 1000 1004; Ent 9 2000 2200]). exists table, 2100, blank, [1; 2; 3; 4; 5; 6].
  destruct (dump table 2100 blank [1; 2; 3; 4; 5; 6]) as [s'|] eqn:E; [|vm_compute in E; discriminate]. exists s', 1004.
  split; [|split; [|split; [|split; [reflexivity|split]]]].
  - split; [intros t [<-|[<-|[]]]; cbn; lia|]. intros i j IJ t u. destruct (Z.to_nat i) as [|[|n]] eqn:E1; destruct (Z.to_nat j) as [|[|m]] eqn:E2; cbn; intros T U; try discriminate;
      try (apply nth_error_In in T; destruct T); try (apply nth_error_In in U; destruct U); try lia; injection T as <-; injection U as <-; cbn; lia.
  - exists (Ent 9 2000 2200). cbn. split; [tauto|lia].
  - repeat constructor; unfold is_byte; lia.
  - intros (t & [<-|[<-|[]]] & R); cbn in R; lia.
  - assert (V : option_map (fun x => mem x 1004) (dump table 2100 blank [1; 2; 3; 4; 5; 6]) = Some 5) by (vm_compute; reflexivity). rewrite E in V. injection V as V. rewrite V. discriminate.
Qed.

(* and when the next section adjoins, that byte is written twice and the report comes back wrong *)
Theorem C79_adjoining_sections_refuted : exists table sym s data s' s3 n data', table_ok table /\ in_heap table sym /\ Forall is_byte data /\ dump table sym s data = Some s' /\
  openRead table s' = Some (s3, n) /\ report table sym s3 99 = Some data' /\ data' <> data /\ n <> Z.of_nat (length data).
Proof.
  set (table := [Ent 9 1000 1004; Ent 9 1004 1200]). set (data := [1; 2; 3; 4; 5; 6; 7]).
  destruct (dump table 1100 blank data) as [s'|] eqn:E; [|vm_compute in E; discriminate].
  destruct (openRead table s') as [[s3 n]|] eqn:E3; [|apply (f_equal (fun o => match o with Some x => match openRead table x with Some _ => true | None => false end | None => true end)) in E; rewrite E3 in E; vm_compute in E; discriminate].
  assert (V : match dump table 1100 blank data with Some x => match openRead table x with Some (y, m) => (report table 1100 y 99, m) | None => (None, 0) end | None => (None, 0) end = (Some [1; 2; 3; 4; 6; 6; 7], 6)) by (vm_compute; reflexivity).
  rewrite E, E3 in V. injection V as V1 V2.
  exists table, 1100, blank, data, s', s3, n, [1; 2; 3; 4; 6; 6; 7]. split; [|split; [|split; [|split; [exact E|split; [exact E3|split; [exact V1|split; [discriminate|rewrite V2; discriminate]]]]]]].
  - split; [intros t [<-|[<-|[]]]; cbn; lia|]. intros i j IJ t u. destruct (Z.to_nat i) as [|[|n']] eqn:E1; destruct (Z.to_nat j) as [|[|m]] eqn:E2; cbn; intros T U; try discriminate;
      try (apply nth_error_In in T; destruct T); try (apply nth_error_In in U; destruct U); try lia; injection T as <-; injection U as <-; cbn; lia.
  - exists (Ent 9 1004 1200). cbn. split; [tauto|lia].
  - repeat constructor; unfold is_byte; lia.
Qed.

(* The stack of the crash handler at the linker symbol is not spared: the word stored there is taken for its address. *)
Theorem C79_crash_stack_refuted : exists table sym s data s', in_heap table sym /\ Forall is_byte data /\ dump table sym s data = Some s' /\ mem s' sym <> mem s sym.
Proof.
  set (table := [Ent 9 1000 1200]). set (data := [1; 2; 3; 4; 5; 6; 7]). destruct (dump table 1005 blank data) as [s'|] eqn:E; [|vm_compute in E; discriminate].
  exists table, 1005, blank, data, s'. split; [exists (Ent 9 1000 1200); cbn; split; [tauto|lia]|]. split; [repeat constructor; unfold is_byte; lia|]. split; [exact E|].
  assert (V : option_map (fun x => mem x 1005) (dump table 1005 blank data) = Some 6) by (vm_compute; reflexivity). rewrite E in V. injection V as V. rewrite V. discriminate.
Qed.

(* A report that ends within the last word of the section is read back, but the heap is then set up over it. *)
Theorem C79_heap_over_the_report_refuted : exists t sym s data s' s3 n, table_ok [t] /\ Forall is_byte data /\ dump [t] sym s data = Some s' /\
  openRead [t] s' = Some (s3, n) /\ n = Z.of_nat (length data) /\ report [t] sym s3 99 = Some data /\ sections [t] (heap_start s3) = [(traits t, start t, fin t, fin t - start t)].
Proof.
  set (t := Ent 9 1000 1012). set (data := [1; 2; 3; 4; 5; 6; 7]).
  assert (V : match dump [t] 5000 blank data with Some x => match openRead [t] x with Some (y, m) => (report [t] 5000 y 99, m, heap_start y) | None => (None, 0, 0) end | None => (None, 0, 0) end = (Some data, 7, 1012)) by (vm_compute; reflexivity).
  destruct (dump [t] 5000 blank data) as [s'|] eqn:E; [|discriminate]. destruct (openRead [t] s') as [[s3 n]|] eqn:E3; [|discriminate]. injection V as V1 V2 V3.
  exists t, 5000, blank, data, s', s3, n. split; [|split; [repeat constructor; unfold is_byte; lia|split; [exact E|split; [exact E3|split; [exact V2|split; [exact V1|rewrite V3; reflexivity]]]]]].
  split; [intros x [<-|[]]; cbn; lia|]. intros i j IJ x y. destruct (Z.to_nat i) as [|n'] eqn:E1; destruct (Z.to_nat j) as [|m] eqn:E2; cbn; intros T U; try lia; try discriminate;
    try (apply nth_error_In in T; destruct T); apply nth_error_In in U; destruct U.
Qed.

Print Assumptions C78_find_largest_partial.
Print Assumptions C78_largest_continuous_refuted.
Print Assumptions C78_at_least_the_traits_refuted.
Print Assumptions C78_rest_of_the_last_section.
Print Assumptions C78_later_sections_refuted.
Print Assumptions C79_report_is_read_back_partial.
Print Assumptions C79_byte_behind_the_section_refuted.
Print Assumptions C79_adjoining_sections_refuted.
Print Assumptions C79_crash_stack_refuted.
Print Assumptions C79_heap_over_the_report_refuted.
