(* Theorems for C55: 1-Wire search *)
From Coq Require Import Permutation.
From Verif Require Import Base CrcModel OwModel OwSpec OwProofs.

(* After resetSearch() the calls of searchNext() return every device of the bus exactly once, then false, and the search starts anew.
   The buffer romBuffer may hold anything before *)
Theorem C55_enumerates : forall devs s, NoDup devs -> Forall valid_rom devs -> length (ow_rom s) = 8%nat -> Forall (fun b => 0 <= b < 256) (ow_rom s) ->
  exists s' l, searches (S (length devs)) devs (ow_resetSearch s) = Some (s', map Some l ++ [None]) /\ Permutation l devs /\ ow_resetSearch s' = s'.
Proof.
  intros devs s Nd V R1 R2. destruct devs as [|d0 devs0] eqn:Ed.
  - exists (mkOW 0 0 false (ow_rom s)), []. split; [reflexivity|]. split; [constructor|reflexivity].
  - rewrite <- Ed in *. assert (devs <> []) as N by (rewrite Ed; discriminate). clear Ed d0 devs0.
    destruct (perform devs (ow_resetSearch s) N V (conj R1 R2) eq_refl) as (d & lz & lfd & E & Id & G & Z).
    pose proof (go_min 0 (code (ow_rom s)) (map code devs) 1 0 0 (code d) lz lfd ltac:(destruct devs; [congruence|discriminate]) (codes_len devs _) ltac:(lia) G) as M.
    assert (Permutation devs (d :: above d devs)) as P.
    { pose proof V as V'. rewrite Forall_forall in V'. apply NoDup_Permutation; [exact Nd| |].
      - constructor; [|apply NoDup_filter; exact Nd]. unfold above. rewrite filter_In, bltb_spec. intros [_ X]. exact (blt_irrefl _ X).
      - intro x. unfold above. cbn [In]. rewrite filter_In, bltb_spec. split; [|intros [<-|[X _]]; assumption]. intro Ix. destruct (M (code x) (in_map code _ _ Ix)) as [X|X]; [left; symmetry; apply code_inj; [apply valid8, V'; exact Ix|apply valid8, V'; exact Id|exact X]|right; split; assumption]. }
    pose proof (Permutation_length P) as Pl. cbn [length] in Pl.
    destruct (searches_from devs Nd V (length (above d devs)) d (mkOW lz lfd (lz =? 0) d) Id eq_refl Z eq_refl eq_refl) as (s' & l & Es & Pe & A & B & C & _).
    exists s', (d :: l). split; [|split].
    + rewrite Pl. change (searches (S (S (length (above d devs)))) devs (ow_resetSearch s)) with (do (s, r) <- ow_searchNext devs (ow_resetSearch s); do (s, l) <- searches (S (length (above d devs))) devs s; Some (s, r :: l)).
      unfold ow_searchNext at 1. rewrite E. cbn [obind ow_rom]. rewrite Es. reflexivity.
    + apply Permutation_sym. apply (Permutation_trans P). apply perm_skip. apply Permutation_sym. exact Pe.
    + clear - A B C. destruct s' as [a b c r]. cbn [ow_ld ow_lfd ow_flag] in A, B, C. unfold ow_resetSearch. cbn [ow_rom]. congruence.
Qed.
Definition ex_devs : list (list Z) := [[2; 1; 0; 0; 0; 0; 0; 77]; [1; 1; 0; 0; 0; 0; 0; 10]; [40; 1; 2; 3; 4; 5; 6; 158]; [1; 2; 0; 0; 0; 0; 0; 83]].
Lemma ex_valid : Forall valid_rom ex_devs.
Proof. repeat (apply Forall_cons; [split; [reflexivity|split; [repeat (apply Forall_cons; [cbv beta; lia|]); constructor|split; [vm_compute; reflexivity|cbn; discriminate]]]|]). constructor. Qed.
Example C55_enumerates_example : NoDup ex_devs /\ Forall valid_rom ex_devs /\
  searches 5 ex_devs (ow_resetSearch (mkOW 0 0 false [255; 1; 2; 3; 4; 5; 6; 7])) =
    Some (mkOW 0 0 false [1; 1; 0; 0; 0; 0; 0; 10], [Some [40; 1; 2; 3; 4; 5; 6; 158]; Some [2; 1; 0; 0; 0; 0; 0; 77]; Some [1; 2; 0; 0; 0; 0; 0; 83]; Some [1; 1; 0; 0; 0; 0; 0; 10]; None]).
Proof.
  split; [|split; [exact ex_valid|vm_compute; reflexivity]]. unfold ex_devs. repeat constructor; cbn; intuition discriminate.
Qed.
Print Assumptions C55_enumerates.

(* resetSearch(familyCode): the next search finds a device of the family if there is one - and some other device if there is none *)
Theorem C55_family : forall devs f, devs <> [] -> Forall valid_rom devs -> 0 <= f < 256 ->
  exists s d, ow_searchNext devs (ow_resetSearchFamily f) = Some (s, Some d) /\ In d devs /\ (hd 0 d = f <-> exists e, In e devs /\ hd 0 e = f).
Proof.
  intros devs f N V Hf. assert (rom8 [f; 0; 0; 0; 0; 0; 0; 0]) as R by (split; [reflexivity|repeat constructor; lia]).
  destruct (perform devs (ow_resetSearchFamily f) N V R eq_refl) as (d & lz & lfd & E & Id & G & _). exists (mkOW lz lfd (lz =? 0) d), d. unfold ow_searchNext. rewrite E. split; [reflexivity|]. split; [exact Id|]. split; [intro H; exists d; split; assumption|].
  intros (e & Ie & He). rewrite Forall_forall in V. assert (forall x, hd 0 x = nth 0 x 0) as Hn by (destruct x; reflexivity).
  assert (firstn 8 (code d) = firstn 8 (code [f; 0; 0; 0; 0; 0; 0; 0])) as F.
  { apply (go_follow 64 (code [f; 0; 0; 0; 0; 0; 0; 0]) 8 (map code devs) 1 0 0 _ lz lfd (code e) (codes_len devs _) G ltac:(lia) (in_map code _ _ Ie)). apply dbit_firstn; [|lia]. intros j J. unfold dbit. replace (j / 8)%nat with 0%nat by (symmetry; apply Nat.div_small; lia). rewrite <- Hn, He. reflexivity. }
  pose proof (firstn_dbit _ _ 8 ltac:(lia) F) as B. rewrite Hn. change f with (nth 0 [f; 0; 0; 0; 0; 0; 0; 0] 0). apply dbit_bytes; [exact (valid8 d (V d Id))|exact R|lia|]. intros j J. apply B. lia.
Qed.
Example C55_family_example : exists s1 s2, ow_searchNext ex_devs (ow_resetSearchFamily 2) = Some (s1, Some [2; 1; 0; 0; 0; 0; 0; 77]) /\ ow_searchNext ex_devs (ow_resetSearchFamily 3) = Some (s2, Some [1; 2; 0; 0; 0; 0; 0; 83]).
Proof. exists (mkOW 1 1 false [2; 1; 0; 0; 0; 0; 0; 77]), (mkOW 9 0 false [1; 2; 0; 0; 0; 0; 0; 83]). split; vm_compute; reflexivity. Qed.
Print Assumptions C55_family.

(* verifyDevice never claims the presence of a device that is not there, and does not disturb the search *)
Theorem C55_verify_sound : forall devs s rom s' r, Forall valid_rom devs -> length (ow_rom s) = 8%nat -> Forall (fun b => 0 <= b < 256) (ow_rom s) ->
  ow_verifyDevice devs s rom = Some (s', r) -> s' = s /\ (r = true -> In rom devs).
Proof.
  intros devs s rom s' r V R1 R2 H. unfold ow_verifyDevice in H. destruct devs as [|d0 devs0] eqn:Ed.
  - cbn in H. injection H as <- <-. split; [reflexivity|discriminate].
  - rewrite <- Ed in *. destruct (perform devs (mkOW 64 (ow_lfd s) false (ow_rom s)) ltac:(rewrite Ed; discriminate) V (conj R1 R2) eq_refl) as (d & lz & lfd & E & Id & _). rewrite E in H. cbn [obind ow_rom] in H. injection H as <- <-. split; [reflexivity|].
    destruct (list_eq_dec Z.eq_dec rom d) as [->|]; [intros _; exact Id|discriminate].
Qed.
Example C55_verify_sound_example : ow_verifyDevice ex_devs (mkOW 0 0 true [1; 1; 0; 0; 0; 0; 0; 10]) [1; 1; 0; 0; 0; 0; 0; 10] = Some (mkOW 0 0 true [1; 1; 0; 0; 0; 0; 0; 10], true).
Proof. vm_compute. reflexivity. Qed.
Print Assumptions C55_verify_sound.

(* for the device found by the last search (whose code is in romBuffer) it is exact *)
Theorem C55_verify_partial : forall devs s, Forall valid_rom devs -> length (ow_rom s) = 8%nat -> Forall (fun b => 0 <= b < 256) (ow_rom s) ->
  exists r, ow_verifyDevice devs s (ow_rom s) = Some (s, r) /\ (r = true <-> In (ow_rom s) devs).
Proof.
  intros devs s V R1 R2. destruct devs as [|d0 devs0] eqn:Ed.
  - exists false. split; [reflexivity|]. cbn. split; [discriminate|tauto].
  - rewrite <- Ed in *. unfold ow_verifyDevice. destruct (perform devs (mkOW 64 (ow_lfd s) false (ow_rom s)) ltac:(rewrite Ed; discriminate) V (conj R1 R2) eq_refl) as (d & lz & lfd & E & Id & G & _). rewrite E. cbn [obind ow_rom ow_ld ow_lfd] in *. eexists. split; [reflexivity|].
    destruct (list_eq_dec Z.eq_dec (ow_rom s) d) as [X|X]; [rewrite X; tauto|]. split; [discriminate|]. intro I. exfalso. apply X. rewrite Forall_forall in V. symmetry. apply bits63_eq; [apply V; exact Id|apply V; exact I|].
    apply (go_follow 64 (code (ow_rom s)) 63 (map code devs) 1 0 (ow_lfd s) _ lz lfd (code (ow_rom s)) (codes_len devs _) G ltac:(lia) (in_map code _ _ I) eq_refl).
Qed.
Example C55_verify_partial_example : exists r, ow_verifyDevice ex_devs (mkOW 0 0 true [40; 1; 2; 3; 4; 5; 6; 158]) [40; 1; 2; 3; 4; 5; 6; 158] = Some (mkOW 0 0 true [40; 1; 2; 3; 4; 5; 6; 158], r) /\ r = true.
Proof. exists true. split; [vm_compute; reflexivity|reflexivity]. Qed.
Print Assumptions C55_verify_partial.

(* what is missing: rom is not loaded into romBuffer, so that the presence of any other device on the bus is denied, here right after
   a search has found another one *)
Theorem C55_verify_refuted : exists devs s rom, Forall valid_rom devs /\ In rom devs /\ (exists d, searches 1 devs (ow_resetSearch (mkOW 0 0 false [0; 0; 0; 0; 0; 0; 0; 0])) = Some (s, [Some d])) /\ ow_verifyDevice devs s rom = Some (s, false).
Proof.
  exists ex_devs, (mkOW 2 2 false [40; 1; 2; 3; 4; 5; 6; 158]), [2; 1; 0; 0; 0; 0; 0; 77]. split; [exact ex_valid|]. split; [left; reflexivity|]. split; [exists [40; 1; 2; 3; 4; 5; 6; 158]|]; vm_compute; reflexivity.
Qed.
Print Assumptions C55_verify_refuted.

(* searchSkipCurrentFamily does not skip the family when it was reached by a 1 at the last family discrepancy: lastFamilyDiscrepancy is
   left over from an earlier search, and the next search returns a device of the same family again, the first one *)
Theorem C55_skip_family_refuted : exists devs s1 s2 a b c, Forall valid_rom devs /\ NoDup devs /\
  searches 2 devs (ow_resetSearch (mkOW 0 0 false [0; 0; 0; 0; 0; 0; 0; 0])) = Some (s1, [Some a; Some b]) /\
  ow_searchNext devs (ow_skipFamily s1) = Some (s2, Some c) /\ hd 0 c = hd 0 b /\ c = b.
Proof.
  exists [[2; 1; 0; 0; 0; 0; 0; 77]; [1; 1; 0; 0; 0; 0; 0; 10]; [1; 2; 0; 0; 0; 0; 0; 83]], (mkOW 9 1 false [1; 2; 0; 0; 0; 0; 0; 83]), (mkOW 9 0 false [1; 2; 0; 0; 0; 0; 0; 83]), [2; 1; 0; 0; 0; 0; 0; 77], [1; 2; 0; 0; 0; 0; 0; 83], [1; 2; 0; 0; 0; 0; 0; 83].
  split; [repeat (apply Forall_cons; [split; [reflexivity|split; [repeat (apply Forall_cons; [cbv beta; lia|]); constructor|split; [vm_compute; reflexivity|cbn; discriminate]]]|]); constructor|]. split; [repeat constructor; cbn; intuition discriminate|]. split; [vm_compute; reflexivity|]. split; [vm_compute; reflexivity|]. split; reflexivity.
Qed.
Print Assumptions C55_skip_family_refuted.
