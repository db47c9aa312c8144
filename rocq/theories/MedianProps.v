(* C23: median filters *)
From Verif Require Import Base WindowSpec MedianModel MedianSpec MedianProofs.

(* C23. Whatever program called append() and update() on the filter before, after an update() getValue() is the median of
   the last N appended samples (the initial value standing in for samples not yet seen), and no access is out of bounds. *)
Theorem C23_median_of_last_N_samples :
  forall c, In c [Median3; Median5; Median7; Median9] -> forall init os,
    exists m x, m_run c (m_init (c_n c) init) (os ++ [MUpdate]) = Some m /\ m_getValue (c_mid c) m = Some x /\
      is_median (window (c_n c) init (samples os)) x.
Proof.
  intros c [<-|[<-|[<-|[<-|[]]]]] init os; apply median_correct; [exact good3|exact good5|exact good7|exact good9].
Qed.
Print Assumptions C23_median_of_last_N_samples.
Example C23_median_example :
  (do m <- m_run Median7 (m_init 7 0) (map MAppend [9; -3; 4; 4; 100; 7; 2; 8] ++ [MUpdate]); m_getValue 3 m) = Some 4 /\
  window 7 0 [9; -3; 4; 4; 100; 7; 2; 8] = [-3; 4; 4; 100; 7; 2; 8] /\ is_median [-3; 4; 4; 100; 7; 2; 8] 4.
Proof.
  split; [vm_compute; reflexivity|]. split; [reflexivity|]. exists [-3; 2; 4; 4; 7; 8; 100].
  split; [|split; [repeat constructor; lia|reflexivity]].
  apply (Permutation_trans (l' := [-3; 4; 4; 2; 7; 8; 100])); [apply perm_skip|].
  - apply (Permutation_middle [4; 4] [7; 8; 100] 2).
  - apply perm_skip. do 2 apply perm_skip.
    apply (Permutation_trans (l' := 100 :: [2; 7; 8])); [symmetry; apply Permutation_cons_append|]. apply perm_skip.
    apply (Permutation_middle [7] [8] 2).
Qed.

(* C23. The median is unique, so the theorem determines the value returned. *)
Theorem C23_median_is_unique : forall l m m', is_median l m -> is_median l m' -> m = m'.
Proof.
  intros l m m' (s & P & S & H) (s' & P' & S' & H').
  assert (forall t, t <= m <-> t <= m') as Ht.
  { intro t. rewrite (sorted_threshold _ _ _ t S H), (sorted_threshold _ _ _ t S' H').
    rewrite (count_perm t _ _ P), (count_perm t _ _ P'). unfold zlen.
    rewrite (Permutation_length P), (Permutation_length P'). reflexivity. }
  pose proof (proj1 (Ht m)). pose proof (proj2 (Ht m')). lia.
Qed.
Print Assumptions C23_median_is_unique.
Example C23_median_is_unique_example : is_median [3; 1; 2] 2.
Proof.
  exists [1; 2; 3]. split; [|split; [repeat constructor; lia|reflexivity]].
  symmetry. exact (Permutation_cons_append [1; 2] 3).
Qed.
