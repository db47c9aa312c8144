(* C74 to C77: the TLSF heap. *)
From Verif Require Import Base TlsfModel TlsfArith TlsfHeap TlsfOps TlsfApi TlsfPool TlsfProofs TlsfSpec.

(* An execution for the examples: a heap of the smallest configuration with one pool of 1 KiB, from which three blocks are taken, a word is
   written to the third and the second is given back. *)
Definition result (o : option (st * Z)) : st * Z := match o with Some x => x | None => (control_construct 4096 (fun _ => 0), 0) end.
Definition ex0 : st := control_construct 4096 (fun _ => 0).
Definition ex1 : st := fst (result (tlsf_add_pool 4 12 4096 ex0 8192 1024)).
Definition ex2 : st := fst (result (tlsf_malloc 4 12 4096 ex1 100)).
Definition ex3 : st := fst (result (tlsf_malloc 4 12 4096 ex2 41)).
Definition ex4 : st := fst (result (tlsf_malloc 4 12 4096 ex3 60)).
Definition ex5 : st := wr ex4 8352 77.
Definition ex6 : st := match tlsf_free 4 12 4096 ex5 8300 with Some s => s | None => ex5 end.

Lemma result_is o p : match o with Some x => snd x =? p | None => false end = true -> o = Some (fst (result o), p).
Proof. destruct o as [[s q]|]; cbn; intro E; [|discriminate]. apply Z.eqb_eq in E. subst q. reflexivity. Qed.
Lemma ex_pool : pool_ok 4 12 4096 [] 8192 1024.
Proof. unfold pool_ok, apart. cbn. repeat split; try lia; intros b n []. Qed.
Lemma ex1_reach : reach 4 12 4096 ex1 [(8192, 1024)] [].
Proof. apply (r_pool 4 12 4096 ex0 [] [] 8192 1024 ex1 8192); [apply r_create|exact ex_pool|]. apply result_is. vm_compute. reflexivity. Qed.
Lemma ex2_reach : reach 4 12 4096 ex2 [(8192, 1024)] [(8196, 100)].
Proof. apply (r_malloc 4 12 4096 ex1 _ [] 100 ex2 8196 ex1_reach); [left; cbn; lia|]. apply result_is. vm_compute. reflexivity. Qed.
Lemma ex3_reach : reach 4 12 4096 ex3 [(8192, 1024)] [(8300, 41); (8196, 100)].
Proof. apply (r_malloc 4 12 4096 ex2 _ [(8196, 100)] 41 ex3 8300 ex2_reach); [left; cbn; lia|]. apply result_is. vm_compute. reflexivity. Qed.
Lemma ex4_reach : reach 4 12 4096 ex4 [(8192, 1024)] [(8348, 60); (8300, 41); (8196, 100)].
Proof. apply (r_malloc 4 12 4096 ex3 _ [(8300, 41); (8196, 100)] 60 ex4 8348 ex3_reach); [left; cbn; lia|]. apply result_is. vm_compute. reflexivity. Qed.
Lemma ex5_reach : reach 4 12 4096 ex5 [(8192, 1024)] [(8348, 60); (8300, 41); (8196, 100)].
Proof. apply r_write; [exact ex4_reach|reflexivity|left; exists 8348, 60; split; [left; reflexivity|lia]]. Qed.
Lemma ex6_reach : reach 4 12 4096 ex6 [(8192, 1024)] [(8348, 60); (8196, 100)].
Proof.
  apply (r_free 4 12 4096 ex5 _ [(8348, 60); (8300, 41); (8196, 100)] 8300 41 ex6 ex5_reach); [cbn; tauto|]. unfold ex6. set (o := tlsf_free 4 12 4096 ex5 8300).
  assert (Q : match o with Some _ => true | None => false end = true) by (vm_compute; reflexivity). clearbody o. destruct o; [reflexivity|discriminate].
Qed.
Lemma ex_config : configuration 4 12. Proof. unfold configuration. lia. Qed.

(** ** C74: the blocks handed out *)
(* In every execution the live blocks are word aligned, lie inside the pools and do not overlap. *)
Theorem C74_live_blocks_are_disjoint K F ctl s P A : configuration K F -> reach K F ctl s P A ->
  NoDup (map fst A) /\ forall p n, In (p, n) A -> p mod 4 = 0 /\ within P p n /\ forall q m, In (q, m) A -> p <> q -> apart p n q m.
Proof.
  intros HC R. destruct (reach_good K F ctl HC s P A R) as (H & L & G). split; [apply G|]. intros p n I. destruct (live_range K F ctl HC s P A H L G p n I) as (_ & B & C & _).
  split; [exact B|]. split; [exact C|]. intros q m J N. apply (live_apart K F ctl s P A H L G); assumption.
Qed.
Example C74_three_live_blocks : reach 4 12 4096 ex5 [(8192, 1024)] [(8348, 60); (8300, 41); (8196, 100)] /\ apart 8348 60 8300 41.
Proof. split; [exact ex5_reach|]. unfold apart. lia. Qed.

(* malloc never runs into undefined behaviour. It refuses and changes nothing, or returns a block that overlaps no live one and lies in a
   pool. Neither the contents of the live blocks nor anything outside the heap changes. *)
Theorem C74_malloc_is_safe K F ctl s P A size : configuration K F -> reach K F ctl s P A -> request_ok K F size ->
  exists s' p, tlsf_malloc K F ctl s size = Some (s', p) /\ untouched K F ctl P A s s' /\ ((p = 0 /\ s' = s) \/ (0 < size <= max_request K F /\ fresh P A p size)).
Proof.
  intros HC R RO. destruct (reach_good K F ctl HC s P A R) as (H & L & G). destruct (good_malloc K F ctl HC s P A H L size G RO) as (s' & p & H' & L' & E & G' & U & PS & PZ).
  exists s', p. split; [exact E|]. split; [exact U|]. destruct (Z.eq_dec p 0) as [->|N]; [left; destruct (PZ eq_refl); auto|right]. split; [apply PS; exact N|].
  unfold take in G'. replace (p =? 0) with false in G' by lia. destruct (live_range K F ctl HC s' P _ H' L' G' p size (or_introl eq_refl)) as (_ & B & C & _).
  split; [exact N|]. split; [exact B|]. split; [exact C|]. intros q n I. apply (live_apart K F ctl s' P _ H' L' G'); [left; reflexivity|right; exact I|].
  intros ->. pose proof (d_nodup _ _ _ _ _ _ _ _ G') as ND. cbn in ND. apply NoDup_cons_iff in ND. destruct ND as [ND _]. apply ND. apply in_map_iff. exists (q, n). auto.
Qed.
Example C74_malloc_reuses_the_freed_block : option_map snd (tlsf_malloc 4 12 4096 ex6 40) = Some 8300 /\ option_map snd (tlsf_malloc 4 12 4096 ex6 1000) = Some 0 /\
  option_map (fun x => mem (fst x) 8352) (tlsf_malloc 4 12 4096 ex6 40) = Some 77 /\ reach 4 12 4096 ex6 [(8192, 1024)] [(8348, 60); (8196, 100)] /\ request_ok 4 12 40.
Proof. split; [vm_compute; reflexivity|]. split; [vm_compute; reflexivity|]. split; [vm_compute; reflexivity|]. split; [exact ex6_reach|]. left. cbn. lia. Qed.

(* free of a live block is always defined and leaves the contents of all others alone *)
Theorem C74_free_is_safe K F ctl s P A p n : configuration K F -> reach K F ctl s P A -> In (p, n) A ->
  exists s', tlsf_free K F ctl s p = Some s' /\ untouched K F ctl P (drop p A) s s'.
Proof.
  intros HC R I. destruct (reach_good K F ctl HC s P A R) as (H & L & G). destruct (good_free K F ctl HC s P A H L p n G I) as (s' & H' & L' & E & _ & U). exists s'. auto.
Qed.
Example C74_free_keeps_the_neighbour : option_map (fun s => mem s 8352) (tlsf_free 4 12 4096 ex5 8300) = Some 77 /\ In (8300, 41) [(8348, 60); (8300, 41); (8196, 100)].
Proof. split; [vm_compute; reflexivity|cbn; tauto]. Qed.

(* a suitable pool is always accepted *)
Theorem C74_pool_is_accepted K F ctl s P A base bytes : configuration K F -> reach K F ctl s P A -> pool_ok K F ctl P base bytes ->
  exists s', tlsf_add_pool K F ctl s base bytes = Some (s', base) /\ untouched K F ctl ((base, bytes) :: P) A s s'.
Proof.
  intros HC R PO. destruct (reach_good K F ctl HC s P A R) as (H & L & G). destruct (good_pool K F ctl HC s P A H L base bytes G PO) as (s' & H' & L' & E & _ & U). exists s'. auto.
Qed.
Example C74_second_pool : option_map snd (tlsf_add_pool 4 12 4096 ex6 16384 4103) = Some 16384 /\ pool_ok 4 12 4096 [(8192, 1024)] 16384 4103.
Proof.
  split; [vm_compute; reflexivity|]. unfold pool_ok, apart. cbn. repeat split; try lia. intros b n [Q|[]]. injection Q as <- <-. lia.
Qed.

(** ** C75: no memory is lost *)
(* malloc succeeds whenever a free block exceeds the rounded request by one part in 2^K *)
Theorem C75_good_fit K F ctl s P A size : configuration K F -> reach K F ctl s P A -> 0 < size <= max_request K F -> suitable K P s (rounded size) ->
  exists s' p, tlsf_malloc K F ctl s size = Some (s', p) /\ p <> 0.
Proof.
  intros HC R S SU. destruct (reach_good K F ctl HC s P A R) as (H & L & G).
  destruct (good_malloc K F ctl HC s P A H L size G ltac:(left; lia)) as (s' & p & H' & L' & E & _ & _ & _ & PZ). exists s', p. split; [exact E|]. intros ->. destruct (PZ eq_refl) as [_ NO].
  destruct (suitable_block K F ctl HC s P A H L G (rounded size) SU) as (y & k & EY & FY & GY); [unfold rounded; lia|]. specialize (NO S y k EY FY). lia.
Qed.
Example C75_suitable_block : suitable 4 [(8192, 1024)] ex6 (rounded 40) /\ mem ex6 8296 = 45.
Proof.
  split; [|vm_compute; reflexivity]. exists 8192, 1024, 8292. split; [left; reflexivity|].
  split; [|split; [vm_compute; reflexivity|vm_compute; discriminate]].
  assert (E : 8292 = 8188 + 4 + size_at ex6 8188) by (vm_compute; reflexivity). rewrite E. apply (w_next ex6 8192 8188); [exact (w_first ex6 8192)|vm_compute; discriminate].
Qed.

(* no two free blocks are neighbours *)
Theorem C75_free_blocks_are_merged K F ctl s P A base bytes b : configuration K F -> reach K F ctl s P A -> In (base, bytes) P -> walk s base b -> free_at s b = true ->
  free_at s (b + 4 + size_at s b) = false /\ 12 <= size_at s b.
Proof. intros HC R I WB FB. destruct (reach_good K F ctl HC s P A R) as (H & L & G). exact (walk_coalesced K F ctl HC s P A H L G base bytes b I WB FB). Qed.
Example C75_freed_block_between_two : free_at ex6 8292 = true /\ free_at ex6 (8292 + 4 + size_at ex6 8292) = false /\ size_at ex6 8292 = 44.
Proof. split; [vm_compute; reflexivity|]. split; vm_compute; reflexivity. Qed.

(* a block of a pool that is not free, other than the end marker of size 0, is a live one; and every live one is found there *)
Theorem C75_nothing_leaks K F ctl s P A : configuration K F -> reach K F ctl s P A ->
  (forall base bytes b, In (base, bytes) P -> walk s base b -> free_at s b = false -> size_at s b <> 0 -> exists n, In (b + 8, n) A) /\
  (forall p n, In (p, n) A -> exists base bytes, In (base, bytes) P /\ walk s base (p - 8) /\ free_at s (p - 8) = false /\ n <= size_at s (p - 8)).
Proof.
  intros HC R. destruct (reach_good K F ctl HC s P A R) as (H & L & G). split.
  - intros base bytes b. exact (walk_live K F ctl HC s P A H L G base bytes b).
  - intros p n. exact (live_walk K F ctl HC s P A H L G p n).
Qed.
Example C75_used_blocks_are_live : free_at ex6 8188 = false /\ size_at ex6 8188 = 100 /\ In (8188 + 8, 100) [(8348, 60); (8196, 100)] /\ walk ex6 8192 8188.
Proof. split; [vm_compute; reflexivity|]. split; [vm_compute; reflexivity|]. split; [cbn; tauto|exact (w_first ex6 8192)]. Qed.

(* when everything has been given back, each pool is a single free block of its whole length *)
Theorem C75_all_freed K F ctl s P base bytes : configuration K F -> reach K F ctl s P [] -> In (base, bytes) P ->
  free_at s (base - 4) = true /\ size_at s (base - 4) = bytes - 8 - (bytes - 8) mod 4.
Proof. intros HC R I. destruct (reach_good K F ctl HC s P [] R) as (H & L & G). exact (all_free K F ctl HC s P [] H L G base bytes eq_refl I). Qed.
Example C75_one_block_again : let s7 := match tlsf_free 4 12 4096 ex6 8196 with Some s => s | None => ex6 end in
  let s8 := match tlsf_free 4 12 4096 s7 8348 with Some s => s | None => ex6 end in free_at s8 8188 = true /\ size_at s8 8188 = 1016 /\ size_at ex6 8188 = 100.
Proof. split; [vm_compute; reflexivity|]. split; vm_compute; reflexivity. Qed.

(** ** C76: memalign and realloc *)
(* memalign is as safe as malloc, its blocks have the alignment asked for, and it succeeds when a suitable block exists *)
Theorem C76_memalign K F ctl s P A e size : configuration K F -> reach K F ctl s P A -> aligned_request_ok K F e size ->
  exists s' p, tlsf_memalign K F ctl s (2 ^ e) size = Some (s', p) /\ untouched K F ctl P A s s' /\ ((p = 0 /\ s' = s) \/ (0 < size /\ p mod 2 ^ e = 0 /\ fresh P A p size)) /\
   (0 < size -> rounded_for e size <= max_request K F -> suitable K P s (rounded_for e size) -> p <> 0).
Proof.
  intros HC R RO. destruct (reach_good K F ctl HC s P A R) as (H & L & G). destruct (good_memalign K F ctl HC s P A H L e size G RO) as (s' & p & H' & L' & E & G' & U & AL & PS & PZ & NO).
  exists s', p. split; [exact E|]. split; [exact U|]. split.
  - destruct (Z.eq_dec p 0) as [->|N]; [left; auto|right]. split; [apply PS; exact N|]. split; [exact AL|].
    unfold take in G'. replace (p =? 0) with false in G' by lia. destruct (live_range K F ctl HC s' P _ H' L' G' p size (or_introl eq_refl)) as (_ & B & C & _).
    split; [exact N|]. split; [exact B|]. split; [exact C|]. intros q n I. apply (live_apart K F ctl s' P _ H' L' G'); [left; reflexivity|right; exact I|].
    intros ->. pose proof (d_nodup _ _ _ _ _ _ _ _ G') as ND. cbn in ND. apply NoDup_cons_iff in ND. destruct ND as [ND _]. apply ND. apply in_map_iff. exists (q, n). auto.
  - intros S0 RM SU ->. destruct (suitable_block K F ctl HC s P A H L G (rounded_for e size) SU) as (y & k & EY & FY & GY).
    + unfold rounded_for. destruct (e <=? 2) eqn:Q; [unfold rounded; lia|]. destruct RO as [RE _]. pose proof (pow_pos e ltac:(lia)). pose proof (upz (rounded size + 2 ^ e + 16) (2 ^ e) ltac:(lia)). unfold rounded in *. lia.
    + specialize (NO eq_refl S0 RM y k EY FY). lia.
Qed.
Example C76_aligned_block : option_map snd (tlsf_memalign 4 12 4096 ex6 (2 ^ 6) 50) = Some 8448 /\ 8448 mod 2 ^ 6 = 0 /\ aligned_request_ok 4 12 6 50 /\ rounded_for 6 50 = 192.
Proof. split; [vm_compute; reflexivity|]. split; [reflexivity|]. split; [unfold aligned_request_ok; cbn; lia|reflexivity]. Qed.

(* realloc of a live block either fails and changes nothing or returns a block that holds the old contents up to the smaller size. It
   overlaps no other live block, and those and everything outside the heap stay as they are. *)
Theorem C76_realloc K F ctl s P A p n size : configuration K F -> reach K F ctl s P A -> In (p, n) A -> 0 < size <= max_request K F ->
  exists s' q, tlsf_realloc K F ctl s p size = Some (s', q) /\ untouched K F ctl P (drop p A) s s' /\
   ((q = 0 /\ s' = s /\ n < rounded size /\ ~ suitable K P s (rounded size)) \/
    (fresh P (drop p A) q size /\ forall i, 0 <= i -> 4 * i < Z.min n size -> mem s' (q + 4 * i) = mem s (p + 4 * i))).
Proof.
  intros HC R I S. destruct (reach_good K F ctl HC s P A R) as (H & L & G). destruct (good_realloc K F ctl HC s P A H L p n size G I S) as (s' & q & H' & L' & E & G' & U & QZ & CO & NO).
  exists s', q. split; [exact E|]. split; [exact U|]. destruct (Z.eq_dec q 0) as [->|N].
  - left. destruct (NO eq_refl) as [N1 N2]. split; [reflexivity|]. split; [apply QZ; reflexivity|]. split; [exact N1|]. intro SU.
    destruct (suitable_block K F ctl HC s P A H L G (rounded size) SU) as (y & k & EY & FY & GY); [unfold rounded; lia|]. specialize (N2 y k EY FY). lia.
  - right. replace (q =? 0) with false in G' by lia. split; [|apply CO; exact N]. destruct (live_range K F ctl HC s' P _ H' L' G' q size (or_introl eq_refl)) as (_ & B & C & _).
    split; [exact N|]. split; [exact B|]. split; [exact C|]. intros q' n' I'. apply (live_apart K F ctl s' P _ H' L' G'); [left; reflexivity|right; exact I'|].
    intros ->. pose proof (d_nodup _ _ _ _ _ _ _ _ G') as ND. cbn in ND. apply NoDup_cons_iff in ND. destruct ND as [ND _]. apply ND. apply in_map_iff. exists (q', n'). auto.
Qed.
(* Growing in place into the free neighbour, and moving with the contents *)
Example C76_grow_and_move : option_map snd (tlsf_realloc 4 12 4096 ex6 8196 140) = Some 8196 /\ option_map snd (tlsf_realloc 4 12 4096 ex5 8300 60) = Some 8412 /\
  option_map snd (tlsf_realloc 4 12 4096 ex6 8348 300) = Some 8348 /\ option_map (fun x => mem (fst x) 8352) (tlsf_realloc 4 12 4096 ex6 8348 300) = Some 77 /\
  option_map snd (tlsf_realloc 4 12 4096 (wr ex5 8304 55) 8300 100) = Some 8412 /\ option_map (fun x => mem (fst x) 8416) (tlsf_realloc 4 12 4096 (wr ex5 8304 55) 8300 100) = Some 55 /\
  option_map snd (tlsf_realloc 4 12 4096 ex6 8348 1000) = Some 0.
Proof. repeat (split; [vm_compute; reflexivity|]). vm_compute. reflexivity. Qed.

(* with size 0 the block is freed, and of a null pointer a new one is allocated *)
Theorem C76_realloc_as_free_and_malloc K F ctl s P A p n size : configuration K F -> reach K F ctl s P A -> In (p, n) A ->
  (exists s', tlsf_free K F ctl s p = Some s' /\ tlsf_realloc K F ctl s p 0 = Some (s', 0)) /\ tlsf_realloc K F ctl s 0 size = tlsf_malloc K F ctl s size.
Proof.
  intros HC R I. destruct (reach_good K F ctl HC s P A R) as (H & L & G). destruct (good_free K F ctl HC s P A H L p n G I) as (s' & _ & _ & E & _ & _).
  destruct (live_range K F ctl HC s P A H L G p n I) as (P8 & _). split; [|reflexivity]. exists s'. split; [exact E|]. unfold tlsf_realloc. replace (negb (p =? 0) && (0 =? 0)) with true by lia.
  rewrite E. reflexivity.
Qed.
Example C76_realloc_to_nothing : option_map snd (tlsf_realloc 4 12 4096 ex5 8300 0) = Some 0 /\ option_map (fun x => free_at (fst x) 8292) (tlsf_realloc 4 12 4096 ex5 8300 0) = Some true /\
  option_map snd (tlsf_realloc 4 12 4096 ex6 0 40) = Some 8300.
Proof. repeat (split; [vm_compute; reflexivity|]). vm_compute. reflexivity. Qed.

(** ** C77: the limits that are checked wrongly *)
(* A request between the start of the last size class and the nominal limit of 2^F bytes passes the check against that limit but searches
   one row past the end of the bitmaps, in whatever state the heap is. *)
Theorem C77_request_in_the_last_class_undefined K F ctl s size : configuration K F -> 2 ^ F - 2 ^ (F - 1 - K) < size < 2 ^ F -> tlsf_malloc K F ctl s size = None.
Proof. intros HC R. apply malloc_over; assumption. Qed.
Example C77_request_of_4000_bytes : configuration 4 12 /\ 2 ^ 12 - 2 ^ (12 - 1 - 4) < 4000 < 2 ^ 12 /\ tlsf_malloc 4 12 4096 ex6 4000 = None /\ option_map snd (tlsf_malloc 4 12 4096 ex6 3968) = Some 0 /\
  option_map snd (tlsf_malloc 4 12 4096 ex6 4096) = Some 0.
Proof. split; [exact ex_config|]. split; [cbn; lia|]. repeat (split; [vm_compute; reflexivity|]). vm_compute. reflexivity. Qed.

(* A pool of exactly the maximum block size passes the check, and its block is then inserted past the end of the lists. *)
Theorem C77_largest_pool_undefined K F ctl s base bytes : configuration K F -> base mod 4 = 0 -> 4 <= base < 2 ^ 32 -> 2 ^ F + 8 <= bytes < 2 ^ F + 12 ->
  tlsf_add_pool K F ctl s base bytes = None.
Proof.
  intros HC B4 BR R. destruct (pow_29 K F HC) as (A & B & C). apply add_pool_over; try assumption; try lia.
Qed.
Example C77_pool_of_4104_bytes : tlsf_add_pool 4 12 4096 ex0 8192 4104 = None /\ option_map snd (tlsf_add_pool 4 12 4096 ex0 8192 4103) = Some 8192 /\
  option_map snd (tlsf_add_pool 4 12 4096 ex0 8192 4108) = Some 0.
Proof. repeat (split; [vm_compute; reflexivity|]). vm_compute. reflexivity. Qed.

(* realloc to a size beyond the limit should fail and leave the block alone. It returns the block as if it had grown, and gives nearly all of
   it back to the heap: the next malloc returns memory inside the block that the client still holds. *)
Theorem C77_realloc_beyond_the_limit_refuted : exists K F ctl s P A p n size s' s'' q m,
  configuration K F /\ reach K F ctl s P A /\ In (p, n) A /\ 2 ^ F <= size < 2 ^ 32 /\ tlsf_malloc K F ctl s size = Some (s, 0) /\
  tlsf_realloc K F ctl s p size = Some (s', p) /\ tlsf_malloc K F ctl s' m = Some (s'', q) /\ p < q /\ q + m <= p + n.
Proof.
  exists 4, 12, 4096, ex5, [(8192, 1024)], [(8348, 60); (8300, 41); (8196, 100)], 8196, 100, 4096.
  exists (fst (result (tlsf_realloc 4 12 4096 ex5 8196 4096))), (fst (result (tlsf_malloc 4 12 4096 (fst (result (tlsf_realloc 4 12 4096 ex5 8196 4096))) 90))), 8200, 90.
  split; [exact ex_config|]. split; [exact ex5_reach|]. split; [cbn; tauto|]. split; [cbn; lia|]. split; [reflexivity|]. 
  split; [apply result_is; vm_compute; reflexivity|]. split; [apply result_is; vm_compute; reflexivity|]. lia.
Qed.

Print Assumptions C74_live_blocks_are_disjoint.
Print Assumptions C74_malloc_is_safe.
Print Assumptions C74_free_is_safe.
Print Assumptions C74_pool_is_accepted.
Print Assumptions C75_good_fit.
Print Assumptions C75_free_blocks_are_merged.
Print Assumptions C75_nothing_leaks.
Print Assumptions C75_all_freed.
Print Assumptions C76_memalign.
Print Assumptions C76_realloc.
Print Assumptions C76_realloc_as_free_and_malloc.
Print Assumptions C77_request_in_the_last_class_undefined.
Print Assumptions C77_largest_pool_undefined.
Print Assumptions C77_realloc_beyond_the_limit_refuted.
