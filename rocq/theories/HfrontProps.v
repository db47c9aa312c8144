(* C80: the C heap over several memories. *)
From Verif Require Import Base BitLemmas TlsfModel TlsfSpec TlsfProps HfrontModel HfrontSpec HfrontProofs.

(* An execution for the examples: two adjoining sections with DMA and a core coupled one; two blocks of the first kind and one of the last. *)
Definition ex_table : list section := [(31, 4096, 6144); (31, 6144, 8192); (0x2003, 65536, 67000)].
Definition pools_of (o : option (list pool)) : list pool := match o with Some p => p | None => [] end.
Definition fp0 : list pool := pools_of (initialize 4 12 (fun _ => 0) ex_table).
Definition fp1 : list pool := pools_of (option_map fst (malloc_traits 4 12 fp0 100 9)).
Definition fp2 : list pool := pools_of (option_map fst (malloc_traits 4 12 fp1 200 0x2002)).
Definition fp3 : list pool := pools_of (option_map fst (malloc_traits 4 12 fp2 24 9)).

Lemma pools_is {T} (o : option (list pool * T)) v : option_map snd o = Some v -> o = Some (pools_of (option_map fst o), v).
Proof. destruct o as [[p w]|]; cbn; intro E; [injection E as ->; reflexivity|discriminate]. Qed.
Lemma ex_table_ok : table_ok 4 12 ex_table.
Proof.
  assert (C : ctl_bytes 4 12 = 496) by reflexivity. split; [repeat constructor; rewrite ?C; cbn; lia|]. unfold ex_table. repeat constructor; cbn; lia.
Qed.
Lemma fp0_reach : freach 4 12 fp0 [].
Proof.
  apply (f_init 4 12 (fun _ => 0) ex_table fp0 ex_table_ok). unfold fp0. set (o := initialize 4 12 (fun _ => 0) ex_table).
  assert (Q : match o with Some _ => true | None => false end = true) by (vm_compute; reflexivity). clearbody o. destruct o; [reflexivity|discriminate].
Qed.
Lemma fp1_reach : freach 4 12 fp1 [(4596, 100)].
Proof. apply (f_malloc 4 12 fp0 [] 100 9 fp1 4596 fp0_reach); [left; cbn; lia|lia|]. refine (pools_is _ _ _). vm_compute. reflexivity. Qed.
Lemma fp2_reach : freach 4 12 fp2 [(66036, 200); (4596, 100)].
Proof. apply (f_malloc 4 12 fp1 [(4596, 100)] 200 0x2002 fp2 66036 fp1_reach); [left; cbn; lia|lia|]. refine (pools_is _ _ _). vm_compute. reflexivity. Qed.
Lemma fp3_reach : freach 4 12 fp3 [(4700, 24); (66036, 200); (4596, 100)].
Proof. apply (f_malloc 4 12 fp2 [(66036, 200); (4596, 100)] 24 9 fp3 4700 fp2_reach); [left; cbn; lia|lia|]. refine (pools_is _ _ _). vm_compute. reflexivity. Qed.

(** ** Initialisation *)
(* Every table of suitable sections is set up without undefined behaviour, and when it has six sections at most each becomes part of an
   allocator with its traits. *)
Theorem C80_initialize K F m table : configuration K F -> table_ok K F table ->
  exists pools, initialize K F m table = Some pools /\ (length pools <= 6)%nat /\ ((length table <= 6)%nat -> forall x, In x table -> covered pools x).
Proof.
  intros HC TO. destruct (initialize_ok K F HC m table TO) as (X & E & _ & L & CV). exists (map fst X). rewrite map_length. auto.
Qed.
Example C80_adjoining_sections_are_joined : table_ok 4 12 ex_table /\ map (fun p => (ptraits p, ctl p, pend p)) fp0 = [(31, 4096, 8192); (0x2003, 65536, 67000)].
Proof. split; [exact ex_table_ok|vm_compute; reflexivity]. Qed.

(** ** The blocks handed out *)
(* In every execution two live blocks are the same or do not overlap, also when they come from different allocators. *)
Theorem C80_live_blocks_are_disjoint K F pools A p n q m : configuration K F -> freach K F pools A -> In (p, n) A -> In (q, m) A -> (p, n) = (q, m) \/ apart p n q m.
Proof. intros HC R I J. destruct (freach_FG K F HC pools A R) as (X & _ & G). apply (FG_disjoint K F HC X A p n q m G I J). Qed.
Example C80_three_blocks : freach 4 12 fp3 [(4700, 24); (66036, 200); (4596, 100)] /\ apart 4700 24 4596 100 /\ apart 4700 24 66036 200.
Proof. split; [exact fp3_reach|]. unfold apart. lia. Qed.

(* Asked for memory with some trait besides the two types, malloc_traits fails without changing anything, and only when every allocator
   with the traits (apart from the types) is exhausted. Or it returns an aligned block from an allocator with the traits; one without
   a type that was asked for is taken only when all with it are exhausted. The block overlaps no live one, and what the program has
   stored in the same memory stays. *)
Theorem C80_malloc K F pools A size traits : configuration K F -> freach K F pools A -> request_ok K F size -> 0 <= traits < 2 ^ 32 ->
  (exists i, 0 <= i /\ Z.testbit traits i = true /\ i <> 13 /\ i <> 15) ->
  (malloc_traits K F pools size traits = Some (pools, 0) /\ forall p, In p pools -> meets (ptraits p) traits -> exhausted K F p size) \/
  (exists a x b s' p, pools = a ++ x :: b /\ malloc_traits K F pools size traits = Some (a ++ Pl (ptraits x) (ctl x) (pend x) s' :: b, p) /\
    0 < size /\ p mod 4 = 0 /\ ctl x < p /\ p + size < pend x /\ (forall q n, In (q, n) A -> apart p size q n) /\
    (forall i, ctl x <= i < pend x -> owned A i -> mem s' i = mem (hs x) i) /\
    meets (ptraits x) traits /\ (covers (ptraits x) traits \/ forall y, In y pools -> covers (ptraits y) traits -> exhausted K F y size)).
Proof.
  intros HC R RO TR B. destruct (freach_FG K F HC pools A R) as (X & -> & G). destruct (malloc_traits_ok K F HC X size traits RO (proj1 G) TR (or_introl B)) as [Q|Q]; [left; exact Q|right].
  destruct Q as (a & x & g & b & s' & q & -> & Q0 & M & E & ME & CO). destruct (FG_at K F a x g b A G) as [PP AX]. pose proof PP as (RX & _).
  destruct (C74_malloc_is_safe K F (ctl x) (hs x) (fst g) (snd g) size HC RX RO) as (s2 & q2 & M2 & U & FR). rewrite M in M2. injection M2 as <- <-. destruct FR as [[? _]|(SZ & FR)]; [contradiction|].
  exists (map fst a), x, (map fst b), s', q. split; [apply map_mid|]. split; [exact E|]. split; [lia|]. split; [apply FR|].
  assert (PG' : PG K F (Pl (ptraits x) (ctl x) (pend x) s') (fst g, take q size (snd g))).
  { destruct PP as (_ & C8 & CE & P32 & IN). split; [|cbn; auto]. cbn. apply (r_malloc K F (ctl x) (hs x) (fst g) (snd g) size); assumption. }
  assert (IQ : In (q, size) (take q size (snd g))) by (unfold take; replace (q =? 0) with false by lia; left; reflexivity).
  destruct (live_in K F HC _ _ q size PG' IQ) as (L1 & L2 & _). cbn in L1, L2. split; [exact L1|]. split; [exact L2|].
  assert (OT : forall r n, all_of (a ++ b) (r, n) -> r + n <= ctl x \/ pend x <= r).
  { intros r n (e & Ie & I). destruct (FG_other K F a x g b A e G Ie) as [AW PE]. destruct (live_in K F HC (fst e) (snd e) r n PE I) as (N1 & N2 & _). unfold away, region in AW. cbn in AW. lia. }
  split; [|split].
  - intros r n I. apply AX in I. destruct I as [I|I]; [apply FR; exact I|]. specialize (OT r n I). unfold apart. lia.
  - intros i RI (r & n & I & RR). apply U. left. apply AX in I. destruct I as [I|I]; [exists r, n; auto|]. specialize (OT r n I). lia.
  - split; [exact ME|exact CO].
Qed.
Example C80_fallback_to_memory_that_is_not_core_coupled : freach 4 12 fp3 [(4700, 24); (66036, 200); (4596, 100)] /\
  option_map snd (malloc_traits 4 12 fp3 600 0x2002) = Some 66240 /\ option_map snd (malloc_traits 4 12 fp3 1000 0x2002) = Some 4728 /\ option_map snd (malloc_traits 4 12 fp3 3000 0x2002) = Some 0.
Proof. split; [exact fp3_reach|]. split; [vm_compute; reflexivity|]. split; vm_compute; reflexivity. Qed.

(** ** free and realloc *)
(* A live block is given back to the allocator that it came from, and the others stay as they are. *)
Theorem C80_free K F pools A p n : configuration K F -> freach K F pools A -> In (p, n) A ->
  exists a x b s', pools = a ++ x :: b /\ ctl x < p /\ p + n < pend x /\ tlsf_free K F (ctl x) (hs x) p = Some s' /\
    free_r K F pools p = Some (a ++ Pl (ptraits x) (ctl x) (pend x) s' :: b) /\ forall i, ctl x <= i < pend x -> owned (drop p A) i -> mem s' i = mem (hs x) i.
Proof.
  intros HC R I. destruct (freach_FG K F HC pools A R) as (X & -> & G). destruct (owner K F X A p n G I) as (a & x & g & b & -> & J). destruct (FG_at K F a x g b A G) as [PP AX].
  destruct (live_in K F HC x g p n PP J) as (L1 & L2 & _). destruct (free_ok K F HC a x g b A p n G J) as (s' & E & EF & _). exists (map fst a), x, (map fst b), s'.
  split; [apply map_mid|]. split; [exact L1|]. split; [exact L2|]. split; [exact E|]. split; [rewrite EF, map_mid; reflexivity|].
  destruct PP as (RX & _). destruct (C74_free_is_safe K F (ctl x) (hs x) (fst g) (snd g) p n HC RX J) as (s2 & E2 & U). rewrite E in E2. injection E2 as <-.
  intros i RI (r & k & I2 & RR). apply U. left. apply in_dropz in I2. destruct I2 as [I2 NP]. apply AX in I2. destruct I2 as [I2|(e & Ie & I2)]; [exists r, k; rewrite in_dropz; auto|].
  destruct (FG_other K F a x g b A e G Ie) as [AW PE]. destruct (live_in K F HC (fst e) (snd e) r k PE I2) as (N1 & N2 & _). unfold away, region in AW. cbn in AW. lia.
Qed.
Example C80_free_of_the_core_coupled_block : freach 4 12 fp3 [(4700, 24); (66036, 200); (4596, 100)] /\
  option_map (fun l => map (fun x => (ctl x, mem (hs x) 66032)) l) (free_r 4 12 fp3 66036) = Some [(4096, 0); (65536, 961)].
Proof. split; [exact fp3_reach|]. vm_compute. reflexivity. Qed.

(* realloc stays within the allocator of the block. It fails without changing anything, or returns a block that overlaps no other live one
   and has the old contents up to the smaller size. *)
Theorem C80_realloc K F pools A p n size : configuration K F -> freach K F pools A -> In (p, n) A -> 0 < size <= max_request K F ->
  exists a x b s' q, pools = a ++ x :: b /\ ctl x < p /\ p + n < pend x /\ realloc_r K F pools p size = Some (a ++ Pl (ptraits x) (ctl x) (pend x) s' :: b, q) /\
    (forall i, ctl x <= i < pend x -> owned (drop p A) i -> mem s' i = mem (hs x) i) /\
    ((q = 0 /\ s' = hs x) \/
     (ctl x < q /\ q + size < pend x /\ q mod 4 = 0 /\ (forall r k, In (r, k) (drop p A) -> apart q size r k) /\
      forall i, 0 <= i -> 4 * i < Z.min n size -> mem s' (q + 4 * i) = mem (hs x) (p + 4 * i))).
Proof.
  intros HC R I S. destruct (freach_FG K F HC pools A R) as (X & -> & G). destruct (owner K F X A p n G I) as (a & x & g & b & -> & J). destruct (FG_at K F a x g b A G) as [PP AX].
  destruct (live_in K F HC x g p n PP J) as (L1 & L2 & _). destruct (realloc_ok K F HC a x g b A p n size G J S) as (s' & q & E & ER & G'). exists (map fst a), x, (map fst b), s', q.
  split; [apply map_mid|]. split; [exact L1|]. split; [exact L2|]. split; [rewrite ER, map_mid; reflexivity|].
  pose proof PP as (RX & _). destruct (C76_realloc K F (ctl x) (hs x) (fst g) (snd g) p n size HC RX J S) as (s2 & q2 & E2 & U & CA). rewrite E in E2. injection E2 as <- <-.
  assert (OT : forall r k, all_of (a ++ b) (r, k) -> r + k <= ctl x \/ pend x <= r).
  { intros r k (e & Ie & I2). destruct (FG_other K F a x g b A e G Ie) as [AW PE]. destruct (live_in K F HC (fst e) (snd e) r k PE I2) as (N1 & N2 & _). unfold away, region in AW. cbn in AW. lia. }
  split.
  - intros i RI (r & k & I2 & RR). apply U. left. apply in_dropz in I2. destruct I2 as [I2 NP]. apply AX in I2. destruct I2 as [I2|I2]; [exists r, k; rewrite in_dropz; auto|]. specialize (OT r k I2). lia.
  - destruct CA as [(Q0 & ES & _)|(FR & CO)]; [left; auto|right]. assert (Q0 : q <> 0) by apply FR. replace (q =? 0) with false in G' by lia.
    destruct (FG_at K F _ _ _ _ _ G') as [PP' _]. destruct (live_in K F HC _ _ q size PP') as (M1 & M2 & _); [left; reflexivity|]. cbn in M1, M2. split; [exact M1|]. split; [exact M2|]. split; [apply FR|]. split; [|exact CO].
    intros r k I2. apply in_dropz in I2. destruct I2 as [I2 NP]. apply AX in I2. destruct I2 as [I2|I2]; [apply FR; apply in_dropz; auto|]. specialize (OT r k I2). unfold apart. lia.
Qed.
Example C80_realloc_moves_within_the_allocator : freach 4 12 fp3 [(4700, 24); (66036, 200); (4596, 100)] /\
  option_map snd (realloc_r 4 12 fp3 4596 500) = Some 4728 /\ option_map snd (realloc_r 4 12 fp3 66036 900) = Some 66036 /\ option_map snd (realloc_r 4 12 fp3 66036 1000) = Some 0.
Proof. split; [exact fp3_reach|]. split; [vm_compute; reflexivity|]. split; vm_compute; reflexivity. Qed.

(* a request that no allocator can meet *)
Lemma too_large K F pools A size : configuration K F -> freach K F pools A -> 2 ^ F <= size < 2 ^ 32 -> forall p, In p pools -> exhausted K F p size.
Proof.
  intros HC R S p I. destruct (freach_FG K F HC pools A R) as (X & -> & (FX & _)). apply in_map_iff in I. destruct I as ([p' g] & E & I). cbn in E. subst p'. rewrite Forall_forall in FX.
  destruct (FX _ I) as (RX & _). cbn in RX. destruct (C74_malloc_is_safe K F (ctl p) _ _ _ size HC RX (or_intror S)) as (s' & q & M & _ & C). unfold exhausted. rewrite M.
  destruct C as [[-> ->]|(L & _)]; [reflexivity|]. unfold max_request in L. assert (N : 0 < 2 ^ (F - 1 - K)) by (apply Z.pow_pos_nonneg; destruct HC; lia).
  destruct S as [S _]. destruct L as [_ L]. set (u := 2 ^ F) in *. set (v := 2 ^ (F - 1 - K)) in *. clearbody u v. exfalso. clear - S L N. lia.
Qed.

(** ** Defects *)
(* Unused elements of mem_pools have no traits. A request with nothing but the types core coupled and external (or nothing at all) matches
   them once the types are dropped, and tlsf_malloc is then called with a null pointer, in every state with unused elements in which no
   allocator has the memory. *)
Theorem C80_types_only_undefined K F pools A size traits : configuration K F -> freach K F pools A -> request_ok K F size ->
  (forall i, 0 <= i -> i <> 13 -> i <> 15 -> Z.testbit traits i = false) -> 0 <= traits < 2 ^ 32 ->
  (length pools < 6)%nat -> (forall p, In p pools -> exhausted K F p size) -> malloc_traits K F pools size traits = None.
Proof.
  intros HC R RO TB TR LP EX. destruct (freach_FG K F HC pools A R) as (X & -> & G). unfold malloc_traits.
  assert (T0 : forall t, try_pools K F (map fst X) size t = Some (map fst X, 0)).
  { intro t. destruct (try_ok K F HC size t RO X (proj1 G)) as [[-> _]|(a & p & g & b & s' & q & E & Q0 & _ & M & _)]; [reflexivity|exfalso].
    assert (EP : exhausted K F p size) by (apply EX; rewrite E, map_mid, in_app_iff; cbn; tauto). unfold exhausted in EP. rewrite EP in M. injection M as _ M. congruence. }
  assert (N0 : try_all K F (map fst X) size 0 = None).
  { unfold try_all. rewrite T0. cbn [obind snd]. replace (length (map fst X) <? max_pools)%nat with true; [reflexivity|]. symmetry. apply Nat.ltb_lt. exact LP. }
  assert (C0 : cleared traits = 0).
  { apply Z.bits_inj'. intros i I. rewrite cleared_bit, Z.bits_0 by assumption. destruct (Z.eq_dec i 13) as [->|N13]; [rewrite andb_false_r; reflexivity|].
    destruct (Z.eq_dec i 15) as [->|N15]; [rewrite andb_false_r; reflexivity|]. rewrite TB by assumption. reflexivity. }
  destruct (Z.eq_dec traits 0) as [->|N].
  - rewrite pass_S, N0. reflexivity.
  - rewrite pass_S. unfold try_all. rewrite T0. cbn [obind snd fst]. rewrite Z.land_0_l. replace (0 =? traits) with false by lia. cbn [andb Z.eqb negb obind snd fst].
    destruct (Z.eq_dec (Z.land traits clear_mask) 0) as [M|M].
    + exfalso. apply N. apply Z.bits_inj'. intros i I. rewrite Z.bits_0. destruct (Z.eq_dec i 13) as [->|N13]; [|destruct (Z.eq_dec i 15) as [->|N15]; [|apply TB; assumption]];
        apply (f_equal (fun z => Z.testbit z 13 || Z.testbit z 15)) in M; rewrite !Z.land_spec, !Z.bits_0 in M; cbn in M; rewrite !andb_true_r in M; apply orb_false_iff in M; tauto.
    + replace (negb (Z.land traits clear_mask =? 0)) with true by lia. rewrite C0, pass_S, N0. reflexivity.
Qed.
Example C80_external_memory_exhausted : freach 4 12 fp3 [(4700, 24); (66036, 200); (4596, 100)] /\ (forall p, In p fp3 -> exhausted 4 12 p 8000) /\
  malloc_traits 4 12 fp3 8000 0x8000 = None /\ option_map snd (malloc_traits 4 12 fp3 8000 0x8001) = Some 0.
Proof.
  split; [exact fp3_reach|]. split; [apply (too_large 4 12 fp3 _ 8000 ex_config fp3_reach); lia|]. split; [|vm_compute; reflexivity].
  apply (C80_types_only_undefined 4 12 fp3 _ 8000 0x8000 ex_config fp3_reach); [right; lia| |lia| |apply (too_large 4 12 fp3 _ 8000 ex_config fp3_reach); lia].
  - intros i I _ N15. change 0x8000 with (2 ^ 15). rewrite Z.pow2_bits_eqb by lia. lia.
  - vm_compute. lia.
Qed.

(* calloc(n, size) arrives as _calloc_r(r, n, size), but only n bytes are allocated: the elements overlap the next block. *)
Theorem C80_calloc_refuted : exists pools A n size pools' p pools'' q k, freach 4 12 pools A /\ 0 < n /\ 0 < size /\ calloc_r 4 12 pools n size = Some (pools', p) /\ p <> 0 /\
  malloc_r 4 12 pools' k = Some (pools'', q) /\ q <> 0 /\ p < q < p + n * size.
Proof.
  exists fp0, [], 100, 8, fp1, 4596, (pools_of (option_map fst (malloc_traits 4 12 fp1 24 9))), 4700, 24. split; [exact fp0_reach|]. split; [lia|]. split; [lia|].
  split; [unfold calloc_r, malloc_r; refine (pools_is _ _ _); vm_compute; reflexivity|]. split; [lia|]. split; [unfold malloc_r; refine (pools_is _ _ _); vm_compute; reflexivity|lia].
Qed.

Print Assumptions C80_initialize.
Print Assumptions C80_live_blocks_are_disjoint.
Print Assumptions C80_malloc.
Print Assumptions C80_free.
Print Assumptions C80_realloc.
Print Assumptions C80_types_only_undefined.
Print Assumptions C80_calloc_refuted.
