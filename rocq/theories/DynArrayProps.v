(* C08: DynamicArray behaves like a sequence with a capacity and manages its storage. *)
From Verif Require Import Base PtrHeap DynArraySpec DynArrayModel DynArrayProofs.

(* an address the allocator may return: any that is not null and not in use *)
Definition address_contract (alloc : Z -> list Z -> Z) : Prop := forall k live, alloc k live <> 0 /\ ~ In (alloc k live) live.
(* an allocator *)
Definition above (k : Z) (live : list Z) : Z := 1 + fold_right Z.max 0 live.
Lemma above_contract : address_contract above.
Proof.
  intros k live. unfold above.
  assert (forall x, In x live -> x <= fold_right Z.max 0 live) as H.
  { induction live as [|y t IH]; [intros x []|]. intros x [->|I]; cbn; [lia|]. specialize (IH x I). lia. }
  assert (0 <= fold_right Z.max 0 live) by (clear; induction live; cbn; lia).
  split; [lia|]. intro I. specialize (H _ I). lia.
Qed.

(* Every sequence of sensible, supported calls on any number of arrays is carried out without undefined behaviour and gives the
   answers of the sequences; wherever the allocator puts the buffers. *)
Theorem C08_sequence V (eqb : V -> V -> bool) w esz alloc cs m rs : 0 < w -> 0 < esz -> address_contract alloc ->
  arr_calls eqb ((2 ^ w - 1) / esz) (fun _ => None) cs = Some (m, rs) ->
  all_supported eqb ((2 ^ w - 1) / esz) (fun _ => None) cs ->
  exists s, da_calls eqb w esz alloc world0 cs = Some (s, rs).
Proof.
  intros Hw He Ha E U. destruct (calls_ok eqb w esz alloc Hw He Ha cs world0 _ _ _ (wrep0 w esz) E U) as (s & H & _). eauto.
Qed.
Print Assumptions C08_sequence.
Definition demo : list (acall Z) :=
  [ANewList 1 [10; 20]; AAppend 1 30; AGetCapacity 1; AAppend 1 40; AAppendElement 1 1 0; AGetCapacity 1; ACopy 2 1; ASet 2 0 7; AIterate 1; AIterate 2;
   ARemoveBack 2; ARemoveBack 2; AGetBack 2; AAssign 1 2; AIterate 1; AFind 1 30; AFind 1 99; AReserve 1 3; AGetCapacity 1; AClear 2; AAppend 2 1; AGetCapacity 2;
   AGetSize 1; ANewFill 3 3 5; AGetFront 3; ARemoveAll 3; AIsEmpty 3].
Example C08_sequence_case :
  (exists m, arr_calls Z.eqb ((2 ^ 32 - 1) / 4) (fun _ => None) demo = Some (m,
    [RVoid; RVoid; RNumber 3; RVoid; RVoid; RNumber 5; RVoid; RVoid; RValues [10; 20; 30; 40; 10]; RValues [7; 20; 30; 40; 10];
     RVoid; RVoid; RValue 30; RVoid; RValues [7; 20; 30]; RNumber 2; RNumber 3; RVoid; RNumber 6; RVoid; RVoid; RNumber 1;
     RNumber 3; RVoid; RValue 5; RVoid; RBool true])) /\
  all_supported Z.eqb ((2 ^ 32 - 1) / 4) (fun _ => None) demo /\ address_contract above.
Proof.
  split; [eexists; vm_compute; reflexivity|]. split; [|exact above_contract].
  assert (forall x, (2 ^ 32 - 1) / 4 = x -> x = 1073741823) as L by (intros x <-; reflexivity).
  rewrite (L _ eq_refl). clear L.
  unfold demo. cbn [all_supported supported].
  repeat match goal with
  | |- _ /\ _ => split
  | |- True => exact I
  | |- _ \/ _ => left; discriminate
  | |- forall m' r, arr_call _ _ ?m ?c = Some (m', r) -> _ =>
      let v := eval vm_compute in (arr_call Z.eqb 1073741823 m c) in
      let H := fresh in
      intros m' r H; change (v = Some (m', r)) in H; injection H as <- <-
  end.
  right. do 2 eexists. split; [reflexivity|]. reflexivity.
Qed.

(* The storage: every array has at most as many elements as its capacity, which is the size of its only buffer; every buffer
   belongs to exactly one array, so that nothing is leaked; elements are constructed exactly in the cells below the size. *)
Theorem C08_storage V (eqb : V -> V -> bool) w esz alloc cs m rs s : 0 < w -> 0 < esz -> address_contract alloc ->
  arr_calls eqb ((2 ^ w - 1) / esz) (fun _ => None) cs = Some (m, rs) ->
  all_supported eqb ((2 ^ w - 1) / esz) (fun _ => None) cs ->
  da_calls eqb w esz alloc world0 cs = Some (s, rs) ->
  (forall x vs c, m x = Some (vs, c) -> zlen vs <= c /\
     exists a, w_vars s x = Some a /\ da_size a = zlen vs /\ da_capacity a = c /\
       (c = 0 \/ hget (w_heap s) (da_values a) = Some (map Some vs ++ repeat None (Z.to_nat (c - zlen vs))))) /\
  (forall p, In p (map fst (w_heap s)) -> exists x a, w_vars s x = Some a /\ da_values a = p) /\
  (forall x y a b, w_vars s x = Some a -> w_vars s y = Some b -> x <> y -> da_values a = da_values b -> da_values a = 0) /\
  NoDup (map fst (w_heap s)).
Proof.
  intros Hw He Ha E U D. destruct (calls_ok eqb w esz alloc Hw He Ha cs world0 _ _ _ (wrep0 w esz) E U) as (s' & H & O & A & N & K).
  rewrite D in H. injection H as <-. split; [|split; [|split]].
  - intros x vs c Hx. specialize (A x). rewrite Hx in A. destruct (w_vars s x) as [a|]; [|destruct A]. destruct A as (S & C & L & B).
    split; [lia|]. exists a. repeat split; auto. destruct B as [[_ B]|[_ B]]; auto.
  - intros p Hp. destruct (K p Hp) as [x Hx]. exists x. destruct (w_vars s x) as [a|]; [eauto|]. cbn in Hx. subst p. destruct O. contradiction.
  - intros x y a b Hx Hy Nxy Q. specialize (N x y Nxy). rewrite Hx, Hy in N. auto.
  - apply O.
Qed.
Print Assumptions C08_storage.
Definition demo2 : list (acall Z) := [ANew 1; AAppend 1 5; AAppend 1 6; AAppend 1 7; ACopy 2 1; ADelete 1].
Example C08_storage_case :
  exists m s, arr_calls Z.eqb ((2 ^ 32 - 1) / 4) (fun _ => None) demo2 = Some (m, repeat RVoid 6) /\
    da_calls Z.eqb 32 4 above world0 demo2 = Some (s, repeat RVoid 6) /\ m 2 = Some ([5; 6; 7], 3) /\
    w_heap s = [(4, [Some 5; Some 6; Some 7])].
Proof. do 2 eexists. split; [vm_compute; reflexivity|]. split; [vm_compute; reflexivity|]. split; vm_compute; reflexivity. Qed.

(* When all arrays are gone, so are all buffers. *)
Theorem C08_destructor V (eqb : V -> V -> bool) w esz alloc cs m rs s : 0 < w -> 0 < esz -> address_contract alloc ->
  arr_calls eqb ((2 ^ w - 1) / esz) (fun _ => None) cs = Some (m, rs) ->
  all_supported eqb ((2 ^ w - 1) / esz) (fun _ => None) cs ->
  da_calls eqb w esz alloc world0 cs = Some (s, rs) ->
  (forall x, m x = None) -> w_heap s = [].
Proof.
  intros Hw He Ha E U D N. destruct (calls_ok eqb w esz alloc Hw He Ha cs world0 _ _ _ (wrep0 w esz) E U) as (s' & H & O & A & _ & K).
  rewrite D in H. injection H as <-. destruct (w_heap s) as [|[p b] h] eqn:Eh; [reflexivity|]. exfalso.
  destruct (K p (or_introl eq_refl)) as [x Hx]. specialize (A x). rewrite N in A. destruct (w_vars s x); [destruct A|].
  cbn in Hx. subst p. destruct O as [_ O]. apply O. left. reflexivity.
Qed.
Print Assumptions C08_destructor.
Example C08_destructor_case :
  exists m s, arr_calls Z.eqb ((2 ^ 32 - 1) / 4) (fun _ => None) (demo2 ++ [ADelete 2]) = Some (m, repeat RVoid 7) /\
    da_calls Z.eqb 32 4 above world0 (demo2 ++ [ADelete 2]) = Some (s, repeat RVoid 7) /\
    m 1 = None /\ m 2 = None.
Proof. do 2 eexists. split; [vm_compute; reflexivity|]. split; [vm_compute; reflexivity|]. split; vm_compute; reflexivity. Qed.

(* Without the restriction to supported calls the claim is false. After any sensible program, assigning an array with elements to
   itself reads elements that are no longer there. *)
Theorem C08_self_assignment_undefined V (eqb : V -> V -> bool) w esz alloc cs m rs x v vs c : 0 < w -> 0 < esz -> address_contract alloc ->
  arr_calls eqb ((2 ^ w - 1) / esz) (fun _ => None) cs = Some (m, rs) ->
  all_supported eqb ((2 ^ w - 1) / esz) (fun _ => None) cs -> m x = Some (v :: vs, c) ->
  exists s, da_calls eqb w esz alloc world0 cs = Some (s, rs) /\ da_call eqb w esz alloc s (AAssign x x) = None /\
    arr_call eqb ((2 ^ w - 1) / esz) m (AAssign x x) = Some (put m x (Some (v :: vs, c)), RVoid).
Proof.
  intros Hw He Ha E U Hx. destruct (calls_ok eqb w esz alloc Hw He Ha cs world0 _ _ _ (wrep0 w esz) E U) as (s & H & W).
  exists s. split; [exact H|]. split; [|cbn; rewrite Hx; reflexivity].
  destruct (var_ok w esz s m x _ _ W Hx) as (a & Ea & Aa). cbn [da_call]. unfold on. rewrite Ea. cbn [obind]. rewrite Z.eqb_refl.
  rewrite (assign_self_bad eqb w esz alloc Hw He Ha (w_heap s) a v vs c (alloc (w_time s)) (proj1 W) (Ha (w_time s)) Aa). reflexivity.
Qed.
Print Assumptions C08_self_assignment_undefined.
Example C08_self_assignment_case : exists m, arr_calls Z.eqb ((2 ^ 32 - 1) / 4) (fun _ => None) [ANewList 1 [5; 6]] = Some (m, [RVoid]) /\
  m 1 = Some ([5; 6], 2) /\ da_calls Z.eqb 32 4 above world0 [ANewList 1 [5; 6]; AAssign 1 1] = None.
Proof. eexists. split; [vm_compute; reflexivity|]. split; vm_compute; reflexivity. Qed.

(* And appending an element of the array itself when the array has to grow reads the released buffer. *)
Theorem C08_append_own_element_undefined V (eqb : V -> V -> bool) w esz alloc cs m rs x vs i : 0 < w -> 0 < esz -> address_contract alloc ->
  arr_calls eqb ((2 ^ w - 1) / esz) (fun _ => None) cs = Some (m, rs) ->
  all_supported eqb ((2 ^ w - 1) / esz) (fun _ => None) cs -> m x = Some (vs, zlen vs) -> 0 <= i < zlen vs ->
  grown (zlen vs) <= (2 ^ w - 1) / esz ->
  exists s, da_calls eqb w esz alloc world0 cs = Some (s, rs) /\ da_call eqb w esz alloc s (AAppendElement x x i) = None /\
    arr_call eqb ((2 ^ w - 1) / esz) m (AAppendElement x x i) <> None.
Proof.
  intros Hw He Ha E U Hx Hi Hg. destruct (calls_ok eqb w esz alloc Hw He Ha cs world0 _ _ _ (wrep0 w esz) E U) as (s & H & W).
  exists s. split; [exact H|]. split.
  - destruct (var_ok w esz s m x _ _ W Hx) as (a & Ea & Aa). cbn [da_call]. unfold on. rewrite Ea. cbn [obind].
    rewrite (append_own_bad eqb w esz alloc Hw He Ha (w_heap s) a vs (zlen vs) i (alloc (w_time s)) (proj1 W) (Ha (w_time s)) Aa); auto. lia.
  - cbn [arr_call]. rewrite Hx. destruct (0 <=? i) eqn:Q; [|lia]. destruct (znth_in_range vs i Hi) as [v Hv]. unfold znth in Hv.
    assert ((i <? 0) = false) as Q1 by lia; rewrite Q1 in Hv. rewrite Hv. unfold added, size. unfold zlen in Hg. unfold zlen at 1. rewrite Z.ltb_irrefl.
    assert (Z.leb (grown (Z.of_nat (length vs))) ((2 ^ w - 1) / esz) = true) as Q2 by lia. rewrite Q2. discriminate.
Qed.
Print Assumptions C08_append_own_element_undefined.
Example C08_append_own_element_case : exists m, arr_calls Z.eqb ((2 ^ 32 - 1) / 4) (fun _ => None) [ANewList 1 [5; 6]] = Some (m, [RVoid]) /\
  m 1 = Some ([5; 6], zlen [5; 6]) /\ grown (zlen [5; 6]) <= (2 ^ 32 - 1) / 4 /\
  da_calls Z.eqb 32 4 above world0 [ANewList 1 [5; 6]; AAppendElement 1 1 0] = None.
Proof. eexists. split; [vm_compute; reflexivity|]. split; [vm_compute; reflexivity|]. split; [vm_compute; discriminate|vm_compute; reflexivity]. Qed.

(* So the full claim is false, whatever the allocator does. *)
Theorem C08_all_calls_refuted : exists (cs1 cs2 : list (acall Z)) (m1 m2 : arrays Z) (rs1 rs2 : list (result Z)),
  arr_calls Z.eqb ((2 ^ 32 - 1) / 4) (fun _ => None) cs1 = Some (m1, rs1) /\ arr_calls Z.eqb ((2 ^ 32 - 1) / 4) (fun _ => None) cs2 = Some (m2, rs2) /\
  forall alloc, address_contract alloc -> da_calls Z.eqb 32 4 alloc world0 cs1 = None /\ da_calls Z.eqb 32 4 alloc world0 cs2 = None.
Proof.
  exists [ANewList 1 [5; 6]; AAssign 1 1], [ANewList 1 [5; 6]; AAppendElement 1 1 0]. do 4 eexists.
  split; [vm_compute; reflexivity|]. split; [vm_compute; reflexivity|]. intros alloc Ha. cbn [da_calls].
  destruct (C08_self_assignment_undefined Z Z.eqb 32 4 alloc [ANewList 1 [5; 6]] (put (fun _ => None) 1 (Some ([5; 6], 2))) [RVoid] 1 5 [6] 2)
    as (s & E & F & _); [lia|lia|exact Ha|vm_compute; reflexivity|cbn; tauto|reflexivity|].
  destruct (C08_append_own_element_undefined Z Z.eqb 32 4 alloc [ANewList 1 [5; 6]] (put (fun _ => None) 1 (Some ([5; 6], 2))) [RVoid] 1 [5; 6] 0)
    as (s' & E' & G & _); [lia|lia|exact Ha|vm_compute; reflexivity|cbn; tauto|reflexivity|vm_compute; split; [discriminate|reflexivity]|vm_compute; discriminate|].
  rewrite E in E'. injection E' as <-. cbn [da_calls] in E.
  destruct (da_call Z.eqb 32 4 alloc world0 (ANewList 1 [5; 6])) as [[s1 r1]|]; [|discriminate]. cbn [obind] in E |- *. injection E as -> _.
  rewrite F, G. split; reflexivity.
Qed.
Print Assumptions C08_all_calls_refuted.

(* reserve(n) with size + n beyond the range of size_t allocates too little and then writes behind the buffer. *)
Theorem C08_reserve_overflow_refuted : exists h a h1,
  da_new_list 32 4 [] [5; 6; 7] (above 0) = Some (h, a) /\ da_size a = 3 /\
  da_reserve 32 4 h a (2 ^ 32 - 2) (above 1) = None /\
  da_reserve 32 4 h (mkDA 0 0 0) (2 ^ 30) (above 1) = Some (h1, mkDA 0 (2 ^ 30) 2) /\ hget h1 2 = Some [].
Proof. do 3 eexists. split; [vm_compute; reflexivity|]. split; [vm_compute; reflexivity|]. split; [vm_compute; reflexivity|]. split; vm_compute; reflexivity. Qed.
Print Assumptions C08_reserve_overflow_refuted.

(* removeBack of an empty array is undefined; find returns the size for an absent value *)
Theorem C08_removeBack_empty_undefined V w (h : dheap V) a : 0 < w -> okh h -> da_size a = 0 ->
  da_values a = 0 \/ (exists n, hget h (da_values a) = Some (repeat None n)) -> da_removeBack w h a = None.
Proof.
  intros Hw [_ Z0] S B. unfold da_removeBack, d_destroy. destruct B as [B|[n B]].
  - rewrite B, (hget_None h 0 Z0). reflexivity.
  - rewrite B. cbn [obind]. destruct (znth (repeat (@None V) n) (wrap w (da_size a - 1))) as [[v|]|] eqn:E; cbn [obind]; try reflexivity.
    exfalso. unfold znth in E. destruct (_ <? 0); [discriminate|]. apply nth_error_In, repeat_spec in E. discriminate.
Qed.
Print Assumptions C08_removeBack_empty_undefined.
Example C08_removeBack_empty_case : da_removeBack 16 [(8, repeat (@None Z) 4)] (mkDA 0 4 8) = None.
Proof. vm_compute. reflexivity. Qed.
