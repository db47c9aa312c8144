(* Model of the C heap on top of TLSF, /repo/src/modm/platform/heap/cortex/heap_tlsf.cpp. The memory of each allocator is kept apart: the
   allocators own different sections and C74 shows that none writes outside its own. None means undefined behaviour. *)
From Verif Require Import Base TlsfModel TlsfSpec.

Section Front.
Variables K F : Z.

(* heap_tlsf.cpp:28-35: a used element of mem_pools; unused ones are all zero and follow the used ones *)
Record pool := Pl { ptraits : Z; ctl : Z; pend : Z; hs : st }.
(* heap_tlsf.cpp:24-26 *)
Definition max_pools : nat := 6.
(* one section of the heap table: traits, start, end, heap_tlsf.cpp:47 *)
Definition section := (Z * Z * Z)%type.

(* tlsf_create_with_pool, /repo/ext/tlsf/tlsf.c.in:1079-1103: with a misaligned address tlsf_create returns a null pointer and
   tlsf_add_pool refuses the equally misaligned address; otherwise the result of tlsf_add_pool is ignored *)
Definition create_with_pool (m : Z -> Z) (start size : Z) : option (option st) :=
  if negb (start mod 4 =? 0) then Some None
  else do r <- tlsf_add_pool K F start (control_construct start m) (u32 (start + ctl_bytes K F)) (u32 (size - ctl_bytes K F)); Some (Some (fst r)).

(* the last used element and the ones before, heap_tlsf.cpp:54,67-69: (current_pool - 1) *)
Definition split_last (pools : list pool) : option (list pool * pool) :=
  match rev pools with [] => None | p :: r => Some (rev r, p) end.
(* the body of the loop, heap_tlsf.cpp:48-70; cur is current_traits *)
Definition init_step (m : Z -> Z) (pools : list pool) (cur : Z) (x : section) : option (list pool * Z) :=
  let '(tr, start, fin) := x in
  let size := u32 (fin - start) in
  let create :=
    do r <- create_with_pool m start size;
    match r with Some s => Some (pools ++ [Pl tr start fin s], tr) | None => Some (pools, cur) end in
  if negb (tr =? cur) then create
  else
    do lp <- split_last pools;
    let '(before, p) := lp in
    if negb (start =? pend p) then create
    else
      do r <- tlsf_add_pool K F (ctl p) (hs p) start size;
      let '(s, res) := r in
      Some (before ++ [Pl (ptraits p) (ctl p) (if res =? 0 then pend p else fin) s], cur).
(* heap_tlsf.cpp:48-51: the loop ends early when mem_pools is full *)
Fixpoint init_loop (m : Z -> Z) (pools : list pool) (cur : Z) (table : list section) : option (list pool) :=
  match table with
  | [] => Some pools
  | x :: r => if (max_pools <=? length pools)%nat then Some pools
              else do pc <- init_step m pools cur x; init_loop m (fst pc) (snd pc) r
  end.
(* __modm_initialize_memory, heap_tlsf.cpp:40-71 *)
Definition initialize (m : Z -> Z) (table : list section) : option (list pool) := init_loop m [] 0 table.

(* the used elements in the loop of malloc_traits, heap_tlsf.cpp:95-106 *)
Fixpoint try_pools (pools : list pool) (size traits : Z) : option (list pool * Z) :=
  match pools with
  | [] => Some ([], 0)
  | p :: r =>
      if Z.land (ptraits p) traits =? traits then
        do x <- tlsf_malloc K F (ctl p) (hs p) size;
        let '(s, q) := x in
        let p := Pl (ptraits p) (ctl p) (pend p) s in
        if negb (q =? 0) then Some (p :: r, q)
        else do y <- try_pools r size traits; Some (p :: fst y, snd y)
      else do y <- try_pools r size traits; Some (p :: fst y, snd y)
  end.
(* the whole loop, heap_tlsf.cpp:95-106: an unused element has no traits and matches when none are asked for, and then tlsf_malloc gets a
   null pointer *)
Definition try_all (pools : list pool) (size traits : Z) : option (list pool * Z) :=
  do x <- try_pools pools size traits;
  if negb (snd x =? 0) then Some x
  else if (Z.land 0 traits =? traits) && (length pools <? max_pools)%nat then None else Some x.
(* heap_tlsf.cpp:110-111: TypeExternal and TypeCoreCoupled, /repo/src/modm/architecture/interface/memory.hpp:39-41 *)
Definition clear_mask : Z := 2 ^ 15 + 2 ^ 13.
(* heap_tlsf.cpp:117: AccessSBus, memory.hpp:29 *)
Definition set_mask : Z := 1.
(* malloc_traits, heap_tlsf.cpp:92-126; the gotos as a count of passes, three at most (two after which one of the masks no longer applies) *)
Fixpoint malloc_passes (n : nat) (pools : list pool) (size traits : Z) : option (list pool * Z) :=
  match n with
  | O => None
  | S n =>
      do x <- try_all pools size traits;
      if negb (snd x =? 0) then Some x
      else if negb (Z.land traits clear_mask =? 0) then malloc_passes n (fst x) size (Z.land traits (u32 (Z.lnot clear_mask)))
      else if Z.land traits set_mask =? 0 then malloc_passes n (fst x) size (Z.lor traits set_mask)
      else Some (fst x, 0)
  end.
Definition malloc_traits (pools : list pool) (size traits : Z) : option (list pool * Z) := malloc_passes 4 pools size traits. (* heap_tlsf.cpp:92-126 *)
(* __wrap__malloc_r, heap_tlsf.cpp:128-133: AccessSBus and AccessDMA *)
Definition malloc_r (pools : list pool) (size : Z) : option (list pool * Z) := malloc_traits pools size 9.
(* __wrap__calloc_r, heap_tlsf.cpp:135-140, takes one size. newlib calls _calloc_r(r, n, size) with the number of elements second, so that is
   what arrives. memset is not modelled. *)
Definition calloc_r (pools : list pool) (n size : Z) : option (list pool * Z) := malloc_r pools n.

(* get_tlsf_for_ptr, heap_tlsf.cpp:73-88, with the elements before and after; unused elements never match *)
Fixpoint find_pool (pools : list pool) (p : Z) : option (list pool * pool * list pool) :=
  match pools with
  | [] => None
  | x :: r => if (ctl x <? p) && (p <? pend x) then Some ([], x, r)
              else match find_pool r p with Some (a, y, b) => Some (x :: a, y, b) | None => None end
  end.
(* __wrap__free_r, heap_tlsf.cpp:158-167; a failed debug assertion continues *)
Definition free_r (pools : list pool) (p : Z) : option (list pool) :=
  if p =? 0 then Some pools
  else match find_pool pools p with
       | None => Some pools
       | Some (a, x, b) => do s <- tlsf_free K F (ctl x) (hs x) p; Some (a ++ Pl (ptraits x) (ctl x) (pend x) s :: b)
       end.
(* __wrap__realloc_r, heap_tlsf.cpp:142-156 *)
Definition realloc_r (pools : list pool) (p size : Z) : option (list pool * Z) :=
  if p =? 0 then malloc_r pools size
  else match find_pool pools p with
       | None => Some (pools, 0)
       | Some (a, x, b) =>
           do r <- tlsf_realloc K F (ctl x) (hs x) p size;
           let '(s, q) := r in Some (a ++ Pl (ptraits x) (ctl x) (pend x) s :: b, q)
       end.
End Front.
