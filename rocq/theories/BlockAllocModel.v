(* Model of modm::BlockAllocator: /repo/src/modm/driver/storage/block_allocator.hpp and block_allocator_impl.hpp, and the clamp of
   /repo/src/modm/platform/heap/cortex/heap_block.cpp. T is uint16_t (block_allocator_impl.hpp:72 converts a uint16_t * to T *,
   so no other T compiles). Pointers are byte addresses below 2^pw; the memory is the array of 16 bit words from start to heapEnd.
   None means an access outside that array or a loop that never ends. *)
From Verif Require Import Base.

Section BlockAllocator.
Variable ib : Z.  (* bits of unsigned int *)
Variable pw : Z.  (* bits of a pointer and of size_t *)
Variable BS : Z.  (* BLOCK_SIZE in words *)

(* block_allocator.hpp:81-83; the words from address b_start to the end of the heap *)
Record balloc := mkBA { b_mem : list Z; b_start : Z; b_end : Z; b_hint : Z }.

(* C++ pointer arithmetic on a T * with sizeof(T) == 2, as used in block_allocator_impl.hpp:110-181 *)
Definition padd (p n : Z) : Z := wrap pw (p + 2 * n).
(* *p as used in block_allocator_impl.hpp:97,143,148,156,193 *)
Definition b_read (s : balloc) (p : Z) : option Z :=
  if Z.odd (p - b_start s) then None else znth (b_mem s) ((p - b_start s) / 2).
(* *p = v as used in block_allocator_impl.hpp:74-75,109-118,175-176, with the conversion to T *)
Definition b_write (s : balloc) (p v : Z) : option balloc :=
  if Z.odd (p - b_start s) then None
  else do m <- zupd (b_mem s) ((p - b_start s) / 2) (u16 v); Some (mkBA m (b_start s) (b_end s) (b_hint s)).

(* block_allocator_impl.hpp:210-225; al is max(MODM_ALIGNMENT, 4): 4 or 8 *)
Definition alignPointer (al p : Z) : option Z :=
  do o <- znth (if al =? 8 then [6; 5; 4; 3; 2; 1; 0; 7] else [2; 1; 0; 3]) (Z.land p (al - 1)); Some (wrap pw (p + o)).

(* block_allocator_impl.hpp:60-78; junk is what the memory from start to heapEnd contains *)
Definition ba_initialize (al heapStart heapEnd : Z) (junk : list Z) : option balloc :=
  do start <- alignPointer al heapStart;
  let memory := wrap pw (heapEnd - start - 2) in
  let size := memory / (BS * 2) in
  let stop := wrap pw (start + size * BS * 2) in
  do s <- b_write (mkBA junk start stop start) start (- size);
  b_write s (padd stop (-1)) (- size).

(* block_allocator_impl.hpp:89-92 *)
Definition ba_needed (requestedSize : Z) : Z := wrap pw (wrap pw (requestedSize + 4) + (BS * 2 - 1)) / (BS * 2).
(* block_allocator_impl.hpp:94-128, from address p on; every round but the last advances, so a round per word suffices *)
Fixpoint ba_search (fuel : nat) (s : balloc) (neededSlots p : Z) : option (balloc * Z) :=
  match fuel with
  | O => None
  | S f =>
      do w <- b_read s p;
      let slots := swrap 16 w in
      let freeSlots := u16 (swrap 16 (- slots)) in
      if (slots <? 0) && (neededSlots <=? freeSlots) then
        do s <- b_write s p neededSlots;
        do s <- b_write s (padd (padd p (wrap pw (neededSlots * BS))) (-1)) neededSlots;
        if neededSlots <? freeSlots then
          do s <- b_write s (padd p (wrap pw (neededSlots * BS))) (- (freeSlots - neededSlots));
          do s <- b_write s (padd (padd p (wrap ib (freeSlots * BS))) (-1)) (- (freeSlots - neededSlots));
          Some (s, padd p 1)
        else Some (s, padd p 1)
      else
        let slots := if slots <? 0 then swrap 16 (- slots) else slots in
        let p := padd p (wrap ib (slots * BS)) in
        if p <? b_end s then ba_search f s neededSlots p else Some (s, 0)
  end.
(* block_allocator_impl.hpp:85-129 *)
Definition ba_allocate (s : balloc) (requestedSize : Z) : option (balloc * Z) :=
  ba_search (S (length (b_mem s))) s (ba_needed requestedSize) (b_hint s).

(* block_allocator_impl.hpp:132-182 *)
Definition ba_free (s : balloc) (ptr : Z) : option balloc :=
  if ptr =? 0 then Some s
  else
    let p := padd ptr (-1) in
    do w <- b_read s p;
    let slots := swrap 16 w in
    let freeSlots := u16 slots in
    let above := padd p (wrap ib (slots * BS)) in
    do freeSlots <- (if above <? b_end s
                     then do w <- b_read s above;
                          let slots := swrap 16 w in Some (if slots <? 0 then u16 (freeSlots + - slots) else freeSlots)
                     else Some freeSlots);
    do (p, freeSlots) <- (if b_start s <=? padd p (-1)
                          then do w <- b_read s (padd p (-1));
                               let slots := swrap 16 w in
                               Some (if slots <? 0 then (padd p (wrap ib (slots * BS)), u16 (freeSlots + - slots)) else (p, freeSlots))
                          else Some (p, freeSlots));
    do s <- b_write s p (- freeSlots);
    do s <- b_write s (padd (padd p (wrap ib (freeSlots * BS))) (-1)) (- freeSlots);
    Some (if p <? b_hint s then mkBA (b_mem s) (b_start s) (b_end s) p else s).

(* block_allocator_impl.hpp:192-206 *)
Fixpoint ba_sum (fuel : nat) (s : balloc) (p size : Z) : option Z :=
  match fuel with
  | O => None
  | S f =>
      do w <- b_read s p;
      let slots := swrap 16 w in
      let size := if slots <? 0 then wrap pw (size + wrap pw (wrap ib (swrap 16 (- slots) * BS) * 2)) else size in
      let slots := if slots <? 0 then swrap 16 (- slots) else slots in
      let p := padd p (wrap ib (slots * BS)) in
      if p <? b_end s then ba_sum f s p size else Some size
  end.
(* block_allocator_impl.hpp:184-207 *)
Definition ba_getAvailableSize (s : balloc) : option Z := ba_sum (S (length (b_mem s))) s (b_start s) 0.

(* ---- executions: allocate, free, and a user who writes the word at an address ---- *)
(* block_allocator.hpp:56-68 *)
Inductive ba_event := EAlloc (requestedSize : Z) | EFree (ptr : Z) | EWrite (address value : Z).
(* block_allocator.hpp:56-68: the result is the pointer returned by allocate, 0 otherwise *)
Definition ba_step (s : balloc) (e : ba_event) : option (balloc * Z) :=
  match e with
  | EAlloc n => ba_allocate s n
  | EFree p => do s <- ba_free s p; Some (s, 0)
  | EWrite a v => do s <- b_write s a v; Some (s, 0)
  end.
(* a sequence of calls of block_allocator.hpp:56-68 *)
Fixpoint ba_run (s : balloc) (es : list ba_event) : option (balloc * list Z) :=
  match es with
  | [] => Some (s, [])
  | e :: r => do (s, x) <- ba_step s e; do (s, xs) <- ba_run s r; Some (s, x :: xs)
  end.
End BlockAllocator.

(* heap_block.cpp:35-37, 48-50: the clamp of the heap before initialize; chunk is MODM_MEMORY_BLOCK_ALLOCATOR_CHUNK_SIZE *)
Definition clamp_heap (chunk heapStart heapEnd : Z) : Z :=
  let max_heap_size := 65536 * chunk in
  if max_heap_size <? heapEnd - heapStart then heapStart + max_heap_size else heapEnd.
