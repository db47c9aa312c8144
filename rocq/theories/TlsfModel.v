(* Model of the TLSF heap allocator /repo/ext/tlsf/tlsf.c.in as modm builds it: 32 bit Cortex-M only (module.lb:41-44), so pointers,
   size_t and unsigned int have 32 bits and ALIGN_SIZE is 4 (tlsf.c.in:233-241). tlsf_assert and printf do nothing (tlsf.c.in:23-25).
   The memory is a map from word addresses to words: every access of the allocator is to a whole aligned word. The bitmaps and list
   heads of control_t are kept beside it, its block_null is at address [null] of that memory. None means that an array of control_t
   is accessed outside its bounds, which C leaves undefined. *)
From Verif Require Import Base.

Section Tlsf.
Variable K : Z.     (* SL_INDEX_COUNT_LOG2, tlsf.c.in:15,229; module.lb:70: 4 or 5 *)
Variable F : Z.     (* FL_INDEX_MAX, tlsf.c.in:16,262; module.lb:71: 12 to 29 *)
Variable null : Z.  (* &control->block_null, which is also the address of control_t, tlsf.c.in:363-366 *)

(* tlsf.c.in:264 *)
Definition SLC : Z := 2 ^ K.
(* tlsf.c.in:265-266, FL_INDEX_SHIFT is K + 2 *)
Definition FLC : Z := F - (K + 2) + 1.
(* tlsf.c.in:268 *)
Definition SMALL : Z := 2 ^ (K + 2).
(* tlsf.c.in:359 *)
Definition size_max : Z := 2 ^ F.
(* tlsf.c.in:357-358: four words less one pointer *)
Definition size_min : Z := 12.

(* tlsf.c.in:363-374 and the memory; a block_header_t at b has prev_phys_block at b, size at b + 4, next_free at b + 8 and
   prev_free at b + 12 (tlsf.c.in:320-331) *)
Record st := St { mem : Z -> Z; flb : Z; slb : Z -> Z; heads : Z -> Z -> Z }.

(* reading a word, as used throughout tlsf.c.in:383-1267 *)
Definition rd (s : st) (a : Z) : Z := mem s a.
(* writing a word, as used throughout tlsf.c.in:383-1267 *)
Definition wr (s : st) (a v : Z) : st := St (fun x => if x =? a then v else mem s x) (flb s) (slb s) (heads s).
(* control->sl_bitmap[i], tlsf.c.in:370 *)
Definition get_sl (s : st) (i : Z) : option Z := if (0 <=? i) && (i <? FLC) then Some (slb s i) else None.
(* the assignment control->sl_bitmap[i] = v, tlsf.c.in:370 *)
Definition set_sl (s : st) (i v : Z) : option st :=
  if (0 <=? i) && (i <? FLC) then Some (St (mem s) (flb s) (fun x => if x =? i then v else slb s x) (heads s)) else None.
(* control->blocks[i][j], tlsf.c.in:373 *)
Definition get_head (s : st) (i j : Z) : option Z :=
  if (0 <=? i) && (i <? FLC) && (0 <=? j) && (j <? SLC) then Some (heads s i j) else None.
(* the assignment control->blocks[i][j] = v, tlsf.c.in:373 *)
Definition set_head (s : st) (i j v : Z) : option st :=
  if (0 <=? i) && (i <? FLC) && (0 <=? j) && (j <? SLC)
  then Some (St (mem s) (flb s) (slb s) (fun x y => if (x =? i) && (y =? j) then v else heads s x y)) else None.
(* the assignment control->fl_bitmap = v, tlsf.c.in:369 *)
Definition set_fl (s : st) (v : Z) : st := St (mem s) v (slb s) (heads s).

(* tlsf.c.in:80-83; __builtin_ffs finds the least significant set bit and counts from one *)
Definition tlsf_ffs (w : Z) : Z := match find (fun i => Z.testbit w (Z.of_nat i)) (seq 0 32) with Some i => Z.of_nat i | None => -1 end.
(* tlsf.c.in:87-91,213; 31 - __builtin_clz is the index of the most significant set bit *)
Definition tlsf_fls (w : Z) : Z := if w =? 0 then -1 else Z.log2 w.

(* tlsf.c.in:383-386 *)
Definition block_size (s : st) (b : Z) : Z := Z.land (rd s (b + 4)) (2 ^ 32 - 4).
(* tlsf.c.in:388-392 *)
Definition block_set_size (s : st) (b size : Z) : st :=
  let oldsize := rd s (b + 4) in wr s (b + 4) (Z.lor size (Z.land oldsize 3)).
(* tlsf.c.in:394-397 *)
Definition block_is_last (s : st) (b : Z) : bool := block_size s b =? 0.
(* tlsf.c.in:399-402 *)
Definition block_is_free (s : st) (b : Z) : bool := negb (Z.land (rd s (b + 4)) 1 =? 0).
(* tlsf.c.in:404-407 *)
Definition block_set_free (s : st) (b : Z) : st := wr s (b + 4) (Z.lor (rd s (b + 4)) 1).
(* tlsf.c.in:409-412 *)
Definition block_set_used (s : st) (b : Z) : st := wr s (b + 4) (Z.land (rd s (b + 4)) (2 ^ 32 - 1 - 1)).
(* tlsf.c.in:414-417 *)
Definition block_is_prev_free (s : st) (b : Z) : bool := negb (Z.land (rd s (b + 4)) 2 =? 0).
(* tlsf.c.in:419-422 *)
Definition block_set_prev_free (s : st) (b : Z) : st := wr s (b + 4) (Z.lor (rd s (b + 4)) 2).
(* tlsf.c.in:424-427 *)
Definition block_set_prev_used (s : st) (b : Z) : st := wr s (b + 4) (Z.land (rd s (b + 4)) (2 ^ 32 - 1 - 2)).
(* tlsf.c.in:429-433; block_start_offset is 8 (tlsf.c.in:349-350) *)
Definition block_from_ptr (p : Z) : Z := u32 (p - 8).
(* tlsf.c.in:435-439 *)
Definition block_to_ptr (b : Z) : Z := u32 (b + 8).
(* tlsf.c.in:442-445 *)
Definition offset_to_block (p size : Z) : Z := u32 (p + size).
(* tlsf.c.in:448-452 *)
Definition block_prev (s : st) (b : Z) : Z := rd s b.
(* tlsf.c.in:455-461; block_header_overhead is 4 (tlsf.c.in:346) *)
Definition block_next (s : st) (b : Z) : Z := offset_to_block (block_to_ptr b) (u32 (block_size s b - 4)).
(* tlsf.c.in:464-469 *)
Definition block_link_next (s : st) (b : Z) : st * Z := let next := block_next s b in (wr s next b, next).
(* tlsf.c.in:471-477 *)
Definition block_mark_as_free (s : st) (b : Z) : st :=
  let '(s, next) := block_link_next s b in
  let s := block_set_prev_free s next in
  block_set_free s b.
(* tlsf.c.in:479-484 *)
Definition block_mark_as_used (s : st) (b : Z) : st :=
  let next := block_next s b in
  let s := block_set_prev_used s next in
  block_set_used s b.

(* tlsf.c.in:486-490 *)
Definition align_up (x align : Z) : Z := Z.land (u32 (x + (align - 1))) (u32 (Z.lnot (align - 1))).
(* tlsf.c.in:492-496 *)
Definition align_down (x align : Z) : Z := u32 (x - Z.land x (align - 1)).
(* tlsf.c.in:498-504 *)
Definition align_ptr (p align : Z) : Z := Z.land (u32 (p + (align - 1))) (u32 (Z.lnot (align - 1))).
(* tlsf.c.in:510-519 *)
Definition adjust_request_size (size align : Z) : Z :=
  if negb (size =? 0) && (size <? size_max) then Z.max (align_up size align) size_min else 0.

(* tlsf.c.in:526-543; FL_INDEX_SHIFT - 1 is K + 1 *)
Definition mapping_insert (size : Z) : Z * Z :=
  if size <? SMALL then (0, size / (SMALL / SLC))
  else let fl := tlsf_fls size in
       let sl := Z.lxor (size / 2 ^ (fl - K)) (2 ^ K) in
       (fl - (K + 1), sl).
(* tlsf.c.in:546-554 *)
Definition mapping_search (size : Z) : Z * Z :=
  let size := if SMALL <=? size then u32 (size + (2 ^ (tlsf_fls size - K) - 1)) else size in
  mapping_insert size.

(* tlsf.c.in:556-586; the result is the block and the indices, the block 0 for none; ~0U << i keeps the bits from i on *)
Definition search_suitable_block (s : st) (fl sl : Z) : option (Z * Z * Z) :=
  do m <- get_sl s fl;
  let sl_map := Z.land m (u32 (Z.shiftl (2 ^ 32 - 1) sl)) in
  if sl_map =? 0 then
    let fl_map := Z.land (flb s) (u32 (Z.shiftl (2 ^ 32 - 1) (fl + 1))) in
    if fl_map =? 0 then Some (0, fl, sl)
    else
      let fl := tlsf_ffs fl_map in
      do sl_map <- get_sl s fl;
      let sl := tlsf_ffs sl_map in
      do b <- get_head s fl sl; Some (b, fl, sl)
  else
    let sl := tlsf_ffs sl_map in
    do b <- get_head s fl sl; Some (b, fl, sl).

(* tlsf.c.in:589-615 *)
Definition remove_free_block (s : st) (b fl sl : Z) : option st :=
  let prev := rd s (b + 12) in
  let next := rd s (b + 8) in
  let s := wr s (next + 12) prev in
  let s := wr s (prev + 8) next in
  do h <- get_head s fl sl;
  if h =? b then
    do s <- set_head s fl sl next;
    if next =? null then
      do m <- get_sl s fl;
      do s <- set_sl s fl (Z.land m (u32 (Z.lnot (2 ^ sl))));
      do m <- get_sl s fl;
      if m =? 0 then Some (set_fl s (Z.land (flb s) (u32 (Z.lnot (2 ^ fl))))) else Some s
    else Some s
  else Some s.

(* tlsf.c.in:618-636 *)
Definition insert_free_block (s : st) (b fl sl : Z) : option st :=
  do current <- get_head s fl sl;
  let s := wr s (b + 8) current in
  let s := wr s (b + 12) null in
  let s := wr s (current + 12) b in
  do s <- set_head s fl sl b;
  let s := set_fl s (Z.lor (flb s) (2 ^ fl)) in
  do m <- get_sl s fl;
  set_sl s fl (Z.lor m (2 ^ sl)).

(* tlsf.c.in:639-644 *)
Definition block_remove (s : st) (b : Z) : option st :=
  let '(fl, sl) := mapping_insert (block_size s b) in remove_free_block s b fl sl.
(* tlsf.c.in:647-652 *)
Definition block_insert (s : st) (b : Z) : option st :=
  let '(fl, sl) := mapping_insert (block_size s b) in insert_free_block s b fl sl.
(* tlsf.c.in:654-657; sizeof(block_header_t) is 16 *)
Definition block_can_split (s : st) (b size : Z) : bool := u32 (16 + size) <=? block_size s b.
(* tlsf.c.in:660-679 *)
Definition block_split (s : st) (b size : Z) : st * Z :=
  let remaining := offset_to_block (block_to_ptr b) (u32 (size - 4)) in
  let remain_size := u32 (block_size s b - u32 (size + 4)) in
  let s := block_set_size s remaining remain_size in
  let s := block_set_size s b size in
  (block_mark_as_free s remaining, remaining).
(* tlsf.c.in:682-689 *)
Definition block_absorb (s : st) (prev b : Z) : st :=
  let s := wr s (prev + 4) (u32 (rd s (prev + 4) + u32 (block_size s b + 4))) in
  fst (block_link_next s prev).
(* tlsf.c.in:692-704 *)
Definition block_merge_prev (s : st) (b : Z) : option (st * Z) :=
  if block_is_prev_free s b then
    let prev := block_prev s b in
    do s <- block_remove s prev;
    Some (block_absorb s prev b, prev)
  else Some (s, b).
(* tlsf.c.in:707-720 *)
Definition block_merge_next (s : st) (b : Z) : option (st * Z) :=
  let next := block_next s b in
  if block_is_free s next then
    do s <- block_remove s next;
    Some (block_absorb s b next, b)
  else Some (s, b).
(* tlsf.c.in:723-733 *)
Definition block_trim_free (s : st) (b size : Z) : option st :=
  if block_can_split s b size then
    let '(s, remaining) := block_split s b size in
    let s := fst (block_link_next s b) in
    let s := block_set_prev_free s remaining in
    block_insert s remaining
  else Some s.
(* tlsf.c.in:736-748 *)
Definition block_trim_used (s : st) (b size : Z) : option st :=
  if block_can_split s b size then
    let '(s, remaining) := block_split s b size in
    let s := block_set_prev_used s remaining in
    do sr <- block_merge_next s remaining;
    block_insert (fst sr) (snd sr)
  else Some s.
(* tlsf.c.in:750-764 *)
Definition block_trim_free_leading (s : st) (b size : Z) : option (st * Z) :=
  if block_can_split s b size then
    let '(s, remaining) := block_split s b (u32 (size - 4)) in
    let s := block_set_prev_free s remaining in
    let s := fst (block_link_next s b) in
    do s <- block_insert s b;
    Some (s, remaining)
  else Some (s, b).
(* tlsf.c.in:766-784 *)
Definition block_locate_free (s : st) (size : Z) : option (st * Z) :=
  if size =? 0 then Some (s, 0)
  else
    let '(fl, sl) := mapping_search size in
    do r <- search_suitable_block s fl sl;
    let '(b, fl, sl) := r in
    if b =? 0 then Some (s, 0)
    else do s <- remove_free_block s b fl sl; Some (s, b).
(* tlsf.c.in:786-797 *)
Definition block_prepare_used (s : st) (b size : Z) : option (st * Z) :=
  if b =? 0 then Some (s, 0)
  else
    do s <- block_trim_free s b size;
    let s := block_mark_as_used s b in
    Some (s, block_to_ptr b).

(* tlsf.c.in:800-816 *)
Definition control_construct (m : Z -> Z) : st :=
  let s := St m 0 (fun _ => 0) (fun _ _ => null) in
  wr (wr s (null + 8) null) (null + 12) null.

(* tlsf.c.in:983-1030; tlsf_pool_overhead() is 8 (tlsf.c.in:973-976) *)
Definition tlsf_add_pool (s : st) (base bytes : Z) : option (st * Z) :=
  let pool_bytes := align_down (u32 (bytes - 8)) 4 in
  if negb (base mod 4 =? 0) then Some (s, 0)
  else if (pool_bytes <? size_min) || (size_max <? pool_bytes) then Some (s, 0)
  else
    let b := offset_to_block base (u32 (-4)) in
    let s := block_set_size s b pool_bytes in
    let s := block_set_free s b in
    let s := block_set_prev_used s b in
    do s <- block_insert s b;
    let '(s, next) := block_link_next s b in
    let s := block_set_size s next 0 in
    let s := block_set_used s next in
    let s := block_set_prev_free s next in
    Some (s, base).

(* tlsf.c.in:1118-1124 *)
Definition tlsf_malloc (s : st) (size : Z) : option (st * Z) :=
  let adjust := adjust_request_size size 4 in
  do sb <- block_locate_free s adjust;
  block_prepare_used (fst sb) (snd sb) adjust.

(* tlsf.c.in:1126-1181 *)
Definition tlsf_memalign (s : st) (align size : Z) : option (st * Z) :=
  let adjust := adjust_request_size size 4 in
  let gap_minimum := 16 in
  let size_with_gap := adjust_request_size (u32 (adjust + align + gap_minimum)) align in
  let aligned_size := if negb (adjust =? 0) && (4 <? align) then size_with_gap else adjust in
  do sb <- block_locate_free s aligned_size;
  let '(s, b) := sb in
  if b =? 0 then block_prepare_used s b adjust
  else
    let ptr := block_to_ptr b in
    let aligned := align_ptr ptr align in
    let gap := u32 (aligned - ptr) in
    let '(aligned, gap) :=
      if negb (gap =? 0) && (gap <? gap_minimum) then
        let gap_remain := u32 (gap_minimum - gap) in
        let offset := Z.max gap_remain align in
        let next_aligned := u32 (aligned + offset) in
        let aligned := align_ptr next_aligned align in
        (aligned, u32 (aligned - ptr))
      else (aligned, gap) in
    do sb <- (if negb (gap =? 0) then block_trim_free_leading s b gap else Some (s, b));
    block_prepare_used (fst sb) (snd sb) adjust.

(* tlsf.c.in:1183-1196 *)
Definition tlsf_free (s : st) (p : Z) : option st :=
  if p =? 0 then Some s
  else
    let b := block_from_ptr p in
    let s := block_mark_as_free s b in
    do sb <- block_merge_prev s b;
    do sb <- block_merge_next (fst sb) (snd sb);
    block_insert (fst sb) (snd sb).

(* memcpy of n words, tlsf.c.in:1246 *)
Fixpoint copy_words (s : st) (dst src : Z) (n : nat) : st :=
  match n with O => s | S k => copy_words (wr s dst (rd s src)) (dst + 4) (src + 4) k end.
(* memcpy, tlsf.c.in:1246; a copy that ends inside a word is not modelled (None), it never happens *)
Definition memcpy (s : st) (dst src n : Z) : option st :=
  if n mod 4 =? 0 then Some (copy_words s dst src (Z.to_nat (n / 4))) else None.

(* tlsf.c.in:1211-1267 *)
Definition tlsf_realloc (s : st) (p size : Z) : option (st * Z) :=
  if negb (p =? 0) && (size =? 0) then do s <- tlsf_free s p; Some (s, 0)
  else if p =? 0 then tlsf_malloc s size
  else
    let b := block_from_ptr p in
    let next := block_next s b in
    let cursize := block_size s b in
    let combined := u32 (cursize + block_size s next + 4) in
    let adjust := adjust_request_size size 4 in
    if (cursize <? adjust) && (negb (block_is_free s next) || (combined <? adjust)) then
      do sq <- tlsf_malloc s size;
      let '(s, q) := sq in
      if q =? 0 then Some (s, 0)
      else
        let minsize := Z.min cursize size in
        do s <- memcpy s q p minsize;
        do s <- tlsf_free s p;
        Some (s, q)
    else
      do s <- (if cursize <? adjust
               then do sb <- block_merge_next s b; Some (block_mark_as_used (fst sb) b)
               else Some s);
      do s <- block_trim_used s b adjust;
      Some (s, p).

End Tlsf.
