(* Block devices. Sources: src/modm/driver/storage/block_device_heap_impl.hpp, block_device_mirror_impl.hpp, block_device_spiflash_impl.hpp
   and block_device_spistack_flash_impl.hpp with their headers. bd_address_t and bd_size_t are uint32_t (architecture/interface/block_device.hpp:37-38).
   Every resumable function is modelled from its call to its end. None: undefined behaviour or a loop that does not end *)
From Verif Require Import Base SliceLemmas.

(* ---- BdHeap<N>: the state is the data array ---- *)
(* block_device_heap_impl.hpp:57, 74, 91 with block size 1 (block_device_heap.hpp:97-100): the request is refused *)
Definition bh_refuse (N address size : Z) : bool := (size =? 0) || negb (size mod 1 =? 0) || (u32 (address + size) >? N).
(* block_device_heap_impl.hpp:19-27 initialize(), externalMemory == false *)
Definition bh_initialize (N : Z) : bool * list Z := (true, repeat 0 (Z.to_nat N)).
(* block_device_heap_impl.hpp:51-64 read(): the result and the bytes copied to the buffer *)
Definition bh_read (N : Z) (data : list Z) (address size : Z) : option (bool * list Z) :=
  if bh_refuse N address size then Some (false, []) else do b <- zsub data address size; Some (true, b).
(* block_device_heap_impl.hpp:68-81 program() *)
Definition bh_program (N : Z) (data : list Z) (buffer : list Z) (address size : Z) : option (bool * list Z) :=
  if bh_refuse N address size then Some (false, data)
  else do b <- zsub buffer 0 size; do data' <- zwrite data address b; Some (true, data').
(* block_device_heap_impl.hpp:85-97 erase() *)
Definition bh_erase (N : Z) (data : list Z) (address size : Z) : option (bool * list Z) :=
  if bh_refuse N address size then Some (false, data) else Some (true, data).
(* block_device_heap_impl.hpp:101-116 write() *)
Definition bh_write (N : Z) (data : list Z) (buffer : list Z) (address size : Z) : option (bool * list Z) :=
  if bh_refuse N address size then Some (false, data)
  else do (ok, data') <- bh_erase N data address size;
       if ok then bh_program N data' buffer address size else Some (false, data').

(* ---- BdMirror<A, B> ---- *)
(* what BdMirror uses of a device (block_device_mirror.hpp:94-97 and the calls in block_device_mirror_impl.hpp) *)
Record bdev (St : Type) := mkBdev {
  bd_wsize : Z; bd_esize : Z;
  bd_read : St -> Z -> Z -> option (bool * list Z);
  bd_program : St -> list Z -> Z -> Z -> option (bool * St);
  bd_erase : St -> Z -> Z -> option (bool * St);
  bd_write : St -> list Z -> Z -> Z -> option (bool * St) }.
Arguments bd_wsize {St}. Arguments bd_esize {St}. Arguments bd_read {St}. Arguments bd_program {St}. Arguments bd_erase {St}. Arguments bd_write {St}.
(* BdHeap as such a device (block_device_heap.hpp:97-100) *)
Definition bd_heap (N : Z) : bdev (list Z) := mkBdev (list Z) 1 1 (bh_read N) (bh_program N) (bh_erase N) (bh_write N).
(* block_device_mirror_impl.hpp:64-67, 82-85, 100-103: both calls, then resultA && resultA *)
Definition bm_both {SA SB} (ra : option (bool * SA)) (rb : option (bool * SB)) : option (bool * (SA * SB)) :=
  do (resultA, a) <- ra; do (resultB, b) <- rb; Some (resultA && resultA, (a, b)).
(* block_device_mirror_impl.hpp:46-51 read() *)
Definition bm_read {SA SB} (A : bdev SA) (B : bdev SB) (s : SA * SB) (address size : Z) : option (bool * list Z) := bd_read A (fst s) address size.
(* block_device_mirror_impl.hpp:54-68 program(); block sizes block_device_mirror.hpp:94-97 *)
Definition bm_program {SA SB} (A : bdev SA) (B : bdev SB) (s : SA * SB) (buffer : list Z) (address size : Z) : option (bool * (SA * SB)) :=
  if (size =? 0) || negb (size mod Z.max (bd_wsize A) (bd_wsize B) =? 0) then Some (false, s)
  else bm_both (bd_program A (fst s) buffer address size) (bd_program B (snd s) buffer address size).
(* block_device_mirror_impl.hpp:72-86 erase() *)
Definition bm_erase {SA SB} (A : bdev SA) (B : bdev SB) (s : SA * SB) (address size : Z) : option (bool * (SA * SB)) :=
  if (size =? 0) || negb (size mod Z.max (bd_esize A) (bd_esize B) =? 0) then Some (false, s)
  else bm_both (bd_erase A (fst s) address size) (bd_erase B (snd s) address size).
(* block_device_mirror_impl.hpp:90-104 write() *)
Definition bm_write {SA SB} (A : bdev SA) (B : bdev SB) (s : SA * SB) (buffer : list Z) (address size : Z) : option (bool * (SA * SB)) :=
  if (size =? 0) || negb (size mod Z.max (bd_esize A) (bd_esize B) =? 0) || negb (size mod Z.max (bd_wsize A) (bd_wsize B) =? 0) then Some (false, s)
  else bm_both (bd_write A (fst s) buffer address size) (bd_write B (snd s) buffer address size).

(* ---- the flash chip: what a serial NOR flash does with the bytes of one chip-select frame (environment, not code of modm) ---- *)
(* environment of block_device_spiflash_impl.hpp:219-283: the cells of a die, its write-enable latch, its address mode and how many status
   reads still report busy. A busy die ignores everything except reading the status and selecting a die *)
Record die := mkDie { d_mem : list Z; d_wel : bool; d_adr4 : bool; d_busy : nat }.
(* environment of block_device_spiflash_impl.hpp:219-283: the dies of the package, the selected one, whether the previous frame was RstEn,
   how long the next operations take (missing entries are 0), and whether unlocking the blocks clears the write-enable latch *)
Record chip := mkChip { c_dies : list die; c_sel : nat; c_rsten : bool; c_delays : list nat; c_gbu : bool }.
(* environment of block_device_spiflash_impl.hpp:271-275: replace the selected die *)
Definition chip_put (c : chip) (d : die) : chip :=
  mkChip (firstn (c_sel c) (c_dies c) ++ d :: skipn (S (c_sel c)) (c_dies c)) (c_sel c) (c_rsten c) (c_delays c) (c_gbu c).
(* environment of block_device_spiflash_impl.hpp:271-275: an internal operation starts: it takes the next delay *)
Definition chip_start (c : chip) (d : die) : chip :=
  let c' := chip_put c (mkDie (d_mem d) (d_wel d) (d_adr4 d) (hd 0%nat (c_delays c))) in
  mkChip (c_dies c') (c_sel c') (c_rsten c') (tl (c_delays c)) (c_gbu c').
(* environment: 3 or 4 address bytes, most significant first, as sent by block_device_spiflash_impl.hpp:255-264 *)
Definition chip_addr (adr4 : bool) (args : list Z) : option (Z * list Z) :=
  match adr4, args with
  | false, a :: b :: c :: r => Some (a * 65536 + b * 256 + c, r)
  | true, a :: b :: c :: d :: r => Some (a * 16777216 + b * 65536 + c * 256 + d, r)
  | _, _ => None
  end.
(* environment of the instruction FR (block_device_spiflash.hpp:186): n bytes from address a on, wrapping at the end of the die *)
Definition die_read (mem : list Z) (a n : Z) : list Z := map (fun i => nth (Z.to_nat ((a + Z.of_nat i) mod zlen mem)) mem 255) (seq 0 (Z.to_nat n)).
(* environment of the instruction PP (block_device_spiflash.hpp:188): programming clears bits, the address wraps within the page of 256 bytes *)
Fixpoint die_program (mem : list Z) (page o : Z) (data : list Z) : list Z :=
  match data with
  | [] => mem
  | v :: r =>
      let i := Z.to_nat (page + o) in
      die_program (firstn i mem ++ match nth_error mem i with Some x => [Z.land x v] | None => [] end ++ skipn (S i) mem) page ((o + 1) mod 256) r
  end.
(* environment of the instruction SE (block_device_spiflash.hpp:190): the sector of 4096 bytes that contains the address *)
Definition die_erase (mem : list Z) (a : Z) : list Z :=
  let b := Z.to_nat (a / 4096 * 4096) in firstn b mem ++ repeat 255 (Nat.min (Z.to_nat 4096) (length mem - b)) ++ skipn (b + Z.to_nat 4096) mem.
(* environment of block_device_spiflash_impl.hpp:231-242, 269-280: one frame; out are the bytes sent, n the number of bytes received after them.
   Opcodes: block_device_spiflash.hpp:176-216 *)
Definition chip_frame (c : chip) (out : list Z) (n : Z) : chip * list Z :=
  let ff := repeat 255 (Z.to_nat n) in
  match nth_error (c_dies c) (c_sel c), out with
  | Some d, op :: args =>
      let rst := c_rsten c in
      let c := mkChip (c_dies c) (c_sel c) (op =? 102) (c_delays c) (c_gbu c) in
      if op =? 5 then
        (chip_put c (mkDie (d_mem d) (d_wel d) (d_adr4 d) (pred (d_busy d))),
         repeat ((if Nat.eqb (d_busy d) 0 then 0 else 1) + (if d_wel d then 2 else 0)) (Z.to_nat n))
      else if op =? 194 then
        match args with [k] => (mkChip (c_dies c) (Z.to_nat k) (c_rsten c) (c_delays c) (c_gbu c), ff) | _ => (c, ff) end
      else if negb (Nat.eqb (d_busy d) 0) then (c, ff)
      else if op =? 153 then if rst then (chip_start c (mkDie (d_mem d) false false 0), ff) else (c, ff)
      else if op =? 6 then (chip_put c (mkDie (d_mem d) true (d_adr4 d) 0), ff)
      else if op =? 152 then
        if d_wel d then (chip_start c (mkDie (d_mem d) (negb (c_gbu c)) (d_adr4 d) 0), ff) else (c, ff)
      else if op =? 183 then (chip_put c (mkDie (d_mem d) (d_wel d) true 0), ff)
      else if op =? 11 then
        match chip_addr (d_adr4 d) args with Some (a, [_]) => (c, die_read (d_mem d) a n) | _ => (c, ff) end
      else if op =? 2 then
        match chip_addr (d_adr4 d) args with
        | Some (a, data) =>
            if d_wel d then let a := a mod zlen (d_mem d) in
              (chip_start c (mkDie (die_program (d_mem d) (a / 256 * 256) (a mod 256) data) false (d_adr4 d) 0), ff) else (c, ff)
        | None => (c, ff)
        end
      else if op =? 32 then
        match chip_addr (d_adr4 d) args with
        | Some (a, []) =>
            if d_wel d then (chip_start c (mkDie (die_erase (d_mem d) (a mod zlen (d_mem d))) false (d_adr4 d) 0), ff) else (c, ff)
        | _ => (c, ff)
        end
      else if op =? 199 then
        if d_wel d then (chip_start c (mkDie (map (fun _ => 255) (d_mem d)) false (d_adr4 d) 0), ff) else (c, ff)
      else (c, ff)
  | _, _ => (c, ff)
  end.

(* ---- BdSpiFlash<Spi, Cs, F>: the driver has no state of its own between calls, so the state is the chip ---- *)
(* block_device_spiflash_impl.hpp:219-245 spiOperation() without address; acquiring and releasing the bus is not modelled *)
Definition fl_op (c : chip) (instr : Z) (tx : list Z) (rx : Z) : chip * list Z := chip_frame c (instr :: tx) rx.
(* block_device_spiflash_impl.hpp:253-267: the instruction buffer; threshold block_device_spiflash.hpp:162 *)
Definition fl_header (F instr address : Z) (dummy : nat) : list Z :=
  (if F >? 16777216 then
    [instr; Z.land (Z.shiftr address 24) 255; Z.land (Z.shiftr address 16) 255; Z.land (Z.shiftr address 8) 255; Z.land address 255]
  else [instr; Z.land (Z.shiftr address 16) 255; Z.land (Z.shiftr address 8) 255; Z.land address 255]) ++ repeat 0 dummy.
(* block_device_spiflash_impl.hpp:247-283 spiOperation() with address *)
Definition fl_opa (F : Z) (c : chip) (instr address : Z) (tx : list Z) (rx : Z) (dummy : nat) : chip * list Z :=
  chip_frame c (fl_header F instr address dummy ++ tx) rx.
(* block_device_spiflash_impl.hpp:163-205 readStatus() and isBusy(). The buffer of one byte always has its byte *)
Definition fl_isBusy (c : chip) : bool * chip := let (c', r) := fl_op c 5 [] 1 in (Z.odd (hd 0 r), c').
(* block_device_spiflash_impl.hpp:208-217 waitWhileBusy() with its number of RF_YIELD()s *)
Fixpoint fl_wait_loop (fuel : nat) (yields : nat) (c : chip) : option (nat * chip) :=
  match fuel with
  | O => None
  | S fuel => let (busy, c') := fl_isBusy c in if busy then fl_wait_loop fuel (S yields) c' else Some (yields, c')
  end.
(* environment of block_device_spiflash_impl.hpp:208-217: how many status reads of the selected die report busy (an absent die reads as 0xff forever) *)
Definition chip_pending (c : chip) : nat := match nth_error (c_dies c) (c_sel c) with Some d => d_busy d | None => 0 end.
(* block_device_spiflash_impl.hpp:208-217: as many rounds as the die needs *)
Definition fl_wait (c : chip) : option (nat * chip) := fl_wait_loop (S (chip_pending c)) 0 c.
(* block_device_spiflash_impl.hpp:19-47 initialize() *)
Definition fl_initialize (F : Z) (c : chip) : option (bool * chip) :=
  let c := fst (fl_op c 102 [] 0) in
  let c := fst (fl_op c 153 [] 0) in
  do (_, c) <- fl_wait c;
  let c := fst (fl_op c 6 [] 0) in
  let c := fst (fl_op c 152 [] 0) in
  do (_, c) <- fl_wait c;
  if F >? 16777216 then let c := fst (fl_op c 183 [] 0) in do (_, c) <- fl_wait c; Some (true, c) else Some (true, c).
(* block_device_spiflash_impl.hpp:172-192 selectDie() with its number of RF_YIELD()s *)
Definition fl_selectDie (F : Z) (c : chip) (die : Z) : option (nat * chip) :=
  let c := fst (fl_op c 194 [die] 0) in
  do (y1, c) <- fl_wait c;
  let c := fst (fl_op c 6 [] 0) in
  let c := fst (fl_op c 152 [] 0) in
  do (y2, c) <- fl_wait c;
  if F >? 16777216 then let c := fst (fl_op c 183 [] 0) in do (y3, c) <- fl_wait c; Some (y1 + y2 + y3, c)%nat else Some (y1 + y2, c)%nat.
(* block_device_spiflash_impl.hpp:71-86 read() *)
Definition fl_read (F : Z) (c : chip) (address size : Z) : option (bool * list Z * chip) :=
  if (size =? 0) || negb (size mod 1 =? 0) || (u32 (address + size) >? F) then Some (false, [], c)
  else do (_, c) <- fl_wait c; let (c, b) := fl_opa F c 11 address [] size 1 in Some (true, b, c).
(* block_device_spiflash_impl.hpp:99-105 *)
Fixpoint fl_prog_loop (fuel : nat) (F : Z) (c : chip) (buffer : list Z) (address size index : Z) : option chip :=
  match fuel with
  | O => None
  | S fuel =>
      if index <? size then
        do (_, c) <- fl_wait c;
        let c := fst (fl_op c 6 [] 0) in
        do b <- zsub buffer index 256;
        let c := fst (fl_opa F c 2 (u32 (address + index)) b 0 0) in
        fl_prog_loop fuel F c buffer address size (u32 (index + 256))
      else Some c
  end.
(* block_device_spiflash_impl.hpp:88-108 program() *)
Definition fl_program (F : Z) (c : chip) (buffer : list Z) (address size : Z) : option (bool * chip) :=
  if (size =? 0) || negb (size mod 256 =? 0) || (u32 (address + size) >? F) then Some (false, c)
  else do c <- fl_prog_loop (S (Z.to_nat size)) F c buffer address size 0; Some (true, c).
(* block_device_spiflash_impl.hpp:126-132 *)
Fixpoint fl_erase_loop (fuel : nat) (F : Z) (c : chip) (address size index : Z) : option chip :=
  match fuel with
  | O => None
  | S fuel =>
      if index <? size then
        do (_, c) <- fl_wait c;
        let c := fst (fl_op c 6 [] 0) in
        let c := fst (fl_opa F c 32 (u32 (address + index)) [] 0 0) in
        fl_erase_loop fuel F c address size (u32 (index + 4096))
      else Some c
  end.
(* block_device_spiflash_impl.hpp:111-136 erase() *)
Definition fl_erase (F : Z) (c : chip) (address size : Z) : option (bool * chip) :=
  if (size =? 0) || negb (size mod 4096 =? 0) || (u32 (address + size) >? F) then Some (false, c)
  else if (address =? 0) && (size =? F) then do (_, c) <- fl_wait c; Some (true, fst (fl_op c 199 [] 0))
  else do c <- fl_erase_loop (S (Z.to_nat size)) F c address size 0; Some (true, c).
(* block_device_spiflash_impl.hpp:139-159 write() *)
Definition fl_write (F : Z) (c : chip) (buffer : list Z) (address size : Z) : option (bool * chip) :=
  if (size =? 0) || negb (size mod 4096 =? 0) || negb (size mod 256 =? 0) || (u32 (address + size) >? F) then Some (false, c)
  else do (ok, c) <- fl_erase F c address size;
       if ok then do (ok, c) <- fl_program F c buffer address size; Some (ok, c) else Some (false, c).

(* ---- BdSpiStackFlash<BdSpiFlash<Spi, Cs, F>, K>; long has 32 bits (otherwise std::min does not compile) ---- *)
(* block_device_spistack_flash.hpp:114-118: dv and index are only used within a call *)
Record stk := mkStk { s_cur : Z; s_chip : chip }.
(* block_device_spistack_flash.hpp:112 *)
Definition st_size (F K : Z) : Z := u32 (K * F).
(* block_device_spistack_flash_impl.hpp:19-31 initialize() *)
Definition st_initialize (F : Z) (s : stk) : option (bool * stk) :=
  do (ok, c) <- fl_initialize F (s_chip s);
  if ok then do (_, c) <- fl_selectDie F c 0; Some (true, mkStk 0 c) else Some (false, mkStk (s_cur s) c).
(* block_device_spistack_flash_impl.hpp:57-60, 85-88, 113-116 *)
Definition st_select (F : Z) (s : stk) (quot : Z) : option stk :=
  if s_cur s =? quot then Some s else do (_, c) <- fl_selectDie F (s_chip s) (u8 quot); Some (mkStk (u8 quot) c).
(* block_device_spistack_flash_impl.hpp:57, 85, 113: std::ldiv of the two values as long *)
Definition st_quot (F index address : Z) : Z := Z.quot (swrap 32 (u32 (index + address))) (swrap 32 F).
(* block_device_spistack_flash_impl.hpp:57, 85, 113 *)
Definition st_rem (F index address : Z) : Z := Z.rem (swrap 32 (u32 (index + address))) (swrap 32 F).
(* block_device_spistack_flash_impl.hpp:61, 89, 117: std::min(size - index, DieSize - dv.rem) *)
Definition st_chunk (F index address size : Z) : Z := Z.min (u32 (size - index)) (u32 (F - st_rem F index address)).
(* block_device_spistack_flash_impl.hpp:62, 90, 118 *)
Definition st_next (F index address : Z) : Z := u32 (index + (F - st_rem F index address)).
(* block_device_spistack_flash_impl.hpp:56-66. acc: the bytes stored in the buffer so far, in front of &buffer[index] *)
Fixpoint st_read_loop (fuel : nat) (F : Z) (s : stk) (address size index : Z) (acc : list Z) : option (bool * list Z * stk) :=
  match fuel with
  | O => None
  | S fuel =>
      if index <? size then
        do s <- st_select F s (st_quot F index address);
        do (r, c) <- fl_read F (s_chip s) (u32 (st_rem F index address)) (st_chunk F index address size);
        let s := mkStk (s_cur s) c in
        if fst r then st_read_loop fuel F s address size (st_next F index address) (firstn (Z.to_nat index) acc ++ snd r) else Some (false, acc, s)
      else Some (true, acc, s)
  end.
(* block_device_spistack_flash_impl.hpp:45-69 read() *)
Definition st_read (F K : Z) (s : stk) (address size : Z) : option (bool * list Z * stk) :=
  if (size =? 0) || negb (size mod 1 =? 0) || (u32 (address + size) >? st_size F K) then Some (false, [], s)
  else st_read_loop (S (Z.to_nat size)) F s address size 0 [].
(* block_device_spistack_flash_impl.hpp:84-94 *)
Fixpoint st_prog_loop (fuel : nat) (F : Z) (s : stk) (buffer : list Z) (address size index : Z) : option (bool * stk) :=
  match fuel with
  | O => None
  | S fuel =>
      if index <? size then
        do s <- st_select F s (st_quot F index address);
        do (ok, c) <- fl_program F (s_chip s) (skipn (Z.to_nat index) buffer) (u32 (st_rem F index address)) (st_chunk F index address size);
        let s := mkStk (s_cur s) c in
        if ok then st_prog_loop fuel F s buffer address size (st_next F index address) else Some (false, s)
      else Some (true, s)
  end.
(* block_device_spistack_flash_impl.hpp:73-97 program() *)
Definition st_program (F K : Z) (s : stk) (buffer : list Z) (address size : Z) : option (bool * stk) :=
  if (size =? 0) || negb (size mod 256 =? 0) || (u32 (address + size) >? st_size F K) then Some (false, s)
  else st_prog_loop (S (Z.to_nat size)) F s buffer address size 0.
(* block_device_spistack_flash_impl.hpp:112-122 *)
Fixpoint st_erase_loop (fuel : nat) (F : Z) (s : stk) (address size index : Z) : option (bool * stk) :=
  match fuel with
  | O => None
  | S fuel =>
      if index <? size then
        do s <- st_select F s (st_quot F index address);
        do (ok, c) <- fl_erase F (s_chip s) (u32 (st_rem F index address)) (st_chunk F index address size);
        let s := mkStk (s_cur s) c in
        if ok then st_erase_loop fuel F s address size (st_next F index address) else Some (false, s)
      else Some (true, s)
  end.
(* block_device_spistack_flash_impl.hpp:101-125 erase() *)
Definition st_erase (F K : Z) (s : stk) (address size : Z) : option (bool * stk) :=
  if (size =? 0) || negb (size mod 4096 =? 0) || (u32 (address + size) >? st_size F K) then Some (false, s)
  else st_erase_loop (S (Z.to_nat size)) F s address size 0.
(* block_device_spistack_flash_impl.hpp:129-148 write() *)
Definition st_write (F K : Z) (s : stk) (buffer : list Z) (address size : Z) : option (bool * stk) :=
  if (size =? 0) || negb (size mod 4096 =? 0) || negb (size mod 256 =? 0) || (u32 (address + size) >? st_size F K) then Some (false, s)
  else do (ok, s) <- st_erase F K s address size;
       if ok then do (ok, s) <- st_program F K s buffer address size; Some (ok, s) else Some (false, s).
(* block_device_spistack_flash_impl.hpp:152-167 isBusy(). RF_CALL (processing/resumable/macros.hpp:99-108) evaluates its argument again
   each time the caller is resumed, so --currentDie happens once more for every RF_YIELD() in selectDie(); the die is selected in the first
   round (SPI transfers that do not yield, bus free) *)
Fixpoint st_busy_loop (fuel : nat) (F : Z) (s : stk) : option (bool * stk) :=
  match fuel with
  | O => None
  | S fuel =>
      if 0 <? s_cur s then
        do (yields, c) <- fl_selectDie F (s_chip s) (u8 (s_cur s - 1));
        let cur := u8 (s_cur s - 1 - Z.of_nat yields) in
        let (busy, c) := fl_isBusy c in
        if busy then Some (true, mkStk cur c) else st_busy_loop fuel F (mkStk cur c)
      else Some (false, s)
  end.
(* block_device_spistack_flash_impl.hpp:152-167 isBusy(); at most 256 values of currentDie *)
Definition st_isBusy (F K : Z) (s : stk) : option (bool * stk) := st_busy_loop 257 F (mkStk K (s_chip s)).
