(* Model of the heap table, /repo/src/modm/platform/core/cortex/heap_table.cpp.in, and of the storage for fault reports in the heap,
   /repo/src/modm/platform/fault/crashcatcher/fault_storage.cpp, on the 32 bit Cortex-M. *)
From Verif Require Import Base.

(* table_pool_t, heap_table.cpp.in:17-22 and fault_storage.cpp:16-21: the table is made by the linker (linker.macros:124-133) *)
Record entry := Ent { traits : Z; start : Z; fin : Z }.

(** ** HeapTable *)
(* the loop of HeapTable::begin, heap_table.cpp.in:39-48: the rest of the table from the section with the address on, and the offset *)
Fixpoint find_fault (table : list entry) (fault : Z) : option (list entry * Z) :=
  match table with
  | [] => None
  | t :: r => if (start t <=? fault) && (fault <? fin t) then Some (table, fault - start t) else find_fault r fault
  end.
(* heap_table.cpp.in:34-52; fault is fault_storage_heap_start, 0 for nullptr and in builds without fault storage *)
Definition begin (table : list entry) (fault : Z) : list entry * Z :=
  if fault =? 0 then (table, 0) else match find_fault table fault with Some x => x | None => (table, 0) end.
(* operator*, heap_table.cpp.in:64-73: traits, start, end and size *)
Definition deref (t : entry) (offset : Z) : Z * Z * Z * Z := (traits t, start t + offset, fin t, u32 (fin t - (start t + offset))).
(* a loop over the HeapTable; operator++ (heap_table.cpp.in:75-80) only advances the table pointer and keeps the offset *)
Definition sections (table : list entry) (fault : Z) : list (Z * Z * Z * Z) :=
  let (l, offset) := begin table fault in map (fun t => deref t offset) l.

(* the body of the loop of find_largest, heap_table.cpp.in:112-130: start, end and current_size *)
Definition largest_step (mask : Z) (v : Z * Z * Z) (x : Z * Z * Z * Z) : Z * Z * Z :=
  let '(st, en, size) := v in
  let '(ttraits, tstart, tend, tsize) := x in
  if negb (Z.land ttraits mask =? 0) then
    if tstart =? en then (st, tend, u32 (size + tsize))
    else if size <=? tsize then (tstart, tend, tsize) else v
  else v.
(* heap_table.cpp.in:103-132: the result, start and end *)
Definition find_largest (table : list entry) (fault mask : Z) : bool * Z * Z :=
  let '(st, en, _) := fold_left (largest_step mask) (sections table fault) (0, 0, 0) in (negb (st =? 0), st, en).

(** ** FaultStorage *)
(* fault_storage.cpp:26-30: the memory as bytes, marker_start, marker_end_ptr and report_end *)
Record fs := Fs { mem : Z -> Z; mstart : Z; mend : Z; report_end : Z; heap_start : Z }.
(* storing a byte, fault_storage.cpp:118 *)
Definition poke (s : fs) (a v : Z) : fs := Fs (fun x => if x =? a then v else mem s x) (mstart s) (mend s) (report_end s) (heap_start s).
(* reading a 32 bit word, fault_storage.cpp:51,159 *)
Definition word (s : fs) (a : Z) : Z := mem s a + 256 * mem s (a + 1) + 65536 * mem s (a + 2) + 16777216 * mem s (a + 3).
(* fault_storage.cpp:25-26 *)
Definition magic_start : Z := 0xBAADC0DE.
(* fault_storage.cpp:26 *)
Definition magic_end : Z := 0xC0FFEEEE.

(* FaultStorage::Iterator, fault_storage.hpp:28-31: the rest of the table and the position *)
Definition iter := (list entry * Z)%type.
(* operator++, fault_storage.cpp:155-168. sym is the address of the linker symbol g_crashCatcherStack (ram.ld.in:39), which the code declares
   as a pointer variable (fault_storage.cpp:31), so that the word stored there is compared. None when an entry past the end of the table
   is read. *)
Definition next (sym : Z) (s : fs) (it : iter) : option iter :=
  let (table, pos) := it in
  match table with
  | [] => None
  | t :: r =>
      if (fin t <=? pos) || (u32 (pos + 1) =? word s sym) then
        match r with [] => None | t' :: _ => Some (r, start t') end
      else Some (table, pos + 1)
  end.
(* write(data, size), fault_storage.cpp:113-122 *)
Fixpoint write (sym : Z) (s : fs) (it : iter) (data : list Z) : option (fs * iter) :=
  match data with
  | [] => Some (s, it)
  | b :: r => let s := poke s (snd it) b in do it <- next sym s it; write sym s it r
  end.
(* begin, fault_storage.cpp:131-135 *)
Definition fbegin (table : list entry) : option iter := match table with [] => None | t :: _ => Some (table, start t) end.
(* openWrite, fault_storage.cpp:80-86 *)
Definition openWrite (s : fs) : fs := Fs (mem s) magic_start 0 (report_end s) (heap_start s).
(* the bytes of magic_end, fault_storage.cpp:125-129; a store of a 32 bit word by bytes, fault_storage.cpp:88-111 *)
Definition magic_bytes : list Z := [0xEE; 0xEE; 0xFF; 0xC0].
(* closeWrite, fault_storage.cpp:124-129 *)
Definition closeWrite (sym : Z) (s : fs) (it : iter) : option (fs * iter) :=
  write sym (Fs (mem s) (mstart s) (snd it) (report_end s) (heap_start s)) it magic_bytes.
(* a whole dump: crashcatcher_dump.cpp:32-54 with the bytes that CrashCatcher hands over *)
Definition dump (table : list entry) (sym : Z) (s : fs) (data : list Z) : option fs :=
  do it <- fbegin table;
  do r <- write sym (openWrite s) it data;
  do r <- closeWrite sym (fst r) (snd r);
  Some (fst r).

(* the loop of openRead, fault_storage.cpp:45-66: the summed size when the marker is found *)
Fixpoint find_report (table : list entry) (s : fs) (size : Z) : option Z :=
  match table with
  | [] => None
  | t :: r =>
      if (start t <=? mend s) && (mend s <? fin t) then
        if word s (mend s) =? magic_end then Some (u32 (size + (mend s - start t))) else None
      else find_report r s (u32 (size + u32 (fin t - start t)))
  end.
(* closeRead, fault_storage.cpp:73-78 *)
Definition closeRead (s : fs) : fs := Fs (mem s) 0 0 (report_end s) (heap_start s).
(* openRead after the reset, fault_storage.cpp:38-71; report_end and fault_storage_heap_start have been initialised to nullptr *)
Definition openRead (table : list entry) (s : fs) : option (fs * Z) :=
  match table with
  | [] => None
  | t0 :: _ =>
      let s := Fs (mem s) (mstart s) (mend s) (start t0) 0 in
      if (mstart s =? magic_start) && negb (mend s =? 0) then
        match find_report table s 0 with
        | Some size => Some (Fs (mem s) (mstart s) (mend s) (mend s) (u32 (mend s + 4 + 3) / 4 * 4), size)
        | None => Some (closeRead s, 0)
        end
      else Some (closeRead s, 0)
  end.
(* for (b : FaultReporter): from begin() until the position is report_end, fault.hpp:43-45, fault_storage.cpp:131-141,185-195. n bounds the
   number of bytes. *)
Fixpoint read (sym : Z) (s : fs) (it : iter) (n : nat) : option (list Z) :=
  if snd it =? report_end s then Some []
  else match n with
       | O => None
       | S n => do it' <- next sym s it; do r <- read sym s it' n; Some (mem s (snd it) :: r)
       end.
(* the report as it is read back, fault.hpp:43-48 *)
Definition report (table : list entry) (sym : Z) (s : fs) (n : nat) : option (list Z) := do it <- fbegin table; read sym s it n.
