(* Model of the driver for the FDCAN peripheral of the STM32, /repo/src/modm/platform/can/stm32-fdcan/message_ram.hpp and can.cpp.in, with
   buffer.tx > 0 and buffer.rx > 0 (module.lb:20-31 does not allow 0). The message RAM maps the addresses of words to words; the peripheral's use of
   it is described in FdSpec. The machine is little-endian. *)
From Verif Require Import Base CanModel RegModel BxModel.

(** *** Layout *)

(* message_ram.hpp:98-115: the counts and sizes are 28 of 4, 8 of 8, 2 * 3 of 72, 3 of 8 and 3 of 72 bytes *)
Definition Size : Z := 28 * 4 + 8 * 8 + 3 * 72 * 2 + 3 * 8 + 3 * 72.
(* message_ram.hpp:117; base is SRAMCAN_BASE *)
Definition RamBase (base inst : Z) : Z := base + Size * inst.
(* message_ram.hpp:119 *)
Definition FilterListStandard (base inst : Z) : Z := RamBase base inst + 0.
(* message_ram.hpp:120 *)
Definition FilterListExtended (base inst : Z) : Z := FilterListStandard base inst + 28 * 4.
(* message_ram.hpp:121 *)
Definition RxFifo0 (base inst : Z) : Z := FilterListExtended base inst + 8 * 8.
(* message_ram.hpp:122 *)
Definition RxFifo1 (base inst : Z) : Z := RxFifo0 base inst + 3 * 72.
(* message_ram.hpp:123 *)
Definition TxEventFifo (base inst : Z) : Z := RxFifo1 base inst + 3 * 72.
(* message_ram.hpp:124 *)
Definition TxFifo (base inst : Z) : Z := TxEventFifo base inst + 3 * 8.
(* message_ram.hpp:127-139; sums of uint32_t, the addresses are small *)
Definition rxElement (base inst fifoIndex getIndex : Z) : Z := RxFifo0 base inst + 72 * (3 * fifoIndex + getIndex).
(* message_ram.hpp:142-146 *)
Definition txFifoElement (base inst putIndex : Z) : Z := TxFifo base inst + putIndex * 72.
(* message_ram.hpp:149-154 *)
Definition standardFilter (base inst index : Z) : Z := FilterListStandard base inst + index * 4.
(* message_ram.hpp:157-162 *)
Definition extendedFilter (base inst index : Z) : Z := FilterListExtended base inst + index * 8.

(** *** Messages *)

(* the message RAM, message_ram.hpp:165-171: the word at an address *)
Definition ram := Z -> Z.
(* storing a word, message_ram.hpp:169-170 *)
Definition store (r : ram) (a v : Z) : ram := fun x => if x =? a then v else r x.

(* message_ram.hpp:219-230; ExtendedId is bit 30, RemoteFrame is bit 29, CanId_t are the lower 29 bits *)
Definition headerFromMessage (m : can_msg) : Z :=
  let header := Z.lor (if c_ext m then 1073741824 else 0) (if c_rtr m then 536870912 else 0) in
  let canId := if c_ext m then c_id m else u32 (Z.shiftl (c_id m) 18) in
  vl_set 32 29 0 header canId.
(* message_ram.hpp:233-243; FdFrame is bit 21, BitRateSwitching is bit 20, TxDlc_t are bits 16 to 19 *)
Definition txHeaderFromMessage (m : can_msg) : Z :=
  let header := Z.lor (if c_fd m then 2097152 else 0) (if c_brs m then 1048576 else 0) in
  vl_set 32 4 16 header (c_dlc m).
(* the loop message_ram.hpp:210-216: n words are left, i is the index; a is the address of the word *)
Fixpoint writeWords (n : nat) (i a : Z) (data : list Z) (r : ram) : option ram :=
  match n with
  | O => Some r
  | S n => do w <- load32 data i; writeWords n (i + 4) (a + 4) data (store r a w)
  end.
(* message_ram.hpp:202-217: for i = 0, 4, 8, ... below min(length, 64) *)
Definition writeData (base inst putIndex : Z) (data : list Z) (length : Z) (r : ram) : option ram :=
  writeWords (Z.to_nat ((Z.min length 64 + 3) / 4)) 0 (txFifoElement base inst putIndex + 2 * 4) data r.
(* can.cpp.in:133-151 with message_ram.hpp:165-171: what sendMsg writes to the RAM for a put index *)
Definition sendMsg_ram (base inst putIndex : Z) (m : can_msg) (r : ram) : option ram :=
  let e := txFifoElement base inst putIndex in
  let r := store r e (headerFromMessage m) in
  let r := store r (e + 4) (txHeaderFromMessage m) in
  writeData base inst putIndex (c_data m) (c_len m) r.

(* the loop message_ram.hpp:192-198 *)
Fixpoint readWords (n : nat) (i a : Z) (r : ram) (data : list Z) : option (list Z) :=
  match n with
  | O => Some data
  | S n => do data <- store32 data i (r a); readWords n (i + 4) (a + 4) r data
  end.
(* message_ram.hpp:184-199 *)
Definition readData (base inst fifoIndex getIndex : Z) (length : Z) (r : ram) (data : list Z) : option (list Z) :=
  readWords (Z.to_nat ((Z.min length 64 + 3) / 4)) 0 (rxElement base inst fifoIndex getIndex + 2 * 4) r data.
(* can.cpp.in:91-129, for a get index already read; returns the message, the filter index and the time stamp. r is the RAM when the headers are read,
   r1 when the data are read *)
Definition readMsg (base inst capacity : Z) (m : can_msg) (fifoIndex getIndex : Z) (r r1 : ram) : option (can_msg * Z * Z) :=
  let e := rxElement base inst fifoIndex getIndex in
  let commonHeader := r e in
  let rxHeader := r (e + 4) in
  let ext := fl_any commonHeader 1073741824 in
  let rtr := fl_any commonHeader 536870912 in
  let id := vl_get 32 29 0 commonHeader in
  let m := mkCan (if ext then id else Z.shiftr id 18) (c_fd m) (c_brs m) rtr ext (c_dlc m) (c_len m) (c_data m) in
  do m <- can_setDataLengthCode capacity m (vl_get 32 4 16 rxHeader);
  do d <- readData base inst fifoIndex getIndex (c_len m) r1 (c_data m);
  Some (mkCan (c_id m) (c_fd m) (c_brs m) (c_rtr m) (c_ext m) (c_dlc m) (c_len m) d, vl_get 32 7 24 rxHeader, vl_get 32 16 0 rxHeader).

(** *** Filters *)

(* message_ram.hpp:79-84 *)
Definition Range : Z := 0.
(* message_ram.hpp:82 *)
Definition Dual : Z := 1073741824.
(* message_ram.hpp:83 *)
Definition Classic : Z := 2147483648.
(* message_ram.hpp:86-96: Disabled, Fifo0, Fifo1 and Reject are 0 to 3 *)
Definition FilterConfig (k : Z) : Z := Z.shiftl k 27.
(* message_ram.hpp:245-251 *)
Definition ram_setStandardFilter (base inst index type config id1 id2 : Z) (r : ram) : ram :=
  store r (standardFilter base inst index) (Z.lor (Z.lor (Z.lor type config) (Z.land id2 2047)) (Z.shiftl (Z.land id1 2047) 16)).
(* message_ram.hpp:253-258 *)
Definition setExtendedFilter0 (base inst index config id : Z) (r : ram) : ram :=
  store r (extendedFilter base inst index) (Z.lor (u32 (Z.shiftl config 2)) (Z.land id 536870911)).
(* message_ram.hpp:260-265 *)
Definition setExtendedFilter1 (base inst index type id : Z) (r : ram) : ram :=
  store r (extendedFilter base inst index + 4) (Z.lor type (Z.land id 536870911)).
(* can.cpp.in:484-541: setStandardFilter (two of them) and setStandardRangeFilter differ in the type *)
Definition setStandardFilter (base inst standardIndex type config id1 id2 : Z) (r : ram) : bool * ram :=
  if 28 <=? standardIndex then (false, r) else (true, ram_setStandardFilter base inst standardIndex type config id1 id2 r).
(* can.cpp.in:544-604: setExtendedFilter (two of them) and setExtendedRangeFilter *)
Definition setExtendedFilter (base inst extendedIndex type config id1 id2 : Z) (r : ram) : bool * ram :=
  if 8 <=? extendedIndex then (false, r)
  else (true, setExtendedFilter1 base inst extendedIndex type id2 (setExtendedFilter0 base inst extendedIndex config id1 r)).
(* the loop can.cpp.in:611-613, i counts up; message_ram.hpp:267-271 *)
Fixpoint clearStandard (n : nat) (i base inst : Z) (r : ram) : ram :=
  match n with O => r | S n => clearStandard n (i + 1) base inst (store r (standardFilter base inst i) 0) end.
(* can.cpp.in:607-614 *)
Definition clearStandardFilters (base inst : Z) (r : ram) : ram := clearStandard 28 0 base inst r.
(* the loop can.cpp.in:621-623; message_ram.hpp:273-277 *)
Fixpoint clearExtended (n : nat) (i base inst : Z) (r : ram) : ram :=
  match n with O => r | S n => clearExtended n (i + 1) base inst (store r (extendedFilter base inst i) 0) end.
(* can.cpp.in:617-624 *)
Definition clearExtendedFilters (base inst : Z) (r : ram) : ram := clearExtended 8 0 base inst r.

(** *** Transmission *)
Section Transmission.
Variable A : Type.

(* where sendMessage is, can.cpp.in:430-464; fl is the saved EINT0 of ILE *)
Inductive tpc := TIdle | TRead (m : A) (fl : bool) | TLocked (m : A) (fl : bool) | TFull (m : A) (fl : bool) | TSpace (m : A) (fl : bool) |
  TPut (m : A) (fl : bool) (k : Z) | TUnlock (fl : bool).
(* where the TX interrupt is, can.cpp.in:213-242; the error interrupts are left out *)
Inductive ipc := INone | IClear | ICheck | ISend (m : A) | IPut (m : A) (k : Z) | IPop.
(* txQueue, can.cpp.in:32; the pending buffers of the hardware with their index; IR.TC; ILE.EINT0; what went out and what sendMessage accepted *)
Record txs := Tx { queue : list A; boxes : list (Z * A); tc : bool; ile0 : bool; tp : tpc; ip : ipc; sent : list A; accepted : list A }.
(* after initialization, can.cpp.in:344-355 *)
Definition tx_init : txs := Tx [] [] false true TIdle INone [] [].
(* TFQF: all three buffers are pending, can.cpp.in:44-48 *)
Definition full (b : list (Z * A)) : bool := 3 <=? zlen b.
(* the put index is a buffer that is not pending, can.cpp.in:83-87 *)
Definition free (k : Z) (b : list (Z * A)) : Prop := 0 <= k < 3 /\ ~ In k (map fst b).

(* can.cpp.in:213-242, 430-464: one step; cap is the size of txQueue, which push refuses to exceed. A buffer may complete at any time; the program rests while the interrupt runs *)
Inductive tstep (cap : Z) : txs -> txs -> Prop :=
(* a pending buffer is sent, which sets IR.TC, can.cpp.in:352-354 *)
| hw_sent q b1 k m b2 t l p i s a : tstep cap (Tx q (b1 ++ (k, m) :: b2) t l p i s a) (Tx q (b1 ++ b2) true l p i (s ++ [m]) a)
(* can.cpp.in:446: flags(ILE) *)
| send_begin q b t l m s a : tstep cap (Tx q b t l TIdle INone s a) (Tx q b t l (TRead m l) INone s a)
(* can.cpp.in:446: ILE = 0 *)
| send_lock q b t l m fl s a : tstep cap (Tx q b t l (TRead m fl) INone s a) (Tx q b t false (TLocked m fl) INone s a)
(* can.cpp.in:451 *)
| send_check q b t l m fl s a : tstep cap (Tx q b t l (TLocked m fl) INone s a) (Tx q b t l (if full b then TFull m fl else TSpace m fl) INone s a)
(* can.cpp.in:453-455 *)
| send_refuse q b t l m fl s a : cap <= zlen q -> tstep cap (Tx q b t l (TFull m fl) INone s a) (Tx q b t l (TUnlock fl) INone s a)
(* can.cpp.in:456-457 *)
| send_push q b t l m fl s a : zlen q < cap -> tstep cap (Tx q b t l (TFull m fl) INone s a) (Tx (q ++ [m]) b t l (TUnlock fl) INone s (a ++ [m]))
(* can.cpp.in:462 with 138-140 *)
| send_full q b t l m fl s a : full b = true -> tstep cap (Tx q b t l (TSpace m fl) INone s a) (Tx q b t l (TUnlock fl) INone s a)
(* can.cpp.in:462 with 142 *)
| send_index q b t l m fl k s a : full b = false -> free k b -> tstep cap (Tx q b t l (TSpace m fl) INone s a) (Tx q b t l (TPut m fl k) INone s a)
(* can.cpp.in:462 with 143-155 *)
| send_put q b t l m fl k s a : tstep cap (Tx q b t l (TPut m fl k) INone s a) (Tx q ((k, m) :: b) t l (TUnlock fl) INone s (a ++ [m]))
(* can.cpp.in:447 *)
| send_unlock q b t l fl s a : tstep cap (Tx q b t l (TUnlock fl) INone s a) (Tx q b t fl TIdle INone s a)
(* getMessage, can.cpp.in:403 *)
| get_enable q b t l s a : tstep cap (Tx q b t l TIdle INone s a) (Tx q b t true TIdle INone s a)
(* can.cpp.in:219-223 *)
| isr_enter q b p s a : tstep cap (Tx q b true true p INone s a) (Tx q b true true p IClear s a)
(* can.cpp.in:224 *)
| isr_clear q b t l p s a : tstep cap (Tx q b t l p IClear s a) (Tx q b false l p ICheck s a)
(* can.cpp.in:225-226 *)
| isr_check q b t l p s a : tstep cap (Tx q b t l p ICheck s a) (Tx q b t l p (match q with [] => INone | m :: _ => ISend m end) s a)
(* can.cpp.in:138-140 *)
| isr_full q b t l p m s a : full b = true -> tstep cap (Tx q b t l p (ISend m) s a) (Tx q b t l p INone s a)
(* can.cpp.in:142 *)
| isr_index q b t l p m k s a : full b = false -> free k b -> tstep cap (Tx q b t l p (ISend m) s a) (Tx q b t l p (IPut m k) s a)
(* can.cpp.in:143-155 *)
| isr_put q b t l p m k s a : tstep cap (Tx q b t l p (IPut m k) s a) (Tx q ((k, m) :: b) t l p IPop s a)
(* can.cpp.in:227-229 *)
| isr_pop q b t l p s a : tstep cap (Tx q b t l p IPop s a) (Tx (tl q) b t l p INone s a).
(* reachable states, can.cpp.in:430-464 and 213-242 *)
Inductive treach (cap : Z) : txs -> Prop :=
| tr_init : treach cap tx_init
| tr_step s s' : treach cap s -> tstep cap s s' -> treach cap s'.

(** *** Reception, with overwriteOnOverrun = false *)

(* where the RX interrupt is, can.cpp.in:245-281; n is msgRetrieveLimit, k is false for FIFO 0 and true for FIFO 1 *)
Inductive rpc := RIdle | RLoop (k : bool) (n : Z) | RRead (k : bool) (n : Z) (x : A) | RPush (k : bool) (n : Z) (x : A) | REnd.
(* where the program is: between pop and ILE of getMessage, can.cpp.in:402-403, or in the lock of sendMessage, can.cpp.in:446-447 *)
Inductive mpc := MIdle | MPopped | MRead (fl : bool) | MLocked (fl : bool).
(* the FIFOs, IR.RF0N or RF1N, ILE.EINT1, rxQueue with the FIFO of each message, what getMessage returned, what the FIFOs stored, what push refused;
   can.cpp.in:40-42 *)
Record rxs := Rx { fifo : bool -> list A; rf : bool; ile1 : bool; rq : list (bool * A); rp : rpc; mp : mpc;
  delivered : list (bool * A); stored : bool -> list A; dropped : list (bool * A) }.
(* after initialization, can.cpp.in:344-359 *)
Definition rx_init : rxs := Rx (fun _ => []) false true [] RIdle MIdle [] (fun _ => []) [].
(* changing one FIFO, can.cpp.in:62-71 *)
Definition upd (f : bool -> list A) (k : bool) (l : list A) : bool -> list A := fun j => if Bool.eqb j k then l else f j.

(* can.cpp.in:245-281, 386-404: one step; cap is the size of rxQueue. The program rests while the interrupt runs *)
Inductive rstep (cap : Z) : rxs -> rxs -> Prop :=
(* a frame passes a filter and there is room in the FIFO: stored, and RF0N or RF1N is set, can.cpp.in:358 *)
| hw_recv f r l q p m d st dr k x : zlen (f k) < 3 -> rstep cap (Rx f r l q p m d st dr) (Rx (upd f k (f k ++ [x])) true l q p m d (upd st k (st k ++ [x])) dr)
(* can.cpp.in:251-255 *)
| irq f q m d st dr : rstep cap (Rx f true true q RIdle m d st dr) (Rx f true true q (RLoop false (cap - zlen q)) m d st dr)
(* can.cpp.in:259, 265 and 99-127: the oldest element is copied *)
| loop_read f r l q k n x y m d st dr : f k = x :: y -> 0 < n -> rstep cap (Rx f r l q (RLoop k n) m d st dr) (Rx f r l q (RRead k n x) m d st dr)
(* can.cpp.in:128: acknowledgeRxFifoRead drops the oldest element *)
| loop_ack f r l q k n x m d st dr : rstep cap (Rx f r l q (RRead k n x) m d st dr) (Rx (upd f k (tl (f k))) r l q (RPush k n x) m d st dr)
(* can.cpp.in:261-262, 267-268: push refuses when the queue is full *)
| loop_push f r l q k n x m d st dr : zlen q < cap ->
    rstep cap (Rx f r l q (RPush k n x) m d st dr) (Rx f r l (q ++ [(k, x)]) (RLoop k (n - 1)) m d st dr)
(* the refused push, can.cpp.in:261, 267 *)
| loop_drop f r l q k n x m d st dr : cap <= zlen q -> rstep cap (Rx f r l q (RPush k n x) m d st dr) (Rx f r l q (RLoop k (n - 1)) m d st (dr ++ [(k, x)]))
(* can.cpp.in:259, 265: the loop ends *)
| loop_end f r l q k n m d st dr : f k = [] \/ n <= 0 ->
    rstep cap (Rx f r l q (RLoop k n) m d st dr) (Rx f r l q (if k then REnd else RLoop true n) m d st dr)
(* can.cpp.in:271-276 *)
| end_full f r l q m d st dr : cap <= zlen q -> rstep cap (Rx f r l q REnd m d st dr) (Rx f r false q RIdle m d st dr)
(* can.cpp.in:277-279 *)
| end_ack f r l q m d st dr : zlen q < cap -> rstep cap (Rx f r l q REnd m d st dr) (Rx f false l q RIdle m d st dr)
(* can.cpp.in:394-402 *)
| get_pop f r l x q d st dr : rstep cap (Rx f r l (x :: q) RIdle MIdle d st dr) (Rx f r l q RIdle MPopped (d ++ [x]) st dr)
(* can.cpp.in:403 *)
| get_ile f r l q d st dr : rstep cap (Rx f r l q RIdle MPopped d st dr) (Rx f r true q RIdle MIdle d st dr)
(* can.cpp.in:446: flags(ILE) *)
| lock_read f r l q d st dr : rstep cap (Rx f r l q RIdle MIdle d st dr) (Rx f r l q RIdle (MRead l) d st dr)
(* can.cpp.in:446: ILE = 0 *)
| lock_zero f r l q fl d st dr : rstep cap (Rx f r l q RIdle (MRead fl) d st dr) (Rx f r false q RIdle (MLocked fl) d st dr)
(* can.cpp.in:447 *)
| lock_restore f r l q fl d st dr : rstep cap (Rx f r l q RIdle (MLocked fl) d st dr) (Rx f r fl q RIdle MIdle d st dr).
(* reachable states, can.cpp.in:245-281 and 386-404 *)
Inductive rreach (cap : Z) : rxs -> Prop :=
| rr_init : rreach cap rx_init
| rr_step s s' : rreach cap s -> rstep cap s s' -> rreach cap s'.
End Transmission.
Arguments TIdle {A}. Arguments TRead {A}. Arguments TLocked {A}. Arguments TFull {A}. Arguments TSpace {A}. Arguments TPut {A}. Arguments TUnlock {A}.
Arguments INone {A}. Arguments IClear {A}. Arguments ICheck {A}. Arguments ISend {A}. Arguments IPut {A}. Arguments IPop {A}.
Arguments Tx {A}. Arguments queue {A}. Arguments boxes {A}. Arguments tc {A}. Arguments ile0 {A}. Arguments tp {A}. Arguments ip {A}. Arguments sent {A}. Arguments accepted {A}.
Arguments tx_init {A}. Arguments full {A}. Arguments free {A}. Arguments tstep {A}. Arguments treach {A}.
Arguments RIdle {A}. Arguments RLoop {A}. Arguments RRead {A}. Arguments RPush {A}. Arguments REnd {A}.
Arguments Rx {A}. Arguments fifo {A}. Arguments rf {A}. Arguments ile1 {A}. Arguments rq {A}. Arguments rp {A}. Arguments mp {A}.
Arguments delivered {A}. Arguments stored {A}. Arguments dropped {A}. Arguments rx_init {A}. Arguments upd {A}. Arguments rstep {A}. Arguments rreach {A}.
