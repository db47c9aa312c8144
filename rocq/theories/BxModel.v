(* Model of the driver for the bxCAN peripheral of the STM32, /repo/src/modm/platform/can/stm32/can.cpp.in and can_filter.{hpp,cpp}.in,
   with buffer.tx > 0 and buffer.rx > 0 (module.lb does not allow 0). modm_assert_continue_ignore is taken to ignore the failure.
   The registers of the peripheral are modelled, its behaviour is described in BxSpec. *)
From Verif Require Import Base CanModel.

(** *** Mailboxes *)

(* the little-endian 32-bit word at data[i], can.cpp.in:184-186 *)
Definition load32 (d : list Z) (i : Z) : option Z :=
  do b0 <- znth d i; do b1 <- znth d (i + 1); do b2 <- znth d (i + 2); do b3 <- znth d (i + 3);
  Some (b0 + 256 * b1 + 65536 * b2 + 16777216 * b3).
(* storing it, can.cpp.in:213-215 *)
Definition store32 (d : list Z) (i v : Z) : option (list Z) :=
  do d <- zupd d i (u8 v); do d <- zupd d (i + 1) (u8 (Z.shiftr v 8)); do d <- zupd d (i + 2) (u8 (Z.shiftr v 16)); zupd d (i + 3) (u8 (Z.shiftr v 24)).

(* the registers of a transmit mailbox, can.cpp.in:165 *)
Record mailbox := Mb { tir : Z; tdtr : Z; tdlr : Z; tdhr : Z }.
(* can.cpp.in:162-190; CAN_TI0R_IDE is 4, CAN_TI0R_RTR is 2, CAN_TI0R_TXRQ is 1 *)
Definition sendMailbox (m : can_msg) : option mailbox :=
  let t := if c_ext m then Z.lor (u32 (Z.shiftl (c_id m) 3)) 4 else u32 (Z.shiftl (c_id m) 21) in
  let t := if c_rtr m then Z.lor t 2 else t in
  do lo <- load32 (c_data m) 0;
  do hi <- load32 (c_data m) 4;
  Some (Mb (Z.lor t 1) (c_dlc m) lo hi).
(* can.cpp.in:193-216: the registers RIR, RDTR, RDLR and RDHR of the FIFO; returns the message and the filter index.
   CAN_RI0R_IDE is 4, CAN_RI0R_RTR is 2, CAN_TDT1R_DLC is 0xF, CAN_RDT1R_FMI is 0xFF00 *)
Definition readMailbox (capacity : Z) (m : can_msg) (rir rdtr rdlr rdhr : Z) : option (can_msg * Z) :=
  let e := negb (Z.land rir 4 =? 0) in
  let m := mkCan (if e then Z.shiftr rir 3 else Z.shiftr rir 21) (c_fd m) (c_brs m) (negb (Z.land rir 2 =? 0)) e (c_dlc m) (c_len m) (c_data m) in
  do m <- can_setDataLengthCode capacity m (Z.land rdtr 15);
  do d <- store32 (c_data m) 0 rdlr;
  do d <- store32 d 4 rdhr;
  Some (mkCan (c_id m) (c_fd m) (c_brs m) (c_rtr m) (c_ext m) (c_dlc m) (c_len m) d, Z.shiftr (Z.land rdtr 65280) 8).

(** *** Filters *)

(* can_filter.hpp.in:89-93; rtr: RTR *)
Definition ExtendedIdentifier (id : Z) (rtr : bool) : Z := Z.lor (Z.lor (u32 (Z.shiftl id 3)) 4) (if rtr then 2 else 0).
(* can_filter.hpp.in:101-105; rtr: RTR_MATCH *)
Definition ExtendedFilterMask (id : Z) (rtr : bool) : Z := Z.lor (Z.lor (u32 (Z.shiftl id 3)) 4) (if rtr then 2 else 0).
(* can_filter.hpp.in:122-126 *)
Definition StandardIdentifier (id : Z) (rtr : bool) : Z := Z.lor (u32 (Z.shiftl id 21)) (if rtr then 2 else 0).
(* can_filter.hpp.in:134-138 *)
Definition StandardFilterMask (id : Z) (rtr : bool) : Z := Z.lor (u32 (Z.shiftl id 21)) (if rtr then 2 else 0).
(* can_filter.hpp.in:180-187 *)
Definition ExtendedIdentifierShort (id : Z) (rtr : bool) : Z :=
  u16 (Z.lor (Z.lor (Z.lor (Z.land (Z.shiftr id 13) 65504) (Z.land (Z.shiftr id 15) 127)) 8) (if rtr then 16 else 0)).
(* can_filter.hpp.in:198-205 *)
Definition ExtendedFilterMaskShort (id : Z) (rtr : bool) : Z :=
  u16 (Z.lor (Z.lor (Z.lor (Z.land (Z.shiftr id 13) 65504) (Z.land (Z.shiftr id 15) 127)) 8) (if rtr then 16 else 0)).
(* can_filter.hpp.in:223-227 *)
Definition StandardIdentifierShort (id : Z) (rtr : bool) : Z := u16 (Z.lor (Z.land (Z.shiftl id 5) 65504) (if rtr then 16 else 0)).
(* can_filter.hpp.in:232-236 *)
Definition StandardFilterMaskShort (id : Z) (rtr : bool) : Z := u16 (Z.lor (Z.land (Z.shiftl id 5) 65504) (if rtr then 16 else 0)).

(* FA1R, FM1R, FS1R, FFA1R and the filter registers, can_filter.cpp.in:24-59 *)
Record fregs := Fr { fa : Z; fm : Z; fs : Z; ffa : Z; fr1 : Z -> Z; fr2 : Z -> Z }.
(* reg |= mask or reg &= ~mask on a 32-bit register, can_filter.cpp.in:31-52 *)
Definition set_bit (b : bool) (reg mask : Z) : Z := if b then Z.lor reg mask else Z.land reg (4294967295 - mask).
(* can_filter.cpp.in:23-63; LIST_MODE is 2, SINGLE_MODE is 4, FIFO1 is 1; the initialization mode is not modelled. A shift by 32 or more
   is undefined. *)
Definition setFilterBase (bank flags f1 f2 : Z) (r : fregs) : option fregs :=
  if bank <? 32 then
    let mask := Z.shiftl 1 bank in
    Some (Fr (set_bit true (set_bit false (fa r) mask) mask)
             (set_bit (negb (Z.land flags 2 =? 0)) (fm r) mask)
             (set_bit (negb (Z.land flags 4 =? 0)) (fs r) mask)
             (set_bit (negb (Z.land flags 1 =? 0)) (ffa r) mask)
             (fun k => if k =? bank then f1 else fr1 r k) (fun k => if k =? bank then f2 else fr2 r k))
  else None.
(* can_filter.cpp.in:65-78 *)
Definition disableFilter (bank : Z) (r : fregs) : option fregs :=
  if bank <? 32 then Some (Fr (set_bit false (fa r) (Z.shiftl 1 bank)) (fm r) (fs r) (ffa r) (fr1 r) (fr2 r)) else None.
(* can_filter.hpp.in:258-262 and 273-277; fifo is 0 or 1 *)
Definition setFilter (bank fifo id mask : Z) : fregs -> option fregs := setFilterBase bank (Z.lor (Z.lor fifo 0) 4) id mask.
(* can_filter.hpp.in:290-294 *)
Definition setIdentifierFilter (bank fifo id id2 : Z) : fregs -> option fregs := setFilterBase bank (Z.lor (Z.lor fifo 2) 4) id id2.
(* can_filter.hpp.in:297-335 *)
Definition setFilterShort (bank fifo id1 mask1 id2 mask2 : Z) : fregs -> option fregs :=
  setFilterBase bank (Z.lor (Z.lor fifo 0) 0) (Z.lor id1 (u32 (Z.shiftl mask1 16))) (Z.lor id2 (u32 (Z.shiftl mask2 16))).
(* can_filter.hpp.in:352-360 *)
Definition setIdentifierFilterShort (bank fifo id1 id2 id3 id4 : Z) : fregs -> option fregs :=
  setFilterBase bank (Z.lor (Z.lor fifo 2) 0) (Z.lor id1 (u32 (Z.shiftl id2 16))) (Z.lor id3 (u32 (Z.shiftl id4 16))).

(** *** Transmission *)

(* where sendMessage is, can.cpp.in:433-458: not called; after finding all mailboxes used; after finding a free one; before sendMailbox *)
Inductive pc := Idle | Full (m : can_msg) | Free (m : can_msg) | Put (m : can_msg) (k : Z).
(* txQueue; the mailboxes and RQCP0..2 in TSR; the mailboxes requested, in the order of their requests; the interrupt is pending at the NVIC;
   the program; messages sent on the bus and messages accepted by sendMessage so far. can.cpp.in:40,72-83,228-250,433-458 *)
Record tx := Tx { queue : list can_msg; box : Z -> option can_msg; rqcp : Z -> bool; order : list Z; pend : bool; prog : pc; sent : list can_msg; accepted : list can_msg }.

(* sendMailbox on mailbox k, can.cpp.in:162-190. The registers of a mailbox with a pending request are write protected; the request clears
   RQCP (reference manual). *)
Definition write_box (k : Z) (m : can_msg) (s : tx) : tx :=
  match box s k with
  | Some _ => s
  | None => Tx (queue s) (fun j => if j =? k then Some m else box s j) (fun j => if j =? k then false else rqcp s j) (order s ++ [k]) (pend s) (prog s) (sent s) (accepted s)
  end.
(* the transmit interrupt, can.cpp.in:225-252: tells whether RQCP is set of any mailbox afterwards, that is whether it comes again *)
Definition tx_isr (s : tx) : tx :=
  let k := if rqcp s 2 then 2 else if rqcp s 1 then 1 else 0 in
  let s := Tx (queue s) (box s) (fun j => if j =? k then false else rqcp s j) (order s) false (prog s) (sent s) (accepted s) in
  let s := match queue s with
           | [] => s
           | m :: q => let s := write_box k m s in Tx q (box s) (rqcp s) (order s) (pend s) (prog s) (sent s) (accepted s)
           end in
  Tx (queue s) (box s) (rqcp s) (order s) (rqcp s 0 || rqcp s 1 || rqcp s 2) (prog s) (sent s) (accepted s).
(* the test of TME0..2 at the start of sendMessage, can.cpp.in:438 *)
Definition check (m : can_msg) (s : tx) : tx :=
  let free := match box s 0, box s 1, box s 2 with Some _, Some _, Some _ => false | _, _, _ => true end in
  Tx (queue s) (box s) (rqcp s) (order s) (pend s) (if free then Free m else Full m) (sent s) (accepted s).
(* the push of sendMessage, can.cpp.in:442-446; cap elements fit *)
Definition push (cap : Z) (m : can_msg) (s : tx) : tx :=
  if zlen (queue s) <? cap then Tx (queue s ++ [m]) (box s) (rqcp s) (order s) (pend s) Idle (sent s) (accepted s ++ [m])
  else Tx (queue s) (box s) (rqcp s) (order s) (pend s) Idle (sent s) (accepted s).
(* reading CODE, can.cpp.in:453 *)
Definition code (m : can_msg) (k : Z) (s : tx) : tx := Tx (queue s) (box s) (rqcp s) (order s) (pend s) (Put m k) (sent s) (accepted s).
(* can.cpp.in:455-456 *)
Definition put (m : can_msg) (k : Z) (s : tx) : tx :=
  let s := write_box k m s in Tx (queue s) (box s) (rqcp s) (order s) (pend s) Idle (sent s) (accepted s ++ [m]).
(* before the first message, can.cpp.in:40 *)
Definition tx_start : tx := Tx [] (fun _ => None) (fun _ => false) [] false Idle [] [].

(** *** Reception *)
Section Rx.
  Variable A : Type.
  (* the FIFOs with their overrun flags; rxQueue; what getMessage returned and what came from the bus so far, each with its FIFO.
     can.cpp.in:43-49,262-310,384-396 *)
  Record rx := Rx { fifo : bool -> list A; fovr : bool -> bool; rxq : list (bool * A); got : list (bool * A); recv : list (bool * A) }.
  (* the interrupt of FIFO f, can.cpp.in:262-284 and 292-314; RFOM releases the oldest message. None: a mailbox without message is read. *)
  Definition rx_isr (cap : Z) (f : bool) (s : rx) : option rx :=
    let fl := if fovr s f then tl (fifo s f) else fifo s f in
    match fl with
    | [] => None
    | m :: r => Some (Rx (fun g => if Bool.eqb g f then r else fifo s g) (fun g => if Bool.eqb g f then false else fovr s g)
                         (if zlen (rxq s) <? cap then rxq s ++ [(f, m)] else rxq s) (got s) (recv s))
    end.
  (* getMessage, can.cpp.in:384-397 *)
  Definition getMessage (s : rx) : rx :=
    match rxq s with
    | [] => s
    | x :: q => Rx (fifo s) (fovr s) q (got s ++ [x]) (recv s)
    end.
  (* before the first message, can.cpp.in:48 *)
  Definition rx_start : rx := Rx (fun _ => []) (fun _ => false) [] [] [].
End Rx.
Arguments Rx {A}. Arguments fifo {A}. Arguments fovr {A}. Arguments rxq {A}. Arguments got {A}. Arguments recv {A}.
Arguments rx_isr {A}. Arguments getMessage {A}. Arguments rx_start {A}.

(** *** Initialization *)

(* while (not acknowledged and deadlockPreventer-- > 0), can.cpp.in:98-104 and 152-155; ack n: the n-th read of MSR ends the wait. Returns
   deadlockPreventer. *)
Fixpoint wait (fuel : nat) (ack : nat -> bool) (n : nat) (d : Z) : option Z :=
  match fuel with
  | O => None
  | S fuel => if ack n then Some d else if 0 <? d then wait fuel ack (S n) (d - 1) else Some (d - 1)
  end.
(* can.cpp.in:96-106,150-156: enter n and leave n: the mode is acknowledged at the n-th read *)
Definition initialize (enter leave : nat -> bool) : option bool :=
  do d <- wait (Z.to_nat 10002) enter 0 10000;
  if d =? 0 then Some false
  else do d <- wait (Z.to_nat 10002) leave 0 10000; Some (0 <? d).
