(* Model of the driver for the CAN controller MCP2515, /repo/src/modm/driver/can/mcp2515_impl.hpp, mcp2515.hpp and mcp2515_bit_timings.hpp.
   A function of the driver is the sequence of its accesses to the SPI bus and the chip select pin (a program); what the chip does with
   them, and what it does on its own between them, is described in McpSpec. Delays are left out, the machine is little-endian. *)
From Verif Require Import Base CanModel.

(* mcp2515_impl.hpp:72-89: chipSelect.reset() selects, chipSelect.set() deselects, spi.transferBlocking(b) sends a byte and receives one; PFault
   stands for an access outside an array *)
Inductive prog (A : Type) : Type :=
| PRet (a : A)
| PFault
| PSel (k : prog A)
| PDesel (k : prog A)
| PXfer (b : Z) (k : Z -> prog A).
Arguments PRet {A} a.
Arguments PFault {A}.
Arguments PSel {A} k.
Arguments PDesel {A} k.
Arguments PXfer {A} b k.

(* one function of the driver after the other, mcp2515_impl.hpp:92-98 *)
Fixpoint pbind {A B : Type} (p : prog A) (f : A -> prog B) : prog B :=
  match p with
  | PRet a => f a
  | PFault => PFault
  | PSel k => PSel (pbind k f)
  | PDesel k => PDesel (pbind k f)
  | PXfer b k => PXfer b (fun v => pbind (k v) f)
  end.

(** *** Registers *)

(* mcp2515_impl.hpp:311-322; WRITE is 0x02, mcp2515.hpp:176 *)
Definition writeRegister (address data : Z) : prog unit := PSel (PXfer 2 (fun _ => PXfer address (fun _ => PXfer data (fun _ => PDesel (PRet tt))))).
(* mcp2515_impl.hpp:324-337; READ is 0x03, mcp2515.hpp:174 *)
Definition readRegister (address : Z) : prog Z := PSel (PXfer 3 (fun _ => PXfer address (fun _ => PXfer 255 (fun d => PDesel (PRet d))))).
(* mcp2515_impl.hpp:339-351; BIT_MODIFY is 0x05, mcp2515.hpp:181 *)
Definition bitModify (address mask data : Z) : prog unit :=
  PSel (PXfer 5 (fun _ => PXfer address (fun _ => PXfer mask (fun _ => PXfer data (fun _ => PDesel (PRet tt)))))).
(* mcp2515_impl.hpp:353-365 *)
Definition readStatus (type : Z) : prog Z := PSel (PXfer type (fun _ => PXfer 255 (fun d => PDesel (PRet d)))).

(** *** Messages *)

(* mcp2515_impl.hpp:369-399; the identifier is read as bytes and half words; MCP2515_IDE is 8, mcp2515_definitions.hpp:359 *)
Definition writeIdentifier (identifier : Z) (isExtendedFrame : bool) : prog unit :=
  if isExtendedFrame then
    let b2 := u8 (Z.shiftr identifier 16) in
    let temp := Z.lor (Z.lor (Z.land (Z.shiftl b2 3) 224) 8) (Z.land b2 3) in
    PXfer (u8 (Z.shiftr (u16 (Z.shiftr identifier 16)) 5)) (fun _ => PXfer temp (fun _ =>
    PXfer (u8 (Z.shiftr identifier 8)) (fun _ => PXfer (u8 identifier) (fun _ => PRet tt))))
  else
    PXfer (u8 (Z.shiftr (u16 identifier) 3)) (fun _ => PXfer (u8 (Z.shiftl (u8 identifier) 5)) (fun _ =>
    PXfer 0 (fun _ => PXfer 0 (fun _ => PRet tt)))).

(* mcp2515_impl.hpp:401-439; returns the frame kind and the identifier, put together from bytes and half words; the value received is a byte *)
Definition readIdentifier : prog (bool * Z) :=
  PXfer 255 (fun first => PXfer 255 (fun second =>
  if negb (Z.land second 8 =? 0) then
    let hw := u16 (Z.shiftl first 5) in
    PXfer 255 (fun b1 =>
    let b2 := Z.lor (Z.lor (u8 hw) (Z.land (Z.shiftr second 3) 28)) (Z.land second 3) in
    PXfer 255 (fun b0 => PRet (true, b0 + 256 * b1 + 65536 * b2 + 16777216 * Z.shiftr hw 8)))
  else
    PXfer 255 (fun _ =>
    let hw := u16 (Z.shiftl first 3) in
    PXfer 255 (fun _ => PRet (false, Z.lor (u8 hw) (Z.shiftr second 5) + 256 * Z.shiftr hw 8))))).

(* the loop mcp2515_impl.hpp:227-229: n bytes are still to be received, i is the index *)
Fixpoint readData (n : nat) (i : Z) (data : list Z) : prog (list Z) :=
  match n with
  | O => PRet data
  | S n' => PXfer 255 (fun v => match zupd data i v with Some d => readData n' (i + 1) d | None => PFault end)
  end.
(* mcp2515_impl.hpp:215-235, with the status and the command; MCP2515_DLC etc. are the lower four bits *)
Definition receiveFrom (m : can_msg) (status address : Z) : prog (bool * can_msg) :=
  PSel (PXfer address (fun _ =>
  pbind readIdentifier (fun ei =>
  let rtr := negb (Z.land status 8 =? 0) in
  PXfer 255 (fun d =>
  let len := Z.land d 15 in
  pbind (readData (Z.to_nat len) 0 (c_data m)) (fun data =>
  PDesel (PRet (true, mkCan (snd ei) (c_fd m) (c_brs m) rtr (fst ei) (c_dlc m) len data))))))).
(* mcp2515_impl.hpp:197-236: m is the message object given; FLAG_RXB0_FULL is 0x40, FLAG_RXB1_FULL is 0x80, FLAG_RTR is 8
   (mcp2515_definitions.hpp:399-403), RX_STATUS is 0xB0, READ_RX is 0x90 (mcp2515.hpp:175-180) *)
Definition getMessage (m : can_msg) : prog (bool * can_msg) :=
  pbind (readStatus 176) (fun status =>
  if negb (Z.land status 64 =? 0) then receiveFrom m status 144
  else if negb (Z.land status 128 =? 0) then receiveFrom m status (Z.lor 144 4)
  else PRet (false, m)).

(* mcp2515_impl.hpp:240-255; READ_STATUS is 0xA0, mcp2515.hpp:179; TXB0CNTRL_TXREQ is 4, TXB1CNTRL_TXREQ 16, TXB2CNTRL_TXREQ 64
   (mcp2515_definitions.hpp:385-389) *)
Definition isReadyToSend : prog bool := pbind (readStatus 160) (fun s => PRet (negb (Z.land s 84 =? 84))).

(* the loop mcp2515_impl.hpp:292-294 *)
Fixpoint writeData (n : nat) (i : Z) (data : list Z) : prog unit :=
  match n with
  | O => PRet tt
  | S n' => match znth data i with Some v => PXfer v (fun _ => writeData n' (i + 1) data) | None => PFault end
  end.
(* mcp2515_impl.hpp:281-306; WRITE_TX is 0x40, RTS is 0x80 (mcp2515.hpp:177-178), MCP2515_RTR is 0x40 (mcp2515_definitions.hpp:370) *)
Definition sendTo (m : can_msg) (address : Z) : prog bool :=
  PSel (PXfer (Z.lor 64 address) (fun _ =>
  pbind (writeIdentifier (c_id m) (c_ext m)) (fun _ =>
  pbind (if c_rtr m then PXfer (u8 (Z.lor 64 (c_len m))) (fun _ => PRet tt)
         else PXfer (c_len m) (fun _ => writeData (Z.to_nat (c_len m)) 0 (c_data m))) (fun _ =>
  PDesel (PSel (
  let address := if address =? 0 then 1 else address in
  PXfer (Z.lor 128 address) (fun _ => PDesel (PRet (negb (address =? 0)))))))))).
(* mcp2515_impl.hpp:259-280 *)
Definition sendMessage (m : can_msg) : prog bool :=
  pbind (readStatus 160) (fun status =>
  if Z.land status 4 =? 0 then sendTo m 0
  else if Z.land status 16 =? 0 then sendTo m 2
  else if Z.land status 64 =? 0 then sendTo m 4
  else PRet false).

(** *** Filters *)

(* mcp2515.hpp:70-75 *)
Definition MCP2515_FILTER_EXTENDED (id : Z) : list Z :=
  [u8 (Z.shiftr id 21); u8 (Z.lor (Z.lor (Z.land (Z.shiftr id 13) 224) 8) (Z.land (Z.shiftr id 16) 3)); u8 (Z.shiftr id 8); u8 id].
(* mcp2515.hpp:77-81, for an argument that is a single value *)
Definition MCP2515_FILTER (id : Z) : list Z := [u8 (Z.shiftr id 3); u8 (u32 (Z.shiftl id 5)); 0; 0].
(* mcp2515.hpp:83-88 *)
Definition MCP2515_MASK_EXTENDED (id : Z) : list Z :=
  [u8 (Z.shiftr id 21); u8 (Z.lor (Z.lor (Z.land (Z.shiftr id 13) 224) 8) (Z.land (Z.shiftr id 16) 3)); u8 (Z.shiftr id 8); u8 id].
(* mcp2515.hpp:91-95 *)
Definition MCP2515_MASK (id : Z) : list Z := [u8 (Z.shiftr id 3); u8 (u32 (Z.shiftl id 5)); 0; 0].

(* while ((readRegister(CANSTAT) & 0xe0) != want), mcp2515_impl.hpp:107-109, 139-140 and 183-185, for at most n readings (None: still waiting
   after them); CANSTAT is 0x0E *)
Fixpoint waitMode {A : Type} (n : nat) (want : Z) (k : prog (option A)) : prog (option A) :=
  match n with
  | O => PRet None
  | S n' => pbind (readRegister 14) (fun v => if Z.land v 224 =? want then k else waitMode n' want k)
  end.

(* the inner loop mcp2515_impl.hpp:152-158: n bytes from the table, j is its index *)
Fixpoint writeTable (n : nat) (j : Z) (filter : list Z) : prog unit :=
  match n with
  | O => PRet tt
  | S n' => match znth filter j with Some v => PXfer v (fun _ => writeTable n' (j + 1) filter) | None => PFault end
  end.
(* mcp2515_impl.hpp:148-159 for one value of i: select, WRITE, the address and 12 or 8 bytes from position j on *)
Definition writeBlock (i : Z) (j : Z) (filter : list Z) : prog unit :=
  PSel (PXfer 2 (fun _ => PXfer i (fun _ => pbind (writeTable (if i =? 32 then 8%nat else 12%nat) j filter) (fun _ => PDesel (PRet tt))))).
(* mcp2515_impl.hpp:131-163; CANCTRL is 0x0F, REQOP2 is 0x80, RXB0CTRL is 0x60, RXB1CTRL is 0x70, BUKT is 4; n bounds the waiting *)
Definition setFilter (n : nat) (filter : list Z) : prog (option unit) :=
  pbind (bitModify 15 224 128) (fun _ =>
  waitMode n 128 (
  pbind (writeRegister 96 4) (fun _ => pbind (writeRegister 112 0) (fun _ =>
  pbind (writeBlock 0 0 filter) (fun _ => pbind (writeBlock 16 12 filter) (fun _ => pbind (writeBlock 32 24 filter) (fun _ =>
  pbind (bitModify 15 224 0) (fun _ => PRet (Some tt))))))))).

(* the modes, /repo/src/modm/architecture/interface/can.hpp:28-36 *)
Inductive can_mode := MNormal | MListenOnly | MLoopBack | MListenOnlyLoopBack.
(* mcp2515_impl.hpp:166-186; REQOP1 is 0x40, REQOP0 is 0x20 *)
Definition setMode (n : nat) (mode : can_mode) : prog (option unit) :=
  let reg := match mode with MListenOnly => 96 | MLoopBack => 64 | _ => 0 end in
  pbind (bitModify 15 224 reg) (fun _ => waitMode n reg (PRet (Some tt))).

(** *** Bit timing *)

(* mcp2515_bit_timings.hpp:35-39 *)
Definition calcSJW (clk bitrate : Z) : Z :=
  if clk =? 8000000 then 1 else if clk =? 16000000 then 1 else if clk =? 20000000 then (if bitrate =? 1000000 then 1 else 3) else 0.
(* mcp2515_bit_timings.hpp:41-45 *)
Definition calcProp (clk bitrate : Z) : Z :=
  if clk =? 8000000 then 1 else if clk =? 16000000 then (if bitrate =? 1000000 then 1 else 3)
  else if clk =? 20000000 then (if bitrate =? 1000000 then 3 else 5) else 0.
(* mcp2515_bit_timings.hpp:47-51 *)
Definition calcPS1 (clk bitrate : Z) : Z :=
  if clk =? 8000000 then (if bitrate =? 1000000 then 1 else 4) else if clk =? 16000000 then (if bitrate =? 1000000 then 4 else 8)
  else if clk =? 20000000 then (if bitrate =? 1000000 then 4 else 8) else 0.
(* mcp2515_bit_timings.hpp:53-57 *)
Definition calcPS2 (clk bitrate : Z) : Z :=
  if clk =? 8000000 then (if bitrate =? 1000000 then 1 else 2) else if clk =? 16000000 then (if bitrate =? 1000000 then 2 else 4)
  else if clk =? 20000000 then (if bitrate =? 1000000 then 2 else 4) else 0.
(* mcp2515_bit_timings.hpp:59-61, a constant expression: overflow of int32_t and division by zero do not compile *)
Definition calcPrescaler (clk bitrate sjw prop ps1 ps2 : Z) : option Z :=
  let d := bitrate * (sjw + prop + ps1 + ps2) in
  if (d <? - 2147483648) || (2147483647 <? d) then None
  else if d =? 0 then None else Some (u8 (Z.quot clk d)).
(* the parameters, mcp2515_bit_timings.hpp:27-33 *)
Record btiming := Bt { bt_sjw : Z; bt_prop : Z; bt_ps1 : Z; bt_ps2 : Z; bt_prescaler : Z }.
(* mcp2515_bit_timings.hpp:63-68 and the assertions in lines 78-90 (None: does not compile). The quotients of doubles in lines 89 and 90 are those
   of small integers, compared with 0.75 and 0.80: the rounding of a division is monotone, so the comparison is that of the fractions *)
Definition bestConfig (clk bitrate : Z) : option btiming :=
  let sjw := calcSJW clk bitrate in let prop := calcProp clk bitrate in let ps1 := calcPS1 clk bitrate in let ps2 := calcPS2 clk bitrate in
  do p <- calcPrescaler clk bitrate sjw prop ps1 ps2;
  if (1 <=? sjw) && (sjw <=? 4) && (1 <=? prop) && (prop <=? 8) && (1 <=? ps1) && (ps1 <=? 8) && (1 <=? ps2) && (ps2 <=? 8)
     && (2 <=? p) && (p <=? 128) && (ps2 <=? prop + ps1)
     && (Z.quot (Z.quot clk p) (sjw + prop + ps1 + ps2) =? bitrate)
     && (3 * (sjw + prop + ps1 + ps2) <=? 4 * (sjw + prop + ps1)) && (5 * (sjw + prop + ps1) <=? 4 * (sjw + prop + ps1 + ps2))
  then Some (Bt sjw prop ps1 ps2 p) else None.

(* cnf, mcp2515_impl.hpp:52-64: CNF3, CNF2, CNF1 *)
Definition cnf (t : btiming) : list Z :=
  [u8 (bt_ps2 t - 1);
   u8 (Z.lor (Z.lor 128 (Z.shiftl (bt_ps1 t - 1) 3)) (bt_prop t - 1));
   u8 (Z.lor (Z.shiftl (bt_sjw t - 1) 6) (Z.land (bt_prescaler t / 2 - 1) 63))].
(* mcp2515_impl.hpp:40-112; RESET is 0xC0 (mcp2515.hpp:173), CNF3 is 0x28, RX1IE | RX0IE is 3, TXRTSCTRL is 0x0D, BFPCTRL is 0x0C, CNF2 is 0x29;
   modm_assert_continue_fail_debug returns whether the condition holds; n bounds the waiting *)
Definition initializeWithPrescaler (n : nat) (t : btiming) : prog (option bool) :=
  PSel (PXfer 192 (fun _ => PDesel (
  PSel (PXfer 2 (fun _ => PXfer 40 (fun _ =>
  pbind (writeTable 3 0 (cnf t)) (fun _ =>
  PXfer 3 (fun _ => PDesel (
  pbind (writeRegister 13 0) (fun _ => pbind (writeRegister 12 0) (fun _ =>
  pbind (readRegister 41) (fun readback =>
  if negb (readback =? nth 1 (cnf t) 0) then PRet (Some false)
  else pbind (writeRegister 15 0) (fun _ => waitMode n 0 (PRet (Some true))))))))))))))).
(* mcp2515_impl.hpp:115-128 (None: does not compile) *)
Definition initialize (n : nat) (clk bitrate : Z) : option (prog (option bool)) :=
  do t <- bestConfig clk bitrate; Some (initializeWithPrescaler n t).
