(* The CAN controller MCP2515 as its data sheet (DS21801) describes it, the executions of a program of the driver with it, and frames.
   The chip is the environment of the driver and part of the trusted base. *)
From Verif Require Import Base CanModel McpModel.
From Coq Require Import Permutation.

(* a frame on the bus; the data of a remote frame are empty, of a data frame at most eight bytes whatever the code says *)
Record frame := Fra { f_ext : bool; f_id : Z; f_rtr : bool; f_dlc : Z; f_data : list Z }.

(* the first eight bytes of a buffer are named as in the data sheet (registers 3-3 to 3-8 and 4-4 to 4-9): SIDH, SIDL, EID8, EID0, DLC and data;
   n-th byte of the buffer *)
Definition bt (b : list Z) (n : nat) : Z := nth n b 0.
(* identifier and kind: bit 3 of SIDL marks an extended frame, SIDH and the upper bits of SIDL are the upper eleven bits, the lower two bits of SIDL,
   EID8 and EID0 the lower eighteen *)
Definition b_ext (b : list Z) : bool := Z.testbit (bt b 1) 3.
Definition b_id (b : list Z) : Z :=
  if b_ext b then 2097152 * bt b 0 + 262144 * (bt b 1 / 32) + 65536 * (bt b 1 mod 4) + 256 * bt b 2 + bt b 3
  else 8 * bt b 0 + bt b 1 / 32.
(* the data bytes of a frame with this code *)
Definition b_data (b : list Z) (rtr : bool) (dlc : Z) : list Z := if rtr then [] else firstn (Z.to_nat (Z.min dlc 8)) (skipn 5 b).
(* what the chip sends from a transmit buffer: bit 6 of DLC asks for a remote frame *)
Definition tx_frame (b : list Z) : frame :=
  let rtr := Z.testbit (bt b 4) 6 in let dlc := bt b 4 mod 16 in Fra (b_ext b) (b_id b) rtr dlc (b_data b rtr dlc).
(* the frame in a receive buffer; whether it is a remote frame is told by RXRTR *)
Definition rx_frame (b : list Z) (rtr : bool) : frame :=
  let dlc := bt b 4 mod 16 in Fra (b_ext b) (b_id b) rtr dlc (b_data b rtr dlc).

Record txb := Txb { t_req : bool; t_b : list Z }.
Record rxb := Rxb { r_full : bool; r_rtr : bool; r_b : list Z }.
(* where the chip is in an SPI command *)
Inductive phase := Idle | Cmd | WAddr | WData (a : Z) | RAddr | RData (a : Z) | BAddr | BMask (a : Z) | BData (a m : Z)
  | Stat | RxStat | Load (n i : Z) | Read (n i : Z) | Done.
(* transmit buffers 0 to 2, receive buffers 0 and 1, operation mode, the remaining registers, the frames sent and received so far *)
Record chip := Chip { ph : phase; tx : Z -> txb; rx : Z -> rxb; mode : Z; cfg : Z -> Z; sent : list frame; recv : list frame }.

Definition fupd {A : Type} (f : Z -> A) (n : Z) (v : A) : Z -> A := fun x => if x =? n then v else f x.
Definition set_ph (c : chip) (p : phase) : chip := Chip p (tx c) (rx c) (mode c) (cfg c) (sent c) (recv c).
Definition set_tx (c : chip) (n : Z) (b : txb) : chip := Chip (ph c) (fupd (tx c) n b) (rx c) (mode c) (cfg c) (sent c) (recv c).
Definition set_rx (c : chip) (n : Z) (b : rxb) : chip := Chip (ph c) (tx c) (fupd (rx c) n b) (mode c) (cfg c) (sent c) (recv c).
Definition set_cfg (c : chip) (a v : Z) : chip := Chip (ph c) (tx c) (rx c) (mode c) (fupd (cfg c) a v) (sent c) (recv c).

Definition b2z (b : bool) (v : Z) : Z := if b then v else 0.
(* the byte sent by READ STATUS: RX0IF, RX1IF, then TXREQ and TXnIF (arbitrary here: from the register CANINTF) of each transmit buffer *)
Definition status_byte (c : chip) : Z :=
  b2z (r_full (rx c 0)) 1 + b2z (r_full (rx c 1)) 2 + b2z (t_req (tx c 0)) 4 + b2z (Z.testbit (cfg c 44) 2) 8
  + b2z (t_req (tx c 1)) 16 + b2z (Z.testbit (cfg c 44) 3) 32 + b2z (t_req (tx c 2)) 64 + b2z (Z.testbit (cfg c 44) 4) 128.
(* the byte sent by RX STATUS: full buffers, kind of the message in buffer 0 or else in buffer 1, filter (arbitrary: from RXBnCTRL) *)
Definition rxstatus_byte (c : chip) : Z :=
  let b := if r_full (rx c 0) then rx c 0 else rx c 1 in
  cfg c 96 mod 8 + b2z (r_rtr b) 8 + b2z (b_ext (r_b b)) 16 + b2z (r_full (rx c 0)) 64 + b2z (r_full (rx c 1)) 128.

(* registers that can be written only in the configuration mode (4): filters, masks, bit timing and TXRTSCTRL *)
Definition config_only (a : Z) : bool :=
  ((0 <=? a) && (a <=? 11)) || ((16 <=? a) && (a <=? 27)) || ((32 <=? a) && (a <=? 42)) || (a =? 13).
(* writing a register outside the buffers *)
Definition write_reg (c : chip) (a v : Z) : chip :=
  if (a =? 14) || (config_only a && negb (mode c =? 4)) then c else set_cfg c a v.
(* reading one; the upper bits of CANSTAT (14) are the mode *)
Definition read_reg (c : chip) (a : Z) : Z := if a =? 14 then 32 * mode c + cfg c 14 mod 32 else cfg c a.
(* registers outside the message buffers *)
Definition plain (a : Z) : bool := ((0 <=? a) && (a <? 48)) || (a =? 96) || (a =? 112).

Definition upd_byte (b : list Z) (i v : Z) : list Z := firstn (Z.to_nat i) b ++ v :: skipn (S (Z.to_nat i)) b.
(* RTS: the lower three bits ask for the transmission of the buffers *)
Definition request (c : chip) (v : Z) : chip :=
  let f n := Txb (t_req (tx c n) || Z.testbit v n) (t_b (tx c n)) in
  Chip (ph c) (fun n => if (0 <=? n) && (n <=? 2) then f n else tx c n) (rx c) (mode c) (cfg c) (sent c) (recv c).
(* RESET: configuration mode, no transmission, no message; CANCTRL has 0x87, the values of other registers are left as they are *)
Definition reset (c : chip) : chip :=
  Chip Done (fun n => Txb false (t_b (tx c n))) (fun n => Rxb false false (r_b (rx c n))) 4 (fupd (cfg c) 15 135) (sent c) (recv c).

(* a byte of the bus while the chip is selected: the new state and the byte the chip sends. None: the data sheet does not say what happens.
   Bytes sent by the chip during a command or a write have no meaning (0 here) *)
Definition xfer (c : chip) (b : Z) : option (chip * Z) :=
  match ph c with
  | Idle => None
  | Done => None
  | Cmd =>
      if b =? 2 then Some (set_ph c WAddr, 0) else if b =? 3 then Some (set_ph c RAddr, 0) else if b =? 5 then Some (set_ph c BAddr, 0)
      else if b =? 160 then Some (set_ph c Stat, 0) else if b =? 176 then Some (set_ph c RxStat, 0)
      else if b =? 192 then Some (reset c, 0)
      else if b =? 64 then Some (set_ph c (Load 0 0), 0) else if b =? 66 then Some (set_ph c (Load 1 0), 0)
      else if b =? 68 then Some (set_ph c (Load 2 0), 0)
      else if b =? 144 then Some (set_ph c (Read 0 0), 0) else if b =? 148 then Some (set_ph c (Read 1 0), 0)
      else if (128 <=? b) && (b <=? 135) then Some (set_ph (request c (b - 128)) Done, 0)
      else None
  | WAddr => if plain b then Some (set_ph c (WData b), 0) else None
  | WData a => if plain a then Some (set_ph (write_reg c a b) (WData (a + 1)), 0) else None
  | RAddr => if plain b then Some (set_ph c (RData b), 0) else None
  | RData a => if plain a then Some (set_ph c (RData (a + 1)), read_reg c a) else None
  | BAddr => if b =? 15 then Some (set_ph c (BMask b), 0) else None
  | BMask a => Some (set_ph c (BData a b), 0)
  | BData a m => Some (set_ph (write_reg c a (Z.lor (Z.land (cfg c a) (Z.lxor m 255)) (Z.land b m))) Done, 0)
  | Stat => Some (c, status_byte c)
  | RxStat => Some (c, rxstatus_byte c)
  | Load n i =>
      if (i <? 13) && negb (t_req (tx c n)) then Some (set_ph (set_tx c n (Txb false (upd_byte (t_b (tx c n)) i b))) (Load n (i + 1)), 0) else None
  (* behind the buffer the following registers are read: whatever they hold *)
  | Read n i => Some (set_ph c (Read n (i + 1)), if i <? 13 then bt (r_b (rx c n)) (Z.to_nat i) else cfg c (97 + 16 * n + i) mod 256)
  end.
(* the rising edge of the chip select pin ends the command; after reading a receive buffer its flag is cleared *)
Definition desel (c : chip) : chip :=
  match ph c with
  | Read n _ => set_ph (set_rx c n (Rxb false (r_rtr (rx c n)) (r_b (rx c n)))) Idle
  | _ => set_ph c Idle
  end.

Definition byte (x : Z) : Prop := 0 <= x < 256.
(* what the chip does on its own: it sends the frame in a buffer that asks for it, stores a received frame in a free buffer, or changes to the mode
   asked for in CANCTRL *)
Inductive event : chip -> chip -> Prop :=
| ev_tx c n : 0 <= n <= 2 -> t_req (tx c n) = true ->
    event c (Chip (ph c) (fupd (tx c) n (Txb false (t_b (tx c n)))) (rx c) (mode c) (cfg c) (sent c ++ [tx_frame (t_b (tx c n))]) (recv c))
| ev_rx c n b rtr : 0 <= n <= 1 -> r_full (rx c n) = false -> length b = 13%nat -> Forall byte b ->
    event c (Chip (ph c) (tx c) (fupd (rx c) n (Rxb true rtr b)) (mode c) (cfg c) (sent c) (recv c ++ [rx_frame b rtr]))
| ev_mode c : event c (Chip (ph c) (tx c) (rx c) (cfg c 15 / 32) (cfg c) (sent c) (recv c)).
Inductive events : chip -> chip -> Prop :=
| evs_0 c : events c c
| evs_1 c c1 c2 : event c c1 -> events c1 c2 -> events c c2.

(* the executions of a program: the accesses of the driver in their order, anything the chip does in between; None as a result: an access outside an
   array, or a chip used in a way the data sheet does not allow *)
Inductive run {A : Type} : prog A -> chip -> chip -> option A -> Prop :=
| r_ret c a : run (PRet a) c c (Some a)
| r_fault c : run PFault c c None
| r_ev p c c1 c2 o : event c c1 -> run p c1 c2 o -> run p c c2 o
| r_sel k c c2 o : run k (set_ph c Cmd) c2 o -> run (PSel k) c c2 o
| r_desel k c c2 o : run k (desel c) c2 o -> run (PDesel k) c c2 o
| r_xfer b k c c1 v c2 o : xfer c b = Some (c1, v) -> run (k v) c1 c2 o -> run (PXfer b k) c c2 o
| r_bad b k c : xfer c b = None -> run (PXfer b k) c c None.

(* the frame a message stands for; its length serves as the code *)
Definition msg_frame (m : can_msg) : frame :=
  Fra (c_ext m) (c_id m) (c_rtr m) (c_len m) (if c_rtr m then [] else firstn (Z.to_nat (c_len m)) (c_data m)).
(* a CAN 2.0 message in an object of the given capacity *)
Definition msg_ok (m : can_msg) : Prop :=
  0 <= c_id m < (if c_ext m then 536870912 else 2048) /\ 0 <= c_len m <= 8 /\ c_len m <= zlen (c_data m) /\ Forall byte (c_data m).

(* frames waiting in the chip *)
Definition pending (c : chip) : list frame :=
  concat (map (fun n => if t_req (tx c n) then [tx_frame (t_b (tx c n))] else []) [0; 1; 2]).
Definition waiting (c : chip) : list frame :=
  concat (map (fun n => if r_full (rx c n) then [rx_frame (r_b (rx c n)) (r_rtr (rx c n))] else []) [0; 1]).
(* the buffers have thirteen bytes *)
Definition chip_ok (c : chip) : Prop :=
  (forall n, length (t_b (tx c n)) = 13%nat) /\ (forall n, length (r_b (rx c n)) = 13%nat /\ Forall byte (r_b (rx c n))).

(* an application: calls of sendMessage and getMessage in any order, with the frames for which sendMessage returned true and the messages
   getMessage returned (as frames) *)
Inductive usage : chip -> list frame -> list frame -> Prop :=
| a_init c : ph c = Idle -> chip_ok c -> pending c = [] -> waiting c = [] -> sent c = [] -> recv c = [] -> usage c [] []
| a_event c c1 acc del : usage c acc del -> event c c1 -> usage c1 acc del
| a_send c acc del m c1 b : usage c acc del -> msg_ok m -> run (sendMessage m) c c1 (Some b) -> usage c1 (if b then acc ++ [msg_frame m] else acc) del
| a_get c acc del m c1 b m1 : usage c acc del -> run (getMessage m) c c1 (Some (b, m1)) -> usage c1 acc (if b then del ++ [msg_frame m1] else del).

(* the chip's choice among buffers of the same priority is the highest one; it sends until nothing is left *)
Inductive sends_highest : chip -> chip -> Prop :=
| sh_none c : pending c = [] -> sends_highest c c
| sh_tx c n c1 : 0 <= n <= 2 -> t_req (tx c n) = true -> (forall k, n < k <= 2 -> t_req (tx c k) = false) ->
    sends_highest (Chip (ph c) (fupd (tx c) n (Txb false (t_b (tx c n)))) (rx c) (mode c) (cfg c) (sent c ++ [tx_frame (t_b (tx c n))]) (recv c)) c1 ->
    sends_highest c c1.

(** *** Filters *)

(* the chip's acceptance filtering: the kind of the frame must be that of the filter; the bits of the identifier selected by the mask must agree; for
   standard frames the lower mask bits select bits of the first two data bytes *)
Definition mask_id (b : list Z) : Z := 2097152 * bt b 0 + 262144 * (bt b 1 / 32) + 65536 * (bt b 1 mod 4) + 256 * bt b 2 + bt b 3.
Definition filter_match (filter mask : list Z) (f : frame) : bool :=
  let v := if f_ext f then f_id f else 262144 * f_id f + 256 * nth 0 (f_data f) 0 + nth 1 (f_data f) 0 in
  Bool.eqb (b_ext filter) (f_ext f) && (Z.land v (mask_id mask) =? Z.land (mask_id filter) (mask_id mask)).
(* four registers from an address on *)
Definition regs4 (c : chip) (a : Z) : list Z := [cfg c a; cfg c (a + 1); cfg c (a + 2); cfg c (a + 3)].
(* filters 0 and 1 with mask 0 lead to buffer 0, filters 2 to 5 with mask 1 to buffer 1; with BUKT (bit 2 of RXB0CTRL) a frame for buffer 0 may go
   to buffer 1. The frame is accepted by: *)
Definition accepts0 (c : chip) (f : frame) : bool :=
  filter_match (regs4 c 0) (regs4 c 32) f || filter_match (regs4 c 4) (regs4 c 32) f.
Definition accepts1 (c : chip) (f : frame) : bool :=
  filter_match (regs4 c 8) (regs4 c 36) f || filter_match (regs4 c 16) (regs4 c 36) f || filter_match (regs4 c 20) (regs4 c 36) f
  || filter_match (regs4 c 24) (regs4 c 36) f.
Definition frame_ok (f : frame) : Prop :=
  0 <= f_id f < (if f_ext f then 536870912 else 2048) /\ Forall byte (f_data f).

(* what a filter with a mask is meant to accept: frames of its kind whose identifier agrees in the bits of the mask *)
Definition wants (ext : bool) (id m : Z) (f : frame) : bool :=
  let w := if ext then 536870912 else 2048 in
  Bool.eqb ext (f_ext f) && (Z.land (f_id f) (m mod w) =? Z.land (id mod w) (m mod w)).
(* the macros for either kind *)
Definition mk_filter (ext : bool) (id : Z) : list Z := if ext then MCP2515_FILTER_EXTENDED id else MCP2515_FILTER id.
Definition mk_mask (ext : bool) (id : Z) : list Z := if ext then MCP2515_MASK_EXTENDED id else MCP2515_MASK id.
(* a table for setFilter: six filters, then two masks; the filters of a mask are of its kind *)
Definition filter_table (e0 e1 : bool) (i0 i1 i2 i3 i4 i5 m0 m1 : Z) : list Z :=
  mk_filter e0 i0 ++ mk_filter e0 i1 ++ mk_filter e1 i2 ++ mk_filter e1 i3 ++ mk_filter e1 i4 ++ mk_filter e1 i5 ++ mk_mask e0 m0 ++ mk_mask e1 m1.

(** *** Bit timing *)

(* the chip's bit: time quanta of 2 (BRP + 1) clocks, one of them for synchronization, PRSEG + 1, PHSEG1 + 1 and PHSEG2 + 1 (with BTLMODE, bit 7 of
   CNF2); the number of clocks of a bit for the values of CNF1, CNF2 and CNF3 *)
Definition tq_clocks (cnf1 : Z) : Z := 2 * (cnf1 mod 64 + 1).
Definition ps2_tq (cnf3 : Z) : Z := cnf3 mod 8 + 1.
Definition bit_tq (cnf2 cnf3 : Z) : Z := 1 + (cnf2 mod 8 + 1) + ((cnf2 / 8) mod 8 + 1) + ps2_tq cnf3.
Definition bit_clocks (cnf1 cnf2 cnf3 : Z) : Z := tq_clocks cnf1 * bit_tq cnf2 cnf3.
