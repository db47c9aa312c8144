(* Model of modm/communication/rpr/{constants,interface,interface_impl,node_impl}.hpp and interface.cpp.
   Buffers obtained from bufferAllocator are modelled as the list of bytes owned by the queued message; whether an allocation succeeds is
   decided by the parameter alloc, which may depend on the whole state. (The header of that allocator is not in the repository.) *)
From Verif Require Import Base SliceLemmas CrcModel.

(* constants.hpp:25-31 *)
Inductive rtype := RAny | RUnicast | RMulticast | RBroadcast.
(* comparison of the enumeration, constants.hpp:25-31 *)
Definition rtype_eqb (a b : rtype) : bool :=
  match a, b with RAny, RAny | RUnicast, RUnicast | RMulticast, RMulticast | RBroadcast, RBroadcast => true | _, _ => false end.
(* constants.hpp:35 *)
Definition COMMAND_ANY := 0xff.
(* constants.hpp:40 *)
Definition ADDRESS_ANY := 0xffff.
(* constants.hpp:72 *)
Definition ADDRESS_INDIVIDUAL_GROUP := 0x8000.
(* constants.hpp:73 *)
Definition ADDRESS_BROADCAST := 0xffff.
(* constants.hpp:74 *)
Definition ADDRESS_VALUE := 0x7fff.
(* constants.hpp:87 *)
Definition rpr_start := 0x7e.
(* constants.hpp:88 *)
Definition rpr_end := 0x7c.
(* constants.hpp:89 *)
Definition rpr_escape := 0x7d.
(* constants.hpp:96 *)
Definition rpr_crcInitialValue := 0xffff.

(* constants.hpp:43-57: payload and length *)
Record rmsg := mkR { m_type : rtype; m_dest : Z; m_src : Z; m_cmd : Z; m_payload : list Z }.

(* interface.cpp:18-37, without __AVR__ (avr-libc's _crc16_update is the same function) *)
Definition rpr_crcUpdate : Z -> Z -> Z := refl_update 0xA001.

Section Rpr.
(* interface.hpp:43: number of payload bytes *)
Variable N : Z.

(* interface.hpp:119-147: the static members. receiveBuffer: rb_*; its payload pointer is rx_buffer between calls of update() (interface_impl.hpp:80, 199). status: the
   five flags *)
Record rpr := mkRpr {
  r_address : Z; r_group : Z; r_toSend : list rmsg; r_received : list rmsg;
  rb_type : rtype; rb_dest : Z; rb_src : Z; rb_cmd : Z; rb_len : Z; r_buf : list Z;
  r_crc : Z; r_length : Z; r_esc : bool; r_abuf : Z;
  r_started : bool; r_ended : bool; r_mine : bool; r_overflow : bool; r_own : bool }.

(* interface_impl.hpp:33-71, 76-82 *)
Definition rpr_initialize (address group : Z) : rpr :=
  mkRpr (Z.land address ADDRESS_VALUE) (Z.land group ADDRESS_VALUE) [] [] RAny 0 0 0 0 (repeat 0 (Z.to_nat (N + 8)))
        rpr_crcInitialValue 0 false 0 false false false false false.

(* interface_impl.hpp:439-478: members messagesToSend and receivedMessages *)
Definition set_queues (s : rpr) (snd rcv : list rmsg) : rpr :=
  mkRpr (r_address s) (r_group s) snd rcv (rb_type s) (rb_dest s) (rb_src s) (rb_cmd s) (rb_len s) (r_buf s)
        (r_crc s) (r_length s) (r_esc s) (r_abuf s) (r_started s) (r_ended s) (r_mine s) (r_overflow s) (r_own s).
(* interface_impl.hpp:162-169, 177-178, 206-208, 213, 221, 232 *)
Definition set_frame (s : rpr) (crc length : Z) (esc started ended : bool) : rpr :=
  mkRpr (r_address s) (r_group s) (r_toSend s) (r_received s) (rb_type s) (rb_dest s) (rb_src s) (rb_cmd s) (rb_len s) (r_buf s)
        crc length esc (r_abuf s) started ended (r_mine s) (r_overflow s) (r_own s).
(* interface_impl.hpp:237, 292 *)
Definition set_abuf (s : rpr) (a : Z) : rpr :=
  mkRpr (r_address s) (r_group s) (r_toSend s) (r_received s) (rb_type s) (rb_dest s) (rb_src s) (rb_cmd s) (rb_len s) (r_buf s)
        (r_crc s) (r_length s) (r_esc s) a (r_started s) (r_ended s) (r_mine s) (r_overflow s) (r_own s).
(* interface_impl.hpp:246-285 *)
Definition set_dest (s : rpr) (t : rtype) (dest : Z) (mine : bool) (crc : Z) : rpr :=
  mkRpr (r_address s) (r_group s) (r_toSend s) (r_received s) t dest (rb_src s) (rb_cmd s) 0 (r_buf s)
        crc (r_length s) (r_esc s) (r_abuf s) (r_started s) (r_ended s) mine false false.
(* interface_impl.hpp:301-312 *)
Definition set_src (s : rpr) (src : Z) (own : bool) (crc : Z) : rpr :=
  mkRpr (r_address s) (r_group s) (r_toSend s) (r_received s) (rb_type s) (rb_dest s) src (rb_cmd s) (rb_len s) (r_buf s)
        crc (r_length s) (r_esc s) (r_abuf s) (r_started s) (r_ended s) (r_mine s) (r_overflow s) own.
(* interface_impl.hpp:338-345 *)
Definition set_payload (s : rpr) (len : Z) (buf : list Z) (crc : Z) (overflow : bool) : rpr :=
  mkRpr (r_address s) (r_group s) (r_toSend s) (r_received s) (rb_type s) (rb_dest s) (rb_src s) (rb_cmd s) len buf
        crc (r_length s) (r_esc s) (r_abuf s) (r_started s) (r_ended s) (r_mine s) overflow (r_own s).
(* interface_impl.hpp:194-196 *)
Definition set_cmd (s : rpr) (cmd len : Z) : rpr :=
  mkRpr (r_address s) (r_group s) (r_toSend s) (r_received s) (rb_type s) (rb_dest s) (rb_src s) cmd len (r_buf s)
        (r_crc s) (r_length s) (r_esc s) (r_abuf s) (r_started s) (r_ended s) (r_mine s) (r_overflow s) (r_own s).

Variable alloc : rpr -> Z -> bool.

(* interface_impl.hpp:362-378: the bytes written to the device *)
Definition rpr_writeByteEscaped (data : Z) : list Z :=
  if (data =? rpr_start) || (data =? rpr_end) || (data =? rpr_escape) then [rpr_escape; Z.lxor data 0x20] else [data].
(* interface_impl.hpp:391-400 *)
Definition rpr_destination (m : rmsg) : Z :=
  match m_type m with
  | RBroadcast => ADDRESS_BROADCAST
  | RMulticast => Z.lor (Z.land (m_dest m) ADDRESS_VALUE) ADDRESS_INDIVIDUAL_GROUP
  | _ => Z.land (m_dest m) ADDRESS_VALUE
  end.
(* interface_impl.hpp:380-434: the bytes written *)
Definition rpr_frame (m : rmsg) : list Z :=
  let destination := rpr_destination m in
  let content := [u8 destination; u8 (Z.shiftr destination 8); u8 (m_src m); u8 (Z.shiftr (m_src m) 8); m_cmd m] ++ m_payload m in
  let crc := fold_left rpr_crcUpdate content rpr_crcInitialValue in
  [rpr_start] ++ flat_map rpr_writeByteEscaped content ++ rpr_writeByteEscaped (u8 crc) ++ rpr_writeByteEscaped (u8 (Z.shiftr crc 8)) ++ [rpr_end].
(* interface_impl.hpp:466-478 on messagesToSend: releases the buffer and removes the message *)
Definition pop_toSend (s : rpr) : rpr := set_queues s (tl (r_toSend s)) (r_received s).
(* interface_impl.hpp:380-436 *)
Definition rpr_writeMessage (s : rpr) (m : rmsg) : rpr * list Z := (pop_toSend s, rpr_frame m).
(* interface_impl.hpp:105-127, 439-463: BoundedQueue of 10; the result is the return value *)
Definition rpr_send (s : rpr) (m : rmsg) : rpr * list Z * bool :=
  if r_started s then
    if 10 <=? zlen (r_toSend s) then (s, [], false)
    else if alloc s (zlen (m_payload m)) then (set_queues s (r_toSend s ++ [m]) (r_received s), [], true)
    else (s, [], false)
  else (rpr_writeMessage s m, false).
(* interface_impl.hpp:85-103: parameters of type uint16_t and uint8_t *)
Definition rpr_sendMessage (s : rpr) (destination : Z) (type : rtype) (command : Z) (payload : list Z) : rpr * list Z * bool :=
  rpr_send s (mkR type destination (r_address s) command payload).

(* interface_impl.hpp:439-463 for receivedMessages, the message being receiveBuffer with payload pointer rx_buffer + off *)
Definition rpr_push_received (s : rpr) (off : Z) : option rpr :=
  if 10 <=? zlen (r_received s) then Some s
  else if alloc s (rb_len s) then
    do p <- zsub (r_buf s) off (rb_len s);
    Some (set_queues s (r_toSend s) (r_received s ++ [mkR (rb_type s) (rb_dest s) (rb_src s) (rb_cmd s) p]))
  else Some s.

(* interface_impl.hpp:180, 314, 350 *)
Definition rpr_forwards (s : rpr) : bool := negb (r_own s) && negb (rtype_eqb (rb_type s) RUnicast).

(* interface_impl.hpp:173-209: end delimiter *)
Definition rpr_end_byte (s : rpr) : option (rpr * list Z) :=
  if (6 <=? r_length s) && r_started s then
    let s := set_frame s (r_crc s) (r_length s) (r_esc s) false true in
    let out := if rpr_forwards s then [rpr_end] else [] in
    do s <- (if r_mine s && (r_crc s =? 0) then
               if 1 <? rb_len s then
                 do c <- znth (r_buf s) 0; rpr_push_received (set_cmd s c (rb_len s - 1)) 1
               else rpr_push_received s 0
             else Some s);
    Some (set_frame s rpr_crcInitialValue 0 false (r_started s) (r_ended s), out)
  else Some (set_frame s rpr_crcInitialValue 0 false (r_started s) (r_ended s), []).

(* interface_impl.hpp:245-285 *)
Definition rpr_dest_byte (s : rpr) (data : Z) : rpr :=
  let dest := u16 (Z.lor (Z.shiftl data 8) (r_abuf s)) in
  let t :=
    if dest =? ADDRESS_BROADCAST then RBroadcast
    else if negb (Z.land dest ADDRESS_INDIVIDUAL_GROUP =? 0) then
      if r_group s =? Z.land dest ADDRESS_VALUE then RMulticast else RAny
    else if r_address s =? Z.land dest ADDRESS_VALUE then RUnicast else RAny in
  let mine := negb (rtype_eqb t RAny) in
  set_dest s t dest mine (if mine then rpr_crcUpdate (rpr_crcUpdate (r_crc s) (r_abuf s)) data else r_crc s).
(* interface_impl.hpp:300-324 *)
Definition rpr_src_byte (s : rpr) (data : Z) : rpr * list Z :=
  let src := Z.land (u16 (Z.lor (Z.shiftl data 8) (r_abuf s))) ADDRESS_VALUE in
  let s := set_src s src (r_own s || (r_address s =? src)) (if r_mine s then rpr_crcUpdate (rpr_crcUpdate (r_crc s) (r_abuf s)) data else r_crc s) in
  (s, if rpr_forwards s then
        [rpr_start] ++ rpr_writeByteEscaped (u8 (rb_dest s)) ++ rpr_writeByteEscaped (u8 (Z.shiftr (rb_dest s) 8)) ++
        rpr_writeByteEscaped (r_abuf s) ++ rpr_writeByteEscaped data
      else []).
(* interface_impl.hpp:333-354: length is already incremented *)
Definition rpr_payload_byte (s : rpr) (data : Z) : option (rpr * list Z) :=
  do s <- (if r_mine s then
             if r_length s <=? N + 8 then
               do buf <- zupd (r_buf s) (r_length s - 5) data;
               Some (set_payload s (rb_len s + 1) buf (rpr_crcUpdate (r_crc s) data) (r_overflow s))
             else Some (set_payload s (rb_len s) (r_buf s) (r_crc s) true)
           else Some s);
  Some (s, if rpr_forwards s then rpr_writeByteEscaped data else []).

(* interface_impl.hpp:156-357: one byte from the device; the bytes written; false if update() returns (line 230) *)
Definition rpr_byte (s : rpr) (data : Z) : option (rpr * list Z * bool) :=
  if data =? rpr_start then Some (set_frame s rpr_crcInitialValue 0 false true false, [], true)
  else if data =? rpr_end then do (s, out) <- rpr_end_byte s; Some (s, out, true)
  else if data =? rpr_escape then Some (set_frame s (r_crc s) (r_length s) true (r_started s) (r_ended s), [], true)
  else
    let data := if r_esc s then Z.lxor data 0x20 else data in
    let s := set_frame s (r_crc s) (r_length s) false (r_started s) (r_ended s) in
    if negb (r_started s) then Some (s, [], false)
    else
      let len := r_length s in
      let s := set_frame s (r_crc s) (u8 (len + 1)) (r_esc s) (r_started s) (r_ended s) in
      if (len =? 0) || (len =? 2) then Some (set_abuf s data, [], true)
      else if len =? 1 then Some (rpr_dest_byte s data, [], true)
      else if len =? 3 then let (s, out) := rpr_src_byte s data in Some (s, out, true)
      else do (s, out) <- rpr_payload_byte s data; Some (s, out, true).
(* interface_impl.hpp:156-359: the loop; the bytes written and those left in the device *)
Fixpoint rpr_loop (s : rpr) (bytes : list Z) : option (rpr * list Z * list Z) :=
  match bytes with
  | [] => Some (s, [], [])
  | b :: r =>
      do (s, out, go) <- rpr_byte s b;
      if go : bool then do (s, out', rest) <- rpr_loop s r; Some (s, out ++ out', rest)
      else Some (s, out, r)
  end.
(* interface_impl.hpp:144-359 *)
Definition rpr_update (s : rpr) (bytes : list Z) : option (rpr * list Z * list Z) :=
  let (s, out) :=
    if r_ended s then
      match r_toSend s with
      | [] => (s, [])
      | m :: _ => let (s, out) := rpr_writeMessage s m in (pop_toSend s, out)
      end
    else (s, []) in
  do (s, out', rest) <- rpr_loop s bytes;
  Some (s, out ++ out', rest).

(* interface_impl.hpp:129-141 *)
Definition rpr_getReceivedMessage (s : rpr) : option rmsg := hd_error (r_received s).
(* interface_impl.hpp:136-141, 466-478 *)
Definition rpr_dropReceivedMessage (s : rpr) : rpr := set_queues s (r_toSend s) (tl (r_received s)).

(* ---- node ---- *)
(* node.hpp:63-75: a listener; what its callback does is modelled by the messages it sends through the Transmitter: destination, type, command, payload *)
Record rlistener := mkL { l_type : rtype; l_source : Z; l_command : Z; l_call : rmsg -> list (Z * rtype * Z * list Z) }.
(* node_impl.hpp:139-163: the first listener that fits *)
Fixpoint rpr_listener (ls : list rlistener) (m : rmsg) : option rlistener :=
  match ls with
  | [] => None
  | l :: r =>
      if rtype_eqb (l_type l) RAny || rtype_eqb (l_type l) (m_type m) then
        if (l_source l =? ADDRESS_ANY) || (l_source l =? m_src m) then
          if (l_command l =? COMMAND_ANY) || (l_command l =? m_cmd m) then Some l else rpr_listener r m
        else rpr_listener r m
      else rpr_listener r m
  end.
(* node_impl.hpp:61-98: the messages sent by a callback, one after the other *)
Fixpoint rpr_sends (s : rpr) (ms : list (Z * rtype * Z * list Z)) : rpr * list Z :=
  match ms with
  | [] => (s, [])
  | (d, t, c, p) :: r =>
      let '(s, out, _) := rpr_sendMessage s d t c p in
      let (s, out') := rpr_sends s r in (s, out ++ out')
  end.
(* node_impl.hpp:107-112: until the queue of received messages is empty, n of them *)
Fixpoint rpr_dispatch (n : nat) (ls : list rlistener) (s : rpr) : rpr * list Z * list (rlistener * rmsg) :=
  match n with
  | O => (s, [], [])
  | S n =>
      match rpr_getReceivedMessage s with
      | None => (s, [], [])
      | Some m =>
          let '(s, out, called) :=
            match rpr_listener ls m with
            | Some l => let (s, out) := rpr_sends s (l_call l m) in (s, out, [(l, m)])
            | None => (s, [], [])
            end in
          let '(s, out', called') := rpr_dispatch n ls (rpr_dropReceivedMessage s) in
          (s, out ++ out', called ++ called')
      end
  end.
(* node_impl.hpp:103-113: the queue holds at most 10 messages; callbacks do not add any *)
Definition rpr_node_update (ls : list rlistener) (s : rpr) (bytes : list Z) : option (rpr * list Z * list Z * list (rlistener * rmsg)) :=
  do (s, out, rest) <- rpr_update s bytes;
  let '(s, out', called) := rpr_dispatch (length (r_received s)) ls s in
  Some (s, out ++ out', rest, called).

(* ---- executions ---- *)
(* calls of the user (interface_impl.hpp:105-141, 144-359); before update() further bytes arrive at the device *)
Inductive rop := RUpdate (arrived : list Z) | RSend (m : rmsg) | RDrop.
(* interface_impl.hpp:105-141, 144-359: one call; the bytes waiting in the device, the bytes written *)
Definition rpr_exec (s : rpr) (dev : list Z) (op : rop) : option (rpr * list Z * list Z) :=
  match op with
  | RUpdate a => do (s, out, rest) <- rpr_update s (dev ++ a); Some (s, rest, out)
  | RSend m => let '(s, out, _) := rpr_send s m in Some (s, dev, out)
  | RDrop => Some (rpr_dropReceivedMessage s, dev, [])
  end.
(* interface_impl.hpp:105-141, 144-359: a sequence of calls *)
Fixpoint rpr_run (s : rpr) (dev : list Z) (ops : list rop) : option (rpr * list Z * list Z) :=
  match ops with
  | [] => Some (s, dev, [])
  | op :: r => do (s, dev, out) <- rpr_exec s dev op; do (s, dev, out') <- rpr_run s dev r; Some (s, dev, out ++ out')
  end.
End Rpr.
