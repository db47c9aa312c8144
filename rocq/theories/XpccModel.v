(* XPCC over CAN: headers, identifiers, fragmentation and reassembly.
   Source: src/modm/communication/xpcc/backend/header.hpp, header.cpp and backend/can/connector.cpp, connector.hpp, connector_impl.hpp *)
From Verif Require Import Base SliceLemmas BitsModel.

(* header.hpp:34-40 *)
Inductive xtype := XRequest | XResponse | XNegative | XTimeout.
(* header.hpp:63-68 *)
Record xheader := mkH { h_type : xtype; h_ack : bool; h_dest : Z; h_src : Z; h_pid : Z }.
(* header.cpp:22 *)
Definition xtype_eqb (a b : xtype) : bool :=
  match a, b with XRequest, XRequest | XResponse, XResponse | XNegative, XNegative | XTimeout, XTimeout => true | _, _ => false end.
(* header.cpp:19-27 *)
Definition header_eqb (a b : xheader) : bool :=
  xtype_eqb (h_type a) (h_type b) && Bool.eqb (h_ack a) (h_ack b) && (h_dest a =? h_dest b) && (h_src a =? h_src b) && (h_pid a =? h_pid b).

(* connector.cpp:23-64 *)
Definition convertToIdentifier (h : xheader) (fragmentated : bool) : Z :=
  let i := match h_type h with XRequest => 0 | XResponse => 1 | XNegative => 2 | XTimeout => 3 end in
  let i := u32 (Z.shiftl i 1) in
  let i := if h_ack h then Z.lor i 1 else i in
  let i := u32 (Z.shiftl i 1) in
  let i := u32 (Z.shiftl i 1) in
  let i := if fragmentated then Z.lor i 1 else i in
  let i := u32 (Z.shiftl i 8) in
  let i := Z.lor i (h_dest h) in
  let i := u32 (Z.shiftl i 8) in
  let i := Z.lor i (h_src h) in
  let i := u32 (Z.shiftl i 8) in
  Z.lor i (h_pid h).
(* connector.cpp:71, connector.hpp:67: byte k of the identifier in memory, little endian *)
Definition id_byte (i k : Z) : Z := u8 (Z.shiftr i (8 * k)).
(* connector.hpp:64-69 *)
Definition isFragment (i : Z) : bool := negb (Z.land (id_byte i 3) 1 =? 0).
(* connector.cpp:67-108 *)
Definition convertToHeader (i : Z) : xheader * bool :=
  let flags := id_byte i 3 in
  let t := Z.land flags 0x18 in
  (mkH (if t =? 0 then XRequest else if t =? 8 then XResponse else if t =? 16 then XNegative else if t =? 24 then XTimeout else XRequest)
       (negb (Z.land flags 4 =? 0)) (id_byte i 2) (id_byte i 1) (id_byte i 0), isFragment i).
(* connector.cpp:111-116 *)
Definition getNumberOfFragments (size : Z) : Z := u8 (if 0 <? size mod 6 then size / 6 + 1 else size / 6).

(* src/modm/architecture/interface/can_message.hpp.in:156-173: a CAN frame: identifier and the length bytes of data *)
Record xframe := mkF { f_id : Z; f_data : list Z }.

(* ---- sending ---- *)
(* connector.hpp:174-200: identifier, payload, fragmentIndex *)
Record xsend := mkSI { s_id : Z; s_payload : list Z; s_index : Z }.
(* connector.hpp:235 and connector.cpp:20: sendList and messageCounter. messageCounter is static: it is shared by all connectors of a program; modelled for a single one *)
Record xout := mkXO { x_list : list xsend; x_counter : Z }.
(* connector_impl.hpp:58-78 with 103-114; ready and ok are the answers of the driver to isReadyToSend and sendMessage; the frames sent *)
Definition xp_sendPacket (ready ok : bool) (s : xout) (h : xheader) (payload : list Z) : xout * list xframe :=
  let fragmented := 8 <? zlen payload in
  let identifier := convertToIdentifier h fragmented in
  if negb fragmented && ready && ok then (s, [mkF identifier payload])
  else (mkXO (x_list s ++ [mkSI identifier payload 0]) (x_counter s), []).
(* connector_impl.hpp:116-176; the answers of the driver to getBusState and sendMessage; None: access outside the payload *)
Definition xp_sendWaiting (connected ok : bool) (s : xout) : option (xout * list xframe) :=
  match x_list s with
  | [] => Some (s, [])
  | m :: r =>
      if negb connected then Some (mkXO [] (x_counter s), [])
      else
        let size := u8 (zlen (s_payload m)) in
        if 8 <? size then
          let data0 := Z.lor (s_index m) (Z.land (x_counter s) 0xf0) in
          let offset := u8 (s_index m * 6) in
          let fragmentSize := u8 (size - offset) in
          let sendFinished := negb (6 <? fragmentSize) in
          let fragmentSize := if 6 <? fragmentSize then 6 else fragmentSize in
          do chunk <- zsub (s_payload m) offset fragmentSize;
          if ok then
            Some (if sendFinished then mkXO r (u8 (x_counter s + 0x10)) else mkXO (mkSI (s_id m) (s_payload m) (u8 (s_index m + 1)) :: r) (x_counter s),
                  [mkF (s_id m) ([data0; size] ++ chunk)])
          else Some (s, [])
        else
          do chunk <- zsub (s_payload m) 0 size;
          if ok then Some (mkXO r (x_counter s), [mkF (s_id m) chunk]) else Some (s, [])
  end.
(* connector_impl.hpp:89-97: calls of update(), one per element, with the answers of the driver *)
Fixpoint xp_send_run (s : xout) (answers : list (bool * bool)) : option (xout * list xframe) :=
  match answers with
  | [] => Some (s, [])
  | (connected, ok) :: r => do (s, sent) <- xp_sendWaiting connected ok s; do (s, sent') <- xp_send_run s r; Some (s, sent ++ sent')
  end.

(* ---- receiving ---- *)
(* connector.hpp:202-229; a byte of the payload is None until it is written (smart_pointer.hpp: the memory is not initialised) *)
Record xitem := mkI { i_header : xheader; i_payload : list (option Z); i_frags : Z; i_counter : Z }.
(* connector.hpp:236-237: pendingMessages, receivedMessages *)
Record xin := mkXI { x_pending : list xitem; x_received : list xitem }.
(* connector_impl.hpp:236-244: the matching item, with the items in front of it and behind it *)
Fixpoint xp_find (l : list xitem) (h : xheader) (c : Z) : option (list xitem * xitem * list xitem) :=
  match l with
  | [] => None
  | i :: r =>
      if header_eqb (i_header i) h && (i_counter i =? c) then Some ([], i, r)
      else match xp_find r h c with Some (a, x, b) => Some (i :: a, x, b) | None => None end
  end.
(* connector_impl.hpp:178-282, for a frame obtained from the driver; None: write outside the payload buffer.
   data[0] and data[1] of frames shorter than two bytes are read but not used (line 205). Allocation is assumed to succeed. *)
Definition xp_retrieve (s : xin) (f : xframe) : option (xin * bool) :=
  let (header, fragment) := convertToHeader (f_id f) in
  let len := zlen (f_data f) in
  if negb fragment then
    do p <- zwrite (repeat None (Z.to_nat len)) 0 (map Some (f_data f));
    Some (mkXI (x_pending s) (x_received s ++ [mkI header p 0 0]), true)
  else
    match f_data f with
    | d0 :: messageSize :: chunk =>
        let fragmentIndex := Z.land d0 0x0f in
        let counter := Z.land d0 0xf0 in
        let n := getNumberOfFragments messageSize in
        if (len <? 3) || (48 <? messageSize) || (n <=? fragmentIndex) then Some (s, false)
        else
          let offset := u8 (fragmentIndex * 6) in
          if if fragmentIndex + 1 =? n then negb (messageSize - offset =? len - 2) else negb (len =? 8) then Some (s, false)
          else
            let '(a, packet, b) :=
              match xp_find (x_pending s) header counter with
              | Some r => r
              | None => ([], mkI header (repeat None (Z.to_nat messageSize)) 0 counter, x_pending s)
              end in
            let current := u8 (Z.shiftl 1 fragmentIndex) in
            let frags := if negb (Z.land current (i_frags packet) =? 0) then 0 else i_frags packet in
            let frags := Z.lor frags current in
            do p <- zwrite (i_payload packet) offset (map Some chunk);
            let packet := mkI (i_header packet) p frags (i_counter packet) in
            if bitCount8 frags =? n then Some (mkXI (a ++ b) (x_received s ++ [packet]), true)
            else Some (mkXI (a ++ packet :: b) (x_received s), true)
    | _ => Some (s, false)
    end.
(* connector_impl.hpp:93-95: all frames available *)
Fixpoint xp_receive (s : xin) (fs : list xframe) : option xin :=
  match fs with
  | [] => Some s
  | f :: r => do (s, _) <- xp_retrieve s f; xp_receive s r
  end.
