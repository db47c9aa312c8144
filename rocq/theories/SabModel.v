(* Model of the sensor actor bus: /repo/src/modm/communication/sab/{constants,interface,slave,master}.hpp and
   their implementation files. Device::write appends to an output byte list, Device::read delivers the next byte of an
   input list and reports false when it is empty. All members are uint8_t unless noted; a result of None means that an
   array was accessed outside its bounds. *)
From Verif Require Import Base SliceLemmas CrcModel TimeoutModel.

(* constants.hpp:41 *)
Definition ERROR_GENERAL_ERROR := 0x00.
(* constants.hpp:42 *)
Definition ERROR_NO_ACTION := 0x01.
(* constants.hpp:50 *)
Definition ERROR_WRONG_PAYLOAD_LENGTH := 0x02.
(* constants.hpp:58 *)
Definition ERROR_NO_RESPONSE := 0x03.
(* constants.hpp:67 *)
Definition REQUEST := 0x00.
(* constants.hpp:68 *)
Definition ACK := 0xc0.
(* constants.hpp:69 *)
Definition NACK := 0x80.
(* constants.hpp:76 *)
Definition maxPayloadLength := 32.
(* constants.hpp:83 *)
Definition syncByte := 0x54.
(* constants.hpp:90 *)
Definition crcInitialValue := 0x00.

(* interface.hpp:142-147 (enum State) *)
Inductive sab_phase := SYNC | LENGTH | DATA.
(* interface.hpp:149-155 (static members) *)
Record sab := mkSab { s_state : sab_phase; s_buf : list Z; s_crc : Z; s_pos : Z; s_len : Z; s_avail : Z }.
(* interface_impl.hpp:29-36: statics are zero initialised *)
Definition sab_init : sab := mkSab SYNC (repeat 0 35) 0 0 0 0.
(* interface_impl.hpp:40-46 *)
Definition sab_initialize (s : sab) : sab := mkSab SYNC (s_buf s) (s_crc s) (s_pos s) (s_len s) (s_avail s).

(* interface_impl.hpp:50-75; the bytes written to the device. [payload] is the memory behind the pointer, of which
   payloadLength (uint8_t) bytes are read; None if there are fewer. address|flags is converted to uint8_t by write. *)
Definition sab_send (address flags command : Z) (payload : list Z) (payloadLength : Z) : option (list Z) :=
  do p <- zsub payload 0 payloadLength;
  let crc := sab_crcUpdate crcInitialValue payloadLength in
  let crc := sab_crcUpdate crc (u8 (Z.lor address flags)) in
  let crc := sab_crcUpdate crc command in
  let crc := fold_left sab_crcUpdate p crc in
  Some (syncByte :: payloadLength :: u8 (Z.lor address flags) :: command :: p ++ [crc]).

(* interface_impl.hpp:99-104 *)
Definition sab_isMessageAvailable (s : sab) : bool := negb (s_avail s =? 0).
(* interface_impl.hpp:106-111 *)
Definition sab_getAddress (s : sab) : option Z := do b <- znth (s_buf s) 0; Some (Z.land b 0x3f).
(* interface_impl.hpp:113-118 *)
Definition sab_getCommand (s : sab) : option Z := znth (s_buf s) 1.
(* interface_impl.hpp:120-125 *)
Definition sab_isResponse (s : sab) : option bool := do b <- znth (s_buf s) 0; Some (negb (Z.land b 0x80 =? 0)).
(* interface_impl.hpp:127-132 *)
Definition sab_isAcknowledge (s : sab) : option bool := do b <- znth (s_buf s) 0; Some (negb (Z.land b 0x40 =? 0)).
(* interface_impl.hpp:134-139: the pointer &buffer[2], here with the n bytes a user reads through it *)
Definition sab_getPayload (s : sab) (n : Z) : option (list Z) := zsub (s_buf s) 2 n.
(* interface_impl.hpp:141-146 *)
Definition sab_getPayloadLength (s : sab) : Z := u8 (s_avail s - 3).
(* interface_impl.hpp:148-153 *)
Definition sab_dropMessage (s : sab) : sab := mkSab (s_state s) (s_buf s) (s_crc s) (s_pos s) (s_len s) 0.

(* interface_impl.hpp:163-205: the body of the while loop for one byte *)
Definition sab_byte (s : sab) (b : Z) : option sab :=
  match s_state s with
  | SYNC => Some (if b =? syncByte then mkSab LENGTH (s_buf s) (s_crc s) (s_pos s) (s_len s) (s_avail s) else s)
  | LENGTH =>
      Some (if maxPayloadLength <? b then mkSab SYNC (s_buf s) (s_crc s) (s_pos s) (s_len s) (s_avail s)
            else mkSab DATA (s_buf s) (sab_crcUpdate crcInitialValue b) 0 (u8 (b + 3)) (s_avail s))
  | DATA =>
      do buf <- zupd (s_buf s) (s_pos s) b;
      let crc := sab_crcUpdate (s_crc s) b in
      let pos := u8 (s_pos s + 1) in
      Some (if s_len s <=? pos
            then mkSab SYNC buf crc pos (s_len s) (if crc =? 0 then s_len s else s_avail s)
            else mkSab DATA buf crc pos (s_len s) (s_avail s))
  end.
(* interface_impl.hpp:157-207: all bytes the device has to offer *)
Fixpoint sab_update (s : sab) (bytes : list Z) : option sab :=
  match bytes with
  | [] => Some s
  | b :: r => do s' <- sab_byte s b; sab_update s' r
  end.

(* ---- slave ---- *)
(* slave.hpp:48-98, slave.cpp:26-47: what a callback does with the Response object *)
Inductive reply := RError (code : Z) | RSend (payload : list Z).
(* slave.hpp:137-148: a row of the action list. The callback is any function of the payload bytes it can read; the
   list holds its calls of response.send()/error() in order. *)
Record action := mkAction { a_command : Z; a_payloadLength : Z; a_call : list Z -> list reply }.

(* slave_impl.hpp:98-113 with slave.cpp:26-47. The length of type size_t is converted to uint8_t by sendMessage. *)
Definition slave_reply (own command : Z) (r : reply) : option (list Z) :=
  match r with
  | RError code => sab_send own NACK command [code] 1
  | RSend payload => sab_send own ACK command payload (u8 (zlen payload))
  end.
(* slave.cpp:26-47: several calls in a row *)
Fixpoint slave_replies (own command : Z) (rs : list reply) : option (list Z) :=
  match rs with
  | [] => Some []
  | r :: t => do o <- slave_reply own command r; do o' <- slave_replies own command t; Some (o ++ o')
  end.

(* slave_impl.hpp:67-87: the loop over the action list; the result is the output and response.triggered *)
Fixpoint slave_loop (own : Z) (s : sab) (command : Z) (acts : list action) : option (list Z * bool) :=
  match acts with
  | [] => Some ([], false)
  | a :: r =>
      if command =? a_command a then
        if sab_getPayloadLength s =? a_payloadLength a then
          do p <- sab_getPayload s (a_payloadLength a);
          let rs := a_call a p in
          do o <- slave_replies own command rs;
          match rs with
          | [] => do e <- slave_reply own command (RError ERROR_NO_RESPONSE); Some (o ++ e, true)
          | _ => Some (o, true)
          end
        else do e <- slave_reply own command (RError ERROR_WRONG_PAYLOAD_LENGTH); Some (e, true)
      else slave_loop own s command r
  end.
(* slave_impl.hpp:54-95 *)
Definition slave_update (own : Z) (acts : list action) (s : sab) (bytes : list Z) : option (sab * list Z) :=
  do s <- sab_update s bytes;
  if sab_isMessageAvailable s then
    do a <- sab_getAddress s;
    do resp <- sab_isResponse s;
    if (a =? own) && negb resp then
      do command <- sab_getCommand s;
      do (o, triggered) <- slave_loop own s command acts;
      if triggered then Some (sab_dropMessage s, o)
      else do e <- slave_reply own command (RError ERROR_NO_ACTION); Some (sab_dropMessage s, o ++ e)
    else Some (sab_dropMessage s, [])
  else Some (s, []).

(* ---- master ---- *)
(* master.hpp:107-114 *)
Definition IN_PROGRESS := 0.
(* master.hpp:110 *)
Definition SUCCESS := 1.
(* master.hpp:111 *)
Definition ERROR_RESPONSE := 0x40.
(* master.hpp:112 *)
Definition ERROR_TIMEOUT := 0x41.
(* master.hpp:113 *)
Definition ERROR_PAYLOAD := 0x42.
(* master.hpp:116-122; the timer is a ShortTimeout (16 bit, milliseconds) *)
Record master := mkMaster { m_if : sab; m_status : Z; m_expected : Z; m_timer : timeout }.
(* master.hpp:122 *)
Definition m_timeout : Z := 10.

(* master_impl.hpp:38-85 at real time T: the new state and the bytes written *)
Definition master_query (m : master) (T address command : Z) (payload : list Z) (responseLength : Z)
  : option (master * list Z) :=
  do o <- sab_send address REQUEST command payload (u8 (zlen payload));
  Some (mkMaster (sab_dropMessage (m_if m)) IN_PROGRESS responseLength (t_restart 16 (m_timer m) m_timeout T), o).
(* master_impl.hpp:88-93 *)
Definition master_isQueryCompleted (m : master) : bool := negb (m_status m =? IN_PROGRESS).
(* master_impl.hpp:96-101 *)
Definition master_isSuccess (m : master) : bool := m_status m =? SUCCESS.
(* master_impl.hpp:104-115 *)
Definition master_getErrorCode (m : master) : option Z :=
  if m_status m =? ERROR_RESPONSE then znth (s_buf (m_if m)) 2 else Some (m_status m).
(* master_impl.hpp:118-130: n bytes read through the returned pointer *)
Definition master_getResponse (m : master) (n : Z) : option (list Z) := sab_getPayload (m_if m) n.
(* master_impl.hpp:133-169 at real time T *)
Definition master_update (m : master) (T : Z) (bytes : list Z) : option master :=
  do s <- sab_update (m_if m) bytes;
  if negb (m_status m =? IN_PROGRESS) then Some (mkMaster s (m_status m) (m_expected m) (m_timer m))
  else if sab_isMessageAvailable s then
    do resp <- sab_isResponse s;
    do ack <- sab_isAcknowledge s;
    if negb resp then Some (mkMaster (sab_dropMessage s) (m_status m) (m_expected m) (m_timer m))
    else if ack then
      Some (mkMaster s (if sab_getPayloadLength s =? m_expected m then SUCCESS else ERROR_PAYLOAD)
              (m_expected m) (m_timer m))
    else Some (mkMaster s ERROR_RESPONSE (m_expected m) (m_timer m))
  else let (t, e) := t_isExpired 16 (m_timer m) T in
       Some (mkMaster s (if e then ERROR_TIMEOUT else m_status m) (m_expected m) t).

(* ---- executions ---- *)
(* what the user reads from an available message through interface_impl.hpp:106-146 *)
Definition sab_read (s : sab) : option (Z * bool * bool * Z * list Z) :=
  do a <- sab_getAddress s; do r <- sab_isResponse s; do k <- sab_isAcknowledge s; do c <- sab_getCommand s;
  do p <- sab_getPayload s (sab_getPayloadLength s); Some (a, r, k, c, p).
(* a user who calls update() (interface_impl.hpp:157-207) after every byte and reads and drops each message *)
Fixpoint sab_poll (s : sab) (bytes : list Z) : option (sab * list (Z * bool * bool * Z * list Z)) :=
  match bytes with
  | [] => Some (s, [])
  | b :: r =>
      do s <- sab_update s [b];
      if sab_isMessageAvailable s
      then do m <- sab_read s; do (s, ms) <- sab_poll (sab_dropMessage s) r; Some (s, m :: ms)
      else sab_poll s r
  end.
(* a session: update() (interface_impl.hpp:157-207) with the bytes of each chunk, then dropMessage() (148-153) where the
   flag says so *)
Fixpoint sab_session (s : sab) (chunks : list (list Z * bool)) : option sab :=
  match chunks with
  | [] => Some s
  | (bytes, drop) :: r => do s <- sab_update s bytes; sab_session (if drop then sab_dropMessage s else s) r
  end.
