(* Model of the asynchronous multi-node bus: /repo/src/modm/communication/amnb/{message.hpp.in,interface.hpp,handler.hpp,node.hpp}.
   A Message is its 32 bytes of memory (list of 32 bytes, index = offset), for targets with 4-byte little-endian pointers
   (LARGE_DATA_OFFSET 4; the AVR layout with 2-byte pointers is not modelled) and with a heap. Heap blocks live in a PtrHeap; None
   means an access to memory that is not the message object or a live heap block (undefined behaviour).
   Resumable functions are run to their end. The outcomes of Device::read are a list: Some b is a byte, None a failed read; at the end
   of the list the function is suspended inside read. The mismatch of new[] and delete (message.hpp.in:187 and 201) is not modelled. *)
From Verif Require Import Base SliceLemmas PtrHeap CrcModel.

(* message.hpp.in:33-257 *)
Notation msg := (list Z).
(* byte i of the object; only constant offsets below 32 are used with it: message.hpp.in:207-210, 233-251 *)
Definition mb (m : msg) (i : nat) : Z := nth i m 0.
(* writing the bytes bs at a constant offset i: message.hpp.in:233-251 *)
Definition mput (m : msg) (i : nat) (bs : list Z) : msg := firstn i m ++ bs ++ skipn (i + length bs) m.
(* message.hpp.in:244: storage.large.length *)
Definition m_large_length (m : msg) : Z := mb m 4 + 256 * mb m 5.
(* message.hpp.in:245: storage.large.crc *)
Definition m_large_crc (m : msg) : Z := mb m 6 + 256 * mb m 7.
(* message.hpp.in:246: storage.large.data *)
Definition m_ptr (m : msg) : Z := mb m 8 + 256 * mb m 9 + 65536 * mb m 10 + 16777216 * mb m 11.
(* the bytes of a pointer: message.hpp.in:246 *)
Definition le32 (p : Z) : list Z := [p mod 256; (p / 256) mod 256; (p / 65536) mod 256; (p / 16777216) mod 256].
(* the bytes of a uint16_t: message.hpp.in:244-245 *)
Definition le16 (x : Z) : list Z := [x mod 256; (x / 256) mod 256].
(* message.hpp.in:246 *)
Definition m_set_ptr (m : msg) (p : Z) : msg := mput m 8 (le32 p).

(* message.hpp.in:23-30 *)
Definition T_Broadcast := 0x00.
(* message.hpp.in:26 *)
Definition T_Request := 0x40.
(* message.hpp.in:27 *)
Definition T_Response := 0x60.
(* message.hpp.in:28 *)
Definition T_Error := 0x80.
(* message.hpp.in:29 *)
Definition T_UserError := 0xA0.
(* message.hpp.in:213 *)
Definition TYPE_MASK := 0xE0.
(* message.hpp.in:214 *)
Definition LENGTH_MASK := 0x1F.
(* message.hpp.in:215 *)
Definition SMALL_LENGTH := 28.
(* message.hpp.in:219 *)
Definition LARGE_DATA_OFFSET := 4.

(* message.hpp.in:76 *)
Definition m_address (m : msg) : Z := mb m 1.
(* message.hpp.in:79 *)
Definition m_command (m : msg) : Z := mb m 2.
(* message.hpp.in:100-101 *)
Definition m_type (m : msg) : Z := Z.land (mb m 3) TYPE_MASK.
(* message.hpp.in:162-165 *)
Definition m_smallLength (m : msg) : Z := Z.land (mb m 3) LENGTH_MASK.
(* message.hpp.in:167-170 *)
Definition m_isLarge (m : msg) : bool := SMALL_LENGTH <? m_smallLength m.
(* message.hpp.in:82-86 *)
Definition m_length (m : msg) : Z := if m_isLarge m then m_large_length m else Z.min (m_smallLength m) SMALL_LENGTH.
(* message.hpp.in:172-176 *)
Definition m_headerLength (m : msg) : Z := if m_isLarge m then 8 else 4 + Z.min (m_smallLength m) SMALL_LENGTH.
(* message.hpp.in:178-181: the return type is uint8_t *)
Definition m_dataLength (m : msg) : Z := if m_isLarge m then u8 (m_large_length m) else 0.

(* message.hpp.in:37-40, 240-241: constructor; junk are the 20 bytes of the union that stay uninitialised *)
Definition m_new (junk : list Z) (address command length type : Z) : msg :=
  let len := u16 length in
  [0; address; command; u8 (Z.lor type (if len <=? SMALL_LENGTH then len else LENGTH_MASK))] ++
  le16 (if len <=? SMALL_LENGTH then 0 else len) ++ le16 0 ++ le32 0 ++ junk.

(* blocks allocated by messages; byte 0 of a block counts the references: message.hpp.in:183-206 *)
Notation amnb_heap := (list (Z * list Z)).

Section Amnb.
Variable MaxHeapAllocation : Z.              (* template parameter of Interface: interface.hpp:105 *)
Variable alloc : amnb_heap -> Z -> Z.        (* address returned by new (std::nothrow) uint8_t[n], 0 on failure *)
Variable fill : Z -> list Z.                 (* content of a fresh block of n bytes *)

(* message.hpp.in:183-196 *)
Definition m_allocate (h : amnb_heap) (m : msg) : option (amnb_heap * msg * bool) :=
  if m_isLarge m && (m_ptr m =? 0) then
    let n := m_large_length m + LARGE_DATA_OFFSET in
    let p := alloc h n in
    let m := m_set_ptr m p in
    if p =? 0 then Some (h, m, false)
    else do h <- hnew h p (fill n); do b <- hget h p; do b <- zupd b 0 1; do h <- hset h p b; Some (h, m, true)
  else Some (h, m, true).
(* message.hpp.in:197-206 *)
Definition m_deallocate (h : amnb_heap) (m : msg) : option (amnb_heap * msg) :=
  if m_isLarge m && negb (m_ptr m =? 0) then
    do b <- hget h (m_ptr m); do c <- znth b 0;
    if c <=? 1 then do h <- hdel h (m_ptr m); Some (h, m_set_ptr m 0)
    else do b <- zupd b 0 (c - 1); do h <- hset h (m_ptr m) b; Some (h, m_set_ptr m 0)
  else Some (h, m).
(* message.hpp.in:118-127, const get<T>() with sizeof(T) = n, and the n bytes the caller reads through it; Some None: nullptr *)
Definition m_get (h : amnb_heap) (m : msg) (n : Z) : option (option (list Z)) :=
  if m_isLarge m then
    if (m_large_length m <? n) || (m_ptr m =? 0) then Some None
    else do b <- hget h (m_ptr m); do v <- zsub b LARGE_DATA_OFFSET n; Some (Some v)
  else if (m_smallLength m =? 0) || (m_smallLength m <? n) then Some None
  else do v <- zsub m 4 n; Some (Some v).
(* message.hpp.in:107-116: memcpy(get<uint8_t>(), data, length): node.hpp:80-82, 109-114; false: get() returned nullptr *)
Definition m_fill (h : amnb_heap) (m : msg) (data : list Z) : option (amnb_heap * msg * bool) :=
  if m_isLarge m then
    do (hm, ok) <- m_allocate h m; let (h, m) := hm in
    if negb ok || (m_large_length m <? 1) then Some (h, m, false)
    else do b <- hget h (m_ptr m); do b <- zwrite b LARGE_DATA_OFFSET data; do h <- hset h (m_ptr m) b; Some (h, m, true)
  else if m_smallLength m =? 0 then Some (h, m, false)
  else do m <- zwrite m 4 data; Some (h, m, true).
(* message.hpp.in:107-116, 196: get()[i] = d *)
Definition m_store (h : amnb_heap) (m : msg) (i d : Z) : option (amnb_heap * msg) :=
  if m_isLarge m then
    do (hm, ok) <- m_allocate h m; let (h, m) := hm in
    if negb ok || (m_large_length m <? 1) then None
    else do b <- hget h (m_ptr m); do b <- zupd b (LARGE_DATA_OFFSET + i) d; do h <- hset h (m_ptr m) b; Some (h, m)
  else if m_smallLength m =? 0 then None
  else do m <- zupd m (4 + i) d; Some (h, m).

(* message.hpp.in:150-154 *)
Definition m_crcHeader (m : msg) : option Z := do b <- zsub m 1 (m_headerLength m - 1); Some (crc8_ccitt b).
(* message.hpp.in:156-160 *)
Definition m_crcData (h : amnb_heap) (m : msg) : option Z :=
  do b <- hget h (m_ptr m); do v <- zsub b LARGE_DATA_OFFSET (m_dataLength m); Some (crc16_ccitt v).
(* message.hpp.in:131-132 *)
Definition m_isHeaderValid (m : msg) : option bool := do c <- m_crcHeader m; Some (c =? mb m 0).
(* message.hpp.in:134-139 *)
Definition m_isDataValid (h : amnb_heap) (m : msg) : option bool :=
  do v <- m_isHeaderValid m;
  if negb v then Some false
  else if negb (m_dataLength m =? 0) then do c <- m_crcData h m; Some (c =? m_large_crc m)
  else Some true.
(* message.hpp.in:141-147 *)
Definition m_setValid (h : amnb_heap) (m : msg) : option (amnb_heap * msg) :=
  do (h, m) <- (if m_isLarge m then
                  do (hm, ok) <- m_allocate h m; let (h, m) := hm in
                  if ok : bool then do c <- m_crcData h m; Some (h, mput m 6 (le16 c)) else Some (h, m)
                else Some (h, m));
  do c <- m_crcHeader m; Some (h, mput m 0 [c]).
(* node.hpp:69-84 and 96-114 (message and payload), then 158 (setValid before it is sent); Some None: the call returns without sending.
   An empty payload stands for the overloads without data. *)
Definition n_compose (h : amnb_heap) (junk : list Z) (address command type : Z) (payload : list Z) : option (option (amnb_heap * msg)) :=
  let m := m_new junk address command (zlen payload) type in
  do (hm, ok) <- match payload with [] => Some (h, m, true) | _ => m_fill h m payload end; let (h, m) := hm in
  if ok : bool then do hm <- m_setValid h m; Some (Some hm) else Some None.
(* message.hpp.in:62-73: this = std::move(m) *)
Definition m_move (h : amnb_heap) (this m : msg) : option (amnb_heap * msg * msg) :=
  do (h, this) <- m_deallocate h this;
  let this := mput this 0 (firstn 4 m) in
  if m_isLarge this then
    Some (h, mput this 4 (firstn 8 (skipn 4 m)), (let m := m_set_ptr m 0 in mput m 3 [Z.land (mb m 3) TYPE_MASK]))
  else Some (h, mput this 4 (skipn 4 m), mput m 3 [Z.land (mb m 3) TYPE_MASK]).

(* interface.hpp:261 *)
Definition STX := 0x7E.
(* interface.hpp:262 *)
Definition DLE := 0x7D.
(* interface.hpp:24-42, and Waiting: the function is suspended in read() *)
Inductive status := IOk | HeaderInvalid | DataInvalid | MediumBusy | MediumEmpty | SyncReadFailed | HeaderReadFailed
  | DataReadFailed | AllocationFailed | SyncWriteFailed | HeaderWriteFailed | DataWriteFailed | Waiting.

(* interface.hpp:205-218 *)
Definition a_escape (d : Z) : list Z := if (d =? STX) || (d =? DLE) then [DLE; Z.lxor d 0x20] else [d].
(* interface.hpp:232-240: writing the bytes bs one after the other; ok i tells whether the i-th write of this transmission succeeds;
   the bytes on the wire and whether all writes succeeded *)
Fixpoint a_write (ok : Z -> bool) (out bs : list Z) : list Z * bool :=
  match bs with
  | [] => (out, true)
  | b :: r => if ok (zlen out) then a_write ok (out ++ [b]) r else (out, false)
  end.
(* interface.hpp:116-139 with isMediumBusy() = busy; result: status, bytes written. Every exit leaves isTransmitting cleared (lines 137,
   238), the flag is not part of the model *)
Definition a_transmit (busy : bool) (ok : Z -> bool) (h : amnb_heap) (m : msg) : option (status * list Z) :=
  if busy then Some (MediumBusy, [])
  else
    let (out, r) := a_write ok [] [STX; STX] in
    if negb r then Some (SyncWriteFailed, out)
    else
      do hd <- zsub m 0 (m_headerLength m);
      let (out, r) := a_write ok out (flat_map a_escape hd) in
      if negb r then Some (HeaderWriteFailed, out)
      else if m_dataLength m =? 0 then Some (IOk, out)
      else
        do g <- m_get h m 1;
        do _ <- g;                                      (* get() == nullptr is dereferenced *)
        do b <- hget h (m_ptr m); do d <- zsub b LARGE_DATA_OFFSET (m_dataLength m);
        let (out, r) := a_write ok out (flat_map a_escape d) in
        if negb r then Some (DataWriteFailed, out) else Some (IOk, out).

(* interface.hpp:242-250 *)
Inductive rd := RdWait | RdFail (rest : list (option Z)) | RdOk (b : Z) (rest : list (option Z)).
(* interface.hpp:242-250 *)
Definition a_read (input : list (option Z)) : rd :=
  match input with
  | [] => RdWait
  | None :: r => RdFail r
  | Some b :: r => RdOk b r
  end.
(* interface.hpp:220-230 *)
Definition a_read_escaped (input : list (option Z)) : rd :=
  match a_read input with
  | RdOk b r => if b =? DLE then match a_read r with RdOk b r => RdOk (Z.lxor b 0x20) r | x => x end else RdOk b r
  | x => x
  end.
(* interface.hpp:164-173: for (; rx_index < bound; rx_index++) self()[rx_index] = byte; the status is IOk when the loop ends *)
Fixpoint a_rx_loop (fuel : nat) (bound : msg -> Z) (i : Z) (m : msg) (input : list (option Z)) : option (status * msg * list (option Z)) :=
  if i <? bound m then
    match fuel with
    | O => None
    | S fuel =>
        match a_read_escaped input with
        | RdWait => Some (Waiting, m, [])
        | RdFail r => Some (HeaderReadFailed, m, r)
        | RdOk b r => do m <- zupd m i b; a_rx_loop fuel bound (i + 1) m r
        end
    end
  else Some (IOk, m, input).
(* interface.hpp:141-181, isTransmitting = tx *)
Definition a_receiveHeader (tx : bool) (m : msg) (input : list (option Z)) : option (status * msg * list (option Z)) :=
  if tx then Some (MediumBusy, m, input)
  else match input with
  | [] => Some (MediumEmpty, m, [])
  | _ =>
    match a_read input with
    | RdWait => Some (Waiting, m, [])
    | RdFail r => Some (SyncReadFailed, m, r)
    | RdOk b r =>
      if negb (b =? STX) then Some (SyncReadFailed, m, r)
      else match a_read r with
      | RdWait => Some (Waiting, m, [])
      | RdFail r => Some (SyncReadFailed, m, r)
      | RdOk b r =>
        if negb (b =? STX) then Some (SyncReadFailed, m, r)
        else
          do (x, r) <- a_rx_loop 4 (fun _ => 4) 0 m r; let (st, m) := x in
          match st with
          | IOk =>
            do (x, r) <- a_rx_loop 32 m_headerLength 4 m r; let (st, m) := x in
            match st with
            | IOk => do v <- m_isHeaderValid m; Some (if v : bool then IOk else HeaderInvalid, m, r)
            | st => Some (st, m, r)
            end
          | st => Some (st, m, r)
          end
      end
    end
  end.
(* interface.hpp:193-197: n more bytes from index i; allocated = rx_allocated *)
Fixpoint a_data_loop (n : nat) (allocated : bool) (i : Z) (h : amnb_heap) (m : msg) (input : list (option Z)) :
  option (status * amnb_heap * msg * list (option Z)) :=
  match n with
  | O => Some (IOk, h, m, input)
  | S n =>
      match a_read_escaped input with
      | RdWait => Some (Waiting, h, m, [])
      | RdFail r => Some (DataReadFailed, h, m, r)
      | RdOk b r =>
          do (h, m) <- (if allocated then m_store h m i b else Some (h, m));
          a_data_loop n allocated (i + 1) h m r
      end
  end.
(* interface.hpp:183-202 *)
Definition a_receiveData (allocate : bool) (h : amnb_heap) (m : msg) (input : list (option Z)) :
  option (status * amnb_heap * msg * list (option Z)) :=
  if negb (m_isLarge m) then Some (IOk, h, m, input)
  else
    do (hm, allocated) <- (if allocate && (m_dataLength m <=? MaxHeapAllocation) then m_allocate h m else Some (h, m, false));
    let (h, m) := hm in
    do (x, r) <- a_data_loop (Z.to_nat (m_dataLength m)) allocated 0 h m input;
    let (y, m) := x in let (st, h) := y in
    match st with
    | IOk =>
        if allocate && negb allocated then Some (AllocationFailed, h, m, r)
        else do v <- m_isDataValid h m; Some (if v : bool then IOk else DataInvalid, h, m, r)
    | st => Some (st, h, m, r)
    end.

(* handler.hpp:32-43 *)
Definition E_RequestTimeout := 1.
(* handler.hpp:36 *)
Definition E_WrongArgumentSize := 2.
(* handler.hpp:38 *)
Definition E_NoAction := 3.
(* handler.hpp:39 *)
Definition E_ResponseAllocationFailed := 4.

(* handler.hpp:45-88: the three listener signatures *)
Inductive lkind := LNone | LTyped (size : Z) | LRaw.
(* handler.hpp:119-212: the argument part of the six action signatures *)
Inductive akind := ANone | ATyped (size : Z) | ARaw.
(* handler.hpp:90-117: what an action returns: Response(), Response(value) or ErrorResponse(value), with the bytes of the value *)
Inductive answer := RspEmpty | RspValue (bytes : list Z) | RspError (bytes : list Z).
(* handler.hpp:83-86 *)
Record listener := mkListener { l_command : Z; l_kind : lkind }.
(* handler.hpp:206-208; the void signatures (167-204) are functions that return RspEmpty *)
Record action := mkAction { a_command : Z; a_kind : akind; a_fun : list Z -> answer }.
(* a queued reply: message.hpp.in:33-257, with its storage already in place *)
Record reply := mkReply { r_type : Z; r_address : Z; r_command : Z; r_payload : list Z }.
(* calls made into user code by node.hpp:236, 252: index of the handler, sender address, argument bytes *)
Inductive call := LCall (index : nat) (address : Z) (arg : list Z) | ACall (index : nat) (arg : list Z).

Variable respalloc : Z -> bool.     (* whether a reply of more than SMALL_LENGTH bytes can be allocated *)

(* handler.hpp:92-117: type and payload of the message of a Response *)
Definition a_answer (a : answer) : Z * list Z :=
  let ok bs := (zlen bs <=? SMALL_LENGTH) || respalloc (zlen bs) in
  match a with
  | RspEmpty => (T_Response, [])
  | RspValue bs => if ok bs then (T_Response, bs) else (T_Error, [E_ResponseAllocationFailed])
  | RspError bs => if ok bs then (T_UserError, bs) else (T_UserError, [E_ResponseAllocationFailed])
  end.
(* handler.hpp:133-204, 210: reply and the argument the action was called with, if it was *)
Definition a_call (h : amnb_heap) (m : msg) (a : action) : option (Z * list Z * option (list Z)) :=
  match a_kind a with
  | ANone =>
      if m_length m =? 0 then Some (a_answer (a_fun a []), Some [])
      else Some (a_answer (RspValue [E_WrongArgumentSize]), None)
  | ATyped size =>
      do arg <- m_get h m size;
      match arg with
      | None => Some (a_answer (RspValue [E_ResponseAllocationFailed]), None)
      | Some arg =>
          if m_length m <? size then Some (a_answer (RspValue [E_WrongArgumentSize]), None)
          else Some (a_answer (a_fun a arg), Some arg)
      end
  | ARaw =>
      do arg <- m_get h m 1;
      match arg with
      | None => Some (a_answer (RspValue [E_ResponseAllocationFailed]), None)
      | Some _ => do arg <- m_get h m (m_length m); do arg <- arg; Some (a_answer (a_fun a arg), Some arg)
      end
  end.
(* handler.hpp:59-81, 86: the argument the listener is called with, if it is *)
Definition l_call (h : amnb_heap) (m : msg) (l : listener) : option (option (list Z)) :=
  match l_kind l with
  | LNone => Some (Some [])
  | LTyped size => do arg <- m_get h m size; Some (if m_length m =? size then arg else None)
  | LRaw => do arg <- m_get h m 1;
            match arg with None => Some None | Some _ => m_get h m (m_length m) end
  end.

Variable listeners : list listener.   (* node.hpp:303 *)
Variable actions : list action.       (* node.hpp:302 *)
Variable address : Z.                 (* node.hpp:315 *)
Variable TxBufferSize : Z.            (* node.hpp:308 *)

(* node.hpp:308-326, and a log of the calls into user code *)
Record node := mkNode { n_heap : amnb_heap; n_rx : msg; n_req : msg; n_waiting : bool; n_received : bool;
                        n_queue : list reply; n_log : list call }.
(* node.hpp:308: BoundedQueue::push, dropped when full *)
Definition n_push (n : node) (r : reply) : node :=
  mkNode (n_heap n) (n_rx n) (n_req n) (n_waiting n) (n_received n)
         (if zlen (n_queue n) <? TxBufferSize then n_queue n ++ [r] else n_queue n) (n_log n).
(* a call into user code, node.hpp:236, 252 *)
Definition n_called (n : node) (c : call) : node :=
  mkNode (n_heap n) (n_rx n) (n_req n) (n_waiting n) (n_received n) (n_queue n) (n_log n ++ [c]).

(* node.hpp:233-240, from index i *)
Fixpoint n_listeners (complete : bool) (i : nat) (ls : list listener) (n : node) : option (node * bool) :=
  match ls with
  | [] => Some (n, false)
  | l :: r =>
      if m_command (n_rx n) =? l_command l then
        if complete then
          do c <- l_call (n_heap n) (n_rx n) l;
          n_listeners complete (S i) r
            (match c with Some arg => n_called n (LCall i (m_address (n_rx n)) arg) | None => n end)
        else Some (n, true)
      else n_listeners complete (S i) r n
  end.
(* node.hpp:246-263, from index i *)
Fixpoint n_actions (complete : bool) (i : nat) (acts : list action) (n : node) : option (node * bool) :=
  match acts with
  | [] => Some (n_push n (mkReply T_Error address (m_command (n_rx n)) [E_NoAction]), false)
  | a :: r =>
      if m_command (n_rx n) =? a_command a then
        if complete then
          do (tp, c) <- a_call (n_heap n) (n_rx n) a; let (type, payload) := tp in
          let n := match c with Some arg => n_called n (ACall i arg) | None => n end in
          Some (n_push n (mkReply type address (a_command a) payload), true)
        else Some (n, true)
      else n_actions complete (S i) r n
  end.
(* node.hpp:227-281 *)
Definition n_handle (complete : bool) (n : node) : option (node * bool) :=
  if m_type (n_rx n) =? T_Broadcast then n_listeners complete 0 listeners n
  else if m_type (n_rx n) =? T_Request then
    if m_address (n_rx n) =? address then n_actions complete 0 actions n else Some (n, false)
  else if n_waiting n then
    if complete && (m_address (n_req n) =? m_address (n_rx n)) && (m_command (n_req n) =? m_command (n_rx n)) then
      do (hr, rx) <- m_move (n_heap n) (n_req n) (n_rx n); let (h, req) := hr in
      Some (mkNode h rx req false true (n_queue n) (n_log n), true)
    else Some (n, true)
  else Some (n, false).
(* node.hpp:209-220: one iteration of receive(); the status is that of receiveHeader or, after a good header, of receiveData *)
Definition n_receive (n : node) (input : list (option Z)) : option (status * node * list (option Z)) :=
  do (h, m) <- m_deallocate (n_heap n) (n_rx n);
  do (x, r) <- a_receiveHeader false m input; let (st, m) := x in
  let n := mkNode h m (n_req n) (n_waiting n) (n_received n) (n_queue n) (n_log n) in
  match st with
  | IOk =>
      do (n, forus) <- n_handle false n;
      do (x, r) <- a_receiveData forus (n_heap n) (n_rx n) r; let (y, m) := x in let (st, h) := y in
      let n := mkNode h m (n_req n) (n_waiting n) (n_received n) (n_queue n) (n_log n) in
      match st with
      | IOk => if forus : bool then do (n, _) <- n_handle true n; Some (IOk, n, r) else Some (IOk, n, r)
      | st => Some (st, n, r)
      end
  | st => Some (st, n, r)
  end.
(* node.hpp:207-222: k iterations, ending early when the device has nothing more to read *)
Fixpoint n_receive_n (k : nat) (n : node) (input : list (option Z)) : option (node * list (option Z)) :=
  match k with
  | O => Some (n, input)
  | S k => do (x, r) <- n_receive n input; let (st, n) := x in
           match st with Waiting | MediumEmpty => Some (n, r) | _ => n_receive_n k n r end
  end.
End Amnb.

(* What a requester gets out of the reply that ends its request: Ok or an error code, handler.hpp:347-364 for Result<void, void>;
   an Error message without payload dereferences null (None) *)
Definition result_void (r : reply) : option Z :=
  if r_type r =? T_Response then Some 0
  else if r_type r =? T_Error then match r_payload r with e :: _ => Some e | [] => None end
  else if r_type r =? T_UserError then Some 6
  else Some 7.
(* handler.hpp:298-319: Result<ReturnType, void> with sizeof(ReturnType) = n: error code and value *)
Definition result_value (n : Z) (r : reply) : option (Z * option (list Z)) :=
  if r_type r =? T_Response then
    Some (if (zlen (r_payload r) <? n) || (zlen (r_payload r) =? 0) then (E_ResponseAllocationFailed, None)
          else (0, Some (firstn (Z.to_nat n) (r_payload r))))
  else if r_type r =? T_Error then match r_payload r with e :: _ => Some (e, None) | [] => None end
  else if r_type r =? T_UserError then Some (6, None)
  else Some (7, None).

(* node.hpp:328 *)
Definition MIN_TX_TRIES := 20.
(* node.hpp:329 *)
Definition PRIORITY_BITS := 6.
(* node.hpp:330 *)
Definition MASK_SHORT := 7.
(* node.hpp:331 *)
Definition MASK_LONG := 11.
(* node.hpp:283-285 *)
Definition n_seed (address : Z) : Z := u16 (Z.lor (Z.shiftl address 8) (address + 1)).
(* node.hpp:290-292 *)
Definition n_lfsr (l : Z) : Z :=
  let l := Z.lxor l (Z.shiftr l 7) in
  let l := u16 (Z.lxor l (Z.shiftl l 9)) in
  Z.lxor l (Z.shiftr l 13).
(* node.hpp:294: unsigned int has 32 bits *)
Definition n_priority (tx_counter : Z) : Z := u16 (Z.shiftr (u32 (2 ^ PRIORITY_BITS - 1 - tx_counter)) 3).
(* node.hpp:287-297: new lfsr and the delay in microseconds *)
Definition n_reschedule (mask tx_counter l : Z) : Z * Z :=
  let l := n_lfsr l in
  (l, u16 (Z.lor (Z.land l (2 ^ mask - 1)) (Z.shiftl (n_priority tx_counter) mask))).
(* one back-off: mask and tx_counter it was computed with, and its delay: node.hpp:287-297 *)
Record backoff := mkBackoff { b_mask : Z; b_counter : Z; b_delay : Z }.
(* node.hpp:162-167: j iterations of the inner loop *)
Fixpoint n_busy (j : nat) (tx_counter l : Z) : Z * list backoff :=
  match j with
  | O => (l, [])
  | S j => let (l, d) := n_reschedule MASK_SHORT tx_counter l in
           let (l, ds) := n_busy j tx_counter l in (l, mkBackoff MASK_SHORT tx_counter d :: ds)
  end.
(* node.hpp:160-178: ok k: the k-th transmission succeeds; busy k: how often the medium is found busy before it.
   Result: number of transmissions, final generator state, all back-offs. tx_counter is a uint8_t. *)
Fixpoint n_send_loop (fuel : nat) (ok : nat -> bool) (busy : nat -> nat) (k : nat) (tx_counter l : Z) : option (nat * Z * list backoff) :=
  match fuel with
  | O => None
  | S fuel =>
      let (l, ds) := n_busy (busy k) tx_counter l in
      if ok k then Some (S k, l, ds)
      else
        let c := u8 (tx_counter - 1) in
        if c =? 0 then Some (S k, l, ds)
        else
          let (l, d) := n_reschedule MASK_LONG c l in
          do (x, ds') <- n_send_loop fuel ok busy (S k) c l;
          Some (x, ds ++ mkBackoff MASK_LONG c d :: ds')
  end.
(* node.hpp:153-180 *)
Definition n_send (ok : nat -> bool) (busy : nat -> nat) (command l : Z) : option (nat * Z * list backoff) :=
  n_send_loop 256 ok busy 0 (Z.min MIN_TX_TRIES (Z.shiftr command (8 - PRIORITY_BITS))) l.
