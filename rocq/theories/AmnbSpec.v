(* What AMNB is meant to do: message types, a usable allocator, ownership of heap blocks, tries per command. *)
From Verif Require Import Base PtrHeap CrcModel CrcSpec AmnbModel.

(* the five message types *)
Definition amnb_type (t : Z) : Prop := In t [0x00; 0x40; 0x60; 0x80; 0xA0].

(* new (std::nothrow): a 32 bit address, 0 or one that is not in use *)
Definition amnb_allocator (alloc : amnb_heap -> Z -> Z) : Prop :=
  forall h n, 0 <= alloc h n < 2 ^ 32 /\ (alloc h n <> 0 -> ~ In (alloc h n) (keys h)).
(* the content of a fresh block of n bytes is arbitrary *)
Definition amnb_content (fill : Z -> list Z) : Prop := forall n, 0 <= n -> zlen (fill n) = n /\ Forall byte (fill n).

(* a message object *)
Definition object (m : msg) : Prop := zlen m = 32 /\ Forall byte m.
(* the message holds a heap block *)
Definition holds (m : msg) (p : Z) : Prop := m_isLarge m = true /\ m_ptr m = p /\ p <> 0.
(* the block of a message: reference count 1, then three spare bytes and the payload *)
Definition block_of (h : amnb_heap) (m : msg) : Prop :=
  exists c s1 s2 s3 data, hget h (m_ptr m) = Some (c :: s1 :: s2 :: s3 :: data) /\ c = 1 /\ zlen data = m_large_length m.
(* the heap consists exactly of the blocks held by the received message rx and by the request message req, each held once *)
Definition own (h : amnb_heap) (rx req : msg) : Prop :=
  object rx /\ object req /\ NoDup (keys h) /\
  (forall p, In p (keys h) <-> holds rx p \/ holds req p) /\
  (forall p, ~ (holds rx p /\ holds req p)) /\
  (forall p, holds rx p -> block_of h rx) /\
  (forall p, holds req p -> block_of h req).
Definition owned (n : node) : Prop := own (n_heap n) (n_rx n) (n_req n).
(* the received message carries no payload bytes in the place of its block pointer *)
Definition no_leftover (m : msg) : Prop := m_isLarge m = false -> m_ptr m = 0.

(* the next frame is a large message with data that this node has no use for *)
Definition unwanted (respalloc : Z -> bool) (listeners : list listener) (actions : list action) (address size : Z) (n : node) (input : list (option Z)) : Prop :=
  exists h m r m' n', m_deallocate (n_heap n) (n_rx n) = Some (h, m) /\ a_receiveHeader false m input = Some (IOk, m', r) /\
    m_isLarge m' = true /\ m_dataLength m' <> 0 /\
    n_handle respalloc listeners actions address size false
      (mkNode h m' (n_req n) (n_waiting n) (n_received n) (n_queue n) (n_log n)) = Some (n', false).

(* handlers with arguments of at least one byte *)
Definition handlers_ok (listeners : list listener) (actions : list action) : Prop :=
  Forall (fun l => match l_kind l with LTyped n => 1 <= n | _ => True end) listeners /\
  Forall (fun a => match a_kind a with ATyped n => 1 <= n | _ => True end) actions.

(* number of transmissions of a message with this command if none succeeds: the upper six bits of the command, at most 20 *)
Definition max_tries (command : Z) : Z := Z.min 20 (command / 4).

(* the message shows the payload p: its length, and for every argument size k >= 1 the first k bytes, or no argument if there are fewer *)
Definition carries (h : amnb_heap) (m : msg) (p : list Z) : Prop :=
  m_length m = zlen p /\
  forall k, 1 <= k -> m_get h m k = Some (if k <=? zlen p then Some (firstn (Z.to_nat k) p) else None).

(* the argument an action is called with for a request with payload p; None if it is not called *)
Definition argument (k : akind) (p : list Z) : option (list Z) :=
  match k with
  | ANone => match p with [] => Some [] | _ => None end
  | ATyped size => if size <=? zlen p then Some (firstn (Z.to_nat size) p) else None
  | ARaw => match p with [] => None | _ => Some p end
  end.
(* an argument that fits the signature exactly *)
Definition right_size (k : akind) (p : list Z) : Prop :=
  match k with ANone => p = [] | ATyped size => zlen p = size | ARaw => p <> [] end.

(* a back-off in its window: 2^mask microseconds wide, the wider apart the smaller the number of remaining tries *)
Definition window (b : backoff) : Prop :=
  0 <= b_counter b <= 63 /\ (b_mask b = 7 \/ b_mask b = 11) /\
  (63 - b_counter b) / 8 * 2 ^ b_mask b <= b_delay b < (63 - b_counter b) / 8 * 2 ^ b_mask b + 2 ^ b_mask b.

(* the reply for what an action returned: type and payload; up to 28 bytes need no allocation *)
Definition meant_answer (respalloc : Z -> bool) (x : answer) : Z * list Z :=
  let room bs := orb (zlen bs <? 29) (respalloc (zlen bs)) in
  match x with
  | RspEmpty => (0x60, [])
  | RspValue bs => if room bs then (0x60, bs) else (0x80, [4])
  | RspError bs => (0xA0, if room bs then bs else [4])
  end.
(* byte stuffing *)
Definition stuffed (bs : list Z) : list Z :=
  flat_map (fun b => if b =? 0x7E then [0x7D; 0x5E] else if b =? 0x7D then [0x7D; 0x5D] else [b]) bs.
(* the frame of a message: two start bytes, then header with checksum and, for more than 28 bytes, a data part with its own checksum *)
Definition frame (address command type : Z) (p : list Z) : list Z :=
  let header := [address; command] ++
    if zlen p <=? 28 then (type + zlen p) :: p
    else [type + 31; zlen p mod 256; zlen p / 256; crc16_ccitt p mod 256; crc16_ccitt p / 256] in
  [0x7E; 0x7E] ++ stuffed (crc8_ccitt header :: header) ++ (if zlen p <=? 28 then [] else stuffed p).
