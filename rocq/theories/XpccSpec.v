From Verif Require Import Base CrcSpec XpccModel.

Definition header_ok (h : xheader) : Prop := byte (h_dest h) /\ byte (h_src h) /\ byte (h_pid h).
(* the identifier: two bits type, acknowledge, one unused, fragment, destination, source, packet identifier *)
Definition identifier (h : xheader) (fragment : bool) : Z :=
  match h_type h with XRequest => 0 | XResponse => 1 | XNegative => 2 | XTimeout => 3 end * 2 ^ 27 + (if h_ack h then 1 else 0) * 2 ^ 26 +
  (if fragment then 1 else 0) * 2 ^ 24 + h_dest h * 2 ^ 16 + h_src h * 2 ^ 8 + h_pid h.

(* the fragments of a payload *)
Definition chunk (p : list Z) (i : nat) : list Z := firstn 6 (skipn (6 * i) p).
Definition fragment (id c : Z) (p : list Z) (i : nat) : xframe := mkF id ([Z.of_nat i + c; zlen p] ++ chunk p i).
Definition pieces (p : list Z) : nat := Z.to_nat ((zlen p + 5) / 6).
Definition fragments (id c : Z) (p : list Z) : list xframe := map (fragment id c p) (seq 0 (pieces p)).

(* the frames for a queue of packets, the first index of the first one being sent *)
Fixpoint queue_frames (c : Z) (q : list xsend) : list xframe :=
  match q with
  | [] => []
  | m :: r =>
      if zlen (s_payload m) <=? 8 then mkF (s_id m) (s_payload m) :: queue_frames c r
      else skipn (Z.to_nat (s_index m)) (fragments (s_id m) c (s_payload m)) ++ queue_frames ((c + 16) mod 256) r
  end.
Definition sending (m : xsend) : Prop := zlen (s_payload m) <= 96 /\ (if zlen (s_payload m) <=? 8 then s_index m = 0 else 0 <= s_index m < Z.of_nat (pieces (s_payload m))).
Definition counter_ok (c : Z) : Prop := 0 <= c < 256 /\ c mod 16 = 0.

(* frames of a CAN bus *)
Definition frame_ok (f : xframe) : Prop := 0 <= f_id f < 2 ^ 32 /\ zlen (f_data f) <= 8 /\ Forall byte (f_data f).
(* the fields of an identifier *)
Definition head_of (i : Z) : xheader :=
  mkH (match (i / 2 ^ 27) mod 4 with 0 => XRequest | 1 => XResponse | 2 => XNegative | _ => XTimeout end) ((i / 2 ^ 26) mod 2 =? 1)
      ((i / 2 ^ 16) mod 2 ^ 8) ((i / 2 ^ 8) mod 2 ^ 8) (i mod 2 ^ 8).
Definition frag_of (i : Z) : bool := (i / 2 ^ 24) mod 2 =? 1.
(* what a well-formed fragment says: header, counter, index, size of the whole packet, its bytes *)
Definition fragment_of (f : xframe) : option (xheader * Z * Z * Z * list Z) :=
  match f_data f with
  | d0 :: size :: bytes =>
      let i := d0 mod 16 in
      if frag_of (f_id f) && (size <=? 48) && (6 * i <? size) && (zlen bytes =? Z.min 6 (size - 6 * i)) then Some (head_of (f_id f), d0 - i, i, size, bytes)
      else None
  | _ => None
  end.
Definition says (f : xframe) (h : xheader) (c i size : Z) (bytes : list Z) : Prop := fragment_of f = Some (h, c, i, size, bytes).
(* well-formed fragments of the given header and counter *)
Definition of_key (h : xheader) (c : Z) (f : xframe) : bool :=
  match fragment_of f with
  | Some (h', c', _, _, _) => (identifier h' true =? identifier h true) && (c' =? c)
  | None => false
  end.
(* fragments of one packet agree on its size *)
Definition agree (size : xheader -> Z -> Z) (fs : list xframe) : Prop := forall f h c i z b, In f fs -> says f h c i z b -> z = size h c.
Definition xp_init : xin := mkXI [] [].
(* nothing of the packet is waiting *)
Definition not_pending (s : xin) (h : xheader) (c : Z) : Prop := forall x, In x (x_pending s) -> ~ (i_header x = h /\ i_counter x = c).
(* a delivered packet put together from fragments with this header and counter *)
Definition from_key (h : xheader) (c : Z) (x : xitem) : bool :=
  (identifier (i_header x) true =? identifier h true) && (i_counter x =? c) && negb (i_frags x =? 0).
(* every byte of a packet was received in a fragment of the list that belongs to it *)
Definition accounted (fs : list xframe) (x : xitem) : Prop :=
  forall j, 0 <= j < zlen (i_payload x) -> exists f b v,
    In f fs /\ says f (i_header x) (i_counter x) (j / 6) (zlen (i_payload x)) b /\ znth b (j mod 6) = Some v /\ znth (i_payload x) j = Some (Some v).
