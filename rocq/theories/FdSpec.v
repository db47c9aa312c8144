(* The FDCAN peripheral as the reference manual (RM0440, chapter 44) describes it, and what a user of the driver expects. *)
From Verif Require Import Base CanModel CanSpec FdModel.

(** *** The elements of the message RAM (44.3.3) *)
Inductive kind := StdFilter | ExtFilter | Rx0 | Rx1 | TxEvent | TxBuffer.
Definition count (k : kind) : Z := match k with StdFilter => 28 | ExtFilter => 8 | _ => 3 end.
Definition bytes (k : kind) : Z := match k with StdFilter => 4 | ExtFilter | TxEvent => 8 | _ => 72 end.
(* offsets within the RAM of an instance, table 400: 0x0000, 0x0070, 0x00B0, 0x0188, 0x0260, 0x0278; the next instance starts at 0x0350 *)
Definition offset (k : kind) : Z := match k with StdFilter => 0 | ExtFilter => 112 | Rx0 => 176 | Rx1 => 392 | TxEvent => 608 | TxBuffer => 632 end.
Definition element (base inst : Z) (k : kind) (i : Z) : Z := base + 848 * inst + offset k + bytes k * i.

(** *** Frames *)
Record frame := Frame { f_ext : bool; f_id : Z; f_rtr : bool; f_fd : bool; f_brs : bool; f_dlc : Z; f_data : list Z }.
(* the number of data bytes of a frame: remote frames have none, classic frames at most 8 *)
Definition frame_len (fd rtr : bool) (dlc : Z) : Z :=
  if rtr then 0 else if fd then nth (Z.to_nat dlc) can_lengths 0 else Z.min dlc 8.
Definition word_bytes (w : Z) : list Z := [w mod 2 ^ 8; w / 2 ^ 8 mod 2 ^ 8; w / 2 ^ 16 mod 2 ^ 8; w / 2 ^ 24 mod 2 ^ 8].
(* the bytes of n words from address a, lowest byte first *)
Definition ram_bytes (r : ram) (a : Z) (n : nat) : list Z := flat_map (fun k => word_bytes (r (a + 4 * Z.of_nat k))) (seq 0 n).
(* the frame in an element: XTD is bit 30, RTR bit 29, ID bits 28..0 with a standard identifier in bits 28..18; FDF is bit 21, BRS bit 20,
   DLC bits 19..16 of the second word; bit rates are switched in FD frames only *)
Definition frame_at (r : ram) (e : Z) : frame :=
  let ext := Z.testbit (r e) 30 in
  let rtr := Z.testbit (r e) 29 in
  let fd := Z.testbit (r (e + 4)) 21 in
  let dlc := r (e + 4) / 2 ^ 16 mod 2 ^ 4 in
  Frame ext (if ext then r e mod 2 ^ 29 else r e / 2 ^ 18 mod 2 ^ 11) rtr fd (fd && Z.testbit (r (e + 4)) 20) dlc
    (firstn (Z.to_nat (frame_len fd rtr dlc)) (ram_bytes r (e + 8) 16)).
(* the filter that accepted a received frame (FIDX, bits 30..24) and its time stamp (RXTS, bits 15..0) *)
Definition filter_at (r : ram) (e : Z) : Z := r (e + 4) / 2 ^ 24 mod 2 ^ 7.
Definition stamp_at (r : ram) (e : Z) : Z := r (e + 4) mod 2 ^ 16.
(* the frame a message stands for *)
Definition frame_of (m : can_msg) : frame :=
  Frame (c_ext m) (c_id m) (c_rtr m) (c_fd m) (c_fd m && c_brs m) (c_dlc m) (firstn (Z.to_nat (if c_rtr m then 0 else c_len m)) (c_data m)).
(* a message with a valid identifier and a length that fits its code; only FD messages are longer than 8 bytes, and they are no remote requests *)
Definition valid_msg (capacity : Z) (m : can_msg) : Prop :=
  can_capacity capacity /\ consistent capacity m /\ 0 <= c_id m < (if c_ext m then 2 ^ 29 else 2 ^ 11) /\ Forall (fun b => 0 <= b < 256) (c_data m) /\
  0 <= c_dlc m <= 15 /\ (8 < c_dlc m -> c_fd m = true) /\ (c_rtr m = true -> c_fd m = false).

(** *** Filters (44.3.4) *)
Definition masked (x id mask : Z) : Prop := forall i, 0 <= i -> Z.testbit mask i = true -> Z.testbit x i = Z.testbit id i.
(* filter types: 0 range, 1 dual, 2 classic, 3 disabled or without mask *)
Definition matches (type id1 id2 f : Z) : Prop :=
  (type = 0 /\ id1 <= f <= id2) \/ (type = 1 /\ (f = id1 \/ f = id2)) \/ (type = 2 /\ masked f id1 id2).
(* a standard filter: SFT bits 31..30, SFEC bits 29..27, SFID1 bits 26..16, SFID2 bits 10..0; an extended filter: EFEC bits 31..29 and EFID1 bits 28..0
   of the first word, EFT bits 31..30 and EFID2 bits 28..0 of the second. What happens to a matching frame: 0 nothing, 1 FIFO 0, 2 FIFO 1, 3 rejected *)
Definition std_action (r : ram) (base inst i : Z) : Z := r (element base inst StdFilter i) / 2 ^ 27 mod 2 ^ 3.
Definition std_matches (r : ram) (base inst i f : Z) : Prop :=
  let w := r (element base inst StdFilter i) in matches (w / 2 ^ 30 mod 2 ^ 2) (w / 2 ^ 16 mod 2 ^ 11) (w mod 2 ^ 11) f.
Definition ext_action (r : ram) (base inst i : Z) : Z := r (element base inst ExtFilter i) / 2 ^ 29 mod 2 ^ 3.
Definition ext_matches (r : ram) (base inst i f : Z) : Prop :=
  let w := r (element base inst ExtFilter i) in let w1 := r (element base inst ExtFilter i + 4) in
  matches (w1 / 2 ^ 30 mod 2 ^ 2) (w mod 2 ^ 29) (w1 mod 2 ^ 29) f.
(* the filters are tried in order; the first one that is enabled and matches decides *)
Definition std_decides (r : ram) (base inst f action : Z) : Prop :=
  exists i, 0 <= i < 28 /\ std_action r base inst i = action /\ action <> 0 /\ std_matches r base inst i f /\
    forall j, 0 <= j < i -> std_action r base inst j = 0 \/ ~ std_matches r base inst j f.
Definition ext_decides (r : ram) (base inst f action : Z) : Prop :=
  exists i, 0 <= i < 8 /\ ext_action r base inst i = action /\ action <> 0 /\ ext_matches r base inst i f /\
    forall j, 0 <= j < i -> ext_action r base inst j = 0 \/ ~ ext_matches r base inst j f.

(* what the application asked for: a call with index, type, action and two identifiers (the second one is the mask for a classic filter) *)
Record call := Call { k_index : Z; k_type : Z; k_action : Z; k_id1 : Z; k_id2 : Z }.
Definition valid_call (bits : Z) (c : call) : Prop :=
  0 <= k_index c < 256 /\ In (k_type c) [0; 1; 2] /\ In (k_action c) [0; 1; 2; 3] /\ 0 <= k_id1 c < 2 ^ bits /\ 0 <= k_id2 c < 2 ^ bits.
(* the last call for index i *)
Definition current (calls : list call) (i : Z) : option call := find (fun c => k_index c =? i) (rev calls).
Definition wanted (n : Z) (calls : list call) (f action : Z) : Prop :=
  exists i c, 0 <= i < n /\ current calls i = Some c /\ k_action c = action /\ action <> 0 /\ matches (k_type c) (k_id1 c) (k_id2 c) f /\
    forall j d, 0 <= j < i -> current calls j = Some d -> k_action d = 0 \/ ~ matches (k_type d) (k_id1 d) (k_id2 d) f.
(* the enumerators: types in bits 31..30, actions in bits 29..27 *)
Definition do_std (base inst : Z) (c : call) (r : ram) : ram :=
  snd (setStandardFilter base inst (k_index c) (k_type c * 2 ^ 30) (FilterConfig (k_action c)) (k_id1 c) (k_id2 c) r).
Definition do_ext (base inst : Z) (c : call) (r : ram) : ram :=
  snd (setExtendedFilter base inst (k_index c) (k_type c * 2 ^ 30) (FilterConfig (k_action c)) (k_id1 c) (k_id2 c) r).

(** *** Transmission and reception *)
Definition from {A} (k : bool) (l : list (bool * A)) : list A := map snd (filter (fun x => Bool.eqb (fst x) k) l).
(* steps of the hardware and of the interrupt only: the program rests *)
Inductive back {A} (cap : Z) (s : txs A) : txs A -> Prop :=
| back_refl : back cap s s
| back_step s1 s2 : back cap s s1 -> tstep cap s1 s2 -> accepted s2 = accepted s1 -> tp s2 = tp s1 -> back cap s s2.
