(* The bxCAN peripheral as the reference manual (RM0008, chapter 24) describes it, and what a user of the driver expects. *)
From Verif Require Import Base CanModel BxModel.

(** *** Frames *)
(* a CAN frame; a remote frame has no data *)
Record frame := Frame { f_ext : bool; f_id : Z; f_rtr : bool; f_dlc : Z; f_data : list Z }.
Definition valid_frame (f : frame) : Prop :=
  0 <= f_id f < (if f_ext f then 2 ^ 29 else 2 ^ 11) /\ 0 <= f_dlc f <= 15 /\ Forall (fun b => 0 <= b < 256) (f_data f) /\
  zlen (f_data f) = if f_rtr f then 0 else Z.min (f_dlc f) 8.

(* byte i of the data registers *)
Definition data_byte (lo hi i : Z) : Z := (if i <? 4 then lo / 256 ^ i else hi / 256 ^ (i - 4)) mod 256.
Definition data_bytes (lo hi : Z) (n : nat) : list Z := map (fun i => data_byte lo hi (Z.of_nat i)) (seq 0 n).

(* the frame that is sent from a mailbox: STID in bits 31..21, EXID in bits 31..3, IDE bit 2, RTR bit 1 of TIR; DLC in bits 3..0 of TDTR *)
Definition on_bus (b : mailbox) : frame :=
  let e := Z.testbit (tir b) 2 in
  let r := Z.testbit (tir b) 1 in
  Frame e (if e then tir b / 2 ^ 3 mod 2 ^ 29 else tir b / 2 ^ 21 mod 2 ^ 11) r (tdtr b mod 16)
    (if r then [] else data_bytes (tdlr b) (tdhr b) (Z.to_nat (Z.min (tdtr b mod 16) 8))).
(* the registers of a receive FIFO holding the frame: RIR like TIR; DLC in bits 3..0, the filter index in bits 15..8, a time stamp above;
   only the received bytes of the data registers are defined *)
Definition in_fifo (f : frame) (fmi : Z) (rir rdtr lo hi : Z) : Prop :=
  rir = f_id f * (if f_ext f then 2 ^ 3 else 2 ^ 21) + (if f_ext f then 4 else 0) + (if f_rtr f then 2 else 0) /\
  rdtr mod 16 = f_dlc f /\ rdtr / 256 mod 256 = fmi /\ 0 <= lo < 2 ^ 32 /\ 0 <= hi < 2 ^ 32 /\ 0 <= rdtr < 2 ^ 32 /\
  data_bytes lo hi (length (f_data f)) = f_data f.

(* messages an application may send with classic CAN *)
Definition valid_msg (capacity : Z) (m : can_msg) : Prop :=
  0 <= c_id m < (if c_ext m then 2 ^ 29 else 2 ^ 11) /\ 0 <= c_len m <= 8 /\ c_dlc m = c_len m /\
  zlen (c_data m) = capacity /\ Forall (fun b => 0 <= b < 256) (c_data m) /\ c_fd m = false /\ c_brs m = false.

(** *** Filters *)
(* the frame as the filters see it, figure 230 of the manual *)
Definition std_id (f : frame) : Z := if f_ext f then f_id f / 2 ^ 18 else f_id f.
Definition frame32 (f : frame) : Z :=
  std_id f * 2 ^ 21 + (if f_ext f then f_id f mod 2 ^ 18 * 2 ^ 3 + 4 else 0) + (if f_rtr f then 2 else 0).
Definition frame16 (f : frame) : Z :=
  std_id f * 2 ^ 5 + (if f_rtr f then 16 else 0) + (if f_ext f then 8 + f_id f / 2 ^ 15 mod 2 ^ 3 else 0).
(* all bits with a 1 in the mask agree *)
Definition masked (x id mask : Z) : Prop := forall i, 0 <= i -> Z.testbit mask i = true -> Z.testbit x i = Z.testbit id i.
(* bank b lets the frame through to FIFO 1 (or 0) *)
Definition passes (r : fregs) (b : Z) (to1 : bool) (f : frame) : Prop :=
  Z.testbit (fa r) b = true /\ Z.testbit (ffa r) b = to1 /\
  let x := fr1 r b in let y := fr2 r b in
  if Z.testbit (fs r) b then
    if Z.testbit (fm r) b then frame32 f = x \/ frame32 f = y else masked (frame32 f) x y
  else if Z.testbit (fm r) b then frame16 f = x mod 2 ^ 16 \/ frame16 f = x / 2 ^ 16 \/ frame16 f = y mod 2 ^ 16 \/ frame16 f = y / 2 ^ 16
  else masked (frame16 f) (x mod 2 ^ 16) (x / 2 ^ 16) \/ masked (frame16 f) (y mod 2 ^ 16) (y / 2 ^ 16).

(* what the documentation of the filters says *)
Definition rtr_ok (filter status : bool) (f : frame) : Prop := filter = true -> f_rtr f = status.
Definition wants_ext (id mask : Z) (match_rtr rtr : bool) (f : frame) : Prop := f_ext f = true /\ masked (f_id f) id mask /\ rtr_ok match_rtr rtr f.
Definition wants_std (id mask : Z) (match_rtr rtr : bool) (f : frame) : Prop := f_ext f = false /\ masked (f_id f) id mask /\ rtr_ok match_rtr rtr f.
(* an identifier for the list filters: extended or not, the identifier, remote request *)
Record ident := Ident { i_ext : bool; i_id : Z; i_rtr : bool }.
Definition valid_ident (i : ident) : Prop := 0 <= i_id i < (if i_ext i then 2 ^ 29 else 2 ^ 11).
Definition is_ident (i : ident) (f : frame) : Prop := f_ext f = i_ext i /\ f_id f = i_id i /\ f_rtr f = i_rtr i.
Definition enc32 (i : ident) : Z := if i_ext i then ExtendedIdentifier (i_id i) (i_rtr i) else StandardIdentifier (i_id i) (i_rtr i).
Definition enc16 (i : ident) : Z := if i_ext i then ExtendedIdentifierShort (i_id i) (i_rtr i) else StandardIdentifierShort (i_id i) (i_rtr i).
(* with the short filters only the upper 14 bits of extended identifiers count *)
Definition is_ident_short (i : ident) (f : frame) : Prop :=
  f_ext f = i_ext i /\ (if i_ext i then f_id f / 2 ^ 15 = i_id i / 2 ^ 15 else f_id f = i_id i) /\ f_rtr f = i_rtr i.

(** *** Transmission *)
(* The hardware sends the mailboxes in the order of their requests (TXFP) and sets RQCP. Interrupt and program run in any order, but the
   program only while no interrupt is pending, unless masked. allowed: in which states a transmission may complete. *)
Inductive tx_step (cap : Z) (masking : bool) (allowed : tx -> Prop) : tx -> tx -> Prop :=
| t_hw s k r m : order s = k :: r -> box s k = Some m -> allowed s ->
    tx_step cap masking allowed s (Tx (queue s) (fun j => if j =? k then None else box s j) (fun j => if j =? k then true else rqcp s j) r true (prog s) (sent s ++ [m]) (accepted s))
| t_isr s : pend s = true -> tx_step cap masking allowed s (tx_isr s)
| t_check s m : pend s = false \/ masking = true -> prog s = Idle -> tx_step cap masking allowed s (check m s)
| t_push s m : pend s = false \/ masking = true -> prog s = Full m -> tx_step cap masking allowed s (push cap m s)
| t_code s m k : pend s = false \/ masking = true -> prog s = Free m -> 0 <= k < 3 -> box s k = None -> tx_step cap masking allowed s (code m k s)
| t_put s m k : pend s = false \/ masking = true -> prog s = Put m k -> tx_step cap masking allowed s (put m k s).
Inductive tx_reach (cap : Z) (masking : bool) (allowed : tx -> Prop) : tx -> Prop :=
| tr_start : tx_reach cap masking allowed tx_start
| tr_step s s' : tx_reach cap masking allowed s -> tx_step cap masking allowed s s' -> tx_reach cap masking allowed s'.
Definition any (s : tx) : Prop := True.
(* no transmission completes between the test of the mailboxes and the push into the queue *)
Definition not_between (s : tx) : Prop := forall m, prog s <> Full m.
(* the messages in the mailboxes, in the order of the requests *)
Definition in_boxes (s : tx) : list can_msg := flat_map (fun k => match box s k with Some m => [m] | None => [] end) (order s).

(** *** Reception *)
(* a FIFO has three places; with the FIFO locked the new message is discarded, otherwise it overwrites the last one *)
Definition receive {A} (locked : bool) (f : bool) (m : A) (s : rx A) : rx A :=
  let full := (3 <=? zlen (fifo s f)) in
  let l := if full then if locked then fifo s f else removelast (fifo s f) ++ [m] else fifo s f ++ [m] in
  Rx (fun g => if Bool.eqb g f then l else fifo s g) (fun g => if Bool.eqb g f then full || fovr s f else fovr s g) (rxq s) (got s) (recv s ++ [(f, m)]).
(* The interrupt of a FIFO comes while it holds messages or the overrun flag is set. may: when messages arrive, can: when interrupts run. *)
Inductive rx_step {A} (cap : Z) (locked : bool) (may can : bool -> rx A -> Prop) : rx A -> rx A -> Prop :=
| x_recv s f m : may f s -> rx_step cap locked may can s (receive locked f m s)
| x_isr s f s' : fifo s f <> [] \/ fovr s f = true -> can f s -> rx_isr cap f s = Some s' -> rx_step cap locked may can s s'
| x_get s : rx_step cap locked may can s (getMessage s).
Inductive rx_reach {A} (cap : Z) (locked : bool) (may can : bool -> rx A -> Prop) : rx A -> Prop :=
| xr_start : rx_reach cap locked may can rx_start
| xr_step s s' : rx_reach cap locked may can s -> rx_step cap locked may can s s' -> rx_reach cap locked may can s'.
(* the FIFO has a place, the queue has a place *)
Definition fifo_room {A} (f : bool) (s : rx A) : Prop := zlen (fifo s f) < 3.
Definition queue_room {A} (cap : Z) (f : bool) (s : rx A) : Prop := zlen (rxq s) < cap.
Definition always {A} (f : bool) (s : rx A) : Prop := True.
(* the messages of FIFO f *)
Definition of {A} (f : bool) (l : list (bool * A)) : list A := map snd (filter (fun x => Bool.eqb (fst x) f) l).
Inductive sublist {A} : list A -> list A -> Prop :=
| sub_nil l : sublist [] l
| sub_take x l l' : sublist l l' -> sublist (x :: l) (x :: l')
| sub_skip x l l' : sublist l l' -> sublist l (x :: l').

(** *** The 16-bit filters *)
Record short := Short { s_ext : bool; s_id : Z; s_rtr : bool; s_mask : Z; s_match : bool }.
Definition valid_short (s : short) : Prop := let n := if s_ext s then 2 ^ 29 else 2 ^ 11 in 0 <= s_id s < n /\ 0 <= s_mask s < n.
Definition short_id (s : short) : Z := if s_ext s then ExtendedIdentifierShort (s_id s) (s_rtr s) else StandardIdentifierShort (s_id s) (s_rtr s).
Definition short_mask (s : short) : Z := if s_ext s then ExtendedFilterMaskShort (s_mask s) (s_match s) else StandardFilterMaskShort (s_mask s) (s_match s).
Definition wants_short (s : short) (f : frame) : Prop :=
  f_ext f = s_ext s /\ (if s_ext s then masked (f_id f / 2 ^ 15) (s_id s / 2 ^ 15) (s_mask s / 2 ^ 15) else masked (f_id f) (s_id s) (s_mask s)) /\ rtr_ok (s_match s) (s_rtr s) f.
(* extended identifiers and masks whose bits 19 to 21 do not spoil others *)
Definition clean (id : Z) (r : bool) : Prop :=
  (Z.testbit id 19 = true -> r = true) /\ (Z.testbit id 20 = true -> Z.testbit id 18 = true) /\ (Z.testbit id 21 = true -> Z.testbit id 19 = true).
