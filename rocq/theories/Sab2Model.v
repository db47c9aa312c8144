(* Model of the second sensor actor bus interface: /repo/src/modm/communication/sab2/{constants,interface}.hpp and
   interface_impl.hpp. Device::write appends to an output byte list, Device::read takes the next byte of an input list.
   None means an access outside an array (or, in sab2_send, a loop that never ends). *)
From Verif Require Import Base SliceLemmas CrcModel.

(* constants.hpp:66, /repo/src/modm/communication/sab/constants.hpp:65-70 *)
Definition SAB2_REQUEST := 0x00.
(* constants.hpp:66, /repo/src/modm/communication/sab/constants.hpp:65-70 *)
Definition SAB2_ACK := 0xc0.
(* constants.hpp:66, /repo/src/modm/communication/sab/constants.hpp:65-70 *)
Definition SAB2_NACK := 0x80.
(* constants.hpp:78 *)
Definition frameBounderyByte := 0x7e.
(* constants.hpp:79 *)
Definition controlEscapeByte := 0x7d.
(* constants.hpp:86 *)
Definition sab2_crcInitialValue := 0xffff.

Section Sab2.
Variable N : Z.       (* template parameter: maximum payload length *)
Variable fast : Z.    (* bits of uint_fast8_t: 8 (AVR, hosted) or 32 (ARM newlib) *)

(* interface.hpp:51-54: bits of Size *)
Definition sab2_w : Z := if 255 <=? N then 16 else 8.

(* interface.hpp:150-154 *)
Record sab2 := mkSab2 { z_buf : list Z; z_crc : Z; z_len : Z; z_avail : Z; z_esc : bool }.
(* interface_impl.hpp:26-34 *)
Definition sab2_init : sab2 := mkSab2 (repeat 0 (Z.to_nat (N + 4))) sab2_crcInitialValue 0 0 false.

(* interface_impl.hpp:209-220 *)
Definition sab2_writeByteEscaped (data : Z) : list Z :=
  if (data =? frameBounderyByte) || (data =? controlEscapeByte) then [controlEscapeByte; Z.lxor data 0x20] else [data].
(* interface_impl.hpp:61-67: the loop over the payload; i is a uint_fast8_t, so 2^fast bytes or more never end *)
Definition sab2_send_payload (payload : list Z) : option (list Z) :=
  if 2 ^ fast <=? zlen payload then None else Some (flat_map sab2_writeByteEscaped payload).
(* interface_impl.hpp:46-73; payloadLength is of type Size *)
Definition sab2_send (address flags command : Z) (payload : list Z) : option (list Z) :=
  do p <- zsub payload 0 (wrap sab2_w (zlen payload));
  let h := u8 (Z.lor address flags) in
  let crc := fold_left sab2_crcUpdate p (sab2_crcUpdate (sab2_crcUpdate sab2_crcInitialValue h) command) in
  do body <- sab2_send_payload p;
  Some (frameBounderyByte :: sab2_writeByteEscaped h ++ sab2_writeByteEscaped command ++ body ++
        sab2_writeByteEscaped (Z.land crc 0xff) ++ sab2_writeByteEscaped (Z.shiftr crc 8) ++ [frameBounderyByte]).

(* interface_impl.hpp:97-102 *)
Definition sab2_isMessageAvailable (s : sab2) : bool := negb (z_avail s =? 0).
(* interface_impl.hpp:104-109 *)
Definition sab2_getAddress (s : sab2) : option Z := do b <- znth (z_buf s) 0; Some (Z.land b 0x3f).
(* interface_impl.hpp:111-116 *)
Definition sab2_getCommand (s : sab2) : option Z := znth (z_buf s) 1.
(* interface_impl.hpp:118-123 *)
Definition sab2_isResponse (s : sab2) : option bool := do b <- znth (z_buf s) 0; Some (negb (Z.land b 0x80 =? 0)).
(* interface_impl.hpp:125-130 *)
Definition sab2_isAcknowledge (s : sab2) : option bool := do b <- znth (z_buf s) 0; Some (negb (Z.land b 0x40 =? 0)).
(* interface_impl.hpp:132-137, with the n bytes a user reads through the pointer *)
Definition sab2_getPayload (s : sab2) (n : Z) : option (list Z) := zsub (z_buf s) 2 n.
(* interface_impl.hpp:139-144 *)
Definition sab2_getPayloadLength (s : sab2) : Z := wrap sab2_w (z_avail s - 4).
(* interface_impl.hpp:146-151 *)
Definition sab2_dropMessage (s : sab2) : sab2 := mkSab2 (z_buf s) (z_crc s) (z_len s) 0 (z_esc s).

(* interface_impl.hpp:161-204: the loop body for one byte *)
Definition sab2_byte (s : sab2) (data : Z) : option sab2 :=
  if data =? frameBounderyByte then
    Some (mkSab2 (z_buf s) sab2_crcInitialValue 0
            (if z_esc s then z_avail s else if (4 <=? z_len s) && (z_crc s =? 0) then z_len s else z_avail s) false)
  else if data =? controlEscapeByte then Some (mkSab2 (z_buf s) (z_crc s) (z_len s) (z_avail s) true)
  else
    let d := if z_esc s then Z.lxor data 0x20 else data in
    if N + 4 <=? z_len s then Some (mkSab2 (z_buf s) (z_crc s) 0 (z_avail s) false)
    else do buf <- zupd (z_buf s) (z_len s) d;
         Some (mkSab2 buf (sab2_crcUpdate (z_crc s) d) (wrap sab2_w (z_len s + 1)) (z_avail s) false).
(* interface_impl.hpp:154-206: new state and the bytes left in the device *)
Fixpoint sab2_update (s : sab2) (bytes : list Z) : option (sab2 * list Z) :=
  if z_avail s =? 0 then
    match bytes with
    | [] => Some (s, [])
    | b :: r => do s' <- sab2_byte s b; sab2_update s' r
    end
  else Some (s, bytes).

(* ---- executions ---- *)
(* what the user reads from an available message through interface_impl.hpp:104-144 *)
Definition sab2_read (s : sab2) : option (Z * bool * bool * Z * list Z) :=
  do a <- sab2_getAddress s; do r <- sab2_isResponse s; do k <- sab2_isAcknowledge s; do c <- sab2_getCommand s;
  do p <- sab2_getPayload s (sab2_getPayloadLength s); Some (a, r, k, c, p).
(* a user who calls update() (interface_impl.hpp:154-206), reads and drops the message, until the device has no more bytes;
   each round but the last consumes a byte, so length + 1 rounds suffice *)
Fixpoint sab2_serve (fuel : nat) (s : sab2) (bytes : list Z) : option (sab2 * list (Z * bool * bool * Z * list Z)) :=
  match fuel with
  | O => None
  | S f =>
      do (s, rest) <- sab2_update s bytes;
      if sab2_isMessageAvailable s
      then do m <- sab2_read s; do (s, ms) <- sab2_serve f (sab2_dropMessage s) rest; Some (s, m :: ms)
      else Some (s, [])
  end.
(* the same with bytes arriving in chunks *)
(* interface_impl.hpp:154-206, one call sequence per chunk *)
Fixpoint sab2_serve_chunks (s : sab2) (chunks : list (list Z)) : option (sab2 * list (Z * bool * bool * Z * list Z)) :=
  match chunks with
  | [] => Some (s, [])
  | c :: r => do (s, m1) <- sab2_serve (S (length c)) s c; do (s, m2) <- sab2_serve_chunks s r; Some (s, m1 ++ m2)
  end.
End Sab2.
