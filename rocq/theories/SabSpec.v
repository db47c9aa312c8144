(* The sensor actor bus protocol as a wire format, independent of the receiver's state machine. *)
From Verif Require Import Base CrcSpec.

(* The checksum byte: remainder modulo x^8+x^5+x^4+1 of the bytes in serial (least significant bit first) order. *)
Definition sab_checksum (data : list Z) (c : Z) : Prop :=
  byte c /\ crc_value 8 0x131 0 (stream data) (reflect 8 c).

(* A frame is: sync byte, number of payload bytes, header byte, command byte, payload, checksum. *)
Definition sab_frame (header command : Z) (payload : list Z) (bytes : list Z) : Prop :=
  exists c, bytes = 0x54 :: zlen payload :: header :: command :: payload ++ [c] /\
            sab_checksum (zlen payload :: header :: command :: payload) c.

(* The header byte carries a 6 bit address and two flags. *)
Definition sab_header (address : Z) (response acknowledge : bool) : Z :=
  address + 64 * Z.b2z acknowledge + 128 * Z.b2z response.

(* A message as seen by the user of the interface. *)
Record sab_message := mkMsg { g_address : Z; g_response : bool; g_acknowledge : bool; g_command : Z; g_payload : list Z }.

(* How a byte stream divides into frames: bytes other than the sync byte are skipped, a sync byte followed by an
   impossible length is skipped with it, and a sync byte followed by a length n <= 32 claims the next n + 3 bytes, which
   are a message if the checksum matches. The relation gives the (header, command, payload) of the frames, in order. *)
Inductive sab_parse : list Z -> list (Z * Z * list Z) -> Prop :=
| parse_end : sab_parse [] []
| parse_skip b r ms : b <> 0x54 -> sab_parse r ms -> sab_parse (b :: r) ms
| parse_bad_length n r ms : 32 < n -> sab_parse r ms -> sab_parse (0x54 :: n :: r) ms
| parse_good h c p k r ms : zlen p <= 32 -> sab_checksum (zlen p :: h :: c :: p) k -> sab_parse r ms ->
    sab_parse (0x54 :: zlen p :: h :: c :: p ++ k :: r) ((h, c, p) :: ms)
| parse_bad_crc h c p k r ms : zlen p <= 32 -> ~ sab_checksum (zlen p :: h :: c :: p) k -> sab_parse r ms ->
    sab_parse (0x54 :: zlen p :: h :: c :: p ++ k :: r) ms.

(* A stream that ends in the middle of a frame. *)
Definition sab_incomplete (tail : list Z) : Prop :=
  tail = [] \/ tail = [0x54] \/ exists n body, tail = 0x54 :: n :: body /\ n <= 32 /\ zlen body < n + 3.

(* What a slave must send in reply to a request. [lookup] is the user's table: for each command the expected payload
   length and the reaction to a payload: no answer, an error code or a response payload. The first row with the command
   counts. *)
Inductive sab_outcome := Answer (payload : list Z) | Failure (code : Z).
Inductive sab_expected {R : Type} (row_command : R -> Z) (row_length : R -> Z) (react : R -> list Z -> list sab_outcome)
    (table : list R) (command : Z) (payload : list Z) : sab_outcome -> Prop :=
| exp_unknown : (forall r, In r table -> row_command r <> command) ->
    sab_expected row_command row_length react table command payload (Failure 1)
| exp_length before r after : table = before ++ r :: after -> (forall x, In x before -> row_command x <> command) ->
    row_command r = command -> row_length r <> zlen payload ->
    sab_expected row_command row_length react table command payload (Failure 2)
| exp_silent before r after : table = before ++ r :: after -> (forall x, In x before -> row_command x <> command) ->
    row_command r = command -> row_length r = zlen payload -> react r payload = [] ->
    sab_expected row_command row_length react table command payload (Failure 3)
| exp_answer before r after o : table = before ++ r :: after -> (forall x, In x before -> row_command x <> command) ->
    row_command r = command -> row_length r = zlen payload -> react r payload = [o] ->
    sab_expected row_command row_length react table command payload o.

(* the frame carrying an outcome back to the master *)
Definition sab_reply_frame (address command : Z) (o : sab_outcome) (bytes : list Z) : Prop :=
  match o with
  | Answer p => sab_frame (sab_header address true true) command p bytes
  | Failure e => sab_frame (sab_header address true false) command [e] bytes
  end.
