(* The framing of SAB2 (HDLC like byte stuffing) as a wire format. *)
From Verif Require Import Base CrcSpec.

(* toggle bit 5 *)
Definition toggle5 (b : Z) : Z := if Z.odd (b / 32) then b - 32 else b + 32.
(* bytes 0x7e and 0x7d are sent as 0x7d followed by the byte with bit 5 toggled *)
Definition stuff (b : Z) : list Z := if (b =? 0x7e) || (b =? 0x7d) then [0x7d; toggle5 b] else [b].
(* the content of a stretch of bytes between two boundaries; None if it ends within an escape sequence *)
Fixpoint unstuff (escaped : bool) (l : list Z) : option (list Z) :=
  match l with
  | [] => if escaped then None else Some []
  | b :: r => if b =? 0x7d then unstuff true r
              else match unstuff false r with
                   | Some c => Some ((if escaped then toggle5 b else b) :: c)
                   | None => None
                   end
  end.

(* the 16 bit checksum: remainder modulo x^16+x^15+x^2+1 with preset register, bits in serial order *)
Definition sab2_checksum (data : list Z) (c : Z) : Prop :=
  0 <= c < 65536 /\ crc_value 16 0x18005 0xffff (stream data) (reflect 16 c).

(* a valid content: header, command, payload, checksum (low byte first) *)
Definition sab2_content (header command : Z) (payload : list Z) (content : list Z) : Prop :=
  exists lo hi, byte lo /\ byte hi /\ content = header :: command :: payload ++ [lo; hi] /\
    sab2_checksum (header :: command :: payload) (lo + 256 * hi).
(* a frame on the wire *)
Definition sab2_frame (header command : Z) (payload : list Z) (bytes : list Z) : Prop :=
  exists content, sab2_content header command payload content /\ bytes = 0x7e :: flat_map stuff content ++ [0x7e].

(* address and flags *)
Definition sab2_header (address : Z) (response acknowledge : bool) : Z :=
  address + 64 * Z.b2z acknowledge + 128 * Z.b2z response.

(* a message (address, response, acknowledge, command, payload) of at most N payload bytes, and its frame *)
Definition sab2_msg (N : Z) (m : Z * bool * bool * Z * list Z) : Prop :=
  match m with (a, r, k, c, p) => 0 <= a < 64 /\ byte c /\ Forall byte p /\ zlen p <= N end.
Definition sab2_msg_frame (m : Z * bool * bool * Z * list Z) (bytes : list Z) : Prop :=
  match m with (a, r, k, c, p) => sab2_frame (sab2_header a r k) c p bytes end.

(* What a receiver for at most N payload bytes must report for the bytes between two boundaries: the content if it decodes,
   is not too long and has a matching checksum. Contents that are too long are left open here. *)
Definition sab2_report (N : Z) (between : list Z) (r : option (Z * Z * list Z)) : Prop :=
  match unstuff false between with
  | None => r = None
  | Some content =>
      N + 4 < zlen content \/
      (exists h c p, sab2_content h c p content /\ r = Some (h, c, p)) \/
      ((forall h c p, ~ sab2_content h c p content) /\ r = None)
  end.
Inductive sab2_reports (N : Z) : list (list Z) -> list (Z * Z * list Z) -> Prop :=
| reports_nil : sab2_reports N [] []
| reports_some b bs m ms : sab2_report N b (Some m) -> sab2_reports N bs ms -> sab2_reports N (b :: bs) (m :: ms)
| reports_none b bs ms : sab2_report N b None -> sab2_reports N bs ms -> sab2_reports N (b :: bs) ms.
