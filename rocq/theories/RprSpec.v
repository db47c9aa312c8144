(* The ring protocol of RPR: frames on the wire, who receives and who forwards *)
From Verif Require Import Base CrcSpec Sab2Spec RprModel.

(* the two delimiters and the escape byte are sent as 0x7d followed by the byte with bit 5 toggled *)
Definition rstuff (b : Z) : list Z := if (b =? 0x7e) || (b =? 0x7c) || (b =? 0x7d) then [0x7d; toggle5 b] else [b].
(* content of a frame: destination and source (low byte first), command, payload, checksum (low byte first) *)
Definition rpr_content (dest src cmd : Z) (payload : list Z) (sum : Z) : list Z :=
  [dest mod 256; dest / 256; src mod 256; src / 256; cmd] ++ payload ++ [sum mod 256; sum / 256].
Definition rpr_sum (dest src cmd : Z) (payload : list Z) (sum : Z) : Prop :=
  sab2_checksum ([dest mod 256; dest / 256; src mod 256; src / 256; cmd] ++ payload) sum.
Definition rpr_wire (content : list Z) : list Z := 0x7e :: flat_map rstuff content ++ [0x7c].

(* the address field of a message *)
Definition wire_dest (t : rtype) (d : Z) : Z :=
  match t with RBroadcast => 65535 | RMulticast => 32768 + d mod 32768 | _ => d mod 32768 end.
(* how a node with the given address and group sees a destination; RAny: not for this node *)
Definition role (address group dest : Z) : rtype :=
  if dest =? 65535 then RBroadcast
  else if 32768 <=? dest then (if dest - 32768 =? group then RMulticast else RAny)
  else if dest =? address then RUnicast else RAny.
(* a frame with these addresses is to be passed on *)
Definition passes_on (address group dest src : Z) : Prop := address <> src mod 32768 /\ role address group dest <> RUnicast.

(* every second message: what is left of a queue from which two are removed for each one sent *)
Fixpoint every_other {A} (l : list A) : list A :=
  match l with
  | a :: _ :: r => a :: every_other r
  | l => l
  end.

(* stretches of bytes without delimiter hold at most 255 bytes of content *)
Definition delimiter (b : Z) : bool := (b =? 0x7e) || (b =? 0x7c).
Definition content_bytes (l : list Z) : Z := zlen (filter (fun b => negb (b =? 0x7d)) l).
Definition short_runs (bytes : list Z) : Prop :=
  forall a run b, bytes = a ++ run ++ b -> Forall (fun x => delimiter x = false) run -> content_bytes run <= 255.

(* a listener fits a message; the first one that fits *)
Definition fits (l : rlistener) (m : rmsg) : Prop :=
  (l_type l = RAny \/ l_type l = m_type m) /\ (l_source l = 65535 \/ l_source l = m_src m) /\ (l_command l = 255 \/ l_command l = m_cmd m).
Definition first_fit (ls : list rlistener) (m : rmsg) (l : rlistener) : Prop :=
  exists a b, ls = a ++ l :: b /\ fits l m /\ Forall (fun x => ~ fits x m) a.
Inductive dispatched (ls : list rlistener) : list rmsg -> list (rlistener * rmsg) -> Prop :=
| dispatched_nil : dispatched ls [] []
| dispatched_some m ms l cs : first_fit ls m l -> dispatched ls ms cs -> dispatched ls (m :: ms) ((l, m) :: cs)
| dispatched_none m ms cs : Forall (fun x => ~ fits x m) ls -> dispatched ls ms cs -> dispatched ls (m :: ms) cs.

(* nodes one after the other on the ring: what each writes is what the next reads *)
Fixpoint ring_pass (N : Z) (alloc : rpr -> Z -> bool) (nodes : list rpr) (bytes : list Z) : option (list rpr * list Z) :=
  match nodes with
  | [] => Some ([], bytes)
  | s :: r => do (s', out, _) <- rpr_update N alloc s bytes; do (r', out) <- ring_pass N alloc r out; Some (s' :: r', out)
  end.
(* a node that is not sending anything itself, between any two calls: address of 15 bits, receive buffer of the right size *)
Definition listening (N : Z) (s : rpr) : Prop := 0 <= r_address s < 32768 /\ zlen (r_buf s) = N + 8 /\ r_toSend s = [] /\ zlen (r_received s) < 10.
