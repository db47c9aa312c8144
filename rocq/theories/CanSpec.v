(* CAN data lengths and the Lawicel text format, independent of the code *)
From Verif Require Import Base CrcSpec CanModel.

(* data lengths of CAN and CAN FD frames; the position is the data length code *)
Definition can_lengths : list Z := [0; 1; 2; 3; 4; 5; 6; 7; 8; 12; 16; 20; 24; 32; 48; 64].
(* the sizes a message buffer can be configured to *)
Definition can_capacity (c : Z) : Prop := In c [8; 12; 16; 20; 24; 32; 48; 64].
(* l is the smallest CAN length that can hold n bytes *)
Definition fits (n l : Z) : Prop := In l can_lengths /\ n <= l /\ forall l', In l' can_lengths -> n <= l' -> l <= l'.
(* a message whose length agrees with its data length code and its buffer *)
Definition consistent (capacity : Z) (m : can_msg) : Prop :=
  znth can_lengths (c_dlc m) = Some (c_len m) /\ c_len m <= capacity /\ zlen (c_data m) = capacity.

(* value of a hexadecimal digit *)
Definition hex_value (c : Z) : option Z :=
  if (48 <=? c) && (c <=? 57) then Some (c - 48)
  else if (65 <=? c) && (c <=? 70) then Some (c - 55)
  else if (97 <=? c) && (c <=? 102) then Some (c - 87)
  else None.
Fixpoint hex_number (acc : Z) (s : list Z) : option Z :=
  match s with
  | [] => Some acc
  | c :: r => match hex_value c with Some v => hex_number (16 * acc + v) r | None => None end
  end.
(* two digits per byte *)
Fixpoint hex_bytes (s : list Z) : option (list Z) :=
  match s with
  | [] => Some []
  | a :: b :: r => do x <- hex_value a; do y <- hex_value b; do t <- hex_bytes r; Some (16 * x + y :: t)
  | _ => None
  end.
(* text of a frame: kind, identifier with 3 or 8 digits, number of bytes, data unless it is a remote request *)
Definition lawicel (s : list Z) (ext rtr : bool) (id len : Z) (data : list Z) : Prop :=
  exists k ids ds, s = k :: ids ++ [48 + len] ++ ds /\
    ext = ((k =? 82) || (k =? 84)) /\ rtr = ((k =? 82) || (k =? 114)) /\
    zlen ids = (if ext then 8 else 3) /\ hex_number 0 ids = Some id /\ id < (if ext then 2 ^ 29 else 2 ^ 11) /\
    0 <= len <= 8 /\ hex_bytes ds = Some data /\ zlen data = (if rtr then 0 else len).
(* the first character is one of t, T, r, R *)
Definition kind_ok (s : list Z) : Prop := exists k r, s = k :: r /\ In k [116; 84; 114; 82].

(* a C string: no terminator inside *)
Definition c_string (s : list Z) : Prop := Forall (fun c => 0 < c < 256) s.
(* a CAN 2.0 message *)
Definition can20 (m : can_msg) : Prop :=
  0 <= c_id m < (if c_ext m then 2 ^ 29 else 2 ^ 11) /\ 0 <= c_len m <= 8 /\ 8 <= zlen (c_data m) /\ Forall byte (c_data m).

(* bus arbitration of two data frames: 11 base bits, then the standard frame wins over the extended one (dominant RTR/IDE against recessive SRR/IDE), then
   the 18 further bits, smaller first *)
Definition base_id (m : can_msg) : Z := if c_ext m then c_id m / 2 ^ 18 else c_id m.
Definition wins (a b : can_msg) : Prop :=
  base_id a < base_id b \/
  base_id a = base_id b /\
    match c_ext a, c_ext b with
    | false, true => True
    | true, true => c_id a mod 2 ^ 18 < c_id b mod 2 ^ 18
    | _, false => False
    end.
Definition valid_id (m : can_msg) : Prop := 0 <= c_id m < (if c_ext m then 2 ^ 29 else 2 ^ 11).
