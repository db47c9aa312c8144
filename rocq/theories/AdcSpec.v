(* What the frames of the AD7280A are to be, after its data sheet. *)
From Verif Require Import Base CrcSpec.

(* x^8 + x^5 + x^3 + x^2 + x + 1 *)
Definition g8 : Z := 303.
(* the check sum of some bits: the remainder of the division of their polynomial *)
Definition rem8 (d r : Z) : Prop := 0 <= r < 256 /\ congr g8 d r.
(* the four bytes of a word, the highest first *)
Definition bytes4 (w : Z) : list Z := [w / 16777216; w / 65536 mod 256; w / 256 mod 256; w mod 256].
(* the device address is sent with the lowest bit first *)
Definition dev (d : Z) : Z := reflect 5 d.
(* a write command: 5 bits device, 6 bits register, 8 bits value, the bit "address all", 0, check sum of the 21 bits before, 010 *)
Definition command (d reg value : Z) (all : bool) (crc : Z) : Z := dev d * 2 ^ 27 + reg * 2 ^ 21 + value * 2 ^ 13 + Z.b2z all * 2 ^ 12 + crc * 8 + 2.
(* the reply with a register: 5 bits device, 6 bits register, 8 bits value, 00, acknowledge, check sum of the 22 bits before, 00 *)
Definition replyReg (d reg value : Z) (ack : bool) (crc : Z) : Z := dev d * 2 ^ 27 + reg * 2 ^ 21 + value * 2 ^ 13 + Z.b2z ack * 2 ^ 10 + crc * 4.
(* the reply with a conversion: 5 bits device, 4 bits channel, 12 bits value, acknowledge, check sum of the 22 bits before, 00 *)
Definition replyConv (d ch value : Z) (ack : bool) (crc : Z) : Z := dev d * 2 ^ 27 + ch * 2 ^ 23 + value * 2 ^ 11 + Z.b2z ack * 2 ^ 10 + crc * 4.
