(** Model of the buffers of the LED drivers TLC594x,
    src/modm/driver/pwm/tlc594x_impl.hpp, for CHANNELS = C.  None: an access outside
    the arrays gs (C*3/2 bytes) and dc (C*3/4 bytes). *)
From Coq Require Import ZArith List Bool.
From Verif Require Import Base.
Import ListNotations.
Open Scope Z_scope.

Section Tlc.
Variable C : Z.

(** tlc594x.hpp:173-174 — the arrays. *)
Definition gs_size : Z := C * 3 / 2.
(** tlc594x.hpp:173-174 — the arrays. *)
Definition dc_size : Z := C * 3 / 4.

(** tlc594x_impl.hpp:51-79 — setChannel(channel, value), both uint16_t; the index is a uint16_t. *)
Definition setChannel (channel value : Z) (gs : list Z) : option (list Z) :=
  if C - 1 <? channel then Some gs else
  let index := u16 (Z.shiftr ((C - 1 - channel) * 3) 1) in
  if negb (Z.land channel 1 =? 0) then
    do gs <- zupd gs index (u8 (Z.shiftr value 4));
    do y <- znth gs (index + 1);
    zupd gs (index + 1) (Z.lor (u8 (Z.shiftl value 4)) (Z.land y 0x0f))
  else
    do x <- znth gs index;
    do gs <- zupd gs index (Z.lor (Z.land (u8 (Z.shiftr value 8)) 0x0f) (Z.land x 0xf0));
    zupd gs (index + 1) (u8 value).

(** The loop of the two functions below: three bytes per round while i < [n] (tlc594x_impl.hpp:88-92, 170-174). *)
Fixpoint fill (fuel : nat) (n a b c i : Z) (m : list Z) : option (list Z) :=
  match fuel with
  | O => None
  | S fuel =>
      if i <? n then
        do m <- zupd m i a; do m <- zupd m (i + 1) b; do m <- zupd m (i + 2) c;
        fill fuel n a b c (i + 3) m
      else Some m
  end.
(** tlc594x_impl.hpp:82-93 — setAllChannels(value). *)
Definition setAllChannels (value : Z) (gs : list Z) : option (list Z) :=
  fill (S (length gs)) gs_size (u8 (Z.shiftr value 4)) (Z.lor (u8 (Z.shiftl value 4)) (Z.land (u8 (Z.shiftr value 8)) 0x0f)) (u8 value) 0 gs.

(** tlc594x_impl.hpp:96-112 — getChannel(channel). *)
Definition getChannel (channel : Z) (gs : list Z) : option Z :=
  if C - 1 <? channel then Some 0 else
  let index := u16 (Z.shiftr ((C - 1 - channel) * 3) 1) in
  do x <- znth gs index; do y <- znth gs (index + 1);
  Some (if negb (Z.land channel 1 =? 0) then u16 (Z.lor (Z.shiftl x 4) (Z.shiftr y 4))
        else u16 (Z.lor (Z.shiftl (Z.land x 0x0f) 8) y)).

(** tlc594x_impl.hpp:115-159 — setDotCorrection(channel, value). *)
Definition setDotCorrection (channel value : Z) (dc : list Z) : option (list Z) :=
  if C - 1 <? channel then Some dc else
  let index := u16 (Z.shiftr ((C - 1 - channel) * 3) 2) in
  do x <- znth dc index;
  match Z.land channel 3 with
  | 0 => zupd dc index (Z.lor (Z.land x 0xc0) value)
  | 1 => do dc <- zupd dc index (Z.lor (Z.land x 0xf0) (Z.shiftr value 2));
         do y <- znth dc (index + 1); zupd dc (index + 1) (u8 (Z.lor (Z.land y 0x3f) (Z.shiftl value 6)))
  | 2 => do dc <- zupd dc index (Z.lor (Z.land x 0xfc) (Z.shiftr value 4));
         do y <- znth dc (index + 1); zupd dc (index + 1) (u8 (Z.lor (Z.land y 0x0f) (Z.shiftl value 4)))
  | _ => zupd dc index (u8 (Z.lor (Z.land x 0x03) (Z.shiftl value 2)))
  end.
(** tlc594x_impl.hpp:162-175 — setAllDotCorrection(value). *)
Definition setAllDotCorrection (value : Z) (dc : list Z) : option (list Z) :=
  fill (S (length dc)) dc_size (u8 (Z.lor (Z.shiftl value 2) (Z.shiftr value 4))) (u8 (Z.lor (Z.shiftl value 4) (Z.shiftr value 2))) (u8 (Z.lor (Z.shiftl value 6) value)) 0 dc.
(** tlc594x_impl.hpp:178-205 — getDotCorrection(channel). *)
Definition getDotCorrection (channel : Z) (dc : list Z) : option Z :=
  if C - 1 <? channel then Some 0 else
  let index := u16 (Z.shiftr ((C - 1 - channel) * 3) 2) in
  do x <- znth dc index;
  match Z.land channel 3 with
  | 0 => Some (Z.land x 0x3f)
  | 1 => do y <- znth dc (index + 1); Some (u8 (Z.lor (Z.shiftl (Z.land x 0x0f) 2) (Z.shiftr (Z.land y 0xc0) 6)))
  | 2 => do y <- znth dc (index + 1); Some (u8 (Z.lor (Z.shiftl (Z.land x 0x03) 4) (Z.shiftr (Z.land y 0xf0) 4)))
  | _ => Some (Z.shiftr (Z.land x 0xfc) 2)
  end.
End Tlc.
