(** What is claimed about the buffers of the TLC594x: they are sent from the first byte
    to the last, the most significant bit first, so the bits shifted into the chip are
    the big-endian number [be]; channel [c] are the bits [w*c .. w*c + w - 1] of it
    (the highest channel is sent first). *)
From Coq Require Import ZArith List Bool.
From Verif Require Import Base.
Import ListNotations.
Open Scope Z_scope.
Definition bytes (l : list Z) : Prop := Forall (fun b => 0 <= b < 256) l.
Definition be (l : list Z) : Z := fold_left (fun a b => 256 * a + b) l 0.
(** The field [c] of width [w]. *)
Definition field (w c v : Z) : Z := v / 2 ^ (w * c) mod 2 ^ w.
