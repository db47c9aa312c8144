(** Specification vocabulary for colours, independent of the model: the
    closed-form HSV formula and the bit layout of RGB565. *)
From Coq Require Import ZArith List Bool Lia.
From Verif Require Import Base.
Open Scope Z_scope.

Definition is_byte (x : Z) : Prop := 0 <= x < 256.
Definition is_word (x : Z) : Prop := 0 <= x < 65536.

(** Distance of channel [n] (5 red, 3 green, 1 blue) from the full value, in
    1/256 of the chroma: max(0, min(k, 4 - k, 1)) with k = (n + H/60 deg) mod 6,
    the hue h standing for the angle 360 deg * h / 256. *)
Definition attenuation (n h : Z) : Z :=
  let k := (256 * n + 6 * h) mod 1536 in
  Z.max 0 (Z.min (Z.min k (1024 - k)) 256).

(** V - V S max(0, min(k, 4 - k, 1)), saturation s standing for s/256, rounded
    down. *)
Definition channel (n h s v : Z) : Z :=
  (65536 * v - v * s * attenuation n h) / 65536.

Definition max3 (a b c : Z) : Z := Z.max a (Z.max b c).
Definition min3 (a b c : Z) : Z := Z.min a (Z.min b c).

(** RRRRRGGG GGGBBBBB *)
Definition red5 (c : Z) : Z := c / 2048.
Definition green6 (c : Z) : Z := c / 32 mod 64.
Definition blue5 (c : Z) : Z := c mod 32.
