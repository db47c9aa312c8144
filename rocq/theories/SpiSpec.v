(** The bus seen by a selected SPI slave of a given mode.  The clock idles at [cpol]; the
    first edge of a bit leaves that level, the second returns to it.  With cpha = false
    the slave samples MOSI at the first edge and puts its next bit on MISO at the second;
    with cpha = true it puts the bit on MISO at the first edge and samples at the second.
    Required times, in units of the delay of half a period: between two edges of the
    clock, from a change of MOSI to the edge that samples it (set-up), from that edge to
    the next change of MOSI (hold), and from the edge at which the slave changes MISO to
    the time the master reads it.  A violation is None. *)
From Coq Require Import ZArith List Bool.
From Verif Require Import Base.
Import ListNotations.
Open Scope Z_scope.

(** MISO: not driven with a bit yet, changing, stable. *)
Inductive miso := Hidden | Settling | Stable.
Record bus := Bus { sck : bool; mosi : bool; out : list bool; inp : list bool; st : miso; ok_edge : bool; ok_setup : bool; ok_hold : bool }.

Section Slave.
Variable cpol cpha : bool.
Definition wait (b : bus) : option bus :=
  Some (Bus (sck b) (mosi b) (out b) (inp b) (match st b with Settling => Stable | s => s end) true true true).
Definition put_mosi (x : bool) (b : bus) : option bus :=
  if Bool.eqb x (mosi b) then Some b
  else if ok_hold b then Some (Bus (sck b) x (out b) (inp b) (st b) (ok_edge b) false true) else None.
Definition get_miso (b : bus) : option bool := match st b with Stable => Some (hd false (out b)) | _ => None end.
(** The two edges of a bit at the slave. *)
Definition sample (b : bus) : option bus :=
  if ok_setup b then Some (Bus (sck b) (mosi b) (out b) (inp b ++ [mosi b]) (st b) (ok_edge b) (ok_setup b) false) else None.
Definition first_edge (b : bus) : option bus :=
  if cpha then Some (Bus (sck b) (mosi b) (out b) (inp b) Settling (ok_edge b) (ok_setup b) (ok_hold b)) else sample b.
Definition second_edge (b : bus) : option bus :=
  if cpha then option_map (fun b => Bus (sck b) (mosi b) (tl (out b)) (inp b) Hidden (ok_edge b) (ok_setup b) (ok_hold b)) (sample b)
  else Some (Bus (sck b) (mosi b) (tl (out b)) (inp b) Settling (ok_edge b) (ok_setup b) (ok_hold b)).
Definition put_sck (x : bool) (b : bus) : option bus :=
  if Bool.eqb x (sck b) then Some b
  else if negb (ok_edge b) then None
  else let b := Bus x (mosi b) (out b) (inp b) (st b) false (ok_setup b) (ok_hold b) in
       if Bool.eqb x cpol then second_edge b else first_edge b.
(** Between bytes: the clock idles; with cpha = false the next bit is already on its way. *)
Definition idle (b : bus) : Prop :=
  sck b = cpol /\ (if cpha then st b = Hidden else st b <> Hidden /\ ok_hold b = true).
End Slave.

(** The eight bits of a byte in the order they travel. *)
Definition bits (lsb : bool) (x : Z) : list bool :=
  let l := map (Z.testbit x) [7; 6; 5; 4; 3; 2; 1; 0] in if lsb then rev l else l.
(** [n] bytes of the memory from [p]. *)
Definition region (mem : list Z) (p : Z) (n : nat) : list Z := firstn n (skipn (Z.to_nat p) mem).
