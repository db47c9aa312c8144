(** Model of the SPI master in software, src/modm/platform/spi/bitbang/bitbang_spi_master_impl.hpp,
    over the pins of an arbitrary environment [W].  None: a violation reported by the
    environment, or an access outside the memory. *)
From Coq Require Import ZArith List Bool.
From Verif Require Import Base.
Import ListNotations.
Open Scope Z_scope.

Section Master.
(** The pins Sck, Mosi, Miso and the delay of half a period (bitbang_spi_master.hpp:42-47, 69-70). *)
Variable W : Type.
Variable setSck setMosi : bool -> W -> option W.
Variable readMiso : W -> option bool.
Variable delay : W -> option W.

(** The tests of the bits of operationMode (bitbang_spi_master_impl.hpp:91 and following). *)
Definition on (mode mask : Z) : bool := negb (Z.land mode mask =? 0).

(** bitbang_spi_master_impl.hpp:66-69 — setDataMode(mode): the new operationMode and the clock pin. *)
Definition setDataMode (op m : Z) (w : W) : option (Z * W) :=
  let op := Z.lor (Z.land op (u8 (Z.lnot 3))) m in
  do w <- setSck (on op 2) w; Some (op, w).
(** bitbang_spi_master_impl.hpp:73-79 — setDataOrder(order): the new operationMode. *)
Definition setDataOrder (op : Z) (lsb : bool) : Z :=
  if lsb then Z.lor op 4 else Z.land op (u8 (Z.lnot 4)).
(** bitbang_spi_master_impl.hpp:53-60 — initialize(): delayTime (uint16_t) and the pins. *)
Definition delayTime (baudrate : Z) : Z :=
  let d := u16 (500000000 / baudrate) in if d =? 0 then 1 else d.
(** bitbang_spi_master_impl.hpp:58-59 — initialize(): the pins; operationMode stays. *)
Definition initialize (w : W) : option W := do w <- setSck false w; setMosi false w.

(** bitbang_spi_master_impl.hpp:86-124 — one round of the loop of transferBlocking(data). *)
Definition round (op data : Z) (w : W) : option (Z * W) :=
  do w <- (if on op 1 then delay w else Some w);
  do w <- (if on op 4 then setMosi (on data 1) w else setMosi (on data 0x80) w);
  let data := if on op 4 then Z.shiftr data 1 else u8 (Z.shiftl data 1) in
  do w <- (if negb (on op 1) then delay w else Some w);
  do w <- setSck (negb (on op 2)) w;
  do w <- (if on op 1 then delay w else Some w);
  do b <- readMiso w;
  let data := if on op 4 then (if b then Z.lor data 0x80 else data) else (if b then Z.lor data 1 else data) in
  do w <- (if negb (on op 1) then delay w else Some w);
  do w <- setSck (on op 2) w;
  Some (data, w).
(** bitbang_spi_master_impl.hpp:86 — the loop. *)
Fixpoint rounds (n : nat) (op data : Z) (w : W) : option (Z * W) :=
  match n with
  | O => Some (data, w)
  | S n => do r <- round op data w; rounds n op (fst r) (snd r)
  end.
(** bitbang_spi_master_impl.hpp:84-127 — transferBlocking(data). *)
Definition transfer (op data : Z) (w : W) : option (Z * W) := rounds 8 op data w.

(** bitbang_spi_master_impl.hpp:131-146 — transferBlocking(tx, rx, length): the buffers are
    regions of one memory [mem], None is nullptr; [i] rounds are done, [n] are left, [t] is tx_byte. *)
Fixpoint transfer_loop (n : nat) (op : Z) (tx rx : option Z) (i t : Z) (mem : list Z) (w : W) : option (list Z * W) :=
  match n with
  | O => Some (mem, w)
  | S n =>
      do t <- (match tx with Some p => znth mem (p + i) | None => Some t end);
      do r <- transfer op t w;
      do mem <- (match rx with Some p => zupd mem (p + i) (fst r) | None => Some mem end);
      transfer_loop n op tx rx (i + 1) t mem (snd r)
  end.
(** bitbang_spi_master_impl.hpp:131-146 — transferBlocking(tx, rx, length). *)
Definition transfer_array (op : Z) (tx rx : option Z) (length : nat) (mem : list Z) (w : W) : option (list Z * W) :=
  transfer_loop length op tx rx 0 0xff mem w.
End Master.
