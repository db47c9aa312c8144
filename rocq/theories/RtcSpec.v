(* What the two clock chips do with the accesses of the driver, and what a register means (data sheets of the DS1302 and of the MCP7941x).
   Nothing of the driver but the types of its accesses is used. *)
From Verif Require Import Base RtcModel.

(** *** DS1302 *)

(* what the chip is doing with the edges of SCLK: receiving the command byte, receiving a data byte for a register, sending (register, number of
   the next bit, burst), or neither *)
Inductive mode := MCmd | MWr (i : nat) | MRd (i : nat) (k : Z) (burst : bool) | MOff.
(* the chip and the wires: w_regs are the 32 clock registers and the 32 bytes of RAM by bits 6..1 of the command; w_out is what the chip puts on
   I/O; the controller drives w_latch onto I/O when w_drive is set; w_float is what is read when nobody drives; w_clash becomes true when both do *)
Record world := mkW { w_ce : bool; w_sclk : bool; w_in : list bool; w_mode : mode; w_regs : list Z; w_out : option bool;
                      w_latch : bool; w_drive : bool; w_float : bool; w_clash : bool }.

(* eight bits, the first received is bit 0 *)
Fixpoint byte_of (l : list bool) : Z := match l with [] => 0 | b :: t => (if b then 1 else 0) + 2 * byte_of t end.
Definition put (l : list Z) (i : nat) (v : Z) : list Z := firstn i l ++ v :: skipn (S i) l.
Definition line (w : world) : bool :=
  if w_drive w then w_latch w else match w_out w with Some b => b | None => w_float w end.
Definition protected (regs : list Z) : bool := Z.testbit (nth 7 regs 0) 7.

(* bit 7 of a command must be 1; bits 6..1 name the register, 31 is the burst over the first eight; bit 0 is 1 for reading *)
Definition decode (c : Z) : mode :=
  if negb (Z.testbit c 7) then MOff
  else
    let i := Z.to_nat ((c / 2) mod 64) in
    if Z.testbit c 0 then (if Nat.eqb i 31 then MRd 0 0 true else MRd i 0 false) else MWr i.
(* the eighth bit of a data byte: the register is written, unless it is protected; the protect register itself can always be written *)
Definition store (regs : list Z) (i : nat) (v : Z) : list Z :=
  if protected regs && negb (Nat.eqb i 7) then regs else put regs i v.
Definition rising (w : world) : world :=
  let bits := w_in w ++ [line w] in
  match w_mode w with
  | MCmd => if Nat.eqb (length bits) 8 then mkW (w_ce w) true [] (decode (byte_of bits)) (w_regs w) (w_out w) (w_latch w) (w_drive w) (w_float w) (w_clash w)
            else mkW (w_ce w) true bits MCmd (w_regs w) (w_out w) (w_latch w) (w_drive w) (w_float w) (w_clash w)
  | MWr i => if Nat.eqb (length bits) 8 then mkW (w_ce w) true [] MOff (store (w_regs w) i (byte_of bits)) (w_out w) (w_latch w) (w_drive w) (w_float w) (w_clash w)
             else mkW (w_ce w) true bits (MWr i) (w_regs w) (w_out w) (w_latch w) (w_drive w) (w_float w) (w_clash w)
  | m => mkW (w_ce w) true (w_in w) m (w_regs w) (w_out w) (w_latch w) (w_drive w) (w_float w) (w_clash w)
  end.
(* the chip puts out the next bit on a falling edge, the first one on the falling edge after the command; after bit 7 comes the next register of
   a burst, or the same register once more *)
Definition falling (w : world) : world :=
  match w_mode w with
  | MRd i k burst =>
      mkW (w_ce w) false (w_in w) (if k =? 7 then MRd (if burst then S i else i) 0 burst else MRd i (k + 1) burst) (w_regs w)
          (Some (Z.testbit (nth i (w_regs w) 0) k)) (w_latch w) (w_drive w) (w_float w) (w_clash w || w_drive w)
  | m => mkW (w_ce w) false (w_in w) m (w_regs w) (w_out w) (w_latch w) (w_drive w) (w_float w) (w_clash w)
  end.
Definition sclk (b : bool) (w : world) : world :=
  if Bool.eqb b (w_sclk w) then w
  else if w_ce w then (if b then rising w else falling w)
  else mkW (w_ce w) b (w_in w) (w_mode w) (w_regs w) (w_out w) (w_latch w) (w_drive w) (w_float w) (w_clash w).
(* CE starts a transfer and ends it *)
Definition ce (b : bool) (w : world) : world :=
  if Bool.eqb b (w_ce w) then w
  else mkW b (w_sclk w) [] (if b then MCmd else MOff) (w_regs w) None (w_latch w) (w_drive w) (w_float w) (w_clash w).
Definition dir (out : bool) (w : world) : world :=
  mkW (w_ce w) (w_sclk w) (w_in w) (w_mode w) (w_regs w) (w_out w) (w_latch w) out (w_float w)
      (w_clash w || (out && match w_out w with Some _ => true | None => false end)).
Definition io (b : bool) (w : world) : world :=
  mkW (w_ce w) (w_sclk w) (w_in w) (w_mode w) (w_regs w) (w_out w) b (w_drive w) (w_float w) (w_clash w).
Fixpoint run {A : Type} (p : pins A) (w : world) : A * world :=
  match p with
  | PDone a => (a, w)
  | PCe b k => run k (ce b w)
  | PSclk b k => run k (sclk b w)
  | PDir out k => run k (dir out w)
  | PIo b k => run k (io b w)
  | PIn k => run (k (line w)) w
  end.

(* between two calls of the driver: the chip is deselected, its clock is low and nobody drives the data line *)
Definition rest (regs : list Z) (latch float : bool) : world := mkW false false [] MOff regs None latch false float false.
Definition byte (x : Z) : Prop := 0 <= x < 256.
Definition regs_ok (l : list Z) : Prop := length l = 64%nat /\ Forall byte l.

(* two decimal digits in a byte *)
Definition bcd (n : Z) : Z := 16 * (n / 10) + n mod 10.
(* the eight clock registers of a DS1302 that shows the given time; ch is the clock halt flag, wp the write protection; in the twelve hour mode
   h12 is the hour from 1 to 12 and pm the half of the day *)
Record show := mkShow { s_sec : Z; s_min : Z; s_hour : Z; s_date : Z; s_month : Z; s_day : Z; s_year : Z; s_ch : bool; s_wp : bool }.
Definition show_ok (t : show) : Prop :=
  0 <= s_sec t < 60 /\ 0 <= s_min t < 60 /\ 0 <= s_hour t < 24 /\ 1 <= s_date t <= 31 /\ 1 <= s_month t <= 12 /\ 1 <= s_day t <= 7 /\ 0 <= s_year t < 100.
Definition hour24 (t : show) : Z := bcd (s_hour t).
Definition pm_of (t : show) : bool := 12 <=? s_hour t.
Definition h12_of (t : show) : Z := (s_hour t + 11) mod 12 + 1.
Definition hour12 (t : show) : Z := 128 + (if pm_of t then 32 else 0) + bcd (h12_of t).
Definition clock_regs (t : show) (hour : Z) : list Z :=
  [bcd (s_sec t) + (if s_ch t then 128 else 0); bcd (s_min t); hour; bcd (s_date t); bcd (s_month t); s_day t; bcd (s_year t); if s_wp t then 128 else 0].

(** *** MCP7941x *)

(* an I2C write sets the register pointer and stores the bytes after it from there on; a read returns the registers from the pointer on *)
Fixpoint store_from (regs : list Z) (a : nat) (l : list Z) : list Z :=
  match l with [] => regs | v :: t => store_from (put regs a v) (S a) t end.
(* acks says which of the transactions succeed, in order; a transaction that fails changes nothing *)
Fixpoint irun {A : Type} (p : i2c A) (regs : list Z) (acks : list bool) : A * list Z :=
  match p with
  | IDone a => (a, regs)
  | IWrite bytes k =>
      match acks with
      | true :: r => match bytes with a :: l => irun (k true) (store_from regs (Z.to_nat a) l) r | [] => irun (k true) regs r end
      | _ :: r => irun (k false) regs r
      | [] => irun (k false) regs []
      end
  | IWriteRead bytes n k =>
      match acks with
      | true :: r => match bytes with a :: _ => irun (k (Some (firstn n (skipn (Z.to_nat a) regs)))) regs r | [] => irun (k None) regs r end
      | _ :: r => irun (k None) regs r
      | [] => irun (k None) regs []
      end
  end.
Definition dt_ok (d : DateTime) : Prop :=
  1 <= days d <= 31 /\ 1 <= months d <= 12 /\ 0 <= years d < 100 /\ 0 <= seconds d < 60 /\ 0 <= minutes d < 60 /\ 0 <= hours d < 24.
(* registers 0 to 6 of an MCP7941x in the 24 hour mode that shows d: st is the start bit, wk the day of the week with the status bits 3 to 5,
   leap the leap year flag, which the chip sets by itself *)
Definition mcp_regs (d : DateTime) (st : bool) (wk : Z) (leap : bool) : list Z :=
  [bcd (seconds d) + (if st then 128 else 0); bcd (minutes d); bcd (hours d); wk; bcd (days d); bcd (months d) + (if leap then 32 else 0); bcd (years d)].
(* bit 5 of the weekday register: the oscillator runs *)
Definition running (regs : list Z) : bool := Z.testbit (nth 3 regs 0) 5.
