(* Model of the drivers of two real time clocks, /repo/src/modm/driver/rtc: ds1302.hpp and ds1302_impl.hpp (three wire bus, driven by hand) and
   mcp7941x.hpp and mcp7941x_impl.hpp (I2C). A function of the driver is the sequence of its accesses to the pins or to the I2C bus (a program);
   what the chips do with them is described in RtcSpec. Delays are left out. *)
From Verif Require Import Base.

(** *** DS1302 *)

(* ds1302_impl.hpp:21-23: the pins Ce, Sclk and Io; Ce::set() is PCe true, Io::setOutput() is PDir true, Io::set(b) is PIo b, Io::read() is PIn *)
Inductive pins (A : Type) : Type :=
| PDone (a : A)
| PCe (b : bool) (k : pins A)
| PSclk (b : bool) (k : pins A)
| PDir (out : bool) (k : pins A)
| PIo (b : bool) (k : pins A)
| PIn (k : bool -> pins A).
Arguments PDone {A} a.
Arguments PCe {A} b k.
Arguments PSclk {A} b k.
Arguments PDir {A} out k.
Arguments PIo {A} b k.
Arguments PIn {A} k.

(* ds1302_impl.hpp:19-24 *)
Definition initialize : pins unit := PCe false (PSclk false (PDir false (PDone tt))).
(* ds1302_impl.hpp:33-42, the loop with ii = n; k is what comes after it *)
Fixpoint writeBits {A : Type} (n : nat) (byte : Z) (k : pins A) : pins A :=
  match n with
  | O => k
  | S m => PSclk false (PIo (negb (Z.land byte 1 =? 0)) (PSclk true (writeBits m (Z.shiftr byte 1) k)))
  end.
(* ds1302_impl.hpp:26-44 *)
Definition writeByte {A : Type} (byte : Z) (k : pins A) : pins A := PDir true (writeBits 8 byte k).
(* ds1302_impl.hpp:46-60 *)
Definition write (addr data : Z) : pins unit :=
  PCe true (writeByte addr (writeByte data (PSclk false (PDir false (PCe false (PDone tt)))))).
(* ds1302_impl.hpp:73-82 and 107-118, the same loop twice, with ii = n *)
Fixpoint readBits {A : Type} (n : nat) (ret : Z) (k : Z -> pins A) : pins A :=
  match n with
  | O => k ret
  | S m => PIn (fun rr => PSclk true (PSclk false (readBits m (u8 (Z.lor (Z.shiftr ret 1) (Z.shiftl (if rr then 1 else 0) 7))) k)))
  end.
(* ds1302_impl.hpp:62-87 *)
Definition read (addr : Z) : pins Z :=
  PCe true (writeByte addr (PDir false (readBits 8 0 (fun ret => PCe false (PDone ret))))).
(* ds1302_impl.hpp:104-120, n bytes are still to be read; the array comes back as the list of the bytes read *)
Fixpoint readBytes {A : Type} (n : nat) (acc : list Z) (k : list Z -> pins A) : pins A :=
  match n with
  | O => k acc
  | S m => readBits 8 0 (fun ret => readBytes m (acc ++ [ret]) k)
  end.
(* ds1302_impl.hpp:90-123; storage.data has eight elements, ds1302.hpp:96 *)
Definition readRtc : pins (list Z) :=
  PCe true (writeByte 191 (PDir false (PSclk false (readBytes 8 [] (fun data => PCe false (PDone data)))))).
(* ds1302.hpp:139-142 *)
Definition writeProtect (wp : bool) : pins unit := write 142 (if wp then 128 else 0).
(* ds1302.hpp:145-148 *)
Definition enableOscillator : pins unit := write 128 0.

(** *** The data of the DS1302, ds1302.hpp:31-106 *)

(* ds1302.hpp:99-105 *)
Definition doubleBcdToDecimal (val : Z) : Z :=
  let tens := u8 (Z.shiftr (Z.land val 112) 4 * 10) in
  let ones := u8 (Z.land val 15) in
  u8 (tens + ones).
(* ds1302.hpp:34-37 *)
Definition getSeconds (d : list Z) : Z := doubleBcdToDecimal (nth 0 d 0).
(* ds1302.hpp:39-42 *)
Definition getMinutes (d : list Z) : Z := doubleBcdToDecimal (nth 1 d 0).
(* ds1302.hpp:44-47 *)
Definition is24hours (d : list Z) : bool := Z.land (nth 2 d 0) 128 =? 0.
(* ds1302.hpp:49-52 *)
Definition isPm (d : list Z) : bool := negb (Z.land (nth 2 d 0) 32 =? 0).
(* ds1302.hpp:54-57 *)
Definition isAm (d : list Z) : bool := negb (isPm d).
(* ds1302.hpp:59-66 *)
Definition getHours (d : list Z) : Z :=
  if is24hours d then doubleBcdToDecimal (nth 2 d 0) else doubleBcdToDecimal (Z.land (nth 2 d 0) 31).
(* ds1302.hpp:68-71 *)
Definition getDate (d : list Z) : Z := doubleBcdToDecimal (nth 3 d 0).
(* ds1302.hpp:73-76 *)
Definition getMonth (d : list Z) : Z := doubleBcdToDecimal (nth 4 d 0).
(* ds1302.hpp:78-81 *)
Definition getDayOfWeek (d : list Z) : Z := nth 5 d 0.
(* ds1302.hpp:83-86 *)
Definition getYear (d : list Z) : Z := nth 6 d 0.
(* ds1302.hpp:88-91 *)
Definition isWriteProtected (d : list Z) : bool := negb (Z.land (nth 7 d 0) 128 =? 0).

(** *** MCP7941x *)

(* mcp7941x.hpp:30-39 *)
Record DateTime := mkDt { days : Z; months : Z; years : Z; seconds : Z; minutes : Z; hours : Z }.
(* mcp7941x.hpp:64-68 *)
Definition decodeBcd (bcd : Z) : Z := u8 (bcd / 16 * 10 + bcd mod 16).
(* mcp7941x.hpp:70-74 *)
Definition encodeBcd (decimal : Z) : Z := u8 (decimal / 10 * 16 + decimal mod 10).

(* mcp7941x_impl.hpp:29-30, 56-57: a transaction configured with configureWrite(bytes) or configureWriteRead(bytes, n) and run; k gets None when
   runTransaction() returns false and the bytes read otherwise *)
Inductive i2c (A : Type) : Type :=
| IDone (a : A)
| IWrite (bytes : list Z) (k : bool -> i2c A)
| IWriteRead (bytes : list Z) (n : nat) (k : option (list Z) -> i2c A).
Arguments IDone {A} a.
Arguments IWrite {A} bytes k.
Arguments IWriteRead {A} bytes n k.

(* mcp7941x_impl.hpp:24-41; the addresses of the registers are in mcp7941x.hpp:80-86 *)
Definition getDateTime : i2c (option DateTime) :=
  IWriteRead [0] 7 (fun r =>
    match r with
    | Some s =>
        IDone (Some (mkDt (decodeBcd (nth 4 s 0)) (decodeBcd (Z.land (nth 5 s 0) 31)) (decodeBcd (nth 6 s 0))
                          (decodeBcd (Z.land (nth 0 s 0) 127)) (decodeBcd (nth 1 s 0)) (decodeBcd (Z.land (nth 2 s 0) 63))))
    | None => IDone None
    end).
(* mcp7941x_impl.hpp:43-64 *)
Definition setDateTime (dt : DateTime) : i2c bool :=
  IWrite [0; 0; encodeBcd (minutes dt); encodeBcd (hours dt); 8; encodeBcd (days dt); encodeBcd (months dt); encodeBcd (years dt)] (fun ok =>
    if negb ok then IDone false
    else IWrite [0; Z.lor (encodeBcd (seconds dt)) 128] (fun ok2 => IDone ok2)).
(* mcp7941x_impl.hpp:66-76 *)
Definition oscillatorRunning : i2c bool :=
  IWriteRead [3] 1 (fun r =>
    match r with
    | Some s => IDone (Z.lor (nth 0 s 0) 32 >? 0)
    | None => IDone false
    end).
