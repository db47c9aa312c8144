(* 1-Wire search. Source: src/modm/platform/one_wire/bitbang/bitbang_master_impl.hpp.in. A ROM code and the buffer are lists of 8 bytes.
   The electrical time slots are replaced by the devices they drive (the bus below, the only thing here that is not code of the master) *)
From Verif Require Import Base CrcModel.

(* ---- the devices on the bus: what a 1-Wire slave does during the search command ---- *)
(* environment of bitbang_master_impl.hpp.in:276-346. A device sends its bit i, then the complement, then takes part
   further if the master answers with the same bit *)
Inductive dstate := DIdle | DSend (i : nat) | DComp (i : nat) | DRecv (i : nat).
(* environment: bit i of a ROM code, least significant bit of each byte first (as writeByte, bitbang_master_impl.hpp.in:86-96) *)
Definition dbit (rom : list Z) (i : nat) : bool := Z.testbit (nth (i / 8) rom 0) (Z.of_nat (i mod 8)).
(* environment of bitbang_master_impl.hpp.in:276-346 *)
Definition bus := list (list Z * dstate).
(* environment of bitbang_master_impl.hpp.in:276 and 286: touchReset() and writeByte(0xF0) *)
Definition bus_search (devs : list (list Z)) : bus := map (fun d => (d, DSend 0)) devs.
(* environment of bitbang_master_impl.hpp.in:68-83: the level a device allows in a read slot; the bus is low if one device pulls it low *)
Definition d_level (d : list Z * dstate) : bool := match snd d with DSend i => dbit (fst d) i | DComp i => negb (dbit (fst d) i) | _ => true end.
(* environment of bitbang_master_impl.hpp.in:68-83: what the device does next. A read slot looks like a written 1 *)
Definition d_read (d : list Z * dstate) : list Z * dstate :=
  (fst d, match snd d with DIdle => DIdle | DSend i => DComp i | DComp i => DRecv i | DRecv i => if dbit (fst d) i then DSend (S i) else DIdle end).
(* bitbang_master_impl.hpp.in:68-83 readBit() *)
Definition bus_read (b : bus) : bool * bus := (forallb d_level b, map d_read b).
(* environment of bitbang_master_impl.hpp.in:48-66: a written 0 in a slot in which the device sends makes it give up *)
Definition d_write (bit : bool) (d : list Z * dstate) : list Z * dstate :=
  if bit then d_read d else (fst d, match snd d with DRecv i => if dbit (fst d) i then DIdle else DSend (S i) | _ => DIdle end).
(* bitbang_master_impl.hpp.in:48-66 writeBit() *)
Definition bus_write (bit : bool) (b : bus) : bus := map (d_write bit) b.

(* ---- the master ---- *)
(* bitbang_master_impl.hpp.in:23-27; crc8 is only used within performSearch and a parameter of the loop *)
Record owst := mkOW { ow_ld : Z; ow_lfd : Z; ow_flag : bool; ow_rom : list Z }.
(* bitbang_master_impl.hpp.in:142-150 *)
Definition ow_resetSearch (s : owst) : owst := mkOW 0 0 false (ow_rom s).
(* bitbang_master_impl.hpp.in:152-165 *)
Definition ow_resetSearchFamily (f : Z) : owst := mkOW 64 0 false [f; 0; 0; 0; 0; 0; 0; 0].
(* bitbang_master_impl.hpp.in:298-362: the loop. None: access outside romBuffer (or more rounds than fuel). The result is idBitNumber,
   lastZeroBit, crc8, lastFamilyDiscrepancy and romBuffer *)
Fixpoint ow_loop (fuel : nat) (b : bus) (ld idBitNumber lastZeroBit romByteNumber romByteMask crc lfd : Z) (rom : list Z) : option (Z * Z * Z * Z * list Z) :=
  match fuel with
  | O => None
  | S fuel =>
      let (idBit, b) := bus_read b in
      let (complementIdBit, b) := bus_read b in
      if idBit && complementIdBit then Some (idBitNumber, lastZeroBit, crc, lfd, rom)
      else
        do cur <- znth rom romByteNumber;
        let discrepancy := Bool.eqb idBit complementIdBit in
        let searchDirection :=
          if negb discrepancy then idBit
          else if idBitNumber <? ld then 0 <? Z.land cur romByteMask
          else idBitNumber =? ld in
        let zero := discrepancy && negb searchDirection in
        let lastZeroBit := if zero then idBitNumber else lastZeroBit in
        let lfd := if zero && (lastZeroBit <? 9) then lastZeroBit else lfd in
        let cur := if searchDirection then Z.lor cur romByteMask else Z.land cur (u8 (Z.lnot romByteMask)) in
        do rom <- zupd rom romByteNumber cur;
        let b := bus_write searchDirection b in
        let idBitNumber := u8 (idBitNumber + 1) in
        let romByteMask := u8 (Z.shiftl romByteMask 1) in
        if romByteMask =? 0 then
          let crc := sab_crcUpdate crc cur in
          let romByteNumber := u8 (romByteNumber + 1) in
          if romByteNumber <? 8 then ow_loop fuel b ld idBitNumber lastZeroBit romByteNumber 1 crc lfd rom
          else Some (idBitNumber, lastZeroBit, crc, lfd, rom)
        else if romByteNumber <? 8 then ow_loop fuel b ld idBitNumber lastZeroBit romByteNumber romByteMask crc lfd rom
        else Some (idBitNumber, lastZeroBit, crc, lfd, rom)
  end.
(* bitbang_master_impl.hpp.in:266-387 for the devices devs; the reset finds a presence pulse if there is a device. At most 64 rounds *)
Definition ow_performSearch (devs : list (list Z)) (s : owst) : option (owst * bool) :=
  if ow_flag s then Some (mkOW 0 0 false (ow_rom s), false)
  else if match devs with [] => true | _ => false end then Some (mkOW 0 0 false (ow_rom s), false)
  else
    do (idBitNumber, lastZeroBit, crc, lfd, rom) <- ow_loop 64 (bus_search devs) (ow_ld s) 1 0 0 1 0 (ow_lfd s) (ow_rom s);
    let found := negb ((idBitNumber <? 65) || negb (crc =? 0)) in
    do first <- znth rom 0;
    if negb found || (first =? 0) then Some (mkOW 0 0 false rom, false)
    else Some (mkOW lastZeroBit lfd (lastZeroBit =? 0) rom, true).
(* bitbang_master_impl.hpp.in:167-179: the new contents of rom, if a device is found *)
Definition ow_searchNext (devs : list (list Z)) (s : owst) : option (owst * option (list Z)) :=
  do (s, r) <- ow_performSearch devs s;
  Some (s, if r : bool then Some (ow_rom s) else None).
(* bitbang_master_impl.hpp.in:181-193 *)
Definition ow_skipFamily (s : owst) : owst := mkOW (ow_lfd s) 0 (if ow_lfd s =? 0 then true else ow_flag s) (ow_rom s).
(* bitbang_master_impl.hpp.in:195-241 *)
Definition ow_verifyDevice (devs : list (list Z)) (s : owst) (rom : list Z) : option (owst * bool) :=
  do (s', r) <- ow_performSearch devs (mkOW 64 (ow_lfd s) false (ow_rom s));
  Some (s, if r : bool then if list_eq_dec Z.eq_dec rom (ow_rom s') then true else false else false).
