(* Model of modm/architecture/interface/can_message.hpp.in and modm/driver/can/can_lawicel_formatter.{hpp,cpp} *)
From Verif Require Import Base.

(* can_message.hpp.in:158-173 *)
Record can_msg := mkCan { c_id : Z; c_fd : bool; c_brs : bool; c_rtr : bool; c_ext : bool; c_dlc : Z; c_len : Z; c_data : list Z }.

(* can_message.hpp.in:156 *)
Definition dlcConversionTable : list Z := [0; 1; 2; 3; 4; 5; 6; 7; 8; 12; 16; 20; 24; 32; 48; 64].

(* can_message.hpp.in:120: while (table[inDlc] > capacity) inDlc--; a uint8_t *)
Fixpoint dlc_down (fuel : nat) (capacity inDlc : Z) : option Z :=
  match fuel with
  | O => None
  | S fuel => do t <- znth dlcConversionTable inDlc; if capacity <? t then dlc_down fuel capacity (u8 (inDlc - 1)) else Some inDlc
  end.
(* can_message.hpp.in:117-125; an index of 16 or more is outside the table *)
Definition can_setDataLengthCode (capacity : Z) (m : can_msg) (inDlc : Z) : option can_msg :=
  do inDlc <- dlc_down 17 capacity inDlc;
  do l <- znth dlcConversionTable inDlc;
  Some (mkCan (c_id m) (if 8 <? inDlc then true else c_fd m) (c_brs m) (c_rtr m) (c_ext m) inDlc l (c_data m)).
(* can_message.hpp.in:137: while (table[inDlc] < n) inDlc++ *)
Fixpoint dlc_up (fuel : nat) (n inDlc : Z) : option Z :=
  match fuel with
  | O => None
  | S fuel => do t <- znth dlcConversionTable inDlc; if t <? n then dlc_up fuel n (u8 (inDlc + 1)) else Some inDlc
  end.
(* can_message.hpp.in:127-140 *)
Definition can_setLength (capacity : Z) (m : can_msg) (inLength : Z) : option can_msg :=
  if capacity <=? 8 then
    let l := Z.min inLength capacity in
    Some (mkCan (c_id m) (c_fd m) (c_brs m) (c_rtr m) (c_ext m) l l (c_data m))
  else do d <- dlc_up 17 (Z.min inLength capacity) 0; can_setDataLengthCode capacity m d.
(* can_message.hpp.in:29-33, 161-164, 173 *)
Definition can_new (capacity id inLength : Z) : option can_msg :=
  can_setLength capacity (mkCan id false false false true 0 0 (repeat 0 (Z.to_nat capacity))) inLength.
(* can_message.hpp.in:39-40: data[ii] = inData >> ((7 - ii - (8 - length)) * 8) for ii from i, n of them; the shift is at least 0 here *)
Fixpoint can_copy64 (n : nat) (i : Z) (m : can_msg) (inData : Z) (data : list Z) : option (list Z) :=
  match n with
  | O => Some data
  | S n => do data <- zupd data i (u8 (Z.shiftr inData ((7 - i - (8 - c_len m)) * 8))); can_copy64 n (i + 1) m inData data
  end.
(* can_message.hpp.in:35-41 *)
Definition can_new64 (capacity id inLength inData : Z) (extended : bool) : option can_msg :=
  do m <- can_new capacity id (Z.min inLength 8);
  do data <- can_copy64 (Z.to_nat (c_len m)) 0 m inData (c_data m);
  Some (mkCan (c_id m) (c_fd m) (c_brs m) (c_rtr m) extended (c_dlc m) (c_len m) data).
(* can_message.hpp.in:47-48: data[ii] = inData[ii] *)
Fixpoint can_copy (n : nat) (i : Z) (inData : list Z) (data : list Z) : option (list Z) :=
  match n with
  | O => Some data
  | S n => do b <- znth inData i; do data <- zupd data i b; can_copy n (i + 1) inData data
  end.
(* can_message.hpp.in:43-49: inData is the array behind the pointer *)
Definition can_new_ptr (capacity id inLength : Z) (inData : list Z) (extended : bool) : option can_msg :=
  do m <- can_new capacity id inLength;
  do data <- can_copy (Z.to_nat (c_len m)) 0 inData (c_data m);
  Some (mkCan (c_id m) (c_fd m) (c_brs m) (c_rtr m) extended (c_dlc m) (c_len m) data).
(* can_message.hpp.in:203-208: uint32_t *)
Definition can_lt (a b : can_msg) : bool :=
  u32 (Z.shiftl (c_id a) (if c_ext a then 0 else 18)) <? u32 (Z.shiftl (c_id b) (if c_ext b then 0 else 18)).

(* ---- can_lawicel_formatter ---- *)

(* can_lawicel_formatter.cpp:159-172: value and error *)
Definition charToByte (cc : Z) (error : bool) : Z * bool :=
  if (48 <=? cc) && (cc <=? 57) then (cc - 48, error)
  else if (65 <=? cc) && (cc <=? 70) then (cc - 65 + 10, error)
  else if (97 <=? cc) && (cc <=? 102) then (cc - 97 + 10, error)
  else (0, true).
(* can_lawicel_formatter.cpp:174-182 *)
Definition byteToHex (num : Z) : Z :=
  let num := Z.land num 15 in
  if num <? 10 then 48 + num else 65 + (num - 10).
(* can_lawicel_formatter.hpp:35-39: hexToByte(&mem[i], error) *)
Definition hexToByte (mem : list Z) (i : Z) (error : bool) : option (Z * bool) :=
  do a <- znth mem i; do b <- znth mem (i + 1);
  let (x, error) := charToByte a error in let (y, error) := charToByte b error in
  Some (u8 (Z.lor (Z.shiftl x 4) y), error).
(* can_lawicel_formatter.cpp:94-98: n bytes from index i, characters from index pos *)
Fixpoint lw_data (n : nat) (i : Z) (mem : list Z) (pos : Z) (data : list Z) (error : bool) : option (list Z * bool) :=
  match n with
  | O => Some (data, error)
  | S n => do (b, error) <- hexToByte mem pos error; do data <- zupd data i b; lw_data n (i + 1) mem (pos + 2) data error
  end.
(* can_lawicel_formatter.cpp:22-101: the C string s is followed by its terminator; chars are given as 1..255 *)
Definition convertToCanMessage (s : list Z) (out : can_msg) : option (bool * can_msg) :=
  let mem := s ++ [0] in
  let strlen := zlen s in
  do c0 <- znth mem 0;
  let ext := (c0 =? 82) || (c0 =? 84) in
  let dlc_pos := if ext then 9 else 4 in
  let out := mkCan (c_id out) (c_fd out) (c_brs out) (c_rtr out) ext (c_dlc out) (c_len out) (c_data out) in
  if strlen <? dlc_pos + 1 then Some (false, out)
  else
    do d <- znth mem dlc_pos;
    let len := u8 (d - 48) in
    let out := mkCan (c_id out) (c_fd out) (c_brs out) (c_rtr out) ext len len (c_data out) in
    if 8 <? len then Some (false, out)
    else
      let rtr := (c0 =? 114) || (c0 =? 82) in
      let out := mkCan (c_id out) (c_fd out) (c_brs out) rtr ext len len (c_data out) in
      if (if rtr then negb (strlen =? dlc_pos + 1) else negb (strlen =? len * 2 + dlc_pos + 1)) then Some (false, out)
      else
        do (id, error) <-
          (if ext then
             do (a, error) <- hexToByte mem 1 false;
             do (b, error) <- hexToByte mem 3 error;
             do (c, error) <- hexToByte mem 5 error;
             do (d, error) <- hexToByte mem 7 error;
             Some (u32 (Z.lor (Z.shiftl (u16 (Z.lor (u16 (Z.shiftl a 8)) b)) 16) (u16 (Z.lor (u16 (Z.shiftl c 8)) d))), error)
           else
             do a <- znth mem 1;
             let (x, error) := charToByte a false in
             do (b, error) <- hexToByte mem 2 error;
             Some (u16 (Z.lor (u16 (Z.shiftl x 8)) b), error));
        let out := mkCan id (c_fd out) (c_brs out) rtr ext len len (c_data out) in
        if (if ext then 0x1fffffff <? id else 0x7ff <? id) then Some (false, out)
        else if rtr then Some (negb error, out)
        else
          do (data, error) <- lw_data (Z.to_nat len) 0 mem (dlc_pos + 1) (c_data out) error;
          Some (negb error, mkCan id (c_fd out) (c_brs out) rtr ext len len data).

(* can_lawicel_formatter.cpp:127-131: for (int i = 3; i >= 0; i--), ptr walking over the bytes of the (little-endian) identifier *)
Fixpoint lw_id (n : nat) (id : Z) (out : list Z) : option (list Z) :=
  match n with
  | O => Some out
  | S i =>
      let b := u8 (Z.shiftr id (8 * (3 - Z.of_nat i))) in
      do out <- zupd out (2 * Z.of_nat i + 1) (byteToHex (Z.shiftr b 4));
      do out <- zupd out (2 * Z.of_nat i + 2) (byteToHex b);
      lw_id i id out
  end.
(* can_lawicel_formatter.cpp:147-153: n bytes from index i *)
Fixpoint lw_hex (n : nat) (i : Z) (data : list Z) (begin : Z) (out : list Z) : option (list Z) :=
  match n with
  | O => zupd out (begin + 2 * i) 0
  | S n =>
      do b <- znth data i;
      do out <- zupd out (begin + 2 * i) (byteToHex (Z.shiftr b 4));
      do out <- zupd out (begin + 2 * i + 1) (byteToHex b);
      lw_hex n (i + 1) data begin out
  end.
(* can_lawicel_formatter.cpp:104-157: out is the whole buffer; the result is the buffer afterwards (the function returns true) *)
Definition convertToString (m : can_msg) (out : list Z) : option (list Z) :=
  do out <- zupd out 0 (if c_ext m then if c_rtr m then 82 else 84 else if c_rtr m then 114 else 116);
  do (out, begin) <-
    (if c_ext m then
       do out <- lw_id 4 (c_id m) out;
       do out <- zupd out 9 (byteToHex (c_len m)); do out <- zupd out 10 0; Some (out, 10)
     else
       do out <- zupd out 1 (byteToHex (u8 (Z.shiftr (c_id m) 8)));
       do out <- zupd out 2 (byteToHex (Z.shiftr (u8 (c_id m)) 4));
       do out <- zupd out 3 (byteToHex (u8 (c_id m)));
       do out <- zupd out 4 (byteToHex (c_len m)); do out <- zupd out 5 0; Some (out, 5));
  if c_rtr m then Some out else lw_hex (Z.to_nat (c_len m)) 0 (c_data m) begin out.
