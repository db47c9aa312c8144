(* Model of the output stream and its devices: /repo/src/modm/io/iostream.hpp.in (iostream.hpp), iostream.cpp, iostream_printf.cpp.in and
   iodevice_wrapper.hpp. Characters are their codes. print_integer of the printf library (not part of the repository) is taken to write the decimal digits of
   its argument after an optional minus sign, without leading zeros. Floating point and printf are left out. *)
From Verif Require Import Base.

(* iostream.hpp:279-285 *)
Inductive mode := Ascii | Hexadecimal | Binary.
(* fn_nibble in writeHex, iostream.cpp:64-67; the sum is int, the parameter of write is char *)
Definition nibble (n : Z) : Z := u8 (n + (if n >? 9 then 65 - 10 else 48)).
(* iostream.cpp:61-70 *)
Definition writeHex (value : Z) : list Z := [nibble (Z.shiftr value 4); nibble (Z.land value 15)].
(* the loop of writeBin, iostream.cpp:76-80 *)
Fixpoint bin_loop (n : nat) (value : Z) : list Z :=
  match n with O => [] | S n => (if negb (Z.land value 128 =? 0) then 49 else 48) :: bin_loop n (u8 (Z.shiftl value 1)) end.
(* iostream.cpp:73-81 *)
Definition writeBin (value : Z) : list Z := bin_loop 8 value.
(* the loops for (uint8_t ii = bits - 8; ii < bits; ii -= 8) in iostream.hpp:251-255 and iostream.cpp:98-104; u is the unsigned value. None: out of fuel. *)
Fixpoint byte_loop (fuel : nat) (f : Z -> list Z) (bits u ii : Z) : option (list Z) :=
  if ii <? bits then
    match fuel with O => None | S fuel => do l <- byte_loop fuel f bits u (u8 (ii - 8)); Some (f (u8 (Z.shiftr u ii)) ++ l) end
  else Some [].
(* decimal digits, lowest first; print_integer of the printf library (see above), called in iostream_printf.cpp.in:76-142 *)
Fixpoint digits (fuel : nat) (x : Z) : list Z := match fuel with O => [] | S fuel => (48 + x mod 10) :: if x <? 10 then [] else digits fuel (x / 10) end.
(* print_integer with base 10, iostream_printf.cpp.in:76-142 *)
Definition print_integer (value : Z) (negative : bool) : list Z := (if negative then [45] else []) ++ rev (digits 20 value).
(* writeInteger for the signed and unsigned types of 16, 32 and 64 bits, iostream_printf.cpp.in:76-142; negation of the smallest value wraps
   (int16_t is promoted to int) *)
Definition writeInteger (signed : bool) (bits value : Z) : list Z :=
  if signed then print_integer (wrap bits (if value <? 0 then swrap (Z.max bits 32) (- value) else value)) (value <? 0) else print_integer value false.
(* iostream.hpp:243-257; the loops run sizeof(T) times *)
Definition writeIntegerMode (m : mode) (signed : bool) (bits value : Z) : option (list Z) :=
  match m with
  | Ascii => Some (writeInteger signed bits value)
  | Binary => byte_loop 256 writeBin bits (wrap bits value) (u8 (bits - 8))
  | Hexadecimal => byte_loop 256 writeHex bits (wrap bits value) (u8 (bits - 8))
  end.
(* writePointer for pointers of 2, 4 and 8 bytes, iostream.cpp:84-107 *)
Definition writePointer (size value : Z) : option (list Z) :=
  if size =? 2 then Some ([48; 120] ++ writeHex (u8 (Z.shiftr value 8)) ++ writeHex (u8 value))
  else do l <- byte_loop 256 writeHex (8 * size) value (8 * size - 8); Some ([48; 120] ++ l).

(* IODevice::write of a string: s is the memory from str on; None: it reads past the end of s. iodevice.hpp:36-42 *)
Fixpoint write_string (s : list Z) : option (list Z) := match s with [] => None | c :: s => if c =? 0 then Some [] else do l <- write_string s; Some (c :: l) end.

(* what is sent to the stream: bool, char, uint8_t, the integers, strings, data pointers, function pointers (with the address of the parameter in which the
   operator receives the pointer), and the manipulators; iostream.hpp:100-230,305-327 *)
Inductive item := IBool (b : bool) | IChar (c : Z) | IByte (v : Z) | IInt (signed : bool) (bits value : Z) | IText (s : list Z) | IPointer (p : Z) | IFunction (slot p : Z)
  | Hex | Bin | Asc | Endl | Flush.
(* the new mode and the characters written; iostream.hpp:100-230, iostream.cpp:42-58 *)
Definition put (psize : Z) (m : mode) (i : item) : option (mode * list Z) :=
  match i with
  | IBool b => Some (m, match m with Ascii => if b then [116; 114; 117; 101] else [102; 97; 108; 115; 101]
                             | Hexadecimal => [48; if b then 49 else 48] | Binary => [if b then 49 else 48] end)
  | IChar c => Some (m, match m with Ascii => [c] | Binary => writeBin (u8 c) | Hexadecimal => writeHex (u8 c) end)
  | IByte v => Some (m, match m with Ascii => writeInteger false 16 v | Binary => writeBin v | Hexadecimal => writeHex v end)
  | IInt sg bits v => do l <- writeIntegerMode m sg bits v; Some (m, l)
  | IText s => do l <- write_string s; Some (m, l)
  | IPointer p => do l <- writePointer psize p; Some (m, l)
  | IFunction slot p => do l <- writePointer psize slot; Some (m, l)
  | Hex => Some (Hexadecimal, [])
  | Bin => Some (Binary, [])
  | Asc => Some (Ascii, [])
  | Endl => Some (Ascii, [10])
  | Flush => Some (Ascii, [])
  end.
(* a << b << c, iostream.hpp:132-230 *)
Fixpoint put_all (psize : Z) (m : mode) (l : list item) : option (mode * list Z) :=
  match l with
  | [] => Some (m, [])
  | i :: l => do r <- put psize m i; do r' <- put_all psize (fst r) l; Some (fst r', snd r ++ snd r')
  end.

(* IODeviceWrapper::write, iodevice_wrapper.hpp:46-55,79-88. A device: accepts k says whether its k-th call of write takes the character; k counts calls.
   The result is the number of calls and what was taken. None: out of fuel (blocks). *)
Fixpoint wrapper_write (fuel : nat) (block : bool) (accepts : nat -> bool) (k : nat) (c : Z) : option (nat * list Z) :=
  match fuel with
  | O => None
  | S fuel => if accepts k then Some (S k, [c]) else if block then wrapper_write fuel block accepts (S k) c else Some (S k, [])
  end.
(* writing characters one after another through the wrapper, iodevice.hpp:36-42, iodevice_wrapper.hpp:46-55 *)
Fixpoint wrapper_text (fuel : nat) (block : bool) (accepts : nat -> bool) (k : nat) (s : list Z) : option (nat * list Z) :=
  match s with
  | [] => Some (k, [])
  | c :: s => do r <- wrapper_write fuel block accepts k c; do r' <- wrapper_text fuel block accepts (fst r) s; Some (fst r', snd r ++ snd r')
  end.
(* IOStream::get: input is what the device has; the buffer has n characters; None: write outside; iostream.cpp:22-39 *)
Fixpoint get_loop (k : nat) (input buf : list Z) (ii : Z) : option (list Z * list Z) :=
  match k, input with
  | S k, c :: input => do b <- zupd buf ii c; get_loop k input b (ii + 1)
  | _, _ => do b <- zupd buf ii 0; Some (b, input)
  end.
(* iostream.cpp:22-39 *)
Definition get (input buf : list Z) (n : nat) : option (list Z * list Z) := match n with O => Some (buf, input) | S n => get_loop n input buf 0 end.
