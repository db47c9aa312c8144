(* What the output of a stream should be: numerals in a base, the text of the sequence of things sent to it. *)
From Verif Require Import Base IosModel.

(* the value of a digit 0-9, A-F *)
Definition digit_value (c : Z) : option Z :=
  if (48 <=? c) && (c <=? 57) then Some (c - 48) else if (65 <=? c) && (c <=? 70) then Some (c - 55) else None.
(* reading a numeral, the highest digit first *)
Fixpoint read_from (base acc : Z) (l : list Z) : option Z :=
  match l with
  | [] => Some acc
  | c :: l => match digit_value c with Some d => if d <? base then read_from base (acc * base + d) l else None | None => None end
  end.
Definition numeral (base : Z) (l : list Z) (v : Z) : Prop := l <> [] /\ read_from base 0 l = Some v.
(* a decimal numeral without leading zeros *)
Definition decimal (l : list Z) (v : Z) : Prop := numeral 10 l v /\ (hd 0 l = 48 -> l = [48]).
(* with a minus sign exactly when negative *)
Definition signed_decimal (l : list Z) (v : Z) : Prop := if v <? 0 then exists l', l = 45 :: l' /\ decimal l' (- v) else decimal l v.
(* a value of an integer type *)
Definition of_type (signed : bool) (bits v : Z) : Prop := if signed then - 2 ^ (bits - 1) <= v < 2 ^ (bits - 1) else 0 <= v < 2 ^ bits.
(* the mode which the last manipulator of a sequence leaves *)
Definition sets (i : item) : option mode := match i with Hex => Some Hexadecimal | Bin => Some Binary | Asc | Endl | Flush => Some Ascii | _ => None end.
Definition mode_after (m : mode) (l : list item) : mode := fold_left (fun m i => match sets i with Some m' => m' | None => m end) l m.
(* what one thing looks like in a mode *)
Definition looks (psize : Z) (m : mode) (i : item) (out : list Z) : Prop :=
  match i, m with
  | IBool true, Ascii => out = [116; 114; 117; 101]
  | IBool false, Ascii => out = [102; 97; 108; 115; 101]
  | IBool b, Hexadecimal => length out = 2%nat /\ numeral 16 out (if b then 1 else 0)
  | IBool b, Binary => length out = 1%nat /\ numeral 2 out (if b then 1 else 0)
  | IChar c, Ascii => out = [c]
  | IChar c, Hexadecimal => length out = 2%nat /\ numeral 16 out (c mod 256)
  | IChar c, Binary => length out = 8%nat /\ numeral 2 out (c mod 256)
  | IByte v, Ascii => decimal out v
  | IByte v, Hexadecimal => length out = 2%nat /\ numeral 16 out v
  | IByte v, Binary => length out = 8%nat /\ numeral 2 out v
  | IInt _ bits v, Ascii => signed_decimal out v
  | IInt _ bits v, Hexadecimal => Z.of_nat (length out) = bits / 4 /\ numeral 16 out (v mod 2 ^ bits)
  | IInt _ bits v, Binary => Z.of_nat (length out) = bits /\ numeral 2 out (v mod 2 ^ bits)
  | IText s, _ => exists rest, s = out ++ 0 :: rest /\ ~ In 0 out
  | IPointer p, _ => exists l, out = 48 :: 120 :: l /\ Z.of_nat (length l) = 2 * psize /\ numeral 16 l p
  | IFunction _ p, _ => exists l, out = 48 :: 120 :: l /\ Z.of_nat (length l) = 2 * psize /\ numeral 16 l p
  | Endl, _ => out = [10]
  | (Hex | Bin | Asc | Flush), _ => out = []
  end.
(* things of the C++ types, on a machine with pointers of psize bytes *)
Definition valid (psize : Z) (i : item) : Prop :=
  match i with
  | IChar c => -128 <= c < 256
  | IByte v => 0 <= v < 256
  | IInt sg bits v => (bits = 16 \/ bits = 32 \/ bits = 64) /\ of_type sg bits v
  | IText s => In 0 s
  | IPointer p => 0 <= p < 2 ^ (8 * psize)
  | IFunction slot p => 0 <= slot < 2 ^ (8 * psize) /\ 0 <= p < 2 ^ (8 * psize)
  | _ => True
  end.
Definition not_function (i : item) : Prop := match i with IFunction _ _ => False | _ => True end.
(* the text of a sequence is the texts of its things, each in the mode in force *)
Inductive text (psize : Z) : mode -> list item -> list Z -> Prop :=
| text_nil m : text psize m [] []
| text_cons m i l out rest : looks psize m i out -> text psize (mode_after m [i]) l rest -> text psize m (i :: l) (out ++ rest).
(* of the characters of s, offered one per call from call k on, those which the device takes *)
Definition taken (accepts : nat -> bool) (k : nat) (s : list Z) : list Z :=
  map snd (filter (fun p => accepts (fst p)) (combine (seq k (length s)) s)).
