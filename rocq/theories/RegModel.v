(* Register bit fields. Source: src/modm/architecture/interface/register.hpp. The underlying type has w bits (8, 16 or 32); an operation on
   it is computed in a type at least as wide and converted back, which is the wrap below. In a shift by Position the operand is promoted
   to int (32 bits) when w < 32, which loses no bit that survives the conversion back *)
From Verif Require Import Base.

(* register.hpp:166 operator~ *)
Definition rg_not (w v : Z) : Z := wrap w (Z.lnot v).
(* register.hpp:181-185 operator&= / |= / ^= *)
Definition rg_and (v o : Z) : Z := Z.land v o.
(* register.hpp:181-185 *)
Definition rg_or (v o : Z) : Z := Z.lor v o.
(* register.hpp:181-185 *)
Definition rg_xor (v o : Z) : Z := Z.lxor v o.

(* register.hpp:332-336: Flags::set *)
Definition fl_set (v o : Z) : Z := rg_or v o.
(* register.hpp:339-343: Flags::reset *)
Definition fl_reset (w v o : Z) : Z := rg_and v (rg_not w o).
(* register.hpp:346-350: Flags::toggle *)
Definition fl_toggle (v o : Z) : Z := rg_xor v o.
(* register.hpp:353-364: Flags::update *)
Definition fl_update (w v o : Z) (b : bool) : Z := if b then rg_or v o else rg_and v (rg_not w o).
(* register.hpp:369-370: Flags::all for a single enum value *)
Definition fl_all_enum (v e : Z) : bool := negb (rg_and v e =? 0).
(* register.hpp:372-373: Flags::any for a single enum value *)
Definition fl_any_enum (v e : Z) : bool := negb (rg_and v e =? 0).
(* register.hpp:375-376: Flags::none for a single enum value *)
Definition fl_none_enum (v e : Z) : bool := rg_and v e =? 0.
(* register.hpp:382-383: Flags::all *)
Definition fl_all (v o : Z) : bool := rg_and v o =? o.
(* register.hpp:385-386: Flags::any *)
Definition fl_any (v o : Z) : bool := negb (rg_and v o =? 0).
(* register.hpp:388-389: Flags::none *)
Definition fl_none (v o : Z) : bool := rg_and v o =? 0.

(* register.hpp:572-576: Configuration(config) *)
Definition cf_make (w pos config : Z) : Z := wrap w (Z.shiftl config pos).
(* register.hpp:586-587: Configuration::set *)
Definition cf_set (w mask pos v config : Z) : Z := wrap w (Z.lor (Z.land v (Z.lnot (Z.shiftl mask pos))) (Z.shiftl config pos)).
(* register.hpp:590-591: Configuration::reset *)
Definition cf_reset (w mask pos v : Z) : Z := wrap w (Z.land v (Z.lnot (Z.shiftl mask pos))).
(* register.hpp:594-595: Configuration::get *)
Definition cf_get (mask pos v : Z) : Z := Z.shiftr (Z.land v (Z.shiftl mask pos)) pos.
(* register.hpp:599-600: Configuration::mask *)
Definition cf_mask (w mask pos : Z) : Z := wrap w (Z.shiftl mask pos).

(* register.hpp:637: Value::Mask; 1 << Width is an int, so that Width = 31 and beyond is left aside (undefined or overflowing) *)
Definition vl_mask (w width pos : Z) : Z := wrap w (Z.shiftl (Z.shiftl 1 width - 1) pos).
(* register.hpp:640-641: Value(config) *)
Definition vl_make (w width pos config : Z) : Z := wrap w (Z.land (Z.shiftl config pos) (vl_mask w width pos)).
(* register.hpp:651-652: Value::set *)
Definition vl_set (w width pos v config : Z) : Z := wrap w (Z.lor (Z.land v (Z.lnot (vl_mask w width pos))) (Z.land (Z.shiftl config pos) (vl_mask w width pos))).
(* register.hpp:655-656: Value::reset *)
Definition vl_reset (w width pos v : Z) : Z := wrap w (Z.land v (Z.lnot (vl_mask w width pos))).
(* register.hpp:659-660: Value::get *)
Definition vl_get (w width pos v : Z) : Z := Z.shiftr (Z.land v (vl_mask w width pos)) pos.
