(* Quadrature encoder input and output. Source: src/modm/driver/encoder/bitbang_encoder_input_impl.hpp,
   bitbang_encoder_output_impl.hpp, bitbang_encoder_output.hpp *)
From Verif Require Import Base.

(* bitbang_encoder_input_impl.hpp:20-28; read is the value of the two pins *)
Definition ei_raw (read : Z) : Z :=
  let raw := if Z.land read 2 =? 0 then 0 else 3 in
  if Z.land read 1 =? 0 then raw else Z.lxor raw 1.
(* bitbang_encoder_input.hpp:66-67; delta is a signed type of d bits *)
Record einput := mkEI { ei_last : Z; ei_delta : Z }.
(* bitbang_encoder_input.hpp:51 and bitbang_encoder_input_impl.hpp:32-41: constructor and initialize() with the pins at read *)
Definition ei_init (read : Z) : einput := mkEI (ei_raw read) 0.
(* bitbang_encoder_input_impl.hpp:45-55 *)
Definition ei_update (d : Z) (s : einput) (read : Z) : einput :=
  let raw := ei_raw read in
  let diff := u8 (ei_last s - raw) in
  if Z.land diff 1 =? 0 then s else mkEI raw (swrap d (ei_delta s + (Z.land diff 2 - 1))).
(* bitbang_encoder_input_impl.hpp:59-66; the prescaler is 2^k, >> is arithmetic *)
Definition ei_getDelta (k : Z) (s : einput) : einput * Z := (mkEI (ei_last s) (Z.land (ei_delta s) (2 ^ k - 1)), Z.shiftr (ei_delta s) k).

(* bitbang_encoder_output.hpp:74-80 *)
Inductive ostate := State0 | State1 | State2 | State3.
(* bitbang_encoder_output.hpp:71-81 with the levels of the two pins *)
Record eoutput := mkEO { eo_setpoint : Z; eo_actual : Z; eo_state : ostate; eo_a : bool; eo_b : bool }.
(* bitbang_encoder_output_impl.hpp:20-29 *)
Definition eo_init (v : Z) : eoutput := mkEO v v State0 true true.
(* bitbang_encoder_output.hpp:64-68 *)
Definition eo_setPosition (s : eoutput) (v : Z) : eoutput := mkEO v (eo_actual s) (eo_state s) (eo_a s) (eo_b s).
(* bitbang_encoder_output_impl.hpp:33-85; due is the result of timer.execute(). ++ and -- cannot overflow as they move towards the setpoint *)
Definition eo_update (s : eoutput) (due : bool) : eoutput :=
  if negb due then s
  else if eo_actual s <? eo_setpoint s then
    match eo_state s with
    | State0 => mkEO (eo_setpoint s) (eo_actual s + 1) State1 false (eo_b s)
    | State1 => mkEO (eo_setpoint s) (eo_actual s + 1) State2 (eo_a s) false
    | State2 => mkEO (eo_setpoint s) (eo_actual s + 1) State3 true (eo_b s)
    | State3 => mkEO (eo_setpoint s) (eo_actual s + 1) State0 (eo_a s) true
    end
  else if eo_setpoint s <? eo_actual s then
    match eo_state s with
    | State0 => mkEO (eo_setpoint s) (eo_actual s - 1) State3 (eo_a s) false
    | State1 => mkEO (eo_setpoint s) (eo_actual s - 1) State0 false (eo_b s)
    | State2 => mkEO (eo_setpoint s) (eo_actual s - 1) State1 (eo_a s) true
    | State3 => mkEO (eo_setpoint s) (eo_actual s - 1) State2 true (eo_b s)
    end
  else s.
