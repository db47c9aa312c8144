(* Cyclic redundancy codes as polynomial division over GF(2), independent of any shift register. *)
From Verif Require Import Base.

(* A polynomial over GF(2) is a non-negative Z, bit i being the coefficient of x^i; addition is lxor. *)
(* carry-less product *)
Fixpoint pmul (p : positive) (b : Z) : Z :=
  match p with
  | xH => b
  | xO q => 2 * pmul q b
  | xI q => Z.lxor b (2 * pmul q b)
  end.
Definition clmul (a b : Z) : Z := match a with Zpos p => pmul p b | _ => 0 end.

(* a and b leave the same remainder modulo g *)
Definition congr (g a b : Z) : Prop := exists q, 0 <= q /\ Z.lxor a b = clmul q g.

(* the polynomial whose coefficients are the given bits, highest first *)
Definition poly_of (bits : list bool) : Z := fold_left (fun acc (b : bool) => 2 * acc + Z.b2z b) bits 0.

(* bits of a byte in the order least significant first (the order on a serial line) *)
Definition bits_lsb (n : nat) (v : Z) : list bool := map (fun i => Z.testbit v (Z.of_nat i)) (seq 0 n).
Definition stream (bytes : list Z) : list bool := flat_map (bits_lsb 8) bytes.

(* [crc_value n g init msg r]: r (degree < n) is the remainder of  init*x^|msg| + msg*x^n  modulo g, i.e. the
   CRC of the message with the register preset to init. *)
Definition crc_value (n : Z) (g init : Z) (msg : list bool) (r : Z) : Prop :=
  0 <= r < 2 ^ n /\
  congr g (Z.lxor (Z.shiftl init (zlen msg)) (Z.shiftl (poly_of msg) n)) r.

Definition byte (b : Z) : Prop := 0 <= b < 256.
(* The value of an n bit register read least significant bit first (reflected convention). *)
Definition reflect (n : nat) (r : Z) : Z := poly_of (bits_lsb n r).

(* bits of a byte most significant first *)
Definition stream_msb (bytes : list Z) : list bool := flat_map (fun v => rev (bits_lsb 8 v)) bytes.

(* number of positions in which two bit strings differ *)
Fixpoint hamming (a b : list bool) : nat :=
  match a, b with
  | x :: a', y :: b' => (if xorb x y then 1 else 0) + hamming a' b'
  | _, _ => 0
  end%nat.

(* the error detection guarantees of a checksum function [f] on byte strings, n being its width *)
Definition detects_bursts (n : Z) (f : list Z -> Z) : Prop :=
  forall a b pre d1 d2 post, Forall byte a -> Forall byte b ->
    stream a = pre ++ d1 ++ post -> stream b = pre ++ d2 ++ post ->
    zlen d1 = zlen d2 -> zlen d1 <= n -> d1 <> d2 -> f a <> f b.
Definition detects_odd (f : list Z -> Z) : Prop :=
  forall a b, Forall byte a -> Forall byte b -> zlen a = zlen b ->
    Nat.odd (hamming (stream a) (stream b)) = true -> f a <> f b.
Definition detects_double (period : Z) (f : list Z -> Z) : Prop :=
  forall a b pre x mid y post, Forall byte a -> Forall byte b ->
    stream a = pre ++ [x] ++ mid ++ [y] ++ post ->
    stream b = pre ++ [negb x] ++ mid ++ [negb y] ++ post ->
    zlen mid + 1 < period -> f a <> f b.

Ltac bytes := repeat (apply Forall_cons; [unfold byte; lia|]); apply Forall_nil.
