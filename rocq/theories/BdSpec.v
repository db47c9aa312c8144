(* What a block device should do, without reference to the driver code: an address space of bytes, ranges, and the requests a device must refuse *)
From Verif Require Import Base CrcSpec BdModel.

(* the byte at address i *)
Definition at_ (m : list Z) (i : Z) : Z := nth (Z.to_nat i) m 0.

(* the address space of N bytes after an operation: the n bytes from a on are given by f, all others are as before *)
Definition becomes (N : Z) (old new : Z -> Z) (a n : Z) (f : Z -> Z) : Prop :=
  forall i, 0 <= i < N -> new i = if (a <=? i) && (i <? a + n) then f i else old i.

(* a list of n bytes shows the address space from a on *)
Definition shows (b : list Z) (m : Z -> Z) (a n : Z) : Prop := zlen b = n /\ forall j, 0 <= j < n -> at_ b j = m (a + j).

(* a request to a device of N bytes with block size B that may be served *)
Definition legal (N B a n : Z) : Prop := 0 < n /\ n mod B = 0 /\ 0 <= a /\ a + n <= N.
(* the arguments are 32-bit numbers and their sum is one, too *)
Definition no_wrap (a n : Z) : Prop := 0 <= a /\ 0 <= n /\ a + n < 2 ^ 32.

(* a flash size a driver can be instantiated with: whole sectors *)
Definition flash_size (F : Z) : Prop := 0 < F < 2 ^ 32 /\ F mod 4096 = 0.
(* the selected die *)
Definition selected (c : chip) (d : die) : Prop := nth_error (c_dies c) (c_sel c) = Some d.
(* a die of F bytes which has been set up: it expects 4 address bytes if and only if it has more than 16 MiB *)
Definition ready (F : Z) (d : die) : Prop := zlen (d_mem d) = F /\ Forall byte (d_mem d) /\ d_adr4 d = (F >? 2 ^ 24).
(* the same die is selected, and no other die has changed *)
Definition only_selected (c c' : chip) : Prop :=
  c_sel c' = c_sel c /\ length (c_dies c') = length (c_dies c) /\
  forall k, k <> c_sel c -> nth_error (c_dies c') k = nth_error (c_dies c) k.

(* a die of F bytes in a package: a small one has not been switched to 4 address bytes *)
Definition die_ok (F : Z) (d : die) : Prop := zlen (d_mem d) = F /\ Forall byte (d_mem d) /\ (F <= 2 ^ 24 -> d_adr4 d = false).
(* the stack: K dies, and the driver knows which one is selected and set up *)
Definition stack_ok (F K : Z) (s : stk) : Prop :=
  zlen (c_dies (s_chip s)) = K /\ Forall (die_ok F) (c_dies (s_chip s)) /\
  s_cur s = Z.of_nat (c_sel (s_chip s)) /\ exists d, selected (s_chip s) d /\ ready F d.
(* sizes of a stack whose addresses a long of 32 bits can hold; the number of dies is an uint8_t *)
Definition stack_size (F K : Z) : Prop := flash_size F /\ F < 2 ^ 31 /\ 0 < K <= 255 /\ K * F <= 2 ^ 31.
(* address i of the stack is byte i mod F of die i / F *)
Definition stack_at (F : Z) (c : chip) (i : Z) : Z := at_ (d_mem (nth (Z.to_nat (i / F)) (c_dies c) (mkDie [] false false 0))) (i mod F).
(* a range that covers a whole die *)
Definition covers_die (F a n : Z) : Prop := exists k, a <= k * F /\ (k + 1) * F <= a + n.
