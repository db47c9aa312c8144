(* What a client may do with the TLSF heap and what it may expect, independently of the lists and bitmaps inside.
   A heap is used with the memory pools P (address and length of each) and the live blocks A (pointer and requested size of each). *)
From Verif Require Import Base TlsfModel.

(* the configurations of /repo/ext/tlsf/module.lb:70-71 *)
Definition configuration (K F : Z) : Prop := 4 <= K <= 5 /\ 12 <= F <= 29.
(* bytes of control_t: the null block, the two bitmaps and the list heads, /repo/ext/tlsf/tlsf.c.in:363-374 *)
Definition ctl_bytes (K F : Z) : Z := 16 + 4 + 4 * FLC K F + 4 * (FLC K F * SLC K).

(* sizes are rounded up to words and to the smallest block *)
Definition rounded (size : Z) : Z := Z.max ((size + 3) / 4 * 4) 12.
(* the largest request that is handled: the start of the last size class *)
Definition max_request (K F : Z) : Z := 2 ^ F - 2 ^ (F - 1 - K).
(* what is searched for when an alignment of 2^e is requested *)
Definition rounded_for (e size : Z) : Z := if e <=? 2 then rounded size else (rounded size + 2 ^ e + 16 + 2 ^ e - 1) / 2 ^ e * 2 ^ e.

(* requests that are handled, or are too large for every block and refused *)
Definition request_ok (K F size : Z) : Prop := 0 <= size <= max_request K F \/ 2 ^ F <= size < 2 ^ 32.
Definition aligned_request_ok (K F e size : Z) : Prop :=
  0 <= e <= 30 /\ (size = 0 \/ 2 ^ F <= size < 2 ^ 32 \/
   0 < size < 2 ^ F /\ ((2 < e /\ 2 ^ F <= rounded size + 2 ^ e + 16) \/ rounded_for e size <= max_request K F)).

Definition apart (a n b m : Z) : Prop := a + n <= b \/ b + m <= a.
(* memory that may be handed to the heap *)
Definition pool_ok (K F ctl : Z) (P : list (Z * Z)) (base bytes : Z) : Prop :=
  base mod 4 = 0 /\ 8 <= base /\ 20 <= bytes /\ bytes < 2 ^ F + 8 /\ base + bytes <= 2 ^ 32 /\
  apart base bytes ctl (ctl_bytes K F) /\ forall b n, In (b, n) P -> apart base bytes b n.

(* the address belongs to a live block, or neither to a pool nor to the heap itself *)
Definition owned (A : list (Z * Z)) (a : Z) : Prop := exists p n, In (p, n) A /\ p <= a < p + n.
Definition foreign (K F ctl : Z) (P : list (Z * Z)) (a : Z) : Prop := (a < ctl \/ ctl + ctl_bytes K F <= a) /\ forall b n, In (b, n) P -> a < b \/ b + n <= a.
Definition drop (p : Z) (A : list (Z * Z)) : list (Z * Z) := filter (fun x => negb (fst x =? p)) A.
Definition take (p size : Z) (A : list (Z * Z)) : list (Z * Z) := if p =? 0 then A else (p, size) :: A.

(* The executions of a client that keeps to the rules: it frees and resizes only live blocks and writes only to live blocks and to memory
   that has nothing to do with the heap. *)
Inductive reach (K F ctl : Z) : st -> list (Z * Z) -> list (Z * Z) -> Prop :=
| r_create m : reach K F ctl (control_construct ctl m) [] []
| r_pool s P A base bytes s' p : reach K F ctl s P A -> pool_ok K F ctl P base bytes -> tlsf_add_pool K F ctl s base bytes = Some (s', p) ->
    reach K F ctl s' ((base, bytes) :: P) A
| r_malloc s P A size s' p : reach K F ctl s P A -> request_ok K F size -> tlsf_malloc K F ctl s size = Some (s', p) -> reach K F ctl s' P (take p size A)
| r_memalign s P A e size s' p : reach K F ctl s P A -> aligned_request_ok K F e size -> tlsf_memalign K F ctl s (2 ^ e) size = Some (s', p) ->
    reach K F ctl s' P (take p size A)
| r_free s P A p n s' : reach K F ctl s P A -> In (p, n) A -> tlsf_free K F ctl s p = Some s' -> reach K F ctl s' P (drop p A)
| r_realloc s P A p n size s' q : reach K F ctl s P A -> In (p, n) A -> 0 < size <= max_request K F -> tlsf_realloc K F ctl s p size = Some (s', q) ->
    reach K F ctl s' P (if q =? 0 then A else (q, size) :: drop p A)
| r_write s P A a v : reach K F ctl s P A -> a mod 4 = 0 -> owned A a \/ foreign K F ctl P a -> reach K F ctl (wr s a v) P A.

(* a block of that size handed out at p *)
Definition within (P : list (Z * Z)) (p size : Z) : Prop := exists b n, In (b, n) P /\ b + 4 <= p /\ p + size <= b + n - 4.
Definition fresh (P A : list (Z * Z)) (p size : Z) : Prop :=
  p <> 0 /\ p mod 4 = 0 /\ within P p size /\ forall q n, In (q, n) A -> apart p size q n.
(* nothing outside the heap's own memory changes *)
Definition untouched (K F ctl : Z) (P A : list (Z * Z)) (s s' : st) : Prop := forall a, owned A a \/ foreign K F ctl P a -> mem s' a = mem s a.

(* The physical blocks of a pool, as a walk over its memory finds them: a word with the size and two flags, then the payload. *)
Definition size_at (s : st) (b : Z) : Z := mem s (b + 4) / 4 * 4.
Definition free_at (s : st) (b : Z) : bool := Z.odd (mem s (b + 4)).
Inductive walk (s : st) (base : Z) : Z -> Prop :=
| w_first : walk s base (base - 4)
| w_next b : walk s base b -> size_at s b <> 0 -> walk s base (b + 4 + size_at s b).
(* a free block large enough: more than the request by one part in 2^K at most *)
Definition suitable (K : Z) (P : list (Z * Z)) (s : st) (size : Z) : Prop :=
  exists base bytes b, In (base, bytes) P /\ walk s base b /\ free_at s b = true /\ (2 ^ K + 1) * size <= 2 ^ K * size_at s b.
