(* Model of modm::SmartPointer: /repo/src/modm/container/smart_pointer.{hpp,cpp}.
   The allocated blocks of all handles form a heap of byte arrays addressed by pointers; a byte is None as long as it has not been
   written. A handle is the value of its member ptr (smart_pointer.hpp:128). None as a result means undefined behaviour: an access
   outside a block or to a released block, or the use of an indeterminate reference count or size. Multi-byte values are stored
   with the least significant byte first. The argument al of the allocating operations is the address operator new returns when
   the given addresses are in use. *)
From Verif Require Import Base PtrHeap.

Section SmartPointer.
Variable w : Z.  (* bits of the type in which size + 4 is computed: 16 on AVR, 32 otherwise *)

(* the blocks, smart_pointer.hpp:128 *)
Definition sheap : Type := list (Z * list (option Z)).
(* ptr[i], e.g. smart_pointer.cpp:45 *)
Definition s_read (h : sheap) (p i : Z) : option Z := do b <- hget h p; do c <- znth b i; c.
(* ptr[i] = v, e.g. smart_pointer.cpp:23 *)
Definition s_write (h : sheap) (p i v : Z) : option sheap := do b <- hget h p; do b <- zupd b i (Some v); hset h p b.
(* new uint8_t[n], smart_pointer.cpp:21,37 and smart_pointer.hpp:58 *)
Definition s_allocate (h : sheap) (al : list Z -> Z) (n : Z) : option (sheap * Z) :=
  let p := al (keys h) in do h <- hnew h p (repeat None (Z.to_nat n)); Some (h, p).
(* *reinterpret_cast<uint16_t*>(ptr + 2) = n, smart_pointer.cpp:40 and smart_pointer.hpp:61 *)
Definition s_write_size (h : sheap) (p n : Z) : option sheap := do h <- s_write h p 2 (u16 n mod 256); s_write h p 3 (u16 n / 256).
(* std::memcpy(ptr + i, data, length of data), smart_pointer.hpp:62 *)
Fixpoint s_memcpy (h : sheap) (p i : Z) (data : list Z) : option sheap :=
  match data with
  | [] => Some h
  | v :: data => do h <- s_write h p i v; s_memcpy h p (i + 1) data
  end.

(* smart_pointer.cpp:20-26 *)
Definition sp_new (h : sheap) (al : list Z -> Z) : option (sheap * Z) :=
  do (h, p) <- s_allocate h al 5;
  do h <- s_write h p 0 1; do h <- s_write h p 2 0; do h <- s_write h p 3 0; Some (h, p).
(* smart_pointer.cpp:36-41 *)
Definition sp_new_size (h : sheap) (size : Z) (al : list Z -> Z) : option (sheap * Z) :=
  do (h, p) <- s_allocate h al (if size =? 0 then 5 else wrap w (size + 4));
  do h <- s_write h p 0 1; do h <- s_write_size h p size; Some (h, p).
(* smart_pointer.hpp:56-63; data are the bytes of *data *)
Definition sp_new_data (h : sheap) (data : list Z) (al : list Z -> Z) : option (sheap * Z) :=
  do (h, p) <- s_allocate h al (wrap w (zlen data + 4));
  do h <- s_write h p 0 1; do h <- s_write_size h p (zlen data); do h <- s_memcpy h p 4 data; Some (h, p).
(* ptr[0]++, smart_pointer.cpp:31,65 *)
Definition sp_acquire (h : sheap) (p : Z) : option sheap := do c <- s_read h p 0; s_write h p 0 (u8 (c + 1)).
(* smart_pointer.cpp:45-47,60-62 *)
Definition sp_release (h : sheap) (p : Z) : option sheap :=
  do c <- s_read h p 0; do h <- s_write h p 0 (u8 (c - 1)); if u8 (c - 1) =? 0 then hdel h p else Some h.
(* smart_pointer.cpp:28-32; other.ptr is q *)
Definition sp_copy (h : sheap) (q : Z) : option (sheap * Z) := do h <- sp_acquire h q; Some (h, q).
(* smart_pointer.cpp:43-48 *)
Definition sp_delete (h : sheap) (p : Z) : option sheap := sp_release h p.
(* smart_pointer.cpp:57-68; p is this->ptr and q is other.ptr *)
Definition sp_assign (h : sheap) (p q : Z) : option (sheap * Z) := do h <- sp_release h p; do h <- sp_acquire h q; Some (h, q).
(* smart_pointer.cpp:51-55 *)
Definition sp_equal (p q : Z) : bool := p =? q.
(* smart_pointer.hpp:81-85 *)
Definition sp_getSize (h : sheap) (p : Z) : option Z := do l <- s_read h p 2; do m <- s_read h p 3; Some (l + 256 * m).
(* getPointer()[i], smart_pointer.hpp:69-79 *)
Definition sp_at (h : sheap) (p i : Z) : option Z := s_read h p (4 + i).
(* getPointer()[i] = v, smart_pointer.hpp:75-79 *)
Definition sp_put (h : sheap) (p i v : Z) : option sheap := s_write h p (4 + i) v.
(* the n bytes of *reinterpret_cast<T*>(ptr + i), smart_pointer.hpp:98,113 *)
Fixpoint s_bytes (h : sheap) (p i : Z) (n : nat) : option (list (option Z)) :=
  match n with
  | O => Some []
  | S n => do b <- hget h p; do c <- znth b i; do r <- s_bytes h p (i + 1) n; Some (c :: r)
  end.
(* smart_pointer.hpp:107-119; n = sizeof(T); Some None: returns false *)
Definition sp_get (h : sheap) (p n : Z) : option (option (list (option Z))) :=
  do size <- sp_getSize h p;
  if n =? size then do d <- s_bytes h p 4 (Z.to_nat n); Some (Some d) else Some None.
(* smart_pointer.cpp:75-78; the bytes written to the stream. None: still running after fuel rounds, or undefined *)
Fixpoint sp_print_loop (fuel : nat) (h : sheap) (p i : Z) : option (list (option Z)) :=
  match fuel with
  | O => None
  | S f =>
      do size <- sp_getSize h p;
      if i <? size + 4 then do b <- hget h p; do c <- znth b i; do r <- sp_print_loop f h p (u8 (i + 1)); Some (c :: r) else Some []
  end.
(* smart_pointer.cpp:71-81 *)
Definition sp_print (fuel : nat) (h : sheap) (p : Z) : option (list (option Z)) := sp_print_loop fuel h p 4.

End SmartPointer.
