(* Model of modm::DynamicArray with modm::allocator::Dynamic: /repo/src/modm/container/dynamic_array{,_impl,_iterator_impl}.hpp
   and /repo/src/modm/utils/allocator.hpp. The buffers allocated by all arrays form a heap addressed by pointers; every cell of a
   buffer holds a constructed element or none. None as a result means undefined behaviour or a broken element life time: an
   access outside a buffer or to a released buffer, reading, assigning or destroying an element that is not constructed,
   constructing one over another, releasing a buffer with elements in it, allocating at an address in use.
   Every allocating operation takes an argument al: the address ::operator new returns when the given addresses are in use. *)
From Verif Require Import Base PtrHeap.

Section DynamicArray.
Context {V : Type}.
Variable w : Z.    (* bits of std::size_t *)
Variable esz : Z.  (* sizeof(T) *)

(* dynamic_array.hpp:390-394 *)
Record darray := mkDA { da_size : Z; da_capacity : Z; da_values : Z }.
(* the buffers an array points to, dynamic_array.hpp:393 *)
Definition dheap : Type := list (Z * list (option V)).

(* allocator.hpp:105-111; the product is of type size_t *)
Definition d_allocate (h : dheap) (al : list Z -> Z) (n : Z) : option (dheap * Z) :=
  let p := al (keys h) in
  do h <- hnew h p (repeat None (Z.to_nat (wrap w (n * esz) / esz))); Some (h, p).
(* allocator.hpp:113-120; operator delete ignores a null pointer *)
Definition d_deallocate (h : dheap) (p : Z) : option dheap :=
  if p =? 0 then Some h
  else do b <- hget h p; if forallb (fun c => match c with None => true | _ => false end) b then hdel h p else None.
(* allocator.hpp:42-47, at &p[i] *)
Definition d_construct (h : dheap) (p i : Z) (v : V) : option dheap :=
  do b <- hget h p; do c <- znth b i;
  match c with None => do b <- zupd b i (Some v); hset h p b | Some _ => None end.
(* allocator.hpp:57-61, at &p[i] *)
Definition d_destroy (h : dheap) (p i : Z) : option dheap :=
  do b <- hget h p; do c <- znth b i;
  match c with Some _ => do b <- zupd b i None; hset h p b | None => None end.
(* p[i] as an operand, e.g. dynamic_array.hpp:187,199 *)
Definition d_read (h : dheap) (p i : Z) : option V :=
  do b <- hget h p; do c <- znth b i; c.
(* assignment to p[i], through the reference returned by dynamic_array.hpp:184-188; copy assignment of T copies the value *)
Definition d_assign (h : dheap) (p i : Z) (v : V) : option dheap :=
  do b <- hget h p; do c <- znth b i;
  match c with Some _ => do b <- zupd b i (Some v); hset h p b | None => None end.

(* dynamic_array_impl.hpp:71-73,81-83,116-118,131-133, n rounds from index i *)
Fixpoint destroy_loop (n : nat) (h : dheap) (p i : Z) : option dheap :=
  match n with
  | O => Some h
  | S n => do h <- d_destroy h p i; destroy_loop n h p (i + 1)
  end.
(* dynamic_array_impl.hpp:40-42,50-54; one round per value *)
Fixpoint construct_loop (vs : list V) (h : dheap) (p i : Z) : option dheap :=
  match vs with
  | [] => Some h
  | v :: vs => do h <- d_construct h p i v; construct_loop vs h p (i + 1)
  end.
(* dynamic_array_impl.hpp:63-65,91-93 *)
Fixpoint copy_loop (n : nat) (h : dheap) (p q i : Z) : option dheap :=
  match n with
  | O => Some h
  | S n => do v <- d_read h q i; do h <- d_construct h p i v; copy_loop n h p q (i + 1)
  end.
(* dynamic_array_impl.hpp:175-178 *)
Fixpoint relocate_loop (n : nat) (h : dheap) (p q i : Z) : option dheap :=
  match n with
  | O => Some h
  | S n => do v <- d_read h q i; do h <- d_construct h p i v; do h <- d_destroy h q i; relocate_loop n h p q (i + 1)
  end.

(* dynamic_array_impl.hpp:21-26 *)
Definition da_new : darray := mkDA 0 0 0.
(* dynamic_array_impl.hpp:28-33 *)
Definition da_new_capacity (h : dheap) (n : Z) (al : list Z -> Z) : option (dheap * darray) :=
  do (h, p) <- d_allocate h al n; Some (h, mkDA 0 n p).
(* dynamic_array_impl.hpp:35-43 *)
Definition da_new_fill (h : dheap) (n : Z) (v : V) (al : list Z -> Z) : option (dheap * darray) :=
  do (h, p) <- d_allocate h al n; do h <- construct_loop (repeat v (Z.to_nat n)) h p 0; Some (h, mkDA n n p).
(* dynamic_array_impl.hpp:45-55 *)
Definition da_new_list (h : dheap) (init : list V) (al : list Z -> Z) : option (dheap * darray) :=
  do (h, p) <- d_allocate h al (zlen init); do h <- construct_loop init h p 0; Some (h, mkDA (zlen init) (zlen init) p).
(* dynamic_array_impl.hpp:57-66 *)
Definition da_copy (h : dheap) (other : darray) (al : list Z -> Z) : option (dheap * darray) :=
  do (h, p) <- d_allocate h al (da_capacity other);
  do h <- copy_loop (Z.to_nat (da_size other)) h p (da_values other) 0;
  Some (h, mkDA (da_size other) (da_capacity other) p).
(* dynamic_array_impl.hpp:68-75 *)
Definition da_delete (h : dheap) (a : darray) : option dheap :=
  do h <- destroy_loop (Z.to_nat (da_size a)) h (da_values a) 0; d_deallocate h (da_values a).
(* dynamic_array_impl.hpp:77-95; other is *this if self is set *)
Definition da_assign (h : dheap) (a : darray) (self : bool) (other : darray) (al : list Z -> Z) : option (dheap * darray) :=
  do h <- destroy_loop (Z.to_nat (da_size a)) h (da_values a) 0;
  do h <- d_deallocate h (da_values a);
  let a := mkDA (da_size other) (da_capacity other) (da_values a) in
  do (h, p) <- d_allocate h al (da_capacity a);
  let a := mkDA (da_size a) (da_capacity a) p in
  do h <- copy_loop (Z.to_nat (da_size a)) h p (da_values (if self then a else other)) 0;
  Some (h, a).
(* dynamic_array_impl.hpp:168-182 *)
Definition da_relocate (h : dheap) (a : darray) (n : Z) (al : list Z -> Z) : option (dheap * darray) :=
  do (h, p) <- d_allocate h al n;
  do h <- relocate_loop (Z.to_nat (da_size a)) h p (da_values a) 0;
  do h <- d_deallocate h (da_values a);
  Some (h, mkDA (da_size a) n p).
(* dynamic_array_impl.hpp:98-109 *)
Definition da_reserve (h : dheap) (a : darray) (n : Z) (al : list Z -> Z) : option (dheap * darray) :=
  if n <=? wrap w (da_capacity a - da_size a) then Some (h, a)
  else da_relocate h a (wrap w (da_size a + n)) al.
(* dynamic_array_impl.hpp:112-124 *)
Definition da_clear (h : dheap) (a : darray) : option (dheap * darray) :=
  do h <- destroy_loop (Z.to_nat (da_size a)) h (da_values a) 0;
  do h <- d_deallocate h (da_values a);
  Some (h, mkDA 0 0 0).
(* dynamic_array_impl.hpp:127-135 *)
Definition da_removeAll (h : dheap) (a : darray) : option (dheap * darray) :=
  do h <- destroy_loop (Z.to_nat (da_size a)) h (da_values a) 0;
  Some (h, mkDA 0 (da_capacity a) (da_values a)).
(* the argument of append, dynamic_array.hpp:216: a value of the caller, or the element i of an array itself (a reference to q[i]) *)
Inductive source := Outside (v : V) | Element (q i : Z).
(* the value a const T& parameter refers to when it is read, dynamic_array_impl.hpp:152 *)
Definition source_read (h : dheap) (r : source) : option V :=
  match r with Outside v => Some v | Element q i => d_read h q i end.
(* dynamic_array_impl.hpp:138-154 *)
Definition da_append (h : dheap) (a : darray) (r : source) (al : list Z -> Z) : option (dheap * darray) :=
  do (h, a) <- (if da_capacity a =? da_size a then
                  let n := wrap w (da_size a + wrap w (da_size a + 1) / 2) in
                  let n := if n =? 0 then 1 else n in
                  da_relocate h a n al
                else Some (h, a));
  do v <- source_read h r;
  do h <- d_construct h (da_values a) (da_size a) v;
  Some (h, mkDA (wrap w (da_size a + 1)) (da_capacity a) (da_values a)).
(* dynamic_array_impl.hpp:157-165 *)
Definition da_removeBack (h : dheap) (a : darray) : option (dheap * darray) :=
  let size := wrap w (da_size a - 1) in
  do h <- d_destroy h (da_values a) size;
  Some (h, mkDA size (da_capacity a) (da_values a)).
(* dynamic_array.hpp:184-200 *)
Definition da_get (h : dheap) (a : darray) (i : Z) : option V := d_read h (da_values a) i.
(* a[i] = v, dynamic_array.hpp:184-188 *)
Definition da_set (h : dheap) (a : darray) (i : Z) (v : V) : option dheap := d_assign h (da_values a) i v.
(* dynamic_array.hpp:234-244 *)
Definition da_getFront (h : dheap) (a : darray) : option V := d_read h (da_values a) 0.
(* dynamic_array.hpp:246-256 *)
Definition da_getBack (h : dheap) (a : darray) : option V := d_read h (da_values a) (wrap w (da_size a - 1)).
(* dynamic_array.hpp:101-105 *)
Definition da_isEmpty (a : darray) : bool := da_size a =? 0.
(* dynamic_array_impl.hpp:205-213, from iterator index i on; an iterator is (parent, index),
   dynamic_array_iterator_impl.hpp:130-211, and all of them have the same parent here *)
Fixpoint da_find_loop (eqb : V -> V -> bool) (fuel : nat) (h : dheap) (a : darray) (v : V) (i : Z) : option Z :=
  match fuel with
  | O => None
  | S f =>
      if i =? da_size a then Some i
      else do x <- d_read h (da_values a) i; if eqb x v then Some i else da_find_loop eqb f h a v (wrap w (i + 1))
  end.
(* dynamic_array_impl.hpp:199-214,230-245; the index of the iterator returned. More rounds than elements mean an endless loop *)
Definition da_find (eqb : V -> V -> bool) (h : dheap) (a : darray) (v : V) : option Z :=
  da_find_loop eqb (S (Z.to_nat (da_size a))) h a v 0.
(* the loop for (it = begin(); it != end(); ++it), dynamic_array_impl.hpp:185-197,216-228, collecting what *it is *)
Fixpoint da_iterate_loop (fuel : nat) (h : dheap) (a : darray) (i : Z) : option (list V) :=
  match fuel with
  | O => None
  | S f =>
      if i =? da_size a then Some []
      else do x <- d_read h (da_values a) i; do r <- da_iterate_loop f h a (wrap w (i + 1)); Some (x :: r)
  end.
(* dynamic_array_impl.hpp:185-197, complete iteration *)
Definition da_iterate (h : dheap) (a : darray) : option (list V) := da_iterate_loop (S (Z.to_nat (da_size a))) h a 0.

End DynamicArray.
Arguments dheap : clear implicits.
Arguments source : clear implicits.
