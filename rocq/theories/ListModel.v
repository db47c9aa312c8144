(* Models of modm::LinkedList and modm::DoublyLinkedList: /repo/src/modm/container/linked_list{,_impl,_iterator_impl}.hpp and
   doubly_linked_list{,_impl,_iterator_impl}.hpp. The nodes of a list form a heap addressed by pointers; an operation that
   allocates takes the address the allocator returned as an argument. None means an access through a null, dangling or never
   allocated pointer, or a loop that never ends. Iterators and const_iterators are both the node pointer they hold
   (linked_list_iterator_impl.hpp:23-138, doubly_linked_list_iterator_impl.hpp:22-132); == and != compare the pointers. The
   element type is arbitrary, with copy construction copying the value and destruction without effect. *)
From Verif Require Import Base PtrHeap.

Section List.
Context {V : Type}.

(* ---- LinkedList ---- *)
(* linked_list.hpp:99-103 *)
Record node := mkN { n_value : V; n_next : Z }.
(* linked_list.hpp:111-114, with the nodes *)
Record llist := mkLL { ll_heap : list (Z * node); ll_front : Z; ll_back : Z }.

(* assignment to node->next, as in linked_list_impl.hpp:96,118,209 *)
Definition set_next (h : list (Z * node)) (p next : Z) : option (list (Z * node)) :=
  do n <- hget h p; hset h p (mkN (n_value n) next).

(* linked_list_impl.hpp:22-26 *)
Definition ll_empty : llist := mkLL [] 0 0.
(* linked_list_impl.hpp:41-46 *)
Definition ll_isEmpty (s : llist) : bool := ll_front s =? 0.
(* linked_list_iterator_impl.hpp:98-103,179-184 *)
Definition ll_begin (s : llist) : Z := ll_front s.
(* linked_list_iterator_impl.hpp:105-110,186-191 *)
Definition ll_end (s : llist) : Z := 0.
(* operator++, linked_list_iterator_impl.hpp:59-65,140-146 *)
Definition ll_inc (s : llist) (it : Z) : option Z := do n <- hget (ll_heap s) it; Some (n_next n).
(* operator*, linked_list_iterator_impl.hpp:83-88,164-169 *)
Definition ll_deref (s : llist) (it : Z) : option V := do n <- hget (ll_heap s) it; Some (n_value n).
(* the loop for (it = begin(); it != end(); ++it) of linked_list_impl.hpp:53-55, collecting what *it is; a round per node and
   one for the final test suffice, as a loop with more rounds visits a node twice and never ends *)
Fixpoint ll_loop (fuel : nat) (s : llist) (it : Z) : option (list V) :=
  match fuel with
  | O => None
  | S f =>
      if it =? ll_end s then Some []
      else do v <- ll_deref s it; do it <- ll_inc s it; do r <- ll_loop f s it; Some (v :: r)
  end.
(* linked_list_impl.hpp:53-55, complete iteration *)
Definition ll_traverse (s : llist) : option (list V) := ll_loop (S (length (ll_heap s))) s (ll_begin s).
(* linked_list_impl.hpp:48-57; std::size_t can count the nodes of a list, each taking several bytes of the address space *)
Definition ll_getSize (s : llist) : option Z := do l <- ll_traverse s; Some (zlen l).

(* linked_list_impl.hpp:60-78; p is what allocate(1) returned *)
Definition ll_prepend (s : llist) (p : Z) (v : V) : option (llist * bool) :=
  do h <- hnew (ll_heap s) p (mkN v (ll_front s));
  Some (mkLL h p (if ll_back s =? 0 then p else ll_back s), true).
(* linked_list_impl.hpp:80-101; p is what allocate(1) returned *)
Definition ll_append (s : llist) (p : Z) (v : V) : option (llist * bool) :=
  do h <- hnew (ll_heap s) p (mkN v 0);
  if ll_front s =? 0 then Some (mkLL h p p, true)
  else do h <- set_next h (ll_back s) p; Some (mkLL h (ll_front s) p, true).
(* linked_list_impl.hpp:103-124; p is what allocate(1) returned *)
Definition ll_insert (s : llist) (pos p : Z) (v : V) : option (llist * bool) :=
  if pos =? 0 then ll_append s p v
  else
    do n <- hget (ll_heap s) pos;
    do h <- hnew (ll_heap s) p (mkN v (n_next n));
    do h <- set_next h pos p;
    Some (mkLL h (ll_front s) (if ll_back s =? pos then p else ll_back s), true).
(* linked_list_impl.hpp:127-146 *)
Definition ll_removeFront (s : llist) : option llist :=
  let node := ll_front s in
  do n <- hget (ll_heap s) (ll_front s);
  let '(f, b) := if n_next n =? 0 then (0, 0) else (n_next n, ll_back s) in
  do h <- hdel (ll_heap s) node; Some (mkLL h f b).
(* linked_list_impl.hpp:149-161 *)
Definition ll_getFront (s : llist) : option V := do n <- hget (ll_heap s) (ll_front s); Some (n_value n).
(* linked_list_impl.hpp:163-175 *)
Definition ll_getBack (s : llist) : option V := do n <- hget (ll_heap s) (ll_back s); Some (n_value n).
(* linked_list_impl.hpp:182-184; every round releases a node *)
Fixpoint ll_removeAll_loop (fuel : nat) (s : llist) : option llist :=
  match fuel with
  | O => None
  | S f => if negb (ll_isEmpty s) then do s <- ll_removeFront s; ll_removeAll_loop f s else Some s
  end.
(* linked_list_impl.hpp:178-185 *)
Definition ll_removeAll (s : llist) : option llist := ll_removeAll_loop (S (length (ll_heap s))) s.
(* linked_list_impl.hpp:201-220, from the given node on *)
Fixpoint ll_remove_loop (fuel : nat) (s : llist) (node iter : Z) : option (llist * Z) :=
  match fuel with
  | O => None
  | S f =>
      do n <- hget (ll_heap s) node;
      if n_next n =? 0 then Some (s, iter)
      else if n_next n =? iter then
        let b := if iter =? ll_back s then node else ll_back s in
        do i <- hget (ll_heap s) iter;
        do h <- set_next (ll_heap s) node (n_next i);
        do h <- hdel h iter;
        do n <- hget h node;
        Some (mkLL h (ll_front s) b, n_next n)
      else ll_remove_loop f s (n_next n) iter
  end.
(* linked_list_impl.hpp:188-221 *)
Definition ll_remove (s : llist) (iter : Z) : option (llist * Z) :=
  if ll_isEmpty s then Some (s, ll_begin s)
  else if iter =? ll_front s then do s <- ll_removeFront s; Some (s, ll_begin s)
  else ll_remove_loop (S (length (ll_heap s))) s (ll_front s) iter.
(* linked_list_impl.hpp:31-38; every round releases a node *)
Fixpoint ll_destroy_loop (fuel : nat) (h : list (Z * node)) (front : Z) : option (list (Z * node)) :=
  match fuel with
  | O => None
  | S f =>
      if front =? 0 then Some h
      else do n <- hget h front; do h <- hdel h front; ll_destroy_loop f h (n_next n)
  end.
(* linked_list_impl.hpp:28-39; the nodes that are still allocated afterwards *)
Definition ll_destroy (s : llist) : option (list (Z * node)) :=
  ll_destroy_loop (S (length (ll_heap s))) (ll_heap s) (ll_front s).

(* ---- DoublyLinkedList ---- *)
(* doubly_linked_list.hpp:82-88 *)
Record dnode := mkD { d_value : V; d_previous : Z; d_next : Z }.
(* doubly_linked_list.hpp:96-99, with the nodes *)
Record dlist := mkDL { dl_heap : list (Z * dnode); dl_front : Z; dl_back : Z }.

(* assignment to node->next, as in doubly_linked_list_impl.hpp:103,147,214 *)
Definition set_dnext (h : list (Z * dnode)) (p next : Z) : option (list (Z * dnode)) :=
  do n <- hget h p; hset h p (mkD (d_value n) (d_previous n) next).
(* assignment to node->previous, as in doubly_linked_list_impl.hpp:78,124,215 *)
Definition set_dprevious (h : list (Z * dnode)) (p previous : Z) : option (list (Z * dnode)) :=
  do n <- hget h p; hset h p (mkD (d_value n) previous (d_next n)).

(* doubly_linked_list_impl.hpp:22-26 *)
Definition dl_empty : dlist := mkDL [] 0 0.
(* doubly_linked_list_impl.hpp:41-46 *)
Definition dl_isEmpty (s : dlist) : bool := dl_front s =? 0.
(* doubly_linked_list_impl.hpp:171-176,185-190 *)
Definition dl_begin (s : dlist) : Z := dl_front s.
(* doubly_linked_list_impl.hpp:178-183,192-197 *)
Definition dl_end (s : dlist) : Z := 0.
(* operator++, doubly_linked_list_iterator_impl.hpp:59-65,134-140 *)
Definition dl_inc (s : dlist) (it : Z) : option Z := do n <- hget (dl_heap s) it; Some (d_next n).
(* operator--, doubly_linked_list_iterator_impl.hpp:67-73,142-148 *)
Definition dl_dec (s : dlist) (it : Z) : option Z := do n <- hget (dl_heap s) it; Some (d_previous n).
(* operator*, doubly_linked_list_iterator_impl.hpp:91-96,166-171 *)
Definition dl_deref (s : dlist) (it : Z) : option V := do n <- hget (dl_heap s) it; Some (d_value n).
(* the loop for (it = begin(); it != end(); ++it) of doubly_linked_list_impl.hpp:53-55, collecting what *it is *)
Fixpoint dl_loop (fuel : nat) (s : dlist) (it : Z) : option (list V) :=
  match fuel with
  | O => None
  | S f =>
      if it =? dl_end s then Some []
      else do v <- dl_deref s it; do it <- dl_inc s it; do r <- dl_loop f s it; Some (v :: r)
  end.
(* doubly_linked_list_impl.hpp:53-55, complete iteration *)
Definition dl_traverse (s : dlist) : option (list V) := dl_loop (S (length (dl_heap s))) s (dl_begin s).
(* doubly_linked_list_impl.hpp:48-57; see ll_getSize *)
Definition dl_getSize (s : dlist) : option Z := do l <- dl_traverse s; Some (zlen l).
(* the backward chain followed from back, doubly_linked_list_iterator_impl.hpp:67-73, collecting the values *)
Fixpoint dl_back_loop (fuel : nat) (s : dlist) (it : Z) : option (list V) :=
  match fuel with
  | O => None
  | S f =>
      if it =? dl_end s then Some []
      else do v <- dl_deref s it; do it <- dl_dec s it; do r <- dl_back_loop f s it; Some (v :: r)
  end.

(* doubly_linked_list_impl.hpp:60-83; p is what allocate(1) returned *)
Definition dl_prepend (s : dlist) (p : Z) (v : V) : option (dlist * bool) :=
  do h <- hnew (dl_heap s) p (mkD v 0 (dl_front s));
  if dl_front s =? 0 then Some (mkDL h p p, true)
  else do h <- set_dprevious h (dl_front s) p; Some (mkDL h p (dl_back s), true).
(* doubly_linked_list_impl.hpp:85-106; p is what allocate(1) returned *)
Definition dl_append (s : dlist) (p : Z) (v : V) : option dlist :=
  do h <- hnew (dl_heap s) p (mkD v (dl_back s) 0);
  if dl_back s =? 0 then Some (mkDL h p p)
  else do h <- set_dnext h (dl_back s) p; Some (mkDL h (dl_front s) p).
(* doubly_linked_list_impl.hpp:109-130 *)
Definition dl_removeFront (s : dlist) : option dlist :=
  let node := dl_front s in
  do n <- hget (dl_heap s) (dl_front s);
  do (h, f, b) <- (if d_next n =? 0 then Some (dl_heap s, 0, 0)
                   else do h <- set_dprevious (dl_heap s) (d_next n) 0; Some (h, d_next n, dl_back s));
  do h <- hdel h node; Some (mkDL h f b).
(* doubly_linked_list_impl.hpp:132-153 *)
Definition dl_removeBack (s : dlist) : option dlist :=
  let node := dl_back s in
  do n <- hget (dl_heap s) (dl_back s);
  do (h, f, b) <- (if d_previous n =? 0 then Some (dl_heap s, 0, 0)
                   else do h <- set_dnext (dl_heap s) (d_previous n) 0; Some (h, dl_front s, d_previous n));
  do h <- hdel h node; Some (mkDL h f b).
(* doubly_linked_list_impl.hpp:156-161 *)
Definition dl_getFront (s : dlist) : option V := do n <- hget (dl_heap s) (dl_front s); Some (d_value n).
(* doubly_linked_list_impl.hpp:163-168 *)
Definition dl_getBack (s : dlist) : option V := do n <- hget (dl_heap s) (dl_back s); Some (d_value n).
(* doubly_linked_list_impl.hpp:199-224 *)
Definition dl_erase (s : dlist) (pos : Z) : option (dlist * Z) :=
  do n <- hget (dl_heap s) pos;
  if d_previous n =? 0 then do s <- dl_removeFront s; Some (s, dl_begin s)
  else if d_next n =? 0 then do s <- dl_removeBack s; Some (s, dl_end s)
  else
    do h <- set_dnext (dl_heap s) (d_previous n) (d_next n);
    do n <- hget h pos;
    do h <- set_dprevious h (d_next n) (d_previous n);
    do n <- hget h pos;
    let next := d_next n in
    do h <- hdel h pos;
    Some (mkDL h (dl_front s) (dl_back s), next).
(* doubly_linked_list_impl.hpp:31-38; every round releases a node *)
Fixpoint dl_destroy_loop (fuel : nat) (h : list (Z * dnode)) (front : Z) : option (list (Z * dnode)) :=
  match fuel with
  | O => None
  | S f =>
      if front =? 0 then Some h
      else do n <- hget h front; do h <- hdel h front; dl_destroy_loop f h (d_next n)
  end.
(* doubly_linked_list_impl.hpp:28-39; the nodes that are still allocated afterwards *)
Definition dl_destroy (s : dlist) : option (list (Z * dnode)) :=
  dl_destroy_loop (S (length (dl_heap s))) (dl_heap s) (dl_front s).

End List.
Arguments node : clear implicits.
Arguments llist : clear implicits.
Arguments dnode : clear implicits.
Arguments dlist : clear implicits.
