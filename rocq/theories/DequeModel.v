(* Model of modm::BoundedDeque<T, N>, BoundedQueue and BoundedStack.
   Source: /repo/src/modm/container/deque.hpp, deque_impl.hpp, queue.hpp, stack.hpp. *)
From Verif Require Import Base.

Section Deque.
Context {A : Type}.
Variable N : Z.          (* deque.hpp:56-57, template parameter *)
Variable w : Z.          (* deque.hpp:62-66: bits of Index/Size, at least 8 (N < 255) or 16 (N >= 255) *)

(* deque.hpp:230-234: head, tail, size, buffer[N] *)
Record deque := mkDeque { d_head : Z; d_tail : Z; d_size : Z; d_buf : list A }.

(* deque_impl.hpp:20-24. The initial element values are whatever T's default construction
   leaves there: an arbitrary buffer. *)
Definition d_init (b : list A) : deque := mkDeque 0 (if N =? 1 then 0 else 1) 0 b.

Definition d_isEmpty (d : deque) : bool := d_size d =? 0.          (* deque_impl.hpp:30-33 *)
Definition d_isFull (d : deque) : bool := d_size d =? N.           (* deque_impl.hpp:37-40 *)
Definition d_getSize (d : deque) : Z := d_size d.                  (* deque_impl.hpp:44-47 *)

(* deque_impl.hpp:60-65 *)
Definition d_clear (d : deque) : deque := mkDeque 0 (if N =? 1 then 0 else 1) 0 (d_buf d).

Definition d_getFront (d : deque) : option A := znth (d_buf d) (d_tail d).   (* :71-82 *)
Definition d_getBack (d : deque) : option A := znth (d_buf d) (d_head d).    (* :88-98 *)

(* deque_impl.hpp:113-121 *)
Definition d_get (d : deque) (n : Z) : option A :=
  if N - 1 <? d_tail d + n then znth (d_buf d) (d_tail d + n - N) else znth (d_buf d) (d_tail d + n).

(* deque_impl.hpp:151-159 *)
Definition d_rget (d : deque) (n : Z) : option A :=
  if d_head d <? n then znth (d_buf d) (N - (n - d_head d)) else znth (d_buf d) (d_head d - n).

(* the increment with wrap: deque_impl.hpp:172-177, 189-194, 200-205, 281-286 *)
Definition d_up (i : Z) : Z := if N - 1 <=? i then 0 else wrap w (i + 1).
(* the decrement with wrap: deque_impl.hpp:217-222, 236-241, 253-258, 264-269 *)
Definition d_down (i : Z) : Z := if i =? 0 then N - 1 else wrap w (i - 1).

(* deque_impl.hpp:166-182 *)
Definition d_append (d : deque) (v : A) : option (deque * bool) :=
  if d_isFull d then Some (d, false)
  else let h := d_up (d_head d) in
       do b <- zupd (d_buf d) h v;
       Some (mkDeque h (d_tail d) (wrap w (d_size d + 1)) b, true).

(* deque_impl.hpp:186-209 *)
Definition d_appendOverwrite (d : deque) (v : A) : option deque :=
  let t := if d_isFull d then d_up (d_tail d) else d_tail d in
  let s := if d_isFull d then d_size d else wrap w (d_size d + 1) in
  let h := d_up (d_head d) in
  do b <- zupd (d_buf d) h v;
  Some (mkDeque h t s b).

(* deque_impl.hpp:215-224: no check for an empty container *)
Definition d_removeBack (d : deque) : deque :=
  mkDeque (d_down (d_head d)) (d_tail d) (wrap w (d_size d - 1)) (d_buf d).

(* deque_impl.hpp:230-246 *)
Definition d_prepend (d : deque) (v : A) : option (deque * bool) :=
  if d_isFull d then Some (d, false)
  else let t := d_down (d_tail d) in
       do b <- zupd (d_buf d) t v;
       Some (mkDeque (d_head d) t (wrap w (d_size d + 1)) b, true).

(* deque_impl.hpp:250-273 *)
Definition d_prependOverwrite (d : deque) (v : A) : option deque :=
  let h := if d_isFull d then d_down (d_head d) else d_head d in
  let s := if d_isFull d then d_size d else wrap w (d_size d + 1) in
  let t := d_down (d_tail d) in
  do b <- zupd (d_buf d) t v;
  Some (mkDeque h t s b).

(* deque_impl.hpp:279-289: no check for an empty container *)
Definition d_removeFront (d : deque) : deque :=
  mkDeque (d_head d) (d_up (d_tail d)) (wrap w (d_size d - 1)) (d_buf d).

(* ---- const_iterator: deque.hpp:214-217 (the parent is passed alongside) ---- *)
Record iter := mkIter { it_index : Z; it_count : Z }.
Definition d_begin (d : deque) : iter := mkIter (d_tail d) 0.      (* deque_impl.hpp:391-394, 300-304 *)
Definition d_end (d : deque) : iter := mkIter N 0.                 (* deque_impl.hpp:398-401, 300-304 *)
(* deque_impl.hpp:325-338 *)
Definition it_inc (d : deque) (i : iter) : iter :=
  let c := wrap w (it_count i + 1) in
  if d_size d <=? c then mkIter N c
  else let x := wrap w (it_index i + 1) in
       mkIter (if N <=? x then 0 else x) c.
(* deque_impl.hpp:342-357 *)
Definition it_dec (d : deque) (i : iter) : iter :=
  if it_count i =? 0 then mkIter N (it_count i)
  else mkIter (if it_index i =? 0 then N - 1 else wrap w (it_index i - 1)) (wrap w (it_count i - 1)).
(* deque_impl.hpp:361-371 *)
Definition it_eq (i j : iter) : bool := it_index i =? it_index j.
(* deque_impl.hpp:375-378 *)
Definition it_deref (d : deque) (i : iter) : option A := znth (d_buf d) (it_index i).

(* A range-for loop  for (x : deque) visit(x);  Fuel bounds the iterations; the result is
   None if an element outside the buffer is read or the fuel does not suffice. *)
(* C++ [stmt.ranged] over deque.hpp:105-150 (begin, end, ++, !=, dereference) *)
Fixpoint it_loop (fuel : nat) (d : deque) (i : iter) : option (list A) :=
  if it_eq i (d_end d) then Some []
  else match fuel with
       | O => None
       | S f => do x <- it_deref d i; do r <- it_loop f d (it_inc d i); Some (x :: r)
       end.

(* ---- histories ---- *)
(* calls of deque.hpp:93, 156-185 *)
Inductive dop :=
| DAppend (v : A) | DAppendOverwrite (v : A) | DPrepend (v : A) | DPrependOverwrite (v : A)
| DRemoveFront | DRemoveBack | DClear.
(* return value: the boolean of append/prepend, true for the void operations *)
(* deque.hpp:93, 156-185 *)
Definition dstep (d : deque) (o : dop) : option (deque * bool) :=
  match o with
  | DAppend v => d_append d v
  | DAppendOverwrite v => do d' <- d_appendOverwrite d v; Some (d', true)
  | DPrepend v => d_prepend d v
  | DPrependOverwrite v => do d' <- d_prependOverwrite d v; Some (d', true)
  | DRemoveFront => Some (d_removeFront d, true)
  | DRemoveBack => Some (d_removeBack d, true)
  | DClear => Some (d_clear d, true)
  end.
(* a sequence of calls of deque.hpp:93, 156-185 *)
Fixpoint drun (d : deque) (os : list dop) : option (deque * list bool) :=
  match os with
  | [] => Some (d, [])
  | o :: r => do (d1, x) <- dstep d o; do (d2, xs) <- drun d1 r; Some (d2, x :: xs)
  end.

(* ---- BoundedQueue: queue.hpp:80-102, 114-119 ---- *)
Inductive aop := APush (v : A) | APop.
(* results of queue.hpp:80-102 and stack.hpp:68-90 *)
Inductive aobs := BPushed (b : bool) | BPopped (v : A).
(* pop as used by a client: get() then pop() *)
(* queue.hpp:80-102, 114-119 *)
Definition bq_step (d : deque) (o : aop) : option (deque * aobs) :=
  match o with
  | APush v => do (d', b) <- d_append d v; Some (d', BPushed b)
  | APop => do x <- d_getFront d; Some (d_removeFront d, BPopped x)
  end.
(* ---- BoundedStack: stack.hpp:68-90, 102-107 ---- *)
Definition bs_step (d : deque) (o : aop) : option (deque * aobs) :=
  match o with
  | APush v => do (d', b) <- d_prepend d v; Some (d', BPushed b)
  | APop => do x <- d_getFront d; Some (d_removeFront d, BPopped x)
  end.
(* a sequence of calls of queue.hpp:80-102 or stack.hpp:68-90 *)
Fixpoint arun (step : deque -> aop -> option (deque * aobs)) (d : deque) (os : list aop)
  : option (deque * list aobs) :=
  match os with
  | [] => Some (d, [])
  | o :: r => do (d1, x) <- step d o; do (d2, xs) <- arun step d1 r; Some (d2, x :: xs)
  end.
End Deque.
Arguments mkDeque {A}. Arguments d_head {A}. Arguments d_tail {A}. Arguments d_size {A}. Arguments d_buf {A}.
