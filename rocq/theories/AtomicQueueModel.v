(* Model of modm::atomic::Queue<T, N>.
   Source: /repo/src/modm/architecture/driver/atomic/queue.hpp and queue_impl.hpp. *)
From Verif Require Import Base.

Section AtomicQueue.
Context {A : Type}.
Variable N : Z.          (* queue.hpp:36, template parameter N *)

(* queue.hpp:41: Index = uint16_t if N >= 254 else uint8_t; value = number of bits. *)
Definition index_bits : Z := if 254 <=? N then 16 else 8.

(* queue_impl.hpp:32-35, 100-103, 118-121: tmp = index + 1 (converted to Index); if tmp >= N+1 then 0. *)
Definition next_index (i : Z) : Z :=
  let t := wrap index_bits (i + 1) in
  if N + 1 <=? t then 0 else t.

(* ------------------------------------------------------------------ *)
(* Sequential use.                                                     *)
(* queue.hpp:97-100: head, tail, buffer[N+1]. A buffer cell holds None while it has no
   definite value (never written, or a write in progress). *)
Record queue := mkQueue { q_head : Z; q_tail : Z; q_buf : list (option A) }.

(* queue_impl.hpp:20-26 constructor *)
Definition q_init : queue := mkQueue 0 0 (repeat None (Z.to_nat (N + 1))).

(* queue_impl.hpp:30-38 *)
Definition q_isFull (q : queue) : bool := next_index (q_head q) =? q_tail q.
(* queue_impl.hpp:50-53 *)
Definition q_isEmpty (q : queue) : bool := q_head q =? q_tail q.
(* queue_impl.hpp:73-87; the subtraction is done in int / size_t and converted to Index *)
Definition q_getSize (q : queue) : Z :=
  if q_tail q <=? q_head q then wrap index_bits (q_head q - q_tail q)
  else wrap index_bits (N + 1 - q_tail q + q_head q).
(* queue_impl.hpp:42-46 *)
Definition q_isNearlyFull (q : queue) : bool := N - 3 <? q_getSize q.
(* queue_impl.hpp:57-61 *)
Definition q_isNearlyEmpty (q : queue) : bool := q_getSize q <? 3.
(* queue_impl.hpp:91-94; None = read outside the buffer *)
Definition q_get (q : queue) : option (option A) := znth (q_buf q) (q_tail q).
(* queue_impl.hpp:98-112; None = write outside the buffer *)
Definition q_push (q : queue) (v : A) : option (queue * bool) :=
  let t := next_index (q_head q) in
  if t =? q_tail q then Some (q, false)
  else do b <- zupd (q_buf q) (q_head q) (Some v); Some (mkQueue t (q_tail q) b, true).
(* queue_impl.hpp:116-123 *)
Definition q_pop (q : queue) : queue := mkQueue (q_head q) (next_index (q_tail q)) (q_buf q).

(* ------------------------------------------------------------------ *)
(* Concurrent use: one producer, one consumer, interleaved at each single access to the
   shared members head, tail and buffer. head and tail are volatile (queue.hpp:97-98), so every
   mention in the source is one access. An access to an index is indivisible (on AVR the index
   is 8 bit: queue_impl.hpp:24). Copying an element into the buffer is NOT indivisible: it is two
   steps, the cell being indefinite (None) in between. *)

(* producer program counter, inside push (queue_impl.hpp:98-112) *)
Inductive ppc :=
| PIdle
| PReadHead (v : A)                (* called; about to read head, line 100 *)
| PReadTail (v : A) (t : Z)        (* about to read tail, line 104 *)
| PReadHead2 (v : A) (t : Z)       (* about to read head again, line 108 *)
| PStartWrite (v : A) (t h : Z)    (* about to begin the copy into buffer[h], line 108 *)
| PEndWrite (v : A) (t h : Z)      (* about to finish the copy into buffer[h], line 108 *)
| PWriteHead (v : A) (t : Z).      (* about to write head, line 109 *)

(* consumer program counter: isEmpty (lines 50-53), get (91-94), pop (116-123).
   The order of the two reads in isEmpty is unspecified in C++, both are modelled. *)
Inductive cpc :=
| CIdle                            (* no element known to be present *)
| CHeadFirst                       (* isEmpty: about to read head, then tail *)
| CTailSecond (h : Z)
| CTailFirst                       (* isEmpty: about to read tail, then head *)
| CHeadSecond (t : Z)
| CReady                           (* isEmpty returned false, pop not called since *)
| CGetTail                         (* get: about to read tail, line 93 *)
| CGetCell (t : Z)                 (* about to copy buffer[t] *)
| CPopTail                         (* pop: about to read tail, line 118 *)
| CPopWrite (t : Z).               (* about to write tail, line 122 *)

(* the object (queue.hpp:97-100) and the position of the producer in queue_impl.hpp:98-112 and of the consumer in 50-53, 91-94, 116-123 *)
Record machine := mkMachine { m_q : queue; m_p : ppc; m_c : cpc }.

(* What the two sides observe. *)
(* calls and returns of queue_impl.hpp:98-112 (push), 50-53 (isEmpty), 91-94 (get), 116-123 (pop) *)
Inductive event :=
| EPushCall (v : A)          (* push(v) is called *)
| EPushRet (v : A) (b : bool)(* push(v) returns b *)
| EEmptyCall                 (* isEmpty() is called *)
| EEmptyRet (b : bool)       (* isEmpty() returns b *)
| EGot (v : option A)        (* get() delivered v; None = an indefinite cell was read *)
| EPopped.                   (* pop() returns *)

(* The scheduler's choice: which side performs its next access, and what it calls if idle. *)
(* the calls are those of queue.hpp:55-95 *)
Inductive choice :=
| ChProd (v : A)             (* producer moves; if idle it calls push(v) *)
| ChConsEmptyHT              (* consumer moves; if between calls it calls isEmpty, reading head first *)
| ChConsEmptyTH              (* consumer moves; if between calls it calls isEmpty, reading tail first *)
| ChConsGet                  (* consumer moves; if ready it calls get *)
| ChConsPop.                 (* consumer moves; if ready it calls pop *)

(* one producer access; None = undefined behaviour *)
(* queue_impl.hpp:98-112, one shared access per step *)
Definition pstep (m : machine) (v : A) : option (machine * list event) :=
  let q := m_q m in
  match m_p m with
  | PIdle => Some (mkMachine q (PReadHead v) (m_c m), [EPushCall v])
  | PReadHead v => Some (mkMachine q (PReadTail v (next_index (q_head q))) (m_c m), [])
  | PReadTail v t =>
      if t =? q_tail q then Some (mkMachine q PIdle (m_c m), [EPushRet v false])
      else Some (mkMachine q (PReadHead2 v t) (m_c m), [])
  | PReadHead2 v t => Some (mkMachine q (PStartWrite v t (q_head q)) (m_c m), [])
  | PStartWrite v t h =>
      do b <- zupd (q_buf q) h None;
      Some (mkMachine (mkQueue (q_head q) (q_tail q) b) (PEndWrite v t h) (m_c m), [])
  | PEndWrite v t h =>
      do b <- zupd (q_buf q) h (Some v);
      Some (mkMachine (mkQueue (q_head q) (q_tail q) b) (PWriteHead v t) (m_c m), [])
  | PWriteHead v t =>
      Some (mkMachine (mkQueue t (q_tail q) (q_buf q)) PIdle (m_c m), [EPushRet v true])
  end.

(* the consumer's contract: get/pop only after isEmpty() returned false (queue_impl.hpp:50-53) *)
Definition ready_of (b : bool) : cpc := if b then CIdle else CReady.

(* one consumer access; a consumer that is not ready calls isEmpty whatever the choice *)
(* queue_impl.hpp:50-53, 91-94, 116-123, one shared access per step *)
Definition cstep (m : machine) (ch : choice) : option (machine * list event) :=
  let q := m_q m in
  let start_empty :=
    match ch with
    | ChConsEmptyTH => Some (mkMachine q (m_p m) CTailFirst, [EEmptyCall])
    | _ => Some (mkMachine q (m_p m) CHeadFirst, [EEmptyCall])
    end in
  match m_c m with
  | CIdle => start_empty
  | CHeadFirst => Some (mkMachine q (m_p m) (CTailSecond (q_head q)), [])
  | CTailSecond h => let b := h =? q_tail q in
      Some (mkMachine q (m_p m) (ready_of b), [EEmptyRet b])
  | CTailFirst => Some (mkMachine q (m_p m) (CHeadSecond (q_tail q)), [])
  | CHeadSecond t => let b := q_head q =? t in
      Some (mkMachine q (m_p m) (ready_of b), [EEmptyRet b])
  | CReady =>
      match ch with
      | ChConsGet => Some (mkMachine q (m_p m) CGetTail, [])
      | ChConsPop => Some (mkMachine q (m_p m) CPopTail, [])
      | _ => start_empty
      end
  | CGetTail => Some (mkMachine q (m_p m) (CGetCell (q_tail q)), [])
  | CGetCell t => do x <- znth (q_buf q) t; Some (mkMachine q (m_p m) CReady, [EGot x])
  | CPopTail => Some (mkMachine q (m_p m) (CPopWrite (next_index (q_tail q))), [])
  | CPopWrite t =>
      Some (mkMachine (mkQueue (q_head q) t (q_buf q)) (m_p m) CIdle, [EPopped])
  end.

(* interleaving of queue_impl.hpp:98-112 with 50-53, 91-94, 116-123: no code of its own *)
Definition mstep (m : machine) (ch : choice) : option (machine * list event) :=
  match ch with
  | ChProd v => pstep m v
  | _ => cstep m ch
  end.

(* queue_impl.hpp:20-26 *)
Definition m_init : machine := mkMachine q_init PIdle CIdle.

(* a schedule of accesses; the trace is what the two sides observed, oldest first *)
(* interleaved runs of queue_impl.hpp:50-123 *)
Fixpoint mrun (m : machine) (s : list choice) : option (machine * list event) :=
  match s with
  | [] => Some (m, [])
  | ch :: r =>
      do (m1, e1) <- mstep m ch;
      do (m2, e2) <- mrun m1 r;
      Some (m2, e1 ++ e2)
  end.

(* sequential operations, for histories *)
(* calls of queue_impl.hpp:98-112 and 116-123 *)
Inductive qop := QPush (v : A) | QPop.
(* results of queue_impl.hpp:98-112 and 116-123 *)
Inductive qobs := OPushed (b : bool) | OPopped.
(* queue_impl.hpp:98-112, 116-123 *)
Definition qstep (q : queue) (o : qop) : option (queue * qobs) :=
  match o with
  | QPush v => do (q', b) <- q_push q v; Some (q', OPushed b)
  | QPop => Some (q_pop q, OPopped)
  end.
(* a sequence of calls of queue_impl.hpp:98-123 *)
Fixpoint qrun (q : queue) (os : list qop) : option (queue * list qobs) :=
  match os with
  | [] => Some (q, [])
  | o :: r => do (q1, x) <- qstep q o; do (q2, xs) <- qrun q1 r; Some (q2, x :: xs)
  end.

End AtomicQueue.
Arguments mkQueue {A}. Arguments q_head {A}. Arguments q_tail {A}. Arguments q_buf {A}.
Arguments mkMachine {A}. Arguments m_q {A}. Arguments m_p {A}. Arguments m_c {A}.
