(* Model of modm::filter::Median<T, N> for N = 3, 5, 7, 9: /repo/src/modm/math/filter/median_{3,5,7,9}_impl.hpp.
   T is any integer type; only comparisons and copies occur, so elements are plain Z. *)
From Verif Require Import Base.

(* median_3_impl.hpp:37-39, median_5_impl.hpp:37-39, median_7_impl.hpp:34-36, median_9_impl.hpp:34-36 *)
Record median := mkMedian { m_index : Z; m_buffer : list Z; m_sorted : list Z }.

(* median_impl.hpp:19-20, MODM_MEDIAN_SORT(sorted[i], sorted[j]) *)
Definition sort2 (s : list Z) (i j : Z) : option (list Z) :=
  do a <- znth s i;
  do b <- znth s j;
  if b <? a then do s1 <- zupd s i b; zupd s1 j a else Some s.
(* the sequence of MODM_MEDIAN_SORT lines: median_3_impl.hpp:73-75, median_5_impl.hpp:73-79, median_7_impl.hpp:77-89, median_9_impl.hpp:76-94 *)
Fixpoint network (net : list (Z * Z)) (s : list Z) : option (list Z) :=
  match net with [] => Some s | (i, j) :: r => do s' <- sort2 s i j; network r s' end.

(* median_3_impl.hpp:73-75 *)
Definition net3 : list (Z * Z) := [(0,1); (1,2); (0,1)].
(* median_5_impl.hpp:73-79 *)
Definition net5 : list (Z * Z) := [(0,1); (3,4); (0,3); (1,4); (1,2); (2,3); (1,2)].
(* median_7_impl.hpp:77-89 *)
Definition net7 : list (Z * Z) := [(0,5); (0,3); (1,6); (2,4); (0,1); (3,5); (2,6); (2,3); (3,6); (4,5); (1,4); (1,3); (3,4)].
(* median_9_impl.hpp:76-94 *)
Definition net9 : list (Z * Z) :=
  [(1,2); (4,5); (7,8); (0,1); (3,4); (6,7); (1,2); (4,5); (7,8); (0,3); (5,8); (4,7); (3,6); (1,4); (2,5); (4,7); (4,2); (6,4); (4,2)].

(* constructors: median_3_impl.hpp:46-53, median_5_impl.hpp:46-53, median_7_impl.hpp:43-50, median_9_impl.hpp:43-50 *)
Definition m_init (n : nat) (v : Z) : median := mkMedian 0 (repeat v n) (repeat v n).

(* the common tail of append: store and advance the index; median_3_impl.hpp:59-62, 5:59-62, 7:67-70, 9:66-69 *)
Definition m_store (n : Z) (m : median) (x : Z) (sorted : list Z) : option median :=
  do b <- zupd (m_buffer m) (m_index m) x;
  let i := m_index m + 1 in
  Some (mkMedian (if n <=? i then 0 else i) b sorted).
(* median_3_impl.hpp:57-63, median_5_impl.hpp:57-63 *)
Definition m_append_copy (n : Z) (m : median) (x : Z) : option median := m_store n m x (m_sorted m).
(* median_7_impl.hpp:59-65, median_9_impl.hpp:59-64: replace the first element equal to valueToRemove *)
Fixpoint replace_first (v x : Z) (s : list Z) : list Z :=
  match s with [] => [] | y :: r => if y =? v then x :: r else y :: replace_first v x r end.
(* median_7_impl.hpp:54-71, median_9_impl.hpp:54-70 *)
Definition m_append_inplace (n : Z) (m : median) (x : Z) : option median :=
  do v <- znth (m_buffer m) (m_index m);
  m_store n m x (replace_first v x (m_sorted m)).

(* median_3_impl.hpp:67-76, median_5_impl.hpp:67-80: memcpy, then sort *)
Definition m_update_copy (net : list (Z * Z)) (m : median) : option median :=
  do s <- network net (m_buffer m); Some (mkMedian (m_index m) (m_buffer m) s).
(* median_7_impl.hpp:75-90, median_9_impl.hpp:74-95 *)
Definition m_update_inplace (net : list (Z * Z)) (m : median) : option median :=
  do s <- network net (m_sorted m); Some (mkMedian (m_index m) (m_buffer m) s).

(* getValue: median_3_impl.hpp:82 sorted[1], median_5_impl.hpp:86 sorted[2], median_7_impl.hpp:96 sorted[3], median_9_impl.hpp:101 sorted[4] *)
Definition m_getValue (k : Z) (m : median) : option Z := znth (m_sorted m) k.

(* the four classes (the specialisations of the template): size, network, index read by getValue, whether update() copies *)
(* median_3_impl.hpp:21-40, median_5_impl.hpp:21-40, median_7_impl.hpp:18-37, median_9_impl.hpp:18-37 *)
Record mclass := mkClass { c_n : nat; c_net : list (Z * Z); c_mid : Z; c_copy : bool }.
Definition Median3 := mkClass 3 net3 1 true.    (* median_3_impl.hpp:21-40 *)
Definition Median5 := mkClass 5 net5 2 true.    (* median_5_impl.hpp:21-40 *)
Definition Median7 := mkClass 7 net7 3 false.   (* median_7_impl.hpp:18-37 *)
Definition Median9 := mkClass 9 net9 4 false.   (* median_9_impl.hpp:18-37 *)

(* a program calling the filter's methods *)
(* calls of median_3_impl.hpp:57, 67 (and the same in 5, 7, 9) *)
Inductive m_op := MAppend (x : Z) | MUpdate.
(* median_3_impl.hpp:57-76, median_5_impl.hpp:57-80, median_7_impl.hpp:54-90, median_9_impl.hpp:54-95 *)
Definition m_step (c : mclass) (m : median) (o : m_op) : option median :=
  match o with
  | MAppend x => if c_copy c then m_append_copy (Z.of_nat (c_n c)) m x else m_append_inplace (Z.of_nat (c_n c)) m x
  | MUpdate => if c_copy c then m_update_copy (c_net c) m else m_update_inplace (c_net c) m
  end.
(* a sequence of calls of median_3_impl.hpp:57-76 (and the same in 5, 7, 9) *)
Fixpoint m_run (c : mclass) (m : median) (os : list m_op) : option median :=
  match os with [] => Some m | o :: r => do m' <- m_step c m o; m_run c m' r end.
