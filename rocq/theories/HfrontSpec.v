(* The C heap over several memories as a program sees it. *)
From Verif Require Import Base TlsfModel TlsfSpec HfrontModel.

(* sections of memory that can carry an allocator: aligned, apart from each other, neither too small nor too large, with some trait *)
Definition section_ok (K F : Z) (x : section) : Prop :=
  let '(tr, start, fin) := x in
  0 < tr < 2 ^ 16 /\ 8 <= start /\ start mod 4 = 0 /\ fin <= 2 ^ 32 /\ start + ctl_bytes K F + 20 <= fin /\ fin - start < 2 ^ F + 8.
Definition table_ok (K F : Z) (table : list section) : Prop :=
  Forall (section_ok K F) table /\ ForallOrdPairs (fun x y : section => snd x <= snd (fst y) \/ snd y <= snd (fst x)) table.

(* a store by the program *)
Definition store (a v : Z) (p : pool) : pool := Pl (ptraits p) (ctl p) (pend p) (wr (hs p) a v).

(* programs that free and resize only live blocks and write only to them *)
Inductive freach (K F : Z) : list pool -> list (Z * Z) -> Prop :=
| f_init m table pools : table_ok K F table -> initialize K F m table = Some pools -> freach K F pools []
| f_malloc pools A size traits pools' p : freach K F pools A -> request_ok K F size -> 0 <= traits < 2 ^ 32 -> malloc_traits K F pools size traits = Some (pools', p) ->
    freach K F pools' (take p size A)
| f_free pools A p n pools' : freach K F pools A -> In (p, n) A -> free_r K F pools p = Some pools' -> freach K F pools' (drop p A)
| f_realloc pools A p n size pools' q : freach K F pools A -> In (p, n) A -> 0 < size <= max_request K F -> realloc_r K F pools p size = Some (pools', q) ->
    freach K F pools' (if q =? 0 then A else (q, size) :: drop p A)
| f_write pools A a v : freach K F pools A -> a mod 4 = 0 -> owned A a -> freach K F (map (store a v) pools) A.

(* all bits of want are in have *)
Definition covers (have want : Z) : Prop := forall i, 0 <= i -> Z.testbit want i = true -> Z.testbit have i = true.
(* Bit 13 is core coupled, bit 15 external, bit 0 the system bus. *)
(* memory with the traits asked for, or at least those that are not given up *)
Definition meets (have traits : Z) : Prop := forall i, 0 <= i -> Z.testbit traits i = true -> i <> 13 -> i <> 15 -> Z.testbit have i = true.
(* no memory of that size left in that allocator *)
Definition exhausted (K F : Z) (p : pool) (size : Z) : Prop := tlsf_malloc K F (ctl p) (hs p) size = Some (hs p, 0).
(* the section belongs to an allocator with its traits *)
Definition covered (pools : list pool) (x : section) : Prop := exists p, In p pools /\ ptraits p = fst (fst x) /\ ctl p <= snd (fst x) /\ snd x <= pend p.
