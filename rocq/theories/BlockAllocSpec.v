(* What an allocator of slots has to do, without memory or markers. *)
From Verif Require Import Base.

(* Slots are numbered from 0; a live block is (first slot, number of slots). *)
Definition block := (Z * Z)%type.

(* k slots from s on lie inside the heap and touch no live block *)
Definition fits (size : Z) (live : list block) (k s : Z) : Prop :=
  0 <= s /\ s + k <= size /\ forall s' k', In (s', k') live -> s + k <= s' \/ s' + k' <= s.

(* a request of r bytes takes the fewest slots that hold it and two 16 bit management words *)
Definition slots_for (BS r k : Z) : Prop := 2 * BS * (k - 1) < r + 4 <= 2 * BS * k.

(* first fit: the lowest place *)
Definition placed (size : Z) (live : list block) (k : Z) (where_ : option Z) : Prop :=
  match where_ with
  | Some s => fits size live k s /\ forall s', s' < s -> ~ fits size live k s'
  | None => forall s', ~ fits size live k s'
  end.

(* address of the first payload byte of the block at slot s, and the payload bytes *)
Definition payload_at (BS start s : Z) : Z := start + 2 * BS * s + 2.
Definition payload_end (BS start s k : Z) : Z := start + 2 * BS * (s + k) - 2.

Inductive user_event := UAlloc (r : Z) | UFree (p : Z) | UWrite (a v : Z).

(* one step: the pointer returned (0: none) and the live blocks afterwards *)
Inductive user_step (BS start size : Z) (live : list block) : user_event -> Z -> list block -> Prop :=
| step_alloc r k s : 0 <= r -> slots_for BS r k -> placed size live k (Some s) ->
    user_step BS start size live (UAlloc r) (payload_at BS start s) ((s, k) :: live)
| step_full r k : 0 <= r -> slots_for BS r k -> placed size live k None ->
    user_step BS start size live (UAlloc r) 0 live
| step_free before after s k : live = before ++ (s, k) :: after ->
    user_step BS start size live (UFree (payload_at BS start s)) 0 (before ++ after)
| step_free_null : user_step BS start size live (UFree 0) 0 live
| step_write a v s k : In (s, k) live -> payload_at BS start s <= a -> a + 2 <= payload_end BS start s k -> Z.Even (a - start) ->
    user_step BS start size live (UWrite a v) 0 live.

Inductive user_run (BS start size : Z) : list block -> list user_event -> list Z -> list block -> Prop :=
| run_nil live : user_run BS start size live [] [] live
| run_cons live e x live1 es xs live2 : user_step BS start size live e x live1 -> user_run BS start size live1 es xs live2 ->
    user_run BS start size live (e :: es) (x :: xs) live2.

(* number of slots taken *)
Definition taken (live : list block) : Z := fold_right (fun b n => snd b + n) 0 live.

(* every block inside the heap, no two sharing a slot *)
Definition blocks_ok (size : Z) (live : list block) : Prop :=
  (forall s k, In (s, k) live -> 0 <= s /\ 1 <= k /\ s + k <= size) /\
  ForallOrdPairs (fun a b => fst a + snd a <= fst b \/ fst b + snd b <= fst a) live.
