(* What the atomic operations promise, on numbers; executions with interrupts. *)
From Verif Require Import Base AtomModel.

(* what each operation does with a number of len bits *)
Inductive reply := RDone | RValue (v : Z) | RSwapped (b : bool) (e : Z).
Definition alu_spec (len : Z) (k : alu) (x y : Z) : Z :=
  match k with
  | Add => (x + y) mod 2 ^ len
  | Sub => (x - y) mod 2 ^ len
  | And => Z.land x y
  | Or => Z.lor x y
  | Xor => Z.lxor x y
  | Nand => 2 ^ len - 1 - Z.land x y
  end.
Section Spec.
  Variable w : Z.
  Notation val := (join w).
  Definition op_spec (len : Z) (o : op) (x : Z) : Z * reply :=
    match o with
    | Load => (x, RValue x)
    | Store v => (val v, RDone)
    | Exchange v => (val v, RValue x)
    | CompareExchange e d => if x =? val e then (val d, RSwapped true (val e)) else (x, RSwapped false x)
    | Fetch k v => (alu_spec len k x (val v), RValue x)
    | OpFetch k v => let y := alu_spec len k x (val v) in (y, RValue y)
    end.
  (* the operations one after the other *)
  Fixpoint sequence (len : Z) (l : list op) (x : Z) : Z * list reply :=
    match l with
    | [] => (x, [])
    | o :: l => let '(y, r) := op_spec len o x in let '(z, rs) := sequence len l y in (z, r :: rs)
    end.
  Definition reply_of (a : answer) : reply := match a with Done => RDone | Value v => RValue (val v) | Swapped b e => RSwapped b (val e) end.
  (* n words *)
  Definition words (n : nat) (l : list Z) : Prop := length l = n /\ Forall (fun x => 0 <= x < 2 ^ w) l.
  Definition valid_op (n : nat) (o : op) : Prop :=
    match o with
    | Load => True
    | Store v | Exchange v | Fetch _ v | OpFetch _ v => words n v
    | CompareExchange e d => words n e /\ words n d
    end.
  Inductive valid_stmt (n : nat) : stmt -> Prop :=
  | v_do o : valid_op n o -> valid_stmt n (Do o)
  | v_block b body : Forall (valid_stmt n) body -> valid_stmt n (Block b body).

  (* An interrupt comes whenever PRIMASK is clear, its handler runs any program; handlers interrupt each other. *)
  Inductive step (n : nat) : core -> core -> Prop :=
  | s_exec s f rest s' : frames s = f :: rest -> exec w f rest s = Some s' -> step n s s'
  | s_irq s p : mask s = false -> Forall (valid_stmt n) p -> step n s (Core (mem s) (mask s) (Fr (prog_code n p) [] [] :: frames s) (log s))
  | s_return s f rest : frames s = f :: rest -> code f = [] -> rest <> [] -> step n s (Core (mem s) (mask s) rest (log s)).
  Definition boot (n : nat) (m : list Z) (main : list stmt) : core := Core m false [Fr (prog_code n main) [] []] [].
  Inductive reach (n : nat) (m : list Z) (main : list stmt) : core -> Prop :=
  | r_boot : reach n m main (boot n m main)
  | r_step s s' : reach n m main s -> step n s s' -> reach n m main s'.
End Spec.

(* an interrupt of this priority is masked (lower values are more urgent) *)
Definition masked_at (prio_bits basepri q : Z) : Prop := basepri <> 0 /\ basepri <= q * 2 ^ (8 - prio_bits).
