(* Executions of two cores with interrupts; who is where. *)
From Verif Require Import Base McModel.
Section Runs.
  Variable handler : list stmt -> Prop.   (* the programs that handlers may run *)
  Inductive step : st -> st -> Prop :=
  | s_exec c s f rest s' : frames (get c s) = f :: rest -> exec c f rest s = Some s' -> step s s'
  | s_irq c s p : mask (get c s) = false -> handler p -> step s (put c (Core (mask (get c s)) (Fr (prog_code p) [] 0 :: frames (get c s))) (taken s) s)
  | s_return c s f rest : frames (get c s) = f :: rest -> code f = [] -> rest <> [] -> step s (put c (Core (mask (get c s)) rest) (taken s) s).
  Inductive steps : st -> st -> Prop :=
  | t_refl s : steps s s
  | t_step s s' s'' : steps s s' -> step s' s'' -> steps s s''.
End Runs.
(* the spin lock is released at startup (startup_platform.cpp.in:22); both cores run *)
Definition boot (main0 main1 : list stmt) : st :=
  St false (Core false [Fr (prog_code main0) [] 0]) (Core false [Fr (prog_code main1) [] 0]).
Definition reach (handler : list stmt -> Prop) main0 main1 s : Prop := steps handler (boot main0 main1) s.

(* core c waits for the spin lock *)
Definition spinning (c : bool) (s : st) : Prop := exists f rest k, frames (get c s) = f :: rest /\ code f = Take :: k /\ taken s = true.
(* core c has nothing left to do *)
Definition finished (c : bool) (s : st) : Prop := exists f, frames (get c s) = [f] /\ code f = [].
(* core c can go on *)
Definition can_go_on (c : bool) (s : st) : Prop :=
  exists f rest, frames (get c s) = f :: rest /\
    ((code f = [] /\ rest <> []) \/ (code f <> [] /\ ~ spinning c s /\ exists s', exec c f rest s = Some s')).
(* no block inside a block *)
Inductive flat : stmt -> Prop :=
| f_other : flat Other
| f_lock body : Forall (fun s => s = Other) body -> flat (Lock body)
| f_guard body : Forall (fun s => s = Other) body -> flat (Guard body).
Inductive only_guards : stmt -> Prop :=
| g_other : only_guards Other
| g_guard body : Forall (fun s => s = Other) body -> only_guards (Guard body).
(* inside a block with the spin lock, seen from the instructions that are left *)
Definition count (x : instr) (c : list instr) : Z := zlen (filter (fun i => match x, i with Take, Take | Release, Release => true | _, _ => false end) c).
Definition inside (f : frame) : Prop := count Take (code f) < count Release (code f).
