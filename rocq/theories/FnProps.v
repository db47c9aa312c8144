(* Properties of modm::inplace_function. *)
From Verif Require Import Base FnModel FnSpec FnProofs.

(* callables of type 1 add, those of type 2 count their calls *)
Definition demo_run (t v arg : Z) : Z * Z := if t =? 1 then (v + arg, v) else (v, v + 1).
Definition demo_ops : list op := [Closure 0 1 10; Closure 8 2 5; Create 16; Call 8 0; Copy 24 8].
Definition unusedb (s : st) (i : Z) : bool := match vt s i, stor s i with None, None => true | _, _ => false end.
Definition existsb_at (s : st) (i : Z) : bool := match vt s i with None => false | Some _ => true end.
Definition holdsb (s : st) (i : Z) : bool := match contents s i with Holds _ _ => true | _ => false end.
Definition legalb (s : st) (o : op) : bool :=
  match o with
  | Create i | Closure i _ _ => unusedb s i
  | Copy i j | Move i j | MoveOther i j => unusedb s i && existsb_at s j
  | Destroy i | AssignNull i => existsb_at s i
  | AssignCopy i j p | AssignMove i j p => existsb_at s i && existsb_at s j && unusedb s p
  | AssignMoveOther i j p => existsb_at s i && existsb_at s j && unusedb s p && negb (i =? j)
  | AssignClosure i _ _ p => existsb_at s i && unusedb s p
  | Swap i j tmp => existsb_at s i && existsb_at s j && unusedb s tmp
  | Call i _ => holdsb s i
  end.
Lemma unusedb_ok s i : unusedb s i = true -> unused s i.
Proof. unfold unusedb, unused. destruct (vt s i), (stor s i); try discriminate. auto. Qed.
Lemma existsb_ok s i : existsb_at s i = true -> exists_at s i.
Proof. unfold existsb_at, exists_at, contents. destruct (vt s i); [|discriminate]. destruct (stor s i); discriminate. Qed.
Lemma legalb_ok s o : legalb s o = true -> legal s o.
Proof.
  destruct o; cbn [legalb legal]; rewrite ?andb_true_iff, ?negb_true_iff, ?Z.eqb_neq; intuition auto using unusedb_ok, existsb_ok.
  unfold holdsb in H. destruct (contents s i) as [| |t v]; try discriminate. eauto.
Qed.
(* running operations that are all legal *)
Fixpoint play (l : list op) (s : st) : option st := match l with [] => Some s | o :: l => if legalb s o then do s <- exec demo_run o s; play l s else None end.
Lemma play_reach l : forall s s', reach demo_run s -> play l s = Some s' -> reach demo_run s'.
Proof.
  induction l as [|o l IH]; cbn [play]; intros s s' R E; [injection E as <-; exact R|]. destruct (legalb s o) eqn:L; [|discriminate]. destruct (exec demo_run o s) as [s1|] eqn:X; [|discriminate].
  exact (IH s1 s' (r_step demo_run s o s1 R (legalb_ok s o L) X) E).
Qed.
Lemma play_contents l : forall s s', reach demo_run s -> play l s = Some s' -> forall k, contents s' k = fold_left (fun c o => effect demo_run o c) l (contents s) k.
Proof.
  induction l as [|o l IH]; cbn [play fold_left]; intros s s' R E k; [injection E as <-; reflexivity|]. destruct (legalb s o) eqn:L; [|discriminate]. destruct (exec demo_run o s) as [s1|] eqn:X; [|discriminate].
  cbn [obind] in E. rewrite (IH s1 s' (r_step demo_run s o s1 R (legalb_ok s o L) X) E k).
  destruct (exec_ok demo_run s o (reach_WF _ _ R) (legalb_ok s o L)) as (s2 & X2 & _ & C). rewrite X in X2. injection X2 as <-.
  assert (EXT : forall l c d, (forall k, c k = d k) -> forall k, fold_left (fun c o => effect demo_run o c) l c k = fold_left (fun c o => effect demo_run o c) l d k).
  { clear. induction l as [|o l IH]; cbn [fold_left]; intros c d H k; [apply H|]. apply IH. intro j. destruct o; cbn [effect]; unfold FnSpec.upd; rewrite ?H; try reflexivity.
    destruct (d i); rewrite ?H; reflexivity. }
  apply EXT. exact C.
Qed.
Definition demo : st := match play demo_ops start with Some s => s | None => start end.
Lemma demo_is : play demo_ops start = Some demo.
Proof.
  unfold demo. destruct (play demo_ops start) as [s|] eqn:E; [reflexivity|]. exfalso.
  assert (Q : (match play demo_ops start with None => true | _ => false end) = false) by (vm_compute; reflexivity). rewrite E in Q. discriminate.
Qed.
Lemma demo_reach : reach demo_run demo.
Proof. exact (play_reach demo_ops start demo (r_start _) demo_is). Qed.
Lemma result_is {A} (x : option st) (f : st -> A) y : option_map f x = Some y -> exists s', x = Some s' /\ f s' = y.
Proof. destruct x as [s'|]; [|discriminate]. intro H. injection H as H. exists s'. auto. Qed.
Example demo_contents : map (contents demo) [0; 8; 16; 24; 32] = [Holds 1 10; Holds 2 6; Empty; Holds 2 6; Nothing].
Proof. vm_compute. reflexivity. Qed.

(* C81: every operation is defined and leaves the intended contents in all functions, whatever was stored before; also self-assignment,
   self-move and swapping with itself or with an empty function. *)
Theorem C81_operations : forall run s o, reach run s -> legal s o ->
  exists s', exec run o s = Some s' /\ forall k, contents s' k = effect run o (contents s) k.
Proof. intros run s o R L. destruct (exec_ok run s o (reach_WF run s R) L) as (s' & E & _ & C). eauto. Qed.
Example C81_operations_case : legal demo (Swap 0 16 40) /\ legal demo (AssignMove 8 8 40) /\
  exists s', exec demo_run (Swap 0 16 40) demo = Some s' /\ map (contents s') [0; 8; 16; 24; 40] = [Empty; Holds 2 6; Holds 1 10; Holds 2 6; Nothing].
Proof.
  split; [apply legalb_ok; vm_compute; reflexivity|]. split; [apply legalb_ok; vm_compute; reflexivity|].
  refine (result_is _ (fun s' => map (contents s') _) _ _). vm_compute. reflexivity.
Qed.

(* C81: a callable is constructed once, destroyed at most once and only after its construction, and is alive exactly while it is in the
   storage of one function. *)
Theorem C81_exactly_once : forall run s, reach run s ->
  NoDup (log s) /\ (forall l1 id l2, log s = l1 ++ Dtor id :: l2 -> In (Ctor id) l1) /\
  (forall id, In (Ctor id) (log s) /\ ~ In (Dtor id) (log s) <-> exists i, inside s i id) /\
  (forall i j id, inside s i id -> inside s j id -> i = j) /\
  (forall i id, inside s i id -> exists_at s i).
Proof.
  intros run s R. destruct (reach_WF run s R) as [(L & _ & _) G]. split; [exact (l_nodup s L)|]. split; [exact (l_order s L)|]. split; [|split; [exact (l_one s L)|]].
  - intro id. split; [intros [C D]; exact (l_held s L id C D)|intros [i H]; exact (l_alive s L i id H)].
  - intros i id (o & E & _). unfold exists_at, contents. specialize (G i). destruct (vt s i); [rewrite E; discriminate|]. unfold obs in G. rewrite E in G. discriminate.
Qed.
Example C81_exactly_once_case : reach demo_run demo /\ log demo = [Ctor 0; Ctor 1; Ctor 2] /\ inside demo 24 2 /\
  exists s', exec demo_run (AssignCopy 0 8 40) demo = Some s' /\ log s' = [Ctor 0; Ctor 1; Ctor 2; Ctor 3; Dtor 0; Ctor 4; Dtor 3].
Proof.
  split; [exact demo_reach|]. split; [vm_compute; reflexivity|]. split; [exists (Obj 2 2 6); split; vm_compute; reflexivity|]. refine (result_is _ log _ _). vm_compute. reflexivity.
Qed.

(* C81: once all functions are gone, every callable that was constructed is destroyed. *)
Theorem C81_all_destroyed : forall run s, reach run s -> (forall i, contents s i = Nothing) -> forall id, In (Ctor id) (log s) <-> In (Dtor id) (log s).
Proof.
  intros run s R N id. destruct (C81_exactly_once run s R) as (_ & O & H & _ & E). split.
  - intro C. assert (DEC : forall x y : event, {x = y} + {x <> y}) by (decide equality; apply Z.eq_dec).
    destruct (in_dec DEC (Dtor id) (log s)) as [D|D]; [exact D|]. destruct (proj1 (H id) (conj C D)) as [i I]. elim (E i id I). apply N.
  - intro D. apply in_split in D. destruct D as (l1 & l2 & D). rewrite D, in_app_iff. left. exact (O l1 id l2 D).
Qed.
Definition demo_ops2 : list op := demo_ops ++ [AssignMove 16 0 40; Destroy 24; Destroy 16; Destroy 8; Destroy 0].
Example C81_all_destroyed_case : exists s, play demo_ops2 start = Some s /\ length (log s) = 10%nat /\ reach demo_run s /\ (forall i, contents s i = Nothing).
Proof.
  destruct (result_is (play demo_ops2 start) (fun s => length (log s)) 10%nat) as (s & E & L); [vm_compute; reflexivity|]. exists s. split; [exact E|]. split; [exact L|]. split; [exact (play_reach _ _ _ (r_start _) E)|].
  intro i. rewrite (play_contents _ _ _ (r_start _) E). unfold demo_ops2, demo_ops. cbn [app fold_left effect contents start vt]. unfold FnSpec.upd.
  repeat match goal with |- context [i =? ?b] => destruct (Z.eqb_spec i b); [subst; reflexivity|] end.
  cbn. rewrite !(proj2 (Z.eqb_neq i _)) by assumption. reflexivity.
Qed.

(* C81: a call runs the stored callable with the argument on its current value, returns its result and keeps the changed value for the next
   call; no other function changes. *)
Theorem C81_call : forall run s i arg t v, reach run s -> contents s i = Holds t v ->
  exists s', call run i arg s = Some (s', fst (run t v arg)) /\ contents s' i = Holds t (snd (run t v arg)) /\ forall k, k <> i -> contents s' k = contents s k.
Proof.
  intros run s i arg t v R C. destruct (C81_operations run s (Call i arg) R) as (s' & E & K); [cbn; eauto|]. cbn [exec effect] in *. rewrite C in K.
  destruct (call run i arg s) as [[s2 r]|] eqn:CE; [|discriminate]. cbn [obind fst] in E. injection E as ->. exists s'. split; [|split].
  - f_equal. f_equal. unfold call in CE. destruct (vt s i) as [w|]; [|discriminate]. cbn [obind] in CE. unfold contents in C. unfold invoke_ptr in CE. destruct w as [t'|]; [|discriminate].
    destruct (stor s i) as [o|]; [|discriminate]. cbn [obind] in CE. destruct (vt s i); [|discriminate]. injection C as CT CV. destruct (Z.eqb_spec (oty o) t') as [T|]; [|discriminate].
    rewrite CT in T. subst t'. rewrite CV in CE. destruct (run t v arg) as [r' v']. injection CE as _ <-. reflexivity.
  - rewrite K. unfold FnSpec.upd. rewrite Z.eqb_refl. reflexivity.
  - intros k N. rewrite K. unfold FnSpec.upd. replace (k =? i) with false by lia. reflexivity.
Qed.
Example C81_call_case : reach demo_run demo /\ contents demo 24 = Holds 2 6 /\
  option_map (fun x => (snd x, contents (fst x) 24, contents (fst x) 8)) (call demo_run 24 0 demo) = Some (6, Holds 2 7, Holds 2 6).
Proof. split; [exact demo_reach|]. split; vm_compute; reflexivity. Qed.

(* C81: operator bool and the comparisons with nullptr tell whether a callable is stored, and calling an empty function fails the assertion. *)
Theorem C81_empty : forall run s i, reach run s -> exists_at s i ->
  to_bool i s = Some (match contents s i with Holds _ _ => true | _ => false end) /\ (contents s i = Empty -> forall arg, call run i arg s = None).
Proof.
  intros run s i R X. destruct (reach_WF run s R) as [_ G]. destruct (exists_vt s i X) as (w & E). specialize (G i). rewrite E in G. unfold to_bool, call, contents in *. rewrite E in *. cbn [obind].
  unfold obs in G. destruct w as [t|], (stor s i) as [o|]; cbn in G; try contradiction; (split; [reflexivity|]); intros H arg; [discriminate|reflexivity].
Qed.
Example C81_empty_case : reach demo_run demo /\ exists_at demo 16 /\ to_bool 16 demo = Some false /\ to_bool 24 demo = Some true /\ call demo_run 16 3 demo = None.
Proof. split; [exact demo_reach|]. split; [apply existsb_ok; vm_compute; reflexivity|]. split; [vm_compute; reflexivity|]. split; vm_compute; reflexivity. Qed.

Print Assumptions C81_operations.
Print Assumptions C81_exactly_once.
Print Assumptions C81_all_destroyed.
Print Assumptions C81_call.
Print Assumptions C81_empty.
