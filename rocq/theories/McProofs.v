(* Proofs about the critical sections on two cores. *)
From Verif Require Import Base McModel McSpec.

(* the remaining code gives back what is held, and restores what is saved *)
Fixpoint bal (c : list instr) (d h : nat) : Prop :=
  match c with
  | [] => h = 0%nat /\ d = 0%nat
  | Take :: c => bal c d (S h)
  | Release :: c => exists h', h = S h' /\ bal c d h'
  | Save :: c => bal c (S d) h
  | Restore :: c => exists d', d = S d' /\ bal c d' h
  | Disable :: c | Work :: c => bal c d h
  end.
Lemma stmt_ind2 (P : stmt -> Prop) : P Other -> (forall b, Forall P b -> P (Lock b)) -> (forall b, Forall P b -> P (Guard b)) -> forall s, P s.
Proof.
  intros H0 H1 H2. fix IH 1. intros [|b|b]; [exact H0|apply H1|apply H2]; induction b as [|s b IHb]; constructor; auto.
Qed.
Lemma bal_body b : Forall (fun s => forall c d h, bal c d h -> bal (stmt_code s ++ c) d h) b -> forall c d h, bal c d h -> bal (flat_map stmt_code b ++ c) d h.
Proof. induction 1 as [|s b H _ IH]; intros c d h B; cbn [flat_map app]; [exact B|]. rewrite <- app_assoc. apply H. now apply IH. Qed.
Lemma bal_stmt s : forall c d h, bal c d h -> bal (stmt_code s ++ c) d h.
Proof.
  induction s as [|b IH|b IH] using stmt_ind2; intros c d h B; cbn [stmt_code app bal]; [exact B|..]; rewrite <- app_assoc.
  - apply bal_body; [exact IH|]. cbn [app bal]. eexists; split; [reflexivity|]. eexists; split; [reflexivity|]. exact B.
  - apply bal_body; [exact IH|]. cbn [app bal]. eexists; split; [reflexivity|]. eexists; split; [reflexivity|]. exact B.
Qed.
Lemma bal_prog p : bal (prog_code p) 0 0.
Proof. unfold prog_code. induction p as [|s p IH]; cbn [flat_map]; [split; reflexivity|]. now apply bal_stmt. Qed.

Definition fbal (f : frame) : Prop := bal (code f) (length (saved f)) (holds f).
Definition total (l : list frame) : nat := fold_right (fun f n => (holds f + n)%nat) 0%nat l.
Record inv (s : st) : Prop := {
  i_bal : forall c, Forall fbal (frames (get c s));
  i_ne : forall c, frames (get c s) <> [];
  i_sum : (total (frames (core0 s)) + total (frames (core1 s)) = if taken s then 1 else 0)%nat }.
Lemma get_put c c' x t s : get c' (put c x t s) = if Bool.eqb c c' then x else get c' s.
Proof. destruct c, c'; reflexivity. Qed.
Lemma taken_put c x t s : taken (put c x t s) = t. Proof. destruct c; reflexivity. Qed.
Definition sum (s : st) : nat := (total (frames (core0 s)) + total (frames (core1 s)))%nat.
Lemma sum_put c x t s : (sum (put c x t s) + total (frames (get c s)) = sum s + total (frames x))%nat.
Proof. unfold sum. destruct c; cbn; lia. Qed.
Lemma inv_put c x (t : bool) s : inv s -> Forall fbal (frames x) -> frames x <> [] ->
  (total (frames x) + (if taken s then 1 else 0) = total (frames (get c s)) + (if t then 1 else 0))%nat -> inv (put c x t s).
Proof.
  intros [B N S0] F NE E. split.
  - intros c'. rewrite get_put. destruct (Bool.eqb c c'); auto.
  - intros c'. rewrite get_put. destruct (Bool.eqb c c'); auto.
  - rewrite taken_put. fold (sum (put c x t s)). fold (sum s) in S0. pose proof (sum_put c x t s). lia.
Qed.
Lemma inv_boot a b : inv (boot a b).
Proof.
  split; [intros []; repeat constructor; apply bal_prog|intros []; discriminate|reflexivity].
Qed.
Lemma holds_le c f rest s : inv s -> frames (get c s) = f :: rest -> (holds f + total rest <= if taken s then 1 else 0)%nat.
Proof. intros [B N S0] F. destruct c; cbn [get] in F; rewrite F in S0; cbn [total fold_right] in S0; fold (total rest) in S0; lia. Qed.
Lemma inv_exec c f rest s : inv s -> frames (get c s) = f :: rest -> code f <> [] -> exists s', exec c f rest s = Some s' /\ inv s'.
Proof.
  intros I F NE. pose proof (i_bal s I c) as B. rewrite F in B. inversion B as [|? ? BF BR]; subst. pose proof (holds_le c f rest s I F) as HL.
  unfold fbal in BF. unfold exec. destruct (code f) as [|i k] eqn:C; [congruence|].
  assert (forall m d h (t : bool), bal k (length d) h -> (h + (if taken s then 1 else 0) = holds f + (if t then 1 else 0))%nat ->
    inv (put c (Core m (Fr k d h :: rest)) t s)) as K.
  { intros m d h t BB E. apply inv_put; [exact I|constructor; [exact BB|exact BR]|discriminate|]. rewrite F. cbn. lia. }
  destruct i; cbn [bal] in BF.
  - destruct (taken s) eqn:T; [exists s; auto|]. eexists; split; [reflexivity|]. apply K; [exact BF|lia].
  - destruct BF as (h' & E & BF). eexists; split; [reflexivity|]. apply K; [rewrite E; exact BF|]. rewrite E in *. destruct (taken s); cbn; lia.
  - eexists; split; [reflexivity|]. apply K; [exact BF|reflexivity].
  - eexists; split; [reflexivity|]. apply K; [exact BF|reflexivity].
  - destruct BF as (d' & E & BF). destruct (saved f) as [|b l]; [discriminate|]. injection E as <-. eexists; split; [reflexivity|]. apply K; [exact BF|reflexivity].
  - eexists; split; [reflexivity|]. apply K; [exact BF|reflexivity].
Qed.
Lemma inv_step handler s s' : inv s -> step handler s s' -> inv s'.
Proof.
  intros I ST. destruct ST as [c s f rest s' F E|c s p M H|c s f rest F C NE].
  - destruct (inv_exec c f rest s I F) as (s2 & E2 & I2); [|congruence]. intros X. unfold exec in E. rewrite X in E. discriminate.
  - apply inv_put; [exact I| |discriminate|reflexivity]. constructor; [apply bal_prog|apply (i_bal s I c)].
  - pose proof (i_bal s I c) as B. rewrite F in B. inversion B as [|? ? BF BR]; subst. apply inv_put; [exact I|exact BR|exact NE|].
    rewrite F. unfold fbal in BF. rewrite C in BF. destruct BF as [E _]. cbn [total fold_right frames]. rewrite E. reflexivity.
Qed.
Lemma inv_steps handler s s' : inv s -> steps handler s s' -> inv s'.
Proof. intros I H. induction H; [exact I|]. apply (inv_step handler s'); auto. Qed.
Lemma inv_reach handler a b s : reach handler a b s -> inv s.
Proof. apply inv_steps, inv_boot. Qed.

Lemma total_in l f : In f l -> (holds f <= total l)%nat.
Proof. induction l as [|g l IH]; [intros []|]. cbn [total fold_right]. fold (total l). intros [->|H]; [lia|]. specialize (IH H). lia. Qed.

(** *** Deadlock *)
Lemma stuck_step handler c f g rest s l s' : inv s -> frames (get c s) = l ++ f :: g :: rest -> (exists k, code f = Take :: k) -> (0 < holds g)%nat ->
  step handler s s' -> taken s' = true /\ exists l', frames (get c s') = l' ++ f :: g :: rest.
Proof.
  intros I F [k C] H ST.
  assert (T : taken s = true).
  { pose proof (i_sum s I) as S0. destruct (taken s); [reflexivity|exfalso].
    assert (holds g <= total (frames (get c s)))%nat by (apply total_in; rewrite F; apply in_or_app; right; right; left; reflexivity).
    destruct c; cbn [get] in *; lia. }
  assert (ONE : forall c' f' rest', frames (get c' s) = f' :: rest' -> holds f' = 0%nat).
  { intros c' f' rest' F'. pose proof (i_sum s I) as S0. rewrite T in S0.
    assert (SG : (holds f' + (if Bool.eqb c c' then 0 else holds g) <= total (frames (get c' s)) + (if Bool.eqb c c' then 0 else total (frames (get c s))))%nat /\
                 (c = c' -> (holds f' + holds g <= total (frames (get c s)))%nat)).
    { split.
      - rewrite F'. cbn [total fold_right]. destruct (Bool.eqb c c'); [lia|].
        assert (holds g <= total (frames (get c s)))%nat by (apply total_in; rewrite F; apply in_or_app; right; right; left; reflexivity). lia.
      - intros <-. rewrite F in F'. rewrite F. destruct l as [|x l].
        + injection F' as <- <-. cbn. lia.
        + injection F' as <- <-. cbn [app total fold_right]. fold (total (l ++ f :: g :: rest)).
          assert (holds g <= total (l ++ f :: g :: rest))%nat by (apply total_in; apply in_or_app; right; right; left; reflexivity). lia. }
    destruct SG as [S1 S2]. destruct c, c'; cbn [Bool.eqb get] in *; try (specialize (S2 eq_refl)); lia. }
  destruct ST as [c' s f' rest' s' F' E|c' s p M HH|c' s f' rest' F' C' NE].
  - unfold exec in E. destruct (code f') as [|i k'] eqn:CF; [discriminate|].
    assert (i <> Release) as NR.
    { intros ->. pose proof (i_bal s I c') as B. rewrite F' in B. inversion B as [|? ? BF BR]; subst. unfold fbal in BF. rewrite CF in BF. destruct BF as (h' & E' & _).
      rewrite (ONE c' f' rest' F') in E'. discriminate. }
    assert (K : forall m d h t, i <> Take -> t = true -> taken (put c' (Core m (Fr k' d h :: rest')) t s) = true /\
      exists l', frames (get c (put c' (Core m (Fr k' d h :: rest')) t s)) = l' ++ f :: g :: rest).
    { intros m d h t NT ->. split; [apply taken_put|]. rewrite get_put. destruct (Bool.eqb c' c) eqn:EB; [|now exists l].
      apply eqb_prop in EB as ->. rewrite F in F'. destruct l as [|x l]; cbn [app] in F'; injection F' as <- <-.
      - rewrite C in CF. injection CF as <- _. congruence.
      - now exists (Fr k' d h :: l). }
    rewrite T in E. destruct i; try (injection E as <-; apply K; [discriminate|reflexivity]).
    + injection E as <-. split; [exact T|]. now exists l.
    + congruence.
    + destruct (saved f'); [discriminate|]. injection E as <-. apply K; [discriminate|reflexivity].
  - split; [now rewrite taken_put|]. rewrite get_put. destruct (Bool.eqb c' c) eqn:EB; [|now exists l]. apply eqb_prop in EB as ->. cbn [frames]. rewrite F.
    eexists (_ :: l). reflexivity.
  - split; [now rewrite taken_put|]. rewrite get_put. destruct (Bool.eqb c' c) eqn:EB; [|now exists l]. apply eqb_prop in EB as ->. cbn [frames].
    rewrite F in F'. destruct l as [|x l]; cbn [app] in F'; injection F' as <- <-; [congruence|]. now exists l.
Qed.
Lemma stuck handler c f g rest s s' : inv s -> frames (get c s) = f :: g :: rest -> (exists k, code f = Take :: k) -> (0 < holds g)%nat ->
  steps handler s s' -> taken s' = true /\ exists l', frames (get c s') = l' ++ f :: g :: rest.
Proof.
  intros I F C H ST. induction ST as [s|s s' s'' ST IH S1].
  - split; [|now exists []]. pose proof (i_sum s I) as S0. destruct (taken s); [reflexivity|exfalso].
    assert (holds g <= total (frames (get c s)))%nat by (apply total_in; rewrite F; right; left; reflexivity).
    destruct c; cbn [get] in *; lia.
  - destruct (IH I F) as (_ & l & F'). apply (stuck_step handler c f g rest s' l s''); auto. now apply (inv_steps handler s).
Qed.
Lemma nested_step handler c f rest s l s' : inv s -> frames (get c s) = l ++ f :: rest -> (exists k, code f = Take :: k) -> (0 < holds f)%nat ->
  step handler s s' -> taken s' = true /\ exists l', frames (get c s') = l' ++ f :: rest.
Proof.
  intros I F [k C] H ST.
  assert (T : taken s = true).
  { pose proof (i_sum s I) as S0. destruct (taken s); [reflexivity|exfalso].
    assert (holds f <= total (frames (get c s)))%nat by (apply total_in; rewrite F; apply in_or_app; right; left; reflexivity).
    destruct c; cbn [get] in *; lia. }
  assert (ONE : forall c' f' rest', frames (get c' s) = f' :: rest' -> code f' <> Take :: k -> holds f' = 0%nat).
  { intros c' f' rest' F' NC. pose proof (i_sum s I) as S0. rewrite T in S0.
    assert (S1 : (holds f <= total (frames (get c s)))%nat) by (apply total_in; rewrite F; apply in_or_app; right; left; reflexivity).
    assert (S2 : (holds f' <= total (frames (get c' s)))%nat) by (apply total_in; rewrite F'; left; reflexivity).
    assert (S3 : c = c' -> (holds f' + holds f <= total (frames (get c s)))%nat).
    { intros <-. rewrite F in F'. rewrite F. destruct l as [|x l].
      - injection F' as <- <-. congruence.
      - injection F' as <- <-. cbn [app total fold_right]. fold (total (l ++ f :: rest)).
        assert (holds f <= total (l ++ f :: rest))%nat by (apply total_in; apply in_or_app; right; left; reflexivity). lia. }
    destruct c, c'; cbn [get] in *; try (specialize (S3 eq_refl)); lia. }
  destruct ST as [c' s f' rest' s' F' E|c' s p M HH|c' s f' rest' F' C' NE].
  - unfold exec in E. destruct (code f') as [|i k'] eqn:CF; [discriminate|].
    assert (i <> Release) as NR.
    { intros ->. pose proof (i_bal s I c') as B. rewrite F' in B. inversion B as [|? ? BF BR]; subst. unfold fbal in BF. rewrite CF in BF. destruct BF as (h' & E' & _).
      rewrite (ONE c' f' rest' F') in E' by congruence. discriminate. }
    assert (K : forall m d h t, i <> Take -> t = true -> taken (put c' (Core m (Fr k' d h :: rest')) t s) = true /\
      exists l', frames (get c (put c' (Core m (Fr k' d h :: rest')) t s)) = l' ++ f :: rest).
    { intros m d h t NT ->. split; [apply taken_put|]. rewrite get_put. destruct (Bool.eqb c' c) eqn:EB; [|now exists l].
      apply eqb_prop in EB as ->. rewrite F in F'. destruct l as [|x l]; cbn [app] in F'; injection F' as <- <-.
      - rewrite C in CF. injection CF as <- _. congruence.
      - now exists (Fr k' d h :: l). }
    rewrite T in E. destruct i; try (injection E as <-; apply K; [discriminate|reflexivity]).
    + injection E as <-. split; [exact T|]. now exists l.
    + congruence.
    + destruct (saved f'); [discriminate|]. injection E as <-. apply K; [discriminate|reflexivity].
  - split; [now rewrite taken_put|]. rewrite get_put. destruct (Bool.eqb c' c) eqn:EB; [|now exists l]. apply eqb_prop in EB as ->. cbn [frames]. rewrite F.
    eexists (_ :: l). reflexivity.
  - split; [now rewrite taken_put|]. rewrite get_put. destruct (Bool.eqb c' c) eqn:EB; [|now exists l]. apply eqb_prop in EB as ->. cbn [frames].
    rewrite F in F'. destruct l as [|x l]; cbn [app] in F'; injection F' as <- <-; [congruence|]. now exists l.
Qed.
Lemma nested_stuck handler c f rest s s' : inv s -> frames (get c s) = f :: rest -> (exists k, code f = Take :: k) -> (0 < holds f)%nat ->
  steps handler s s' -> taken s' = true /\ exists l', frames (get c s') = l' ++ f :: rest.
Proof.
  intros I F C H ST. induction ST as [s|s s' s'' ST IH S1].
  - split; [|now exists []]. pose proof (i_sum s I) as S0. destruct (taken s); [reflexivity|exfalso].
    assert (holds f <= total (frames (get c s)))%nat by (apply total_in; rewrite F; left; reflexivity).
    destruct c; cbn [get] in *; lia.
  - destruct (IH I F) as (_ & l & F'). apply (nested_step handler c f rest s' l s''); auto. now apply (inv_steps handler s).
Qed.

(** *** Progress *)
(* g: only guards, with interrupts disabled while the lock is held *)
Fixpoint flatc (g : bool) (c : list instr) (sv : list bool) (m : bool) (h : nat) : Prop :=
  (g = true -> h = 0%nat \/ m = true) /\
  match c with
  | [] => m = false
  | Take :: c => h = 0%nat /\ flatc g c sv m (S h)
  | Release :: c => flatc g c sv m (pred h)
  | Save :: c => flatc g c (m :: sv) m h
  | Restore :: c => match sv with [] => True | b :: sv => flatc g c sv b h end
  | Disable :: c => flatc g c sv true h
  | Work :: c => flatc g c sv m h
  end.
Lemma others b : Forall (fun s => s = Other) b -> flat_map stmt_code b = repeat Work (length b).
Proof. induction 1 as [|s b -> _ IH]; [reflexivity|]. cbn. now f_equal. Qed.
Lemma flatc_work g n c sv m h : flatc g c sv m h -> flatc g (repeat Work n ++ c) sv m h.
Proof.
  intros F. induction n as [|n IH]; cbn [repeat app]; [exact F|]. cbn [flatc]. split; [|exact IH]. destruct (repeat Work n ++ c) as [|[]]; cbn [flatc] in IH; apply IH.
Qed.
Lemma flatc_guard c : Forall only_guards c -> flatc true (prog_code c) [] false 0.
Proof.
  unfold prog_code. induction 1 as [|s p H _ IH]; cbn [flat_map]; [cbn; auto|]. destruct H as [|b B].
  - cbn [stmt_code app flatc]. auto.
  - cbn [stmt_code]. rewrite (others b B). rewrite <- !app_assoc. cbn [app flatc]. do 3 (split; [auto|]). split; [reflexivity|].
    apply flatc_work. cbn [app flatc pred]. auto.
Qed.
Lemma flatc_flat c : Forall flat c -> flatc false (prog_code c) [] false 0.
Proof.
  unfold prog_code. induction 1 as [|s p H _ IH]; cbn [flat_map]; [cbn; auto; discriminate|]. destruct H as [|b B|b B].
  - cbn [stmt_code app flatc]. split; [discriminate|exact IH].
  - cbn [stmt_code]. rewrite (others b B). rewrite <- !app_assoc. cbn [app flatc]. split; [discriminate|]. split; [reflexivity|]. do 2 (split; [discriminate|]).
    apply flatc_work. cbn [app flatc pred]. do 2 (split; [discriminate|]). exact IH.
  - cbn [stmt_code]. rewrite (others b B). rewrite <- !app_assoc. cbn [app flatc]. do 3 (split; [discriminate|]). split; [reflexivity|].
    apply flatc_work. cbn [app flatc pred]. do 2 (split; [discriminate|]). exact IH.
Qed.
Definition handler_ok (g : bool) (p : list stmt) : Prop := if g then Forall only_guards p else Forall (fun s => s = Other) p.
Definition main_ok (g : bool) (p : list stmt) : Prop := if g then Forall only_guards p else Forall flat p.
Lemma handler_flatc g p : handler_ok g p -> flatc g (prog_code p) [] false 0.
Proof.
  destruct g; cbn; intros H; [now apply flatc_guard|]. apply flatc_flat. eapply Forall_impl; [|exact H]. intros s ->. constructor.
Qed.
Lemma main_flatc g p : main_ok g p -> flatc g (prog_code p) [] false 0.
Proof. destruct g; cbn; intros H; [now apply flatc_guard|now apply flatc_flat]. Qed.
Lemma flatc_head g c sv m h : flatc g c sv m h -> g = true -> h = 0%nat \/ m = true.
Proof. destruct c as [|[]]; cbn; tauto. Qed.
(* in the other case handlers contain nothing but work *)
Definition lazy_ (f : frame) : Prop := holds f = 0%nat /\ exists n, code f = repeat Work n.
Record pinv (g : bool) (s : st) : Prop := {
  p_top : forall c f rest, frames (get c s) = f :: rest -> flatc g (code f) (saved f) (mask (get c s)) (holds f) /\
          Forall (fun x => flatc g (code x) (saved x) false (holds x)) rest;
  p_lazy : g = false -> forall c l f, frames (get c s) = l ++ [f] -> Forall lazy_ l }.
Lemma flatc_next g i c sv m h : flatc g (i :: c) sv m h -> match i with
  | Take => h = 0%nat /\ flatc g c sv m (S h) | Release => flatc g c sv m (pred h) | Save => flatc g c (m :: sv) m h
  | Restore => match sv with [] => True | b :: sv => flatc g c sv b h end | Disable => flatc g c sv true h | Work => flatc g c sv m h end.
Proof. cbn [flatc]. intros [_ H]. exact H. Qed.
Lemma put_top g c x t s : pinv g s ->
  (forall f rest, frames x = f :: rest -> flatc g (code f) (saved f) (mask x) (holds f) /\ Forall (fun y => flatc g (code y) (saved y) false (holds y)) rest) ->
  (g = false -> forall l f, frames x = l ++ [f] -> Forall lazy_ l) -> pinv g (put c x t s).
Proof.
  intros [P L] A B. split.
  - intros c' f rest. rewrite get_put. destruct (Bool.eqb c c'); auto.
  - intros G c' l f. rewrite get_put. destruct (Bool.eqb c c'); [apply B; exact G|now apply L].
Qed.
Lemma snoc_cases {A} (f : A) rest l z : f :: rest = l ++ [z] -> (l = [] /\ f = z /\ rest = []) \/ exists l', l = f :: l' /\ rest = l' ++ [z].
Proof. destruct l as [|y l]; cbn [app]; intros E; injection E as -> E; [now left|right; eauto]. Qed.
Lemma pinv_step g s s' : inv s -> pinv g s -> step (handler_ok g) s s' -> pinv g s'.
Proof.
  intros I P ST. destruct ST as [c s f rest s' F E|c s p M H|c s f rest F C NE].
  - destruct (p_top g s P c f rest F) as [FT FR]. unfold exec in E. destruct (code f) as [|i k] eqn:CF; [discriminate|]. apply flatc_next in FT.
    assert (K : forall m d h t, flatc g k d m h -> (g = false -> forall l z, f :: rest = l ++ [z] -> l <> [] -> lazy_ (Fr k d h)) ->
      pinv g (put c (Core m (Fr k d h :: rest)) t s)).
    { intros m d h t FL LZ. apply put_top; [exact P|..].
      - cbn [frames mask]. intros f' rest' EF. injection EF as <- <-. cbn. auto.
      - cbn [frames]. intros G l z EF. apply snoc_cases in EF as [(-> & _)|(l' & -> & ->)]; [constructor|].
        pose proof (p_lazy g s P G c (f :: l') z F) as LL. inversion LL; subst. constructor; [|assumption].
        apply (LZ eq_refl (f :: l') z); [reflexivity|discriminate]. }
    assert (LZ : g = false -> forall l z, f :: rest = l ++ [z] -> l <> [] -> holds f = 0%nat /\ i = Work /\ exists n, k = repeat Work n).
    { intros G l z EF NL. pose proof (p_lazy g s P G c l z) as LL. rewrite F in LL. specialize (LL EF).
      destruct l as [|y l]; [congruence|]. inversion LL as [|? ? [H0 [n N]] _]; subst. injection EF as <- _. rewrite CF in N.
      destruct n as [|n]; [discriminate|]. injection N as -> N. eauto. }
    destruct i; try (injection E as <-; apply K; [exact FT|intros G l z EF NL; destruct (LZ G l z EF NL) as (_ & X & _); discriminate X]).
    + destruct (taken s); injection E as <-; [exact P|]. apply K; [apply FT|intros G l z EF NL; destruct (LZ G l z EF NL) as (_ & X & _); discriminate X].
    + destruct (saved f) as [|b d]; [discriminate|]. injection E as <-. apply K; [exact FT|intros G l z EF NL; destruct (LZ G l z EF NL) as (_ & X & _); discriminate X].
    + injection E as <-. apply K; [exact FT|]. intros G l z EF NL. destruct (LZ G l z EF NL) as (X & _ & Y). split; assumption.
  - apply put_top; [exact P|..]; cbn [frames mask].
    + intros f' rest' EF. injection EF as <- <-. cbn [code saved holds]. rewrite M. split; [now apply handler_flatc|].
      destruct (frames (get c s)) as [|f rest] eqn:F; [constructor|]. destruct (p_top g s P c f rest F) as [FT FR]. rewrite M in FT. now constructor.
    + intros G l z EF. apply snoc_cases in EF as [(-> & _)|(l' & -> & EF)]; [constructor|]. constructor.
      * rewrite G in H. cbn in H. split; [reflexivity|]. cbn [code]. exists (length p). unfold prog_code. now apply others.
      * now apply (p_lazy g s P G c l' z).
  - apply put_top; [exact P|..]; cbn [frames mask].
    + intros f' rest' EF. destruct (p_top g s P c f rest F) as [FT FR]. rewrite EF in FR. inversion FR; subst. split; [|assumption].
      rewrite C in FT. cbn in FT. destruct FT as [_ ->]. assumption.
    + intros G l z EF. pose proof (p_lazy g s P G c (f :: l) z) as LL. rewrite F, EF in LL. specialize (LL eq_refl). now inversion LL.
Qed.
Lemma pinv_boot g a b : main_ok g a -> main_ok g b -> pinv g (boot a b).
Proof.
  intros A B. split.
  - intros c f rest E. destruct c; cbn in E; injection E as <- <-; (split; [now apply main_flatc|constructor]).
  - intros G c l f E. destruct c; cbn in E; apply snoc_cases in E as [(-> & _)|(l' & -> & E)]; try constructor; destruct l'; discriminate.
Qed.
Lemma pinv_reach g a b s : main_ok g a -> main_ok g b -> reach (handler_ok g) a b s -> inv s /\ pinv g s.
Proof.
  intros A B R. unfold reach in R. remember (boot a b) as s0. induction R as [s|s s' s'' R IH ST]; subst.
  - split; [apply inv_boot|now apply pinv_boot].
  - destruct IH as [I P]; [reflexivity|]. split; [now apply (inv_step (handler_ok g) s')|now apply (pinv_step g s')].
Qed.
Lemma total_holder l : (0 < total l)%nat -> exists f, In f l /\ (0 < holds f)%nat.
Proof.
  induction l as [|f l IH]; cbn [total fold_right]; [lia|]. fold (total l). intros H. destruct (Nat.eq_dec (holds f) 0) as [E|E].
  - destruct IH as (x & X & Y); [lia|]. exists x. split; [now right|exact Y].
  - exists f. split; [now left|lia].
Qed.
Lemma progress g s : inv s -> pinv g s -> (forall c, finished c s) \/ exists c, can_go_on c s.
Proof.
  intros I P.
  assert (GO : forall c f rest, frames (get c s) = f :: rest -> code f <> [] -> ~ spinning c s -> can_go_on c s).
  { intros c f rest F NE NS. exists f, rest. split; [exact F|]. right. split; [exact NE|]. split; [exact NS|]. destruct (inv_exec c f rest s I F NE) as (s' & E & _). eauto. }
  destruct (taken s) eqn:T.
  - right. pose proof (i_sum s I) as S0. rewrite T in S0.
    assert (exists c, (0 < total (frames (get c s)))%nat) as [c H].
    { destruct (total (frames (core0 s))) eqn:E0; [exists true|exists false]; cbn [get]; lia. }
    exists c. destruct (frames (get c s)) as [|f rest] eqn:F; [now destruct (i_ne s I c)|]. destruct (p_top g s P c f rest F) as [FT FR].
    destruct (total_holder _ H) as (x & [<-|IN] & HX).
    + apply (GO c f rest F).
      * intros C. pose proof (i_bal s I c) as B. rewrite F in B. inversion B as [|? ? BF _]; subst. unfold fbal in BF. rewrite C in BF. destruct BF. lia.
      * intros (f' & r' & k & F' & C & _). rewrite F in F'. injection F' as <- <-. rewrite C in FT. cbn in FT. destruct FT as (_ & X & _). lia.
    + destruct g.
      * exfalso. rewrite Forall_forall in FR. specialize (FR x IN). apply flatc_head in FR as [X|X]; [lia|discriminate|reflexivity].
      * assert (exists l z, f :: rest = l ++ [z]) as (l & z & EF).
        { destruct (@exists_last _ (f :: rest)) as (l & z & EF); [discriminate|eauto]. }
        pose proof (p_lazy false s P eq_refl c l z) as LZ. rewrite F in LZ. specialize (LZ EF).
        destruct l as [|y l]; cbn [app] in EF; injection EF as -> EF; [subst rest; now destruct IN|].
        inversion LZ as [|? ? [_ [n N]] _]; subst. destruct n as [|n].
        -- exists y, (l ++ [z]). split; [exact F|]. left. split; [exact N|]. now destruct l.
        -- apply (GO c y (l ++ [z]) F); [rewrite N; discriminate|]. intros (f' & r' & k & F' & C & _). rewrite F in F'. injection F' as <- <-. rewrite N in C. discriminate.
  - assert (NS : forall c, ~ spinning c s) by (intros c (f & r & k & _ & _ & X); congruence).
    assert (D : forall c, finished c s \/ can_go_on c s).
    { intros c. destruct (frames (get c s)) as [|f rest] eqn:F; [now destruct (i_ne s I c)|]. destruct (code f) as [|i k] eqn:C.
      - destruct rest as [|y rest]; [left; now exists f|]. right. exists f, (y :: rest). split; [exact F|]. left. split; [exact C|discriminate].
      - right. apply (GO c f rest F); [congruence|apply NS]. }
    destruct (D false) as [D0|D0]; [|right; now exists false]. destruct (D true) as [D1|D1]; [|right; now exists true]. left. intros []; assumption.
Qed.
Lemma bal_count c : forall d h, bal c d h -> Z.of_nat h = count Release c - count Take c.
Proof.
  assert (forall x i c, count x (i :: c) = (if match x, i with Take, Take | Release, Release => true | _, _ => false end then 1 else 0) + count x c) as CS.
  { intros x i c'. unfold count. cbn [filter]. destruct x, i; rewrite ?zlen_cons; reflexivity || lia. }
  induction c as [|i c IH]; intros d h B; cbn [bal] in B.
  - destruct B as [-> _]. reflexivity.
  - rewrite !CS. destruct i; cbv beta iota; try (apply IH in B; lia).
    + destruct B as (h' & -> & B). apply IH in B. lia.
    + destruct B as (d' & -> & B). apply IH in B. lia.
Qed.
Lemma inside_holds s c f : inv s -> In f (frames (get c s)) -> (inside f <-> (0 < holds f)%nat).
Proof.
  intros I IN. pose proof (i_bal s I c) as B. rewrite Forall_forall in B. specialize (B f IN). apply bal_count in B. unfold inside. lia.
Qed.
Lemma total_app l l' : total (l ++ l') = (total l + total l')%nat.
Proof. induction l as [|f l IH]; cbn [app total fold_right]; [reflexivity|]. fold (total (l ++ l')). fold (total l). rewrite IH. lia. Qed.
Lemma one_holder s c c' l f r l' f' r' : inv s -> frames (get c s) = l ++ f :: r -> frames (get c' s) = l' ++ f' :: r' ->
  (0 < holds f)%nat -> (0 < holds f')%nat -> c = c' /\ length l = length l' /\ holds f = 1%nat.
Proof.
  intros I F F' H H'. pose proof (i_sum s I) as S0.
  assert (T : (total (frames (core0 s)) + total (frames (core1 s)) <= 1)%nat) by (destruct (taken s); lia). clear S0.
  assert (A : (holds f <= total (frames (get c s)))%nat) by (apply total_in; rewrite F; apply in_or_app; right; now left).
  assert (A' : (holds f' <= total (frames (get c' s)))%nat) by (apply total_in; rewrite F'; apply in_or_app; right; now left).
  destruct (bool_dec c c') as [<-|NC]; [|exfalso; destruct c, c'; cbn [get] in *; try congruence; lia].
  split; [reflexivity|]. split; [|destruct c; cbn [get] in *; lia].
  assert (T' : (total (frames (get c s)) <= 1)%nat) by (destruct c; cbn [get]; lia). rewrite F in F', T'. clear - H H' F' T'.
  revert l' F' T'. induction l as [|x l IH]; intros l' E T; destruct l' as [|y l']; cbn [app] in E; try reflexivity.
  - exfalso. injection E as -> ->. cbn [app total fold_right] in T. fold (total (l' ++ f' :: r')) in T. rewrite total_app in T. cbn [total fold_right] in T. lia.
  - exfalso. injection E as <- <-. cbn [app total fold_right] in T. fold (total (l ++ f :: r)) in T. rewrite total_app in T. cbn [total fold_right] in T. lia.
  - injection E as -> E. cbn [length]. f_equal. apply (IH l' E). cbn [app total fold_right] in T. fold (total (l ++ f :: r)) in T. lia.
Qed.
