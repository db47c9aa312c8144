From Coq Require Import ZArith List Bool Lia.
From Verif Require Import Base SliceLemmas SpiModel SpiSpec.
Import ListNotations.
Open Scope Z_scope.

Definition val (l : list bool) : Z := fold_left (fun a b => 2 * a + Z.b2z b) l 0.
Lemma msb_step (b a1 a2 a3 a4 a5 a6 a7 m : bool) :
  on (val [b; a1; a2; a3; a4; a5; a6; a7]) 0x80 = b /\
  (let d := u8 (Z.shiftl (val [b; a1; a2; a3; a4; a5; a6; a7]) 1) in if m then Z.lor d 1 else d) = val [a1; a2; a3; a4; a5; a6; a7; m].
Proof. destruct b, a1, a2, a3, a4, a5, a6, a7, m; split; vm_compute; reflexivity. Qed.
Lemma lsb_step (b a1 a2 a3 a4 a5 a6 a7 m : bool) :
  on (val [a1; a2; a3; a4; a5; a6; a7; b]) 1 = b /\
  (let d := Z.shiftr (val [a1; a2; a3; a4; a5; a6; a7; b]) 1 in if m then Z.lor d 0x80 else d) = val [m; a1; a2; a3; a4; a5; a6; a7].
Proof. destruct b, a1, a2, a3, a4, a5, a6, a7, m; split; vm_compute; reflexivity. Qed.
Lemma val_bits x : 0 <= x < 256 -> val (bits false x) = x.
Proof.
  intro R. assert (forallb (fun n => val (bits false (Z.of_nat n)) =? Z.of_nat n) (seq 0 256) = true) as H by (vm_compute; reflexivity).
  rewrite forallb_forall in H. specialize (H (Z.to_nat x)). rewrite in_seq, Z2Nat.id in H by lia. apply Z.eqb_eq, H. lia.
Qed.
Lemma val_range l : length l = 8%nat -> 0 <= val l < 256.
Proof.
  intro L. destruct l as [|a [|b [|c [|d [|e [|f [|g [|h [|i l]]]]]]]]]; try discriminate L.
  unfold val. cbn [fold_left]. destruct a, b, c, d, e, f, g, h; cbn [Z.b2z]; lia.
Qed.

(** One bit on the bus. *)
Definition edge_bit (cpol cpha : bool) (b m : bool) (rest : list bool) (s s' : bus) : Prop :=
  idle cpol cpha s' /\ out s' = rest /\ inp s' = inp s ++ [b].
Lemma round_bus op data s m rest : idle (on op 2) (on op 1) s -> out s = m :: rest ->
  exists s', round bus (put_sck (on op 2) (on op 1)) put_mosi get_miso wait op data s =
    Some (if on op 4 then (let d := Z.shiftr data 1 in if m then Z.lor d 0x80 else d) else (let d := u8 (Z.shiftl data 1) in if m then Z.lor d 1 else d), s') /\
    edge_bit (on op 2) (on op 1) (if on op 4 then on data 1 else on data 0x80) m rest s s'.
Proof.
  intros [I1 I2] O. destruct s as [ck mo ou ip sm e1 e2 e3]. cbn [sck st out inp ok_hold] in *. subst ck ou.
  unfold round, edge_bit, idle, put_sck, put_mosi, get_miso, wait, first_edge, second_edge, sample. cbn zeta.
  set (d1 := Z.shiftr data 1). set (d2 := u8 (Z.shiftl data 1)). clearbody d1 d2.
  destruct (on op 1) eqn:Q1.
  - subst sm. destruct (on op 4) eqn:Q4; [set (b := on data 1)|set (b := on data 0x80)]; clearbody b;
      (destruct (on op 2) eqn:Q2, mo, b; (eexists; cbn; split; [reflexivity|repeat split])).
  - destruct I2 as [I2 ->]. destruct (on op 4) eqn:Q4; [set (b := on data 1)|set (b := on data 0x80)]; clearbody b;
      (destruct sm; [elim I2; reflexivity| |]; (destruct (on op 2) eqn:Q2, mo, b; (eexists; cbn; split; [reflexivity|cbn; repeat split; discriminate]))).
Qed.

Fixpoint msb_run (l bs : list bool) : list bool := match bs with [] => l | m :: bs => msb_run (tl l ++ [m]) bs end.
Lemma rounds_msb op : on op 4 = false -> forall ms l s rest, length l = 8%nat -> (length ms <= 8)%nat -> idle (on op 2) (on op 1) s -> out s = ms ++ rest ->
  exists s', rounds bus (put_sck (on op 2) (on op 1)) put_mosi get_miso wait (length ms) op (val l) s = Some (val (skipn (length ms) l ++ ms), s') /\
    idle (on op 2) (on op 1) s' /\ out s' = rest /\ inp s' = inp s ++ firstn (length ms) l.
Proof.
  intro M. induction ms as [|m ms IH]; intros l s rest L LM I0 O.
  - exists s. cbn. rewrite !app_nil_r. repeat split; try assumption; apply I0.
  - cbn [length rounds]. destruct (round_bus op (val l) s m (ms ++ rest) I0 O) as [s1 [E1 [I1 [O1 P1]]]]. rewrite E1. cbn [obind fst snd].
    rewrite M in P1. rewrite M.
    destruct l as [|b [|a1 [|a2 [|a3 [|a4 [|a5 [|a6 [|a7 [|a8 l]]]]]]]]]; try discriminate L.
    destruct (msb_step b a1 a2 a3 a4 a5 a6 a7 m) as [S1 S2]. cbn zeta in S2. rewrite S2. rewrite S1 in P1.
    cbn [length] in LM. destruct (IH [a1; a2; a3; a4; a5; a6; a7; m] s1 rest eq_refl ltac:(lia) I1 O1) as [s2 [E2 [I2 [O2 P2]]]].
    exists s2. rewrite E2. split; [|split; [exact I2|split; [exact O2|]]].
    + f_equal. f_equal. f_equal. cbn [skipn].
      do 8 (destruct ms as [|? ms]; [reflexivity|]). cbn [length] in LM. lia.
    + rewrite P2, P1, <- app_assoc. f_equal. cbn [app firstn]. f_equal.
      do 8 (destruct ms as [|? ms]; [reflexivity|]). cbn [length] in LM. lia.
Qed.
Lemma rounds_lsb op : on op 4 = true -> forall ms l s rest, length l = 8%nat -> (length ms <= 8)%nat -> idle (on op 2) (on op 1) s -> out s = ms ++ rest ->
  exists s', rounds bus (put_sck (on op 2) (on op 1)) put_mosi get_miso wait (length ms) op (val (rev l)) s = Some (val (rev (skipn (length ms) l ++ ms)), s') /\
    idle (on op 2) (on op 1) s' /\ out s' = rest /\ inp s' = inp s ++ firstn (length ms) l.
Proof.
  intro M. induction ms as [|m ms IH]; intros l s rest L LM I0 O.
  - exists s. cbn. rewrite !app_nil_r. repeat split; try assumption; apply I0.
  - cbn [length rounds]. destruct (round_bus op (val (rev l)) s m (ms ++ rest) I0 O) as [s1 [E1 [I1 [O1 P1]]]]. rewrite E1. cbn [obind fst snd].
    rewrite M in P1. rewrite M.
    destruct l as [|b [|a1 [|a2 [|a3 [|a4 [|a5 [|a6 [|a7 [|a8 l]]]]]]]]]; try discriminate L.
    cbn [rev app] in *. destruct (lsb_step b a7 a6 a5 a4 a3 a2 a1 m) as [S1 S2]. cbn zeta in S2. rewrite S2. rewrite S1 in P1.
    cbn [length] in LM. destruct (IH [a1; a2; a3; a4; a5; a6; a7; m] s1 rest eq_refl ltac:(lia) I1 O1) as [s2 [E2 [I2 [O2 P2]]]].
    cbn [rev app] in E2. exists s2. rewrite E2. split; [|split; [exact I2|split; [exact O2|]]].
    + f_equal. f_equal. f_equal. cbn [skipn].
      do 8 (destruct ms as [|? ms]; [reflexivity|]). cbn [length] in LM. lia.
    + rewrite P2, P1, <- app_assoc. f_equal. cbn [app firstn]. f_equal.
      do 8 (destruct ms as [|? ms]; [reflexivity|]). cbn [length] in LM. lia.
Qed.
Lemma bits_len lsb x : length (bits lsb x) = 8%nat.
Proof. destruct lsb; reflexivity. Qed.
Lemma bits_rev x : bits true x = rev (bits false x).
Proof. reflexivity. Qed.
Lemma transfer_ok op s data y rest : 0 <= data < 256 -> 0 <= y < 256 -> idle (on op 2) (on op 1) s -> out s = bits (on op 4) y ++ rest ->
  exists s', transfer bus (put_sck (on op 2) (on op 1)) put_mosi get_miso wait op data s = Some (y, s') /\
    idle (on op 2) (on op 1) s' /\ out s' = rest /\ inp s' = inp s ++ bits (on op 4) data.
Proof.
  intros D Y I0 O. unfold transfer. destruct (on op 4) eqn:M.
  - destruct (rounds_lsb op M (bits true y) (bits true data) s rest (bits_len _ _)) as [s' [E [I1 [O1 P1]]]]; try assumption; [rewrite bits_len; lia|].
    rewrite bits_len in E, P1. rewrite (bits_rev data) in E at 1. rewrite rev_involutive, val_bits in E by exact D. exists s'. rewrite E.
    split; [|split; [exact I1|split; [exact O1|exact P1]]]. f_equal. f_equal. change (skipn 8 (bits true data)) with (@nil bool). cbn [app].
    rewrite bits_rev, rev_involutive. apply val_bits. exact Y.
  - destruct (rounds_msb op M (bits false y) (bits false data) s rest (bits_len _ _)) as [s' [E [I1 [O1 P1]]]]; try assumption; [rewrite bits_len; lia|].
    rewrite bits_len in E, P1. rewrite val_bits in E by exact D. exists s'. rewrite E.
    split; [|split; [exact I1|split; [exact O1|exact P1]]]. f_equal. f_equal. change (skipn 8 (bits false data)) with (@nil bool). cbn [app].
    apply val_bits. exact Y.
Qed.

(** * Arrays *)
Definition in_mem (mem : list Z) (p : option Z) (i : Z) (n : nat) : Prop :=
  match p with Some p => 0 <= p + i /\ p + i + Z.of_nat n <= zlen mem | None => True end.
Definition sent (mem : list Z) (p : option Z) (i t : Z) (n : nat) : list Z :=
  match p with Some p => region mem (p + i) n | None => repeat t n end.
Definition apart (p q : option Z) (n : nat) : Prop :=
  match p, q with Some p, Some q => q <= p \/ p + Z.of_nat n <= q | _, _ => True end.
Lemma region_cons mem p n : 0 <= p -> p + Z.of_nat (S n) <= zlen mem -> exists x, znth mem p = Some x /\ region mem p (S n) = x :: region mem (p + 1) n.
Proof.
  intros P L. unfold region. replace (Z.to_nat (p + 1)) with (S (Z.to_nat p)) by lia.
  pose proof (firstn_skipn (Z.to_nat p) mem) as E. pose proof (firstn_zlen mem p ltac:(lia)) as L1. pose proof (skipn_zlen mem p ltac:(lia)) as L2.
  destruct (skipn (Z.to_nat p) mem) as [|x r] eqn:Q; [rewrite zlen_nil in L2; lia|].
  exists x. split.
  - rewrite <- E, znth_app_r by lia. rewrite L1, Z.sub_diag. reflexivity.
  - cbn [firstn]. f_equal. f_equal. replace (S (Z.to_nat p)) with (Z.to_nat p + 1)%nat by lia. rewrite <- skipn_plus, Q. reflexivity.
Qed.
Lemma region_ext : forall n mem mem' p, (forall i, p <= i < p + Z.of_nat n -> znth mem' i = znth mem i) -> 0 <= p -> p + Z.of_nat n <= zlen mem -> zlen mem' = zlen mem ->
  region mem' p n = region mem p n.
Proof.
  induction n as [|n IH]; intros mem mem' p H P L1 L2; [reflexivity|].
  destruct (region_cons mem p n P L1) as [x [X1 X2]]. destruct (region_cons mem' p n P ltac:(lia)) as [y [Y1 Y2]].
  rewrite X2, Y2. f_equal; [rewrite H in Y1 by lia; congruence|]. apply IH; try lia. intros i I0. apply H. lia.
Qed.
Definition mem_after (mem : list Z) (q : option Z) (i : Z) (ys : list Z) (mem' : list Z) : Prop :=
  zlen mem' = zlen mem /\ forall j, 0 <= j -> znth mem' j =
    match q with Some q => if (q + i <=? j) && (j <? q + i + zlen ys) then znth ys (j - (q + i)) else znth mem j | None => znth mem j end.
Lemma loop_ok op tx rx : forall ys i t mem s rest, in_mem mem tx i (length ys) -> in_mem mem rx i (length ys) -> apart tx rx (length ys) ->
  Forall (fun b => 0 <= b < 256) (sent mem tx i t (length ys)) -> Forall (fun b => 0 <= b < 256) ys ->
  idle (on op 2) (on op 1) s -> out s = flat_map (bits (on op 4)) ys ++ rest ->
  exists mem' s', transfer_loop bus (put_sck (on op 2) (on op 1)) put_mosi get_miso wait (length ys) op tx rx i t mem s = Some (mem', s') /\
    idle (on op 2) (on op 1) s' /\ out s' = rest /\ inp s' = inp s ++ flat_map (bits (on op 4)) (sent mem tx i t (length ys)) /\ mem_after mem rx i ys mem'.
Proof.
  induction ys as [|y ys IH]; intros i t mem s rest MT MR AP BS BY I0 O.
  - exists mem, s. cbn [length transfer_loop]. split; [reflexivity|]. split; [exact I0|]. split; [exact O|].
    split. { destruct tx; cbn; rewrite app_nil_r; reflexivity. }
    split; [reflexivity|]. intros j J. destruct rx as [q|]; [|reflexivity].
    change (zlen []) with 0. destruct ((q + i <=? j) && (j <? q + i + 0)) eqn:Q; [lia|reflexivity].
  - cbn [length transfer_loop]. cbn [flat_map] in O. rewrite <- app_assoc in O. pose proof (Forall_inv BY) as Y0. apply Forall_inv_tail in BY.
    assert (exists x, (match tx with Some p => znth mem (p + i) | None => Some t end) = Some x /\ 0 <= x < 256 /\
              sent mem tx i t (length (y :: ys)) = x :: sent mem tx (i + 1) x (length ys)) as [x [X1 [X2 X3]]].
    { destruct tx as [p|]; cbn [sent in_mem] in *.
      - cbn [length] in *. destruct (region_cons mem (p + i) (length ys) ltac:(lia) ltac:(lia)) as [x [X1 X2]]. exists x. split; [exact X1|].
        rewrite X2 in BS. split; [apply (Forall_inv BS)|]. rewrite X2. replace (p + (i + 1)) with (p + i + 1) by ring. reflexivity.
      - exists t. split; [reflexivity|]. cbn [length repeat] in BS. split; [apply (Forall_inv BS)|reflexivity]. }
    rewrite X1. cbn [obind]. destruct (transfer_ok op s x y _ X2 Y0 I0 O) as [s1 [E1 [I1 [O1 P1]]]]. rewrite E1. cbn [obind fst snd].
    assert (exists m1, (match rx with Some p => zupd mem (p + i) y | None => Some mem end) = Some m1 /\ zlen m1 = zlen mem /\
              forall j, 0 <= j -> znth m1 j = match rx with Some p => if j =? p + i then Some y else znth mem j | None => znth mem j end) as [m1 [U1 [U2 U3]]].
    { destruct rx as [q|]; [|exists mem; repeat split; reflexivity]. cbn [in_mem length] in MR.
      destruct (zupd_in_range mem (q + i) y ltac:(lia)) as [m1 [V1 [V2 V3]]]. exists m1. split; [exact V1|]. split; [exact V2|].
      intros j J. rewrite V3. destruct (Z.eqb_spec j (q + i)); reflexivity. }
    rewrite U1. cbn [obind].
    assert (sent m1 tx (i + 1) x (length ys) = sent mem tx (i + 1) x (length ys)) as ES.
    { destruct tx as [p|]; [|reflexivity]. cbn [sent in_mem length] in *. apply region_ext; try lia.
      intros j J. rewrite U3 by lia. destruct rx as [q|]; [|reflexivity]. cbn [apart] in AP. destruct (Z.eqb_spec j (q + i)); [|reflexivity]. lia. }
    destruct (IH (i + 1) x m1 s1 rest) as [m2 [s2 [E2 [I2 [O2 [P2 [M1 M2]]]]]]]; try assumption.
    { destruct tx as [p|]; [|exact Logic.I]. cbn [in_mem length] in *. lia. }
    { destruct rx as [q|]; [|exact Logic.I]. cbn [in_mem length] in *. lia. }
    { destruct tx as [p|], rx as [q|]; try exact Logic.I. cbn [apart length] in *. lia. }
    { rewrite ES. rewrite X3 in BS. apply (Forall_inv_tail BS). }
    exists m2, s2. split; [exact E2|]. split; [exact I2|]. split; [exact O2|]. split.
    + rewrite P2, P1, ES. cbn [length] in X3. rewrite X3. cbn [flat_map]. rewrite <- app_assoc. reflexivity.
    + split; [lia|]. intros j J. rewrite M2 by exact J. destruct rx as [q|]; [|apply U3; exact J]. rewrite zlen_cons. pose proof (zlen_nonneg ys).
      rewrite (U3 j J). destruct (Z.eqb_spec j (q + i)) as [->|N].
      * destruct ((q + (i + 1) <=? q + i) && (q + i <? q + (i + 1) + zlen ys)) eqn:Q1; [lia|].
        destruct ((q + i <=? q + i) && (q + i <? q + i + (1 + zlen ys))) eqn:Q2; [|lia]. rewrite Z.sub_diag. reflexivity.
      * destruct ((q + (i + 1) <=? j) && (j <? q + (i + 1) + zlen ys)) eqn:Q1; destruct ((q + i <=? j) && (j <? q + i + (1 + zlen ys))) eqn:Q2; try lia; [|reflexivity].
        rewrite (znth_cons y ys) by lia. f_equal. lia.
Qed.

(** * Modes *)
Lemma mode_sweep (P : Z -> Z -> bool) : forallb (fun o => forallb (fun m => P (Z.of_nat o) (Z.of_nat m)) (seq 0 4)) (seq 0 256) = true ->
  forall op m, 0 <= op < 256 -> 0 <= m < 4 -> P op m = true.
Proof.
  intros H op m O M. rewrite forallb_forall in H. specialize (H (Z.to_nat op)). rewrite in_seq in H. specialize (H ltac:(lia)).
  rewrite forallb_forall in H. specialize (H (Z.to_nat m)). rewrite in_seq, !Z2Nat.id in H by lia. apply H. lia.
Qed.
