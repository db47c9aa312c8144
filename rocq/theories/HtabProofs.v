From Verif Require Import Base BitLemmas BitsProofs HtabModel HtabSpec.

Lemma u32_id x : 0 <= x < 2 ^ 32 -> u32 x = x.
Proof. apply Z.mod_small. Qed.

(** ** find_largest *)
Lemma land_some a b : negb (Z.land a b =? 0) = true <-> exists i, 0 <= i /\ Z.testbit a i = true /\ Z.testbit b i = true.
Proof.
  rewrite negb_true_iff, Z.eqb_neq. split.
  - intro N. destruct (Z.lt_trichotomy (Z.land a b) 0) as [L|[E|G]]; [|contradiction|].
    + exists (Z.max (Z.log2_up (- Z.land a b)) 0 + 1). rewrite <- andb_true_iff, <- Z.land_spec. split; [lia|]. 
      apply Z.bits_iff_neg_ex in L. destruct L as (k & KL).
      destruct (Z.testbit (Z.land a b) (Z.max (Z.log2_up (- Z.land a b)) 0 + 1)) eqn:Q; [reflexivity|]. exfalso.
      rewrite (Z.bits_above_log2_neg (Z.land a b)) in Q; [discriminate| |]; [apply Z.bits_iff_neg_ex; exists k; exact KL|].
      apply Z.lt_le_trans with (Z.max (Z.log2_up (- Z.land a b)) 0 + 1); [|lia].
      pose proof (Z.log2_le_mono (Z.pred (- Z.land a b)) (- Z.land a b) ltac:(lia)). pose proof (Z.le_log2_log2_up (- Z.land a b)). lia.
    + exists (Z.log2 (Z.land a b)). rewrite <- andb_true_iff, <- Z.land_spec. split; [apply Z.log2_nonneg|]. apply Z.bit_log2. exact G.
  - intros (i & I & A & B) E. assert (Q : Z.testbit (Z.land a b) i = true) by (rewrite Z.land_spec, A, B; reflexivity). rewrite E, Z.bits_0 in Q. discriminate.
Qed.

Section Largest.
Variables (table : list entry) (mask : Z).
Hypothesis R : forall t, In t table -> 0 < start t <= fin t /\ fin t < 2 ^ 32.
Notation Q := (fun t => has_some t mask).

(* after some sections: nothing selected yet, or joined sections at least as long as each of those *)
Definition Inv (seen : list entry) (v : Z * Z * Z) : Prop :=
  let '(a, b, n) := v in
  (v = (0, 0, 0) /\ forall t, In t seen -> ~ Q t) \/
  (0 < a /\ n = b - a /\ 0 <= n /\ joined Q table a b /\ (exists t, In t seen /\ Q t) /\ b < 2 ^ 32 /\ forall t, In t seen -> Q t -> fin t - start t <= n).

Lemma step_inv seen v t : Inv seen v -> In t table -> Inv (seen ++ [t]) (largest_step mask v (deref t 0)).
Proof.
  destruct v as [[a b] n]. intros I IT. destruct (R t IT) as [R1 R2]. unfold largest_step, deref. rewrite Z.add_0_r. assert (P2 : 2 ^ 32 = 4294967296) by reflexivity.
  rewrite (u32_id (fin t - start t)) by (rewrite P2 in *; lia). cbv beta iota.
  destruct (negb (Z.land (traits t) mask =? 0)) eqn:M.
  - apply land_some in M. change (has_some t mask) in M. destruct I as [[E N]|(A & NB & N0 & J & EX & B32 & MX)].
    + injection E as -> -> ->. replace (start t =? 0) with false by lia. replace (0 <=? fin t - start t) with true by lia.
      right. split; [lia|]. split; [reflexivity|]. split; [lia|]. split; [apply j_one; assumption|]. split; [exists t; rewrite in_app_iff; cbn; tauto|]. split; [lia|].
      intros u IU QU. rewrite in_app_iff in IU. destruct IU as [IU|[<-|[]]]; [elim (N u IU QU)|lia].
    + assert (LE : a <= b) by lia. destruct (start t =? b) eqn:C.
      * apply Z.eqb_eq in C. rewrite u32_id by (rewrite P2 in *; lia). right. split; [exact A|]. split; [lia|]. split; [lia|]. split; [apply (j_more Q table a b t); assumption|].
        split; [exists t; rewrite in_app_iff; cbn; tauto|]. split; [lia|]. intros u IU QU. rewrite in_app_iff in IU. destruct IU as [IU|[<-|[]]]; [specialize (MX u IU QU); lia|lia].
      * destruct (n <=? fin t - start t) eqn:D.
        -- right. split; [lia|]. split; [reflexivity|]. split; [lia|]. split; [apply j_one; assumption|]. split; [exists t; rewrite in_app_iff; cbn; tauto|]. split; [lia|].
           intros u IU QU. rewrite in_app_iff in IU. destruct IU as [IU|[<-|[]]]; [specialize (MX u IU QU); lia|lia].
        -- right. split; [exact A|]. split; [exact NB|]. split; [exact N0|]. split; [exact J|]. split; [exists t; rewrite in_app_iff; cbn; tauto|]. split; [lia|].
           intros u IU QU. rewrite in_app_iff in IU. destruct IU as [IU|[<-|[]]]; [specialize (MX u IU QU); lia|lia].
  - assert (NM : ~ has_some t mask) by (intro X; apply land_some in X; congruence).
    destruct I as [[E N]|(A & NB & N0 & J & (u & IU & QU) & B32 & MX)].
    + left. split; [exact E|]. intros u IU. rewrite in_app_iff in IU. destruct IU as [IU|[<-|[]]]; [exact (N u IU)|exact NM].
    + right. split; [exact A|]. split; [exact NB|]. split; [exact N0|]. split; [exact J|]. split; [exists u; rewrite in_app_iff; tauto|]. split; [exact B32|].
      intros w IW QW. rewrite in_app_iff in IW. destruct IW as [IW|[<-|[]]]; [exact (MX w IW QW)|contradiction].
Qed.
Lemma fold_inv : forall rest seen v, Inv seen v -> (forall t, In t rest -> In t table) -> Inv (seen ++ rest) (fold_left (largest_step mask) (map (fun t => deref t 0) rest) v).
Proof.
  induction rest as [|t r IH]; intros seen v I A; [rewrite app_nil_r; exact I|]. cbn [map fold_left].
  replace (seen ++ t :: r) with ((seen ++ [t]) ++ r) by (rewrite <- app_assoc; reflexivity). apply IH; [apply step_inv; [exact I|apply A; left; reflexivity]|intros u U; apply A; right; exact U].
Qed.
Lemma find_largest_ok :
  (find_largest table 0 mask = (false, 0, 0) /\ forall t, In t table -> ~ Q t) \/
  (exists a b, find_largest table 0 mask = (true, a, b) /\ joined Q table a b /\ (exists t, In t table /\ Q t) /\ forall t, In t table -> Q t -> fin t - start t <= b - a).
Proof.
  assert (I : Inv table (fold_left (largest_step mask) (map (fun t => deref t 0) table) (0, 0, 0))).
  { apply (fold_inv table [] (0, 0, 0)); [left; split; [reflexivity|intros t []]|auto]. }
  unfold find_largest, sections, begin. cbn [Z.eqb]. destruct (fold_left _ _ _) as [[a b] n]. destruct I as [[E N]|(A & NB & N0 & J & EX & _ & MX)].
  - injection E as -> -> ->. left. split; [reflexivity|exact N].
  - right. exists a, b. split; [replace (negb (a =? 0)) with true by lia; reflexivity|]. split; [exact J|]. split; [exact EX|]. intros t IT QT. specialize (MX t IT QT). lia.
Qed.
End Largest.

(** ** iteration from the end of a report *)
Lemma find_fault_spec table f l o : find_fault table f = Some (l, o) -> exists l0 t r, table = l0 ++ t :: r /\ l = t :: r /\ start t <= f < fin t /\ o = f - start t.
Proof.
  induction table as [|t r IH]; cbn; [discriminate|]. destruct ((start t <=? f) && (f <? fin t)) eqn:C.
  - intro E. injection E as <- <-. exists [], t, r. split; [reflexivity|]. split; [reflexivity|]. lia.
  - intro E. destruct (IH E) as (l0 & t' & r' & -> & L). exists (t :: l0), t', r'. split; [reflexivity|exact L].
Qed.

(** ** the report *)
Lemma poke_same s a v : mem (poke s a v) a = v. Proof. cbn. rewrite Z.eqb_refl. reflexivity. Qed.
Lemma poke_other s a v x : x <> a -> mem (poke s a v) x = mem s x. Proof. intro N. cbn. apply Z.eqb_neq in N. rewrite N. reflexivity. Qed.
Definition reading (s : fs) (a : Z) (data : list Z) : Prop := forall i, 0 <= i < Z.of_nat (length data) -> mem s (a + i) = nth (Z.to_nat i) data 0.

Section Report.
Variables (t0 : entry) (rest : list entry) (sym : Z).
Notation table := (t0 :: rest).
Hypothesis S0 : 0 < start t0.
Hypothesis S32 : fin t0 < 2 ^ 32.

Lemma write_ok : forall data s pos, start t0 <= pos -> pos + Z.of_nat (length data) <= fin t0 ->
  (sym + 4 <= pos \/ pos + Z.of_nat (length data) <= sym) -> (word s sym <= pos \/ pos + Z.of_nat (length data) < word s sym) ->
  exists s', write sym s (table, pos) data = Some (s', (table, pos + Z.of_nat (length data))) /\ reading s' pos data /\
    (forall a, a < pos \/ pos + Z.of_nat (length data) <= a -> mem s' a = mem s a) /\ mstart s' = mstart s /\ mend s' = mend s /\ report_end s' = report_end s.
Proof.
  induction data as [|b r IH]; intros s pos LO HI AP GU.
  - exists s. cbn [write length]. rewrite Z.add_0_r. split; [reflexivity|]. split; [intros i I; cbn in I; lia|]. auto.
  - cbn [length] in *. rewrite Nat2Z.inj_succ in *. set (n := Z.of_nat (length r)) in *. assert (0 <= n) by (unfold n; lia).
    cbn [write snd]. set (s1 := poke s pos b).
    assert (W1 : word s1 sym = word s sym). { unfold word, s1. rewrite !poke_other by lia. reflexivity. }
    assert (P2 : 2 ^ 32 = 4294967296) by reflexivity.
    unfold next. rewrite W1. rewrite u32_id by (rewrite P2 in *; lia). replace ((fin t0 <=? pos) || (pos + 1 =? word s sym)) with false by lia. cbn [obind].
    destruct (IH s1 (pos + 1)) as (s' & E & RD & FR & M1 & M2 & M3); rewrite ?W1; fold n; try lia. fold n in E, FR.
    exists s'. rewrite E. split; [replace (pos + 1 + n) with (pos + Z.succ n) by lia; reflexivity|]. split; [|split].
    + intros i I. cbn [length] in I. rewrite Nat2Z.inj_succ in I. destruct (Z.eq_dec i 0) as [->|N].
      * rewrite Z.add_0_r. cbn. rewrite FR by lia. apply poke_same.
      * replace (pos + i) with (pos + 1 + (i - 1)) by ring. rewrite RD by (fold n; fold n in I; lia). replace (Z.to_nat i) with (S (Z.to_nat (i - 1))) by lia. reflexivity.
    + intros a A. rewrite FR by lia. apply poke_other. lia.
    + rewrite M1, M2, M3. auto.
Qed.

Lemma read_ok s : forall data pos n, start t0 <= pos -> pos + Z.of_nat (length data) <= fin t0 -> (word s sym <= pos \/ pos + Z.of_nat (length data) < word s sym) ->
  report_end s = pos + Z.of_nat (length data) -> reading s pos data -> (length data <= n)%nat -> read sym s (table, pos) n = Some data.
Proof.
  induction data as [|b r IH]; intros pos n LO HI GU RE RD N.
  - cbn in RE. rewrite Z.add_0_r in RE. destruct n; cbn [read snd]; rewrite RE, Z.eqb_refl; reflexivity.
  - cbn [length] in *. rewrite Nat2Z.inj_succ in *. destruct n as [|n]; [lia|]. cbn [read snd]. replace (pos =? report_end s) with false by lia.
    assert (P2 : 2 ^ 32 = 4294967296) by reflexivity.
    unfold next. rewrite u32_id by (rewrite P2 in *; lia). replace ((fin t0 <=? pos) || (pos + 1 =? word s sym)) with false by lia. cbn [obind].
    rewrite (IH (pos + 1) n); try lia.
    + cbn [obind]. specialize (RD 0). rewrite Z.add_0_r in RD. rewrite RD by (cbn [length]; lia). reflexivity.
    + intros i I. replace (pos + 1 + i) with (pos + (i + 1)) by ring. rewrite RD by (cbn [length]; lia). replace (Z.to_nat (i + 1)) with (S (Z.to_nat i)) by lia. reflexivity.
Qed.

Lemma dump_ok s data : let len := Z.of_nat (length data) in
  start t0 + len + 4 <= fin t0 -> (sym + 4 <= start t0 \/ start t0 + len + 4 <= sym) -> guard_ok table sym len s ->
  exists s', dump table sym s data = Some s' /\ reading s' (start t0) data /\ word s' (start t0 + len) = magic_end /\ mstart s' = magic_start /\ mend s' = start t0 + len /\
    (forall a, ~ in_report table len a -> mem s' a = mem s a).
Proof.
  intros len HI AP GU. unfold dump, fbegin. cbn [obind]. cbn in GU.
  assert (WO : word (openWrite s) sym = word s sym) by reflexivity.
  destruct (write_ok data (openWrite s) (start t0)) as (s1 & E1 & R1 & F1 & A1 & A2 & A3); fold len; try lia. fold len in E1, F1. rewrite E1. cbn [obind fst snd].
  unfold closeWrite. cbn [snd]. set (s2 := Fs (mem s1) (mstart s1) (start t0 + len) (report_end s1) (heap_start s1)).
  assert (WS : word s2 sym = word s sym). { unfold word, s2. cbn [mem]. rewrite !F1 by lia. reflexivity. }
  destruct (write_ok magic_bytes s2 (start t0 + len)) as (s3 & E3 & R3 & F3 & B1 & B2 & B3); try (change (Z.of_nat (length magic_bytes)) with 4; unfold len; lia). 
  change (Z.of_nat (length magic_bytes)) with 4 in *. rewrite E3. cbn [obind fst]. exists s3. split; [reflexivity|]. split; [|split; [|split; [|split]]].
  - intros i I. rewrite F3 by (fold len in I; lia). cbn [mem s2]. apply R1. exact I.
  - unfold word. pose proof (R3 0 ltac:(cbn; lia)) as Q0. pose proof (R3 1 ltac:(cbn; lia)) as Q1. pose proof (R3 2 ltac:(cbn; lia)) as Q2. pose proof (R3 3 ltac:(cbn; lia)) as Q3.
    rewrite Z.add_0_r in Q0. rewrite Q0, Q1, Q2, Q3. reflexivity.
  - rewrite B1. cbn. rewrite A1. reflexivity.
  - rewrite B2. reflexivity.
  - intros a NA. cbn in NA. rewrite F3 by lia. cbn [mem s2]. rewrite F1 by lia. reflexivity.
Qed.

Lemma openRead_ok s data n : let len := Z.of_nat (length data) in
  start t0 + len + 4 <= fin t0 -> fin t0 + 8 <= 2 ^ 32 -> guard_ok table sym len s -> reading s (start t0) data -> word s (start t0 + len) = magic_end -> mstart s = magic_start -> mend s = start t0 + len ->
  (length data <= n)%nat ->
  exists s', openRead table s = Some (s', len) /\ report table sym s' n = Some data /\ heap_start s' mod 4 = 0 /\ start t0 + len + 4 <= heap_start s' < start t0 + len + 8.
Proof.
  intros len HI TOP GU RD WM MS ME LN. unfold openRead. cbn [mstart mend]. rewrite MS, Z.eqb_refl, ME. replace (start t0 + len =? 0) with false by lia. cbn [andb negb find_report mend]. 
  replace ((start t0 <=? start t0 + len) && (start t0 + len <? fin t0)) with true by (unfold len; lia). assert (P2 : 2 ^ 32 = 4294967296) by reflexivity.
  change (word (Fs (mem s) magic_start (start t0 + len) (start t0) 0) (start t0 + len)) with (word s (start t0 + len)). rewrite WM, Z.eqb_refl.
  rewrite u32_id by (unfold len; lia). rewrite u32_id by (unfold len in *; lia). eexists. split; [f_equal; f_equal; ring|]. cbn [heap_start]. split; [|unfold len in *; clear - HI S0; lia].
  unfold report, fbegin. cbn [obind]. cbn in GU. apply read_ok; try assumption; try lia; try (unfold len in *; lia); try reflexivity.
  match goal with |- word ?x sym <= _ \/ _ => change (word x sym) with (word s sym) end. fold len. lia.
Qed.
End Report.
