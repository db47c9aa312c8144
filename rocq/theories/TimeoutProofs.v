From Verif Require Import Base TimeoutModel TimeoutSpec.

Section Proofs.
Variable w : Z.
Hypothesis Hw : 0 < w.

Lemma pow_pos : 0 < 2 ^ w.
Proof. apply Z.pow_pos_nonneg; lia. Qed.

Lemma elapsed T0 T : wrap w (clock w T - clock w T0) = wrap w (T - T0).
Proof. unfold clock, wrap. rewrite <- Zminus_mod. reflexivity. Qed.

Lemma elapsed_exact T0 T : T0 <= T -> T - T0 < 2 ^ w -> wrap w (clock w T - clock w T0) = T - T0.
Proof. intros H1 H2. rewrite elapsed. apply wrap_small. lia. Qed.

Lemma elapsed_le T0 T : T0 <= T -> 0 <= wrap w (clock w T - clock w T0) <= T - T0.
Proof.
  intros H. rewrite elapsed. unfold wrap. pose proof pow_pos. split.
  - apply Z.mod_pos_bound. lia.
  - apply Z.mod_le; lia.
Qed.

(* relation between the code's timer and the ideal one at real time [now] *)
Definition Sim (now : Z) (t : timeout) (s : ideal) : Prop :=
  match s with
  | Idle => t_state t = STOPPED /\ t_interval t = 0
  | Running T0 d fired seen =>
      t_start t = clock w T0 /\ t_interval t = d /\ 0 <= d < 2 ^ w /\ T0 <= now /\
      (seen = true -> T0 + d <= now) /\
      t_state t = (if fired then Z.lor EXPIRED EXECUTED else if seen then EXPIRED else ARMED) /\
      (fired = true -> seen = true)
  end.

Lemma sim_step now t s T o : Sim now t s -> now <= T ->
  (match o with TRestart d => d < 2 ^ w | _ => True end) ->
  (match s with Running T0 _ _ false => T - T0 < 2 ^ w | _ => True end) ->
  snd (tstep w t T o) = snd (ideal_step s T o) /\ Sim T (fst (tstep w t T o)) (fst (ideal_step s T o)).
Proof.
  intros S HT Hd Hp. pose proof pow_pos as Hpow. destruct s as [|T0 d fired seen].
  - destruct S as [Hs Hi].
    destruct t as [ts ti tst]; cbn [t_state t_interval] in *; subst tst ti.
    destruct o as [x| | | | | | |]; cbn -[Z.pow clock wrap Z.le Z.lt Z.leb]; try (split; [reflexivity|]; try (split; reflexivity)).
    + unfold t_restart. destruct (0 <=? x) eqn:E; cbn -[Z.pow clock wrap Z.le Z.lt]; [|split; reflexivity].
      rewrite (wrap_small w x) by lia. intuition (try lia); discriminate.
    + unfold t_restart_same, t_restart; cbn -[Z.pow clock wrap Z.le Z.lt]. rewrite (wrap_small w 0) by lia. intuition (try lia); discriminate.
  - destruct S as (Hs & Hi & Hdr & HT0 & Hseen & Hst & Hfs).
    destruct t as [ts ti tst]; cbn [t_state t_interval t_start] in *; subst ts ti.
    assert (forall fired' seen' : bool, (seen' = true -> T0 + d <= T) ->
      (fired' = true -> seen' = true) ->
      Sim T (mkTimeout (clock w T0) d (if fired' then Z.lor EXPIRED EXECUTED else if seen' then EXPIRED else ARMED))
            (Running T0 d fired' seen')) as Hmk.
    { intros f' s' H1 H2. unfold Sim; cbn -[Z.pow clock wrap Z.le Z.lt Z.leb]. intuition lia. }
    assert (seen = false -> (d <=? wrap w (clock w T - clock w T0)) = due T0 d T) as Hdue.
    { intros ->. rewrite elapsed_exact by lia. unfold due. lia. }
    assert (seen = true -> due T0 d T = true) as Hdue2.
    { intros E. apply Hseen in E. unfold due. lia. }
    destruct o as [x| | | | | | |]; cbn [tstep ideal_step].
    + (* restart *) unfold t_restart. cbn [fst snd]. split; [reflexivity|].
      destruct (0 <=? x) eqn:E; [|split; reflexivity].
      rewrite (wrap_small w x) by lia. unfold Sim; cbn -[Z.pow clock wrap Z.le Z.lt Z.leb]. intuition (try lia); discriminate.
    + unfold t_restart_same, t_restart; cbn -[Z.pow clock wrap Z.le Z.lt Z.leb]. destruct (0 <=? d) eqn:E; [|lia].
      split; [reflexivity|]. rewrite (wrap_small w d) by lia. unfold Sim; cbn -[Z.pow clock wrap Z.le Z.lt Z.leb]. intuition (try lia); discriminate.
    + split; [reflexivity|split; reflexivity].
    + (* execute *) unfold t_execute. cbn [t_state t_start t_interval]. subst tst.
      destruct fired.
      * cbn -[Z.pow clock wrap due Z.le Z.lt Z.leb]. rewrite andb_false_r. cbn. split; [reflexivity|]. 
        apply (Hmk true seen); [intro; pose proof (Hseen H); lia|exact Hfs].
      * destruct seen.
        -- cbn -[Z.pow clock wrap due Z.le Z.lt Z.leb]. rewrite Hdue2 by reflexivity. cbn -[clock]. split; [reflexivity|].
           apply (Hmk true true); [intro; pose proof (Hseen eq_refl); lia|reflexivity].
        -- unfold checkExpiration. cbn -[Z.pow clock wrap due Z.le Z.lt Z.leb]. rewrite Hdue by reflexivity.
           destruct (due T0 d T) eqn:E; cbn -[clock].
           ++ split; [reflexivity|]. apply (Hmk true true); [intro; unfold due in E; lia|reflexivity].
           ++ split; [reflexivity|]. apply (Hmk false false); discriminate.
    + (* isStopped *) unfold t_isStopped; cbn [t_state fst snd]. subst tst. split.
      * destruct fired; [reflexivity|]. destruct seen; reflexivity.
      * apply (Hmk fired seen); [intro E; pose proof (Hseen E); lia|exact Hfs].
    + unfold t_isArmed, t_query, checkExpiration. cbn [t_state t_start t_interval]. subst tst.
      destruct fired.
      * rewrite (Hfs eq_refl) in *. cbn -[Z.pow clock wrap due Z.le Z.lt Z.leb]. rewrite Hdue2 by reflexivity. split; [reflexivity|].
        apply (Hmk true true); [intro; pose proof (Hseen eq_refl); lia|reflexivity].
      * destruct seen.
        -- cbn -[Z.pow clock wrap due Z.le Z.lt Z.leb]. rewrite Hdue2 by reflexivity. split; [reflexivity|].
           apply (Hmk false true); [intro; pose proof (Hseen eq_refl); lia|reflexivity].
        -- cbn -[Z.pow clock wrap due Z.le Z.lt Z.leb]. rewrite Hdue by reflexivity.
           destruct (due T0 d T) eqn:E; cbn -[clock].
           ++ split; [reflexivity|]. apply (Hmk false true); [intro; unfold due in E; lia|reflexivity].
           ++ split; [reflexivity|]. apply (Hmk false false); discriminate.
    + unfold t_isExpired, t_query, checkExpiration. cbn [t_state t_start t_interval]. subst tst.
      destruct fired.
      * rewrite (Hfs eq_refl) in *. cbn -[Z.pow clock wrap due Z.le Z.lt Z.leb]. rewrite Hdue2 by reflexivity. split; [reflexivity|].
        apply (Hmk true true); [intro; pose proof (Hseen eq_refl); lia|reflexivity].
      * destruct seen.
        -- cbn -[Z.pow clock wrap due Z.le Z.lt Z.leb]. rewrite Hdue2 by reflexivity. split; [reflexivity|].
           apply (Hmk false true); [intro; pose proof (Hseen eq_refl); lia|reflexivity].
        -- cbn -[Z.pow clock wrap due Z.le Z.lt Z.leb]. rewrite Hdue by reflexivity.
           destruct (due T0 d T) eqn:E; cbn -[clock].
           ++ split; [reflexivity|]. apply (Hmk false true); [intro; unfold due in E; lia|reflexivity].
           ++ split; [reflexivity|]. apply (Hmk false false); discriminate.
    + cbn [fst snd t_interval ideal_interval]. split; [reflexivity|]. subst tst.
      apply (Hmk fired seen); [intro E; pose proof (Hseen E); lia|exact Hfs].
Qed.

Lemma run_ideal os : forall now t s, Sim now t s -> contract w now s os ->
  snd (trun w t os) = snd (ideal_run s os).
Proof.
  induction os as [|[T o] r IH]; intros now t s S C; [reflexivity|].
  cbn [contract] in C. destruct C as (H1 & H2 & H3 & H4).
  destruct (sim_step now t s T o S H1 H2 H3) as [E1 S1].
  cbn [trun ideal_run]. destruct (tstep w t T o) as [t1 x1]. destruct (ideal_step s T o) as [s1 y1].
  cbn [fst snd] in *. subst y1. specialize (IH T t1 s1 S1 H4).
  destruct (trun w t1 r) as [t2 xs]. destruct (ideal_run s1 r) as [s2 ys]. cbn [snd] in *. congruence.
Qed.

Lemma run_from_default os T : contract w T Idle os -> snd (trun w t_default os) = snd (ideal_run Idle os).
Proof. intro H. apply (run_ideal os T); [split; reflexivity|exact H]. Qed.

(* ---- safety without the polling contract ---- *)
Definition Weak (now : Z) (t : timeout) (last : option (Z * Z)) (fired : bool) : Prop :=
  match last with
  | None => t_state t = STOPPED /\ t_interval t = 0
  | Some (T0, d) => t_start t = clock w T0 /\ t_interval t = d /\ 0 <= d < 2 ^ w /\ T0 <= now /\
      (t_state t = Z.lor EXPIRED EXECUTED \/ (fired = false /\ t_state t = ARMED) \/
       (fired = false /\ t_state t = EXPIRED)) /\
      (t_state t = EXPIRED \/ t_state t = Z.lor EXPIRED EXECUTED -> T0 + d <= now)
  end.

Lemma weak_run os : forall now t last fired, Weak now t last fired -> monotone w now os ->
  never_early w last fired os (snd (trun w t os)).
Proof.
  pose proof pow_pos as Hpow.
  induction os as [|[T o] r IH]; intros now t last fired S M; [exact I|].
  cbn [monotone] in M. destruct M as (H1 & H2 & H3). cbn [trun].
  destruct t as [ts ti tst].
  assert (forall T', now <= T' -> Weak T' (mkTimeout ts ti tst) last fired) as Hlater.
  { intros T' HT'. destruct last as [[T0 d]|]; cbn [Weak] in *; [|exact S]. intuition lia. }
  destruct o as [x| | | | | | |]; cbn [tstep].
  - destruct (trun w (t_restart w {| t_start := ts; t_interval := ti; t_state := tst |} x T) r) as [t2 xs] eqn:E. cbn [snd never_early].
    specialize (IH T (t_restart w {| t_start := ts; t_interval := ti; t_state := tst |} x T)). rewrite E in IH. apply IH; [|exact H3].
    unfold t_restart. destruct (0 <=? x) eqn:Ex; cbn [Weak]; [|split; reflexivity].
    cbn -[Z.pow clock wrap Z.le Z.lt Z.leb]. rewrite (wrap_small w x) by lia. intuition (try lia); discriminate.
  - unfold t_restart_same. cbn [t_interval].
    destruct (trun w (t_restart w {| t_start := ts; t_interval := ti; t_state := tst |} ti T) r) as [t2 xs] eqn:E. cbn [snd never_early].
    specialize (IH T (t_restart w {| t_start := ts; t_interval := ti; t_state := tst |} ti T)). rewrite E in IH. apply IH; [|exact H3].
    unfold t_restart. destruct last as [[T0 d]|]; cbn [Weak t_start t_interval t_state] in S |- *.
    + destruct S as (S1 & -> & S3 & S4 & S5 & S6). destruct (0 <=? d) eqn:Ex; [|lia].
      cbn -[Z.pow clock wrap Z.le Z.lt Z.leb]. rewrite (wrap_small w d) by lia. intuition (try lia); discriminate.
    + destruct S as [S1 ->]. cbn -[Z.pow clock wrap Z.le Z.lt Z.leb]. rewrite (wrap_small w 0) by lia. intuition (try lia); discriminate.
  - destruct (trun w (t_stop {| t_start := ts; t_interval := ti; t_state := tst |}) r) as [t2 xs] eqn:E. cbn [snd never_early].
    specialize (IH T (t_stop {| t_start := ts; t_interval := ti; t_state := tst |})). rewrite E in IH. apply IH; [|exact H3].
    split; reflexivity.
  - (* execute *)
    destruct (t_execute w {| t_start := ts; t_interval := ti; t_state := tst |} T) as [t1 b] eqn:Ee.
    destruct (trun w t1 r) as [t2 xs] eqn:E. cbn [snd never_early].
    assert ((b = true -> fired = false /\ exists T0 d, last = Some (T0, d) /\ T0 + d <= T) /\ Weak T t1 last (if b then true else fired)) as [G1 G2].
    { unfold t_execute in Ee. cbn [t_state] in Ee.
      destruct last as [[T0 d]|]; cbn [Weak t_start t_interval t_state] in S.
      - destruct S as (-> & -> & S3 & S4 & S5 & S6).
        destruct S5 as [->|[[-> ->]|[-> ->]]].
        + cbn in Ee. injection Ee as <- <-. split; [discriminate|].
          cbn -[Z.pow clock wrap Z.le Z.lt Z.leb]. intuition (try lia).
        + unfold checkExpiration in Ee. cbn -[Z.pow clock wrap Z.le Z.lt Z.leb] in Ee.
          pose proof (elapsed_le T0 T ltac:(lia)) as He.
          destruct (d <=? wrap w (clock w T - clock w T0)) eqn:Ed; injection Ee as <- <-.
          * split; [intros _; split; [reflexivity|]; exists T0, d; split; [reflexivity|lia]|].
            cbn -[Z.pow clock wrap Z.le Z.lt Z.leb]. intuition (try lia).
          * split; [discriminate|]. cbn -[Z.pow clock wrap Z.le Z.lt Z.leb]. intuition (try lia); discriminate.
        + cbn in Ee. injection Ee as <- <-. specialize (S6 (or_introl eq_refl)).
          split; [intros _; split; [reflexivity|]; exists T0, d; split; [reflexivity|lia]|].
          cbn -[Z.pow clock wrap Z.le Z.lt Z.leb]. intuition (try lia).
      - destruct S as [-> ->]. cbn in Ee. injection Ee as <- <-. split; [discriminate|]. split; reflexivity. }
    split; [intro Hb; apply G1; congruence|].
    specialize (IH T t1 last (if b then true else fired) G2 H3). rewrite E in IH. cbn [snd] in IH.
    destruct b; exact IH.
  - destruct (trun w {| t_start := ts; t_interval := ti; t_state := tst |} r) as [t2 xs] eqn:E. cbn [snd never_early].
    specialize (IH T _ last fired (Hlater T H1) H3). rewrite E in IH. exact IH.
  - (* isArmed *)
    destruct (t_isArmed w {| t_start := ts; t_interval := ti; t_state := tst |} T) as [t1 b] eqn:Ee.
    destruct (trun w t1 r) as [t2 xs] eqn:E. cbn [snd never_early].
    assert (Weak T t1 last fired) as G2.
    { unfold t_isArmed, t_query, checkExpiration in Ee. cbn [t_state t_start t_interval] in Ee.
      destruct last as [[T0 d]|]; cbn [Weak t_start t_interval t_state] in S.
      - destruct S as (-> & -> & S3 & S4 & S5 & S6).
        destruct S5 as [->|[[-> ->]|[-> ->]]]; cbn -[Z.pow clock wrap Z.le Z.lt Z.leb] in Ee.
        + injection Ee as <- <-. cbn -[Z.pow clock wrap Z.le Z.lt Z.leb]. intuition (try lia).
        + pose proof (elapsed_le T0 T ltac:(lia)) as He.
          destruct (d <=? wrap w (clock w T - clock w T0)) eqn:Ed; injection Ee as <- <-;
          cbn -[Z.pow clock wrap Z.le Z.lt Z.leb]; intuition (try lia); discriminate.
        + injection Ee as <- <-. cbn -[Z.pow clock wrap Z.le Z.lt Z.leb]. intuition (try lia).
      - destruct S as [-> ->]. cbn in Ee. injection Ee as <- <-. split; reflexivity. }
    specialize (IH T t1 last fired G2 H3). rewrite E in IH. exact IH.
  - (* isExpired *)
    destruct (t_isExpired w {| t_start := ts; t_interval := ti; t_state := tst |} T) as [t1 b] eqn:Ee.
    destruct (trun w t1 r) as [t2 xs] eqn:E. cbn [snd never_early].
    assert ((b = true -> exists T0 d, last = Some (T0, d) /\ T0 + d <= T) /\ Weak T t1 last fired) as [G1 G2].
    { unfold t_isExpired, t_query, checkExpiration in Ee. cbn [t_state t_start t_interval] in Ee.
      destruct last as [[T0 d]|]; cbn [Weak t_start t_interval t_state] in S.
      - destruct S as (-> & -> & S3 & S4 & S5 & S6).
        destruct S5 as [->|[[-> ->]|[-> ->]]]; cbn -[Z.pow clock wrap Z.le Z.lt Z.leb] in Ee.
        + injection Ee as <- <-. specialize (S6 (or_intror eq_refl)). split; [intros _; exists T0, d; split; [reflexivity|lia]|].
          cbn -[Z.pow clock wrap Z.le Z.lt Z.leb]. intuition (try lia).
        + pose proof (elapsed_le T0 T ltac:(lia)) as He.
          destruct (d <=? wrap w (clock w T - clock w T0)) eqn:Ed; injection Ee as <- <-.
          * split; [intros _; exists T0, d; split; [reflexivity|lia]|].
            cbn -[Z.pow clock wrap Z.le Z.lt Z.leb]; intuition (try lia).
          * split; [discriminate|]. cbn -[Z.pow clock wrap Z.le Z.lt Z.leb]; intuition (try lia); discriminate.
        + injection Ee as <- <-. specialize (S6 (or_introl eq_refl)). split; [intros _; exists T0, d; split; [reflexivity|lia]|].
          cbn -[Z.pow clock wrap Z.le Z.lt Z.leb]. intuition (try lia).
      - destruct S as [-> ->]. cbn in Ee. injection Ee as <- <-. split; [discriminate|]. split; reflexivity. }
    split; [intro Hb; apply G1; congruence|].
    specialize (IH T t1 last fired G2 H3). rewrite E in IH. exact IH.
  - destruct (trun w {| t_start := ts; t_interval := ti; t_state := tst |} r) as [t2 xs] eqn:E. cbn [snd never_early].
    specialize (IH T _ last fired (Hlater T H1) H3). rewrite E in IH. exact IH.
Qed.

Lemma weak_from_default os T : monotone w T os -> never_early w None false os (snd (trun w t_default os)).
Proof. intro H. apply (weak_run os T); [split; reflexivity|exact H]. Qed.

(* ---- remaining ---- *)
Lemma remaining_exact now t T0 d fired seen T : Sim now t (Running T0 d fired seen) ->
  T0 / 2 ^ w = T / 2 ^ w -> t_remaining w t T = T0 + d - T.
Proof.
  intros (Hs & Hi & _ & _ & _ & Hst & _) HE. unfold t_remaining. rewrite Hst.
  assert (((if fired then Z.lor EXPIRED EXECUTED else if seen then EXPIRED else ARMED) =? STOPPED) = false) as ->
    by (destruct fired, seen; reflexivity).
  rewrite Hs, Hi. unfold clock, wrap. pose proof pow_pos.
  rewrite (Z.mod_eq T0) by lia. rewrite (Z.mod_eq T) by lia. rewrite HE. lia.
Qed.

Lemma run_ideal_sim os : forall now t s, Sim now t s -> contract w now s os ->
  exists now', Sim now' (fst (trun w t os)) (fst (ideal_run s os)).
Proof.
  induction os as [|[T o] r IH]; intros now t s S C; [exists now; exact S|].
  cbn [contract] in C. destruct C as (H1 & H2 & H3 & H4).
  destruct (sim_step now t s T o S H1 H2 H3) as [E1 S1].
  cbn [trun ideal_run]. destruct (tstep w t T o) as [t1 x1]. destruct (ideal_step s T o) as [s1 y1].
  cbn [fst snd] in *. specialize (IH T t1 s1 S1 H4).
  destruct (trun w t1 r) as [t2 xs]. destruct (ideal_run s1 r) as [s2 ys]. cbn [fst] in *. exact IH.
Qed.

Lemma remaining_history os T T' : contract w T Idle os ->
  match fst (ideal_run Idle os) with
  | Idle => t_remaining w (fst (trun w t_default os)) T' = 0
  | Running T0 d _ _ => T0 / 2 ^ w = T' / 2 ^ w -> t_remaining w (fst (trun w t_default os)) T' = T0 + d - T'
  end.
Proof.
  intro C. destruct (run_ideal_sim os T t_default Idle (conj eq_refl eq_refl) C) as [now' S].
  destruct (fst (ideal_run Idle os)) as [|T0 d f s].
  - destruct S as [S1 S2]. unfold t_remaining. rewrite S1. reflexivity.
  - apply (remaining_exact _ _ _ _ _ _ _ S).
Qed.

(* ---- periodic timer ---- *)
(* what one poll must deliver, on real time: start T0, period p, poll at T1 / T2 *)
Lemma p_loop_spec p : 0 < p < 2 ^ w -> forall fuel T0 T count, 
  p <= T - T0 < 2 ^ w -> T - T0 < p * (Z.of_nat fuel + 1) ->
  p_loop w fuel (clock w T0) p (clock w T) count = Some (clock w (T0 + (T - T0) / p * p), count + ticks p (T - T0)).
Proof.
  intros Hp. induction fuel as [|f IH]; intros T0 T count He Hf; [lia|].
  cbn [p_loop].
  assert (wrap w (clock w T0 + p) = clock w (T0 + p)) as E1.
  { unfold clock, wrap. rewrite Zplus_mod_idemp_l. reflexivity. }
  rewrite E1. rewrite elapsed_exact by lia.
  set (e := T - T0) in *. replace (T - (T0 + p)) with (e - p) by lia.
  assert (e / p = (e - p) / p + 1) as Eq.
  { replace e with ((e - p) + 1 * p) at 1 by lia. rewrite Z.div_add by lia. reflexivity. }
  assert (e mod p = (e - p) mod p) as Em.
  { replace e with ((e - p) + 1 * p) at 1 by lia. rewrite Z.mod_add by lia. reflexivity. }
  destruct (e - p <? p) eqn:E2.
  - assert ((e - p) / p = 0) as Ez by (apply Z.div_small; lia).
    destruct (e - p =? p) eqn:E3; [lia|]. f_equal. f_equal.
    + f_equal. rewrite Eq, Ez. lia.
    + unfold ticks. rewrite Eq, Ez. destruct (2 <=? 0 + 1) eqn:?; [lia|]. rewrite andb_false_r. lia.
  - replace (e - p) with (T - (T0 + p)) in * by lia.
    rewrite IH by lia. replace (T - (T0 + p)) with (e - p) in * by lia.
    f_equal. f_equal.
    + f_equal. rewrite Eq. lia.
    + unfold ticks. rewrite Eq, Em.
      destruct (e - p =? p) eqn:E3.
      * assert (e - p = p) as -> by lia. rewrite Z_mod_same_full, Z_div_same by lia.
        cbn. lia.
      * pose proof (Z.div_le_lower_bound (e - p) p 1 ltac:(lia) ltac:(lia)).
        destruct ((e - p) mod p =? 0) eqn:E4; cbn [andb].
        -- assert (2 <= (e - p) / p) as E5.
           { destruct (Z.eq_dec ((e - p) / p) 1) as [E6|]; [|lia].
             pose proof (Z.div_mod (e - p) p ltac:(lia)) as E7. rewrite E6 in E7. lia. }
           destruct (2 <=? (e - p) / p) eqn:?; [|lia]. destruct (2 <=? (e - p) / p + 1) eqn:?; lia.
        -- lia.
Qed.

(* a periodic timer armed on real time T0 with period p *)
Definition PSim (t : timeout) (T0 p : Z) : Prop :=
  t_start t = clock w T0 /\ t_interval t = p /\ t_state t = ARMED.

Lemma p_execute_spec fuel t T0 p T1 T2 : PSim t T0 p -> 0 < p < 2 ^ w -> T0 <= T1 <= T2 -> T2 - T0 < 2 ^ w ->
  T2 - T0 < p * (Z.of_nat fuel + 1) ->
  if T1 - T0 <? p then p_execute w fuel t T1 T2 = Some (t, 0)
  else exists t', p_execute w fuel t T1 T2 = Some (t', ticks p (T2 - T0)) /\ PSim t' (T0 + (T2 - T0) / p * p) p.
Proof.
  intros (Hs & Hi & Hst) Hp HT Hlim Hf. destruct t as [ts ti tst]; cbn [t_start t_interval t_state] in *. subst.
  unfold p_execute, t_execute, checkExpiration. cbn -[Z.pow clock wrap Z.div p_loop Z.ltb]. rewrite elapsed_exact by lia.
  destruct (T1 - T0 <? p) eqn:E.
  - destruct (p <=? T1 - T0) eqn:?; [lia|]. reflexivity.
  - destruct (p <=? T1 - T0) eqn:?; [|lia]. cbn -[Z.pow clock wrap Z.div p_loop].
    destruct (p =? 0) eqn:?; [lia|]. rewrite p_loop_spec by lia. cbn [obind].
    eexists; split; [reflexivity|]. repeat split.
Qed.

Fixpoint ideal_polls (p T0 : Z) (polls : list (Z * Z)) : Z * list Z :=
  match polls with
  | [] => (T0, [])
  | (T1, T2) :: r =>
      if T1 - T0 <? p then let (T, cs) := ideal_polls p T0 r in (T, 0 :: cs)
      else let (T, cs) := ideal_polls p (T0 + (T2 - T0) / p * p) r in (T, ticks p (T2 - T0) :: cs)
  end.

Lemma p_run_spec fuel p : 0 < p < 2 ^ w -> forall polls t T0 now, PSim t T0 p -> T0 <= now ->
  poll_contract w fuel p T0 now polls ->
  exists t', p_run w fuel t polls = Some (t', snd (ideal_polls p T0 polls)) /\ PSim t' (fst (ideal_polls p T0 polls)) p.
Proof.
  intros Hp. induction polls as [|[T1 T2] r IH]; intros t T0 now S Hn C.
  - exists t. split; [reflexivity|exact S].
  - cbn [poll_contract] in C. destruct C as (C1 & C2 & C3 & C4).
    pose proof (p_execute_spec fuel t T0 p T1 T2 S Hp ltac:(lia) C2 C3) as HE.
    cbn [p_run ideal_polls]. destruct (T1 - T0 <? p) eqn:E.
    + rewrite HE. cbn [obind]. destruct (IH t T0 T2 S ltac:(lia) C4) as (t' & E1 & S1).
      rewrite E1. cbn [obind]. destruct (ideal_polls p T0 r) as [T cs]. exists t'. split; [reflexivity|exact S1].
    + destruct HE as (t1 & E1 & S1). rewrite E1. cbn [obind].
      assert (T0 + (T2 - T0) / p * p <= T2) as Hle.
      { pose proof (Z.mul_div_le (T2 - T0) p ltac:(lia)). lia. }
      destruct (IH t1 _ T2 S1 Hle C4) as (t' & E2 & S2).
      rewrite E2. cbn [obind]. destruct (ideal_polls p (T0 + (T2 - T0) / p * p) r) as [T cs]. exists t'.
      split; [reflexivity|exact S2].
Qed.

Lemma ideal_polls_sum p : 0 < p -> forall polls T0, 
  fst (ideal_polls p T0 polls) = T0 + p * (zsum (snd (ideal_polls p T0 polls)) + exact_late p T0 polls).
Proof.
  intros Hp. induction polls as [|[T1 T2] r IH]; intros T0; cbn [ideal_polls exact_late].
  - cbn. lia.
  - destruct (T1 - T0 <? p).
    + specialize (IH T0). destruct (ideal_polls p T0 r) as [T cs]. cbn [fst snd zsum fold_right] in *.
      fold zsum in *. change (fold_right Z.add 0 cs) with (zsum cs). lia.
    + specialize (IH (T0 + (T2 - T0) / p * p)). destruct (ideal_polls p _ r) as [T cs]. cbn [fst snd zsum fold_right] in *.
      change (fold_right Z.add 0 cs) with (zsum cs) in *. unfold ticks.
      rewrite IH. nia.
Qed.

(* after the last poll the activation instant is the last grid point not after it *)
Lemma ideal_polls_last fuel p : 0 < p -> forall polls T0 now, T0 <= now -> now - T0 < p ->
  poll_contract w fuel p T0 now polls -> (forall T1 T2, In (T1, T2) polls -> T1 = T2) ->
  let T := fst (ideal_polls p T0 polls) in let Tl := snd (last polls (now, now)) in
  T <= Tl < T + p.
Proof.
  intros Hp. induction polls as [|[T1 T2] r IH]; intros T0 now H0 H1 C Heq.
  - cbn. lia.
  - cbn [poll_contract] in C. destruct C as (C1 & C2 & C3 & C4).
    assert (T1 = T2) as -> by (apply Heq; left; reflexivity).
    assert (forall A (l : list A) x y, last (x :: l) y = last l x) as Hlast.
    { intros B l. induction l as [|z l IHl]; intros x y; [reflexivity|]. cbn [last] in *. destruct l; [reflexivity|apply IHl; exact x]. }
    rewrite Hlast. cbn [ideal_polls].
    destruct (T2 - T0 <? p) eqn:E.
    + specialize (IH T0 T2 ltac:(lia) ltac:(lia) C4). destruct (ideal_polls p T0 r) as [T cs]. cbn [fst] in *.
      apply IH. intros. apply Heq. right; assumption.
    + pose proof (Z.mod_pos_bound (T2 - T0) p ltac:(lia)). pose proof (Z.div_mod (T2 - T0) p ltac:(lia)).
      specialize (IH (T0 + (T2 - T0) / p * p) T2 ltac:(lia) ltac:(lia) C4). destruct (ideal_polls p _ r) as [T cs]. cbn [fst] in *.
      apply IH. intros. apply Heq. right; assumption.
Qed.

Lemma periodic_history fuel p T0 polls :
  0 < p < 2 ^ w -> poll_contract w fuel p T0 T0 polls ->
  exists t cs m, p_run w fuel (t_restart w t_default p T0) polls = Some (t, cs) /\
    m = zsum cs + exact_late p T0 polls /\
    t_start t = clock w (T0 + p * m) /\ t_interval t = p /\ t_state t = ARMED /\
    ((forall T1 T2, In (T1, T2) polls -> T1 = T2) -> m = (snd (last polls (T0, T0)) - T0) / p).
Proof.
  intros Hp C.
  assert (PSim (t_restart w t_default p T0) T0 p) as S.
  { unfold t_restart. destruct (0 <=? p) eqn:?; [|lia]. repeat split. apply wrap_small. lia. }
  destruct (p_run_spec fuel p Hp polls _ T0 T0 S ltac:(lia) C) as (t & E & S1).
  exists t, (snd (ideal_polls p T0 polls)), (zsum (snd (ideal_polls p T0 polls)) + exact_late p T0 polls).
  split; [exact E|]. split; [reflexivity|]. destruct S1 as (S1 & S2 & S3).
  rewrite <- (ideal_polls_sum p ltac:(lia)). repeat split; try assumption.
  intro Heq. pose proof (ideal_polls_last fuel p ltac:(lia) polls T0 T0 ltac:(lia) ltac:(lia) C Heq) as HL.
  cbv zeta in HL. rewrite (ideal_polls_sum p ltac:(lia)) in HL.
  set (m := zsum _ + _) in *. apply (Zdiv_unique _ _ _ (snd (last polls (T0, T0)) - T0 - p * m)); lia.
Qed.

Lemma trun_app os1 : forall t os2, trun w t (os1 ++ os2) =
  let (t1, x1) := trun w t os1 in let (t2, x2) := trun w t1 os2 in (t2, x1 ++ x2).
Proof.
  induction os1 as [|[T o] r IH]; intros t os2; cbn [app trun].
  - destruct (trun w t os2); reflexivity.
  - destruct (tstep w t T o) as [t1 x]. rewrite IH. destruct (trun w t1 r) as [t2 xs]. destruct (trun w t2 os2) as [t3 ys]. reflexivity.
Qed.
Lemma contract_app os1 : forall T s os2, contract w T s (os1 ++ os2) -> contract w T s os1 /\
  exists T', contract w T' (fst (ideal_run s os1)) os2.
Proof.
  induction os1 as [|[T1 o] r IH]; intros T s os2 C; cbn [app contract ideal_run] in *.
  - split; [exact I|]. exists T. exact C.
  - destruct C as (C1 & C2 & C3 & C4). destruct (IH _ _ _ C4) as (D1 & T' & D2).
    split; [auto|]. exists T'. destruct (ideal_step s T1 o) as [s1 x]. cbn [fst] in *. destruct (ideal_run s1 r) as [s2 xs]. exact D2.
Qed.
Lemma ideal_app os1 : forall s os2, ideal_run s (os1 ++ os2) =
  let (t1, x1) := ideal_run s os1 in let (t2, x2) := ideal_run t1 os2 in (t2, x1 ++ x2).
Proof.
  induction os1 as [|[T o] r IH]; intros t os2; cbn [app ideal_run].
  - destruct (ideal_run t os2); reflexivity.
  - destruct (ideal_step t T o) as [t1 x]. rewrite IH. destruct (ideal_run t1 r) as [t2 xs]. destruct (ideal_run t2 os2) as [t3 ys]. reflexivity.
Qed.

Lemma states_exclusive os T T' :
  contract w T Idle (os ++ [(T', TIsStopped); (T', TIsArmed); (T', TIsExpired)]) ->
  exists t l a b c, trun w t_default (os ++ [(T', TIsStopped); (T', TIsArmed); (T', TIsExpired)])
     = (t, l ++ [TBool a; TBool b; TBool c]) /\
    ((a = true /\ b = false /\ c = false) \/ (a = false /\ b = true /\ c = false) \/ (a = false /\ b = false /\ c = true)).
Proof.
  intro C. pose proof (run_from_default _ _ C) as E. rewrite ideal_app in E.
  destruct (trun w t_default _) as [t out]. cbn [snd] in E.
  destruct (ideal_run Idle os) as [s xs]. destruct s as [|T0 d f sn]; cbn [ideal_run ideal_step snd] in E.
  - exists t, xs, true, false, false. subst out. auto.
  - exists t, xs, false, (negb (due T0 d T')), (due T0 d T'). subst out. split; [reflexivity|].
    destruct (due T0 d T'); auto.
Qed.

Lemma periodic_count fuel p T0 polls : 0 < p < 2 ^ w ->
  poll_contract w fuel p T0 T0 (map (fun t => (t, t)) polls) ->
  exact_late p T0 (map (fun t => (t, t)) polls) = 0 ->
  exists t cs, p_run w fuel (t_restart w t_default p T0) (map (fun t => (t, t)) polls) = Some (t, cs) /\
    zsum cs = (last polls T0 - T0) / p.
Proof.
  intros Hp C Hx. destruct (periodic_history fuel p T0 _ Hp C) as (t & cs & m & E & Em & _ & _ & _ & Hm).
  exists t, cs. split; [exact E|]. rewrite Hx in Em. rewrite Z.add_0_r in Em. rewrite <- Em, Hm.
  - f_equal. f_equal. clear. revert T0. induction polls as [|x r IH]; intro T0; [reflexivity|].
    destruct r as [|y r]; [reflexivity|]. exact (IH T0).
  - intros T1 T2 Hin. apply in_map_iff in Hin as (y & Ey & _). congruence.
Qed.

End Proofs.
