(* Proofs about key frame animations. *)
From Verif Require Import Base AnimModel AnimSpec AnimProofs KeyModel KeySpec.

Lemma tb_sb T : In T instances -> 0 < tb T <= sb T.
Proof. intro H. cbn [instances In] in H. repeat (destruct H as [<- | H]; [cbn; lia|]). destruct H. Qed.

Lemma swrap_0 w x : 0 < w -> 0 < x < 2 ^ w -> swrap w x <> 0.
Proof.
  intros Hw Hx H. unfold swrap in H.
  assert (E : 2 ^ w = 2 * 2 ^ (w - 1)) by (rewrite <- Z.pow_succ_r by lia; f_equal; lia).
  assert (HP : 0 < 2 ^ (w - 1)) by (apply Z.pow_pos_nonneg; lia).
  set (P := 2 ^ (w - 1)) in *. rewrite E in *. clearbody P.
  destruct (Z_lt_ge_dec (x + P) (2 * P)) as [L|L].
  - rewrite Z.mod_small in H; lia.
  - rewrite <- (Z.mod_unique (x + P) (2 * P) 1 (x - P)) in H; lia.
Qed.

Lemma animateTo_some T a now v len : In T instances -> 0 <= len < 2 ^ tb T -> exists a1, animateTo T a now v len = Some a1.
Proof.
  intros HT Hl. unfold animateTo. destruct (len =? 0) eqn:E; [eauto|].
  unfold initialize. destruct (swrap (ab T) _ =? 0); cbn [obind]; [eauto|].
  assert (Ew : wrap (tb T) len = len) by (unfold wrap; apply Z.mod_small; lia). rewrite Ew.
  destruct (tb_sb T HT) as [B1 B2].
  assert (Hp : 2 ^ tb T <= 2 ^ sb T) by (apply Z.pow_le_mono_r; lia).
  destruct (swrap (sb T) len =? 0) eqn:E2.
  - apply Z.eqb_eq in E2. exfalso. apply (swrap_0 (sb T) len); lia.
  - cbn [obind]. eauto.
Qed.

Lemma animate_all_some T now len : In T instances -> 0 <= len < 2 ^ tb T -> forall l v, length v = length l ->
  exists l1, animate_all T l now v len = Some l1 /\ length l1 = length l.
Proof.
  intros HT Hl. induction l as [|a l IH]; intros [|x v] H; cbn [length] in H; try discriminate; cbn [animate_all].
  - exists []. auto.
  - destruct (animateTo_some T a now x len HT Hl) as [a1 E]. rewrite E. cbn [obind].
    destruct (IH v ltac:(lia)) as (l1 & E1 & E2). rewrite E1. cbn [obind]. exists (a1 :: l1). cbn [length]. auto.
Qed.

Lemma set_all_some : forall l v, length v = length l -> exists l1, set_all l v = Some l1 /\ length l1 = length l.
Proof.
  induction l as [|a l IH]; intros [|x v] H; cbn [length] in H; try discriminate; cbn [set_all].
  - exists []. auto.
  - destruct (IH v ltac:(lia)) as (l1 & E1 & E2). rewrite E1. cbn [obind]. exists (setValue a x :: l1). cbn [length]. auto.
Qed.

Definition kinv (T : ramptype) (n : nat) (k : keyanim) : Prop :=
  frames_for T n (frames k) /\ length (anims k) = n /\ 0 <= cf k <= zlen (frames k) /\
  (reversed k = true -> mcycle k = false /\ (cf k < zlen (frames k) \/ cf k = 0)).

Lemma znth_0 {A} (l : list A) n : length l = S n -> exists x, znth l 0 = Some x.
Proof. destruct l as [|x l]; intro H; [discriminate|]. exists x. reflexivity. Qed.

Lemma u16_small x : 0 <= x < 65536 -> u16 x = x.
Proof. intro. unfold u16. apply Z.mod_small. lia. Qed.

Lemma next_inv len c r cyc rev c1 r1 rev1 go : 1 <= c <= len -> len < 65536 -> (rev = true -> cyc = false /\ c < len) ->
  next_frame len c r cyc rev = (c1, r1, rev1, go) -> 0 <= c1 <= len /\ (rev1 = true -> cyc = false /\ (c1 < len \/ c1 = 0)).
Proof.
  intros Hc Hl Hr. unfold next_frame, checkRepeat.
  destruct cyc.
  - assert (rev = false) by (destruct rev; [destruct (Hr eq_refl); discriminate|reflexivity]). subst rev.
    destruct (c >=? len) eqn:E.
    + destruct (r =? 1); cbn [negb]; intro X; injection X as <- <- <- <-; (split; [lia|discriminate]).
    + intro X; injection X as <- <- <- <-. rewrite u16_small by lia. split; [lia|discriminate].
  - destruct rev; cbn [negb].
    + destruct (Hr eq_refl) as [_ H]. destruct (c =? 1) eqn:E.
      * destruct (r =? 1); cbn [negb]; intro X; injection X as <- <- <- <-; (split; [lia|auto; try discriminate]).
      * intro X; injection X as <- <- <- <-. rewrite u16_small by lia. split; [lia|]. intros _. split; [reflexivity|]. left. lia.
    + destruct (c >=? len) eqn:E; intro X; injection X as <- <- <- <-; rewrite u16_small by lia; (split; [lia|]); [|discriminate].
      intros _. split; [reflexivity|]. left. lia.
Qed.

Lemma kupdate_inv T n k now : In T instances -> kinv T (S n) k -> exists k1, kupdate T k now = Some k1 /\ kinv T (S n) k1.
Proof.
  intros HT (G & Hn & Hc & Hr). pose proof G as [GF GL]. unfold kupdate.
  assert (Hu : forall l, length (update_all T l now) = length l) by (intro; apply map_length).
  destruct (cf k >? 0) eqn:E.
  - destruct (znth_0 (anims k) n Hn) as [a0 E0]. rewrite E0. cbn [obind].
    destruct (negb (isAnimating a0)).
    + destruct (znth_in_range (frames k) (cf k - 1) ltac:(lia)) as [f Ef]. rewrite Ef. cbn [obind].
      assert (Gf : frame_for T (S n) f).
      { rewrite Forall_forall in GF. apply GF. unfold znth in Ef. destruct (cf k - 1 <? 0); [discriminate|]. exact (nth_error_In _ _ Ef). }
      destruct Gf as [Gf1 Gf2].
      destruct (animate_all_some T now (flen f) HT Gf1 (anims k) (fval f) ltac:(lia)) as (l & El & Hl). rewrite El. cbn [obind].
      destruct (next_frame (zlen (frames k)) (cf k) (rep k) (mcycle k) (reversed k)) as [[[c r] rev] go] eqn:En.
      apply next_inv in En; [| lia | lia |].
      * destruct En as [N1 N2]. eexists. split; [reflexivity|]. unfold kinv. cbn [frames anims cf reversed mcycle].
        split; [exact G|]. split; [destruct go; rewrite ?Hu; lia|]. split; [exact N1|exact N2].
      * intro K. destruct (Hr K) as [K1 [K2|K2]]; [auto|lia].
    + eexists. split; [reflexivity|]. unfold kinv. cbn [frames anims cf reversed mcycle]. rewrite Hu. auto.
  - eexists. split; [reflexivity|]. unfold kinv. cbn [frames anims cf reversed mcycle]. rewrite Hu. auto.
Qed.

Lemma cancel_inv T n k : kinv T n k -> kinv T n (cancel k).
Proof.
  intros (G & Hn & Hc & Hr). unfold kinv, cancel. cbn [frames anims cf reversed mcycle]. rewrite map_length.
  pose proof (zlen_nonneg (frames k)). split; [exact G|]. split; [exact Hn|]. split; [lia|discriminate].
Qed.

Definition kop_ok (T : ramptype) (n : nat) (o : kop) : Prop := match o with KSetKeyFrames f => frames_for T n f | _ => True end.

Lemma kperform_inv T n k now o : In T instances -> kop_ok T (S n) o -> kinv T (S n) k -> exists k1, kperform T k now o = Some k1 /\ kinv T (S n) k1.
Proof.
  intros HT Ho HI. pose proof (cancel_inv T (S n) k HI) as HC. pose proof HI as (G & Hn & Hc & Hr). destruct o as [r| | | |m|f]; cbn [kperform].
  - eexists. split; [reflexivity|]. unfold kstart. destruct (frames k) as [|f0 fs] eqn:Ef; cbn [fst]; [exact HI|].
    destruct HC as (C1 & C2 & C3 & C4). unfold kinv. cbn [frames anims cf reversed mcycle]. cbn [cancel frames] in C1. 
    split; [exact C1|]. split; [exact C2|]. cbn [cancel frames]. split; [rewrite Ef, zlen_cons; pose proof (zlen_nonneg fs); lia|]. cbn [cancel reversed]. discriminate.
  - unfold kstop. destruct (frames k) as [|f0 fs] eqn:Ef; [eauto|]. rewrite <- Ef.
    assert (HL : 0 < zlen (frames k)) by (rewrite Ef, zlen_cons; pose proof (zlen_nonneg fs); lia).
    destruct (znth_in_range (frames k) (if reversed k then 0 else zlen (frames k) - 1)) as [f E]; [destruct (reversed k); lia|]. rewrite E. cbn [obind].
    assert (Gf : frame_for T (S n) f).
    { destruct G as [GF _]. rewrite <- Ef in GF. rewrite Forall_forall in GF. apply GF. unfold znth in E. destruct (_ <? 0); [discriminate|]. exact (nth_error_In _ _ E). }
    destruct Gf as [_ Gf2]. destruct (set_all_some (anims k) (fval f) ltac:(lia)) as (l & El & Hl). rewrite El. cbn [obind].
    eexists. split; [reflexivity|]. apply cancel_inv. unfold kinv. cbn [frames anims cf reversed mcycle]. rewrite <- Ef in *. rewrite Hl. auto.
  - eauto.
  - exact (kupdate_inv T n k now HT HI).
  - eexists. split; [reflexivity|]. unfold kinv, setMode. cbn [frames anims cf reversed mcycle]. split; [exact G|]. split; [exact Hn|]. split; [exact Hc|discriminate].
  - eexists. split; [reflexivity|]. unfold kinv, setKeyFrames. cbn [frames anims cf reversed mcycle cancel]. rewrite map_length.
    pose proof (zlen_nonneg f). split; [exact Ho|]. split; [exact Hn|]. split; [lia|discriminate].
Qed.

Lemma kperforms_inv T n : In T instances -> forall l k now, Forall (fun x => kop_ok T (S n) (snd x)) l -> kinv T (S n) k ->
  exists k1, kperforms T k now l = Some k1 /\ kinv T (S n) k1.
Proof.
  intro HT. induction l as [|[g o] l IH]; intros k now Ho HI; cbn [kperforms]; [eauto|].
  inversion Ho as [|? ? O1 O2]; subst. cbn [snd] in O1.
  destruct (kperform_inv T n k (now + g) o HT O1 HI) as (k1 & E1 & I1). rewrite E1. cbn [obind]. exact (IH k1 (now + g) O2 I1).
Qed.

Lemma kplay_inv T n : In T instances -> forall l k now, kinv T (S n) k -> exists k1, kplay T k now l = Some k1 /\ kinv T (S n) k1.
Proof.
  intro HT. induction l as [|g l IH]; intros k now HI; cbn [kplay]; [eauto|].
  destruct (kupdate_inv T n k (now + g) HT HI) as (k1 & E1 & I1). rewrite E1. cbn [obind]. exact (IH k1 (now + g) I1).
Qed.

(* ---- what an update does to the counters ---- *)
Lemma kupdate_counters T k now k1 : kupdate T k now = Some k1 ->
  frames k1 = frames k /\ mcycle k1 = mcycle k /\
  (cf k > 0 /\ shown k1 = (cf k - 1) :: shown k /\
     (exists go, next_frame (zlen (frames k)) (cf k) (rep k) (mcycle k) (reversed k) = (cf k1, rep k1, reversed k1, go))
   \/ shown k1 = shown k /\ cf k1 = cf k /\ rep k1 = rep k /\ reversed k1 = reversed k).
Proof.
  unfold kupdate. destruct (cf k >? 0) eqn:E.
  - destruct (znth (anims k) 0) as [a0|]; cbn [obind]; [|discriminate].
    destruct (negb (isAnimating a0)).
    + destruct (znth (frames k) (cf k - 1)) as [f|]; cbn [obind]; [|discriminate].
      destruct (animate_all T (anims k) now (fval f) (flen f)) as [l|]; cbn [obind]; [|discriminate].
      destruct (next_frame (zlen (frames k)) (cf k) (rep k) (mcycle k) (reversed k)) as [[[c r] rev] go] eqn:En.
      intro X; injection X as <-. cbn [frames mcycle cf rep reversed shown]. split; [reflexivity|]. split; [reflexivity|]. left.
      split; [lia|]. split; [reflexivity|]. exists go. reflexivity.
    + intro X; injection X as <-. cbn [frames mcycle cf rep reversed shown]. auto 10.
  - intro X; injection X as <-. cbn [frames mcycle cf rep reversed shown]. auto 10.
Qed.

(* ---- the order of the frames ---- *)
(* q rounds and m frames of the next are done *)
Definition in_cycle (N repeat : Z) (k : keyanim) (n : nat) : Prop :=
  zlen (frames k) = N /\ mcycle k = true /\ shown k = down (cycling N) n /\
  (exists q m, Z.of_nat n = q * N + m /\ 0 <= m < N /\ 0 <= q /\ cf k = m + 1 /\ rep k = (if repeat =? 0 then 0 else repeat - q) /\ (repeat = 0 \/ q < repeat)
   \/ repeat > 0 /\ Z.of_nat n = N * repeat /\ cf k = 0).

Lemma in_cycle_step T N repeat k n now k1 : 0 < N < 65536 -> 0 <= repeat -> in_cycle N repeat k n -> kupdate T k now = Some k1 ->
  exists n1, in_cycle N repeat k1 n1.
Proof.
  intros HN Hr (I1 & I2 & I3 & q & m & I4) E. destruct (kupdate_counters T k now k1 E) as (C1 & C2 & C3).
  destruct C3 as [(D1 & D2 & go & D3) | (D1 & D2 & D3 & D4)].
  - destruct I4 as [(J1 & J2 & J3 & J4 & J5 & J6) | (J1 & J2 & J3)]; [|lia].
    exists (S n). unfold in_cycle. rewrite C1, C2. split; [exact I1|]. split; [exact I2|].
    split.
    { rewrite D2, I3. cbn [down]. f_equal. unfold cycling. rewrite J4. replace (m + 1 - 1) with m by lia. apply (Z.mod_unique _ _ q); lia. }
    rewrite I1, I2, J4, J5 in D3. unfold next_frame, checkRepeat in D3.
    assert (EqN : (q + 1) * N = q * N + N) by ring.
    destruct (m + 1 >=? N) eqn:Em.
    + destruct (repeat =? 0) eqn:E0.
      * cbn in D3. injection D3 as D3 D4 D5. exists (q + 1), 0. left. rewrite <- D3, <- D4. repeat split; try lia.
      * destruct (repeat - q =? 1) eqn:E1; cbn [negb] in D3; injection D3 as D3 D4 D5.
        -- exists 0, 0. right. assert (repeat = q + 1) by lia. subst repeat. rewrite (Z.mul_comm N). repeat split; lia.
        -- exists (q + 1), 0. left. rewrite <- D3, <- D4. destruct (repeat - q >? 0) eqn:E2; repeat split; lia.
    + injection D3 as D3 D4 D5. rewrite u16_small in D3 by lia. exists q, (m + 1). left. rewrite <- D3, <- D4. repeat split; try lia.
  - exists n. unfold in_cycle. rewrite C1, C2, D1, D2, D3. split; [exact I1|]. split; [exact I2|]. split; [exact I3|]. exists q, m. exact I4.
Qed.

(* m frames of the swing with the period 2N-2, q of which are done; the last frame of a swing is the first of the next *)
Definition in_swing (N repeat : Z) (k : keyanim) (n : nat) : Prop :=
  zlen (frames k) = N /\ mcycle k = false /\ shown k = down (swinging N) n /\
  (exists q m, Z.of_nat n = q * (2 * N - 2) + m /\ 0 <= m < 2 * N - 2 /\ 0 <= q /\
     cf k = (if m <? N then m else 2 * N - 2 - m) + 1 /\ reversed k = ((m =? 0) && (q >? 0)) || (N <=? m) /\
     rep k = (if repeat =? 0 then 0 else if (m =? 0) && (q >? 0) then repeat - (q - 1) else repeat - q) /\
     (repeat = 0 \/ q < repeat \/ q = repeat /\ m = 0)
   \/ repeat > 0 /\ Z.of_nat n = (2 * N - 2) * repeat + 1 /\ cf k = 0).

Lemma four_eq {A B C D} (a a1 : A) (b b1 : B) (c c1 : C) (d d1 : D) : (a, b, c, d) = (a1, b1, c1, d1) -> a = a1 /\ b = b1 /\ c = c1 /\ d = d1.
Proof. intro H. injection H as -> -> -> ->. auto. Qed.

Ltac ifs := repeat match goal with |- context [if ?b then _ else _] => destruct b eqn:? end; lia.

Lemma in_swing_step T N repeat k n now k1 : 1 < N < 65536 -> 0 <= repeat -> in_swing N repeat k n -> kupdate T k now = Some k1 ->
  exists n1, in_swing N repeat k1 n1.
Proof.
  intros HN Hr (I1 & I2 & I3 & q & m & I4) E. destruct (kupdate_counters T k now k1 E) as (C1 & C2 & C3).
  destruct C3 as [(D1 & D2 & go & D3) | (D1 & D2 & D3 & D4)].
  - destruct I4 as [(J1 & J2 & J3 & J4 & J5 & J6 & J7) | (J1 & J2 & J3)]; [|lia].
    exists (S n). unfold in_swing. rewrite C1, C2. split; [exact I1|]. split; [exact I2|].
    split.
    { rewrite D2, I3. cbn [down]. f_equal. unfold swinging. rewrite J4.
      rewrite <- (Z.mod_unique (Z.of_nat n) (2 * N - 2) q m) by lia. ifs. }
    rewrite I1, I2, J4, J5, J6 in D3. unfold next_frame, checkRepeat in D3.
    assert (EqN : (q + 1) * (2 * N - 2) = q * (2 * N - 2) + (2 * N - 2)) by ring.
    assert (En : Z.of_nat (S n) = q * (2 * N - 2) + (m + 1)) by lia.
    destruct (Z.eq_dec m 0) as [Hm|Hm].
    + subst m. destruct (q >? 0) eqn:Eq.
      * assert (Ev : (0 =? 0) && true || (N <=? 0) = true) by lia. rewrite Ev in D3. cbn [negb] in D3.
        assert (Ec : (if 0 <? N then 0 else 2 * N - 2 - 0) + 1 = 1) by ifs. rewrite Ec in D3. cbn [Z.eqb Pos.eqb andb] in D3.
        destruct (repeat =? 0) eqn:E0.
        -- cbn in D3. apply four_eq in D3; destruct D3 as (D3 & D4 & D5 & D6). exists q, 1. left. rewrite <- D3, <- D4, <- D5. repeat split; ifs.
        -- destruct (repeat - (q - 1) =? 1) eqn:E1; cbn [negb] in D3; apply four_eq in D3; destruct D3 as (D3 & D4 & D5 & D6).
           ++ exists 0, 0. right. assert (repeat = q) by lia. subst repeat. rewrite (Z.mul_comm (2 * N - 2)). repeat split; ifs.
           ++ exists q, 1. left. rewrite <- D3, <- D4, <- D5. destruct (repeat - (q - 1) >? 0) eqn:E2; repeat split; ifs.
      * assert (Ev : (0 =? 0) && false || (N <=? 0) = false) by lia. rewrite Ev in D3. cbn [negb] in D3.
        assert (Ec : (if 0 <? N then 0 else 2 * N - 2 - 0) + 1 = 1) by ifs. rewrite Ec in D3.
        assert (El : 1 >=? N = false) by lia. rewrite El in D3. cbn [Z.eqb andb] in D3. apply four_eq in D3; destruct D3 as (D3 & D4 & D5 & D6). rewrite u16_small in D3 by lia.
        exists q, 1. left. rewrite <- D3, <- D4, <- D5. repeat split; ifs.
    + assert (Em0 : m =? 0 = false) by lia. rewrite Em0 in D3. cbn [andb orb] in D3.
      destruct (N <=? m) eqn:EN; cbn [negb] in D3.
      * assert (Ec : (if m <? N then m else 2 * N - 2 - m) + 1 = 2 * N - 2 - m + 1) by ifs. rewrite Ec in D3.
        assert (El : 2 * N - 2 - m + 1 =? 1 = false) by lia. rewrite El in D3.
        rewrite (u16_small (2 * N - 2 - m + 1 - 1)) in D3 by (clear -HN J2 EN; lia). apply four_eq in D3; destruct D3 as (D3 & D4 & D5 & D6).
        destruct (Z.eq_dec (m + 1) (2 * N - 2)) as [Hw|Hw].
        -- exists (q + 1), 0. left. rewrite <- D3, <- D4, <- D5. repeat split; ifs.
        -- exists q, (m + 1). left. rewrite <- D3, <- D4, <- D5. repeat split; ifs.
      * assert (Ec : (if m <? N then m else 2 * N - 2 - m) + 1 = m + 1) by ifs. rewrite Ec in D3.
        destruct (m + 1 >=? N) eqn:El; apply four_eq in D3; destruct D3 as (D3 & D4 & D5 & D6); rewrite u16_small in D3 by lia.
        -- destruct (Z.eq_dec (m + 1) (2 * N - 2)) as [Hw|Hw].
           ++ exists (q + 1), 0. left. rewrite <- D3, <- D4, <- D5. repeat split; ifs.
           ++ exists q, (m + 1). left. rewrite <- D3, <- D4, <- D5. repeat split; ifs.
        -- exists q, (m + 1). left. rewrite <- D3, <- D4, <- D5. repeat split; ifs.
  - exists n. unfold in_swing. rewrite C1, C2, D1, D2, D3, D4. split; [exact I1|]. split; [exact I2|]. split; [exact I3|]. exists q, m. exact I4.
Qed.

(* ---- the animators run in step ---- *)
Definition alike (a b : anim) : Prop := atime b = atime a /\ (0 < atime a -> prev b = prev a).
(* the animators go to the values v *)
Definition going (l : list anim) (v : list Z) : Prop := map endv l = v /\ Forall (fun a => 0 <= atime a /\ (atime a = 0 -> cur a = endv a)) l.
Definition in_step (l : list anim) : Prop := match l with [] => True | a :: r => Forall (alike a) r end.

Lemma update_alike T a b now : alike a b -> alike (fst (update T a now)) (fst (update T b now)).
Proof.
  intros [H1 H2]. unfold update. rewrite H1. destruct (atime a >? 0) eqn:E; [|cbn [fst]; split; [exact H1|lia]].
  rewrite (H2 ltac:(lia)). set (d := wrap (db T) (u16 (u16 now - prev a))). destruct (negb (d =? 0)); [|cbn [fst]; split; auto].
  destruct (atime a <=? d).
  - cbn [fst]. unfold alike, setValue. cbn [atime prev]. auto.
  - destruct (negb (cur a =? _)), (negb (cur b =? _)); cbn [fst]; unfold alike; cbn [atime prev]; auto.
Qed.

Lemma update_all_step T l now : in_step l -> in_step (update_all T l now).
Proof.
  destruct l as [|a l]; [auto|]. cbn [in_step update_all map]. intro H. induction H as [|b l Hb Hl IH]; cbn [map]; constructor; [|exact IH].
  now apply update_alike.
Qed.

Lemma update_going T a now : 0 <= atime a /\ (atime a = 0 -> cur a = endv a) ->
  endv (fst (update T a now)) = endv a /\ 0 <= atime (fst (update T a now)) /\ (atime (fst (update T a now)) = 0 -> cur (fst (update T a now)) = endv a).
Proof.
  intros [H1 H2]. unfold update. destruct (atime a >? 0) eqn:E; [|cbn [fst]; auto].
  set (d := wrap (db T) (u16 (u16 now - prev a))). destruct (negb (d =? 0)); [|cbn [fst]; auto].
  destruct (atime a <=? d) eqn:Ed.
  - cbn [fst setValue endv atime cur]. repeat split. lia.
  - destruct (negb (cur a =? _)); cbn [fst endv atime cur]; (split; [reflexivity|]; split; lia).
Qed.

Lemma update_all_going T l v now : going l v -> going (update_all T l now) v.
Proof.
  intros [H1 H2]. subst v. unfold going, update_all. induction H2 as [|a l Ha Hl IH]; cbn [map]; [split; [reflexivity|constructor]|].
  destruct IH as [I1 I2]. destruct (update_going T a now Ha) as (U1 & U2 & U3). rewrite U1. split; [now f_equal|].
  constructor; [|exact I2]. rewrite U1. auto.
Qed.

Lemma animateTo_shape T a now v len a1 : In T instances -> 0 <= len < 2 ^ tb T -> animateTo T a now v len = Some a1 ->
  endv a1 = v /\ atime a1 = len /\ (0 < len -> prev a1 = u16 now) /\ (len = 0 -> cur a1 = v).
Proof.
  intros HT Hl E. unfold animateTo in E. destruct (len =? 0) eqn:E0.
  - injection E as <-. cbn [setValue endv atime prev cur]. repeat split; lia.
  - assert (Ew : wrap (tb T) len = len) by (unfold wrap; apply Z.mod_small; lia). rewrite Ew in E.
    destruct (initialize T (cur a) v len) as [r|]; cbn [obind] in E; [|discriminate]. injection E as <-. cbn [endv atime prev cur]. repeat split; lia.
Qed.

Lemma animate_all_shape T now len : In T instances -> 0 <= len < 2 ^ tb T -> forall l v l1, length v = length l -> animate_all T l now v len = Some l1 ->
  going l1 v /\ Forall (fun a => atime a = len /\ (0 < len -> prev a = u16 now)) l1.
Proof.
  intros HT Hl. induction l as [|a l IH]; intros [|x v] l1 H E; cbn [length] in H; try discriminate; cbn [animate_all] in E.
  - injection E as <-. split; [split; [reflexivity|constructor]|constructor].
  - destruct (animateTo T a now x len) as [a1|] eqn:E1; cbn [obind] in E; [|discriminate].
    destruct (animate_all T l now v len) as [r1|] eqn:E2; cbn [obind] in E; [|discriminate]. injection E as <-.
    destruct (animateTo_shape T a now x len a1 HT Hl E1) as (S1 & S2 & S3 & S4).
    destruct (IH v r1 ltac:(lia) E2) as [[G1 G2] G3]. split.
    + split; [cbn [map]; now rewrite S1, G1|]. constructor; [|exact G2]. rewrite S1, S2. split; [lia|exact S4].
    + constructor; [auto|exact G3].
Qed.

Lemma all_step l len p : Forall (fun a => atime a = len /\ (0 < len -> prev a = p)) l -> in_step l.
Proof.
  destruct 1 as [|a l [A1 A2] Hl]; cbn [in_step]; [trivial|]. eapply Forall_impl; [|exact Hl]. intros b [B1 B2]. unfold alike. rewrite A1, B1. split; [reflexivity|].
  intro H. now rewrite (A2 H), (B2 H).
Qed.

Definition last_values (k : keyanim) : Prop :=
  in_step (anims k) /\
  match shown k with
  | [] => Forall (fun a => atime a = 0) (anims k)
  | p :: _ => exists f, znth (frames k) p = Some f /\ going (anims k) (fval f)
  end.

Lemma update_all_stopped T l now : Forall (fun a => atime a = 0) l -> update_all T l now = l.
Proof. induction 1 as [|a l Ha Hl IH]; [reflexivity|]. unfold update_all in *. cbn [map]. rewrite update_stopped by exact Ha. cbn [fst]. now f_equal. Qed.

Lemma kupdate_last T n k now k1 : In T instances -> kinv T (S n) k -> last_values k -> kupdate T k now = Some k1 -> last_values k1.
Proof.
  intros HT (G & Hn & Hc & Hr) [L1 L2] E. unfold kupdate in E.
  assert (Same : last_values {| frames := frames k; cf := cf k; rep := rep k; mcycle := mcycle k; mreverse := mreverse k; reversed := reversed k;
              anims := update_all T (anims k) now; shown := shown k |}).
  { unfold last_values. cbn [anims shown frames]. split; [now apply update_all_step|]. destruct (shown k) as [|p s].
    - now rewrite update_all_stopped.
    - destruct L2 as (f & F1 & F2). exists f. split; [exact F1|]. now apply update_all_going. }
  destruct (cf k >? 0) eqn:Ec.
  - destruct (znth (anims k) 0) as [a0|] eqn:E0; cbn [obind] in E; [|discriminate].
    destruct (negb (isAnimating a0)).
    + destruct (znth (frames k) (cf k - 1)) as [f|] eqn:Ef; cbn [obind] in E; [|discriminate].
      assert (Gf : frame_for T (S n) f).
      { destruct G as [GF _]. rewrite Forall_forall in GF. apply GF. unfold znth in Ef. destruct (_ <? 0); [discriminate|]. exact (nth_error_In _ _ Ef). }
      destruct Gf as [Gf1 Gf2].
      destruct (animate_all T (anims k) now (fval f) (flen f)) as [l|] eqn:El; cbn [obind] in E; [|discriminate].
      destruct (next_frame _ _ _ _ _) as [[[c r] rev] go]. injection E as <-.
      destruct (animate_all_shape T now (flen f) HT Gf1 (anims k) (fval f) l ltac:(lia) El) as [S1 S2].
      pose proof (all_step l (flen f) (u16 now) S2) as S3.
      unfold last_values. cbn [anims shown frames]. split; [destruct go; [now apply update_all_step|exact S3]|].
      exists f. split; [exact Ef|]. destruct go; [now apply update_all_going|exact S1].
    + injection E as <-. exact Same.
  - injection E as <-. exact Same.
Qed.

Lemma kplay_last T n : In T instances -> forall l k now k1, kinv T (S n) k -> last_values k -> kplay T k now l = Some k1 -> last_values k1.
Proof.
  intro HT. induction l as [|g l IH]; intros k now k1 HI HL E; cbn [kplay] in E.
  - injection E as <-. exact HL.
  - destruct (kupdate_inv T n k (now + g) HT HI) as (k2 & E2 & I2). rewrite E2 in E. cbn [obind] in E.
    exact (IH k2 (now + g) k1 I2 (kupdate_last T n k (now + g) k2 HT HI HL E2) E).
Qed.

Lemma last_values_all k a0 p s : last_values k -> shown k = p :: s -> znth (anims k) 0 = Some a0 -> isAnimating a0 = false ->
  exists f, znth (frames k) p = Some f /\ map cur (anims k) = fval f.
Proof.
  intros [L1 L2] Es E0 Ea. rewrite Es in L2. destruct L2 as (f & F1 & [F2 F3]). exists f. split; [exact F1|]. rewrite <- F2.
  destruct (anims k) as [|a l]; [discriminate|]. injection E0 as ->. cbn [in_step] in L1. inversion F3 as [|? ? A1 A2]; subst.
  assert (Z0 : atime a0 = 0) by (unfold isAnimating in Ea; lia).
  cbn [map]. f_equal; [apply (proj2 A1 Z0)|]. apply map_ext_in. intros b Hb. rewrite Forall_forall in L1, A2. apply (proj2 (A2 b Hb)). rewrite (proj1 (L1 b Hb)). exact Z0.
Qed.

Lemma kstart_inv T n k r : kinv T n k -> kinv T n (fst (kstart k r)).
Proof.
  intros HI. pose proof (cancel_inv T n k HI) as (C1 & C2 & C3 & C4). unfold kstart. destruct (frames k) as [|f0 fs] eqn:Ef; cbn [fst]; [exact HI|].
  unfold kinv. cbn [frames anims cf reversed mcycle]. split; [exact C1|]. split; [exact C2|]. cbn [cancel frames]. rewrite Ef, zlen_cons. pose proof (zlen_nonneg fs).
  split; [lia|discriminate].
Qed.

Lemma kstart_last k r : frames k <> [] -> last_values (fst (kstart k r)).
Proof.
  intro H. unfold kstart. destruct (frames k); [congruence|]. cbn [fst]. unfold last_values. cbn [anims shown cancel].
  assert (F : Forall (fun a => atime a = 0) (map stop (anims k))) by (induction (anims k); cbn [map]; constructor; [reflexivity|assumption]).
  split; [|exact F]. apply (all_step _ 0 0). eapply Forall_impl; [|exact F]. intros a Ha. cbn beta. split; [exact Ha|lia].
Qed.

(* ---- when the frames start, with an update every millisecond ---- *)
Lemma kplay_app T : forall l1 l2 k now, kplay T k now (l1 ++ l2) = do k1 <- kplay T k now l1; kplay T k1 (now + zsum l1) l2.
Proof.
  induction l1 as [|g l1 IH]; intros l2 k now; cbn [kplay zsum app].
  - cbn [obind]. now rewrite Z.add_0_r.
  - destruct (kupdate T k (now + g)); cbn [obind]; [|reflexivity]. rewrite IH. now rewrite Z.add_assoc.
Qed.

Lemma zsum_ones n : zsum (repeat 1 n) = Z.of_nat n.
Proof. induction n; cbn [repeat zsum]; lia. Qed.

(* the first animator has r ms to go *)
Definition to_go (k : keyanim) (now r : Z) : Prop :=
  exists a0 l, anims k = a0 :: l /\ atime a0 = r /\ (0 < r -> prev a0 = u16 now).

Lemma update_1ms T a now r : In T instances -> atime a = r -> 0 < r -> prev a = u16 now ->
  atime (fst (update T a (now + 1))) = r - 1 /\ (0 < r - 1 -> prev (fst (update T a (now + 1))) = u16 (now + 1)).
Proof.
  intros HT Ha Hr Hp. unfold update. assert (E : atime a >? 0 = true) by lia. rewrite E, Hp.
  rewrite (delta_true T now 1 HT) by (unfold gap_limit; destruct (facts T HT) as (_ & _ & _ & _ & _ & _ & [-> | ->] & _); cbn; lia).
  cbn [Z.eqb negb]. destruct (atime a <=? 1) eqn:E1.
  - cbn [fst setValue atime]. split; lia.
  - destruct (negb _); cbn [fst atime prev]; split; lia.
Qed.

Lemma update_0ms T a now : prev a = u16 now -> update T a now = (a, false).
Proof.
  intro H. unfold update. destruct (atime a >? 0); [|reflexivity].
  rewrite H, Z.sub_diag. assert (E : wrap (db T) (u16 0) = 0) by (unfold wrap, u16; rewrite !Zmod_0_l; reflexivity). rewrite E. reflexivity.
Qed.

Lemma kupdate_waiting T n k now r : In T instances -> kinv T (S n) k -> to_go k now r -> 0 < r ->
  exists k1, kupdate T k (now + 1) = Some k1 /\ shown k1 = shown k /\ cf k1 = cf k /\ frames k1 = frames k /\ to_go k1 (now + 1) (r - 1).
Proof.
  intros HT HI (a0 & l & Hl & Ha & Hp) Hr. destruct (update_1ms T a0 now r HT Ha Hr (Hp Hr)) as [U1 U2]. unfold kupdate.
  assert (Tg : forall X, anims X = update_all T (anims k) (now + 1) -> to_go X (now + 1) (r - 1)).
  { intros X HX. rewrite Hl in HX. exists (fst (update T a0 (now + 1))), (update_all T l (now + 1)). rewrite HX. split; [reflexivity|]. split; assumption. }
  destruct (cf k >? 0).
  - rewrite Hl. change (znth (a0 :: l) 0) with (Some a0). cbn [obind]. assert (Ei : isAnimating a0 = true) by (unfold isAnimating; lia). rewrite Ei. cbn [negb].
    eexists. split; [reflexivity|]. cbn [shown cf frames]. repeat split. apply Tg. rewrite Hl. reflexivity.
  - eexists. split; [reflexivity|]. cbn [shown cf frames]. repeat split. apply Tg. reflexivity.
Qed.

Lemma kplay_waiting T n : In T instances -> forall r k now, kinv T (S n) k -> to_go k now (Z.of_nat r) ->
  exists k1, kplay T k now (repeat 1 r) = Some k1 /\ shown k1 = shown k /\ cf k1 = cf k /\ frames k1 = frames k /\ to_go k1 (now + Z.of_nat r) 0 /\ kinv T (S n) k1.
Proof.
  intro HT. induction r as [|r IH]; intros k now HI Hg.
  - exists k. rewrite Z.add_0_r. cbn [kplay repeat]. auto 10.
  - destruct (kupdate_waiting T n k now _ HT HI Hg ltac:(lia)) as (k1 & E1 & E2 & E3 & E4 & E5).
    destruct (kupdate_inv T n k (now + 1) HT HI) as (k1' & E1' & I1). rewrite E1 in E1'. injection E1' as <-.
    replace (Z.of_nat (S r) - 1) with (Z.of_nat r) in E5 by lia.
    destruct (IH k1 (now + 1) I1 E5) as (k2 & F1 & F2 & F3 & F4 & F5 & F6). exists k2. cbn [repeat kplay]. rewrite E1. cbn [obind].
    replace (now + Z.of_nat (S r)) with (now + 1 + Z.of_nat r) by lia. rewrite F2, F3, F4. auto 10.
Qed.

Lemma kupdate_showing T n k now : In T instances -> kinv T (S n) k -> to_go k now 0 -> 0 < cf k ->
  exists k1 f, kupdate T k (now + 1) = Some k1 /\ shown k1 = (cf k - 1) :: shown k /\ frames k1 = frames k /\ znth (frames k) (cf k - 1) = Some f /\
    to_go k1 (now + 1) (flen f).
Proof.
  intros HT (G & Hn & Hc & Hr) (a0 & l & Hl & Ha & _) Hcf. unfold kupdate.
  assert (Ec : cf k >? 0 = true) by lia. rewrite Ec. assert (E0 : znth (anims k) 0 = Some a0) by (rewrite Hl; reflexivity). rewrite E0. cbn [obind].
  assert (Ei : isAnimating a0 = false) by (unfold isAnimating; lia). rewrite Ei. cbn [negb].
  destruct (znth_in_range (frames k) (cf k - 1) ltac:(lia)) as [f Ef]. rewrite Ef. cbn [obind].
  assert (Gf : frame_for T (S n) f).
  { destruct G as [GF _]. rewrite Forall_forall in GF. apply GF. unfold znth in Ef. destruct (_ <? 0); [discriminate|]. exact (nth_error_In _ _ Ef). }
  destruct Gf as [Gf1 Gf2].
  destruct (animate_all_some T (now + 1) (flen f) HT Gf1 (anims k) (fval f) ltac:(lia)) as (l1 & El & Hl1). rewrite El. cbn [obind].
  destruct (animate_all_shape T (now + 1) (flen f) HT Gf1 (anims k) (fval f) l1 ltac:(lia) El) as [S1 S2].
  destruct (next_frame _ _ _ _ _) as [[[c r] rev] go]. eexists. exists f. split; [reflexivity|]. cbn [shown frames]. repeat split.
  destruct l1 as [|b l1]; [cbn [length] in Hl1; lia|]. inversion S2 as [|? ? [B1 B2] _]; subst.
  unfold to_go. cbn [anims]. destruct go; [|exists b, l1; auto].
  exists (fst (update T b (now + 1))), (update_all T l1 (now + 1)). split; [reflexivity|].
  destruct (Z.eq_dec (flen f) 0) as [H0|H0].
  - rewrite update_stopped by lia. cbn [fst]. split; [exact B1|lia].
  - rewrite update_0ms by (apply B2; lia). cbn [fst]. auto.
Qed.

Lemma down_length f n : length (down f n) = n.
Proof. induction n; cbn [down length]; lia. Qed.

Lemma started T n k r : frames_for T (S n) (frames k) -> frames k <> [] -> length (anims k) = S n ->
  kinv T (S n) (fst (kstart k r)) /\ frames (fst (kstart k r)) = frames k /\ mcycle (fst (kstart k r)) = mcycle k /\ cf (fst (kstart k r)) = 1 /\
  rep (fst (kstart k r)) = r /\ reversed (fst (kstart k r)) = false /\ shown (fst (kstart k r)) = [] /\ length (anims (fst (kstart k r))) = S n /\
  forall now, to_go (fst (kstart k r)) now 0.
Proof.
  intros G Hf Hn. unfold kstart. destruct (frames k) as [|f0 fs] eqn:Ef; [congruence|]. cbn [fst frames mcycle cf rep reversed shown anims cancel].
  rewrite map_length. repeat split; try assumption; try exact (proj1 G); try exact (proj2 G).
  - cbn [frames]. rewrite Ef. exact (proj1 G).
  - cbn [frames]. rewrite Ef. exact (proj2 G).
  - cbn [anims]. now rewrite map_length.
  - cbn [cf]. lia.
  - cbn [cf frames]. rewrite Ef, zlen_cons. pose proof (zlen_nonneg fs). lia.
  - cbn [reversed] in *. discriminate.
  - cbn [reversed] in *. discriminate.
  - intro now. unfold to_go. cbn [anims]. destruct (anims k) as [|a l]; [discriminate|]. cbn [map]. exists (stop a), (map stop l). repeat split. lia.
Qed.

Section Order.
Context (T : ramptype) (n : nat) (HT : In T instances) (P : keyanim -> nat -> Prop) (f : Z -> Z).
Hypothesis P_step : forall k m now k1, P k m -> kupdate T k now = Some k1 -> exists m1, P k1 m1.
Hypothesis P_shown : forall k m, P k m -> shown k = down f m.

Lemma kplay_P : forall l k now m k1, P k m -> kplay T k now l = Some k1 -> exists m1, P k1 m1.
Proof.
  induction l as [|g l IH]; intros k now m k1 H E; cbn [kplay] in E.
  - injection E as <-. eauto.
  - destruct (kupdate T k (now + g)) as [k2|] eqn:E2; cbn [obind] in E; [|discriminate].
    destruct (P_step k m (now + g) k2 H E2) as [m2 H2]. exact (IH k2 (now + g) m2 k1 H2 E).
Qed.

Lemma kplay_P_count l k now m k1 j : P k m -> kplay T k now l = Some k1 -> shown k1 = j -> P k1 (length j).
Proof.
  intros H E Es. destruct (kplay_P l k now m k1 H E) as [m1 H1]. pose proof (P_shown k1 m1 H1) as H2.
  rewrite <- Es, H2, down_length. exact H1.
Qed.

Hypothesis P_next : forall k m, P k m -> cf k = f (Z.of_nat m) + 1 /\ 0 <= f (Z.of_nat m).

Lemma P_timing fr0 (len : Z -> Z) : (forall i x, znth fr0 i = Some x -> len i = flen x) ->
  forall k now, P k 0 -> frames k = fr0 -> kinv T (S n) k -> to_go k now 0 ->
  forall m, exists k1, 0 <= due len f m /\ kplay T k now (repeat 1 (Z.to_nat (due len f m))) = Some k1 /\ shown k1 = down f m /\ P k1 m /\ frames k1 = fr0 /\
    to_go k1 (now + due len f m) 0 /\ kinv T (S n) k1 /\
    exists k2, kupdate T k1 (now + due len f m + 1) = Some k2 /\ shown k2 = down f (S m).
Proof.
  intros Hlen k now H0 Hf HI Hg.
  assert (Next : forall k m now, P k m -> kinv T (S n) k -> to_go k now 0 -> exists k2 x, kupdate T k (now + 1) = Some k2 /\ shown k2 = down f (S m) /\
            frames k2 = frames k /\ znth (frames k) (f (Z.of_nat m)) = Some x /\ to_go k2 (now + 1) (flen x) /\ kinv T (S n) k2 /\ P k2 (S m)).
  { clear k now H0 Hf HI Hg. intros k m now H0 HI Hg. destruct (P_next k m H0) as [N1 N2].
    destruct (kupdate_showing T n k now HT HI Hg ltac:(lia)) as (k2 & x & E1 & E2 & E3 & E4 & E5).
    destruct (kupdate_inv T n k (now + 1) HT HI) as (k2' & E6 & I2). rewrite E1 in E6. injection E6 as <-.
    replace (cf k - 1) with (f (Z.of_nat m)) in * by lia.
    assert (Es : shown k2 = down f (S m)) by (rewrite E2, (P_shown k m H0); reflexivity).
    assert (Pk : P k2 (S m)).
    { destruct (P_step k m (now + 1) k2 H0 E1) as [m1 H1]. pose proof (P_shown k2 m1 H1) as H2.
      assert (m1 = S m) by (rewrite <- (down_length f m1), <- H2, Es; apply down_length). subst m1. exact H1. }
    exists k2, x. auto 10. }
  induction m as [|m IH].
  - exists k. cbn [due]. split; [lia|]. cbn [repeat Z.to_nat kplay]. rewrite Z.add_0_r. split; [reflexivity|]. split; [exact (P_shown k 0%nat H0)|].
    split; [exact H0|]. split; [exact Hf|]. split; [exact Hg|]. split; [exact HI|].
    destruct (Next k 0%nat now H0 HI Hg) as (k2 & x & E1 & E2 & _). exists k2. auto.
  - destruct IH as (k1 & D0 & K1 & K2 & K3 & K4 & K5 & K6 & _).
    destruct (Next k1 m (now + due len f m) K3 K6 K5) as (k2 & x & E1 & E2 & E3 & E4 & E5 & E6 & E7).
    assert (Ex : len (f (Z.of_nat m)) = flen x) by (apply Hlen; rewrite <- K4; exact E4).
    assert (Hx : 0 <= flen x).
    { destruct K6 as ((GF & _) & _). rewrite Forall_forall in GF. assert (Hin : In x (frames k1)).
      { unfold znth in E4. destruct (_ <? 0); [discriminate|]. exact (nth_error_In _ _ E4). }
      destruct (GF x Hin) as [Hx _]. lia. }
    rewrite <- (Z2Nat.id (flen x)) in E5 by lia.
    destruct (kplay_waiting T n HT (Z.to_nat (flen x)) k2 (now + due len f m + 1) E6 E5) as (k3 & W1 & W2 & W3 & W4 & W5 & W6).
    rewrite Z2Nat.id in W5 by lia.
    assert (Ed : due len f (S m) = due len f m + 1 + flen x) by (cbn [due]; rewrite Ex; reflexivity).
    assert (P3 : P k3 (S m)).
    { destruct (kplay_P _ k2 _ (S m) k3 E7 W1) as [m1 H1]. pose proof (P_shown k3 m1 H1) as H2.
      assert (m1 = S m) by (rewrite <- (down_length f m1), <- H2, W2, E2; apply down_length). subst m1. exact H1. }
    exists k3. rewrite Ed. split; [lia|].
    replace (now + (due len f m + 1 + flen x)) with (now + due len f m + 1 + flen x) by lia.
    split.
    { replace (Z.to_nat (due len f m + 1 + flen x)) with (Z.to_nat (due len f m) + (1 + Z.to_nat (flen x)))%nat by lia.
      rewrite repeat_app, kplay_app, K1. cbn [obind]. rewrite zsum_ones, Z2Nat.id by lia.
      cbn [Nat.add repeat kplay]. rewrite E1. cbn [obind]. exact W1. }
    split; [rewrite W2; exact E2|]. split; [exact P3|]. split; [rewrite W4, E3; exact K4|]. split; [exact W5|]. split; [exact W6|].
    destruct (Next k3 (S m) _ P3 W6 W5) as (k4 & y & F1 & F2 & _). exists k4. auto.
Qed.
End Order.
