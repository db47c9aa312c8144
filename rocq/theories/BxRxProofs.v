From Verif Require Import Base CanModel BxModel BxSpec.

(** *** Sublists *)
Lemma sub_refl {A} (l : list A) : sublist l l.
Proof. induction l; constructor; assumption. Qed.
Lemma sub_trans {A} (a b c : list A) : sublist a b -> sublist b c -> sublist a c.
Proof.
  intros H G. revert a H. induction G as [l|x b c G IH|x b c G IH]; intros a H.
  - inversion H. constructor.
  - inversion H as [|y a' b' H'|y a' b' H']; subst; [constructor|apply sub_take; auto|apply sub_skip; auto].
  - apply sub_skip. auto.
Qed.
Lemma sub_app {A} (a b c d : list A) : sublist a b -> sublist c d -> sublist (a ++ c) (b ++ d).
Proof.
  intros H G. induction H as [l|x a b H IH|x a b H IH]; cbn; [|apply sub_take; exact IH|apply sub_skip; exact IH].
  induction l as [|x l IH]; [exact G|apply sub_skip; exact IH].
Qed.
Lemma sub_app_l {A} (a b c : list A) : sublist a b -> sublist a (b ++ c).
Proof. intro H. rewrite <- (app_nil_r a). apply sub_app; [exact H|constructor]. Qed.
Lemma sub_removelast {A} (l : list A) : sublist (removelast l) l.
Proof. induction l as [|x l IH]; [constructor|]. cbn. destruct l; [constructor|]. apply sub_take. exact IH. Qed.
Lemma sub_tl {A} (l : list A) : sublist (tl l) l.
Proof. destruct l; [constructor|]. apply sub_skip, sub_refl. Qed.

(** *** Reception *)
Lemma of_app {A} f (a b : list (bool * A)) : of f (a ++ b) = of f a ++ of f b.
Proof. unfold of. rewrite filter_app, map_app. reflexivity. Qed.
Lemma of_one {A} f g (m : A) : of f [(g, m)] = if Bool.eqb g f then [m] else [].
Proof. unfold of. cbn. destruct (Bool.eqb g f); reflexivity. Qed.
Lemma eqb_sym' a b : Bool.eqb a b = Bool.eqb b a.
Proof. destruct a, b; reflexivity. Qed.

Record RXI {A} (s : rx A) : Prop := {
  x_len : forall f, zlen (fifo s f) <= 3;
  x_ovr : forall f, fovr s f = true -> zlen (fifo s f) = 3;
  x_sub : forall f, sublist (of f (got s ++ rxq s) ++ fifo s f) (of f (recv s)) }.
Lemma rxi_start {A} : RXI (@rx_start A).
Proof. constructor; cbn; intros; try discriminate; try constructor. Qed.
Lemma zlen_removelast {A} (l : list A) : l <> [] -> zlen (removelast l) = zlen l - 1.
Proof. intro N. unfold zlen. destruct (exists_last N) as (l' & a & ->). rewrite removelast_last, app_length. cbn. lia. Qed.
Lemma rxi_step {A} cap locked may can (s s' : rx A) : RXI s -> rx_step cap locked may can s s' -> RXI s'.
Proof.
  intros [L O S'] T. destruct T as [s f m OK|s f s' EN OK E|s].
  - unfold receive. cbn zeta. destruct (Z.leb_spec 3 (zlen (fifo s f))) as [G|G].
    + assert (G3 : zlen (fifo s f) = 3) by (specialize (L f); lia). assert (NE : fifo s f <> []) by (intro H; rewrite H in G3; discriminate). constructor; cbn [fifo fovr rxq got recv].
      * intro g. destruct (Bool.eqb g f) eqn:E; [|apply L]. destruct locked; [lia|]. rewrite zlen_app, zlen_removelast by exact NE. cbn. lia.
      * intro g. destruct (Bool.eqb g f) eqn:E; [|apply O]. intros _. destruct locked; [exact G3|]. rewrite zlen_app, zlen_removelast by exact NE. cbn. lia.
      * intro g. rewrite (of_app g (recv s)), of_one, (eqb_sym' f g). destruct (Bool.eqb g f) eqn:E; [|rewrite app_nil_r; apply S'].
        apply Bool.eqb_prop in E. subst g. destruct locked; [apply sub_app_l, S'|]. rewrite app_assoc. apply sub_app; [|apply sub_refl]. apply (sub_trans _ (of f (got s ++ rxq s) ++ fifo s f)); [|apply S']. apply sub_app; [apply sub_refl|apply sub_removelast].
    + constructor; cbn [fifo fovr rxq got recv].
      * intro g. destruct (Bool.eqb g f) eqn:E; [|apply L]. rewrite zlen_app. cbn. lia.
      * intro g. destruct (Bool.eqb g f) eqn:E; [|apply O]. cbn. intro H. specialize (O f H). lia.
      * intro g. rewrite (of_app g (recv s)), of_one, (eqb_sym' f g). destruct (Bool.eqb g f) eqn:E; [|rewrite app_nil_r; apply S'].
        apply Bool.eqb_prop in E. subst g. rewrite app_assoc. apply sub_app; [apply S'|apply sub_refl].
  - unfold rx_isr in E. set (fl := if fovr s f then tl (fifo s f) else fifo s f) in *. assert (SF : sublist fl (fifo s f)) by (unfold fl; destruct (fovr s f); [apply sub_tl|apply sub_refl]).
    assert (LF : zlen fl <= zlen (fifo s f)) by (unfold fl; destruct (fovr s f); [|lia]; destruct (fifo s f); unfold zlen; cbn; lia).
    destruct fl as [|m r] eqn:FE; [discriminate|]. injection E as <-. rewrite zlen_cons in LF. constructor; cbn [fifo fovr rxq got recv].
    + intro g. destruct (Bool.eqb g f); [|apply L]. specialize (L f). lia.
    + intro g. destruct (Bool.eqb g f); [discriminate|apply O].
    + intro g. apply (sub_trans _ (of g (got s ++ rxq s) ++ fifo s g)); [|apply S']. destruct (Bool.eqb g f) eqn:GE.
      * apply Bool.eqb_prop in GE. subst g. destruct (zlen (rxq s) <? cap).
        -- rewrite app_assoc, of_app, of_one, eqb_reflx, <- app_assoc. apply sub_app; [apply sub_refl|]. exact SF.
        -- apply sub_app; [apply sub_refl|]. apply (sub_trans _ (m :: r)); [apply sub_skip, sub_refl|exact SF].
      * destruct (zlen (rxq s) <? cap); [|apply sub_refl]. rewrite app_assoc, of_app, of_one, (eqb_sym' f g), GE, app_nil_r. apply sub_refl.
  - unfold getMessage. destruct (rxq s) as [|x q] eqn:E; [constructor; auto; rewrite E; exact S'|]. constructor; cbn [fifo fovr rxq got recv]; auto. intro g. rewrite <- app_assoc. exact (S' g).
Qed.
Lemma rxi_reach {A} cap locked may can (s : rx A) : rx_reach cap locked may can s -> RXI s.
Proof. induction 1 as [|s s' R IH T]; [apply rxi_start|]. exact (rxi_step cap locked may can s s' IH T). Qed.
Lemma isr_defined {A} cap f (s : rx A) : RXI s -> fifo s f <> [] \/ fovr s f = true -> exists s', rx_isr cap f s = Some s'.
Proof.
  intros [L O _] H. unfold rx_isr. destruct (fovr s f) eqn:E.
  - specialize (O f E). destruct (fifo s f) as [|a [|b r]]; cbn in *; try (unfold zlen in O; cbn in O; lia). eauto.
  - destruct H as [H|H]; [|discriminate]. destruct (fifo s f); [contradiction|eauto].
Qed.

(* without overruns everything is delivered *)
Definition ALL {A} (s : rx A) : Prop := (forall f, fovr s f = false) /\ forall f, of f (recv s) = of f (got s ++ rxq s) ++ fifo s f.
Lemma all_reach {A} cap locked (s : rx A) : rx_reach cap locked fifo_room (queue_room cap) s -> ALL s.
Proof.
  induction 1 as [|s s' R [IO IS] T]; [split; reflexivity|]. destruct T as [s f m OK|s f s' EN OK E|s].
  - unfold fifo_room in OK. unfold receive. replace (3 <=? zlen (fifo s f)) with false by lia. split; cbn [fifo fovr rxq got recv].
    + intro g. rewrite !IO. destruct (Bool.eqb g f); reflexivity.
    + intro g. rewrite of_app, of_one, (eqb_sym' f g), IS. destruct (Bool.eqb g f) eqn:E; [|apply app_nil_r]. apply Bool.eqb_prop in E. subst g. symmetry. apply app_assoc.
  - unfold queue_room in OK. unfold rx_isr in E. rewrite IO in E. destruct (fifo s f) as [|m r] eqn:FE; [discriminate|]. injection E as <-. replace (zlen (rxq s) <? cap) with true by lia. split; cbn [fifo fovr rxq got recv].
    + intro g. destruct (Bool.eqb g f); auto.
    + intro g. rewrite IS, (app_assoc (got s) (rxq s)), (of_app g (got s ++ rxq s)), of_one, (eqb_sym' f g). destruct (Bool.eqb g f) eqn:GE; [|rewrite app_nil_r; reflexivity]. apply Bool.eqb_prop in GE. subst g. rewrite FE, <- app_assoc. reflexivity.
  - unfold getMessage. destruct (rxq s) as [|x q] eqn:E; [split; [exact IO|rewrite E; exact IS]|]. split; cbn [fifo fovr rxq got recv]; [exact IO|]. intro g. rewrite <- app_assoc. exact (IS g).
Qed.

(** *** Initialization *)
Lemma wait_S n ack i d : wait (S n) ack i d = if ack i then Some d else if 0 <? d then wait n ack (S i) (d - 1) else Some (d - 1).
Proof. reflexivity. Qed.
(* the first acknowledge comes at read i + n *)
Lemma wait_ack ack : forall (n : nat) fuel i d, (n < fuel)%nat -> Z.of_nat n <= d -> (forall j, (i <= j < i + n)%nat -> ack j = false) -> ack (i + n)%nat = true -> wait fuel ack i d = Some (d - Z.of_nat n).
Proof.
  induction n as [|n IH]; intros fuel i d F D B A; (destruct fuel as [|fuel]; [lia|]); rewrite wait_S.
  - rewrite Nat.add_0_r in A. rewrite A. f_equal. lia.
  - rewrite (B i) by lia. replace (0 <? d) with true by lia. rewrite (IH fuel (S i) (d - 1)); [f_equal; lia|lia|lia| |].
    + intros j J. apply B. lia.
    + replace (S i + n)%nat with (i + S n)%nat by lia. exact A.
Qed.
Lemma wait_never ack : forall (n : nat) fuel i, (n < fuel)%nat -> (forall j, (i <= j <= i + n)%nat -> ack j = false) -> wait fuel ack i (Z.of_nat n) = Some (-1).
Proof.
  induction n as [|n IH]; intros fuel i F B; (destruct fuel as [|fuel]; [lia|]); rewrite wait_S, (B i) by lia; [reflexivity|].
  replace (0 <? Z.of_nat (S n)) with true by lia. replace (Z.of_nat (S n) - 1) with (Z.of_nat n) by lia. apply IH; [lia|]. intros j J. apply B. lia.
Qed.
Lemma wait_some ack d : 0 <= d <= 10000 -> forall i fuel, (Z.to_nat d < fuel)%nat -> exists x, wait fuel ack i d = Some x /\ x <= d.
Proof.
  intro D. remember (Z.to_nat d) as n eqn:N. revert d D N. induction n as [|n IH]; intros d D N i fuel F; (destruct fuel as [|fuel]; [lia|]); rewrite wait_S.
  - destruct (ack i); [eexists; split; [reflexivity|lia]|]. replace (0 <? d) with false by lia. eexists. split; [reflexivity|lia].
  - destruct (ack i); [eexists; split; [reflexivity|lia]|]. replace (0 <? d) with true by lia. destruct (IH (d - 1) ltac:(lia) ltac:(lia) (S i) fuel ltac:(lia)) as (x & -> & X). eexists. split; [reflexivity|lia].
Qed.
