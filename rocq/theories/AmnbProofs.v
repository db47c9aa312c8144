From Coq Require Import Permutation.
From Verif Require Import Base BitLemmas SliceLemmas PtrHeap CrcModel CrcSpec CrcProofs AmnbModel AmnbSpec.

(* ---- bytes of a message ---- *)
Lemma split32 (m : msg) : zlen m = 32 ->
  exists b0 b1 b2 b3 b4 b5 b6 b7 b8 b9 b10 b11 t,
    m = b0 :: b1 :: b2 :: b3 :: b4 :: b5 :: b6 :: b7 :: b8 :: b9 :: b10 :: b11 :: t /\ zlen t = 20.
Proof.
  intro H. unfold zlen in H.
  do 12 (destruct m as [|? m]; [cbn [length] in H; lia|]). cbn [length] in H.
  do 13 eexists. split; [reflexivity|]. unfold zlen. lia.
Qed.

Lemma ptr_set (m : msg) p : zlen m = 32 -> 0 <= p < 2 ^ 32 -> m_ptr (m_set_ptr m p) = p.
Proof.
  intros H R. destruct (split32 m H) as (b0&b1&b2&b3&b4&b5&b6&b7&b8&b9&b10&b11&t&->&_).
  cbv [m_set_ptr mput le32 m_ptr mb firstn skipn app length Nat.add nth]. change (2 ^ 32) with 4294967296 in R. lia.
Qed.
Lemma ptr_set_large m p : zlen m = 32 -> m_isLarge (m_set_ptr m p) = m_isLarge m.
Proof.
  intros H. destruct (split32 m H) as (b0&b1&b2&b3&b4&b5&b6&b7&b8&b9&b10&b11&t&->&_). reflexivity.
Qed.
Lemma ptr_set_len m p : zlen m = 32 -> m_large_length (m_set_ptr m p) = m_large_length m.
Proof.
  intros H. destruct (split32 m H) as (b0&b1&b2&b3&b4&b5&b6&b7&b8&b9&b10&b11&t&->&_). reflexivity.
Qed.
Lemma ptr_set_object m p : object m -> object (m_set_ptr m p).
Proof.
  intros [H B]. destruct (split32 m H) as (b0&b1&b2&b3&b4&b5&b6&b7&b8&b9&b10&b11&t&->&Ht).
  cbv [m_set_ptr mput le32 firstn skipn app length Nat.add]. split.
  - rewrite !zlen_cons in *. lia.
  - repeat match goal with H : Forall _ (_ :: _) |- _ => apply Forall_cons_iff in H; destruct H end.
    repeat (apply Forall_cons; [first [assumption|unfold byte; clear; lia]|]). assumption.
Qed.
Lemma ptr_set_firstn m p : zlen m = 32 -> firstn 8 (m_set_ptr m p) = firstn 8 m.
Proof.
  intros H. destruct (split32 m H) as (b0&b1&b2&b3&b4&b5&b6&b7&b8&b9&b10&b11&t&->&_). reflexivity.
Qed.

(* the length field never exceeds what its bits can hold *)
Lemma small_range m : 0 <= m_smallLength m < 32.
Proof.
  unfold m_smallLength, LENGTH_MASK. change 0x1F with (2 ^ 5 - 1). rewrite land_ones_mod by lia. lia.
Qed.
Lemma header_len_range m : 4 <= m_headerLength m <= 32.
Proof. unfold m_headerLength, SMALL_LENGTH. pose proof (small_range m). destruct (m_isLarge m); lia. Qed.
Lemma mb_range m i : Forall byte m -> 0 <= mb m i < 256.
Proof.
  intro H. unfold mb. destruct (nth_in_or_default i m 0) as [I| ->]; [|lia].
  rewrite Forall_forall in H. apply H in I. exact I.
Qed.
Lemma large_len_range m : Forall byte m -> 0 <= m_large_length m < 65536.
Proof. intro H. unfold m_large_length. pose proof (mb_range m 4 H). pose proof (mb_range m 5 H). lia. Qed.

(* ---- escaping ---- *)
Lemma escape_read b r : byte b -> a_read_escaped (map Some (a_escape b) ++ r) = RdOk b r.
Proof.
  intros B. unfold a_escape. destruct ((b =? STX) || (b =? DLE)) eqn:E.
  - assert (b = STX \/ b = DLE) as [-> | ->] by lia; reflexivity.
  - cbn [map app]. unfold a_read_escaped. cbn [a_read]. destruct (b =? DLE) eqn:E1; [lia|reflexivity].
Qed.

Lemma write_ok bs : forall out, a_write (fun _ => true) out bs = (out ++ bs, true).
Proof.
  induction bs as [|b r IH]; intro out; cbn [a_write]; [rewrite app_nil_r; reflexivity|].
  rewrite IH, <- app_assoc. reflexivity.
Qed.

Lemma zupd_at {A} (a : list A) x b y : zupd (a ++ x :: b) (zlen a) y = Some (a ++ y :: b).
Proof.
  rewrite zupd_ok.
  - f_equal. unfold zlen. rewrite Nat2Z.id. rewrite firstn_app_exact by reflexivity. f_equal. f_equal.
    change (x :: b) with ([x] ++ b). rewrite app_assoc. apply skipn_app_exact. rewrite app_length. cbn. lia.
  - rewrite zlen_app, zlen_cons. pose proof (zlen_nonneg a). pose proof (zlen_nonneg b). lia.
Qed.

Lemma rx_loop_ok bs : forall fuel bound pre old post r, Forall byte bs -> zlen old = zlen bs -> (length bs <= fuel)%nat ->
  (forall x, zlen x = zlen bs -> bound (pre ++ x ++ post) = zlen pre + zlen bs) ->
  a_rx_loop fuel bound (zlen pre) (pre ++ old ++ post) (map Some (flat_map a_escape bs) ++ r) = Some (IOk, pre ++ bs ++ post, r).
Proof.
  induction bs as [|b t IH]; intros fuel bound pre old post r B L F Q.
  - rewrite zlen_nil in L. apply zlen_0_nil in L. subst old.
    pose proof (Q [] eq_refl) as Q0. rewrite zlen_nil in Q0.
    destruct fuel; cbn [a_rx_loop app] in *; rewrite Q0;
      (assert ((zlen pre <? zlen pre + 0) = false) as -> by lia; reflexivity).
  - destruct fuel as [|fuel]; [cbn [length] in F; lia|]. inversion B as [|? ? Bb Bt]; subst.
    destruct old as [|o old]; [rewrite zlen_nil, zlen_cons in L; pose proof (zlen_nonneg t); lia|].
    cbn [a_rx_loop]. rewrite (Q (o :: old) L).
    assert ((zlen pre <? zlen pre + zlen (b :: t)) = true) as -> by (rewrite zlen_cons; pose proof (zlen_nonneg t); lia).
    cbn [flat_map]. rewrite map_app, <- app_assoc, escape_read by exact Bb.
    cbn [app]. rewrite zupd_at. cbn [obind].
    replace (pre ++ b :: old ++ post) with ((pre ++ [b]) ++ old ++ post) by (rewrite <- app_assoc; reflexivity).
    replace (zlen pre + 1) with (zlen (pre ++ [b])) by (rewrite zlen_app, zlen_cons, zlen_nil; lia).
    rewrite !zlen_cons in L.
    rewrite IH; [rewrite <- app_assoc; reflexivity|exact Bt|lia|cbn [length] in F; lia|].
    intros x Hx. rewrite <- app_assoc. cbn [app]. specialize (Q (b :: x)). cbn [app] in Q. rewrite Q by (rewrite !zlen_cons; lia).
    rewrite zlen_app, !zlen_cons, zlen_nil. lia.
Qed.

(* ---- memory: allocate, deallocate, data access ---- *)
Section Mem.
Variable alloc : amnb_heap -> Z -> Z.
Variable fill : Z -> list Z.
Hypothesis Halloc : amnb_allocator alloc.
Hypothesis Hfill : amnb_content fill.

Lemma allocate_ok h m : object m -> m_isLarge m = true -> m_ptr m = 0 ->
  let p := alloc h (m_large_length m + 4) in p <> 0 ->
  exists s1 s2 s3 data, zlen data = m_large_length m /\ 
    m_allocate alloc fill h m = Some ((p, 1 :: s1 :: s2 :: s3 :: data) :: h, m_set_ptr m p, true).
Proof.
  intros [O B] L P p Hp. destruct (Halloc h (m_large_length m + 4)) as [R F]. fold p in R, F. specialize (F Hp).
  pose proof (large_len_range m B) as RL. destruct (Hfill (m_large_length m + 4)) as [Lf Bf]; [lia|].
  unfold m_allocate, LARGE_DATA_OFFSET. rewrite L, P. cbn [andb Z.eqb]. fold p. destruct (p =? 0) eqn:E; [lia|].
  destruct (hnew_ok h p (fill (m_large_length m + 4)) Hp F) as (E1 & E2 & _).
  rewrite E1. cbn [obind]. rewrite E2. cbn [obind].
  destruct (fill (m_large_length m + 4)) as [|s0 [|s1 [|s2 [|s3 data]]]] eqn:Ef; rewrite ?zlen_cons, ?zlen_nil in Lf; try lia.
  exists s1, s2, s3, data. split; [lia|]. cbn [zupd Z.ltb Z.compare Z.to_nat upd_nat obind hset].
  rewrite Z.eqb_refl. reflexivity.
Qed.
Lemma allocate_fail h m : m_isLarge m = true -> m_ptr m = 0 -> alloc h (m_large_length m + 4) = 0 ->
  m_allocate alloc fill h m = Some (h, m_set_ptr m 0, false).
Proof. intros L P A. unfold m_allocate. rewrite L, P. cbn [andb Z.eqb]. unfold LARGE_DATA_OFFSET. rewrite A. reflexivity. Qed.
Lemma allocate_noop h m : m_ptr m <> 0 -> m_allocate alloc fill h m = Some (h, m, true).
Proof.
  intros P. unfold m_allocate. destruct (m_ptr m =? 0) eqn:E; [lia|]. rewrite andb_false_r. reflexivity.
Qed.

Lemma store_ok h m i d c s1 s2 s3 a x b : m_isLarge m = true -> m_ptr m <> 0 -> 
  hget h (m_ptr m) = Some (c :: s1 :: s2 :: s3 :: a ++ x :: b) -> i = zlen a -> zlen (a ++ x :: b) = m_large_length m ->
  exists h', m_store alloc fill h m i d = Some (h', m) /\ hset h (m_ptr m) (c :: s1 :: s2 :: s3 :: a ++ d :: b) = Some h' /\
    keys h' = keys h /\ hget h' (m_ptr m) = Some (c :: s1 :: s2 :: s3 :: a ++ d :: b) /\
    forall q, q <> m_ptr m -> hget h' q = hget h q.
Proof.
  intros L P G -> Len. destruct (hset_ok h (m_ptr m) (c :: s1 :: s2 :: s3 :: a ++ d :: b) _ G) as (h' & E1 & E2 & E3 & E4).
  exists h'. split; [|auto]. unfold m_store. rewrite L, allocate_noop by exact P. cbn [obind negb orb].
  rewrite zlen_app, zlen_cons in Len. pose proof (zlen_nonneg a). pose proof (zlen_nonneg b).
  assert ((m_large_length m <? 1) = false) as -> by lia.
  rewrite G. cbn [obind]. unfold LARGE_DATA_OFFSET.
  change (c :: s1 :: s2 :: s3 :: a ++ x :: b) with ((c :: s1 :: s2 :: s3 :: a) ++ x :: b).
  replace (4 + zlen a) with (zlen (c :: s1 :: s2 :: s3 :: a)) by (rewrite !zlen_cons; lia).
  rewrite zupd_at. cbn [obind app]. rewrite E1. reflexivity.
Qed.
End Mem.

Section Mem2.
Variable alloc : amnb_heap -> Z -> Z.
Variable fill : Z -> list Z.

Lemma data_loop_safe n : forall h m i input, m_isLarge m = true -> m_ptr m <> 0 -> block_of h m ->
  0 <= i -> i + Z.of_nat n <= m_large_length m ->
  exists st h' r, a_data_loop alloc fill n true i h m input = Some (st, h', m, r) /\
    keys h' = keys h /\ block_of h' m /\ (forall q, q <> m_ptr m -> hget h' q = hget h q) /\
    (st = IOk \/ st = Waiting \/ st = DataReadFailed).
Proof.
  induction n as [|n IH]; intros h m i input L P B Hi Hn; cbn [a_data_loop].
  - do 3 eexists. split; [reflexivity|]. auto 10.
  - destruct (a_read_escaped input) as [|r|b r].
    + do 3 eexists. split; [reflexivity|]. auto 10.
    + do 3 eexists. split; [reflexivity|]. auto 10.
    + destruct B as (c & s1 & s2 & s3 & data & G & C & Ld).
      assert (exists a x e, data = a ++ x :: e /\ zlen a = i) as (a & x & e & -> & La).
      { destruct (znth_in_range data i) as [x Hx]; [lia|]. exists (firstn (Z.to_nat i) data), x, (skipn (S (Z.to_nat i)) data). split.
        - unfold znth in Hx. destruct (i <? 0); [discriminate|]. clear - Hx. revert Hx. generalize (Z.to_nat i) as k. 
          induction data as [|y t IHd]; intros [|k] Hx; cbn in Hx |- *; try discriminate.
          + congruence.
          + f_equal. apply IHd, Hx.
        - apply firstn_zlen. lia. }
      destruct (store_ok alloc fill h m i b c s1 s2 s3 a x e L P G) as (h' & E1 & _ & E2 & E3 & E4); [lia|exact Ld|].
      rewrite E1. cbn [obind].
      destruct (IH h' m (i + 1) r L P) as (st & h'' & r' & F1 & F2 & F3 & F4 & F5).
      * exists c, s1, s2, s3, (a ++ b :: e). split; [exact E3|]. split; [exact C|]. rewrite zlen_app, zlen_cons in *. lia.
      * lia.
      * lia.
      * exists st, h'', r'. split; [exact F1|]. split; [congruence|]. split; [exact F3|]. split; [|exact F5].
        intros q Hq. rewrite F4, E4 by exact Hq. reflexivity.
Qed.

Lemma data_loop_ok bs : forall h m c s1 s2 s3 a old e r, m_isLarge m = true -> m_ptr m <> 0 -> Forall byte bs ->
  hget h (m_ptr m) = Some (c :: s1 :: s2 :: s3 :: a ++ old ++ e) -> zlen old = zlen bs -> zlen (a ++ old ++ e) = m_large_length m ->
  exists h', a_data_loop alloc fill (length bs) true (zlen a) h m (map Some (flat_map a_escape bs) ++ r) = Some (IOk, h', m, r) /\
    hget h' (m_ptr m) = Some (c :: s1 :: s2 :: s3 :: a ++ bs ++ e).
Proof.
  induction bs as [|b t IH]; intros h m c s1 s2 s3 a old e r L P B G Lo Ld; cbn [length a_data_loop].
  - apply zlen_0_nil in Lo. subst old. eexists. split; [reflexivity|exact G].
  - destruct old as [|o old]; [rewrite zlen_nil, zlen_cons in Lo; pose proof (zlen_nonneg t); lia|].
    inversion B as [|? ? Bb Bt]; subst. cbn [flat_map]. rewrite map_app, <- app_assoc, escape_read by exact Bb.
    cbn [app] in G, Ld.
    destruct (store_ok alloc fill h m (zlen a) b c s1 s2 s3 a o (old ++ e) L P G) as (h' & E1 & _ & E2 & E3 & E4); [reflexivity|exact Ld|].
    rewrite E1. cbn [obind]. rewrite !zlen_cons in Lo.
    replace (zlen a + 1) with (zlen (a ++ [b])) by (rewrite zlen_app, zlen_cons, zlen_nil; lia).
    replace (a ++ b :: old ++ e) with ((a ++ [b]) ++ old ++ e) in E3 by (rewrite <- app_assoc; reflexivity).
    destruct (IH h' m c s1 s2 s3 (a ++ [b]) old e r L P Bt E3) as (h'' & F1 & F2); [lia| |].
    + rewrite !zlen_app, ?zlen_cons, ?zlen_app, ?zlen_nil in *. lia.
    + exists h''. split; [exact F1|]. rewrite F2, <- app_assoc. reflexivity.
Qed.

(* bytes of a message that is not stored are skipped *)
Lemma data_loop_skip n : forall h m i input, exists st r, a_data_loop alloc fill n false i h m input = Some (st, h, m, r) /\
  (st = IOk \/ st = Waiting \/ st = DataReadFailed).
Proof.
  induction n as [|n IH]; intros h m i input; cbn [a_data_loop].
  - do 2 eexists. split; [reflexivity|]. auto 10.
  - destruct (a_read_escaped input) as [|r|b r].
    + do 2 eexists. split; [reflexivity|]. auto 10.
    + do 2 eexists. split; [reflexivity|]. auto 10.
    + cbn [obind]. apply IH.
Qed.
End Mem2.

(* ---- header byte ---- *)
Lemma byte_sweep (P : Z -> bool) : forallb P (map Z.of_nat (seq 0 256)) = true -> forall b, byte b -> P b = true.
Proof.
  intros H b B. rewrite forallb_forall in H. apply H. apply in_map_iff. exists (Z.to_nat b). unfold byte in B. split; [lia|].
  apply in_seq. lia.
Qed.

Lemma type_length t l : amnb_type t -> 0 <= l < 32 ->
  byte (u8 (Z.lor t l)) /\ Z.land (u8 (Z.lor t l)) LENGTH_MASK = l /\ Z.land (u8 (Z.lor t l)) TYPE_MASK = t.
Proof.
  intros T L.
  assert (forall l, byte l -> (fun l => implb (l <? 32) (forallb (fun t => (Z.land (u8 (Z.lor t l)) LENGTH_MASK =? l) &&
            (Z.land (u8 (Z.lor t l)) TYPE_MASK =? t)) [0x00; 0x40; 0x60; 0x80; 0xA0])) l = true) as H
    by (apply byte_sweep; vm_compute; reflexivity).
  specialize (H l). cbv beta in H. rewrite forallb_forall in H || idtac.
  assert (byte l) as Bl by (unfold byte; lia). specialize (H Bl).
  assert ((l <? 32) = true) as E by lia. rewrite E in H. cbn [implb] in H. rewrite forallb_forall in H. specialize (H t T).
  apply andb_prop in H. split; [unfold byte, u8; lia|]. lia.
Qed.

(* ---- composing and transmitting ---- *)
Lemma crc8_step_byte x : byte x -> byte (crc8_ccitt_step x).
Proof.
  intro B. pose proof (byte_sweep (fun x => (0 <=? crc8_ccitt_step x) && (crc8_ccitt_step x <? 256)) ltac:(vm_compute; reflexivity) x B) as H.
  cbv beta in H. unfold byte. lia.
Qed.
Lemma crc8_byte data : Forall byte data -> byte (crc8_ccitt data).
Proof.
  unfold crc8_ccitt. assert (byte crc8_ccitt_init) as H0 by (unfold byte, crc8_ccitt_init; lia). revert H0.
  generalize crc8_ccitt_init as r. induction data as [|d t IH]; intros r R B; cbn [fold_left]; [exact R|].
  inversion B as [|? ? Bd Bt]; subst. apply IH; [|exact Bt]. unfold crc8_ccitt_update.
  assert (byte (Z.lxor d r)) as X by (unfold byte in *; apply (lxor_lt d r 8); lia).
  cbn [Nat.iter]. do 8 apply crc8_step_byte. exact X.
Qed.
Lemma crc16_range data : 0 <= crc16_ccitt data < 65536.
Proof.
  unfold crc16_ccitt. assert (0 <= crc16_ccitt_init < 65536) as H0 by (unfold crc16_ccitt_init; lia). revert H0.
  generalize crc16_ccitt_init as r. induction data as [|d t IH]; intros r R; cbn [fold_left]; [exact R|].
  apply IH. unfold crc16_ccitt_update. rewrite land_FFFF. lia.
Qed.

Definition s_header (a c tl : Z) (payload : list Z) : list Z :=
  crc8_ccitt (a :: c :: tl :: payload) :: a :: c :: tl :: payload.
Definition l_header (a c tl n c16 : Z) : list Z := s_header a c tl (le16 n ++ le16 c16).

Lemma le16_bytes x : Forall byte (le16 x).
Proof. unfold le16. repeat (apply Forall_cons; [unfold byte; lia|]). constructor. Qed.
Lemma s_header_bytes a c tl p : byte a -> byte c -> byte tl -> Forall byte p -> Forall byte (s_header a c tl p).
Proof.
  intros. assert (Forall byte (a :: c :: tl :: p)) as F by (repeat (apply Forall_cons; [assumption|]); assumption).
  apply Forall_cons; [apply crc8_byte; exact F|exact F].
Qed.
Lemma land_length_31 t : amnb_type t -> Z.land (u8 (Z.lor t LENGTH_MASK)) LENGTH_MASK = 31 /\ byte (u8 (Z.lor t LENGTH_MASK)) /\
  Z.land (u8 (Z.lor t LENGTH_MASK)) TYPE_MASK = t.
Proof. intro T. destruct (type_length t 31 T) as (A & B & C); [lia|]. unfold LENGTH_MASK in *. auto. Qed.

Section Compose.
Variable alloc : amnb_heap -> Z -> Z.
Variable fill : Z -> list Z.
Hypothesis Halloc : amnb_allocator alloc.
Hypothesis Hfill : amnb_content fill.

Lemma compose_small h junk a c t p : amnb_type t -> zlen junk = 20 -> zlen p <= 28 ->
  let tl := u8 (Z.lor t (zlen p)) in
  exists tail, zlen tail = 28 - zlen p /\
    n_compose alloc fill h junk a c t p = Some (Some (h, s_header a c tl p ++ tail)).
Proof.
  intros T J P tl. pose proof (zlen_nonneg p). destruct (type_length t (zlen p) T) as (Bt & Lt & _); [lia|]. fold tl in Bt, Lt.
  unfold n_compose, m_new. assert (u16 (zlen p) = zlen p) as -> by (apply Z.mod_small; lia).
  unfold SMALL_LENGTH. assert ((zlen p <=? 28) = true) as -> by lia. fold tl.
  cbv zeta. set (m0 := [0; a; c; tl] ++ le16 0 ++ le16 0 ++ le32 0 ++ junk).
  assert (zlen m0 = 32) as L0 by (unfold m0, le16, le32; cbn [app]; rewrite !zlen_cons; lia).
  set (m1 := [0; a; c; tl] ++ p ++ skipn (Z.to_nat (4 + zlen p)) m0).
  assert (zlen (skipn (Z.to_nat (4 + zlen p)) m0) = 28 - zlen p) as Lk by (rewrite skipn_zlen; lia).
  assert (m_smallLength m1 = zlen p) as S1 by (unfold m_smallLength, m1, mb; cbn [app nth]; exact Lt).
  assert (m_isLarge m1 = false) as Lg by (unfold m_isLarge, SMALL_LENGTH; rewrite S1; lia).
  assert (m_setValid alloc fill h m1 = Some (h, s_header a c tl p ++ skipn (Z.to_nat (4 + zlen p)) m0)) as SV.
  { unfold m_setValid. rewrite Lg. cbn [obind]. unfold m_crcHeader, m_headerLength. rewrite Lg, S1.
    replace (4 + Z.min (zlen p) SMALL_LENGTH - 1) with (zlen (a :: c :: tl :: p)) by (rewrite !zlen_cons; unfold SMALL_LENGTH; lia).
    unfold m1. change ([0; a; c; tl] ++ p ++ skipn (Z.to_nat (4 + zlen p)) m0) with ([0] ++ (a :: c :: tl :: p) ++ skipn (Z.to_nat (4 + zlen p)) m0).
    rewrite zsub_app by (rewrite ?zlen_cons, ?zlen_nil; lia). cbn [obind]. reflexivity. }
  exists (skipn (Z.to_nat (4 + zlen p)) m0). split; [exact Lk|].
  destruct (Z.eq_dec (zlen p) 0) as [Z0|Z0].
  - assert (p = []) as Ep by (apply zlen_0_nil; exact Z0).
    assert (m0 = m1) as E01 by (unfold m1; rewrite Ep; reflexivity).
    assert (match p with [] => Some (h, m0, true) | _ :: _ => m_fill alloc fill h m0 p end = Some (h, m1, true)) as E1
      by (rewrite E01, Ep; reflexivity).
    rewrite E1. cbn [obind]. rewrite SV. reflexivity.
  - assert (match p with [] => Some (h, m0, true) | _ :: _ => m_fill alloc fill h m0 p end = Some (h, m1, true)) as E1.
    { transitivity (m_fill alloc fill h m0 p); [destruct p; [rewrite zlen_nil in Z0; lia|reflexivity]|].
      unfold m_fill.
      assert (m_smallLength m0 = zlen p) as S0 by (unfold m_smallLength, m0, mb; cbn [app nth]; exact Lt).
      assert (m_isLarge m0 = false) as -> by (unfold m_isLarge, SMALL_LENGTH; rewrite S0; lia).
      rewrite S0. assert ((zlen p =? 0) = false) as -> by lia.
      rewrite zwrite_ok by lia. cbn [obind]. unfold m1. reflexivity. }
    rewrite E1. cbn [obind]. rewrite SV. reflexivity.
Qed.

Lemma compose_large h junk a c t p : amnb_type t -> zlen junk = 20 -> 28 < zlen p < 65536 -> alloc h (zlen p + 4) <> 0 ->
  byte a -> byte c -> Forall byte junk ->
  let tl := u8 (Z.lor t LENGTH_MASK) in
  exists s1 s2 s3, 
    n_compose alloc fill h junk a c t p =
    Some (Some ((alloc h (zlen p + 4), 1 :: s1 :: s2 :: s3 :: p) :: h,
                l_header a c tl (zlen p) (crc16_ccitt (firstn (Z.to_nat (u8 (zlen p))) p)) ++ le32 (alloc h (zlen p + 4)) ++ junk)).
Proof.
  intros T J P A Ba Bc Bj tl. pose proof (zlen_nonneg p). destruct (land_length_31 t T) as (Lt & Bt & _). fold tl in Bt, Lt.
  unfold n_compose, m_new. assert (u16 (zlen p) = zlen p) as -> by (apply Z.mod_small; lia).
  unfold SMALL_LENGTH. assert ((zlen p <=? 28) = false) as -> by lia. fold tl.
  cbv zeta. set (m0 := [0; a; c; tl] ++ le16 (zlen p) ++ le16 0 ++ le32 0 ++ junk).
  assert (zlen m0 = 32) as L0 by (unfold m0, le16, le32; cbn [app]; rewrite !zlen_cons; lia).
  assert (object m0) as O0.
  { split; [exact L0|]. unfold m0. apply Forall_app. split.
    - repeat (apply Forall_cons; [first [assumption|unfold byte; lia]|]). constructor.
    - apply Forall_app. split; [apply le16_bytes|]. apply Forall_app. split; [apply le16_bytes|]. apply Forall_app. split; [|exact Bj].
      unfold le32. repeat (apply Forall_cons; [unfold byte; lia|]). constructor. }
  assert (m_isLarge m0 = true) as Lg by (unfold m_isLarge, m_smallLength, m0, mb, SMALL_LENGTH; cbn [app nth]; rewrite Lt; reflexivity).
  assert (m_large_length m0 = zlen p) as Ll by (unfold m_large_length, m0, mb, le16; cbn [app nth]; lia).
  destruct (allocate_ok alloc fill Halloc Hfill h m0 O0 Lg eq_refl) as (s1 & s2 & s3 & data & Ld & E).
  { rewrite Ll. exact A. }
  rewrite Ll in E. rewrite Ll in Ld. set (q := alloc h (zlen p + 4)) in *.
  destruct (Halloc h (zlen p + 4)) as [Rq _]. fold q in Rq.
  exists s1, s2, s3.
  assert (match p with [] => Some (h, m0, true) | _ :: _ => m_fill alloc fill h m0 p end = m_fill alloc fill h m0 p) as ->
    by (destruct p; [rewrite zlen_nil in P; lia|reflexivity]).
  unfold m_fill. rewrite Lg, E. cbn [obind negb orb]. rewrite ptr_set_len, Ll by exact L0.
  assert ((zlen p <? 1) = false) as -> by lia. rewrite ptr_set by (exact L0 || exact Rq).
  cbn [hget]. rewrite Z.eqb_refl. cbn [obind].
  assert (zwrite (1 :: s1 :: s2 :: s3 :: data) LARGE_DATA_OFFSET p = Some (1 :: s1 :: s2 :: s3 :: p)) as ->.
  { unfold LARGE_DATA_OFFSET. rewrite zwrite_ok by (rewrite ?zlen_cons; lia). f_equal.
    change (firstn (Z.to_nat 4) (1 :: s1 :: s2 :: s3 :: data)) with [1; s1; s2; s3]. cbn [app]. do 4 f_equal.
    rewrite skipn_all2; [apply app_nil_r|]. unfold zlen in *. cbn [length]. lia. }
  cbn [obind hset]. rewrite Z.eqb_refl. cbn [obind].
  set (m1 := m_set_ptr m0 q).
  unfold m_setValid. 
  assert (m_isLarge m1 = true) as Lg1 by (unfold m1; rewrite ptr_set_large by exact L0; exact Lg).
  assert (m_ptr m1 = q) as P1 by (unfold m1; apply ptr_set; [exact L0|exact Rq]).
  rewrite Lg1, allocate_noop by (rewrite P1; exact A). cbn [obind].
  unfold m_crcData at 1. rewrite P1. cbn [hget]. rewrite Z.eqb_refl. cbn [obind].
  assert (m_dataLength m1 = u8 (zlen p)) as D1 by (unfold m_dataLength; rewrite Lg1; unfold m1; rewrite ptr_set_len, Ll by exact L0; reflexivity).
  rewrite D1.
  assert (zsub (1 :: s1 :: s2 :: s3 :: p) LARGE_DATA_OFFSET (u8 (zlen p)) = Some (firstn (Z.to_nat (u8 (zlen p))) p)) as ->.
  { unfold zsub, LARGE_DATA_OFFSET, u8.
    assert ((0 <=? 4) && (0 <=? zlen p mod 256) && (4 + zlen p mod 256 <=? zlen (1 :: s1 :: s2 :: s3 :: p)) = true) as ->
      by (rewrite !zlen_cons; clear - P; lia). reflexivity. }
  cbn [obind]. generalize (crc16_ccitt (firstn (Z.to_nat (u8 (zlen p))) p)) as c16. intro c16.
  set (n16 := le16 (zlen p)).
  assert (mput m1 6 (le16 c16) = [0; a; c; tl] ++ n16 ++ le16 c16 ++ le32 q ++ junk) as -> by reflexivity.
  set (m2 := [0; a; c; tl] ++ n16 ++ le16 c16 ++ le32 q ++ junk).
  assert (m_crcHeader m2 = Some (crc8_ccitt (a :: c :: tl :: n16 ++ le16 c16))) as ->.
  { unfold m_crcHeader, m_headerLength.
    assert (m_isLarge m2 = true) as -> by (unfold m_isLarge, m_smallLength, m2, mb, SMALL_LENGTH; cbn [app nth]; rewrite Lt; reflexivity).
    unfold m2. change ([0; a; c; tl] ++ n16 ++ le16 c16 ++ le32 q ++ junk) with ([0] ++ (a :: c :: tl :: n16 ++ le16 c16) ++ (le32 q ++ junk)).
    rewrite zsub_app by reflexivity. reflexivity. }
  cbn [obind]. unfold l_header, s_header. fold n16. generalize (crc8_ccitt (a :: c :: tl :: n16 ++ le16 c16)) as c8. intro c8. reflexivity.
Qed.
End Compose.

Definition a_wire (header data : list Z) : list Z := [STX; STX] ++ flat_map a_escape header ++ flat_map a_escape data.

Lemma transmit_small h a c tl p tail : Z.land tl LENGTH_MASK = zlen p -> zlen p <= 28 ->
  a_transmit false (fun _ => true) h (s_header a c tl p ++ tail) = Some (IOk, a_wire (s_header a c tl p) []).
Proof.
  intros Lt P. unfold a_transmit. rewrite write_ok. cbn [app negb].
  set (m := s_header a c tl p ++ tail).
  assert (m_smallLength m = zlen p) as S1 by (unfold m_smallLength, m, mb, s_header; cbn [app nth]; exact Lt).
  assert (m_isLarge m = false) as Lg by (unfold m_isLarge, SMALL_LENGTH; rewrite S1; lia).
  assert (zsub m 0 (m_headerLength m) = Some (s_header a c tl p)) as ->.
  { unfold m_headerLength. rewrite Lg, S1. unfold m. change (s_header a c tl p ++ tail) with ([] ++ s_header a c tl p ++ tail).
    apply zsub_app; [reflexivity|]. unfold s_header, SMALL_LENGTH. rewrite !zlen_cons. lia. }
  cbn [obind]. rewrite write_ok. cbn [negb]. unfold m_dataLength. rewrite Lg. cbn [Z.eqb]. unfold a_wire. cbn [flat_map]. rewrite app_nil_r. reflexivity.
Qed.

Lemma transmit_large h a c tl n c16 q s0 s1 s2 s3 p junk : Z.land tl LENGTH_MASK = 31 -> n = zlen p -> 0 < n < 65536 ->
  0 < q < 2 ^ 32 -> hget h q = Some (s0 :: s1 :: s2 :: s3 :: p) ->
  a_transmit false (fun _ => true) h (l_header a c tl n c16 ++ le32 q ++ junk) =
  Some (IOk, a_wire (l_header a c tl n c16) (firstn (Z.to_nat (u8 n)) p)).
Proof.
  intros Lt Hn Rn Rq G. unfold a_transmit. rewrite write_ok. cbn [app negb].
  set (m := l_header a c tl n c16 ++ le32 q ++ junk).
  assert (m_isLarge m = true) as Lg by (unfold m_isLarge, m_smallLength, m, mb, l_header, s_header, SMALL_LENGTH; cbn [app nth]; rewrite Lt; reflexivity).
  assert (m_large_length m = n) as Ll by (unfold m_large_length, m, mb, l_header, s_header, le16; cbn [app nth]; lia).
  assert (m_ptr m = q) as Pq.
  { unfold m_ptr, m, mb, l_header, s_header, le16, le32. cbn [app nth]. change (2 ^ 32) with 4294967296 in Rq. lia. }
  assert (zsub m 0 (m_headerLength m) = Some (l_header a c tl n c16)) as ->.
  { unfold m_headerLength. rewrite Lg. unfold m. change (l_header a c tl n c16 ++ le32 q ++ junk) with ([] ++ l_header a c tl n c16 ++ (le32 q ++ junk)).
    apply zsub_app; reflexivity. }
  cbn [obind]. rewrite write_ok. cbn [negb]. unfold m_dataLength. rewrite Lg, Ll.
  destruct (u8 n =? 0) eqn:E0.
  - assert (u8 n = 0) as -> by lia. unfold a_wire. cbn [Z.to_nat firstn flat_map]. rewrite app_nil_r. reflexivity.
  - unfold m_get. rewrite Lg, Ll, Pq. assert ((n <? 1) || (q =? 0) = false) as -> by lia. rewrite G. cbn [obind].
    assert (forall k, 0 <= k <= n -> zsub (s0 :: s1 :: s2 :: s3 :: p) LARGE_DATA_OFFSET k = Some (firstn (Z.to_nat k) p)) as Z.
    { intros k Hk. unfold zsub, LARGE_DATA_OFFSET. rewrite !zlen_cons.
      assert ((0 <=? 4) && (0 <=? k) && (4 + k <=? 1 + (1 + (1 + (1 + zlen p)))) = true) as -> by lia. reflexivity. }
    rewrite (Z 1) by lia. cbn [obind]. rewrite (Z (u8 n)) by (unfold u8; clear - Rn; lia). cbn [obind]. rewrite write_ok. cbn [negb].
    unfold a_wire. rewrite <- !app_assoc. reflexivity.
Qed.

(* ---- receiving a transmitted message ---- *)
Lemma stx_read r : a_read (Some STX :: r) = RdOk STX r. Proof. reflexivity. Qed.

Lemma receive_header_gen a c tl p rx r : byte a -> byte c -> byte tl -> Forall byte p -> zlen rx = 32 ->
  (forall x, zlen x = zlen p -> m_headerLength (s_header a c tl x ++ skipn (Z.to_nat (4 + zlen p)) rx) = 4 + zlen p) ->
  zlen p <= 28 ->
  a_receiveHeader false rx (map Some ([STX; STX] ++ flat_map a_escape (s_header a c tl p)) ++ r) =
  Some (IOk, s_header a c tl p ++ skipn (Z.to_nat (4 + zlen p)) rx, r).
Proof.
  intros Ba Bc Bt Bp Lr HL P. pose proof (zlen_nonneg p).
  unfold a_receiveHeader. cbn [app map]. rewrite stx_read. cbn [negb Z.eqb]. unfold STX at 1. cbn [Z.eqb Pos.eqb negb].
  rewrite stx_read. unfold STX at 1. cbn [Z.eqb Pos.eqb negb].
  set (c8 := crc8_ccitt (a :: c :: tl :: p)).
  assert (byte c8) as B8 by (apply crc8_byte; repeat (apply Forall_cons; [assumption|]); assumption).
  assert (s_header a c tl p = [c8; a; c; tl] ++ p) as Eh by reflexivity.
  rewrite Eh. rewrite flat_map_app, map_app, <- app_assoc.
  destruct (split32 rx Lr) as (b0&b1&b2&b3&b4&b5&b6&b7&b8&b9&b10&b11&t&Er&Ht).
  pose proof (rx_loop_ok [c8; a; c; tl] 4 (fun _ => 4) [] [b0;b1;b2;b3] (skipn 4 rx) (map Some (flat_map a_escape p) ++ r)) as L1.
  change (zlen (@nil Z)) with 0 in L1. cbn [app] in L1.
  assert (b0 :: b1 :: b2 :: b3 :: skipn 4 rx = rx) as E4 by (rewrite Er; reflexivity).
  rewrite E4 in L1. rewrite L1; [|repeat (apply Forall_cons; [assumption|]); constructor|reflexivity|cbn; lia|intros; reflexivity].
  cbn [obind].
  assert (skipn 4 rx = firstn (Z.to_nat (zlen p)) (skipn 4 rx) ++ skipn (Z.to_nat (4 + zlen p)) rx) as Es.
  { rewrite <- (firstn_skipn (Z.to_nat (zlen p)) (skipn 4 rx)) at 1. f_equal. rewrite skipn_plus. f_equal. lia. }
  change (c8 :: a :: c :: tl :: skipn 4 rx) with ([c8; a; c; tl] ++ skipn 4 rx). rewrite Es.
  assert (Hl : forall x, zlen x = zlen p -> m_headerLength ([c8; a; c; tl] ++ x ++ skipn (Z.to_nat (4 + zlen p)) rx) = zlen [c8; a; c; tl] + zlen p).
  { intros x Hx. specialize (HL x Hx). unfold m_headerLength, m_isLarge, m_smallLength, mb, s_header in *. cbn [app nth] in *. exact HL. }
  assert (zlen (firstn (Z.to_nat (zlen p)) (skipn 4 rx)) = zlen p) as Lo.
  { apply firstn_zlen. change 4%nat with (Z.to_nat 4). rewrite skipn_zlen; lia. }
  pose proof (rx_loop_ok p 32 m_headerLength [c8; a; c; tl] _ (skipn (Z.to_nat (4 + zlen p)) rx) r Bp Lo) as L2.
  change (zlen [c8; a; c; tl]) with 4 in L2 at 2.
  rewrite L2; [|unfold zlen in *; lia|exact Hl].
  cbn [obind].
  assert (m_isHeaderValid ([c8; a; c; tl] ++ p ++ skipn (Z.to_nat (4 + zlen p)) rx) = Some true) as ->.
  { unfold m_isHeaderValid, m_crcHeader. rewrite Hl by reflexivity.
    replace (zlen [c8; a; c; tl] + zlen p - 1) with (zlen (a :: c :: tl :: p)) by (rewrite !zlen_cons, zlen_nil; lia).
    change ([c8; a; c; tl] ++ p ++ skipn (Z.to_nat (4 + zlen p)) rx) with ([c8] ++ (a :: c :: tl :: p) ++ skipn (Z.to_nat (4 + zlen p)) rx).
    rewrite zsub_app by reflexivity. cbn [obind]. fold c8. unfold mb. cbn [app nth]. rewrite Z.eqb_refl. reflexivity. }
  cbn [obind]. rewrite <- app_assoc. reflexivity.
Qed.

Section Receive.
Variable MaxHeap : Z.
Variable alloc : amnb_heap -> Z -> Z.
Variable fill : Z -> list Z.
Hypothesis Halloc : amnb_allocator alloc.
Hypothesis Hfill : amnb_content fill.

Lemma receive_data_large h a c tl p rx r : Z.land tl LENGTH_MASK = 31 -> Forall byte p -> 28 < zlen p < 256 -> zlen p <= MaxHeap ->
  byte a -> byte c -> byte tl ->
  object rx -> m_ptr rx = 0 -> alloc h (zlen p + 4) <> 0 ->
  let m := l_header a c tl (zlen p) (crc16_ccitt p) ++ skipn 8 rx in
  exists h' m', a_receiveData MaxHeap alloc fill true h m (map Some (flat_map a_escape p) ++ r) = Some (IOk, h', m', r) /\
    firstn 4 m' = firstn 4 m /\ m_isLarge m' = true /\ carries h' m' p.
Proof.
  intros Lt Bp P PM Ba Bc Btl [Lr Br] Pr A m.
  destruct (split32 rx Lr) as (b0&b1&b2&b3&b4&b5&b6&b7&b8&b9&b10&b11&t&Er&Ht).
  assert (m_isLarge m = true) as Lg by (unfold m_isLarge, m_smallLength, m, mb, l_header, s_header, SMALL_LENGTH; cbn [app nth]; rewrite Lt; reflexivity).
  assert (m_large_length m = zlen p) as Ll by (unfold m_large_length, m, mb, l_header, s_header, le16; cbn [app nth]; lia).
  assert (m_ptr m = 0) as Pm by (rewrite <- Pr; unfold m; rewrite Er; reflexivity).
  assert (object m) as Om.
  { split; [unfold m, l_header, s_header, le16; rewrite Er; cbn [app skipn]; rewrite !zlen_cons; lia|].
    unfold m. apply Forall_app. split; [|rewrite <- (firstn_skipn 8 rx) in Br; apply Forall_app in Br; tauto].
    unfold l_header. apply s_header_bytes; try assumption. apply Forall_app; split; apply le16_bytes. }
  destruct (allocate_ok alloc fill Halloc Hfill h m Om Lg Pm) as (s1 & s2 & s3 & data & Ld & E).
  { rewrite Ll. exact A. }
  rewrite Ll in E. rewrite Ll in Ld. set (q := alloc h (zlen p + 4)) in *.
  destruct (Halloc h (zlen p + 4)) as [Rq _]. fold q in Rq.
  assert (m_dataLength m = zlen p) as Dm by (unfold m_dataLength; rewrite Lg, Ll; apply Z.mod_small; lia).
  unfold a_receiveData. rewrite Lg, Dm. cbn [negb].
  assert (true && (zlen p <=? MaxHeap) = true) as -> by lia. rewrite E. cbn [obind].
  set (m1 := m_set_ptr m q).
  assert (m_isLarge m1 = true) as Lg1 by (unfold m1; rewrite ptr_set_large by apply Om; exact Lg).
  assert (m_ptr m1 = q) as P1 by (unfold m1; apply ptr_set; [apply Om|exact Rq]).
  assert (m_large_length m1 = zlen p) as Ll1 by (unfold m1; rewrite ptr_set_len by apply Om; exact Ll).
  assert (m_dataLength m1 = zlen p) as D1 by (unfold m_dataLength; rewrite Lg1, Ll1; apply Z.mod_small; lia).
  rewrite D1.
  destruct (data_loop_ok alloc fill p ((q, 1 :: s1 :: s2 :: s3 :: data) :: h) m1 1 s1 s2 s3 [] data [] r) as (h' & F1 & F2); try assumption.
  { rewrite P1. exact A. }
  { rewrite P1. cbn [hget app]. rewrite Z.eqb_refl, app_nil_r. reflexivity. }
  { cbn [app]. rewrite app_nil_r. lia. }
  replace (Z.to_nat (zlen p)) with (length p) by (unfold zlen; lia). change (zlen (@nil Z)) with 0 in F1. rewrite F1. cbn [obind negb andb].
  cbn [app] in F2. rewrite app_nil_r in F2.
  assert (m_isDataValid h' m1 = Some true) as ->.
  { unfold m_isDataValid.
    assert (m_isHeaderValid m1 = Some true) as ->.
    { assert (m1 = l_header a c tl (zlen p) (crc16_ccitt p) ++ le32 q ++ skipn 12 rx) as E1.
      { unfold m1, m, l_header, s_header. rewrite Er. reflexivity. }
      unfold m_isHeaderValid, m_crcHeader, m_headerLength. rewrite Lg1, E1. unfold l_header, s_header.
      set (hd := a :: c :: tl :: le16 (zlen p) ++ le16 (crc16_ccitt p)).
      change ((crc8_ccitt hd :: hd) ++ le32 q ++ skipn 12 rx) with ([crc8_ccitt hd] ++ hd ++ (le32 q ++ skipn 12 rx)).
      rewrite zsub_app by reflexivity. cbn [obind app]. unfold mb. cbn [nth]. rewrite Z.eqb_refl. reflexivity. }
    cbn [obind negb]. rewrite D1. assert ((zlen p =? 0) = false) as -> by lia. cbn [negb].
    unfold m_crcData. rewrite F2. cbn [obind]. rewrite D1. unfold LARGE_DATA_OFFSET.
    assert (zsub (1 :: s1 :: s2 :: s3 :: p) 4 (zlen p) = Some p) as ->.
    { change (1 :: s1 :: s2 :: s3 :: p) with ([1; s1; s2; s3] ++ p). rewrite <- (app_nil_r p) at 1. apply zsub_app; reflexivity. }
    cbn [obind]. f_equal. 
    assert (m_large_crc m1 = crc16_ccitt p) as ->; [|apply Z.eqb_refl].
    pose proof (crc16_range p) as R16. unfold m1, m, m_set_ptr, mput, l_header, s_header, le16, le32, m_large_crc, mb.
    revert R16. generalize (crc16_ccitt p) as c16. intros c16 R16. cbn [app firstn skipn length Nat.add nth]. lia. }
  cbn [obind]. do 2 eexists. split; [reflexivity|].
  split; [unfold m1, m_set_ptr, mput; reflexivity|]. split; [exact Lg1|].
  split; [unfold m_length; rewrite Lg1; exact Ll1|]. intros k Hk.
  unfold m_get. rewrite Lg1, Ll1, P1. rewrite P1 in F2. rewrite F2. assert ((q =? 0) = false) as -> by lia. rewrite orb_false_r.
  destruct (k <=? zlen p) eqn:Ek.
  - assert ((zlen p <? k) = false) as -> by lia. cbn [obind]. unfold zsub, LARGE_DATA_OFFSET. rewrite !zlen_cons.
    assert ((0 <=? 4) && (0 <=? k) && (4 + k <=? 1 + (1 + (1 + (1 + zlen p)))) = true) as -> by lia. reflexivity.
  - assert ((zlen p <? k) = true) as -> by lia. reflexivity.
Qed.
Lemma carries_small h a c tl p tail : Z.land tl LENGTH_MASK = zlen p -> zlen p <= 28 -> carries h (s_header a c tl p ++ tail) p.
Proof.
  intros Lt P. set (m := s_header a c tl p ++ tail).
  assert (m_smallLength m = zlen p) as S1 by (unfold m_smallLength, m, mb, s_header; cbn [app nth]; exact Lt).
  assert (m_isLarge m = false) as Lg by (unfold m_isLarge, SMALL_LENGTH; rewrite S1; lia).
  split; [unfold m_length, SMALL_LENGTH; rewrite Lg, S1; lia|]. intros k Hk. unfold m_get. rewrite Lg, S1.
  destruct (k <=? zlen p) eqn:Ek.
  - assert ((zlen p =? 0) || (zlen p <? k) = false) as -> by lia.
    unfold m, zsub, s_header. rewrite zlen_app, !zlen_cons. pose proof (zlen_nonneg tail).
    assert ((0 <=? 4) && (0 <=? k) && (4 + k <=? 1 + (1 + (1 + (1 + zlen p))) + zlen tail) = true) as -> by lia.
    cbn [obind]. change (Z.to_nat 4) with 4%nat. cbn [app skipn]. do 2 f_equal. rewrite firstn_app.
    replace (Z.to_nat k - length p)%nat with 0%nat by (unfold zlen in *; lia). rewrite app_nil_r. reflexivity.
  - assert ((zlen p =? 0) || (zlen p <? k) = true) as -> by lia. reflexivity.
Qed.
End Receive.

(* ---- reception of arbitrary bytes ---- *)
Definition input_ok (input : list (option Z)) : Prop := Forall (fun x => match x with Some b => byte b | None => True end) input.

Lemma lxor_20_byte b : byte b -> byte (Z.lxor b 0x20).
Proof. intro B. unfold byte in *. apply (lxor_lt b 0x20 8); lia. Qed.
Lemma read_bytes input : input_ok input ->
  match a_read input with RdWait => True | RdFail r => input_ok r | RdOk b r => byte b /\ input_ok r end.
Proof. intros H. destruct H as [|x r Hx Hr]; cbn; [exact I|]. destruct x; auto. Qed.
Lemma read_escaped_bytes input : input_ok input ->
  match a_read_escaped input with RdWait => True | RdFail r => input_ok r | RdOk b r => byte b /\ input_ok r end.
Proof.
  intros H. unfold a_read_escaped. pose proof (read_bytes input H) as H1. destruct (a_read input) as [|r|b r]; auto.
  destruct H1 as [B R]. destruct (b =? DLE); [|auto]. pose proof (read_bytes r R) as H2.
  destruct (a_read r) as [|r'|b' r']; auto. destruct H2. split; [apply lxor_20_byte; assumption|assumption].
Qed.

Lemma rx_loop_frame (Q : msg -> Prop) (bound : msg -> Z) hi lo :
  (forall m, Q m -> bound m = hi /\ zlen m = 32) -> hi <= 32 -> 0 <= lo ->
  (forall m j b m', Q m -> lo <= j < hi -> byte b -> zupd m j b = Some m' -> Q m') ->
  forall fuel i m input, Q m -> lo <= i -> hi - i <= Z.of_nat fuel -> input_ok input ->
  exists st m' r, a_rx_loop fuel bound i m input = Some (st, m', r) /\ Q m' /\ input_ok r /\
    (st = IOk \/ st = Waiting \/ st = HeaderReadFailed).
Proof.
  intros Hb Hhi Hlo Hq. induction fuel as [|fuel IH]; intros i m input Hm Hi Hf Hin; cbn [a_rx_loop];
    destruct (Hb m Hm) as [-> Lm].
  - assert ((i <? hi) = false) as -> by lia. do 3 eexists. split; [reflexivity|]. auto.
  - destruct (i <? hi) eqn:E; [|do 3 eexists; split; [reflexivity|]; auto].
    pose proof (read_escaped_bytes input Hin) as Hr. destruct (a_read_escaped input) as [|r|b r].
    + do 3 eexists. split; [reflexivity|]. split; [exact Hm|]. split; [constructor|auto].
    + do 3 eexists. split; [reflexivity|]. auto.
    + destruct Hr as [Bb Hr]. destruct (zupd_in_range m i b) as (m' & Em & _); [lia|]. rewrite Em. cbn [obind].
      apply IH; [|lia|lia|exact Hr]. apply (Hq m i b m' Hm); [lia|exact Bb|exact Em].
Qed.

Lemma zupd_object m j b m' : object m -> byte b -> zupd m j b = Some m' -> object m'.
Proof.
  intros [L B] Bb E. split; [rewrite (zupd_len _ _ _ _ E); exact L|].
  apply zupd_split in E. subst m'. rewrite <- (firstn_skipn (Z.to_nat j) m) in B. apply Forall_app in B. destruct B as [B1 B2].
  apply Forall_app. split; [exact B1|]. apply Forall_cons; [exact Bb|].
  replace (S (Z.to_nat j)) with (Z.to_nat j + 1)%nat by lia. rewrite <- skipn_plus.
  destruct (skipn (Z.to_nat j) m) as [|x t]; [constructor|]. inversion B2; assumption.
Qed.
Lemma zupd_mb m j b m' k : zupd m j b = Some m' -> j <> Z.of_nat k -> mb m' k = mb m k.
Proof.
  intros E N. apply zupd_Some in E. destruct E as (R & _ & H). unfold mb.
  assert (forall l : list Z, nth k l 0 = match znth l (Z.of_nat k) with Some x => x | None => 0 end) as Hn.
  { intro l. unfold znth. destruct (Z.of_nat k <? 0) eqn:Z; [lia|]. rewrite Nat2Z.id. clear.
    revert l. induction k; intros [|x l]; cbn; auto. }
  rewrite !Hn, H. destruct (Z.of_nat k =? j) eqn:E1; [lia|]. reflexivity.
Qed.

(* the object after any header reception; a large message keeps the bytes of its block pointer *)
Lemma receive_header_safe m input : object m -> input_ok input ->
  exists st m' r, a_receiveHeader false m input = Some (st, m', r) /\ object m' /\ input_ok r /\
    (m_isLarge m' = true -> m_ptr m' = m_ptr m).
Proof.
  intros Om Hin. unfold a_receiveHeader.
  destruct input as [|x input]; [do 3 eexists; split; [reflexivity|]; auto|].
  pose proof (read_bytes (x :: input) Hin) as H1. destruct (a_read (x :: input)) as [|r|b r].
  { do 3 eexists. split; [reflexivity|]. split; [exact Om|]. split; [constructor|auto]. }
  { do 3 eexists. split; [reflexivity|]. auto. }
  destruct H1 as [_ H1]. destruct (negb (b =? STX)); [do 3 eexists; split; [reflexivity|]; auto|].
  pose proof (read_bytes r H1) as H2. destruct (a_read r) as [|r'|b' r'].
  { do 3 eexists. split; [reflexivity|]. split; [exact Om|]. split; [constructor|auto]. }
  { do 3 eexists. split; [reflexivity|]. auto. }
  destruct H2 as [_ H2]. destruct (negb (b' =? STX)); [do 3 eexists; split; [reflexivity|]; auto|].
  destruct (rx_loop_frame (fun m' => object m' /\ m_ptr m' = m_ptr m) (fun _ => 4) 4 0) with (fuel := 4%nat) (i := 0) (m := m) (input := r')
    as (st & m1 & r1 & E1 & [O1 P1] & R1 & S1).
  - intros y [Oy _]. split; [reflexivity|apply Oy].
  - lia.
  - lia.
  - intros y j c y' [Oy Py] Hj Bc Ey. split; [apply (zupd_object y j c y' Oy Bc Ey)|]. rewrite <- Py. unfold m_ptr.
    rewrite !(zupd_mb y j c y') by (exact Ey || lia). reflexivity.
  - split; [exact Om|reflexivity].
  - lia.
  - lia.
  - exact H2.
  - rewrite E1. cbn [obind]. destruct S1 as [-> | [-> | -> ]]; cbv iota beta;
      [|do 3 eexists; split; [reflexivity|]; auto|do 3 eexists; split; [reflexivity|]; auto].
    destruct (rx_loop_frame (fun m' => object m' /\ mb m' 3 = mb m1 3 /\ (m_isLarge m1 = true -> m_ptr m' = m_ptr m1)) m_headerLength (m_headerLength m1) 4)
      with (fuel := 32%nat) (i := 4) (m := m1) (input := r1) as (st & m2 & r2 & E2 & (O2 & T2 & P2) & R2 & S2).
    + intros y (Oy & Ty & _). split; [|apply Oy]. unfold m_headerLength, m_isLarge, m_smallLength. rewrite Ty. reflexivity.
    + apply header_len_range.
    + lia.
    + intros y j c y' (Oy & Ty & Py) Hj Bc Ey. split; [apply (zupd_object y j c y' Oy Bc Ey)|].
      split; [rewrite (zupd_mb y j c y') by (exact Ey || lia); exact Ty|].
      intro Lg. rewrite <- (Py Lg). unfold m_headerLength in Hj. rewrite Lg in Hj. unfold m_ptr.
      rewrite !(zupd_mb y j c y') by (exact Ey || lia). reflexivity.
    + auto.
    + lia.
    + pose proof (header_len_range m1). lia.
    + exact R1.
    + assert (m_isLarge m2 = true -> m_ptr m2 = m_ptr m) as PP.
      { intro Lg. rewrite P2, P1; [reflexivity|]. unfold m_isLarge, m_smallLength in *. rewrite <- T2. exact Lg. }
      rewrite E2. cbn [obind]. destruct S2 as [-> | [-> | -> ]]; cbv iota beta;
        [|do 3 eexists; split; [reflexivity|]; auto|do 3 eexists; split; [reflexivity|]; auto].
      unfold m_isHeaderValid, m_crcHeader. pose proof (header_len_range m2).
      destruct (zsub_in_range m2 1 (m_headerLength m2 - 1)) as (v & Ev & _); [lia|lia|destruct O2; lia|].
      rewrite Ev. cbn [obind]. do 3 eexists. split; [reflexivity|]. auto.
Qed.

(* ---- ownership of heap blocks ---- *)
Lemma holds_dec m : (exists p, holds m p) \/ (forall p, ~ holds m p).
Proof.
  destruct (m_isLarge m) eqn:L; [|right; intros p (H & _); congruence].
  destruct (Z.eq_dec (m_ptr m) 0) as [E|E]; [right; intros p (_ & H & N); lia|].
  left. exists (m_ptr m). split; [exact L|]. auto.
Qed.
Lemma holds_fun m p q : holds m p -> holds m q -> p = q.
Proof. intros (_ & <- & _) (_ & <- & _). reflexivity. Qed.
Lemma block_same h h' m : hget h' (m_ptr m) = hget h (m_ptr m) -> block_of h m -> block_of h' m.
Proof. intros E (c & s1 & s2 & s3 & d & G & R). exists c, s1, s2, s3, d. rewrite E. auto. Qed.

Lemma set_ptr0_holds m p : object m -> ~ holds (m_set_ptr m 0) p.
Proof. intros [L _] (_ & H & N). rewrite ptr_set in H by (exact L || (cbn; lia)). lia. Qed.

(* releasing the block of one of the two messages *)
Lemma own_dealloc h rx req : own h rx req ->
  exists h', m_deallocate h rx = Some (h', if m_isLarge rx && negb (m_ptr rx =? 0) then m_set_ptr rx 0 else rx) /\
    own h' (if m_isLarge rx && negb (m_ptr rx =? 0) then m_set_ptr rx 0 else rx) req /\
    (forall p, ~ holds (if m_isLarge rx && negb (m_ptr rx =? 0) then m_set_ptr rx 0 else rx) p).
Proof.
  intros (O1 & O2 & D & K & S & B1 & B2). unfold m_deallocate.
  destruct (m_isLarge rx && negb (m_ptr rx =? 0)) eqn:E.
  - assert (holds rx (m_ptr rx)) as H by (split; [destruct (m_isLarge rx); [reflexivity|discriminate]|]; split; [reflexivity|]; intro; rewrite H in E; cbn in E; rewrite andb_false_r in E; discriminate).
    destruct (B1 _ H) as (c & s1 & s2 & s3 & d & G & -> & Ld). rewrite G. cbn [obind]. rewrite znth_0. cbn [obind Z.leb Z.compare Pos.compare Pos.compare_cont].
    destruct (hdel_ok h (m_ptr rx) _ D G) as (h' & E1 & E2 & E3). rewrite E1. cbn [obind]. exists h'. split; [reflexivity|].
    assert (forall p, ~ holds (m_set_ptr rx 0) p) as NH by (intro p; apply set_ptr0_holds; exact O1).
    assert (NoDup (m_ptr rx :: keys h')) as D' by (apply (Permutation_NoDup E2 D)).
    split; [|exact NH]. repeat split.
    + apply ptr_set_object; exact O1.
    + apply ptr_set_object; exact O1.
    + apply O2.
    + apply O2.
    + inversion D'; assumption.
    + intro Hin. right. assert (In p (keys h)) as I by (apply (Permutation_in p (Permutation_sym E2)); right; exact Hin).
      apply K in I. destruct I as [I|I]; [|exact I]. assert (p = m_ptr rx) as -> by (apply (holds_fun rx); assumption).
      inversion D'; contradiction.
    + intros [I|I]; [destruct (NH p I)|]. assert (In p (keys h)) as J by (apply K; right; exact I).
      apply (Permutation_in p E2) in J. destruct J as [J|J]; [|exact J]. exfalso. apply (S p). rewrite <- J. split; [exact H|rewrite J; exact I].
    + intros p [I _]. apply (NH p I).
    + intros p I. destruct (NH p I).
    + intros p I. apply (block_same h); [|apply (B2 p I)]. apply E3. intro J. apply (S (m_ptr rx)). split; [exact H|].
      destruct I as (I1 & I2 & I3). split; [exact I1|]. split; [exact J|]. destruct H as (_ & _ & H). exact H.
  - exists h. split; [reflexivity|]. split; [unfold own; auto 10|].
    intros p (H1 & H2 & H3). rewrite H1 in E. cbn [andb] in E. assert ((m_ptr rx =? 0) = false) as Z by lia. rewrite Z in E. discriminate.
Qed.
Lemma own_sym h rx req : own h rx req -> own h req rx.
Proof.
  intros (O1 & O2 & D & K & S & B1 & B2). repeat split; try assumption; try apply O1; try apply O2.
  - intro I. apply K in I. tauto.
  - intro I. apply K. tauto.
  - intros p I. apply (S p). tauto.
Qed.
(* a message without block can be replaced by another one without block *)
Lemma own_replace h rx req rx' : own h rx req -> (forall p, ~ holds rx p) -> object rx' -> (forall p, ~ holds rx' p) -> own h rx' req.
Proof.
  intros (O1 & O2 & D & K & S & B1 & B2) N O' N'. repeat split; try assumption; try apply O'; try apply O2.
  - intro I. apply K in I. destruct I as [I|I]; [destruct (N p I)|]. tauto.
  - intros [I|I]; [destruct (N' p I)|]. apply K. tauto.
  - intros p [I _]. apply (N' p I).
  - intros p I. destruct (N' p I).
Qed.

Lemma get_ok h m k : object m -> 0 <= k -> (forall p, holds m p -> block_of h m) ->
  exists v, m_get h m k = Some v /\ (v = None <-> m_get h m k = Some None) /\ match v with Some l => zlen l = k | None => True end.
Proof.
  intros [L B] Hk Hb. assert (exists v, m_get h m k = Some v /\ match v with Some l => zlen l = k | None => True end) as (v & E & F).
  { unfold m_get. destruct (m_isLarge m) eqn:Lg.
    - destruct ((m_large_length m <? k) || (m_ptr m =? 0)) eqn:E; [eexists; split; [reflexivity|exact I]|].
      destruct (Hb (m_ptr m)) as (c & s1 & s2 & s3 & d & G & C & Ld); [split; [exact Lg|]; split; [reflexivity|lia]|].
      rewrite G. cbn [obind]. destruct (zsub_in_range (c :: s1 :: s2 :: s3 :: d) LARGE_DATA_OFFSET k) as (v & Ev & Lv);
        [unfold LARGE_DATA_OFFSET; lia|lia|rewrite !zlen_cons; unfold LARGE_DATA_OFFSET; lia|].
      rewrite Ev. cbn [obind]. eexists. split; [reflexivity|exact Lv].
    - destruct ((m_smallLength m =? 0) || (m_smallLength m <? k)) eqn:E; [eexists; split; [reflexivity|exact I]|].
      unfold m_isLarge, SMALL_LENGTH in Lg.
      destruct (zsub_in_range m 4 k) as (v & Ev & Lv); [lia|lia|lia|].
      rewrite Ev. cbn [obind]. eexists. split; [reflexivity|exact Lv]. }
  exists v. split; [exact E|]. split; [|exact F]. rewrite E. split; congruence.
Qed.
Lemma length_range m : object m -> 0 <= m_length m < 65536.
Proof.
  intros [_ B]. unfold m_length, SMALL_LENGTH. pose proof (small_range m). pose proof (large_len_range m B). destruct (m_isLarge m); lia.
Qed.
(* where one byte can be read, the whole payload can *)
Lemma get_all h m : object m -> (forall p, holds m p -> block_of h m) -> m_get h m 1 <> Some None -> m_get h m 1 <> None ->
  exists l, m_get h m (m_length m) = Some (Some l) /\ zlen l = m_length m.
Proof.
  intros O Hb N1 N2. pose proof (length_range m O) as RL.
  destruct (get_ok h m (m_length m) O) as (v & E & _ & F); [lia|exact Hb|].
  destruct v as [l|]; [eauto|]. exfalso. apply N1. clear N1. unfold m_get, m_length in *. destruct (m_isLarge m) eqn:Lg.
  - assert ((m_large_length m <? m_large_length m) = false) as Q by lia. rewrite Q in E. cbn [orb] in E.
    destruct (m_ptr m =? 0) eqn:P; [rewrite orb_true_r; reflexivity|].
    destruct (hget h (m_ptr m)); [|discriminate]. cbn [obind] in E. destruct (zsub _ LARGE_DATA_OFFSET (m_large_length m)); cbn [obind] in E; discriminate.
  - unfold SMALL_LENGTH in *. unfold m_isLarge, SMALL_LENGTH in Lg.
    assert ((m_smallLength m <? Z.min (m_smallLength m) 28) = false) as Q by lia. rewrite Q, orb_false_r in E.
    destruct (m_smallLength m =? 0) eqn:P; [reflexivity|]. destruct (zsub m 4 (Z.min (m_smallLength m) 28)); cbn [obind] in E; discriminate E.
Qed.

Section Round.
Variable MaxHeap : Z.
Variable alloc : amnb_heap -> Z -> Z.
Variable fill : Z -> list Z.
Hypothesis Halloc : amnb_allocator alloc.
Hypothesis Hfill : amnb_content fill.

Lemma own_alloc h m req : own h m req -> m_isLarge m = true -> m_ptr m = 0 -> alloc h (m_large_length m + 4) <> 0 ->
  exists h1, m_allocate alloc fill h m = Some (h1, m_set_ptr m (alloc h (m_large_length m + 4)), true) /\
    own h1 (m_set_ptr m (alloc h (m_large_length m + 4))) req /\
    holds (m_set_ptr m (alloc h (m_large_length m + 4))) (alloc h (m_large_length m + 4)).
Proof.
  intros (O1 & O2 & D & K & S & B1 & B2) Lg P A.
  destruct (allocate_ok alloc fill Halloc Hfill h m O1 Lg P A) as (s1 & s2 & s3 & data & Ld & E).
  destruct (Halloc h (m_large_length m + 4)) as [R F]. specialize (F A). set (q := alloc h (m_large_length m + 4)) in *.
  exists ((q, 1 :: s1 :: s2 :: s3 :: data) :: h). split; [exact E|].
  assert (forall p, ~ holds m p) as N by (intros p (_ & H & H'); congruence).
  assert (m_ptr (m_set_ptr m q) = q) as Pq by (apply ptr_set; [apply O1|exact R]).
  assert (holds (m_set_ptr m q) q) as Hq by (split; [rewrite ptr_set_large by apply O1; exact Lg|]; split; [exact Pq|exact A]).
  split; [|exact Hq]. repeat split.
  - apply ptr_set_object; exact O1.
  - apply ptr_set_object; exact O1.
  - apply O2.
  - apply O2.
  - cbn. constructor; assumption.
  - intros [I|I]; [left; cbn in I; subst p; exact Hq|]. apply K in I. destruct I as [I|I]; [destruct (N p I)|]. right. exact I.
  - intros [I|I]; [left; cbn; apply (holds_fun _ _ _ Hq I)|]. right. apply K. right. exact I.
  - intros p [I J]. pose proof (holds_fun _ _ _ Hq I). subst p. apply F. apply K. right. exact J.
  - intros p _. exists 1, s1, s2, s3, data. split; [rewrite Pq; cbn [hget]; rewrite Z.eqb_refl; reflexivity|]. split; [reflexivity|].
    rewrite ptr_set_len by apply O1. exact Ld.
  - intros p I. apply (block_same h); [|apply (B2 p I)]. cbn [hget]. destruct (q =? m_ptr req) eqn:E1; [|reflexivity].
    exfalso. apply F. apply K. right. destruct I as (I1 & I2 & I3). split; [exact I1|]. split; [lia|exact A].
Qed.
Lemma own_update h h' m req : own h m req -> keys h' = keys h -> block_of h' m -> (forall q, q <> m_ptr m -> hget h' q = hget h q) ->
  (exists p, holds m p) -> own h' m req.
Proof.
  intros (O1 & O2 & D & K & S & B1 & B2) E B G [p0 H0]. repeat split; try (apply O1 || apply O2).
  - rewrite E. exact D.
  - rewrite E. apply K.
  - rewrite E. apply K.
  - exact S.
  - intros p _. exact B.
  - intros p I. apply (block_same h); [|apply (B2 p I)]. apply G. intro J. apply (S p0). split; [exact H0|].
    destruct H0 as (A1 & A2 & A3), I as (I1 & I2 & I3). split; [exact I1|]. split; [lia|exact A3].
Qed.

Lemma data_loop_rest n : forall al i h m input st h' m' r, a_data_loop alloc fill n al i h m input = Some (st, h', m', r) ->
  input_ok input -> input_ok r.
Proof.
  induction n as [|n IH]; intros al i h m input st h' m' r; cbn [a_data_loop]; [intros [= <- <- <- <-]; auto|].
  intros E Hin. pose proof (read_escaped_bytes input Hin) as Hr. destruct (a_read_escaped input) as [|r0|b r0].
  - injection E as <- <- <- <-. constructor.
  - injection E as <- <- <- <-. exact Hr.
  - destruct (if al then m_store alloc fill h m i b else Some (h, m)) as [[h1 m1]|]; [|discriminate]. cbn [obind] in E.
    apply (IH _ _ _ _ _ _ _ _ _ E). apply Hr.
Qed.

Lemma crc_header_ok m : object m -> exists v, m_isHeaderValid m = Some v.
Proof.
  intros [L _]. unfold m_isHeaderValid, m_crcHeader. pose proof (header_len_range m).
  destruct (zsub_in_range m 1 (m_headerLength m - 1)) as (v & Ev & _); [lia|lia|lia|]. rewrite Ev. cbn [obind]. eauto.
Qed.
Lemma data_valid_ok h m : object m -> block_of h m \/ m_dataLength m = 0 -> exists v, m_isDataValid h m = Some v.
Proof.
  intros O B. unfold m_isDataValid. destruct (crc_header_ok m O) as [v ->]. cbn [obind]. destruct v; cbn [negb]; [|eauto].
  destruct (m_dataLength m =? 0) eqn:E; cbn [negb]; [eauto|]. destruct B as [(c & s1 & s2 & s3 & d & G & C & Ld)|]; [|lia].
  unfold m_crcData. rewrite G. cbn [obind].
  assert (0 <= m_dataLength m <= m_large_length m) as RD.
  { pose proof (large_len_range m (proj2 O)). unfold m_dataLength, u8 in *. destruct (m_isLarge m); lia. }
  destruct (zsub_in_range (c :: s1 :: s2 :: s3 :: d) LARGE_DATA_OFFSET (m_dataLength m)) as (w & Ew & _);
    [unfold LARGE_DATA_OFFSET; lia|lia|rewrite !zlen_cons; unfold LARGE_DATA_OFFSET; lia|]. rewrite Ew. cbn [obind]. eauto.
Qed.

Lemma receive_data_safe forus h m req input : own h m req -> (m_isLarge m = true -> m_ptr m = 0) -> input_ok input ->
  (forus = true \/ m_isLarge m = false \/ m_dataLength m = 0) ->
  exists st h' m' r, a_receiveData MaxHeap alloc fill forus h m input = Some (st, h', m', r) /\ own h' m' req /\ input_ok r /\
    (m_isLarge m = false -> m' = m) /\ (m_isLarge m = true -> m_isLarge m' = true).
Proof.
  intros W P Hin C. unfold a_receiveData. destruct (m_isLarge m) eqn:Lg; cbn [negb].
  2: { do 4 eexists. split; [reflexivity|]. split; [exact W|]. split; [exact Hin|]. split; [reflexivity|congruence]. }
  specialize (P eq_refl). pose proof W as W0. destruct W as (O1 & O2 & _).
  assert (0 <= m_dataLength m <= m_large_length m) as RD.
  { pose proof (large_len_range m (proj2 O1)). unfold m_dataLength, u8 in *. rewrite Lg. lia. }
  assert (forall p, ~ holds m p) as N by (intros p (_ & H & H'); congruence).
  assert (m_set_ptr m 0 = m) as Sm.
  { destruct O1 as [L B]. destruct (split32 m L) as (b0&b1&b2&b3&b4&b5&b6&b7&b8&b9&b10&b11&t&->&_).
    repeat match goal with H : Forall _ (_ :: _) |- _ => apply Forall_cons_iff in H; destruct H end.
    unfold byte in *. cbv [m_ptr mb nth] in P. assert (b8 = 0 /\ b9 = 0 /\ b10 = 0 /\ b11 = 0) as (-> & -> & -> & ->) by lia. reflexivity. }
  destruct (forus && (m_dataLength m <=? MaxHeap)) eqn:E.
  - assert (forus = true) as -> by (destruct forus; [reflexivity|discriminate]).
    destruct (Z.eq_dec (alloc h (m_large_length m + 4)) 0) as [A|A].
    + rewrite (allocate_fail alloc fill h m Lg P A). cbn [obind]. rewrite Sm.
      destruct (data_loop_skip alloc fill (Z.to_nat (m_dataLength m)) h m 0 input) as (st & r & F & Fs). rewrite F. cbn [obind].
      pose proof (data_loop_rest _ _ _ _ _ _ _ _ _ _ F Hin) as Hr.
      destruct Fs as [-> | [-> | -> ]]; cbn [andb negb]; (do 4 eexists; split; [reflexivity|]; split; [exact W0|]; split; [exact Hr|]; split; [congruence|auto]).
    + destruct (own_alloc h m req W0 Lg P A) as (h1 & -> & W1 & H1). cbn [obind].
      set (m1 := m_set_ptr m (alloc h (m_large_length m + 4))) in *.
      assert (m_dataLength m1 = m_dataLength m) as D1.
      { unfold m_dataLength. destruct H1 as (L1 & _). rewrite L1, Lg. f_equal. apply ptr_set_len. apply O1. }
      rewrite D1. pose proof W1 as (O1' & _ & _ & _ & _ & B1 & _).
      assert (m_large_length m1 = m_large_length m) as Ll1 by (apply ptr_set_len, O1).
      destruct (data_loop_safe alloc fill (Z.to_nat (m_dataLength m)) h1 m1 0 input) as (st & h2 & r & F & F1 & F2 & F3 & Fs).
      * apply H1.
      * destruct H1 as (_ & -> & Q). exact Q.
      * apply (B1 _ H1).
      * lia.
      * rewrite Ll1. lia.
      * rewrite F. cbn [obind]. pose proof (data_loop_rest _ _ _ _ _ _ _ _ _ _ F Hin) as Hr.
        assert (own h2 m1 req) as W2 by (apply (own_update h1); eauto).
        destruct (data_valid_ok h2 m1 O1' (or_introl F2)) as [v Ev].
        destruct Fs as [-> | [-> | -> ]]; cbn [andb negb]; rewrite ?Ev; cbn [obind];
          (do 4 eexists; split; [reflexivity|]; split; [exact W2|]; split; [exact Hr|]; split; [congruence|intros _; apply H1]).
  - cbn [obind]. destruct (data_loop_skip alloc fill (Z.to_nat (m_dataLength m)) h m 0 input) as (st & r & F & Fs). rewrite F. cbn [obind].
    pose proof (data_loop_rest _ _ _ _ _ _ _ _ _ _ F Hin) as Hr.
    destruct Fs as [-> | [-> | -> ]].
    + destruct forus; cbn [andb negb].
      * do 4 eexists. split; [reflexivity|]. split; [exact W0|]. split; [exact Hr|]. split; [congruence|auto].
      * destruct (data_valid_ok h m O1) as [v ->]; [right; destruct C as [C|[C|C]]; congruence|]. cbn [obind].
        do 4 eexists. split; [reflexivity|]. split; [exact W0|]. split; [exact Hr|]. split; [congruence|auto].
    + do 4 eexists. split; [reflexivity|]. split; [exact W0|]. split; [exact Hr|]. split; [congruence|auto].
    + do 4 eexists. split; [reflexivity|]. split; [exact W0|]. split; [exact Hr|]. split; [congruence|auto].
Qed.

(* request_msg = std::move(rx_msg) *)
Lemma move_safe h rx req : own h rx req -> exists h' req' rx', m_move h req rx = Some (h', req', rx') /\ own h' rx' req'.
Proof.
  intro W. apply own_sym in W. destruct (own_dealloc h req rx W) as (h' & E & W' & N). unfold m_move. rewrite E. cbn [obind].
  set (rq := if m_isLarge req && negb (m_ptr req =? 0) then m_set_ptr req 0 else req) in *.
  pose proof W' as (Oq & Or & D & K & S & Bq & Br). clear E W.
  destruct Oq as [Lq Byq], Or as [Lr Byr].
  destruct (split32 rx Lr) as (b0&b1&b2&b3&b4&b5&b6&b7&b8&b9&b10&b11&t&Er&Ht).
  destruct (split32 rq Lq) as (d0&d1&d2&d3&d4&d5&d6&d7&d8&d9&d10&d11&u&Eq&Hu).
  pose proof Byr as Byr'. pose proof Byq as Byq'. rewrite Er in Byr'. rewrite Eq in Byq'.
  repeat match goal with H : Forall _ (_ :: _) |- _ => apply Forall_cons_iff in H; destruct H end.
  assert (byte (Z.land b3 TYPE_MASK)) as B3.
  { unfold byte. assert (0 <= b3 < 256) by assumption. split; [apply Z.land_nonneg; unfold TYPE_MASK; lia|].
    apply lt_pow2_bits with (n := 8); [lia|apply Z.land_nonneg; unfold TYPE_MASK; lia|].
    intros i Hi. rewrite Z.land_spec, (testbit_high b3 8 i) by lia. reflexivity. }
  assert (m_smallLength (mput rx 3 [Z.land b3 TYPE_MASK]) = 0) as S0.
  { rewrite Er. unfold m_smallLength, mput, mb. cbn [firstn skipn app length Nat.add nth]. rewrite <- Z.land_assoc. apply Z.land_0_r. }
  assert (m_isLarge (mput rq 0 (firstn 4 rx)) = m_isLarge rx) as Lg by (rewrite Er, Eq; reflexivity).
  rewrite Lg. destruct (m_isLarge rx) eqn:Lx.
  - do 3 eexists. split; [reflexivity|].
    set (rx' := mput (m_set_ptr rx 0) 3 [Z.land (mb (m_set_ptr rx 0) 3) TYPE_MASK]).
    set (rq' := mput (mput rq 0 (firstn 4 rx)) 4 (firstn 8 (skipn 4 rx))).
    assert (forall p, ~ holds rx' p) as N'.
    { intros p (H' & _). assert (m_isLarge rx' = false) as Q; [|congruence].
      unfold m_isLarge. replace (m_smallLength rx') with 0; [reflexivity|]. rewrite <- S0. unfold rx'. rewrite Er. reflexivity. }
    assert (forall p, holds rq' p <-> holds rx p) as Hq by (intro p; unfold holds, rq'; rewrite Er, Eq; reflexivity).
    assert (object rx') as Orx.
    { unfold rx'. rewrite Er. unfold m_set_ptr, mput, le32, mb. cbn [firstn skipn app length Nat.add nth]. split.
      - rewrite !zlen_cons. lia.
      - repeat (apply Forall_cons; [first [assumption|unfold byte; cbn; lia]|]). assumption. }
    assert (object rq') as Orq.
    { unfold rq'. rewrite Er, Eq. unfold mput. cbn [firstn skipn app length Nat.add]. split.
      - rewrite !zlen_cons. lia.
      - repeat (apply Forall_cons; [assumption|]). assumption. }
    split; [exact Orx|]. split; [exact Orq|]. split; [exact D|]. split; [|split; [|split]].
    + intro p. rewrite K, Hq. split; intros [I|I]; [destruct (N p I)|tauto|destruct (N' p I)|tauto].
    + intros p [I _]. apply (N' p I).
    + intros p I. destruct (N' p I).
    + intros p I. apply Hq in I. destruct (Br p I) as (c & s1 & s2 & s3 & d & G & R). exists c, s1, s2, s3, d.
      unfold rq'. rewrite Er, Eq in *. exact (conj G R).
  - do 3 eexists. split; [reflexivity|].
    set (rx' := mput rx 3 [Z.land (mb rx 3) TYPE_MASK]).
    set (rq' := mput (mput rq 0 (firstn 4 rx)) 4 (skipn 4 rx)).
    assert (forall p, ~ holds rx' p) as N'.
    { intros p (H' & _). assert (m_isLarge rx' = false) as Q; [|congruence].
      unfold m_isLarge. replace (m_smallLength rx') with 0; [reflexivity|]. rewrite <- S0. unfold rx'. rewrite Er. reflexivity. }
    assert (forall p, ~ holds rx p) as Nx by (intros p (H' & _); congruence).
    assert (rq' = rx) as Eqq.
    { unfold rq', mput. rewrite Eq. rewrite Er. cbn [firstn skipn app length Nat.add]. do 12 f_equal.
      replace (skipn (length t) u) with (@nil Z); [apply app_nil_r|]. symmetry. apply skipn_all2. unfold zlen in *. lia. }
    assert (object rx') as Orx.
    { unfold rx'. rewrite Er. unfold mput, mb. cbn [firstn skipn app length Nat.add nth]. split.
      - rewrite !zlen_cons. lia.
      - repeat (apply Forall_cons; [assumption|]). assumption. }
    rewrite Eqq. split; [exact Orx|]. split; [split; assumption|]. split; [exact D|]. split; [|split; [|split]].
    + intro p. rewrite K. split; intros [I|I]; [destruct (N p I)|destruct (Nx p I)|destruct (N' p I)|destruct (Nx p I)].
    + intros p [I _]. apply (N' p I).
    + intros p I. destruct (N' p I).
    + intros p I. destruct (Nx p I).
Qed.
End Round.

Section NodeRound.
Variable MaxHeap : Z.
Variable alloc : amnb_heap -> Z -> Z.
Variable fill : Z -> list Z.
Hypothesis Halloc : amnb_allocator alloc.
Hypothesis Hfill : amnb_content fill.
Variable respalloc : Z -> bool.
Variable listeners : list listener.
Variable actions : list action.
Variable address size : Z.
Hypothesis Hhandlers : handlers_ok listeners actions.

(* heap and messages unchanged *)
Definition same_mem (n n' : node) : Prop :=
  n_heap n' = n_heap n /\ n_rx n' = n_rx n /\ n_req n' = n_req n /\ n_waiting n' = n_waiting n /\ n_received n' = n_received n.

Lemma same_refl n : same_mem n n. Proof. repeat split. Qed.
Lemma same_trans a b c : same_mem a b -> same_mem b c -> same_mem a c.
Proof. intros (A1&A2&A3&A4&A5) (B1&B2&B3&B4&B5). repeat split; congruence. Qed.

Lemma listeners_ok complete ls : forall i n, object (n_rx n) -> (forall p, holds (n_rx n) p -> block_of (n_heap n) (n_rx n)) ->
  Forall (fun l => match l_kind l with LTyped n => 1 <= n | _ => True end) ls ->
  exists n' b, n_listeners complete i ls n = Some (n', b) /\ same_mem n n'.
Proof.
  induction ls as [|l r IH]; intros i n O B F; cbn [n_listeners]; [do 2 eexists; split; [reflexivity|apply same_refl]|].
  inversion F as [|? ? Fl Fr]; subst. destruct (m_command (n_rx n) =? l_command l); [|apply IH; assumption].
  destruct complete; [|do 2 eexists; split; [reflexivity|apply same_refl]].
  assert (exists c, l_call (n_heap n) (n_rx n) l = Some c) as [c ->].
  { unfold l_call. destruct (l_kind l) as [|k|].
    - eauto.
    - destruct (get_ok (n_heap n) (n_rx n) k O) as (v & -> & _); [lia|exact B|]. cbn [obind]. eauto.
    - destruct (get_ok (n_heap n) (n_rx n) 1 O) as (v & Ev & _ & _); [lia|exact B|]. rewrite Ev. cbn [obind]. destruct v; [|eauto].
      destruct (get_all (n_heap n) (n_rx n) O B) as (w & -> & _); [congruence|congruence|eauto]. }
  cbn [obind]. destruct c as [arg|]; [|apply IH; assumption].
  destruct (IH (S i) (n_called n (LCall i (m_address (n_rx n)) arg)) O B Fr) as (n' & b & E & S).
  do 2 eexists. split; [exact E|]. exact S.
Qed.

Lemma actions_ok complete acts : forall i n, object (n_rx n) -> (forall p, holds (n_rx n) p -> block_of (n_heap n) (n_rx n)) ->
  Forall (fun a => match a_kind a with ATyped n => 1 <= n | _ => True end) acts ->
  exists n' b, n_actions respalloc address size complete i acts n = Some (n', b) /\ same_mem n n'.
Proof.
  induction acts as [|a r IH]; intros i n O B F; cbn [n_actions]; [do 2 eexists; split; [reflexivity|repeat split]|].
  inversion F as [|? ? Fl Fr]; subst. destruct (m_command (n_rx n) =? a_command a); [|apply IH; assumption].
  destruct complete; [|do 2 eexists; split; [reflexivity|apply same_refl]].
  assert (exists t p c, a_call respalloc (n_heap n) (n_rx n) a = Some (t, p, c)) as (t & p & c & ->).
  { unfold a_call. destruct (a_kind a) as [|k|].
    - destruct (m_length (n_rx n) =? 0); [destruct (a_answer respalloc (a_fun a []))|destruct (a_answer respalloc (RspValue [E_WrongArgumentSize]))]; eauto.
    - destruct (get_ok (n_heap n) (n_rx n) k O) as (v & -> & _); [lia|exact B|]. cbn [obind].
      destruct v as [arg|]; [|destruct (a_answer respalloc (RspValue [E_ResponseAllocationFailed])); eauto].
      destruct (m_length (n_rx n) <? k); [destruct (a_answer respalloc (RspValue [E_WrongArgumentSize]))|destruct (a_answer respalloc (a_fun a arg))]; eauto.
    - destruct (get_ok (n_heap n) (n_rx n) 1 O) as (v & Ev & _ & _); [lia|exact B|]. rewrite Ev. cbn [obind].
      destruct v; [|destruct (a_answer respalloc (RspValue [E_ResponseAllocationFailed])); eauto].
      destruct (get_all (n_heap n) (n_rx n) O B) as (w & -> & _); [congruence|congruence|]. cbn [obind]. destruct (a_answer respalloc (a_fun a w)). eauto. }
  cbn [obind]. do 2 eexists. split; [reflexivity|]. destruct c; repeat split.
Qed.

Notation handle := (n_handle respalloc listeners actions address size).

Lemma handle_header n : object (n_rx n) -> (forall p, holds (n_rx n) p -> block_of (n_heap n) (n_rx n)) ->
  exists n' b, handle false n = Some (n', b) /\ same_mem n n'.
Proof.
  intros O B. unfold n_handle. destruct Hhandlers as [Hl Ha].
  destruct (m_type (n_rx n) =? T_Broadcast); [apply listeners_ok; assumption|].
  destruct (m_type (n_rx n) =? T_Request).
  - destruct (m_address (n_rx n) =? address); [apply actions_ok; assumption|]. do 2 eexists. split; [reflexivity|apply same_refl].
  - cbn [andb]. destruct (n_waiting n); (do 2 eexists; split; [reflexivity|apply same_refl]).
Qed.
Lemma handle_complete n : owned n -> exists n' b, handle true n = Some (n', b) /\ owned n'.
Proof.
  intros W. pose proof W as (O & O2 & D & K & S & B & B2). unfold n_handle. destruct Hhandlers as [Hl Ha].
  assert (forall n', same_mem n n' -> owned n') as SW.
  { intros n' (A1 & A2 & A3 & _). unfold owned. rewrite A1, A2, A3. exact W. }
  destruct (m_type (n_rx n) =? T_Broadcast).
  { destruct (listeners_ok true listeners 0 n O B Hl) as (n' & b & E & Sm). rewrite E. do 2 eexists. split; [reflexivity|]. apply SW, Sm. }
  destruct (m_type (n_rx n) =? T_Request).
  - destruct (m_address (n_rx n) =? address).
    + destruct (actions_ok true actions 0 n O B Ha) as (n' & b & E & Sm). rewrite E. do 2 eexists. split; [reflexivity|]. apply SW, Sm.
    + do 2 eexists. split; [reflexivity|exact W].
  - destruct (n_waiting n); [|do 2 eexists; split; [reflexivity|exact W]].
    destruct (true && (m_address (n_req n) =? m_address (n_rx n)) && (m_command (n_req n) =? m_command (n_rx n)));
      [|do 2 eexists; split; [reflexivity|exact W]].
    destruct (move_safe (n_heap n) (n_rx n) (n_req n) W) as (h' & rq & rx & E & W'). rewrite E. cbn [obind].
    do 2 eexists. split; [reflexivity|exact W'].
Qed.

Notation receive := (n_receive MaxHeap alloc fill respalloc listeners actions address size).
Notation receive_n := (n_receive_n MaxHeap alloc fill respalloc listeners actions address size).

Lemma receive_safe n input : owned n -> no_leftover (n_rx n) -> input_ok input ->
  ~ unwanted respalloc listeners actions address size n input ->
  exists st n' r, receive n input = Some (st, n', r) /\ owned n' /\ input_ok r.
Proof.
  intros W NL Hin NU. destruct (own_dealloc _ _ _ W) as (h & E & W1 & N1). unfold n_receive. rewrite E. cbn [obind].
  set (m := if m_isLarge (n_rx n) && negb (m_ptr (n_rx n) =? 0) then m_set_ptr (n_rx n) 0 else n_rx n) in *.
  assert (m_ptr m = 0) as Pm.
  { unfold m. unfold no_leftover in NL. pose proof W as (O & _). destruct (m_isLarge (n_rx n)); cbn [andb]; [|apply NL; reflexivity].
    destruct (m_ptr (n_rx n) =? 0) eqn:Q; cbn [negb]; [lia|]. apply ptr_set; [apply O|cbn; lia]. }
  pose proof W1 as (Om & _).
  destruct (receive_header_safe m input Om Hin) as (st & m' & r & E2 & O2 & R2 & P2). rewrite Pm in P2.
  rewrite E2. cbn [obind].
  assert (forall p, ~ holds m' p) as N2 by (intros p (A & B & C); rewrite P2 in B by exact A; congruence).
  pose proof (own_replace h m (n_req n) m' W1 N1 O2 N2) as W2.
  set (n1 := mkNode h m' (n_req n) (n_waiting n) (n_received n) (n_queue n) (n_log n)).
  assert (owned n1) as Wn1 by exact W2.
  destruct st; try (do 3 eexists; split; [reflexivity|]; split; [exact Wn1|exact R2]).
  destruct (handle_header n1 O2) as (n2 & b & E3 & Sm); [intros p I; destruct (N2 p I)|]. rewrite E3. cbn [obind].
  destruct Sm as (A1 & A2 & A3 & A4 & A5). rewrite A1, A2. change (n_heap n1) with h. change (n_rx n1) with m'.
  destruct (receive_data_safe MaxHeap alloc fill Halloc Hfill b h m' (n_req n) r W2 P2 R2) as (st & h' & m'' & r' & E4 & W4 & R4 & _).
  { destruct b; [auto|]. right. destruct (m_isLarge m') eqn:Lg; [|auto]. right.
    destruct (Z.eq_dec (m_dataLength m') 0) as [Z|Z]; [exact Z|]. exfalso. apply NU.
    exists h, m, r, m', n2. auto. }
  rewrite E4. cbn [obind].
  assert (owned (mkNode h' m'' (n_req n2) (n_waiting n2) (n_received n2) (n_queue n2) (n_log n2))) as W5.
  { unfold owned. cbn [n_heap n_rx n_req]. rewrite A3. exact W4. }
  destruct st; try (do 3 eexists; split; [reflexivity|]; split; [exact W5|exact R4]).
  destruct b; [|do 3 eexists; split; [reflexivity|]; split; [exact W5|exact R4]].
  destruct (handle_complete _ W5) as (n3 & b3 & E5 & W6). rewrite E5. cbn [obind].
  do 3 eexists. split; [reflexivity|]. split; [exact W6|exact R4].
Qed.

(* rounds one after the other *)
Lemma receive_n_safe k : forall n input, owned n -> input_ok input ->
  (forall j n' r, (j < k)%nat -> receive_n j n input = Some (n', r) -> no_leftover (n_rx n') /\
     ~ unwanted respalloc listeners actions address size n' r) ->
  exists n' r, receive_n k n input = Some (n', r) /\ owned n'.
Proof.
  induction k as [|k IH]; intros n input W Hin C; [do 2 eexists; split; [reflexivity|exact W]|].
  destruct (C 0%nat n input ltac:(lia) eq_refl) as [NL NU].
  destruct (receive_safe n input W NL Hin NU) as (st & n1 & r & E & W1 & R1).
  cbn [n_receive_n]. rewrite E. cbn [obind].
  assert (st = Waiting \/ st = MediumEmpty \/ (exists n' r', receive_n k n1 r = Some (n', r') /\ owned n')) as Q.
  { destruct st eqn:Es; auto; right; right; apply IH; try assumption;
      intros j n' r' Hj Ej; apply (C (S j) n' r'); try lia; cbn [n_receive_n]; rewrite E; cbn [obind]; exact Ej. }
  destruct Q as [->|[->|(n' & r' & Q & W')]]; [do 2 eexists; split; [reflexivity|exact W1]|do 2 eexists; split; [reflexivity|exact W1]|].
  destruct st; try (do 2 eexists; split; [exact Q|exact W']); do 2 eexists; (split; [reflexivity|exact W1]).
Qed.

Lemma data_loop_skip_ok bs : forall h m i r, Forall byte bs ->
  a_data_loop alloc fill (length bs) false i h m (map Some (flat_map a_escape bs) ++ r) = Some (IOk, h, m, r).
Proof.
  induction bs as [|b t IH]; intros h m i r B; cbn [length a_data_loop]; [reflexivity|]. inversion B as [|? ? Bb Bt]; subst.
  cbn [flat_map]. rewrite map_app, <- app_assoc, escape_read by exact Bb. cbn [obind]. apply IH, Bt.
Qed.
Lemma no_listener ls c : Forall (fun l => l_command l <> c) ls -> forall i n, m_command (n_rx n) = c ->
  n_listeners false i ls n = Some (n, false).
Proof.
  induction 1 as [|l r Hl Hr IH]; intros i n C; cbn [n_listeners]; [reflexivity|].
  assert ((m_command (n_rx n) =? l_command l) = false) as -> by lia. apply IH, C.
Qed.

(* a large broadcast nobody here listens for is checked through a null pointer once its data has arrived *)
Lemma unwanted_undefined n a c tl p c16 r : owned n -> no_leftover (n_rx n) -> byte a -> byte c -> byte tl ->
  Z.land tl LENGTH_MASK = 31 -> Z.land tl TYPE_MASK = T_Broadcast -> Forall byte p -> 28 < zlen p < 256 -> 0 <= c16 < 65536 ->
  Forall (fun l => l_command l <> c) listeners ->
  receive n (map Some (a_wire (l_header a c tl (zlen p) c16) p) ++ r) = None.
Proof.
  intros W NL Ba Bc Bt Lt Tt Bp P R16 NoL. destruct (own_dealloc _ _ _ W) as (h & E & W1 & N1). unfold n_receive. rewrite E. cbn [obind].
  set (m := if m_isLarge (n_rx n) && negb (m_ptr (n_rx n) =? 0) then m_set_ptr (n_rx n) 0 else n_rx n) in *.
  assert (m_ptr m = 0) as Pm.
  { unfold m. unfold no_leftover in NL. pose proof W as (O & _). destruct (m_isLarge (n_rx n)); cbn [andb]; [|apply NL; reflexivity].
    destruct (m_ptr (n_rx n) =? 0) eqn:Q; cbn [negb]; [lia|]. apply ptr_set; [apply O|cbn; lia]. }
  pose proof W1 as ((Lm & Bm) & _ & _ & K & _).
  assert (hget h 0 = None) as H0.
  { apply hget_None. intro I. apply K in I. destruct I as [(_ & _ & I)|(_ & _ & I)]; congruence. }
  unfold a_wire. rewrite app_assoc, map_app, <- app_assoc.
  set (f4 := le16 (zlen p) ++ le16 c16). change (l_header a c tl (zlen p) c16) with (s_header a c tl f4).
  rewrite (receive_header_gen a c tl f4 m); try assumption.
  2: { unfold f4. apply Forall_app; split; apply le16_bytes. }
  2: { intros x Hx. unfold m_headerLength, m_isLarge, m_smallLength, mb, s_header, SMALL_LENGTH. cbn [app nth]. rewrite Lt. reflexivity. }
  2: { change (zlen f4) with 4. lia. }
  change (Z.to_nat (4 + zlen f4)) with 8%nat. cbn [obind].
  set (m' := s_header a c tl f4 ++ skipn 8 m).
  assert (m_isLarge m' = true) as Lg by (unfold m_isLarge, m_smallLength, m', mb, s_header, SMALL_LENGTH; cbn [app nth]; rewrite Lt; reflexivity).
  assert (m_large_length m' = zlen p) as Ll by (unfold m_large_length, m', mb, f4, s_header, le16; cbn [app nth]; lia).
  assert (m_ptr m' = 0) as Pm'.
  { rewrite <- Pm. destruct (split32 m Lm) as (b0&b1&b2&b3&b4&b5&b6&b7&b8&b9&b10&b11&t&->&_). reflexivity. }
  assert (m_dataLength m' = zlen p) as Dm by (unfold m_dataLength; rewrite Lg, Ll; apply Z.mod_small; lia).
  set (n1 := mkNode h m' (n_req n) (n_waiting n) (n_received n) (n_queue n) (n_log n)).
  assert (handle false n1 = Some (n1, false)) as ->.
  { unfold n_handle. assert (m_type (n_rx n1) = T_Broadcast) as -> by (unfold m_type, n1, m', mb, s_header; cbn [n_rx app nth]; exact Tt).
    cbn [T_Broadcast Z.eqb]. rewrite Z.eqb_refl || idtac. apply no_listener with (c := c); [exact NoL|reflexivity]. }
  cbn [obind]. change (n_heap n1) with h. change (n_rx n1) with m'.
  unfold a_receiveData. rewrite Lg. cbn [negb andb obind]. rewrite Dm. 
  replace (Z.to_nat (zlen p)) with (length p) by (unfold zlen; lia). rewrite data_loop_skip_ok by exact Bp. cbn [obind].
  unfold m_isDataValid.
  assert (m_isHeaderValid m' = Some true) as ->.
  { unfold m_isHeaderValid, m_crcHeader, m_headerLength. rewrite Lg. unfold m', s_header.
    set (hd := a :: c :: tl :: f4). change ((crc8_ccitt hd :: hd) ++ skipn 8 m) with ([crc8_ccitt hd] ++ hd ++ skipn 8 m).
    rewrite zsub_app by reflexivity. cbn [obind app]. unfold mb. cbn [nth]. rewrite Z.eqb_refl. reflexivity. }
  cbn [obind negb]. rewrite Dm. assert ((zlen p =? 0) = false) as -> by lia. cbn [negb]. unfold m_crcData. rewrite Pm', H0. reflexivity.
Qed.
End NodeRound.
