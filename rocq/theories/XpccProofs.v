From Coq Require Import Permutation.
From Verif Require Import Base BitLemmas SliceLemmas CrcSpec BitsModel BitsSpec BitsProofs SabProofs CanProofs XpccModel XpccSpec.

(* ---- identifiers ---- *)
Lemma shl_u32 x n : 0 <= n -> 0 <= x * 2 ^ n < 4294967296 -> u32 (Z.shiftl x n) = x * 2 ^ n.
Proof. intros N R. rewrite Z.shiftl_mul_pow2 by exact N. unfold u32. apply Z.mod_small. exact R. Qed.
Lemma lor_mul a b n : 0 <= n -> 0 <= b < 2 ^ n -> Z.lor (a * 2 ^ n) b = a * 2 ^ n + b.
Proof. intros N B. rewrite <- (lor_high a b n N B). rewrite Z.shiftl_mul_pow2 by exact N. reflexivity. Qed.
Lemma convert_ok h fr : header_ok h -> convertToIdentifier h fr = identifier h fr.
Proof.
  intros (D & S & P). unfold byte in *. unfold convertToIdentifier, identifier. cbv zeta.
  set (t := match h_type h with XRequest => 0 | XResponse => 1 | XNegative => 2 | XTimeout => 3 end). assert (0 <= t < 4) as T by (unfold t; destruct (h_type h); lia).
  set (a := if h_ack h then 1 else 0). assert (0 <= a < 2) as A by (unfold a; destruct (h_ack h); lia).
  set (g := if fr then 1 else 0). assert (0 <= g < 2) as G by (unfold g; destruct fr; lia).
  rewrite (shl_u32 t 1) by lia.
  assert ((if h_ack h then Z.lor (t * 2 ^ 1) 1 else t * 2 ^ 1) = t * 2 + a) as ->. { unfold a. destruct (h_ack h); [rewrite (lor_mul t 1 1) by lia|]; lia. }
  rewrite (shl_u32 (t * 2 + a) 1) by lia. change (2 ^ 1) with 2. rewrite (shl_u32 ((t * 2 + a) * 2) 1) by lia.
  assert ((if fr then Z.lor ((t * 2 + a) * 2 * 2 ^ 1) 1 else (t * 2 + a) * 2 * 2 ^ 1) = (t * 2 + a) * 4 + g) as ->.
  { unfold g. destruct fr; [rewrite (lor_mul _ 1 1) by lia|]; lia. }
  set (q := (t * 2 + a) * 4 + g). assert (0 <= q < 32) by (unfold q; lia). rewrite (shl_u32 q 8) by lia. rewrite (lor_mul q (h_dest h) 8) by lia.
  set (q1 := q * 2 ^ 8 + h_dest h). assert (0 <= q1 < 2 ^ 13) by (unfold q1; lia). rewrite (shl_u32 q1 8) by lia. rewrite (lor_mul q1 (h_src h) 8) by lia.
  set (q2 := q1 * 2 ^ 8 + h_src h). assert (0 <= q2 < 2 ^ 21) by (unfold q2; lia). rewrite (shl_u32 q2 8) by lia. rewrite (lor_mul q2 (h_pid h) 8) by lia.
  unfold q2, q1, q. lia.
Qed.
Lemma identifier_range h fr : header_ok h -> 0 <= identifier h fr < 2 ^ 29.
Proof. intros (D & S & P). unfold identifier, byte in *. destruct (h_type h), (h_ack h), fr; lia. Qed.
Lemma id_byte_ok i k : 0 <= i -> 0 <= k -> id_byte i k = (i / 2 ^ (8 * k)) mod 2 ^ 8.
Proof. intros I K. unfold id_byte, u8. rewrite Z.shiftr_div_pow2 by lia. reflexivity. Qed.
Lemma flag_bits f : 0 <= f < 256 -> (negb (Z.land f 1 =? 0) = (f mod 2 =? 1)) /\ (negb (Z.land f 4 =? 0) = ((f / 4) mod 2 =? 1)) /\ Z.land f 24 = (f / 8) mod 4 * 8.
Proof.
  intro R. assert (Bool.eqb (negb (Z.land f 1 =? 0)) (f mod 2 =? 1) && Bool.eqb (negb (Z.land f 4 =? 0)) ((f / 4) mod 2 =? 1) && (Z.land f 24 =? (f / 8) mod 4 * 8) = true) as H.
  { apply (sweep 256 (fun f => Bool.eqb (negb (Z.land f 1 =? 0)) (f mod 2 =? 1) && Bool.eqb (negb (Z.land f 4 =? 0)) ((f / 4) mod 2 =? 1) && (Z.land f 24 =? (f / 8) mod 4 * 8))); [vm_compute; reflexivity|lia]. }
  apply andb_prop in H. destruct H as [H H3]. apply andb_prop in H. destruct H as [H1 H2]. apply Bool.eqb_prop in H1, H2. split; [exact H1|]. split; [exact H2|lia].
Qed.
Lemma header_conv i : 0 <= i -> convertToHeader i = (head_of i, frag_of i).
Proof.
  intro I. unfold convertToHeader, isFragment. rewrite !id_byte_ok by lia. cbn [Z.mul Pos.mul Pos.add]. change (2 ^ 0) with 1. rewrite Z.div_1_r. change (8 * 3) with 24.
  set (fl := (i / 2 ^ 24) mod 2 ^ 8). assert (0 <= fl < 256) as F by (unfold fl; lia). destruct (flag_bits fl F) as (E1 & E2 & E3). rewrite E1, E2, E3.
  assert (fl mod 2 = (i / 2 ^ 24) mod 2) as -> by (unfold fl; lia). assert ((fl / 4) mod 2 = (i / 2 ^ 26) mod 2) as -> by (unfold fl; lia). assert ((fl / 8) mod 4 = (i / 2 ^ 27) mod 4) as -> by (unfold fl; lia).
  unfold head_of, frag_of. clear. change (8 * 2) with 16. change (8 * 1) with 8. assert (0 <= (i / 2 ^ 27) mod 4 < 4) as R by lia. destruct ((i / 2 ^ 27) mod 4) as [|[p|p|]|]; [reflexivity| | | |lia].
  - assert (p = 1%positive) as -> by lia. reflexivity.
  - assert (p = 1%positive) as -> by lia. reflexivity.
  - reflexivity.
Qed.
Lemma head_identifier h fr : header_ok h -> head_of (identifier h fr) = h /\ frag_of (identifier h fr) = fr.
Proof.
  intros (D & S & P). unfold byte in *. destruct h as [t a d s p]. cbn [h_dest h_src h_pid h_type h_ack] in *. unfold identifier, head_of, frag_of. cbn [h_dest h_src h_pid h_type h_ack].
  set (tt := match t with XRequest => 0 | XResponse => 1 | XNegative => 2 | XTimeout => 3 end). assert (0 <= tt < 4) as T by (unfold tt; destruct t; lia).
  set (aa := if a then 1 else 0). assert (0 <= aa < 2) as A by (unfold aa; destruct a; lia). set (g := if fr then 1 else 0). assert (0 <= g < 2) as G by (unfold g; destruct fr; lia).
  set (x := tt * 2 ^ 27 + aa * 2 ^ 26 + g * 2 ^ 24 + d * 2 ^ 16 + s * 2 ^ 8 + p).
  assert ((x / 2 ^ 27) mod 4 = tt) as -> by (unfold x; lia). assert ((x / 2 ^ 26) mod 2 = aa) as -> by (unfold x; lia). assert ((x / 2 ^ 24) mod 2 = g) as -> by (unfold x; lia).
  assert ((x / 2 ^ 16) mod 2 ^ 8 = d) as -> by (unfold x; lia). assert ((x / 2 ^ 8) mod 2 ^ 8 = s) as -> by (unfold x; lia). assert (x mod 2 ^ 8 = p) as -> by (unfold x; lia).
  split; [|unfold g; destruct fr; reflexivity]. f_equal; [unfold tt; destruct t; reflexivity|unfold aa; destruct a; reflexivity].
Qed.
Lemma identifier_head i : 0 <= i < 2 ^ 29 -> (i / 2 ^ 25) mod 2 = 0 -> identifier (head_of i) (frag_of i) = i.
Proof.
  intros R B. unfold identifier, head_of, frag_of. cbn [h_dest h_src h_pid h_type h_ack].
  assert (match match (i / 2 ^ 27) mod 4 with 0 => XRequest | 1 => XResponse | 2 => XNegative | _ => XTimeout end with XRequest => 0 | XResponse => 1 | XNegative => 2 | XTimeout => 3 end = (i / 2 ^ 27) mod 4) as ->.
  { assert (0 <= (i / 2 ^ 27) mod 4 < 4) as Q by lia. destruct ((i / 2 ^ 27) mod 4) as [|[p|p|]|]; try reflexivity; [| |lia]; assert (p = 1%positive) as -> by lia; reflexivity. }
  assert ((if (i / 2 ^ 26) mod 2 =? 1 then 1 else 0) = (i / 2 ^ 26) mod 2) as -> by (destruct ((i / 2 ^ 26) mod 2 =? 1) eqn:E; lia).
  assert ((if (i / 2 ^ 24) mod 2 =? 1 then 1 else 0) = (i / 2 ^ 24) mod 2) as -> by (destruct ((i / 2 ^ 24) mod 2 =? 1) eqn:E; lia).
  lia.
Qed.
Lemma head_of_ok i : header_ok (head_of i).
Proof. unfold header_ok, byte, head_of. cbn [h_dest h_src h_pid]. lia. Qed.
Lemma identifier_inj h h' fr fr' : header_ok h -> header_ok h' -> identifier h fr = identifier h' fr' -> h = h' /\ fr = fr'.
Proof. intros A B E. destruct (head_identifier h fr A) as [E1 E2]. destruct (head_identifier h' fr' B) as [E3 E4]. rewrite E in *. split; congruence. Qed.
Lemma header_eqb_ok a b : header_eqb a b = true <-> a = b.
Proof.
  destruct a as [ta aa da sa pa], b as [tb ab db sb pb]. unfold header_eqb. cbn [h_dest h_src h_pid h_type h_ack]. split.
  - intro H. repeat (apply andb_prop in H; destruct H as [H ?]). assert (ta = tb) as -> by (destruct ta, tb; (reflexivity || discriminate)).
    assert (aa = ab) as -> by (apply Bool.eqb_prop; assumption). f_equal; lia.
  - intro E. injection E as -> -> -> -> ->. rewrite !Z.eqb_refl, Bool.eqb_reflx. destruct tb; reflexivity.
Qed.

(* ---- slices by index ---- *)
Lemma zwrite_znth {A} (vs : list A) l i l' : zwrite l i vs = Some l' -> 0 <= i ->
  forall j, znth l' j = if (i <=? j) && (j <? i + zlen vs) then znth vs (j - i) else znth l j.
Proof.
  revert l i l'. induction vs as [|v r IH]; intros l i l' H P j; cbn [zwrite obind] in H.
  - injection H as ->. rewrite zlen_nil. assert ((i <=? j) && (j <? i + 0) = false) as -> by lia. reflexivity.
  - destruct (zupd l i v) as [l1|] eqn:U; [|discriminate]. cbn [obind] in H. rewrite (IH _ _ _ H ltac:(lia) j). rewrite zlen_cons. pose proof (zlen_nonneg r).
    destruct (zupd_Some _ _ _ _ U) as (R & _ & Same).
    destruct (Z.eq_dec j i) as [->|N].
    + assert ((i + 1 <=? i) && (i <? i + 1 + zlen r) = false) as -> by lia. assert ((i <=? i) && (i <? i + (1 + zlen r)) = true) as -> by lia. rewrite Z.sub_diag, Same, Z.eqb_refl. reflexivity.
    + destruct ((i + 1 <=? j) && (j <? i + 1 + zlen r)) eqn:E.
      * assert ((i <=? j) && (j <? i + (1 + zlen r)) = true) as -> by lia. rewrite znth_cons by lia. f_equal. lia.
      * assert ((i <=? j) && (j <? i + (1 + zlen r)) = false) as -> by lia. rewrite Same. assert ((j =? i) = false) as -> by lia. reflexivity.
Qed.

(* ---- one frame ---- *)
Definition place (s : xin) (h : xheader) (c i z : Z) (b : list Z) : option (xin * bool) :=
  let '(a, x, r) := match xp_find (x_pending s) h c with Some q => q | None => ([], mkI h (repeat None (Z.to_nat z)) 0 c, x_pending s) end in
  let frags := Z.lor (if Z.testbit (i_frags x) i then 0 else i_frags x) (2 ^ i) in
  do p <- zwrite (i_payload x) (6 * i) (map Some b);
  let x := mkI (i_header x) p frags (i_counter x) in
  if bitCount8 frags =? (z + 5) / 6 then Some (mkXI (a ++ r) (x_received s ++ [x]), true) else Some (mkXI (a ++ x :: r) (x_received s), true).

Lemma fragment_facts f h c i z b : frame_ok f -> says f h c i z b ->
  frag_of (f_id f) = true /\ h = head_of (f_id f) /\ 0 <= i < 8 /\ 6 * i < z /\ z <= 48 /\ zlen b = Z.min 6 (z - 6 * i) /\ Forall byte b /\ 0 <= c < 256 /\ c mod 16 = 0 /\ f_data f = (c + i) :: z :: b.
Proof.
  intros (R & L & B) H. unfold says, fragment_of in H. destruct (f_data f) as [|d0 [|size bytes]] eqn:E; try discriminate. cbv zeta in H.
  destruct (frag_of (f_id f) && (size <=? 48) && (6 * (d0 mod 16) <? size) && (zlen bytes =? Z.min 6 (size - 6 * (d0 mod 16)))) eqn:Q; [|discriminate].
  injection H as <- <- <- <- <-. apply andb_prop in Q. destruct Q as [Q Q4]. apply andb_prop in Q. destruct Q as [Q Q3]. apply andb_prop in Q. destruct Q as [Q1 Q2].
  inversion B as [|? ? B0 B1]; subst. inversion B1 as [|? ? B2 B3]; subst. unfold byte in B0. 
  split; [exact Q1|]. split; [reflexivity|]. split; [lia|]. split; [lia|]. split; [lia|]. split; [lia|]. split; [exact B3|]. split; [lia|]. split; [lia|]. f_equal. lia.
Qed.
Lemma nibbles d : 0 <= d < 256 -> Z.land d 15 = d mod 16 /\ Z.land d 240 = d - d mod 16.
Proof.
  intro R. split; [apply (land_ones_mod d 4); lia|].
  assert ((Z.land d 240 =? d - d mod 16) = true) as H; [|lia]. apply (sweep 256 (fun d => Z.land d 240 =? d - d mod 16)); [vm_compute; reflexivity|lia].
Qed.
Lemma pieces_ok z : 0 <= z < 256 -> getNumberOfFragments z = (z + 5) / 6.
Proof. intro R. unfold getNumberOfFragments, u8. destruct (0 <? z mod 6) eqn:E; lia. Qed.
Lemma zwrite_all (d : list Z) : zwrite (repeat None (Z.to_nat (zlen d))) 0 (map Some d) = Some (map Some d).
Proof.
  pose proof (zlen_nonneg d). rewrite zwrite_ok by (rewrite ?zlen_map, ?zlen_repeat; lia). f_equal. change (Z.to_nat 0) with 0%nat. cbn [firstn app]. rewrite zlen_map, Z.add_0_l.
  rewrite skipn_all2 by (rewrite repeat_length; lia). apply app_nil_r.
Qed.
Lemma retrieve_ok s f : frame_ok f -> xp_retrieve s f =
  if frag_of (f_id f) then match fragment_of f with None => Some (s, false) | Some (h, c, i, z, b) => place s h c i z b end
  else Some (mkXI (x_pending s) (x_received s ++ [mkI (head_of (f_id f)) (map Some (f_data f)) 0 0]), true).
Proof.
  intros F. pose proof F as (R & L & B). unfold xp_retrieve. rewrite header_conv by lia. destruct (frag_of (f_id f)) eqn:G; cbn [negb].
  2:{ rewrite zwrite_all. reflexivity. }
  destruct (f_data f) as [|d0 [|size bytes]] eqn:E; [unfold fragment_of; rewrite E; reflexivity|unfold fragment_of; rewrite E; reflexivity|].
  inversion B as [|? ? B0 B1]; subst. inversion B1 as [|? ? B2 B3]; subst. unfold byte in *. destruct (nibbles d0 B0) as (-> & ->). rewrite pieces_ok by lia. rewrite !zlen_cons in *.
  unfold fragment_of. rewrite E, G. cbv zeta. cbn [andb]. set (i := d0 mod 16). assert (0 <= i < 16) as I by (unfold i; lia).
  pose proof (zlen_nonneg bytes).
  destruct ((size <=? 48) && (6 * i <? size) && (zlen bytes =? Z.min 6 (size - 6 * i))) eqn:Q.
  - assert ((1 + (1 + zlen bytes) <? 3) || (48 <? size) || ((size + 5) / 6 <=? i) = false) as -> by lia.
    assert (0 <= i < 8) as I8 by lia. unfold u8 at 1 2. rewrite (Z.mod_small (i * 6)) by lia.
    assert ((if i + 1 =? (size + 5) / 6 then negb (size - i * 6 =? 1 + (1 + zlen bytes) - 2) else negb (1 + (1 + zlen bytes) =? 8)) = false) as -> by (destruct (i + 1 =? (size + 5) / 6) eqn:K; lia).
    unfold place. destruct (match xp_find (x_pending s) (head_of (f_id f)) (d0 - i) with Some q => q | None => _ end) as [[a x] r].
    rewrite Z.shiftl_1_l. assert (u8 (2 ^ i) = 2 ^ i) as ->. { unfold u8. apply Z.mod_small. split; [apply Z.pow_nonneg; lia|]. change 256 with (2 ^ 8). apply Z.pow_lt_mono_r; lia. }
    rewrite Z.land_comm, land_pow2_test by lia. rewrite (Z.mul_comm i 6). destruct (zwrite (i_payload x) (6 * i) (map Some bytes)); reflexivity.
  - destruct ((1 + (1 + zlen bytes) <? 3) || (48 <? size) || ((size + 5) / 6 <=? i)) eqn:K1; [reflexivity|].
    unfold u8. rewrite (Z.mod_small (i * 6)) by lia.
    assert ((if i + 1 =? (size + 5) / 6 then negb (size - i * 6 =? 1 + (1 + zlen bytes) - 2) else negb (1 + (1 + zlen bytes) =? 8)) = true) as -> by (destruct (i + 1 =? (size + 5) / 6) eqn:K; lia).
    reflexivity.
Qed.
Lemma find_ok l h c : match xp_find l h c with
  | Some (a, x, b) => l = a ++ x :: b /\ i_header x = h /\ i_counter x = c /\ Forall (fun y => ~ (i_header y = h /\ i_counter y = c)) a
  | None => Forall (fun y => ~ (i_header y = h /\ i_counter y = c)) l end.
Proof.
  induction l as [|i r IH]; cbn [xp_find]; [apply Forall_nil|]. destruct (header_eqb (i_header i) h && (i_counter i =? c)) eqn:E.
  - apply andb_prop in E. destruct E as [E1 E2]. apply header_eqb_ok in E1. split; [reflexivity|]. split; [exact E1|]. split; [lia|apply Forall_nil].
  - assert (~ (i_header i = h /\ i_counter i = c)) as N. { intros [E1 E2]. rewrite (proj2 (header_eqb_ok _ _) E1), E2, Z.eqb_refl in E. discriminate. }
    destruct (xp_find r h c) as [[[a x] b]|]; [|apply Forall_cons; assumption]. destruct IH as (-> & IH). split; [reflexivity|]. split; [apply IH|]. split; [apply IH|apply Forall_cons; [exact N|apply IH]].
Qed.
Lemma count_full v n : 0 <= n <= 8 -> 0 <= v < 2 ^ n -> (bitCount8 v =? n) = (v =? 2 ^ n - 1).
Proof.
  intros N V. assert (forallb (fun n => (2 ^ n <=? v) || Bool.eqb (bitCount8 v =? n) (v =? 2 ^ n - 1)) [0;1;2;3;4;5;6;7;8] = true) as H.
  { apply (sweep 256 (fun v => forallb (fun n => (2 ^ n <=? v) || Bool.eqb (bitCount8 v =? n) (v =? 2 ^ n - 1)) [0;1;2;3;4;5;6;7;8])); [vm_compute; reflexivity|].
    split; [lia|]. apply Z.lt_le_trans with (2 ^ n); [lia|]. change (Z.of_nat 256) with (2 ^ 8). apply Z.pow_le_mono_r; lia. }
  rewrite forallb_forall in H. specialize (H n). assert (In n [0;1;2;3;4;5;6;7;8]) as I by (cbn [In]; lia). specialize (H I).
  assert ((2 ^ n <=? v) = false) as E by lia. rewrite E in H. apply Bool.eqb_prop in H. exact H.
Qed.
Lemma full_bits v n : 0 <= n -> 0 <= v < 2 ^ n -> (v = 2 ^ n - 1 <-> forall i, 0 <= i < n -> Z.testbit v i = true).
Proof.
  intros N V. assert (2 ^ n - 1 = Z.ones n) as E by (rewrite Z.ones_equiv; lia). assert (0 < 2 ^ n) by (apply Z.pow_pos_nonneg; lia). split.
  - intros -> i I. rewrite E. apply Z.ones_spec_low. lia.
  - intro H1. apply (bits_ext_range _ _ n); [exact V|lia|]. intros i I. rewrite H1 by exact I. rewrite E. symmetry. apply Z.ones_spec_low. lia.
Qed.
Lemma lor_bit v i j : 0 <= i -> Z.testbit (Z.lor v (2 ^ i)) j = Z.testbit v j || (j =? i).
Proof. intros I. rewrite Z.lor_spec. f_equal. destruct (j =? i) eqn:E; [assert (j = i) as -> by lia; apply Z.pow2_bits_true; lia|apply Z.pow2_bits_false; lia]. Qed.

(* ---- safety and accounting ---- *)
Definition known (fs : list xframe) (h : xheader) (c z : Z) (x : xitem) : Prop :=
  i_header x = h /\ i_counter x = c /\ zlen (i_payload x) = z /\ 0 < z <= 48 /\ 0 <= i_frags x < 2 ^ ((z + 5) / 6) /\
  forall i, Z.testbit (i_frags x) i = true -> exists f b, In f fs /\ says f h c i z b /\
    forall j, 0 <= j < zlen b -> znth (i_payload x) (6 * i + j) = option_map Some (znth b j).
Lemma known_write fs fs' h c z x f i b : known fs h c z x -> incl fs fs' -> In f fs' -> frame_ok f -> says f h c i z b -> Forall frame_ok fs ->
  exists p, zwrite (i_payload x) (6 * i) (map Some b) = Some p /\
    known fs' h c z (mkI (i_header x) p (Z.lor (if Z.testbit (i_frags x) i then 0 else i_frags x) (2 ^ i)) (i_counter x)).
Proof.
  intros (Hh & Hc & Hl & Hz & Hr & Hb) Inc If Fok Sy Fs. destruct (fragment_facts f h c i z b Fok Sy) as (_ & _ & I & Iz & _ & Lb & _).
  destruct (zwrite (i_payload x) (6 * i) (map Some b)) as [p|] eqn:W.
  2:{ rewrite zwrite_ok in W by (rewrite ?zlen_map; lia). discriminate. }
  exists p. split; [reflexivity|]. pose proof (zwrite_znth _ _ _ _ W ltac:(lia)) as Z1. pose proof (zwrite_len _ _ _ _ W) as Lp. rewrite zlen_map in Z1.
  unfold known. cbn [i_header i_counter i_payload i_frags]. split; [exact Hh|]. split; [exact Hc|]. split; [lia|]. split; [exact Hz|].
  assert (0 <= (z + 5) / 6) as N by lia. assert (0 <= 2 ^ i < 2 ^ ((z + 5) / 6)) as P. { split; [apply Z.pow_nonneg; lia|apply Z.pow_lt_mono_r; lia]. }
  split. { apply lor_lt; [exact N| |exact P]. destruct (Z.testbit (i_frags x) i); [|exact Hr]. split; [lia|apply Z.pow_pos_nonneg; lia]. }
  intros k Bk. rewrite lor_bit in Bk by lia. destruct (k =? i) eqn:Ki.
  - assert (k = i) as -> by lia. exists f, b. split; [exact If|]. split; [exact Sy|]. intros j J. rewrite Z1. assert ((6 * i <=? 6 * i + j) && (6 * i + j <? 6 * i + zlen b) = true) as -> by lia.
    rewrite znth_map. f_equal. f_equal. lia.
  - rewrite orb_false_r in Bk. destruct (Z.testbit (i_frags x) i) eqn:Bi; [rewrite Z.bits_0 in Bk; discriminate|]. destruct (Hb k Bk) as (f' & b' & If' & Sy' & J'). exists f', b'. split; [apply Inc; exact If'|]. split; [exact Sy'|].
    intros j J. rewrite Z1. rewrite Forall_forall in Fs. destruct (fragment_facts f' h c k z b' (Fs _ If') Sy') as (_ & _ & _ & Kz & _ & Lb' & _).
    assert ((6 * i <=? 6 * k + j) && (6 * k + j <? 6 * i + zlen b) = false) as -> by lia. apply J'. exact J.
Qed.
Lemma known_full fs h c z x : Forall frame_ok fs -> known fs h c z x -> i_frags x = 2 ^ ((z + 5) / 6) - 1 -> accounted fs x.
Proof.
  intros Fs (Hh & Hc & Hl & Hz & Hr & Hb) E j J. rewrite full_bits in E by lia. destruct (Hb (j / 6) (E (j / 6) ltac:(lia))) as (f & b & If & Sy & Jb).
  rewrite Forall_forall in Fs. destruct (fragment_facts _ _ _ _ _ _ (Fs _ If) Sy) as (_ & _ & _ & Kz & _ & Lb & _).
  destruct (znth_in_range b (j mod 6)) as [v V]; [lia|]. exists f, b, v. split; [exact If|]. rewrite Hl, Hh, Hc. split; [exact Sy|]. split; [exact V|].
  replace j with (6 * (j / 6) + j mod 6) at 1 by lia. rewrite Jb by lia. rewrite V. reflexivity.
Qed.
Definition xinv (size : xheader -> Z -> Z) (fs : list xframe) (s : xin) : Prop :=
  Forall (fun x => known fs (i_header x) (i_counter x) (size (i_header x) (i_counter x)) x /\ 0 < i_frags x) (x_pending s) /\
  Forall (fun x => i_frags x = 0 /\ (exists f, In f fs /\ frag_of (f_id f) = false /\ i_header x = head_of (f_id f) /\ i_payload x = map Some (f_data f)) \/ 0 < i_frags x /\ accounted fs x) (x_received s).
Lemma known_mono fs fs' h c z x : incl fs fs' -> known fs h c z x -> known fs' h c z x.
Proof.
  intros Inc (A & B & C & D & E & F). do 5 (split; [assumption|]). intros i T. destruct (F i T) as (f & b & If & S). exists f, b. split; [apply Inc; exact If|exact S].
Qed.
Lemma accounted_mono fs fs' x : incl fs fs' -> accounted fs x -> accounted fs' x.
Proof. intros Inc A j J. destruct (A j J) as (f & b & v & If & S). exists f, b, v. split; [apply Inc; exact If|exact S]. Qed.
Lemma xinv_mono size fs fs' s : incl fs fs' -> xinv size fs s -> xinv size fs' s.
Proof.
  intros Inc [A B]. split.
  - revert A. apply Forall_impl. intros x [K P]. split; [apply (known_mono fs); assumption|exact P].
  - revert B. apply Forall_impl. intros x [[Z (f & If & R)]|[P K]]; [left|right].
    + split; [exact Z|]. exists f. split; [apply Inc; exact If|exact R].
    + split; [exact P|apply (accounted_mono fs); assumption].
Qed.
Lemma retrieve_inv size fs s f : xinv size fs s -> Forall frame_ok (fs ++ [f]) -> agree size (fs ++ [f]) ->
  exists s' r, xp_retrieve s f = Some (s', r) /\ xinv size (fs ++ [f]) s'.
Proof.
  intros I Fs Ag. assert (incl fs (fs ++ [f])) as Inc by (intros y Y; apply in_or_app; left; exact Y). assert (In f (fs ++ [f])) as If by (apply in_or_app; right; left; reflexivity).
  pose proof (proj1 (Forall_app _ _ _) Fs) as [Fs0 Ff]. inversion Ff as [|? ? Fok _]; subst. pose proof (xinv_mono size fs (fs ++ [f]) s Inc I) as I'. rewrite retrieve_ok by exact Fok.
  destruct (frag_of (f_id f)) eqn:G.
  2:{ do 2 eexists. split; [reflexivity|]. destruct I' as [A B]. split; [exact A|]. cbn [x_received]. apply Forall_app. split; [exact B|]. apply Forall_cons; [|apply Forall_nil].
      left. split; [reflexivity|]. exists f. split; [exact If|]. split; [exact G|]. split; reflexivity. }
  destruct (fragment_of f) as [[[[[h c] i] z] b]|] eqn:Sy; [|do 2 eexists; split; [reflexivity|exact I']].
  fold (says f h c i z b) in Sy. pose proof (Ag _ _ _ _ _ _ If Sy) as Ez. destruct (fragment_facts _ _ _ _ _ _ Fok Sy) as (_ & _ & Ir & Iz & Z48 & _).
  unfold place. pose proof (find_ok (x_pending s) h c) as Fo.
  assert (exists a x r, match xp_find (x_pending s) h c with Some q => q | None => ([], mkI h (repeat None (Z.to_nat z)) 0 c, x_pending s) end = (a, x, r) /\
    known fs h c z x /\ Forall (fun x => known fs (i_header x) (i_counter x) (size (i_header x) (i_counter x)) x /\ 0 < i_frags x) (a ++ r)) as (a & x & r & -> & K & Far).
  { destruct I as [A _]. destruct (xp_find (x_pending s) h c) as [[[a x] r]|].
    - destruct Fo as (E & Eh & Ec & _). exists a, x, r. split; [reflexivity|]. rewrite E in A. apply Forall_app in A. destruct A as [A1 A2]. inversion A2 as [|? ? [Kx _] A3]; subst. split; [exact Kx|apply Forall_app; split; assumption].
    - do 3 eexists. split; [reflexivity|]. split; [|exact A]. unfold known. cbn [i_header i_counter i_payload i_frags]. rewrite zlen_repeat. split; [reflexivity|]. split; [reflexivity|]. split; [lia|]. split; [lia|].
      split; [split; [lia|apply Z.pow_pos_nonneg; lia]|]. intros k T. rewrite Z.bits_0 in T. discriminate. }
  destruct (known_write fs (fs ++ [f]) h c z x f i b K Inc If Fok Sy Fs0) as (p & -> & K'). cbn [obind]. cbv zeta.
  set (v := Z.lor (if Z.testbit (i_frags x) i then 0 else i_frags x) (2 ^ i)) in *. pose proof K' as (Eh & Ec & _ & _ & Vr & _). cbn [i_frags i_header i_counter] in Vr, Eh, Ec.
  assert (0 < v) as Vp. { assert (Z.testbit v i = true) as T by (unfold v; rewrite lor_bit by lia; rewrite Z.eqb_refl; apply orb_true_r). destruct (Z.eq_dec v 0) as [E|]; [rewrite E, Z.bits_0 in T; discriminate|lia]. }
  assert (Forall (fun x => known (fs ++ [f]) (i_header x) (i_counter x) (size (i_header x) (i_counter x)) x /\ 0 < i_frags x) (a ++ r)) as Far'.
  { revert Far. apply Forall_impl. intros y [Ky P]. split; [apply (known_mono fs); assumption|exact P]. }
  rewrite (count_full v ((z + 5) / 6)) by (lia || exact Vr). destruct I' as [A B]. destruct (v =? 2 ^ ((z + 5) / 6) - 1) eqn:Full; (do 2 eexists; split; [reflexivity|]); split; cbn [x_pending x_received].
  - exact Far'.
  - apply Forall_app. split; [exact B|]. apply Forall_cons; [|apply Forall_nil]. right. split; [exact Vp|]. apply (known_full _ h c z); [exact Fs|exact K'|]. cbn [i_frags]. lia.
  - apply Forall_app in Far'. apply Forall_app. split; [apply Far'|]. apply Forall_cons; [|apply Far']. cbn [i_header i_counter i_frags]. split; [|exact Vp]. rewrite Eh, Ec in K' |- *. rewrite <- Ez. exact K'.
  - exact B.
Qed.
Lemma receive_inv size gs : forall fs s, xinv size fs s -> Forall frame_ok (fs ++ gs) -> agree size (fs ++ gs) -> exists s', xp_receive s gs = Some s' /\ xinv size (fs ++ gs) s'.
Proof.
  induction gs as [|f gs IH]; intros fs s I Fs Ag; cbn [xp_receive].
  - exists s. rewrite app_nil_r. split; [reflexivity|exact I].
  - assert (fs ++ f :: gs = (fs ++ [f]) ++ gs) as E by (rewrite <- app_assoc; reflexivity). rewrite E in *.
    destruct (retrieve_inv size fs s f I) as (s' & r & -> & I').
    + apply Forall_app in Fs. apply Fs.
    + intros g h c i z b G S. apply (Ag g h c i z b); [apply in_or_app; left; exact G|exact S].
    + cbn [obind]. apply (IH (fs ++ [f]) s' I' Fs Ag).
Qed.

(* ---- any order ---- *)
Lemma nth_error_cut {A} (l : list A) : forall k j, (j < k)%nat -> nth_error (firstn k l) j = nth_error l j.
Proof. induction l as [|x l IH]; intros [|k] [|j] J; cbn [firstn nth_error]; try reflexivity; try lia. apply IH. lia. Qed.
Lemma nth_error_drop {A} (l : list A) : forall k j, nth_error (skipn k l) j = nth_error l (k + j).
Proof. induction l as [|x l IH]; intros [|k] j; cbn [skipn Nat.add nth_error]; try reflexivity; [destruct j; reflexivity|apply IH]. Qed.
Section AnyOrder.
Variables (h : xheader) (c : Z) (p : list Z).
Hypothesis Hh : header_ok h.
Hypothesis Hc : 0 <= c < 256 /\ c mod 16 = 0.
Hypothesis Hp : Forall byte p.
Hypothesis Hl : 0 < zlen p <= 48.
Let id := identifier h true.
Let n := pieces p.
Lemma chunk_len i : (i < n)%nat -> zlen (chunk p i) = Z.min 6 (zlen p - 6 * Z.of_nat i).
Proof. intro I. unfold n, pieces in I. unfold chunk, zlen in *. rewrite firstn_length, skipn_length. lia. Qed.
Lemma chunk_nth i j : 0 <= j < zlen (chunk p i) -> znth (chunk p i) j = znth p (6 * Z.of_nat i + j).
Proof.
  intro J. unfold chunk in *. assert (j < 6) as J6. { unfold zlen in J. rewrite firstn_length in J. lia. }
  unfold znth. assert ((j <? 0) = false) as -> by lia. assert ((6 * Z.of_nat i + j <? 0) = false) as -> by lia.
  rewrite nth_error_cut by lia. rewrite nth_error_drop. f_equal. lia.
Qed.
Lemma frag_ok i : (i < n)%nat -> frame_ok (fragment id c p i) /\ says (fragment id c p i) h c (Z.of_nat i) (zlen p) (chunk p i).
Proof.
  intro I. pose proof (chunk_len i I) as L. pose proof I as I0. unfold n, pieces in I. assert (Z.of_nat i < 8) as I8 by lia. split.
  - unfold frame_ok, fragment. cbn [f_id f_data]. pose proof (identifier_range h true Hh). split; [fold id; unfold id; lia|]. cbn [app]. rewrite !zlen_cons, L. split; [lia|].
    apply Forall_cons; [unfold byte; lia|]. apply Forall_cons; [unfold byte; lia|]. unfold chunk. apply Forall_forall. intros y Y. rewrite Forall_forall in Hp. apply Hp.
    rewrite <- (firstn_skipn (6 * i) p). apply in_or_app. right. rewrite <- (firstn_skipn 6 (skipn (6 * i) p)). apply in_or_app. left. exact Y.
  - unfold says, fragment_of, fragment. cbn [f_id f_data app]. destruct (head_identifier h true Hh) as [E1 E2]. fold id in E1, E2. rewrite E1, E2. cbv zeta. cbn [andb].
    assert ((Z.of_nat i + c) mod 16 = Z.of_nat i) as -> by lia. rewrite L. assert ((zlen p <=? 48) && (6 * Z.of_nat i <? zlen p) && (Z.min 6 (zlen p - 6 * Z.of_nat i) =? Z.min 6 (zlen p - 6 * Z.of_nat i)) = true) as -> by lia.
    f_equal. f_equal. f_equal. f_equal. f_equal. lia.
Qed.
Definition mt (l : list xitem) : list xitem := filter (fun y => header_eqb (i_header y) h && (i_counter y =? c)) l.
Lemma mt_app a b : mt (a ++ b) = mt a ++ mt b. Proof. apply filter_app. Qed.
Lemma mt_no l : Forall (fun y => ~ (i_header y = h /\ i_counter y = c)) l <-> mt l = [].
Proof.
  induction l as [|y l IH]; cbn [mt filter]; [split; [reflexivity|intros; apply Forall_nil]|]. fold (mt l).
  destruct (header_eqb (i_header y) h && (i_counter y =? c)) eqn:E.
  - split; [|discriminate]. intro F. inversion F as [|? ? N _]; subst. exfalso. apply N. apply andb_prop in E. destruct E as [E1 E2]. apply header_eqb_ok in E1. split; [exact E1|lia].
  - split; intro F; [inversion F; subst; apply IH; assumption|]. apply Forall_cons; [|apply IH; exact F]. intros [E1 E2]. rewrite (proj2 (header_eqb_ok _ _) E1), E2, Z.eqb_refl in E. discriminate.
Qed.
Definition good (x : xitem) (l : list nat) : Prop :=
  i_header x = h /\ i_counter x = c /\ zlen (i_payload x) = zlen p /\ 0 <= i_frags x < 2 ^ Z.of_nat n /\
  (forall i : nat, Z.testbit (i_frags x) (Z.of_nat i) = true <-> In i l) /\
  forall i, In i l -> (i < n)%nat -> forall j, 0 <= j < zlen (chunk p i) -> znth (i_payload x) (6 * Z.of_nat i + j) = option_map Some (znth p (6 * Z.of_nat i + j)).
Definition have (s : xin) (l : list nat) : Prop :=
  match l with [] => mt (x_pending s) = [] | _ => exists x, mt (x_pending s) = [x] /\ good x l end.
Lemma have_slot s l : have s l -> exists a x r,
  match xp_find (x_pending s) h c with Some q => q | None => ([], mkI h (repeat None (Z.to_nat (zlen p))) 0 c, x_pending s) end = (a, x, r) /\ good x l /\ mt a = [] /\ mt r = [].
Proof.
  intro H. pose proof (find_ok (x_pending s) h c) as Fo. destruct (xp_find (x_pending s) h c) as [[[a x] r]|].
  - destruct Fo as (E & Eh & Ec & Na). exists a, x, r. split; [reflexivity|]. apply mt_no in Na. destruct l as [|i l].
    + unfold have in H. rewrite E, mt_app, Na in H. cbn [app mt filter] in H. rewrite (proj2 (header_eqb_ok _ _) Eh), Ec, Z.eqb_refl in H. discriminate.
    + destruct H as (y & Ey & G). rewrite E, mt_app, Na in Ey. cbn [app mt filter] in Ey. fold (mt r) in Ey. rewrite (proj2 (header_eqb_ok _ _) Eh), Ec, Z.eqb_refl in Ey. cbn [andb] in Ey. injection Ey as <- Er.
      split; [exact G|]. split; assumption.
  - apply mt_no in Fo. destruct l as [|i l].
    + do 3 eexists. split; [reflexivity|]. split; [|split; [reflexivity|exact Fo]]. unfold good. cbn [i_header i_counter i_payload i_frags]. rewrite zlen_repeat. split; [reflexivity|]. split; [reflexivity|]. split; [lia|].
      split; [split; [lia|apply Z.pow_pos_nonneg; lia]|]. split; [intro k; rewrite Z.bits_0; split; [discriminate|intros []]|intros k []].
    + destruct H as (y & Ey & _). rewrite Fo in Ey. discriminate.
Qed.
Lemma n_eq : Z.of_nat n = (zlen p + 5) / 6. Proof. unfold n, pieces. lia. Qed.
Definition delivered_item : xitem := mkI h (map Some p) (2 ^ Z.of_nat n - 1) c.
Lemma step_mine s l i : have s l -> ~ In i l -> (i < n)%nat -> exists s',
  xp_retrieve s (fragment id c p i) = Some (s', true) /\
  ((forall k, (k < n)%nat -> In k (i :: l)) -> have s' [] /\ x_received s' = x_received s ++ [delivered_item]) /\
  (~ (forall k, (k < n)%nat -> In k (i :: l)) -> have s' (i :: l) /\ x_received s' = x_received s).
Proof.
  intros H Ni I. destruct (frag_ok i I) as [Fok Sy]. rewrite retrieve_ok by exact Fok. destruct (fragment_facts _ _ _ _ _ _ Fok Sy) as (G & _ & Ir & Iz & _ & Lb & _). rewrite G. unfold says in Sy. rewrite Sy.
  unfold place. destruct (have_slot s l H) as (a & x & r & -> & (Eh & Ec & Ep & Vr & Bits & Bytes) & Na & Nr).
  destruct (zwrite (i_payload x) (6 * Z.of_nat i) (map Some (chunk p i))) as [q|] eqn:W. 2:{ rewrite zwrite_ok in W by (rewrite ?zlen_map; lia). discriminate. }
  pose proof (zwrite_znth _ _ _ _ W ltac:(lia)) as Z1. pose proof (zwrite_len _ _ _ _ W) as Lq. rewrite zlen_map in Z1. cbn [obind]. cbv zeta.
  assert (Z.testbit (i_frags x) (Z.of_nat i) = false) as Bi. { destruct (Z.testbit (i_frags x) (Z.of_nat i)) eqn:B; [|reflexivity]. apply Bits in B. contradiction. }
  rewrite Bi. set (v := Z.lor (i_frags x) (2 ^ Z.of_nat i)).
  assert (0 <= v < 2 ^ Z.of_nat n) as Vv. { unfold v. apply lor_lt; [lia|exact Vr|]. split; [apply Z.pow_nonneg; lia|apply Z.pow_lt_mono_r; lia]. }
  assert (good (mkI (i_header x) q v (i_counter x)) (i :: l)) as Gd.
  { unfold good. cbn [i_header i_counter i_payload i_frags]. split; [exact Eh|]. split; [exact Ec|]. split; [lia|]. split; [exact Vv|]. split.
    - intro k. unfold v. rewrite lor_bit by lia. cbn [In]. rewrite <- Bits. destruct (Z.of_nat k =? Z.of_nat i) eqn:E; [rewrite orb_true_r; split; [intros _; left; lia|reflexivity]|]. rewrite orb_false_r. split; [intro; right; assumption|intros [->|K]; [lia|exact K]].
    - intros k Ik Kn j J. rewrite Z1. pose proof (chunk_len k Kn) as Lk. destruct (Nat.eq_dec k i) as [->|Nk].
      + assert ((6 * Z.of_nat i <=? 6 * Z.of_nat i + j) && (6 * Z.of_nat i + j <? 6 * Z.of_nat i + zlen (chunk p i)) = true) as -> by lia. rewrite znth_map. f_equal. replace (6 * Z.of_nat i + j - 6 * Z.of_nat i) with j by lia. apply chunk_nth. exact J.
      + destruct Ik as [K|Ik]; [congruence|]. assert ((6 * Z.of_nat i <=? 6 * Z.of_nat k + j) && (6 * Z.of_nat k + j <? 6 * Z.of_nat i + zlen (chunk p i)) = false) as -> by lia. apply Bytes; assumption. }
  rewrite <- n_eq. pose proof n_eq as Nq. rewrite (count_full v (Z.of_nat n)) by (lia || exact Vv).
  assert (v = 2 ^ Z.of_nat n - 1 <-> forall k, (k < n)%nat -> In k (i :: l)) as Full.
  { rewrite full_bits by (lia || exact Vv). destruct Gd as (_ & _ & _ & _ & Bk & _). cbn [i_frags] in Bk. split.
    - intros F k K. apply Bk. apply F. lia.
    - intros F k K. replace k with (Z.of_nat (Z.to_nat k)) by lia. apply Bk. apply F. lia. }
  destruct (v =? 2 ^ Z.of_nat n - 1) eqn:E.
  - eexists. split; [reflexivity|]. split; [|intro K; exfalso; apply K; apply Full; lia]. intros F. split; [unfold have; cbn [x_pending]; rewrite mt_app, Na, Nr; reflexivity|].
    cbn [x_received]. f_equal. f_equal. unfold delivered_item. rewrite Eh, Ec. assert (v = 2 ^ Z.of_nat n - 1) as -> by lia. f_equal.
    apply znth_ext. intros j J. rewrite znth_map. destruct (Z_lt_le_dec j (zlen p)) as [Jl|Jl].
    + destruct Gd as (_ & _ & _ & _ & _ & By). cbn [i_payload] in By. assert ((Z.to_nat (j / 6) < n)%nat) as Kn by (unfold n, pieces; lia).
      specialize (By (Z.to_nat (j / 6)) (F _ Kn) Kn (j mod 6)). rewrite chunk_len in By by exact Kn. replace (6 * Z.of_nat (Z.to_nat (j / 6)) + j mod 6) with j in By by lia. apply By. lia.
    + rewrite (proj2 (znth_None q j)) by lia. rewrite (proj2 (znth_None p j)) by lia. reflexivity.
  - eexists. split; [reflexivity|]. split; [intro F; apply Full in F; lia|]. intros _. split; [|reflexivity]. unfold have. cbn [x_pending].
    eexists. split; [|exact Gd]. rewrite mt_app, Na. cbn [app mt filter i_header i_counter]. fold (mt r). rewrite Nr, (proj2 (header_eqb_ok _ _) Eh), Ec, Z.eqb_refl. reflexivity.
Qed.
Lemma step_other s f s' b l : frame_ok f -> of_key h c f = false -> xp_retrieve s f = Some (s', b) -> have s l ->
  have s' l /\ filter (from_key h c) (x_received s') = filter (from_key h c) (x_received s).
Proof.
  intros Fok K E H. rewrite retrieve_ok in E by exact Fok. unfold of_key in K. destruct (frag_of (f_id f)).
  2:{ injection E as <- _. split; [exact H|]. cbn [x_received]. rewrite filter_app. cbn [filter from_key i_frags]. unfold from_key at 2. cbn [i_frags]. rewrite Z.eqb_refl. cbn [negb]. rewrite !andb_false_r. apply app_nil_r. }
  destruct (fragment_of f) as [[[[[h' c'] i] z] bb]|]; [|injection E as <- _; split; [exact H|reflexivity]].
  unfold place in E. pose proof (find_ok (x_pending s) h' c') as Fo.
  assert (exists a x r, match xp_find (x_pending s) h' c' with Some q => q | None => ([], mkI h' (repeat None (Z.to_nat z)) 0 c', x_pending s) end = (a, x, r) /\
    i_header x = h' /\ i_counter x = c' /\ mt (x_pending s) = mt a ++ mt r) as (a & x & r & Ef & Eh & Ec & Em).
  { destruct (xp_find (x_pending s) h' c') as [[[a x] r]|].
    - destruct Fo as (-> & Eh & Ec & _). exists a, x, r. split; [reflexivity|]. split; [exact Eh|]. split; [exact Ec|]. rewrite mt_app. f_equal. cbn [mt filter]. fold (mt r).
      destruct (header_eqb (i_header x) h && (i_counter x =? c)) eqn:Q; [|reflexivity]. apply andb_prop in Q. destruct Q as [Q1 Q2]. apply header_eqb_ok in Q1. rewrite Q1 in Eh. rewrite Eh, Z.eqb_refl in K. cbn [andb] in K. lia.
    - do 3 eexists. split; [reflexivity|]. split; [reflexivity|]. split; reflexivity. }
  rewrite Ef in E. destruct (zwrite (i_payload x) (6 * i) (map Some bb)) as [q|]; [|discriminate]. cbn [obind] in E. cbv zeta in E.
  set (v := Z.lor (if Z.testbit (i_frags x) i then 0 else i_frags x) (2 ^ i)) in E.
  destruct (bitCount8 v =? (z + 5) / 6); injection E as <- _; cbn [x_received].
  - split; [unfold have in *; cbn [x_pending]; rewrite mt_app, <- Em; exact H|]. rewrite filter_app. cbn [filter]. unfold from_key at 2. cbn [i_header i_counter]. rewrite Eh, Ec, K. apply app_nil_r.
  - split; [|reflexivity]. assert (mt (a ++ mkI (i_header x) q v (i_counter x) :: r) = mt (x_pending s)) as Em'.
    { rewrite Em, mt_app. f_equal. cbn [mt filter i_header i_counter]. fold (mt r). destruct (header_eqb (i_header x) h && (i_counter x =? c)) eqn:Q; [|reflexivity].
      apply andb_prop in Q. destruct Q as [Q1 Q2]. apply header_eqb_ok in Q1. rewrite Q1 in Eh. rewrite Eh, Z.eqb_refl in K. cbn [andb] in K. lia. }
    unfold have in *. cbn [x_pending]. rewrite Em'. exact H.
Qed.
Lemma run_other fs : forall s s' l, Forall frame_ok fs -> filter (of_key h c) fs = [] -> xp_receive s fs = Some s' -> have s l ->
  have s' l /\ filter (from_key h c) (x_received s') = filter (from_key h c) (x_received s).
Proof.
  induction fs as [|f fs IH]; intros s s' l Fok K E H; cbn [xp_receive] in E; [injection E as <-; split; [exact H|reflexivity]|].
  inversion Fok as [|? ? F1 F2]; subst. cbn [filter] in K. destruct (of_key h c f) eqn:Kf; [discriminate|]. destruct (xp_retrieve s f) as [[s1 b]|] eqn:R; [|discriminate]. cbn [obind] in E.
  destruct (step_other s f s1 b l F1 Kf R H) as [H1 E1]. destruct (IH s1 s' l F2 K E H1) as [H2 E2]. split; [exact H2|congruence].
Qed.
Lemma delivered_key : from_key h c delivered_item = true.
Proof.
  unfold from_key, delivered_item. cbn [i_header i_counter i_frags]. rewrite !Z.eqb_refl. cbn [andb]. assert (2 <= 2 ^ Z.of_nat n); [|lia]. change 2 with (2 ^ 1) at 1. apply Z.pow_le_mono_r; [lia|]. rewrite n_eq. lia.
Qed.
Lemma run_any fs : forall s s' l js, Forall frame_ok fs -> xp_receive s fs = Some s' -> have s l -> js <> [] -> Permutation (filter (of_key h c) fs) (map (fragment id c p) js) ->
  (forall k, (k < n)%nat <-> In k (js ++ l)) -> NoDup (js ++ l) ->
  have s' [] /\ filter (from_key h c) (x_received s') = filter (from_key h c) (x_received s) ++ [delivered_item].
Proof.
  induction fs as [|f fs IH]; intros s s' l js Fok E H Nj Pm Cov Nd; cbn [xp_receive filter] in *.
  { apply Permutation_nil in Pm. destruct js; [congruence|discriminate]. }
  inversion Fok as [|? ? F1 F2]; subst. destruct (xp_retrieve s f) as [[s1 b]|] eqn:R; [|discriminate]. cbn [obind] in E. destruct (of_key h c f) eqn:Kf.
  2:{ destruct (step_other s f s1 b l F1 Kf R H) as [H1 E1]. rewrite <- E1. apply (IH s1 s' l js); assumption. }
  assert (In f (map (fragment id c p) js)) as If by (apply (Permutation_in f Pm); left; reflexivity). apply in_map_iff in If. destruct If as (i & <- & Ii).
  apply in_split in Ii. destruct Ii as (j1 & j2 & ->).
  assert (Permutation (filter (of_key h c) fs) (map (fragment id c p) (j1 ++ j2))) as Pm'.
  { apply (Permutation_cons_inv (a := fragment id c p i)). eapply Permutation_trans; [exact Pm|]. rewrite !map_app. cbn [map]. symmetry. apply Permutation_middle. }
  assert (Permutation ((j1 ++ i :: j2) ++ l) ((j1 ++ j2) ++ i :: l)) as Pq.
  { rewrite <- !app_assoc. apply Permutation_app_head. cbn [app]. apply Permutation_middle. }
  assert (NoDup ((j1 ++ j2) ++ i :: l)) as Nd' by (apply (Permutation_NoDup Pq); exact Nd).
  assert (~ In i l) as Ni. { apply NoDup_remove_2 in Nd'. intro K. apply Nd'. apply in_or_app. right. exact K. }
  assert ((i < n)%nat) as In_. { apply Cov. apply in_or_app. left. apply in_or_app. right. left. reflexivity. }
  destruct (step_mine s l i H Ni In_) as (s2 & R2 & Done & More). rewrite R in R2. injection R2 as -> ->.
  assert (forall k, (k < n)%nat <-> In k ((j1 ++ j2) ++ i :: l)) as Cov'. { intro k. rewrite Cov. split; apply Permutation_in; [exact Pq|apply Permutation_sym; exact Pq]. }
  destruct (j1 ++ j2) as [|q js'] eqn:Js.
  - destruct Done as [Hd Ed]. { intros k Kn. apply Cov' in Kn. exact Kn. }
    cbn [map] in Pm'. apply Permutation_sym, Permutation_nil in Pm'. destruct (run_other fs s2 s' [] F2 Pm' E Hd) as [H3 E3]. split; [exact H3|]. rewrite E3, Ed, filter_app. cbn [filter]. rewrite delivered_key. reflexivity.
  - destruct More as [Hm Em]. { intro F. specialize (F q). assert (In q (i :: l)) as Iq. { apply F. apply Cov'. left. reflexivity. } cbn [app] in Nd'. inversion Nd' as [|? ? N1 _]; subst. apply N1. apply in_or_app. right. exact Iq. }
    rewrite <- Em. apply (IH s2 s' (i :: l) (q :: js')); [exact F2|exact E|exact Hm|discriminate|exact Pm'|exact Cov'|exact Nd'].
Qed.
End AnyOrder.

(* ---- sending ---- *)
Lemma skipn_cons_nth {A} (l : list A) : forall i x, nth_error l i = Some x -> skipn i l = x :: skipn (S i) l.
Proof. induction l as [|y l IH]; intros [|i] x H; cbn in *; try discriminate; [injection H as <-; reflexivity|apply IH; exact H]. Qed.
Lemma zsub_chunk p i : 6 * Z.of_nat i < zlen p -> zsub p (6 * Z.of_nat i) (Z.min 6 (zlen p - 6 * Z.of_nat i)) = Some (chunk p i).
Proof.
  intro L. unfold chunk. rewrite <- (firstn_skipn (6 * i) p) at 1. rewrite <- (firstn_skipn 6 (skipn (6 * i) p)) at 1.
  apply zsub_app; unfold zlen in *; rewrite firstn_length; [lia|rewrite skipn_length; lia].
Qed.
Lemma send_step c m r : sending m -> Forall sending r -> counter_ok c -> exists f c' q', xp_sendWaiting true true (mkXO (m :: r) c) = Some (mkXO q' c', [f]) /\
  queue_frames c (m :: r) = f :: queue_frames c' q' /\ counter_ok c' /\ Forall sending q'.
Proof.
  intros (L & Ix) Sr (C1 & C2). pose proof (zlen_nonneg (s_payload m)). unfold xp_sendWaiting. cbn [x_list x_counter negb queue_frames]. assert (u8 (zlen (s_payload m)) = zlen (s_payload m)) as Eu by (unfold u8; apply Z.mod_small; lia). rewrite !Eu.
  destruct (zlen (s_payload m) <=? 8) eqn:E8.
  - assert ((8 <? zlen (s_payload m)) = false) as -> by lia. rewrite zsub_all. cbn [obind]. do 3 eexists. split; [reflexivity|]. split; [reflexivity|]. split; [split; assumption|exact Sr].
  - assert ((8 <? zlen (s_payload m)) = true) as -> by lia. set (p := s_payload m) in *. set (i := Z.to_nat (s_index m)). assert (s_index m = Z.of_nat i) as Ei by (unfold i; lia). rewrite Ei in *. unfold pieces in Ix.
    assert (Z.of_nat i < 16) as I16 by lia. unfold u8. rewrite !(Z.mod_small (Z.of_nat i * 6)) by lia. rewrite !(Z.mod_small (zlen p - Z.of_nat i * 6)) by lia.
    assert ((if 6 <? zlen p - Z.of_nat i * 6 then 6 else zlen p - Z.of_nat i * 6) = Z.min 6 (zlen p - 6 * Z.of_nat i)) as -> by (destruct (6 <? zlen p - Z.of_nat i * 6) eqn:E6; lia).
    rewrite (Z.mul_comm (Z.of_nat i) 6). rewrite zsub_chunk by lia. cbn [obind].
    assert (Z.lor (Z.of_nat i) (Z.land c 240) = Z.of_nat i + c) as ->.
    { destruct (nibbles c C1) as (_ & ->). rewrite C2, Z.sub_0_r. replace c with (c / 16 * 2 ^ 4) at 1 by lia. rewrite Z.lor_comm, lor_mul by lia. lia. }
    assert (nth_error (fragments (s_id m) c p) i = Some (fragment (s_id m) c p i)) as Nth. { unfold fragments. apply map_nth_error. rewrite nth_error_nth' with (d := 0%nat) by (rewrite seq_length; unfold pieces; lia). rewrite seq_nth by (unfold pieces; lia). reflexivity. }
    rewrite (skipn_cons_nth _ _ _ Nth). destruct (6 <? zlen p - 6 * Z.of_nat i) eqn:E6; cbn [negb].
    + do 3 eexists. split; [reflexivity|]. split.
      * cbn [queue_frames s_payload s_id s_index]. fold p. rewrite E8. rewrite (Z.mod_small (Z.of_nat i + 1)) by lia. replace (Z.to_nat (Z.of_nat i + 1)) with (S i) by lia. reflexivity.
      * split; [split; assumption|]. apply Forall_cons; [|exact Sr]. unfold sending. cbn [s_payload s_index]. fold p. split; [exact L|]. rewrite E8. rewrite Z.mod_small by lia. unfold pieces. lia.
    + do 3 eexists. split; [reflexivity|]. split.
      * rewrite skipn_all2; [reflexivity|]. unfold fragments. rewrite map_length, seq_length. unfold pieces. lia.
      * split; [unfold counter_ok; lia|exact Sr].
Qed.
Definition oks (answers : list (bool * bool)) : Z := zlen (filter (fun a : bool * bool => snd a) answers).
Lemma send_run answers : forall s, Forall sending (x_list s) -> counter_ok (x_counter s) -> Forall (fun a => fst a = true) answers ->
  exists s' sent, xp_send_run s answers = Some (s', sent) /\ queue_frames (x_counter s) (x_list s) = sent ++ queue_frames (x_counter s') (x_list s') /\
    zlen sent = Z.min (oks answers) (zlen (queue_frames (x_counter s) (x_list s))) /\ counter_ok (x_counter s') /\ Forall sending (x_list s').
Proof.
  induction answers as [|[co ok] an IH]; intros s Sq C Con; cbn [xp_send_run].
  - exists s, []. split; [reflexivity|]. split; [reflexivity|]. unfold oks. cbn [filter]. rewrite !zlen_nil. pose proof (zlen_nonneg (queue_frames (x_counter s) (x_list s))). split; [lia|]. split; assumption.
  - inversion Con as [|? ? Cn Con']; subst. cbn [fst] in Cn. subst co. destruct s as [q c]. cbn [x_list x_counter] in *. destruct q as [|m r].
    + cbn [xp_sendWaiting x_list obind]. destruct (IH (mkXO [] c) Sq C Con') as (s' & sent & -> & E & Lz & R). cbn [obind app]. exists s', sent. split; [reflexivity|]. split; [exact E|]. split; [|exact R].
      cbn [x_list x_counter queue_frames] in *. rewrite zlen_nil in *. unfold oks in *. cbn [filter snd]. destruct ok; [rewrite zlen_cons|]; pose proof (zlen_nonneg (filter (fun a : bool * bool => snd a) an)); lia.
    + inversion Sq as [|? ? S1 S2]; subst. destruct ok.
      * destruct (send_step c m r S1 S2 C) as (f & c' & q' & -> & E & C' & Sq'). cbn [obind]. destruct (IH (mkXO q' c') Sq' C' Con') as (s' & sent & -> & E' & Lz & R). cbn [obind]. cbn [x_list x_counter] in E', Lz.
        exists s', ([f] ++ sent). split; [reflexivity|]. split; [rewrite E, E'; reflexivity|]. split; [|exact R]. unfold oks in *. cbn [filter snd]. rewrite E, zlen_app, !zlen_cons, zlen_nil. lia.
      * assert (exists m', xp_sendWaiting true false (mkXO (m :: r) c) = Some (mkXO (m :: r) c, m') /\ m' = []) as (m' & -> & ->).
        { destruct (send_step c m r S1 S2 C) as (f & c' & q' & E & _). revert E. unfold xp_sendWaiting. cbn [x_list x_counter negb]. destruct (8 <? u8 (zlen (s_payload m))).
          - destruct (zsub (s_payload m) _ _); cbn [obind]; [|discriminate]. intros _. eexists. split; reflexivity.
          - destruct (zsub (s_payload m) _ _); cbn [obind]; [|discriminate]. intros _. eexists. split; reflexivity. }
        cbn [obind]. destruct (IH (mkXO (m :: r) c) Sq C Con') as (s' & sent & -> & E' & Lz & R). cbn [obind app]. exists s', sent. split; [reflexivity|]. split; [exact E'|]. split; [|exact R]. unfold oks in *. cbn [filter snd]. exact Lz.
Qed.
