(** C70: the bit-packed buffers of the LED drivers TLC594x. *)
From Coq Require Import ZArith List Bool Lia.
From Verif Require Import Base TlcModel TlcSpec TlcProofs.
Import ListNotations.
Open Scope Z_scope.

(** Setting a channel: exactly the twelve bits of that channel in the stream sent to the
    chips change, to the value modulo 4096; nothing is accessed outside the buffer. *)
Theorem C70_set_channel (C c v : Z) (gs : list Z) :
  C mod 4 = 0 -> C <= 43688 -> 0 <= c < C -> 0 <= v < 65536 -> zlen gs = C * 3 / 2 -> bytes gs ->
  exists gs', setChannel C c v gs = Some gs' /\ zlen gs' = zlen gs /\ bytes gs' /\
    forall d, 0 <= d < C -> field 12 d (be gs') = if d =? c then v mod 4096 else field 12 d (be gs).
Proof.
  intros M B R V L HB. destruct (set_channel C c v gs ltac:(lia) ltac:(lia) R V L HB) as [gs' [E [L' [B' [_ F]]]]].
  exists gs'. repeat split; try assumption. intros d D. apply F. lia.
Qed.
Example C70_set_channel_ex : let gs := repeat 0xA5 24 in
  setChannel 16 3 0xF123 gs = Some (repeat 0xA5 18 ++ [0x12; 0x35; 0xA5; 0xA5; 0xA5; 0xA5]) /\ field 12 3 (be gs) = 0xA5A /\
  field 12 3 (be (repeat 0xA5 18 ++ [0x12; 0x35; 0xA5; 0xA5; 0xA5; 0xA5])) = 0x123 /\ zlen gs = 16 * 3 / 2.
Proof. cbn zeta. split; [vm_compute; reflexivity|]. split; [vm_compute; reflexivity|]. split; vm_compute; reflexivity. Qed.

(** Reading a channel returns those twelve bits. *)
Theorem C70_get_channel (C c : Z) (gs : list Z) :
  C mod 4 = 0 -> C <= 43688 -> 0 <= c < C -> zlen gs = C * 3 / 2 -> bytes gs ->
  getChannel C c gs = Some (field 12 c (be gs)).
Proof.
  intros M B R L HB. destruct (set_channel C c 0 gs ltac:(lia) ltac:(lia) R ltac:(lia) L HB) as [gs' [_ [_ [_ [G _]]]]]. exact G.
Qed.
Example C70_get_channel_ex : let gs := repeat 0 21 ++ [0xAB; 0xCD; 0xEF] in getChannel 16 1 gs = Some 0xABC /\ getChannel 16 0 gs = Some 0xDEF /\ be gs = 0xABCDEF.
Proof. cbn zeta. split; [vm_compute; reflexivity|]. split; vm_compute; reflexivity. Qed.

(** Setting all channels. *)
Theorem C70_set_all (C v : Z) (gs : list Z) :
  C mod 4 = 0 -> 0 <= C -> 0 <= v < 65536 -> zlen gs = C * 3 / 2 ->
  exists gs', setAllChannels C v gs = Some gs' /\ zlen gs' = zlen gs /\ bytes gs' /\ forall d, 0 <= d < C -> field 12 d (be gs') = v mod 4096.
Proof. intros M P V L. apply set_all; [lia|assumption..]. Qed.
Example C70_set_all_ex : setAllChannels 16 0x5ABC (repeat 7 24) = Some (concat (repeat [0xAB; 0xCA; 0xBC] 8)) /\
  field 12 15 (be (concat (repeat [0xAB; 0xCA; 0xBC] 8))) = 0xABC.
Proof. split; vm_compute; reflexivity. Qed.

(** The dot correction, six bits per channel, for values up to 63. *)
Theorem C70_set_dot (C c v : Z) (dc : list Z) :
  C mod 4 = 0 -> C < 65536 -> 0 <= c < C -> 0 <= v < 64 -> zlen dc = C * 3 / 4 -> bytes dc ->
  exists dc', setDotCorrection C c v dc = Some dc' /\ zlen dc' = zlen dc /\ bytes dc' /\
    forall d, 0 <= d < C -> field 6 d (be dc') = if d =? c then v else field 6 d (be dc).
Proof.
  intros M B R V L HB. destruct (set_dot C c v dc M B R V L HB) as [dc' [E [L' [B' [_ F]]]]].
  exists dc'. repeat split; try assumption. intros d D. apply F. lia.
Qed.
Example C70_set_dot_ex : let dc := repeat 0xFF 12 in
  setDotCorrection 16 2 0x15 dc = Some (repeat 0xFF 9 ++ [0xFD; 0x5F; 0xFF]) /\ zlen dc = 16 * 3 / 4 /\
  field 6 2 (be (repeat 0xFF 9 ++ [0xFD; 0x5F; 0xFF])) = 0x15 /\ field 6 3 (be (repeat 0xFF 9 ++ [0xFD; 0x5F; 0xFF])) = 0x3f.
Proof. cbn zeta. split; [vm_compute; reflexivity|]. split; [vm_compute; reflexivity|]. split; vm_compute; reflexivity. Qed.
Theorem C70_get_dot (C c : Z) (dc : list Z) :
  C mod 4 = 0 -> C < 65536 -> 0 <= c < C -> zlen dc = C * 3 / 4 -> bytes dc ->
  getDotCorrection C c dc = Some (field 6 c (be dc)).
Proof.
  intros M B R L HB. destruct (set_dot C c 0 dc M B R ltac:(lia) L HB) as [dc' [_ [_ [_ [G _]]]]]. exact G.
Qed.
Example C70_get_dot_ex : let dc := repeat 0 9 ++ [0x12; 0x34; 0x56] in
  map (fun c => getDotCorrection 16 c dc) [0; 1; 2; 3] = [Some 0x16; Some 0x11; Some 0x23; Some 0x04] /\ be dc = 0x123456.
Proof. cbn zeta. split; vm_compute; reflexivity. Qed.
Theorem C70_set_all_dot (C v : Z) (dc : list Z) :
  C mod 4 = 0 -> 0 <= C -> 0 <= v < 64 -> zlen dc = C * 3 / 4 ->
  exists dc', setAllDotCorrection C v dc = Some dc' /\ zlen dc' = zlen dc /\ bytes dc' /\ forall d, 0 <= d < C -> field 6 d (be dc') = v.
Proof. apply set_all_dot. Qed.
Example C70_set_all_dot_ex : setAllDotCorrection 16 0x2B (repeat 7 12) = Some (concat (repeat [0xAE; 0xBA; 0xEB] 4)) /\
  field 6 13 (be (concat (repeat [0xAE; 0xBA; 0xEB] 4))) = 0x2B.
Proof. split; vm_compute; reflexivity. Qed.

(** Channels outside the range are ignored and read as zero. *)
Theorem C70_outside (C c v : Z) (l : list Z) : C <= c ->
  setChannel C c v l = Some l /\ getChannel C c l = Some 0 /\ setDotCorrection C c v l = Some l /\ getDotCorrection C c l = Some 0.
Proof.
  intro H. unfold setChannel, getChannel, setDotCorrection, getDotCorrection. destruct (C - 1 <? c) eqn:Q; [|lia]. repeat split; reflexivity.
Qed.
Example C70_outside_ex : setChannel 16 16 0xfff (repeat 1 24) = Some (repeat 1 24) /\ setChannel 16 15 0xfff (repeat 1 24) <> Some (repeat 1 24).
Proof. split; vm_compute; [reflexivity|discriminate]. Qed.

(** A dot-correction value above 63 is not cut to six bits: it overwrites other channels.
    The grayscale setter does cut its value. *)
Theorem C70_dot_overflow_refuted : exists dc dc', zlen dc = 16 * 3 / 4 /\ bytes dc /\ setDotCorrection 16 0 64 dc = Some dc' /\
  field 6 0 (be dc') = 0 /\ field 6 1 (be dc) = 0 /\ field 6 1 (be dc') = 1.
Proof.
  exists (repeat 0 12), (repeat 0 11 ++ [64]). split; [reflexivity|]. split; [repeat constructor; lia|]. split; [vm_compute; reflexivity|].
  split; [vm_compute; reflexivity|]. split; vm_compute; reflexivity.
Qed.
Theorem C70_all_dot_overflow_refuted : exists dc', setAllDotCorrection 16 64 (repeat 0 12) = Some dc' /\ field 6 0 (be dc') = 0 /\ field 6 1 (be dc') = 1 /\ field 6 2 (be dc') = 1.
Proof. exists (concat (repeat [4; 16; 64] 4)). split; [vm_compute; reflexivity|]. split; [vm_compute; reflexivity|]. split; vm_compute; reflexivity. Qed.

(** With more than 43688 channels the 16-bit index wraps: the first channel is written
    over the last. *)
Theorem C70_many_channels_undefined (x y : Z) (gs : list Z) : setChannel 43692 0 0x123 (x :: y :: gs) = Some (Z.lor 1 (Z.land x 0xf0) :: 0x23 :: gs).
Proof. reflexivity. Qed.
Example C70_many_channels_ex : exists gs', setChannel 43692 0 0x123 [0xff; 0xff; 0xff] = Some gs' /\ getChannel 43692 43691 [0xff; 0xff; 0xff] = Some 0xfff /\ getChannel 43692 43691 gs' = Some 0xf12.
Proof. exists [0xf1; 0x23; 0xff]. split; [vm_compute; reflexivity|]. split; vm_compute; reflexivity. Qed.

Print Assumptions C70_set_channel.
Print Assumptions C70_get_channel.
Print Assumptions C70_set_all.
Print Assumptions C70_set_dot.
Print Assumptions C70_get_dot.
Print Assumptions C70_set_all_dot.
Print Assumptions C70_outside.
Print Assumptions C70_dot_overflow_refuted.
Print Assumptions C70_all_dot_overflow_refuted.
Print Assumptions C70_many_channels_undefined.
