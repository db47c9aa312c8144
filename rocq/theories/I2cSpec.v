(** Independent side of C72 and C73: the two open-drain lines with a slave, and the
    exchange a write/read transaction must produce. *)
From Coq Require Import ZArith List Bool Arith.
From Verif Require Import Base SliceLemmas I2cModel.
Import ListNotations.
Open Scope Z_scope.

(** What happens on the bus, seen by the slave: start, stop, an address byte and whether
    it was acknowledged, a byte written and whether the slave acknowledged it, a byte read
    and whether the master acknowledged it. *)
Inductive event := EStart | EStop | EAddr (byte : Z) (ack : bool) | EWr (byte : Z) (ack : bool) | ERd (byte : Z) (ack : bool).

Inductive phase :=
| Idle
| Recv (addr : bool) (bits : list bool)
| Ack (addr : bool) (byte : Z) (ok : bool)
| Send (byte : Z) (bits : list bool)
| Answer (byte : Z) (d : option bool)
| Deaf.
(** The master releases the lines ([mscl], [msda]); the slave releases SDA ([ssda]) and
    holds SCL low for [hold] more quarter periods; [acks]: its answers to the bytes it
    receives, [strs]: how long it stretches the clock after each falling edge, [outq]: the
    bytes it has to send. *)
Record bus := Bus { mscl : bool; msda : bool; ssda : bool; hold : nat; ph : phase; acks : list bool; strs : list nat; outq : list Z; log : list event }.

Definition bits_of (y : Z) : list bool := map (Z.testbit y) [7; 6; 5; 4; 3; 2; 1; 0].
Definition val (l : list bool) : Z := fold_left (fun a b => 2 * a + Z.b2z b) l 0.

Section Slave.
(** The 7-bit address of the slave. *)
Variable own : Z.
Definition sclLine (b : bus) : bool := mscl b && (hold b =? 0)%nat.
Definition sdaLine (b : bus) : bool := msda b && ssda b.
Definition with_ph (p : phase) (released : bool) (b : bus) : bus := Bus (mscl b) (msda b) released (hold b) p (acks b) (strs b) (outq b) (log b).
Definition say (e : event) (b : bus) : bus := Bus (mscl b) (msda b) (ssda b) (hold b) (ph b) (acks b) (strs b) (outq b) (log b ++ [e]).
(** The next byte to send (0xff if there is none), its first bit goes to the line. *)
Definition load (b : bus) : bus :=
  let y := hd 0xff (outq b) in
  Bus (mscl b) (msda b) (Z.testbit y 7) (hold b) (Send y (bits_of y)) (acks b) (strs b) (tl (outq b)) (log b).
(** SCL rises: bits are sampled. *)
Definition rise (b : bus) : bus :=
  match ph b with
  | Recv a l => with_ph (Recv a (l ++ [sdaLine b])) (ssda b) b
  | Answer y None => with_ph (Answer y (Some (sdaLine b))) (ssda b) b
  | _ => b
  end.
(** SCL falls: the slave changes its output and may stretch the clock. *)
Definition stretch (b : bus) : bus := Bus (mscl b) (msda b) (ssda b) (hd O (strs b)) (ph b) (acks b) (tl (strs b)) (outq b) (log b).
Definition answer (a : bool) (y : Z) (b : bus) : bus :=
  if a && negb (y / 2 =? own) then with_ph (Ack a y false) true b
  else let ok := hd true (acks b) in
       Bus (mscl b) (msda b) (negb ok) (hold b) (Ack a y ok) (tl (acks b)) (strs b) (outq b) (log b).
Definition fall (b : bus) : bus :=
  stretch match ph b with
  | Recv a l => if (List.length l =? 8)%nat then answer a (val l) b else b
  | Ack a y ok =>
      let b := say (if a then EAddr y ok else EWr y ok) b in
      if negb ok then with_ph Deaf true b
      else if a && Z.odd y then load b else with_ph (Recv false []) true b
  | Send y l => match tl l with
                | [] => with_ph (Answer y None) true b
                | d :: l' => with_ph (Send y (d :: l')) d b
                end
  | Answer y (Some d) => let b := say (ERd y (negb d)) b in if d then with_ph Deaf true b else load b
  | _ => b
  end.
Definition set_scl (x : bool) (b : bus) : bus :=
  let b' := Bus x (msda b) (ssda b) (hold b) (ph b) (acks b) (strs b) (outq b) (log b) in
  match sclLine b, sclLine b' with
  | false, true => rise b'
  | true, false => fall b'
  | _, _ => b'
  end.
(** SDA changing while SCL is high is a start or a stop. *)
Definition set_sda (x : bool) (b : bus) : bus :=
  let b' := Bus (mscl b) x (ssda b) (hold b) (ph b) (acks b) (strs b) (outq b) (log b) in
  if sclLine b then
    match sdaLine b, sdaLine b' with
    | true, false => say EStart (with_ph (Recv true []) true b')
    | false, true => say EStop (with_ph Idle true b')
    | _, _ => b'
    end
  else b'.
Definition tick (b : bus) : bus :=
  match hold b with
  | O => b
  | S h => let b' := Bus (mscl b) (msda b) (ssda b) h (ph b) (acks b) (strs b) (outq b) (log b) in
           if (h =? 0)%nat && mscl b then rise b' else b'
  end.
Definition get_scl (b : bus) : bool * bus := (sclLine b, b).
Definition get_sda (b : bus) : bool * bus := (sdaLine b, b).
(** Nobody drives a line. *)
Definition free (b : bus) : Prop := mscl b = true /\ msda b = true /\ ssda b = true /\ hold b = O /\ ph b = Idle.
(** The slave never stretches the clock by more than 499 quarter periods. *)
Definition patient (b : bus) : Prop := (hold b <= 499)%nat /\ Forall (fun n => (n <= 499)%nat) (strs b).

(** * The exchange of a transaction: write [ws], then read [n] bytes *)
(** What a step leaves: the answers and bytes the slave has left, the events, the bytes read, the error. *)
Record result := Res { r_acks : list bool; r_out : list Z; r_log : list event; r_read : list Z; r_err : error }.
(** An address byte: only the addressed slave answers. *)
Definition ack_of (byte : Z) (acks : list bool) : bool := (byte / 2 =? own) && hd true acks.
Definition acks_of (byte : Z) (acks : list bool) : list bool := if byte / 2 =? own then tl acks else acks.
Fixpoint send (ws : list Z) (acks : list bool) : list event * list bool * bool :=
  match ws with
  | [] => ([], acks, true)
  | x :: ws => if hd true acks then let '(l, acks, ok) := send ws (tl acks) in (EWr x true :: l, acks, ok)
               else ([EWr x false], tl acks, false)
  end.
Fixpoint recv (n : nat) (q : list Z) : list event * list Z * list Z :=
  match n with
  | O => ([], [], q)
  | S n => let '(l, ys, q') := recv n (tl q) in (ERd (hd 0xff q) (negb (n =? 0)%nat) :: l, hd 0xff q :: ys, q')
  end.
Definition reading_part (a : Z) (n : nat) (acks : list bool) (q : list Z) : result :=
  let byte := 2 * a + 1 in
  if ack_of byte acks then
    let '(l, ys, q) := recv n q in Res (acks_of byte acks) q (EStart :: EAddr byte true :: l ++ [EStop]) ys NoError
  else Res (acks_of byte acks) q [EStart; EAddr byte false; EStop] [] AddressNack.
Definition exchange (a : Z) (ws : list Z) (n : nat) (acks : list bool) (q : list Z) : result :=
  match ws, n with
  | [], S _ => reading_part a n acks q
  | _, _ =>
      let byte := 2 * a in
      if ack_of byte acks then
        let '(l, acks, ok) := send ws (acks_of byte acks) in
        if negb ok then Res acks q (EStart :: EAddr byte true :: l ++ [EStop]) [] DataNack
        else match n with
             | O => Res acks q (EStart :: EAddr byte true :: l ++ [EStop]) [] NoError
             | _ => let r := reading_part a n acks q in
                    Res (r_acks r) (r_out r) (EStart :: EAddr byte true :: l ++ r_log r) (r_read r) (r_err r)
             end
      else Res (acks_of byte acks) q [EStart; EAddr byte false; EStop] [] AddressNack
  end.
End Slave.

(** * The calls a transaction sees *)
Inductive call := CAttach | CStarting | CWriting | CReading | CDetach (c : cause).
Section Logged.
Variable T : Type.
Definition logged_attaching (f : T -> bool * T) (x : T * list call) : bool * (T * list call) := let (r, y) := f (fst x) in (r, (y, snd x ++ [CAttach])).
Definition logged {A} (c : call) (f : T -> A * T) (x : T * list call) : A * (T * list call) := let (r, y) := f (fst x) in (r, (y, snd x ++ [c])).
Definition logged_detaching (f : cause -> T -> T) (c : cause) (x : T * list call) : T * list call := (f c (fst x), snd x ++ [CDetach c]).
End Logged.
(** Neither attaching nor detaching. *)
Definition inner (c : call) : Prop := match c with CStarting | CWriting | CReading => True | _ => False end.
(** A buffer of [n] bytes inside a memory of [len] bytes; nullptr only without bytes. *)
Definition buffer_ok (b : option Z) (n len : Z) : Prop :=
  match b with Some p => 0 <= p /\ 0 <= n /\ p + n <= len | None => n = 0 end.
(** * The whole transaction *)
(** A transaction that configureWriteRead() has set up for slave [a]: write [ws], then read [n] bytes. *)
Definition configured (a : Z) (wb : option Z) (ws : list Z) (rb : option Z) (n : nat) (x : wr) : Prop :=
  exists x0, state x0 <> TBusy /\ address x0 = 2 * a /\ x = snd (wr_configure wb (zlen ws) rb (Z.of_nat n) x0).
(** The buffers lie in the memory; [ws] is what the write buffer holds. *)
Definition buffers (wb : option Z) (ws : list Z) (rb : option Z) (n : nat) (mem : list Z) : Prop :=
  match wb with Some p => zsub mem p (zlen ws) = Some ws | None => ws = [] end /\ buffer_ok rb (Z.of_nat n) (zlen mem).
Definition stored (rb : option Z) (ys mem : list Z) : list Z :=
  match rb with Some p => firstn (Z.to_nat p) mem ++ ys ++ skipn (Z.to_nat (p + zlen ys)) mem | None => mem end.
Definition all_bytes (l : list Z) : Prop := Forall (fun y => 0 <= y < 256) l.
