(** Model of the RTT channels, src/modm/platform/uart/rtt/rtt.cpp.in, for a buffer of N
    bytes.  The target and the debug host are interleaved at the single accesses to
    head, tail and the cells; these are taken to happen in program order (the cells
    are not volatile in the code).  The host is modelled after the protocol of the
    code: it changes only its own index and only after having copied the bytes. *)
From Coq Require Import ZArith List Bool.
From Verif Require Import Base.
Import ListNotations.
Open Scope Z_scope.

Section Rtt.
Variable N : Z.

(** rtt.cpp.in:19-26 — RttBuffer: head, tail, buffer. *)
Record chan := Chan { head : Z; tail : Z; buf : list Z }.
(** rtt.cpp.in:56-93 — static buffers are zero, head and tail are 0. *)
Definition empty : chan := Chan 0 0 (repeat 0 (Z.to_nat N)).

(** rtt.cpp.in:30, 32, 44 — (x + 1) % size in 32 bits; None: division by zero. *)
Definition next (x : Z) : option Z := if N =? 0 then None else Some (u32 (x + 1) mod N).

(** rtt.cpp.in:47 — isEmpty(). *)
Definition isEmpty (c : chan) : bool := head c =? tail c.
(** rtt.cpp.in:48-53 — getSize() with the two indices read. *)
Definition getSize (c : chan) : Z := u32 ((if tail c <? head c then 0 else N) + head c - tail c).

(** Where write() is (rtt.cpp.in:28-37, 101-115): the bytes still to be written with the
    current one first, and how many were written; about to read the head, the tail,
    to write the cell, the head. *)
Inductive wpc := WIdle | WHead (l : list Z) (n : Z) | WTail (l : list Z) (n h : Z) | WCell (l : list Z) (n h h' : Z) | WStore (l : list Z) (n h' : Z).

(** An up channel: the buffer, the target, the host (head and position it knows, bytes
    copied but not yet released).  Not in the code: what was accepted, what the host
    has taken, the argument of the current call, the calls with their results (rtt.cpp.in:19-26, 101-115). *)
Record tx := Tx { tc : chan; wp : wpc; hseen : Z; hpos : Z; hcopy : list Z; acc : list Z; out : list Z; cur : list Z; calls : list (list Z * Z) }.
(** rtt.cpp.in:79-93 — at start. *)
Definition tx_start : tx := Tx empty WIdle 0 0 [] [] [] [] [].

(** The call returns [n] (rtt.cpp.in:104, 112, 114). *)
Definition call_end (n : Z) (s : tx) : tx :=
  Tx (tc s) WIdle (hseen s) (hpos s) (hcopy s) (acc s) (out s) (cur s) (calls s ++ [(cur s, n)]).
(** Record update, no code of its own (rtt.cpp.in:101-115). *)
Definition set_wp (p : wpc) (s : tx) : tx := Tx (tc s) p (hseen s) (hpos s) (hcopy s) (acc s) (out s) (cur s) (calls s).
(** The loop in write(data, length), rtt.cpp.in:107-115, and RttBuffer::write,
    rtt.cpp.in:28-37.  A single byte is a call with one byte. *)
Definition w_step (s : tx) : option tx :=
  match wp s with
  | WIdle => Some s
  | WHead [] n => Some (call_end n s)
  | WHead l n => Some (set_wp (WTail l n (head (tc s))) s)
  | WTail l n h =>
      do h' <- next h;
      if (N =? 0) || (h' =? tail (tc s)) then Some (call_end n s)
      else Some (set_wp (WCell l n h h') s)
  | WCell l n h h' =>
      do b <- zupd (buf (tc s)) h (hd 0 l);
      Some (set_wp (WStore l n h') (Tx (Chan (head (tc s)) (tail (tc s)) b) (wp s) (hseen s) (hpos s) (hcopy s) (acc s) (out s) (cur s) (calls s)))
  | WStore l n h' =>
      Some (Tx (Chan h' (tail (tc s)) (buf (tc s))) (WHead (tl l) (n + 1)) (hseen s) (hpos s) (hcopy s) (acc s ++ [hd 0 l]) (out s) (cur s) (calls s))
  end.
(** The target calls write() or makes an access; the host reads the head, copies a cell,
    writes the tail (rtt.cpp.in:39-46 is the same protocol). *)
Inductive txact := TCall (l : list Z) | TStep | HLook | HCopy | HFree.
(** See [txact] (rtt.cpp.in:28-46, 101-115). *)
Definition tx_step (a : txact) (s : tx) : option tx :=
  match a with
  | TCall l => match wp s with WIdle => Some (Tx (tc s) (WHead l 0) (hseen s) (hpos s) (hcopy s) (acc s) (out s) l (calls s)) | _ => Some s end
  | TStep => w_step s
  | HLook => Some (Tx (tc s) (wp s) (head (tc s)) (hpos s) (hcopy s) (acc s) (out s) (cur s) (calls s))
  | HCopy => if hpos s =? hseen s then Some s
             else do x <- znth (buf (tc s)) (hpos s); do p <- next (hpos s);
                  Some (Tx (tc s) (wp s) (hseen s) p (hcopy s ++ [x]) (acc s) (out s) (cur s) (calls s))
  | HFree => Some (Tx (Chan (head (tc s)) (hpos s) (buf (tc s))) (wp s) (hseen s) (hpos s) [] (acc s) (out s ++ hcopy s) (cur s) (calls s))
  end.
(** A sequence of them (rtt.cpp.in:28-46, 101-115). *)
Fixpoint tx_run (l : list txact) (s : tx) : option tx :=
  match l with [] => Some s | a :: l => do s <- tx_step a s; tx_run l s end.

(** Where read() is (rtt.cpp.in:38-46, 129-143): how many bytes are still wanted; about
    to read the head, the tail, the cell, to write the tail. *)
Inductive rpc := RIdle | RHead (k : nat) | RTail (k : nat) (h : Z) | RCell (k : nat) (t : Z) | RStore (k : nat) (t x : Z).
(** A down channel: the buffer, the target, the host (tail it knows, position, bytes
    stored but not yet published, all relative to its own head).  Not in the code: what the host has published,
    what read() has delivered, how often read() found nothing (rtt.cpp.in:19-26). *)
Record rx := Rx { rc : chan; rp : rpc; hfree : Z; hput : Z; hnew : list Z; sent : list Z; got : list Z; refused : Z }.
(** rtt.cpp.in:79-93 — at start. *)
Definition rx_start : rx := Rx empty RIdle 0 0 [] [] [] 0.
(** Record update, no code of its own (rtt.cpp.in:38-46). *)
Definition set_rp (p : rpc) (s : rx) : rx := Rx (rc s) p (hfree s) (hput s) (hnew s) (sent s) (got s) (refused s).
(** RttBuffer::read, rtt.cpp.in:38-46, in the loop of read(data, length), rtt.cpp.in:135-143. *)
Definition r_step (s : rx) : option rx :=
  match rp s with
  | RIdle => Some s
  | RHead O => Some (set_rp RIdle s)
  | RHead (S k) => Some (set_rp (RTail k (head (rc s))) s)
  | RTail k h =>
      if (N =? 0) || (tail (rc s) =? h) then Some (Rx (rc s) RIdle (hfree s) (hput s) (hnew s) (sent s) (got s) (refused s + 1))
      else Some (set_rp (RCell k (tail (rc s))) s)
  | RCell k t => do x <- znth (buf (rc s)) t; Some (set_rp (RStore k t x) s)
  | RStore k t x =>
      do t' <- next t;
      Some (Rx (Chan (head (rc s)) t' (buf (rc s))) (RHead k) (hfree s) (hput s) (hnew s) (sent s) (got s ++ [x]) (refused s))
  end.
(** The target calls read() for [k] bytes or makes an access; the host reads the tail,
    stores a byte in a free cell, publishes by writing the head (rtt.cpp.in:28-37 is the
    same protocol). *)
Inductive rxact := RCall (k : nat) | RStep | HTail | HStore (b : Z) | HPublish.
(** See [rxact] (rtt.cpp.in:28-46, 129-143). *)
Definition rx_step (a : rxact) (s : rx) : option rx :=
  match a with
  | RCall k => match rp s with RIdle => Some (set_rp (RHead k) s) | _ => Some s end
  | RStep => r_step s
  | HTail => Some (Rx (rc s) (rp s) (tail (rc s)) (hput s) (hnew s) (sent s) (got s) (refused s))
  | HStore b => if N =? 0 then Some s else
      do p <- next (hput s);
      if p =? hfree s then Some s
      else do c <- zupd (buf (rc s)) (hput s) b;
           Some (Rx (Chan (head (rc s)) (tail (rc s)) c) (rp s) (hfree s) p (hnew s ++ [b]) (sent s) (got s) (refused s))
  | HPublish => Some (Rx (Chan (hput s) (tail (rc s)) (buf (rc s))) (rp s) (hfree s) (hput s) [] (sent s ++ hnew s) (got s) (refused s))
  end.
(** A sequence of them (rtt.cpp.in:28-46, 129-143). *)
Fixpoint rx_run (l : list rxact) (s : rx) : option rx :=
  match l with [] => Some s | a :: l => do s <- rx_step a s; rx_run l s end.
End Rtt.
