(* The XPCC dispatcher.
   Source: src/modm/communication/xpcc/dispatcher.cpp, dispatcher.hpp.in
   Simplifications: the board around the dispatcher (the handlers of the components, the postman, the clock) is arbitrary: a state of any
   type with functions for what it answers and which messages its handlers hand to the dispatcher in turn. Handlers do not call update().
   Allocation of list nodes succeeds. Messages are numbered in the order in which they are handed to the dispatcher; the numbers appear
   only in the list of events. A callback of an entry of type Callback is taken to be callable (response_callback.hpp:73-77). *)
From Verif Require Import Base XpccModel.

(* dispatcher.hpp.in:77-82 *)
Inductive dstat := TransmissionPending | WaitForACK | WaitForResponse.
(* dispatcher.hpp.in:131-138; e_key is the number of the message, e_cb whether the type is Callback. The timer is part of the board *)
Record dentry := mkE { e_key : Z; e_cb : bool; e_header : xheader; e_payload : list Z; e_state : dstat; e_tries : Z }.
(* what handlers hand to the dispatcher; dispatcher.cpp:290-295 (AMessage), 297-302 (ACallback), 304-318 (AResponse) *)
Inductive addition := AMessage (h : xheader) (p : list Z) | ACallback (h : xheader) (p : list Z) | AResponse (h : xheader) (p : list Z).
(* what is observed: message k handed over; packet received; message k given to the backend; acknowledge given to the backend;
   packet delivered to a component (dispatcher.cpp:75, 171, 227); callback of message k called. Not in the code *)
Inductive dev :=
  | TAdd (k : Z) (cb : bool) (h : xheader) (p : list Z) | TRx (h : xheader) (p : list Z) | TSend (k : Z) (h : xheader) (p : list Z)
  | TAck (h : xheader) | TDeliver (h : xheader) (p : list Z) | TCall (k : Z) (h : xheader) (p : list Z).

(* dispatcher.cpp:290-318: messages handed over while the list is front ++ … ++ back; n is the number of the next message *)
Fixpoint d_adds (front back : list dentry) (n : Z) (l : list addition) : list dentry * list dentry * Z * list dev :=
  match l with
  | [] => (front, back, n, [])
  | x :: r =>
      let '(f, b, e) :=
        match x with
        | AMessage h p => (front, back ++ [mkE n false h p TransmissionPending 0], TAdd n false h p)
        | ACallback h p => (front, back ++ [mkE n true h p TransmissionPending 0], TAdd n true h p)
        | AResponse h p => (mkE n false h p TransmissionPending 0 :: front, back, TAdd n false h p)
        end in
      let '(f, b, m, t) := d_adds f b (n + 1) r in (f, b, m, e :: t)
  end.
(* dispatcher.cpp:100-106 *)
Definition headerFits (own h : xheader) : bool := (h_src h =? h_dest own) && (h_dest h =? h_src own) && (h_pid h =? h_pid own).
(* dispatcher.cpp:89-98 *)
Definition ackHeader (h : xheader) : xheader := mkH (h_type h) true (h_src h) (h_dest h) (h_pid h).
(* dispatcher.cpp:263-264 *)
Definition timeoutHeader (h : xheader) : xheader := mkH XTimeout (h_ack h) (h_dest h) (h_src h) (h_pid h).
(* dispatcher.cpp:113-121, 126 and 156: the first entry that fits *)
Fixpoint d_fit (l : list dentry) (h : xheader) : option (list dentry * dentry * list dentry) :=
  match l with
  | [] => None
  | e :: r =>
      if headerFits (e_header e) h then Some ([], e, r)
      else match d_fit r h with Some (a, x, b) => Some (e :: a, x, b) | None => None end
  end.
(* dispatcher.cpp:196-203: the first request that waits for the response *)
Fixpoint d_request (l : list dentry) (h : xheader) : option (list dentry * dentry * list dentry) :=
  match l with
  | [] => None
  | e :: r =>
      if xtype_eqb (h_type (e_header e)) XRequest && match e_state e with TransmissionPending => false | _ => true end && headerFits (e_header e) h then Some ([], e, r)
      else match d_request r h with Some (a, x, b) => Some (e :: a, x, b) | None => None end
  end.

Section Board.
Variable E : Type.
(* postman.hpp: deliverPacket, whether it answers OK, and what the handler hands over; isComponentAvailable. response_callback.hpp:82-90:
   call. timeout.hpp: isExpired of the timer of an entry *)
Variable deliver : E -> xheader -> list Z -> E * bool * list addition.
Variable available : E -> Z -> bool.
Variable callback : E -> dentry -> xheader -> list Z -> E * list addition.
Variable expired : E -> dentry -> E * bool.

(* dispatcher.hpp.in:170-175: entries; the number of the next message; the board *)
Record dstate := mkD { d_entries : list dentry; d_next : Z; d_env : E }.

(* dispatcher.cpp:108-159 *)
Definition d_handlePacket (s : dstate) (h : xheader) (p : list Z) : dstate * list dev * bool :=
  match d_fit (d_entries s) h with
  | None => (s, [], false)
  | Some (a, e, b) =>
      if negb (e_cb e) then (mkD (a ++ b) (d_next s) (d_env s), [], false)
      else
        match h_type h with
        | XRequest =>
            if h_ack h then (mkD (a ++ mkE (e_key e) (e_cb e) (e_header e) (e_payload e) WaitForResponse (e_tries e) :: b) (d_next s) (d_env s), [], false)
            else (s, [], false)
        | _ =>
            if negb (h_ack h) then
              let (v, l) := callback (d_env s) e h p in
              let '(a, b, n, t) := d_adds a b (d_next s) l in
              (mkD (a ++ b) n v, TCall (e_key e) h p :: t, true)
            else (mkD (a ++ b) (d_next s) (d_env s), [], false)
        end
  end.
(* dispatcher.cpp:46-87 *)
Definition d_receive (s : dstate) (h : xheader) (p : list Z) : dstate * list dev :=
  if xtype_eqb (h_type h) XRequest && negb (h_ack h) then
    let '(v, ok, l) := deliver (d_env s) h p in
    let '(a, b, n, t) := d_adds [] (d_entries s) (d_next s) l in
    (mkD (a ++ b) n v, TRx h p :: TDeliver h p :: t ++ (if ok && negb (h_dest h =? 0) then [TAck (ackHeader h)] else []))
  else
    let '(s, t, is_response) := d_handlePacket s h p in
    (s, TRx h p :: t ++ (if negb (h_ack h) && negb (h_dest h =? 0) && (is_response || available (d_env s) (h_dest h)) then [TAck (ackHeader h)] else [])).

(* dispatcher.cpp:161-216: the entries in front of the entry, from it on, the number, the board and the events *)
Definition d_inner (front : list dentry) (e : dentry) (back : list dentry) (n : Z) (v : E) : list dentry * list dentry * Z * E * list dev :=
  match h_type (e_header e) with
  | XRequest =>
      let '(v, _, l) := deliver v (e_header e) (e_payload e) in
      let '(f, b, n, t) := d_adds front back n l in
      let b := if e_cb e then mkE (e_key e) (e_cb e) (e_header e) (e_payload e) WaitForResponse (e_tries e) :: b else b in
      (f, b, n, v, TSend (e_key e) (e_header e) (e_payload e) :: TDeliver (e_header e) (e_payload e) :: t)
  | _ =>
      match d_request back (e_header e) with
      | None => (front, back, n, v, [TSend (e_key e) (e_header e) (e_payload e)])
      | Some (b1, r, b2) =>
          if e_cb r then
            let (v, l) := callback v r (e_header e) (e_payload e) in
            let '(f, b2, n, t) := d_adds front b2 n l in
            (f, b1 ++ b2, n, v, TSend (e_key e) (e_header e) (e_payload e) :: TCall (e_key r) (e_header e) (e_payload e) :: t)
          else (front, b1 ++ b2, n, v, [TSend (e_key e) (e_header e) (e_payload e)])
      end
  end.
(* dispatcher.cpp:218-287, one round of the loop: front are the entries passed, rest those from the current one on *)
Definition d_round (front : list dentry) (e : dentry) (rest : list dentry) (n : Z) (v : E) : list dentry * list dentry * Z * E * list dev :=
  match e_state e with
  | TransmissionPending =>
      if h_dest (e_header e) =? 0 then
        let '(v, _, l) := deliver v (e_header e) (e_payload e) in
        let '(f, b, n, t) := d_adds front rest n l in
        (f, b, n, v, TDeliver (e_header e) (e_payload e) :: t ++ [TSend (e_key e) (e_header e) (e_payload e)])
      else if available v (h_dest (e_header e)) then d_inner front e rest n v
      else
        (front ++ [mkE (e_key e) (e_cb e) (e_header e) (e_payload e) WaitForACK (e_tries e)], rest, n, v, [TSend (e_key e) (e_header e) (e_payload e)])
  | WaitForACK =>
      let (v, x) := expired v e in
      if x : bool then
        if 2 <=? e_tries e then
          if e_cb e then
            let (v, l) := callback v e (timeoutHeader (e_header e)) (e_payload e) in
            let '(f, b, n, t) := d_adds front rest n l in
            (f, b, n, v, TCall (e_key e) (timeoutHeader (e_header e)) (e_payload e) :: t)
          else (front, rest, n, v, [])
        else
          (front ++ [mkE (e_key e) (e_cb e) (e_header e) (e_payload e) WaitForACK (u8 (e_tries e + 1))], rest, n, v, [TSend (e_key e) (e_header e) (e_payload e)])
      else (front ++ [e], rest, n, v, [])
  | WaitForResponse => (front ++ [e], rest, n, v, [])
  end.
(* dispatcher.cpp:218-287; the loop need not end (handlers can hand over messages for ever): fuel rounds of it, and whether it has ended *)
Fixpoint d_loop (fuel : nat) (front rest : list dentry) (n : Z) (v : E) : dstate * list dev * bool :=
  match rest with
  | [] => (mkD front n v, [], true)
  | e :: r =>
      match fuel with
      | O => (mkD (front ++ rest) n v, [], false)
      | S fuel =>
          let '(f, b, n, v, t) := d_round front e r n v in
          let '(s, t', x) := d_loop fuel f b n v in (s, t ++ t', x)
      end
  end.
(* dispatcher.cpp:218-221 *)
Definition d_handleWaitingMessages (fuel : nat) (s : dstate) : dstate * list dev * bool := d_loop fuel [] (d_entries s) (d_next s) (d_env s).

(* dispatcher.cpp:30-44 and 290-318: calls of the dispatcher. update() is DRx for every packet of the backend, then DWait *)
Inductive dcall := DAdd (x : addition) | DRx (h : xheader) (p : list Z) | DWait (rounds : nat).
(* dispatcher.cpp:30-44 and 290-318 *)
Definition d_call (s : dstate) (c : dcall) : dstate * list dev :=
  match c with
  | DAdd x => let '(a, b, n, t) := d_adds [] (d_entries s) (d_next s) [x] in (mkD (a ++ b) n (d_env s), t)
  | DRx h p => d_receive s h p
  | DWait k => let '(s, t, _) := d_handleWaitingMessages k s in (s, t)
  end.
(* dispatcher.cpp:30-44 and 290-318: any sequence of calls *)
Fixpoint d_run (s : dstate) (l : list dcall) : dstate * list dev :=
  match l with
  | [] => (s, [])
  | c :: r => let (s, t) := d_call s c in let (s, t') := d_run s r in (s, t ++ t')
  end.
End Board.
