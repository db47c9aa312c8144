From Verif Require Import Base XpccModel XdModel.

(* counting events of message k *)
Definition count (f : dev -> bool) (t : list dev) : Z := zlen (filter f t).
Definition adds (t : list dev) (k : Z) : Z := count (fun e => match e with TAdd j _ _ _ => j =? k | _ => false end) t.
Definition sends (t : list dev) (k : Z) : Z := count (fun e => match e with TSend j _ _ => j =? k | _ => false end) t.
Definition calls (t : list dev) (k : Z) : Z := count (fun e => match e with TCall j _ _ => j =? k | _ => false end) t.

(* a (negative) response to the message with header h0 *)
Definition answers (h0 h : xheader) : Prop := h_type h <> XRequest /\ h_src h = h_dest h0 /\ h_dest h = h_src h0 /\ h_pid h = h_pid h0.

(* what may follow after the events t *)
Definition allowed (t : list dev) (e : dev) : Prop :=
  match e with
  | TAdd k _ _ _ => adds t k = 0
  | TSend k h p => (exists cb, In (TAdd k cb h p) t) /\ sends t k < 3 /\ calls t k = 0
  | TCall k h p =>
      exists h0 p0, In (TAdd k true h0 p0) t /\ calls t k = 0 /\
        ((answers h0 h /\ (In (TRx h p) t \/ exists j cb, In (TAdd j cb h p) t)) \/
         (h = mkH XTimeout (h_ack h0) (h_dest h0) (h_src h0) (h_pid h0) /\ p = p0 /\ sends t k = 3))
  | TAck h => exists h0 p0, In (TRx h0 p0) t /\ h_ack h0 = false /\ h_dest h0 <> 0 /\ h = mkH (h_type h0) true (h_src h0) (h_dest h0) (h_pid h0)
  | _ => True
  end.
Inductive ok_trace : list dev -> Prop :=
  | ok_nil : ok_trace []
  | ok_snoc t e : ok_trace t -> allowed t e -> ok_trace (t ++ [e]).
