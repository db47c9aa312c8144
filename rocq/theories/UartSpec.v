(** What is claimed about the buffered UART. *)
From Coq Require Import ZArith List Bool.
From Verif Require Import Base AtomicQueueModel UartModel.
Import ListNotations.
Open Scope Z_scope.

(** Zero or one byte. *)
Definition opt (o : option Z) : list Z := match o with Some x => [x] | None => [] end.

(** The main program sends with write() only and discards nothing. *)
Definition gentle (a : act) : Prop := match a with ACall (WriteBlocking _) | ACall Discard => False | _ => True end.
(** Only the interrupt and the transmitting hardware move. *)
Definition background (a : act) : Prop := match a with AIrq | AIsr | AShift | ASend => True | _ => False end.

(** [subseq l m]: [l] is [m] with some bytes left out. *)
Inductive subseq : list Z -> list Z -> Prop :=
| sub_nil : subseq [] []
| sub_take x l m : subseq l m -> subseq (x :: l) (x :: m)
| sub_skip x l m : subseq l m -> subseq l (x :: m).

(** [works s l s']: the background actions [l], each of which changes something, lead from [s] to [s']. *)
Inductive works (NT NR : Z) (ext : bool) : state -> list act -> state -> Prop :=
| works_nil s : works NT NR ext s [] s
| works_cons a l s t u : background a -> step NT NR ext a s = Some t -> t <> s -> works NT NR ext t l u -> works NT NR ext s (a :: l) u.
(** Nothing is left to do for the interrupt and the transmitter. *)
Definition quiet (NT NR : Z) (ext : bool) (s : state) : Prop := forall a, background a -> step NT NR ext a s = Some s.
