(** Model of the I2C master in software,
    src/modm/platform/i2c/bitbang/bitbang_i2c_master_impl.hpp (cited as impl), over the
    open-drain lines of an arbitrary environment [W] and an arbitrary transaction [T].
    Not modelled: the configuration handler of start() and the debug output. *)
From Coq Require Import ZArith List Bool.
From Verif Require Import Base.
Import ListNotations.
Open Scope Z_scope.

(** i2c.hpp:49-56 — Operation. *)
Inductive op := Stop | Restart | Write | Read.
(** i2c.hpp:36-42 — DetachCause. *)
Inductive cause := NormalStop | ErrorCondition | FailedToAttach.
(** i2c_master.hpp:38-49 — Error, without Unknown. *)
Inductive error := NoError | SoftwareReset | AddressNack | DataNack | ArbitrationLost | BusCondition | BusBusy.
(** i2c_transaction.hpp:54-90 — Writing and Reading: buffer (None is nullptr), length, next; the
    constructors set the length to 0 for nullptr. *)
Record xfer := Xfer { buffer : option Z; length : Z; next : op }.
(** i2c_transaction.hpp:63-66, 82-85 — the constructors of Writing and Reading. *)
Definition mk_xfer (buffer : option Z) (length : Z) (next : op) : xfer :=
  Xfer buffer (match buffer with Some _ => length | None => 0 end) next.

Section Master.
(** The lines: SCL::set(b), SDA::set(b), SCL::read(), SDA::read() and a quarter of a period (bitbang_i2c_master.hpp.in:44-50, 124-128). *)
Variable W : Type.
Variable scl sda : bool -> W -> W.
Variable rdScl rdSda : W -> bool * W.
Variable delay4 : W -> W.
(** The virtual functions of the transaction (i2c_transaction.hpp:176-221). *)
Variable T : Type.
Variable attaching : T -> bool * T.
Variable starting : T -> (Z * op) * T.
Variable writing reading : T -> xfer * T.
Variable detaching : cause -> T -> T.

(** bitbang_i2c_master.hpp.in:118-122 — delay2(). *)
Definition delay2 (w : W) : W := delay4 (delay4 w).

(** The environment, the transaction, transactionObject != nullptr, errorState,
    starting.address and the memory with the buffers (bitbang_i2c_master.hpp.in:138-147). *)
Record M := Mk { w : W; t : T; att : bool; err : error; sadr : Z; mem : list Z }.
(** Assignments to the members (bitbang_i2c_master.hpp.in:138-147). *)
Definition on_w (f : W -> W) (m : M) : M := Mk (f (w m)) (t m) (att m) (err m) (sadr m) (mem m).
(** Assignment to errorState (bitbang_i2c_master.hpp.in:142). *)
Definition set_err (e : error) (m : M) : M := Mk (w m) (t m) (att m) e (sadr m) (mem m).
(** Assignment to starting.address (bitbang_i2c_master.hpp.in:145). *)
Definition set_sadr (a : Z) (m : M) : M := Mk (w m) (t m) (att m) (err m) a (mem m).
(** The transaction after a callback (impl:111, 135, 150). *)
Definition set_t (x : T) (m : M) : M := Mk (w m) x (att m) (err m) (sadr m) (mem m).
(** A store to a buffer (impl:365). *)
Definition set_mem (x : list Z) (m : M) : M := Mk (w m) (t m) (att m) (err m) (sadr m) x.
(** A read of a pin (impl:227). *)
Definition rd (f : W -> bool * W) (m : M) : bool * M :=
  let r := f (w m) in (fst r, on_w (fun _ => snd r) m).
(** impl:213-214 — if (transactionObject) transactionObject->detaching(cause); transactionObject = nullptr. *)
Definition detach (c : cause) (m : M) : M :=
  if att m then Mk (w m) (detaching c (t m)) false (err m) (sadr m) (mem m) else m.

(** impl:299-309 — the loop of sclSetAndWait(), [d] is deadlockPreventer. *)
Fixpoint wait_scl (d : nat) (m : M) : bool * M :=
  let (h, m) := rd rdScl m in
  if h then (negb (Nat.eqb d 0), m)
  else match d with
       | O => (false, m)
       | S d =>
           let m := on_w delay4 m in
           let (h, m) := rd rdScl m in
           if h then (true, m) else wait_scl d (on_w delay4 m)
       end.
(** impl:291-310 — sclSetAndWait(). *)
Definition sclSetAndWait (m : M) : bool * M := wait_scl 250 (on_w (scl true) m).

(** impl:257-288 — stopCondition(). *)
Definition stopCondition (m : M) : bool * M :=
  let m := on_w (sda false) (on_w (scl false) m) in
  let (ok, m) := sclSetAndWait m in
  if negb ok then (false, detach ErrorCondition (set_err BusCondition m)) else
  let m := on_w delay4 (on_w (sda true) (on_w delay2 m)) in
  let (h, m) := rd rdSda m in
  if negb h then (false, detach ErrorCondition (set_err BusCondition m)) else (true, m).

(** impl:218-255 — startCondition(). *)
Definition startCondition (m : M) : bool * M :=
  let m := on_w delay4 (on_w (sda true) m) in
  let (h, m) := rd rdSda m in
  if negb h then (false, detach ErrorCondition (set_err BusBusy m)) else
  let (ok, m) := sclSetAndWait m in
  if negb ok then (false, detach ErrorCondition (set_err BusBusy m)) else
  (true, on_w delay2 (on_w (scl false) (on_w delay2 (on_w (sda false) m)))).

(** impl:190-215 — error(e). *)
Definition do_error (e : error) (m : M) : M :=
  let m := on_w delay2 (on_w (sda false) (on_w (scl false) (on_w delay2 m))) in
  let (ok, m) := stopCondition m in
  if negb ok then set_err e m
  else detach ErrorCondition (set_err e (on_w (sda true) (on_w (scl true) m))).

(** impl:395-414 — writeBit(bit). *)
Definition writeBit (b : bool) (m : M) : bool * M :=
  let m := on_w delay2 (on_w (sda b) m) in
  let (h, m) := rd rdSda m in
  if Bool.eqb h b then
    let (ok, m) := sclSetAndWait m in
    if ok then (true, on_w (scl false) (on_w delay2 m)) else (false, m)
  else (false, m).
(** impl:416-436 — readBit(data). *)
Definition readBit (data : Z) (m : M) : bool * (Z * M) :=
  let m := on_w delay2 m in
  let (ok, m) := sclSetAndWait m in
  if ok then
    let (h, m) := rd rdSda m in
    (true, (if h then Z.lor data 1 else data, on_w (scl false) (on_w delay2 m)))
  else (false, (data, m)).

(** impl:318-328 — the loop of write(data), [n] bits are left. *)
Fixpoint write_bits (n : nat) (data : Z) (m : M) : bool * M :=
  match n with
  | O => (true, m)
  | S n => let (ok, m) := writeBit (negb (Z.land data 0x80 =? 0)) m in
           if ok then write_bits n (u8 (Z.shiftl data 1)) m else (false, do_error ArbitrationLost m)
  end.
(** impl:313-356 — write(data). *)
Definition write (data : Z) (m : M) : bool * M :=
  let (ok, m) := write_bits 8 data m in
  if negb ok then (false, m) else
  let m := on_w delay2 (on_w (sda true) m) in
  let (ok, m) := sclSetAndWait m in
  if negb ok then (false, do_error BusCondition m) else
  let (h, m) := rd rdSda m in
  if h then (false, do_error (if sadr m =? 0 then DataNack else AddressNack) m)
  else (true, on_w (scl false) (on_w delay2 m)).
(** impl:366-376 — the loop of read(data, ack). *)
Fixpoint read_bits (n : nat) (data : Z) (m : M) : bool * (Z * M) :=
  match n with
  | O => (true, (data, m))
  | S n => let '(ok, (data, m)) := readBit (u8 (Z.shiftl data 1)) m in
           if ok then read_bits n data m else (false, (data, do_error ArbitrationLost m))
  end.
(** impl:358-389 — read(data, ack); data is a cell of the memory, None: it does not exist. *)
Definition read (p : option Z) (ack : bool) (m : M) : option (bool * M) :=
  do p <- p;
  let m := on_w (sda true) m in
  let '(ok, (data, m)) := read_bits 8 0 m in
  do mm <- zupd (mem m) p data;
  let m := set_mem mm m in
  if negb ok then Some (false, m) else
  let (ok, m) := writeBit (negb ack) m in
  if negb ok then Some (false, do_error ArbitrationLost m)
  else Some (true, on_w (sda true) m).

(** impl:136-143 — reading.length bytes, [n] is length - 1 (0 for length 0). *)
Fixpoint read_all (n : nat) (p : option Z) (m : M) : option (bool * M) :=
  match n with
  | O => read p false m
  | S n => do r <- read p true m;
           if fst r then read_all n (option_map (Z.add 1) p) (snd r) else Some (false, snd r)
  end.
(** impl:151-156 — writing.length bytes. *)
Fixpoint write_all (n : nat) (p : option Z) (m : M) : option (bool * M) :=
  match n with
  | O => Some (true, m)
  | S n => do p <- p; do x <- znth (mem m) p;
           let (ok, m) := write x m in
           if ok then write_all n (Some (p + 1)) m else Some (false, m)
  end.

(** impl:129-169 — the operations after a (re-)start; the result tells whether a restart is
    required (otherwise start() returns true).  None also: [fuel] is used up. *)
Fixpoint operations (fuel : nat) (nx : op) (m : M) : option (bool * M) :=
  match fuel with
  | O => None
  | S fuel =>
      match nx with
      | Restart => Some (true, m)
      | Read =>
          let (r, t) := reading (t m) in
          do x <- read_all (Z.to_nat (length r - 1)) (buffer r) (set_t t m);
          if fst x then operations fuel (next r) (snd x) else Some (false, snd x)
      | Write =>
          let (r, t) := writing (t m) in
          do x <- write_all (Z.to_nat (length r)) (buffer r) (set_t t m);
          if fst x then operations fuel (next r) (snd x) else Some (false, snd x)
      | Stop => Some (false, snd (stopCondition (detach NormalStop m)))
      end
  end.
(** impl:105-170 — the outer loop of start(). *)
Fixpoint sessions (fuel : nat) (m : M) : option M :=
  match fuel with
  | O => None
  | S fuel =>
      let (ok, m) := startCondition m in
      if negb ok then Some m else
      let '(a, nx, t) := (let (x, t) := starting (t m) in (fst x, snd x, t)) in
      let m := set_sadr a (set_t t m) in
      let address := Z.land a 0xfe in
      let address := match nx with Read => Z.lor address 1 | _ => address end in
      let (ok, m) := write address m in
      if negb ok then Some m else
      (* the loop tests for a restart only after an operation *)
      do r <- operations fuel (match nx with Restart => Stop | _ => nx end) (set_sadr 0 m);
      if fst r then sessions fuel (snd r) else Some (snd r)
  end.
(** impl:82-174 — start(transaction), transaction not nullptr. *)
Definition start (fuel : nat) (m : M) : option (bool * M) :=
  if att m then Some (false, m) else
  let (ok, t) := attaching (t m) in
  let m := set_t t m in
  if negb ok then Some (false, set_t (detaching FailedToAttach t) m)
  else do m <- sessions fuel (Mk (w m) t true NoError (sadr m) (mem m)); Some (true, m).
(** impl:177-186 — reset(). *)
Definition reset (m : M) : M := detach ErrorCondition (set_err SoftwareReset m).
End Master.

(** impl:50-59 — initialize(): delayTime (uint16_t). *)
Definition delayTime (baudrate : Z) : Z :=
  let d := u16 (250000000 / baudrate) in if d =? 0 then 1 else d.

(** * Transactions: src/modm/architecture/interface/i2c_transaction.hpp (cited as transaction) *)

(** i2c.hpp:86-92 — TransactionState. *)
Inductive tstate := TIdle | TBusy | TError.
(** transaction:224-225, 389-393 — the members of I2cWriteReadTransaction. *)
Record wr := Wr { address : Z; state : tstate; readSize : Z; writeSize : Z; readBuffer : option Z; writeBuffer : option Z; isReading : bool }.
(** transaction:94-96, 244-248 — the constructor. *)
Definition wr_new (a : Z) : wr := Wr (u8 (Z.shiftl a 1)) TIdle 0 0 None None false.
(** transaction:256-298 — configureWriteRead(). *)
Definition wr_configure (wbuf : option Z) (wsize : Z) (rbuf : option Z) (rsize : Z) (x : wr) : bool * wr :=
  match state x with
  | TBusy => (false, x)
  | s => (true, Wr (address x) s rsize wsize rbuf wbuf (wsize =? 0))
  end.
(** transaction:176-183 — attaching(). *)
Definition wr_attaching (x : wr) : bool * wr :=
  match state x with
  | TBusy => (false, x)
  | _ => (true, Wr (address x) TBusy (readSize x) (writeSize x) (readBuffer x) (writeBuffer x) (isReading x))
  end.
(** transaction:329-344 — starting(). *)
Definition wr_starting (x : wr) : (Z * op) * wr :=
  ((address x, if isReading x then (if readSize x =? 0 then Stop else Read) else (if writeSize x =? 0 then Stop else Write)), x).
(** transaction:346-380 — writing(). *)
Definition wr_writing (x : wr) : xfer * wr :=
  let r := negb (readSize x =? 0) in
  (mk_xfer (writeBuffer x) (writeSize x) (if r then Restart else Stop),
   Wr (address x) (state x) (readSize x) (writeSize x) (readBuffer x) (writeBuffer x) r).
(** transaction:382-386 — reading(). *)
Definition wr_reading (x : wr) : xfer * wr := (mk_xfer (readBuffer x) (readSize x) Stop, x).
(** transaction:217-221 — detaching(cause). *)
Definition wr_detaching (c : cause) (x : wr) : wr :=
  Wr (address x) (match c with NormalStop => TIdle | _ => TError end) (readSize x) (writeSize x) (readBuffer x) (writeBuffer x) (isReading x).
