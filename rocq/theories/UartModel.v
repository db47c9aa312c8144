(** Model of the buffered STM32 UART driver: src/modm/platform/uart/stm32/uart.cpp.in
    with uart_hal_impl.hpp.in, for a transmit buffer of NT > 0 and a receive buffer of
    NR >= 0 bytes (0: no receive buffer).  The main program, the interrupt and the
    hardware are interleaved at the single accesses to the registers and to the
    indices of the queues (modm::atomic::Queue, AtomicQueueModel.v); the interrupt is
    not interrupted by the main program.  One core, one context calling the driver,
    no hardware FIFO, no parity and framing errors. *)
From Coq Require Import ZArith List Bool.
From Verif Require Import Base AtomicQueueModel.
Import ListNotations.
Open Scope Z_scope.

Section Uart.
Variables (NT NR : Z).
(** uart_hal_impl.hpp.in:146-150, 273-291 — extended_driver: TDR, RDR, ICR instead of DR, SR. *)
Variable ext : bool.

(** Where the main program is.  The members of the queues which only the main
    program changes (head of txBuffer, tail of rxBuffer) can be read at any time, so
    only the accesses to the other ones are separate steps.
    - write(), uart.cpp.in:69-92: about to read the tail (isEmpty, 73); about to read
      TXE (73); about to write the data register (74); about to read the tail (push,
      76; queue_impl.hpp:100-105); about to write the cell (queue_impl.hpp:108); about
      to write the head (queue_impl.hpp:109); about to enable the interrupt (81).
    - writeBlocking(), 44-49: about to read TXE; about to write the data register.
    - isWriteFinished(), 107-115: about to read the tail, about to read TXE.
    - discardTransmitBuffer(), 127-142: about to disable the interrupt (133); with
      [n] counted: about to compare head and tail (134), to read the tail (pop,
      queue_impl.hpp:118), to write it (queue_impl.hpp:122).
    - read(), 144-163: about to read the head (148), to read the cell (151), to write
      the tail (152); without buffer: about to read RXNE (156), the data register (157). *)
Inductive pc :=
| Idle
| WEmpty (b : Z) | WTxe (b : Z) | WDirect (b : Z) | PCheck (b : Z) | PCell (b : Z) | PHead (b : Z) | WEnable (b : Z)
| BWait (b : Z) | BWrite (b : Z)
| FEmpty | FTxe
| DDisable | DEmpty (n : Z) | DRead (n : Z) | DWrite (n t : Z)
| REmpty | RGet | RPop (x : Z) | RTest | RTake.

(** Where the interrupt is (uart.cpp.in:239-268): not running; about to read RXNE
    (248), to read the data register and push (251-252), to read TXE (256), to look at
    the buffer (257-264), to acknowledge the overrun flag (267). *)
Inductive ipc := INone | IRxne | IRead | ITxe | IQueue | IAck.

(** The calls of the driver (uart.cpp.in:69, 44, 107, 127, 144). *)
Inductive op := Write (b : Z) | WriteBlocking (b : Z) | IsWriteFinished | Discard | Read.

(** txBuffer, rxBuffer (uart.cpp.in:31-38); the transmit data register (None: TXE is
    set), the shift register and what left it; TXEIE; the receive data register and
    RXNE; main program and interrupt.  Not in the code: the bytes accepted by write()
    and writeBlocking(), the bytes returned by read(), the bytes received by the
    hardware, how many of these were dropped because the buffer was full or because
    the data register was still occupied, and the result of the last call. *)
Record state := State {
  txq : @queue Z; rxq : @queue Z; dr : option Z; sh : option Z; line : list Z; txeie : bool; rdr : Z; rxne : bool; mp : pc; ip : ipc;
  acc : list Z; got : list Z; recvd : list Z; drops : Z; ret : Z }.
(** uart.hpp.in:73-87 — after initialize(). *)
Definition start : state := State (q_init NT) (q_init NR) None None [] false 0 false Idle INone [] [] [] 0 0.

(** Where a call begins (uart.cpp.in:44, 69, 107, 127, 144). *)
Definition entry (o : op) : pc :=
  match o with
  | Write b => WEmpty b
  | WriteBlocking b => BWait b
  | IsWriteFinished => FEmpty
  | Discard => DDisable
  | Read => if NR =? 0 then RTest else REmpty
  end.

(** Record update, no code of its own (uart.cpp.in:31-38). *)
Definition set_mp (m : pc) (s : state) : state :=
  State (txq s) (rxq s) (dr s) (sh s) (line s) (txeie s) (rdr s) (rxne s) m (ip s) (acc s) (got s) (recvd s) (drops s) (ret s).
(** Record update, no code of its own (uart.cpp.in:31-38). *)
Definition set_ip (i : ipc) (s : state) : state :=
  State (txq s) (rxq s) (dr s) (sh s) (line s) (txeie s) (rdr s) (rxne s) (mp s) i (acc s) (got s) (recvd s) (drops s) (ret s).
(** Record update, no code of its own (uart.cpp.in:31-38). *)
Definition set_txq (q : queue) (s : state) : state :=
  State q (rxq s) (dr s) (sh s) (line s) (txeie s) (rdr s) (rxne s) (mp s) (ip s) (acc s) (got s) (recvd s) (drops s) (ret s).
(** Record update, no code of its own (uart.cpp.in:31-38). *)
Definition set_rxq (q : queue) (s : state) : state :=
  State (txq s) q (dr s) (sh s) (line s) (txeie s) (rdr s) (rxne s) (mp s) (ip s) (acc s) (got s) (recvd s) (drops s) (ret s).
(** uart_hal_impl.hpp.in:143-151 — hal::write(); a byte not yet moved to the shift register is overwritten. *)
Definition set_dr (d : option Z) (s : state) : state :=
  State (txq s) (rxq s) d (sh s) (line s) (txeie s) (rdr s) (rxne s) (mp s) (ip s) (acc s) (got s) (recvd s) (drops s) (ret s).
(** uart_hal_impl.hpp.in:250-259 — enableInterrupt(TxEmpty), disableInterrupt(TxEmpty). *)
Definition set_txeie (b : bool) (s : state) : state :=
  State (txq s) (rxq s) (dr s) (sh s) (line s) b (rdr s) (rxne s) (mp s) (ip s) (acc s) (got s) (recvd s) (drops s) (ret s).
(** Reading RDR or DR clears RXNE (uart_hal_impl.hpp.in:154-161, 286-287). *)
Definition set_rxne (b : bool) (s : state) : state :=
  State (txq s) (rxq s) (dr s) (sh s) (line s) (txeie s) (rdr s) b (mp s) (ip s) (acc s) (got s) (recvd s) (drops s) (ret s).
(** A call returns [r] having accepted the bytes [a] or delivered the bytes [g] (uart.cpp.in:48, 77, 83, 111, 138, 149, 153). *)
Definition finish (r : Z) (a g : list Z) (s : state) : state :=
  State (txq s) (rxq s) (dr s) (sh s) (line s) (txeie s) (rdr s) (rxne s) Idle (ip s) (acc s ++ a) (got s ++ g) (recvd s) (drops s) r.
(** The byte was dropped (uart.cpp.in:252: the result of push() is ignored). *)
Definition drop (s : state) : state :=
  State (txq s) (rxq s) (dr s) (sh s) (line s) (txeie s) (rdr s) (rxne s) (mp s) (ip s) (acc s) (got s) (recvd s) (drops s + 1) (ret s).

(** The next access of the main program (uart.cpp.in:44-163, lines: see [pc]).  None: an access outside
    a buffer or of a cell that was never written. *)
Definition main_step (s : state) : option state :=
  match mp s with
  | Idle => Some s
  | WEmpty b => Some (set_mp (if q_head (txq s) =? q_tail (txq s) then WTxe b else PCheck b) s)
  | WTxe b => Some (set_mp (match dr s with None => WDirect b | Some _ => PCheck b end) s)
  | WDirect b => Some (finish 1 [b] [] (set_dr (Some b) s))
  | PCheck b => if next_index NT (q_head (txq s)) =? q_tail (txq s) then Some (finish 0 [] [] s) else Some (set_mp (PCell b) s)
  | PCell b => do c <- zupd (q_buf (txq s)) (q_head (txq s)) (Some b);
               Some (set_mp (PHead b) (set_txq (mkQueue (q_head (txq s)) (q_tail (txq s)) c) s))
  | PHead b => Some (set_mp (WEnable b) (set_txq (mkQueue (next_index NT (q_head (txq s))) (q_tail (txq s)) (q_buf (txq s))) s))
  | WEnable b => Some (finish 1 [b] [] (set_txeie true s))
  | BWait b => Some (match dr s with None => set_mp (BWrite b) s | Some _ => s end)
  | BWrite b => Some (finish 1 [b] [] (set_dr (Some b) s))
  | FEmpty => Some (if q_head (txq s) =? q_tail (txq s) then set_mp FTxe s else finish 0 [] [] s)
  | FTxe => Some (finish (match dr s with None => 1 | Some _ => 0 end) [] [] s)
  | DDisable => Some (set_mp (DEmpty 0) (set_txeie false s))
  | DEmpty n => Some (if q_head (txq s) =? q_tail (txq s) then finish n [] [] s else set_mp (DRead (n + 1)) s)
  | DRead n => Some (set_mp (DWrite n (next_index NT (q_tail (txq s)))) s)
  | DWrite n t => Some (set_mp (DEmpty n) (set_txq (mkQueue (q_head (txq s)) t (q_buf (txq s))) s))
  | REmpty => Some (if q_head (rxq s) =? q_tail (rxq s) then finish 0 [] [] s else set_mp RGet s)
  | RGet => do c <- q_get (rxq s); do x <- c; Some (set_mp (RPop x) s)
  | RPop x => Some (finish 1 [] [x] (set_rxq (mkQueue (q_head (rxq s)) (next_index NR (q_tail (rxq s))) (q_buf (rxq s))) s))
  | RTest => Some (if rxne s then set_mp RTake s else finish 0 [] [] s)
  | RTake => Some (finish 1 [] [rdr s] (set_rxne false s))
  end.

(** The next access of the interrupt (uart.cpp.in:239-268; lines: see [ipc]). *)
Definition isr_step (s : state) : option state :=
  match ip s with
  | INone => Some s
  | IRxne => Some (set_ip (if rxne s then IRead else ITxe) s)
  | IRead => do (q, ok) <- q_push NR (rxq s) (rdr s);
             let s := set_ip ITxe (set_rxne false (set_rxq q s)) in Some (if ok : bool then s else drop s)
  | ITxe => Some (set_ip (match dr s with None => IQueue | Some _ => IAck end) s)
  | IQueue => if q_isEmpty (txq s) then Some (set_ip IAck (set_txeie false s))
              else do c <- q_get (txq s); do x <- c; Some (set_ip IAck (set_txq (q_pop NT (txq s)) (set_dr (Some x) s)))
  | IAck => Some (set_ip INone (if ext then s else set_rxne false s))
  end.
(** uart.cpp.in:247-254 — the receive part exists only with a receive buffer. *)
Definition isr_entry : ipc := if NR =? 0 then ITxe else IRxne.
(** uart.hpp.in:81-83, uart.cpp.in:81 — RXNEIE is set with a receive buffer, TXEIE by write(). *)
Definition pending (s : state) : bool :=
  (txeie s && match dr s with None => true | Some _ => false end) || (negb (NR =? 0) && rxne s).

(** What happens next: the main program calls the driver or makes an access (only
    while the interrupt is not running, uart.cpp.in:44-234), the interrupt begins or
    makes an access (uart.cpp.in:239-268), the data register moves to the shift
    register, the shift register has been sent, a byte has been received. *)
Inductive act := ACall (o : op) | AMain | AIrq | AIsr | AShift | ASend | ARecv (b : Z).
(** An action which is not possible at the moment changes nothing.  Received bytes:
    with RXNE still set the new byte is lost (overrun; uart.cpp.in:267,
    uart_hal_impl.hpp.in:279-291 acknowledge it). *)
Definition step (a : act) (s : state) : option state :=
  match a with
  | ACall o => match mp s, ip s with Idle, INone => Some (set_mp (entry o) s) | _, _ => Some s end
  | AMain => match ip s with INone => main_step s | _ => Some s end
  | AIrq => match ip s with INone => Some (if pending s then set_ip isr_entry s else s) | _ => Some s end
  | AIsr => isr_step s
  | AShift => match dr s, sh s with
              | Some x, None => Some (State (txq s) (rxq s) None (Some x) (line s) (txeie s) (rdr s) (rxne s) (mp s) (ip s) (acc s) (got s) (recvd s) (drops s) (ret s))
              | _, _ => Some s
              end
  | ASend => match sh s with
             | Some x => Some (State (txq s) (rxq s) (dr s) None (line s ++ [x]) (txeie s) (rdr s) (rxne s) (mp s) (ip s) (acc s) (got s) (recvd s) (drops s) (ret s))
             | None => Some s
             end
  | ARecv b =>
      if rxne s then Some (State (txq s) (rxq s) (dr s) (sh s) (line s) (txeie s) (rdr s) (rxne s) (mp s) (ip s) (acc s) (got s) (recvd s ++ [b]) (drops s + 1) (ret s))
      else Some (State (txq s) (rxq s) (dr s) (sh s) (line s) (txeie s) b true (mp s) (ip s) (acc s) (got s) (recvd s ++ [b]) (drops s) (ret s))
  end.
(** A sequence of them (uart.cpp.in:44-268). *)
Fixpoint run (l : list act) (s : state) : option state :=
  match l with [] => Some s | a :: l => do s <- step a s; run l s end.
End Uart.
