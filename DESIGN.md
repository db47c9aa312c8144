# Formal model of modm: design

Subject: modm (C++ embedded library), commit pinned in /repo. The code is read as text, never built or run.
Tool: Rocq/Coq 8.16.1, standard library only.

## 1. Trusted base

* Coq's kernel (and `coqchk`, which re-checks the compiled files), including its virtual machine for `vm_compute` steps.
* The axioms printed by `Print Assumptions` under each property theorem: none (section 5).
* The reading of the C++ code. Nothing ties the model to the code except the citations: each model definition names the
  file and lines it transcribes, and states its simplifications.
* C++ semantics assumed: modm compiles with `-fwrapv` (tools/build_script_generator/common.py), so signed overflow wraps;
  integral promotion to a 32 bit `int` unless a definition says otherwise; `volatile` index accesses are single
  indivisible memory accesses that are not reordered.
* Templates are modelled for arbitrary parameter values (N, widths, element types) under the constraints that the code
  itself states (static_asserts or the width of its index type).
* Undefined behaviour (out-of-bounds access, use after free, null dereference) is a distinct outcome in the models
  (`None` / an error constructor), never a default value. Loops that might not end carry fuel; running out of it is
  either a distinct outcome or excluded by a theorem.

### Assumptions about the surroundings

* Heap allocators return fresh, non-null, non-overlapping blocks (C06–C09, C38–C40, C45–C47); RPR allocation may fail at will.
* User callbacks, task bodies and message handlers are arbitrary functions, or lists of what they send, that do not
  re-enter the object except where a theorem says so (C14 nested ticks, C47 handlers that send).
* `double` in the prescaler searches is an exact rational (C30, C31). `float` in the colour conversion is IEEE binary32
  as specified by `Coq.Floats.SpecFloat`, each operation rounded (C59).
* AMNB: 4 byte little-endian pointers. Display: `int_fast16_t` has 32 bits, `uint_fast8_t` 8 or 32.
* Resumable functions that use hardware (AMNB, block devices) are modelled from call to end; where suspension matters
  (C58 isBusy of the stack, C17) it is modelled explicitly.
* 1-Wire slaves and flash chips are environment models written from their usual behaviour: they are part of what a reader
  has to accept for C55 and C58. Each such definition is marked "environment" in its comment.

### Not modelled

Hardware peripherals, compiler and linker behaviour, the C++ abstract machine as a whole, performance, floating point in
the filters and matrix classes. Interrupts are interleavings of single memory accesses where a property is about them
(C01), nested calls at the unlocked window for the scheduler (C14), and otherwise absent.
Of /repo, only the files cited in the models are covered; all other drivers, platforms, tools and the build system are not.

## 2. Layout

`rocq/theories/` holds, for each subsystem X:

* `XModel.v`  executable Gallina transcription of the code (citations in comments), no proofs;
* `XSpec.v`   small independent specification (where short, it stands in XProps instead);
* `XProofs.v` lemmas;
* `XProps.v`  the property theorems, each with its non-vacuity `Example` beside it, and `Print Assumptions` at the end.

Shared: `Base.v` (words, arrays), `SliceLemmas.v`, `BitLemmas.v`, `PtrHeap.v` (heap of blocks).

Naming: `Cnn_…` is a theorem about property nn. `…_partial`: only part of the statement (the comment says what is
missing). `…_refuted`: the property, or the named part of it, is false of the model; the theorem exhibits a witness.
`…_undefined`, `…_hangs` and other descriptive names: universally quantified negative results.

`seeded/LOG.jsonl` records the deliberate faults put into copies of the models and which theorems noticed.

## 3. Properties: what is modelled and how it is proved

Model files are `rocq/theories/<name>Model.v` etc. The status and remaining gaps are those of MANIFEST.json.

| id | file | modelled | how | status and gaps |
|----|------|----------|-----|------|
| C01 | AtomicQueue | push / isEmpty / get / pop as sequences of single accesses to buffer, head and tail; a scheduler picks which side moves; element copies may tear | invariant over all interleavings: consumed ++ ring ++ pending = accepted | proved: all interleavings at single-access granularity, element copies torn; N<=65535 |
| C02 | AtomicQueue | sequential queue operations, index width included | refinement to a bounded list | proved: exact for every N the 16 bit index supports; for larger N (no static_assert on 32 bit targets) the capacity claim is refuted |
| C03 | Deque | all BoundedDeque operations on buffer/head/tail/size | refinement to a bounded list | proved: refinement to a bounded list for every N and every history |
| C04 | Deque | const_iterator | traversal lemma; empty container refuted | partial: proved for non-empty containers; refuted for the empty container (loop body runs once) and for decrementing end() |
| C05 | Deque | BoundedQueue and BoundedStack on top of the deque model | corollaries of C03 | proved: corollaries of the deque refinement |
| C06 | List | LinkedList on a heap of nodes | representation predicate, simulation of an abstract sequence | partial: Simulation of an abstract sequence for every call history, back/front correctness, no leak, destructor; the claim that insert places the element before pos is refuted (it places it behind). The allocator is assumed to return fresh non-null addresses (a null result is dereferenced unchecked). |
| C07 | List | DoublyLinkedList on a heap of nodes | representation predicate in both directions | proved: Simulation of an abstract sequence for every call history, forward and backward chain, erase result, destructor; the end iterator cannot be decremented (stated as its own theorem). The allocator is assumed to return fresh non-null addresses. |
| C08 | DynArray | DynamicArray with heap blocks that can be freed | simulation; aliasing cases refuted | partial: Simulation of abstract sequences with capacities for every number of arrays, every call history and every allocator; exact storage layout, no leak, element life times. The parts of the claim about a = a (with elements) and a.append(a[i]) (when the array grows) are false and refuted, for every history; reserve near the range of size_t overflows (refuted). T's copy is a plain value copy; the allocator never fails. |
| C09 | SmartPtr | SmartPointer blocks with 8 bit counts | invariant count = handles mod 256; refuted beyond | partial: Simulation of shared objects for every history in which no block's handle count falls to a nonzero multiple of 256 and a sole handle is not assigned to itself; exact life times. Outside: refuted (early release with 257 handles, use after free on self-assignment). Printing: contents up to 251 bytes, endless loop from 252 on. The allocator never fails; little-endian size field. |
| C10 | Timeout | GenericTimeout over a w bit clock | ghost real time | proved: all histories on real time, clock wrap anywhere; never early even without the polling contract |
| C11 | Timeout | execute and the states | induction over histories | proved: exactly once per restart, states exclusive |
| C12 | Timeout | GenericPeriodicTimer | arithmetic of the loop; exact multiple refuted | partial: no drift proved for all schedules; the count is one too small for a poll exactly k>=2 periods late (refuted), exact otherwise |
| C13 | Timeout | remaining | arithmetic modulo 2^w; wrap refuted | partial: exact while the clock did not wrap since the start; refuted after a wrap and for restart() after stop() |
| C14 | Sched | task lists as linked items, the tick, nested ticks in the unlocked window | representation as sorted lists, induction over histories | partial: For every sequence of scheduleTask/schedule calls with priorities 1..255 each tick ends and runs exactly the due tasks, once each, by descending priority (ties: last scheduled first), and over a history each task has run age/period times. The unrestricted claim is false: priority 0 never runs and hangs the third period (C14_priority0_hangs), ticks nested into the unlocked window run a lower priority task first or hang (C14_nested_*_refuted). Task::run() is opaque. |
| C15 | Fiber | the circular list of tasks, start/yield/end/run | representation of the ring as a queue | proved: The pointer ring is proved to behave as a queue for every history of start, yield, end and run; round robin, no run after end and termination follow for the logged executions. Contexts are reduced to fresh/saved; interrupts, several cores sharing a task and destruction of running tasks are outside the model. |
| C16 | Sem | Semaphore, and protothreads as statement lists with source lines | replay of the log; control-flow relation | partial: Admission, wake-up and protothread control flow proved for any number of threads with any code and polling order, for the statement set wait/release/yield/goto/exit/restart, with source lines below 65535 and releases only of held units. Without these restrictions false (C16_release_wrap_refuted, C16_long_file_refuted). There is no Mutex class; a semaphore with n = 1 is the case n = 1. PT_SPAWN, PT_WAIT_THREAD, PT_CALL not modelled. |
| C17 | Resum | Resumable and NestedResumable, functions as statement lists with case labels | simulation of a machine with a call stack | partial: Nested objects equal a machine with a call stack for every use sequence when labels of different functions differ modulo 255; independent functions follow their code. False in the model: query from the deepest level reads behind the array, the unchecked build runs over the array, labels 255 apart are confused, the depth is wrong beyond 127 levels. |
| C18 | Crc | bitwise CRC loops | linearity over GF(2), polynomial division | partial: crc16_ccitt, crc32, the SAB/1-Wire and the SAB2/RPR registers equal the polynomial remainder for every message; the portable crc8_ccitt does not (refuted) |
| C19 | Crc | the frame checksums | burst detection from the polynomial division | partial: bursts up to the register width for all four working CRCs, odd error counts and double errors for the 8 and 16 bit ones; the portable crc8_ccitt misses every flip of bit 7 (refuted) |
| C20 | Bits | mask and shift code | bit lemmas for all widths | proved: all 8, 16 and 32 bit words |
| C21 | Bits | byte order conversions | bit lemmas | proved: both byte orders of the host, signed and unsigned |
| C22 | Saturated | Saturated over arbitrary width | arithmetic; multiplication refuted | partial: all operand types and values; +, -, +=, -=, ++, --, conversions exact except for the smallest value of a 32/64 bit signed operand (refuted); products falling below the minimum, and -min, are not clamped (refuted) |
| C23 | Median | sorting networks on the sample buffer | buffer is the last N samples, order case analysis | proved: Median3/5/7/9, every program of append/update; unique median |
| C24 | Filter | Debounce | invariants | proved: every sequence of samples and resets; settles after maxValue equal samples |
| C25 | Filter | MovingAverage over integers | sum invariant | partial: every integer type and N with N and the window sum in the type; refuted when N does not fit the type; floating point not modelled |
| C26 | Filter | Ramp | closed form of the position | partial: exact position after k updates, no overshoot, arrival time, flag; refuted for reset() (stale flag) and for distances larger than the type |
| C27 | Filter | Pid limits | from every state | proved: from every state, all signed types, overflow included |
| C28 | Filter | Fir | ring buffer invariant | proved: every N, block size, coefficient list, type and history |
| C29 | Algo | Linear | monotonicity of the segment search | partial: clamping for all tables; exact at and between points when outputs fit the signed type and the segment arithmetic fits; refuted for large unsigned outputs, 32 bit unsigned inputs and distant signed inputs |
| C30 | Algo | Prescaler (double as an exact rational) | optimality | proved: from_range/from_list/from_linear optimal for the reported integer frequency, from_power for the real frequency; from_range refuted for the real frequency; doubles as exact rationals |
| C31 | Algo | PrescalerCounter (double as an exact rational) | optimality | partial: admissible and optimal among the prescalers that reach the ratio; from_power with even max_counter fully optimal; refuted in general, for odd max_counter and when the product wraps |
| C32 | Algo | range | induction over the iteration | partial: exact sequence iff the overshoot does not wrap into the interval; step 1 and invalid arguments unconditionally; termination refuted otherwise |
| C33 | Sab | sendMessage, update | parser state machine; round trip | proved: wire format and round trip for every address < 64 and payload <= 32 bytes from any receiver in SYNC state; both bounds shown necessary |
| C34 | Sab | update | characterisation of the reported messages | partial: memory safety, chunking independence, exact characterisation of the reported messages under polling after every byte, recovery; "unchanged until dropped" is refuted (kept only until the next sync byte), with the consequence that a slave can execute an unchecked command |
| C35 | Sab | Slave; callbacks are functions from the payload to a list of replies | case analysis over requests | partial: exactly the demanded reply per request when update() sees one request at a time; two requests in one update() refuted; callbacks are functions from payload to a list of replies |
| C36 | Sab2 | sendMessage, update, escaping | round trip through the escaping | partial: Round trip of any list of messages, back to back, in any chunking, after any garbage, for N <= 251 and 255 <= N <= 65531. Not for N = 252..254 (8 bit length wraps, refuted) and not for payloads of 256 bytes or more where uint_fast8_t has 8 bits (the loop never ends, refuted). |
| C37 | Sab2 | update | characterisation by stretches between delimiters | partial: Memory safety for every N and stream; delivered messages are exactly the contents of the stretches with a matching checksum, for stretches of at most N + 4 content bytes. Over-long ones are not always discarded (refuted). |
| C38 | Amnb | Message as 32 bytes of memory with 4 byte pointers, transmit and receive | round trip | partial: Compose, transmit, receiveHeader, receiveData for every type, address, command and payload of up to 255 bytes, with any junk in uninitialised fields and any allocator. From 256 bytes on the claim is false (dataLength() is a uint8_t) and refuted: only length mod 256 bytes are sent. |
| C39 | Amnb | message storage on a heap of blocks | ownership invariant over all receive() iterations | partial: Every byte stream with read errors, every number of receive() iterations, every handler table: no access outside owned blocks, no double free, no leak, provided neither of two situations occurs: leftover payload in the pointer field, large message nobody wants. Both do occur and both are shown to be undefined. |
| C40 | Amnb | handlers; resumable functions run to their end | case analysis | partial: One reply per request with address, command and the answer of the first matching action, for every action table; unknown command gives an error message. The part about wrong argument sizes is false (Response type, requester sees success) and shown so for every such request; failed allocation gives no reply. |
| C41 | Amnb | retry and back-off arithmetic | arithmetic over all commands | partial: Commands 4 to 255: exact number of tries, monotone in the command, generator never zero, windows of all back-offs for every outcome of transmissions and busy medium. Commands 0 to 3: refuted (256 tries, delays outside the window). |
| C42 | Rpr | writeMessage, update; whether allocation succeeds is a parameter. The module is dead code in the repository (no module.lb, missing header) | round trip; ring theorem by induction | partial: Frames, reception, forwarding and two ring theorems (unicast and broadcast) for payloads that fit; refuted as stated: the two checksum bytes are delivered as part of the payload, and a multicast to group 0x7fff is a broadcast. Partial: frames are handed to update() whole and allocation succeeds. |
| C43 | Rpr | the message queues | induction over the queue | partial: Queueing in order is proved; refuted as stated: each message written from the queue takes another one with it (C43_every_other_lost for every queue), and a direct send discards the oldest queued message. |
| C44 | Xpcc | identifier packing | bit lemmas | proved: Encoding, range below 2^29, round trip in both directions, injective. |
| C45 | Xpcc | fragmentation and reassembly; allocation succeeds | permutation of fragments | partial: Sending: the frames of the queue in order for every sequence of driver answers. Receiving: fragments in any order, interleaved with any other frames, in any reachable state. Refuted beyond: payloads of 49 bytes and more are accepted for sending but delivered by no receiver (C45_long_payload_lost), and 300 bytes are delivered as 44. |
| C46 | Xpcc | reassembly | origin of every delivered byte | partial: Memory safety and accountability of every delivered byte for all frame sequences whose fragments agree on the size of their packet. Without that: buffer overflow, delivery of bytes never received, and mixtures of two packets (refuted with witnesses). |
| C47 | Xd | dispatcher; handlers, postman and timer expiry arbitrary | trace invariant | partial: At most three transmissions and one callback, with everything that may precede them, for every board (handlers, postman, clock) and every sequence of calls. The part that the entry is dropped only after its own acknowledge, response or timeout is refuted: entries are matched by addresses and packet identifier alone, so acknowledges of a response and of a request get mixed up and the callback is lost (C47_callback_lost_refuted); an acknowledged request waits for ever. |
| C48 | BlockAlloc | BlockAllocator on a word array | representation as list of blocks | partial: Full claim (first fit over slots, disjointness, containment, size, alignment, contents, complete recovery, available size) for heaps of 1 to 32767 slots and unsigned int as wide as a pointer, requests below SIZE_MAX - 4 - slot size. Refuted outside: huge request, 64 bit pointers with 32 bit unsigned int, heap smaller than a slot. |
| C49 | Can | Lawicel formatter | round trip, characterisation | partial: C49_round_trip: every CAN 2.0 message, any output buffer of at least 27 characters, any message object to read into. C49_accepts_partial: for every C string, exact characterisation of what is accepted, no read past the terminator. C49_accepts_refuted: the first character is not checked, so x1230 is accepted as a t frame. |
| C50 | Can | setLength, setDataLengthCode | table lemmas | partial: All buffer capacities and all requested lengths (C50_setLength, C50_constructor); data length codes 0..15 (C50_setDataLengthCode_partial); codes from 16 on, which the parameter type admits, read outside the table (C50_large_code_undefined). |
| C51 | Time | calendar loops | arithmetic, closed form | partial: Round trip for every time stamp and full Gregorian agreement of all fields below 2100-03-01, except the day of the year, which is stored in 8 bits (C51_day_of_year_refuted). From 2100-03-01 on the date is wrong (C51_after_2100_wrong). |
| C52 | Button | bit-parallel debouncing; every call atomic | per-bit refinement to a counter | partial: For every history of inputs and queries, every key and width; repetition timing and short/long presses included. Refuted for a key that reads pressed in the very first update(): it is accepted after one sample (C52_first_sample_refuted). |
| C53 | Reg | register accessors | bit lemmas | partial: For every register width, value, mask and field. Refuted where the statement reaches further: all(Enum) of an enum value with several bits means any, and Configuration::set with a value outside its mask changes foreign bits. |
| C54 | Enc | encoder input and output | phase invariants | partial: Input: every movement and query sequence, every prescaler and counter width. Output: forwards only, with the agreement of both drivers. Refuted backwards: two of the four transitions do not change a line (C54_backward_step_lost, C54_backward_refuted). |
| C55 | Ow | search over a bus of slaves (environment model on the level of time slots) | binary trie traversal | partial: Complete enumeration for every set of devices with valid codes, any old buffer; search by family code; verifyDevice sound for every state. Refuted: verifyDevice denies a present device unless its code is still in the buffer (C55_verify_refuted), searchSkipCurrentFamily returns the same family again (C55_skip_family_refuted). The bus and the slaves are modelled at the level of time slots; transmission errors are not. |
| C56 | Disp | display buffer and generic drawing; int has 32 bits, uint_fast8_t 8 or 32; no cursor | index injectivity; sets of pixels | partial: Both packings, every size, buffer and coordinate >= 0; lines, rectangles, filled rectangles and images as exact sets of pixels, the fast routines against the generic ones. Refuted: negative coordinates are not checked (C56_negative_undefined), clearPixel(Point) sets (C56_clear_point_refuted), the fast vertical line keeps its end in 8 bits (C56_fast_vline_refuted), an image reaching below the display is written behind the buffer (C56_fast_image_undefined), fillRectangle with a negative start draws nothing (C56_fill_refuted). |
| C57 | Disp | Bresenham | error-term invariant | proved: Every pair of end points with differences below 2^15, on any display; axis-parallel lines that touch coordinate 32767 excepted (C57_border_refuted: they are not drawn). |
| C58 | Bd | heap, mirror, SPI flash and stacked SPI flash; the chip is an environment model with arbitrary delays (busy counts, write enable latch, address mode per die); 32 bit long | map refinement | partial: BdHeap: legal requests served, read back, frame, refusals (proved); address+size wrapping in 32 bits undefined. BdMirror: correct for heaps when the second device is not smaller; refuted otherwise (tests resultA twice). BdSpiFlash and BdSpiStackFlash over an environment model of the chip with arbitrary delays: read, page program, sector erase and write for aligned ranges, across dies; refuted for ranges covering a whole chip or die (no write enable before chip erase), unaligned addresses, sums beyond 2^32, and for isBusy() of a busy stack (RF_CALL evaluates --currentDie again) |
| C59 | Color | RGB, HSV, RGB565; float as binary32 of Coq.Floats.SpecFloat | exhaustive closed form by intervals, float rounding lemmas | partial: 8 bit HSV to RGB proved equal to the closed HSV formula for all colours, hence maximum, minimum, grey criterion and accuracy; RGB565 packing, round trip, saturated arithmetic; RGB to HSV in binary32 (SpecFloat): value and full saturation for every colour the conversion is defined for, greys exact. Missing: that no colour overflows the float to integer conversion of the hue, and hue accuracy. 16 bit instantiations refuted. ui/color.cpp is a dead duplicate. |
| C60 | Any | inplace_any on a memory of objects with identities; constructors do not throw | ledger of constructor and destructor calls | partial: Exactly-once destruction, definedness, contents and any_cast proved for every sequence of allowed operations on any number of objects. swap of a holding with an empty object leaves both holding (C60_swap_refuted); value assignment from the own content is undefined (C60_own_content_undefined). Constructors that throw and size checks (compile time) not modelled. |
| C61 | Filter | Pid::update | arithmetic | partial: exact for int32_t, for ScaleFactor 1 and for non-negative sums; refuted for int16_t with the documented parameters |
| C62 | Sab | Master | transaction automaton | partial: transaction and timeout proved; matching of the response to the query refuted (address and command of the response are not looked at) |
| C63 | Can | constructors | byte lists | partial: C63_from_value for all values and lengths; C63_from_array_partial when the array has as many bytes as the CAN length chosen; C63_from_array_undefined: with a buffer above 8 bytes an array of exactly the requested length is over-read for every length that is not a CAN length. |
| C64 | Can | operator< | order lemmas | partial: C64_strict_weak_order for all messages. C64_arbitration_partial: less implies winning, and winning implies less except for a standard frame against the extended frame with the same base and 18 zero bits (C64_arbitration_refuted). |
| C65 | Rpr | update buffers | index invariant | partial: Safe for every execution as long as no stretch without delimiter has more than 255 content bytes; every longer frame for the node makes update() write in front of the receive buffer. |
| C66 | Rpr | node listeners | induction over the listener list | proved: Every listener list, every queue, any callbacks (modelled by the messages they send). |
| C67 | Tick | initialize() with the static asserts, the handler, both now() loops as single accesses interleaved with handler runs, timer cycles and other contexts | invariant over runs relating flag, handler count and time of the VAL access; fixed-point arithmetic for all frequencies | partial: Exactness, order, rate and return proved for every interleaving with one context, provided the handler is not kept from running and the timer is faster than 1 MHz. False in the model: at exactly 8 MHz (1 MHz) the factor is 0, with a blocked handler the time goes back, a call from an interrupt makes an interrupted call read a period ahead, FreeRTOS rates dividing 999 are accepted. FreeRTOS timer setup and several cores not modelled. |
| C68 | Uart | write, writeBlocking, isWriteFinished, discardTransmitBuffer, read and the interrupt as single accesses, interleaved with the data, shift and receive registers | invariant: line, registers and ring content concatenate to the accepted bytes; ring invariant of C21; decreasing measure for the background activity | partial: Transmission proved for every interleaving when the main program uses write() only; reception for every program. False in the model: isWriteFinished() is true while the last byte is still unsent, writeBlocking() after write() loses or reorders bytes, discardTransmitBuffer() races with a receive interrupt, the acknowledge of the older peripherals throws bytes away. Hardware FIFO, flow control, DMA driver and line errors not modelled. |
| C69 | Rtt | RttBuffer::write/read and the loops of Rtt::write/read as single accesses, the host as a protocol-abiding consumer/producer with stale indices | invariant with unbounded sequence numbers: index = number mod size, cells between the numbers hold the log | partial: Both directions proved for every interleaving and every size from 1 to 65536, accesses in program order (the cells are not volatile in the code). False in the model: the size of an empty buffer, and size 0 divides by zero in write(). |
| C70 | Tlc | the six buffer accessors with their 16-bit index and byte arithmetic | the buffers read as one big-endian number; a lemma on replacing the bits of one field | partial: Proved for every chain up to 43688 channels (grayscale) and every chain (dot correction) for values up to 63. False in the model: dot-correction values above 63 overwrite other channels, and from 43692 channels on the 16-bit index wraps. The SPI transfer, latch and error pins are not modelled. |
| C71 | Spi | setDataMode, setDataOrder, initialize, both transferBlocking over the pins of an arbitrary environment; buffers as regions of one memory | independent slave with edge-triggered sampling and required times; bitwise loop invariant | partial: Exchange, timing, arrays and mode changes proved for all modes. False in the model: initialize() puts the clock low but keeps an inverted mode, so the slave misses the first bit; below 7630 Hz the delay is cut to 16 bits. The resumable wrappers, the lock and interrupts between the pin accesses are not modelled (a longer delay keeps all required times). |
| C72 | I2c | start() with all its helpers over the lines of an arbitrary environment and the virtual functions of an arbitrary transaction | callbacks: relations preserved by every helper; exchange: an independent slave as a state machine on the edges of SCL and SDA, symbolic execution of one bit, byte and session | partial: Callbacks and return proved for every environment and transaction; the exchange for every slave that stretches by at most 499 quarter periods, addresses 1 to 127. False in the model: longer stretching is reported as lost arbitration, a failed stop is not told to the transaction and leaves SDA low, a failed repeated start leaves SCL low, a NACK of address 0 is reported as DataNack, reading into nullptr stores a byte, below 3815 Bd the delay is cut to 16 bits. The configuration handler, other masters on the bus (for the exchange) and the lengths of the pulses are not modelled. |
| C73 | I2c | I2cWriteReadTransaction with attaching and detaching | runs of C72 with the state of the transaction carried along | partial: Proved for transactions that only write, only read or only ping. False in the model for write followed by read: the second run leaves out the write. A second start of a busy transaction ends its busy state. I2cWriteTransaction and I2cReadTransaction not modelled. |
| C74 | Tlsf | tlsf_create, add_pool, malloc, memalign, free, realloc with every helper over a word memory, bitmaps and list heads; accesses outside the arrays are undefined | an abstract heap of physical blocks related to the memory by an invariant with doubly linked lists (TlsfHeap), every helper shown to preserve it (TlsfOps, TlsfApi, TlsfPool), then an invariant of all executions of a client (TlsfProofs) | proved: For every execution of a client that keeps to the rules, requests outside the band of C77. 32-bit words; the assertions (compiled out), the debug functions, tlsf_remove_pool and tlsf_create_with_pool are not modelled. |
| C75 | Tlsf | as C74 | the blocks found by an independent walk over the memory are those of the abstract heap | proved: Walk over the memory words of the pools, independent of the lists and bitmaps. |
| C76 | Tlsf | as C74, with memcpy by words | as C74 | proved: Alignments 2^e with e up to 30, sizes up to the last size class; memcpy copies whole words, which the rounding of block sizes guarantees. |
| C77 | Tlsf | as C74 | arithmetic of the size classes for the undefined cases, evaluation of the witness | partial: False in the model: requests between the start of the last size class and the maximum read past the end of the bitmaps in every state; a pool of exactly the maximum is inserted past the end of the lists; realloc beyond the maximum reports success and gives the block back while the client holds it. |
| C78 | Htab | the table as a list, the iterator with its offset, find_largest | induction over the table, concrete tables for the refutations | partial: False in the model: one of the traits suffices, adjoining sections are joined only when the first is the longest so far, and the offset of a report is also applied to the later sections. Proved: failure only without any trait, the result is a run of adjoining sections with some trait each and no shorter than any single one; the rest of the last section. |
| C79 | Htab | memory as bytes, the markers, the iterator over the sections, dump and read back | induction over the report; concrete dumps for the refutations | partial: Proved for reports that fit into the first section with four bytes of marker, away from the crash stack. Refuted beyond: a byte behind each section is written, adjoining sections lose a byte, the crash stack is not spared, the heap may be set up over the report. |
| C80 | Hfront | the allocators with their sections, malloc_traits with its passes, the search for the allocator of a pointer | each allocator is in a state reachable by a TLSF client (C74) and owns a section away from the others | partial: Proved for requests with a trait besides the two types. Refuted: a request with nothing but the types (or no traits) calls tlsf_malloc with a null pointer when memory is exhausted and elements of mem_pools are unused; calloc allocates n bytes whatever the size of the elements. |
| C81 | Fn | vtable pointer and storage per address, the vtable functions, constructors, assignments through their parameter, swap, call | ledger invariant kept by placement new and destructor calls; effect of each operation on vtables and storages | proved: Exceptions and the compile-time checks of size and alignment are not modelled. |
| C82 | Bx | sendMailbox and readMailbox on the mailbox registers | frames on the bus and in the FIFO specified from the reference manual; arithmetic of bit fields | partial: Sending and the round trip are proved. Receiving is proved for 8 byte messages, or data length codes up to 8; refuted for codes 9 to 15 with 64 byte messages (length up to 64 for 8 bytes on the bus). |
| C83 | Bx | the encodings, setFilter and its variants, disableFilter on the filter registers | acceptance specified from the reference manual; bitwise characterisation of encodings | partial: 32-bit lists, extended masks and independence of the banks are proved. Standard masks are exact among standard frames only (refuted: extended frames pass); 16-bit extended encodings only for identifiers whose bits 19 to 21 do not spoil others (refuted: bit 19 sets RTR). The initialization mode of the filters is not modelled. |
| C84 | Bx | sendMessage in atomic steps, the transmit interrupt, queue, mailboxes with RQCP | invariants of a transition system with hardware completions; witnesses by executing checked traces | partial: Nothing lost: proved for unmasked interrupts (refuted when masked). Order and draining: proved if no transmission completes between the test of the mailboxes and the push, refuted otherwise. The hardware follows the reference manual with TXFP set; error and abort conditions are not modelled. |
| C85 | Bx | both receive interrupts, queue and getMessage; FIFOs of three with overrun flag | invariants of a transition system; sublists | partial: Overflow: refuted (one message too many costs two), the rest proved. The order across FIFOs is not kept (refuted). |
| C86 | Bx | the two wait loops with deadlockPreventer and the tests after them | induction on the number of reads | partial: Refuted for a mode that is never entered; proved otherwise. |
| C87 | Atom | the operations as word accesses under Lock; Lock, Unlock, LockPriority; a core with a stack of handlers | invariant of a transition system: phases of the running operation, remaining code against saved masks; word arithmetic by induction | partial: Everything proved but LockPriority(0), which masks nothing (refuted). An operation is a sequence of word accesses under a Lock on one core; Container for any type as words; Flag::test, set and reset are single accesses and not modelled. |
| C88 | Grd | acquire, release, abort as atomic steps of any number of contexts | invariants of a transition system; witnesses by computation | partial: Once: proved if no context is interrupted between load and exchange, refuted otherwise (also for nested handlers). Exclusive construction: proved for all interleavings. |
| C89 | Asrt | the macros, the loop over handlers, the decision | bits of the accumulated behavior by induction over the handlers | proved: Handlers are functions of the assertion; the description and the linker section are not modelled. |
| C90 | Mc | Lock with CoreLock and SystemSpinLockGuard as instructions on two cores with stacks of handlers | invariants of a transition system (balance of take and release, one holder); stuck states are preserved | partial: Exclusion proved. Progress proved for SystemSpinLockGuard and, with handlers that use no lock, for atomic::Lock; refuted for atomic::Lock in a handler (it takes the spin lock before disabling interrupts and releases it after enabling them), and for nested locks. Mutex and Mailbox are not modelled. |
| C91 | IosModel.v | IOStream operators and modes, the byte loops with their 8 bit counter, decimal output with wrapping negation, IODeviceWrapper write loops, get | numerals are specified by reading them back (base, length, value), texts of sequences by an inductive relation; wrapper behaviour for an arbitrary accepting function of the device | partial: IOStream operators, modes, writeHex/writeBin/writePointer/writeIntegerMode/writeInteger, get, and both IODevice wrappers. Refuted: operator<< for function pointers writes the address of its own parameter (&pointer) and not that of the function. print_integer (external printf library) is taken to write decimal digits; floating point and printf not modelled. |
| C92 | GeoModel.v | products and differences with the widths of T, WideType and int, ccw | bounds on products; case analysis for collinear points by the projection on the line | proved: Vector<T,2> dot, cross, getLengthSquared, ccw for int8_t, uint8_t, int16_t, int32_t with 16 and 32 bit int. Exactness and orientation proved with the sharp exceptions; refuted for uint8_t and int32_t lengths and for ccw of points farther apart than half the range. Floating point coordinates, lengths, angles and rotation not modelled. The property states the exceptions; all of it, including them, is proved. |
| C93 | GeoModel.v | the two ccw products of LineSegment2D::intersects, the dot products of Ray2D::intersects | signed areas of the four triangles, explicit parameters of the common point; collinear segments by projection | proved: LineSegment2D::intersects and Ray2D::intersects against the existence of a common (rational) point; refuted for segments of length zero, for long segments, and for rays with coordinates beyond 151 (int16_t/int32_t). getIntersections and distances (floating point) not modelled. The property states the exceptions; all of it, including them, is proved. |
| C94 | GeoModel.v | the loops of Polygon2D over its sides, the flags of isInside | the sum of the areas of the triangles with the sides does not depend on the point, so some side has it on the inner side; strict turns exclude points on extended sides | proved: Polygon2D::isInside for strictly convex polygons of either orientation, intersections with polygons, segments and rays reduced to their sides; refuted: repeated vertex in a clockwise polygon, ray through vertices. Circles (floating point) not modelled. The property states the exceptions; all of it, including them, is proved. |
| C95 | AnimModel.v | initialize, step, get with the widths of each type and machine; setValue, animateTo, update with the 16 bit clock; the calls of the handler | the accumulator is an exact integer modulo its width; bits above the point do not depend on what is cut; induction over the updates | proved: FastRamp for the integer types and Animation<T>. Monotone, on the line and in time proved for times up to 2^fraction bits ms per unit; refuted beyond (overshoot, wrap-around), for multiples of 65536 ms with 8 bit types (division by zero), for long times on the AVR, for 32 bit (and on the AVR 16 bit) values animated to themselves. The floating point ramp is not modelled. The property states the exceptions; all of it, including them, is proved. |
| C96 | KeyModel.v | start, stop, cancel, update, checkRepeat, setMode, setKeyFrames over a list of animations; ghost list of the frames shown | invariants with the number of rounds and the position in the round; animators have equal times; 1 ms updates by induction on the rest of the frame | proved: KeyFrameAnimation on the model of Animation, any number of animators. Order, repeat count, safety, values and timing proved; refuted: isAnimating during the last frame, getMode while reversed; a single frame with Autoreverse stops. The property states the exceptions; all of it, including them, is proved. |
| C97 | KeyModel.v | setPeriod and setFadeTimes with the integer conversions | linear arithmetic after removing the conversions | proved: Frame lengths of Pulse, Indicator and Strobe with the widths of TimeType and int. Pulse exact; the cycle of Indicator and Strobe is proved longer than the period (refuted); setFadeTimes proved. The property states the exceptions; all of it, including them, is proved. |
| C98 | McpProps | functions of the driver as sequences of SPI accesses; the chip as a state machine from its data sheet with its own events between any two accesses | simulation invariant (permutation accounting) over all executions, induction over the usage | partial: Accounting in both directions and the refusals are proved; overruns for long messages and codes 9-15, lost order and the stale length code are proved as exceptions. |
| C99 | McpProps | setFilter, setMode and the filter macros on the same chip | step lemmas for register accesses; bit-level identities for the macros | proved: The property states the exceptions; all of it, including them, is proved. Tables mixing kinds under one mask are covered by C99_filter_registers only. |
| C100 | McpProps | initialize and the compile-time bit timing | step lemmas; case analysis of the configuration table, division lemmas | proved: The property states the exceptions; all of it, including them, is proved. |
| C101 | FdProps | message RAM as a map from addresses to words; headers, data and filter words bit by bit | frame decoder from the manual applied to the words written; induction over words and filter calls | partial: Layout, sending and filters are proved in full; receiving is proved for every element, but the FD and bit rate flags of the frame are lost, which is proved as wrong; C101_receive_frame_partial lists when the frame arrives unchanged. |
| C102 | FdProps | sendMessage, getMessage, both handlers and the hardware as small steps | inductive invariants over all reachable states; explicit runs for the refutations | partial: Accounting, no stall and order per FIFO are proved for FIFOs that do not overwrite; overtaking, the lost wakeup of the reception interrupt and torn reads in overwrite mode are proved as refutations. |
| C103 | RtcProps | pin accesses of the DS1302 driver and transactions of the MCP7941x driver, on chips written down from the data sheets | one lemma per clock cycle, composed to bytes; finite sweeps over two-digit numbers | proved: The property states the exceptions (year, single read, oscillatorRunning); all of it, including them, is proved. The clocks do not tick during an access. |
| C104 | PrsProps | calculateCrc bit by bit, the assembly of the words and initialize as functions of the bytes received | polynomial remainder of CrcSpec by induction over the words, uniqueness of remainders, burst lemma | proved: The property states the exceptions (dead line, failed transactions); all of it, including them, is proved. |
| C105 | PrsProps | calculateCalibratedValues with all 32 and 64 bit wrap arounds; the data object with its flags | bounds of every intermediate result, then shifts as floors against the rational formula; invariant over all reachable data objects | partial: The compensation is proved in the ranges given and refuted outside; the cache is proved for getTemperature followed by getPressure, and getPressure alone is refuted. |
| C106 | BmpProps | calculateCalibratedTemperature and calculateCalibratedPressure with all conversions; initialize; the data object with calls during a readout | bounds of every intermediate result; induction over the calls | partial: Proved in the ranges given; AC5 from 32768 on, large differences, a memory of zeros and calls during a transaction are proved as wrong. The floating point variant is not modelled. |
| C107 | BmpProps | calculateCalibratedTemperature, the decoding of H2 to H6, the data object with calls during a readout | bounds of every intermediate result; induction over the calls | partial: Proved without overflow and for H4, H5 not negative, and wrong otherwise. The formulas of pressure and humidity are not modelled (the cache is proved for any formula). |
| C108 | AdcProps | the check sum bit by bit, write and read as functions from and to bytes, the fields | polynomial congruences; linear arithmetic for the fields; complete sweeps over device addresses and short bursts | proved: The property states the exception (two bits eight apart); all of it is proved. The layout of the frames is taken from the data sheet. |

## 4. Findings (code versus property)

Where a claim could not be proved as stated because the code does something else. T marks findings that are theorems;
the others were noticed while reading and are outside the models.

Containers and memory
* T BoundedDeque: iterating an empty container runs the loop body once; `--end()` is wrong (C04).
* T LinkedList::insert inserts after the given position (C06). T DoublyLinkedList: `--end()` is undefined (C07).
* T DynamicArray: `a = a` reads unconstructed memory, `a.append(a[i])` on a full array uses freed memory, `reserve` near the range of size_t overflows (C08).
* T SmartPointer: the 8 bit count releases the block early at 257 handles; self-assignment of the only handle uses freed memory; printing 252 bytes or more never ends (C09).
* T BlockAllocator: requests close to SIZE_MAX wrap; coalescing with 64 bit pointers moves a pointer by 2^32 words; a heap smaller than a slot is written in front of (C48).
* T inplace_any: swap with one empty side leaves both sides holding; assigning from the own content uses a destroyed object (C60).

Time, tasks, control flow
* T PeriodicTimer counts one period too few when polled exactly k >= 2 periods late (C12). T remaining() is wrong after the clock wrapped (C13).
* T Scheduler: priority 0 never runs and hangs the third period; nested ticks invert priorities or hang (C14). `modm::atomic::Unlock();` is a temporary destroyed at once, so tasks run locked.
* T Semaphore: release wraps at 65535; protothreads in lines from 65535 on break (C16).
* T NestedResumable: isResumableRunning() on the deepest level reads behind the array; with check_nesting_depth off the array is overrun, although the option's text promises NestingError; labels are unique modulo 255 only; a call refused with NestingError counts as finished (C17).
* RF_CALL evaluates its argument again at every resume, T which selects the wrong die in BdSpiStackFlash::isBusy (C58).

Arithmetic
* T The portable crc8_ccitt is not the CRC and misses every error in bit 7 (C18, C19).
* T Saturated: products below the minimum, `-min` and 32/64 bit minimum operands are not clamped (C22).
* T MovingAverage with N outside T (C25). T Ramp: reset() leaves a stale flag, large distances overflow (C26). T Pid: an unsigned ScaleFactor breaks int16_t (C61).
* T Linear: unsigned outputs >= 2^(w-1), 32 bit unsigned inputs, distant signed inputs (C29). T Prescaler, PrescalerCounter: not optimal in corner cases (C30, C31). T range<uint8_t>(0,255,10) never ends (C32).
* T Calendar: leap years modulo 4 only, wrong from 2100-03-01; dayOfTheYear in 8 bits (C51).
* T Colours: the 16 bit HSV conversion and the 16 bit to RGB565 conversion are broken (C59).

Protocols
* T SAB: a reported message is overwritten by later bytes; a slave can execute an unchecked command; of two requests in one update() the first is lost; the master does not match the response (C34, C35, C62).
* T SAB2: N = 252..254 wraps the length; payloads of 256 bytes never finish where uint_fast8_t has 8 bits; over-long frames can be accepted (C36, C37).
* T AMNB: lengths from 256 on are truncated; stale pointer after a small message; null dereference for every large message of somebody else; wrong argument sizes are answered with a Response; commands 0 to 3 retry 256 times outside their window (C38–C41).
* T CAN: the Lawicel parser ignores the first character; the pointer constructor over-reads; setDataLengthCode(16) reads past its table; operator< ties a standard frame with an extended one (C49, C50, C63, C64).
* T RPR: checksum delivered as payload; group 0x7fff is broadcast; every second queued message lost; a direct send pops an unrelated message; frames of 256 bytes write in front of the buffer (C42, C43, C65).
* T XPCC: payloads of 49 bytes and more are sent but never received, 300 bytes arrive as 44; disagreeing sizes overflow the buffer; a lost fragment mixes packets; acknowledges of request and response are confused and a callback is lost; acknowledged requests wait for ever (C45–C47).

Drivers and user interface
* T Encoder output: two of four backward transitions do not change a line (C54).
* T 1-Wire: verifyDevice does not load the code to verify; searchSkipCurrentFamily uses a stale discrepancy (C55).
* T Display: negative coordinates are not checked; clearPixel(Point) sets; the fast vertical line uses int8; drawImageRaw writes behind the buffer; fillRectangle with a negative start draws nothing; lines touching 32767 are not drawn (C56, C57).
* T Block devices: the mirror tests resultA twice; address + size wraps; chip erase without write enable; unaligned addresses accepted (C58).
* T ButtonGroup accepts the first sample at once (C52). T Register: all(Enum) of several bits means any; Configuration::set leaks outside its mask (C53).
* rtc mcp7941x: oscillatorRunning uses `|` and is always true. ui strobe animation: setPeriod sets the wrong key frame. ui/color.cpp and communication/rpr are not built by any module.
* T SysTick clock: at exactly 8 MHz with the divider 8 the factor us_per_Ncycles is 2^32 and stored as 0; the flag `interrupt` is shared by all callers; the time goes back while the handler is blocked; validate_frequency accepts divisors of 999 (C67). Not modelled: with FreeRTOS the timer is set up by FreeRTOS, presumably from the processor clock, while the factors assume the divided one.
* T UART (STM32, buffered): isWriteFinished() tests TXE, not TC; writeBlocking() and discardTransmitBuffer() race with the interrupt; acknowledging the overrun by reading DR discards a byte received meanwhile, and without receive buffer every transmit interrupt does (C68).
* T RTT: getSize() of an empty buffer returns the buffer size; write() with size 0 (allowed by the option) divides by zero (C69). Not modelled: the stores to the buffer are not volatile, so a compiler may move them behind the store of the index.
* T TLC594x: setDotCorrection and setAllDotCorrection do not cut values above 63, which overwrite other channels; with 43692 or more channels the uint16_t index wraps (C70).
* T Software SPI: initialize() resets SCK while operationMode keeps CPOL = 1; delayTime is a uint16_t, so baud rates below 7630 run far too fast (C71).
* T Software I2C: clock stretching of 500 quarter periods is reported as ArbitrationLost; NormalStop is signalled before the stop condition is made; a failed (repeated) start or stop leaves a line driven low; NACK of address 0 is reported as DataNack; Reading(nullptr, ...) stores a byte; delayTime is a uint16_t, 3814 Bd gives 11 ns (C72). Not modelled: the repeated start has no set-up time between the rising clock and the falling SDA.
* T I2cWriteReadTransaction: isReading stays set after a write/read, so reuse without configuring (documented as possible) leaves out the write; FailedToAttach sets a busy transaction to Error (C73).
* T TLSF: tlsf_malloc with 2^F - 2^(F-1-K) < size < 2^F (K = log2 of the second-level count, F = first-level maximum) indexes sl_bitmap past its end; tlsf_add_pool accepts exactly block_size_max and then inserts past the end of the lists; tlsf_realloc(p, size >= 2^F) returns p as if it had succeeded and trims the block to nothing, so that later allocations overlap it (C77).
* T HeapTable::find_largest accepts sections with any of the traits instead of all, and misses longer runs of adjoining sections whose first one is shorter than the best so far; the iterator keeps the offset of the fault report for all later sections, whose size may wrap around (C78).
* T FaultStorage: the iterator leaves a section only after passing its end, so a longer report writes one byte outside the heap, comes back wrong with adjoining sections, and reads past the table at the last section; g_crashCatcherStack is a linker symbol but declared as a pointer variable, so the word stored there is compared and the stack is overwritten; a report ending in the last word of a section leaves the heap set up over it (C79).
* T TLSF front end: __wrap__calloc_r takes one size, so calloc(n, size) allocates n bytes; malloc_traits with only TypeExternal/TypeCoreCoupled (or no traits) passes the null pointer of an unused element to tlsf_malloc when memory is exhausted (C80). The last pass of malloc_traits, which adds AccessSBus, is stricter than the one before and never succeeds.
* T bxCAN: StandardFilterMask does not include IDE, so standard mask filters accept extended frames with the same upper 11 bits; ExtendedIdentifierShort masks with 0x7f instead of 0x7, so bit 19 of the identifier sets RTR and the filter rejects its own data frames (C83). sendMessage pushes into the queue after testing TME without locking: if all three mailboxes complete in between, the message stays in the queue until another one is sent, which overtakes it; with interrupts masked during sendMessage a queued message is lost (C84). On a FIFO overrun the interrupt releases the oldest message unread (C85). initialize compares deadlockPreventer with 0 although it ends at -1, so a peripheral that never enters the initialization mode is reported as initialized (C86). With 64 byte messages, classic frames with DLC 9 to 15 are reported as up to 64 bytes long (C82).
* T Critical sections: LockPriority(0) masks nothing (BASEPRI 0 is off) (C87). __cxa_guard_acquire uses exchange after a separate load, so a context interrupted in between by one that completes the construction sees INITIALIZED from the exchange and constructs the object again, and marks the guard INITIALIZING, so the next user asserts (C88). On the RP2040 atomic::Lock takes the spin lock before it disables interrupts and releases it after it enables them, so a handler with a Lock (every std::atomic operation there) deadlocks; nested Locks deadlock too (C90).
* T IOStream: operator<< for function pointers passes `&pointer` to writePointer: it prints the address of its own parameter on the stack, not the function's address (iostream.hpp.in:223-226) (C91).
* T Geometry: getLengthSquared and dot of (min, min) are negative; GeometricTraits gives uint8_t a WideType of int16_t and int32_t one of int32_t, too small for squares (C92). ccw overflows for points more than half the range apart, so crossing long segments are missed; a segment of length zero on another segment is not found; Ray2D::intersects multiplies two dot products in WideType and is wrong for coordinates beyond 151 (C93). Polygon2D::intersects misses a ray through two vertices; isInside of a clockwise polygon with a repeated vertex is false everywhere inside (C94).
* T Animations: a fade slower than one unit in 128 ms (8 bit) does not finish before, it overshoots: 5 to 0 in 1000 ms is at 255 after 641 ms; 8 bit times that are multiples of 65536 divide by zero; on the AVR 8 bit times above 32767 may run backwards; animating a 32 bit value to itself cuts it to 16 bits meanwhile (`end << 16` in 32 bits), on the AVR also 16 bit values (C95). KeyFrameAnimation: isAnimating is false during the whole last frame; getMode includes the reversed bit; one frame with Autoreverse runs once (C96). Indicator::setPeriod(1000) gives 1190 ms, Strobe::setPeriod adds the pause; strobe.hpp:83 clears frames[1] instead of frames[5] (C97).
* T MCP2515 (C98-C100): `calculateBestConfig` counts SJW as the synchronization segment: with 20 MHz every bit rate but 1 Mbit/s is 11 % too fast; odd prescalers are rounded down (16 MHz, 200 kbit/s gives 250 kbit/s); 8 MHz/1 Mbit/s uses PS2 = 1 TQ (minimum is 2). The driver model assumes the chip of the data sheet.
* T MCP2515: a received DLC of 9-15 overruns a message object of 8 bytes; the `dlc` of a received message is stale; message order is not kept in either direction; `setFilter` always leaves the chip asking for the normal mode; `setMode(ListenOnlyLoopBack)` silently selects the normal mode.
* T FDCAN: readMsg never reads the FDF and BRS bits of the received header: FD frames of up to 8 bytes come out as classic messages, classic frames read after a long FD frame in the same interrupt come out as FD messages, and classic frames with DLC 9-15 get lengths of 12-64 (C101).
* T FDCAN: the RX handler acknowledges RF0N/RF1N after emptying the FIFOs, so a frame arriving in between stays in the FIFO until the next one arrives; with overwriteOnOverrun (the default) readMsg may mix two frames; sendMessage overtakes waiting messages (C102).
* T Real time clocks: Ds1302::read samples before the falling edge after the command, so every single register read is shifted left by one bit; ds1302::Data::getYear returns the BCD register; enableOscillator sets the seconds to 0; Mcp7941x::oscillatorRunning uses | instead of & and is always true; setDateTime sets the day of the week to 0 (C103).

* T Pressure sensors: Ms5611 and Ms5837 accept an all-zero calibration memory (check sum 0), Ms5837 even if every transaction failed, because readProm turns a failure into 0 (C104); rawTemperatureTouched does not clear PRESSURE_CALCULATED, so a pressure asked for between the two halves of a readout stays, compensated with the old temperature; the second order terms are computed in int32_t and overflow below -154 degrees (C105).

* T BMP085: calculateCalibratedTemperature converts the unsigned AC5 to int16_t, so a sensor with AC5 >= 32768 (the data sheet's example has 32757) shows a wrong temperature and pressure; a memory of zeros is accepted and divides by zero (C106). BME280: H4 and H5 are decoded without their sign (C107). Both drivers clear the flags before the transaction has run, so a get call meanwhile makes the old values stay until the next readout (C106, C107).

* T AD7280A (C108): the check sum of the chip is the remainder without zeros appended, so a wrong bit of the last eight data bits together with the same bit of the check sum goes unnoticed (Hamming distance 2); the driver follows the chip.

## 5. Assumptions printed per theorem

Each `XProps.v` ends with `Print Assumptions` for its theorems, so the build prints them. For all 641 property theorems
the answer is **Closed under the global context**: no axiom of the standard library, none of our own.

`coqchk` on the whole library lists, independently of any theorem, the constants of `Coq.ssr.ssrunder`
(`Under_rel`, `Over_rel`, ... — opaque parameters of the standard library's ssreflect support, loaded with `lia`'s
dependencies). No theorem depends on them.

Theorems by file:

* `AdcProps.v`: C108_crc, C108_write, C108_read, C108_register, C108_conversion, C108_detects, C108_two_bits_refuted
* `AlgoProps.v`: C29_clamps_outside, C29_exact_at_points_partial, C29_between_neighbours_partial, C29_unsigned_output_refuted, C29_unsigned_input_refuted, C29_input_distance_refuted, C30_from_range_optimal, C30_from_linear_optimal, C30_from_power_optimal, C30_from_range_real_refuted, C31_optimal_partial, C31_from_power_optimal, C31_skipped_prescaler_refuted, C31_from_power_odd_refuted, C31_overflow_refuted, C32_exact_partial, C32_condition_necessary, C32_step_one, C32_empty, C32_termination_refuted
* `AmnbProps.v`: C38_round_trip_partial, C38_long_payload_truncated, C38_round_trip_refuted, C39_memory_safe_partial, C39_unwanted_undefined, C39_leftover_refuted, C40_one_reply_partial, C40_wrong_size_is_success, C40_errors_refuted, C40_others_not_answered, C40_overlong_refuted, C40_no_memory_no_reply, C41_retries_partial, C41_generator_lives, C41_monotone_partial, C41_lowest_priority_refuted
* `AnimProps.v`: C95_an_animation_moves_to_its_end, C95_an_animation_follows_the_line, C95_bytes_follow_the_line_refuted, C95_slow_animations_do_not_stop_at_the_end, C95_fading_out_slowly_refuted, C95_multiples_of_65536_ms_undefined, C95_long_times_on_the_avr_refuted, C95_animating_to_the_same_value, C95_32_bit_values_are_cut_refuted, C95_16_bit_values_are_cut_on_the_avr_refuted, C95_the_handler_knows_the_value
* `AnyProps.v`: C60_defined, C60_exactly_once, C60_all_destroyed, C60_contents_partial, C60_observe, C60_last_value, C60_moved_from, C60_swap_lopsided, C60_swap_refuted, C60_own_content_undefined, C60_bad_cast
* `AsrtProps.v`: C89_outcome, C89_order
* `AtomProps.v`: C87_linearizable, C87_mask_restored, C87_blocks, C87_defined, C87_priority, C87_priority_zero_refuted
* `AtomicQueueProps.v`: C01_every_interleaving_is_fifo, C01_taken_is_prefix_of_accepted, C02_sequential_refinement, C02_capacity_above_65535_refuted
* `BdProps.v`: C58_heap, C58_heap_refuses, C58_heap_wrap_undefined, C58_mirror_partial, C58_mirror_first, C58_mirror_refuses, C58_mirror_refuted, C58_mirror_refusal_refuted, C58_flash_initialize, C58_flash_read, C58_flash_program, C58_flash_erase_partial, C58_flash_write_partial, C58_flash_refuses, C58_flash_chip_erase_ignored, C58_flash_chip_write, C58_flash_write_refuted, C58_flash_unaligned_refuted, C58_flash_unaligned_erase_refuted, C58_flash_wrap_refuted, C58_stack_initialize, C58_stack_read, C58_stack_program, C58_stack_write_partial, C58_stack_erase_partial, C58_stack_erase_refuted, C58_stack_refuses, C58_stack_idle, C58_stack_busy_refuted
* `BitsProps.v`: C20_bitReverse, C20_bitCount, C20_leftmostBit, C20_swap, C21_endianness_16, C21_endianness_32, C21_endianness_signed
* `BlockAllocProps.v`: C48_first_fit, C48_every_request_answered, C48_blocks_disjoint, C48_block_large_enough, C48_all_freed, C48_contents_survive, C48_clamped_heap, C48_huge_request_refuted, C48_wide_pointer_refuted, C48_tiny_heap_refuted
* `BmpProps.v`: C106_initialize, C106_temperature, C106_pressure, C106_ac5_refuted, C106_ac5_wrong, C106_difference_refuted, C106_zero_undefined, C106_cache, C106_stale_refuted, C107_temperature, C107_near_T1, C107_overflow_refuted, C107_humidity, C107_humidity_sign_wrong, C107_cache, C107_stale_wrong
* `ButtonProps.v`: C52_debounced, C52_debounced_partial, C52_first_sample_refuted, C52_flags, C52_queries, C52_reported_once, C52_repeat, C52_short_long
* `BxProps.v`: C82_send_frame, C82_receive_partial, C82_round_trip, C82_receive_refuted, C83_other_banks, C83_disable, C83_extended_mask, C83_standard_mask_partial, C83_standard_mask_refuted, C83_list, C83_short_list_partial, C83_short_mask_partial, C83_short_list_refuted, C84_nothing_lost, C84_in_order_partial, C84_stuck_refuted, C84_order_refuted, C84_masked_refuted, C85_interrupt_defined, C85_no_invention, C85_queue_kept, C85_all_delivered, C85_overrun_refuted, C85_order_refuted, C86_returns, C86_acknowledged, C86_not_left, C86_not_entered_undetected, C86_not_entered_refuted
* `CanProps.v`: C49_round_trip, C49_accepts_partial, C49_accepts_refuted, C50_setLength, C50_constructor, C50_setDataLengthCode_partial, C50_large_code_undefined, C63_from_value, C63_from_array_partial, C63_from_array_undefined, C64_strict_weak_order, C64_arbitration_partial, C64_arbitration_refuted
* `ColorProps.v`: C59_hsv_to_rgb, C59_hsv_gamut, C59_hsv_grey, C59_hsv_accuracy, C59_hsv_to_565, C59_hsv16_black, C59_hsv16_refuted, C59_565_pack, C59_565_round_trip, C59_565_quantisation, C59_565_wide_refuted, C59_565_add, C59_565_sub, C59_widen_narrow, C59_hsv_value_partial, C59_hsv_saturated_partial, C59_grey_round_trip, C59_hsv_sat_refuted
* `CrcProps.v`: C18_crc_value_is_unique, C18_crc16_ccitt_is_polynomial_remainder, C18_crc32_is_polynomial_remainder, C18_sab_crc_is_polynomial_remainder, C18_sab2_rpr_crc_is_polynomial_remainder, C18_residue_zero_iff_appended_crc, C18_crc8_ccitt_refuted, C19_crc8_ccitt_refuted, C19_crc8_ccitt_ignores_bit_7, C19_crc16_ccitt_detection, C19_sab2_rpr_crc_detection, C19_sab_crc_detection, C19_crc32_bursts
* `DequeProps.v`: C03_deque_refines_bounded_list, C04_iteration_nonempty_partial, C04_iteration_empty_refuted, C04_decrement_end_refuted, C04_decrement_past_last_refuted, C05_bounded_queue_is_fifo, C05_bounded_stack_is_lifo
* `DispProps.v`: C56_vertical_pixel, C56_horizontal_pixel, C56_negative_undefined, C56_clear_point_refuted, C56_clear, C56_fast_hline, C56_fast_vline_partial, C56_fast_vline_refuted, C56_rectangle, C56_horizontal_rectangle, C56_fill, C56_fill_refuted, C56_fast_image, C56_fast_image_undefined, C56_image, C56_fast_image_same, C56_vertical_image, C57_line, C57_vertical_display, C57_border_refuted
* `DynArrayProps.v`: C08_sequence, C08_storage, C08_destructor, C08_self_assignment_undefined, C08_append_own_element_undefined, C08_all_calls_refuted, C08_reserve_overflow_refuted, C08_removeBack_empty_undefined
* `EncProps.v`: C54_input, C54_input_total, C54_output_partial, C54_agree_partial, C54_backward_step_lost, C54_backward_refuted
* `FdProps.v`: C101_addresses, C101_elements_disjoint, C101_elements_inside, C101_send, C101_receive, C101_receive_frame_partial, C101_receive_short_fd_wrong, C101_receive_long_classic_wrong, C101_receive_stale_fd_refuted, C101_standard_filters, C101_extended_filters, C101_filter_index, C102_transmission, C102_no_stall, C102_drains, C102_order_refuted, C102_reception, C102_reception_resumes, C102_reception_lost_wakeup_refuted, C102_overwrite_torn_refuted
* `FiberProps.v`: C15_queue, C15_start, C15_round_robin, C15_no_run_after_end, C15_terminates
* `FilterProps.v`: C24_counter_in_range, C24_changes_only_at_bounds, C24_settles, C25_mean_of_last_N, C25_large_N_refuted, C26_position_after_k_updates, C26_no_overshoot_and_arrival, C26_target_reached_partial, C26_reset_refuted, C26_far_target_refuted, C27_limits_hold, C27_limits_hold_after_history, C27_anti_windup, C61_pid_formula_partial, C61_pid_state_partial, C61_pid_int16_refuted, C28_convolution
* `FnProps.v`: C81_operations, C81_exactly_once, C81_all_destroyed, C81_call, C81_empty
* `GeoProps.v`: C92_dot_products_are_exact_but_for_one, C92_squared_lengths_are_exact_but_for_one, C92_cross_products_are_exact, C92_lengths_of_uint8_vectors_refuted, C92_lengths_of_int32_vectors_refuted, C92_ccw_tells_the_orientation, C92_ccw_for_all_points_refuted, C93_intersects_says_whether_segments_meet, C93_intersects_for_points_refuted, C93_intersects_for_all_segments_refuted, C93_ray_intersects_says_whether_it_crosses, C93_ray_intersects_for_all_rays_refuted, C94_isInside_says_whether_the_point_is_in_the_convex_polygon, C94_isInside_with_a_repeated_vertex_refuted, C94_polygons_intersect_when_their_sides_meet, C94_a_segment_intersects_a_polygon_when_it_meets_a_side, C94_a_ray_intersects_a_polygon_when_it_crosses_a_side, C94_a_ray_intersects_a_polygon_refuted
* `GrdProps.v`: C88_exclusive, C88_once_partial, C88_twice_refuted, C88_spurious_refuted
* `HfrontProps.v`: C80_initialize, C80_live_blocks_are_disjoint, C80_malloc, C80_free, C80_realloc, C80_types_only_undefined, C80_calloc_refuted
* `HtabProps.v`: C78_find_largest_partial, C78_largest_continuous_refuted, C78_at_least_the_traits_refuted, C78_rest_of_the_last_section, C78_later_sections_refuted, C79_report_is_read_back_partial, C79_byte_behind_the_section_refuted, C79_adjoining_sections_refuted, C79_crash_stack_refuted, C79_heap_over_the_report_refuted
* `I2cProps.v`: C72_detached_once, C72_returns, C72_exchange, C72_long_stretch_refuted, C72_failed_stop_refuted, C72_address_zero_refuted, C72_null_read_undefined, C72_failed_restart_refuted, C72_baudrate, C72_slow_baudrate_refuted, C73_reuse, C73_reuse_write_read_refuted, C73_second_start_refuted
* `IosProps.v`: C91_sequences_are_written_as_the_text_of_their_things, C91_a_numeral_of_given_length_is_unique, C91_function_pointers_are_written_refuted, C91_function_pointers_are_undetected, C91_blocking_devices_lose_nothing, C91_blocking_devices_get_nothing_else, C91_blocking_on_a_dead_device_hangs, C91_discarding_devices_lose_what_they_refuse, C91_get_fills_the_buffer_and_terminates_it
* `KeyProps.v`: C96_only_frames_of_the_array_are_read, C96_frames_are_shown_in_a_cycle, C96_frames_are_shown_forwards_and_backwards, C96_autoreverse_of_one_frame_stops, C96_every_frame_reaches_its_values, C96_frames_take_one_update_more, C96_isAnimating_until_the_end_refuted, C96_getMode_returns_the_mode_refuted, C97_a_pulse_takes_its_period, C97_long_pulses_have_their_share_refuted, C97_an_indicator_takes_its_period_and_the_fades, C97_an_indicator_takes_its_period_refuted, C97_fade_times_keep_the_time, C97_fade_times_of_a_strobe_keep_the_time, C97_a_strobe_takes_its_period_and_the_pause, C97_short_second_flashes_refuted
* `ListProps.v`: C06_sequence, C06_front_back, C06_destructor, C06_insert_before_refuted, C07_sequence, C07_destructor, C07_decrement_end_undefined
* `McProps.v`: C90_exclusive, C90_guards_go_on, C90_locks_go_on_partial, C90_interrupted_lock_hangs, C90_nested_lock_hangs, C90_lock_deadlock_refuted
* `McpProps.v`: C98_sent_once, C98_received_once, C98_send_refuses, C98_ready_to_send, C98_get_refuses, C98_send_order_refuted, C98_receive_order_refuted, C98_send_long_undefined, C98_get_long_undefined, C98_get_keeps_dlc, C98_get_dlc_refuted, C99_filter_accepts, C99_filter_registers, C99_filter_forgets_mode, C99_set_mode, C99_listen_loopback_undetected, C100_initialize, C100_odd_prescaler_wrong, C100_20MHz_wrong, C100_phase_segment_refuted
* `MedianProps.v`: C23_median_of_last_N_samples, C23_median_is_unique
* `OwProps.v`: C55_enumerates, C55_family, C55_verify_sound, C55_verify_partial, C55_verify_refuted, C55_skip_family_refuted
* `PrsProps.v`: C104_crc_5611, C104_crc_5837, C104_initialize_5611, C104_initialize_5837, C104_detects_5611, C104_detects_5837, C104_dead_5611_refuted, C104_failing_5837_wrong, C105_values_5611, C105_values_5837, C105_cold_5611_refuted, C105_hot_5837_refuted, C105_cache_5611, C105_cache_5837, C105_stale_pressure_refuted
* `RegProps.v`: C53_flags, C53_queries, C53_single_bit, C53_all_enum_refuted, C53_configuration_partial, C53_configuration_refuted, C53_value
* `ResumProps.v`: C17_nested, C17_nested_safe, C17_stop_levels, C17_depth, C17_depth_refuted, C17_deepest_query_undefined, C17_unchecked_refuted, C17_clash_refuted, C17_plain, C17_plain_result, C17_plain_stop, C17_plain_queries
* `RprProps.v`: C42_send, C42_receive_partial, C42_receive_refuted, C42_bad_checksum, C42_unicast_ring_partial, C42_broadcast_ring_partial, C42_default_group_refuted, C43_busy_send, C43_alone_partial, C43_every_other_lost, C43_refuted, C43_direct_send_discards, C65_safe_partial, C65_long_frame_undefined, C66_dispatch, C66_node_update
* `RtcProps.v`: C103_write, C103_readRtc, C103_read_wrong, C103_read_refuted, C103_fields, C103_fields_12h, C103_year_wrong, C103_oscillator, C103_protect, C103_get, C103_set, C103_set_fails, C103_running_wrong, C103_running_refuted
* `RttProps.v`: C69_transmit, C69_refused, C69_delivered, C69_size, C69_size_refuted, C69_zero_undefined, C69_receive, C69_read_empty
* `Sab2Props.v`: C36_sent_bytes_are_a_frame, C36_round_trip, C36_capacity_252_refuted, C36_long_payload_refuted, C37_never_out_of_bounds, C37_update_stays_in_bounds, C37_message_kept_until_dropped, C37_delivers_exactly_partial, C37_overlong_refuted
* `SabProps.v`: C33_sent_bytes_are_a_frame, C33_round_trip, C33_large_address_refuted, C33_large_payload_refuted, C34_never_out_of_bounds, C34_chunking_is_irrelevant, C34_reports_exactly_the_valid_frames, C34_intact_frame_after_garbage, C34_recovers_after_36_other_bytes, C34_message_kept_until_next_sync_partial, C34_message_kept_until_dropped_refuted, C34_unchecked_command_executed_refuted, C35_request_answered_exactly_once, C35_some_outcome_always_expected, C35_others_ignored, C35_at_most_one_reply_per_update, C35_two_requests_in_one_update_refuted, C62_query_reaches_slave_and_back, C62_no_response_times_out, C62_foreign_response_accepted_refuted
* `SaturatedProps.v`: C22_add_sub_exact_partial, C22_add_int_min_refuted, C22_increment_decrement, C22_conversion, C22_mul_exact_partial, C22_mul_negative_refuted, C22_negate_absolute_partial, C22_negate_absolute_min_refuted
* `SchedProps.v`: C14_tick_partial, C14_runs_partial, C14_priority0_hangs, C14_nested_order_refuted, C14_nested_hang_refuted
* `SemProps.v`: C16_admission, C16_wakes, C16_control_flow, C16_finished, C16_release_wrap_refuted, C16_long_file_refuted
* `SmartPtrProps.v`: C09_sequence, C09_lifetime, C09_early_release, C09_any_number_of_handles_refuted, C09_self_assignment_undefined, C09_self_assignment_refuted, C09_print
* `SpiProps.v`: C71_transfer, C71_array, C71_mode, C71_order, C71_initialize_refuted, C71_rate, C71_rate_refuted
* `TickProps.v`: C67_reading, C67_monotone, C67_rate, C67_returns, C67_stands_8MHz, C67_late_tick_refuted, C67_nested_call_refuted, C67_freertos_second, C67_freertos_frequency_refuted
* `TimeProps.v`: C51_round_trip, C51_date_unique, C51_date_partial, C51_day_of_year_refuted, C51_after_2100_wrong, C51_to_timestamp
* `TimeoutProps.v`: C10_timeout_equals_ideal_across_wrap, C10_C11_never_early_never_twice, C11_states_exclusive, C12_periodic_no_drift, C12_counts_elapsed_periods_partial, C12_counts_elapsed_periods_refuted, C13_remaining_within_epoch_partial, C13_remaining_after_wrap_refuted, C13_restart_after_stop_refuted
* `TlcProps.v`: C70_set_channel, C70_get_channel, C70_set_all, C70_set_dot, C70_get_dot, C70_set_all_dot, C70_outside, C70_dot_overflow_refuted, C70_all_dot_overflow_refuted, C70_many_channels_undefined
* `TlsfProps.v`: C74_live_blocks_are_disjoint, C74_malloc_is_safe, C74_free_is_safe, C74_pool_is_accepted, C75_good_fit, C75_free_blocks_are_merged, C75_nothing_leaks, C75_all_freed, C76_memalign, C76_realloc, C76_realloc_as_free_and_malloc, C77_request_in_the_last_class_undefined, C77_largest_pool_undefined, C77_realloc_beyond_the_limit_refuted
* `UartProps.v`: C68_transmit, C68_refused, C68_finished, C68_finished_refuted, C68_drains, C68_receive, C68_dropped, C68_acknowledge_refuted, C68_unbuffered_receive_refuted, C68_blocking_refuted, C68_blocking_order_refuted, C68_discard_refuted
* `XdProps.v`: C47_events, C47_at_most, C47_acknowledged, C47_gives_up, C47_waits_for_ever, C47_callback_lost_refuted
* `XpccProps.v`: C44_identifier, C44_round_trip, C44_injective, C44_onto, C45_send, C45_any_order, C45_round_trip, C45_short, C45_long_payload_lost, C45_truncated_refuted, C46_safe_partial, C46_overflow_undefined, C46_refuted, C46_incomplete_refuted, C46_mixture_refuted
