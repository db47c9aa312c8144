{"id": "C01", "title": "Interrupt-safe queue loses, duplicates and reorders nothing", "statement": "For modm::atomic::Queue used by one producer and one consumer (one of them an interrupt handler), the values obtained by the consumer with get()/pop() after isNotEmpty/!isEmpty are exactly a prefix of the values for which push() returned true, in push order, whatever the point at which one side is interrupted by the other.", "quantifier": "every capacity N, every interleaving of the individual memory accesses of push with those of isEmpty/get/pop, every value sequence", "why_tests_cant": "an interrupt can hit between any two memory accesses; a test runs one schedule", "anchors": ["src/modm/architecture/driver/atomic/queue.hpp: Queue", "src/modm/architecture/driver/atomic/queue_impl.hpp: push, pop, get, isEmpty, isFull"]}
{"id": "C02", "title": "Interrupt-safe queue capacity and fill-level reporting", "statement": "Used sequentially, modm::atomic::Queue<T,N> stores exactly N elements: push() is refused iff N elements are stored, isEmpty/isFull/getSize report the stored count exactly, and isNearlyFull/isNearlyEmpty are exactly 'fewer than 3 free places' / 'fewer than 3 elements'.", "quantifier": "every N admitted by the index type, every sequence of push/pop", "why_tests_cant": "off-by-one errors show only at particular wrap positions of head and tail for particular N", "anchors": ["src/modm/architecture/driver/atomic/queue_impl.hpp: push, pop, getSize, isNearlyFull, isNearlyEmpty"]}
{"id": "C03", "title": "BoundedDeque behaves like a list of at most N elements", "statement": "Every sequence of append/appendOverwrite/prepend/prependOverwrite/removeFront/removeBack/clear on a BoundedDeque<T,N> yields the same return values and the same getSize/isEmpty/isFull/getFront/getBack/get(i)/rget(i) as the same operations on an abstract list bounded by N (overwrite operations discard the element at the opposite end).", "quantifier": "every N>=1, every operation sequence that does not read or remove from an empty container, every index below the size", "why_tests_cant": "the ring indices take N*N states times contents; only a refinement proof covers all wrap positions", "anchors": ["src/modm/container/deque.hpp: BoundedDeque", "src/modm/container/deque_impl.hpp"]}
{"id": "C04", "title": "Iterating a BoundedDeque visits exactly its elements", "statement": "begin()..end() of a BoundedDeque visits every stored element exactly once, from front to back, for any fill level and ring position, including the empty container; decrementing end() yields the last element.", "quantifier": "every N, every reachable state", "why_tests_cant": "the end marker is an index convention; the empty and full states look alike to a spot test", "anchors": ["src/modm/container/deque_impl.hpp: const_iterator::operator++, operator--, begin, end"]}
{"id": "C05", "title": "BoundedQueue is FIFO and BoundedStack is LIFO", "statement": "BoundedQueue<T,N> delivers accepted elements in insertion order, BoundedStack<T,N> in reverse order; both refuse a push exactly when N elements are stored and never change the stored elements on refusal.", "quantifier": "every N>=1 and every operation sequence", "why_tests_cant": "ordering over all histories is a refinement statement", "anchors": ["src/modm/container/queue.hpp: BoundedQueue", "src/modm/container/stack.hpp: BoundedStack"]}
{"id": "C06", "title": "LinkedList behaves like a list", "statement": "prepend/append/insert/removeFront/remove/removeAll/getFront/getBack/getSize/isEmpty/iteration on modm::LinkedList agree with the corresponding operations on an abstract sequence; back() always denotes the last element, also after removing the last element or the only element; insert(pos, x) places x before pos as for the standard containers.", "quantifier": "every operation sequence, every position", "why_tests_cant": "the back pointer is only wrong after particular removal orders", "anchors": ["src/modm/container/linked_list_impl.hpp: LinkedList"]}
{"id": "C07", "title": "DoublyLinkedList behaves like a list in both directions", "statement": "prepend/append/removeFront/removeBack/erase on modm::DoublyLinkedList agree with an abstract sequence, the forward and backward chains always denote the same sequence, and erase returns the iterator of the element following the erased one (end() if none).", "quantifier": "every operation sequence, every erase position", "why_tests_cant": "a broken back link is invisible to forward traversal tests", "anchors": ["src/modm/container/doubly_linked_list_impl.hpp: DoublyLinkedList"]}
{"id": "C08", "title": "DynamicArray preserves its contents across growth", "statement": "modm::DynamicArray behaves like a sequence under append/removeBack/operator[]/reserve/clear/removeAll/copy/assign/find: size never exceeds capacity, growth never changes stored elements, indices below the size never touch released or uninitialised memory, including a.append(a[i]) and a = a.", "quantifier": "every operation sequence", "why_tests_cant": "reallocation happens at particular sizes only; use-after-free may go unnoticed in tests", "anchors": ["src/modm/container/dynamic_array_impl.hpp: DynamicArray"]}
{"id": "C09", "title": "SmartPointer releases its block exactly once and never early", "statement": "Whatever the order of construction, copy, assignment and destruction of SmartPointer handles, a shared block stays allocated and unchanged while a handle refers to it and is released exactly when the last handle goes away.", "quantifier": "every number of handles and every operation sequence", "why_tests_cant": "the reference count is 8 bits wide and assignment releases before it acquires; only long or aliased histories expose this", "anchors": ["src/modm/container/smart_pointer.cpp", "src/modm/container/smart_pointer.hpp"]}
{"id": "C10", "title": "A Timeout never fires early and fires once its interval elapsed, across clock wrap-around", "statement": "After restart(d) at clock time t, isExpired()/execute() is false at every polled time less than d after t, and true at the first poll at or after d, no matter where the free-running clock counter wraps, as long as the poll happens within one clock period.", "quantifier": "every start time, every interval representable in the clock type, every poll schedule", "why_tests_cant": "wrap-around happens after minutes to weeks; a test cannot sit at every counter value", "anchors": ["src/modm/processing/timer/timeout_impl.hpp: GenericTimeout::restart, checkExpiration, state, isExpired"]}
{"id": "C11", "title": "Timeout::execute reports each expiry exactly once", "statement": "execute() returns true at most once per restart(), never after stop(), and isArmed/isExpired/isStopped are mutually exclusive with exactly one true at any time; a stopped timeout stays stopped until restarted.", "quantifier": "every sequence of restart/stop/execute/state queries at any clock times", "why_tests_cant": "state combinations over histories of calls", "anchors": ["src/modm/processing/timer/timeout_impl.hpp: execute, state, stop, isArmed, isExpired, isStopped"]}
{"id": "C12", "title": "PeriodicTimer does not drift and counts missed periods", "statement": "PeriodicTimer::execute() returns the number of periods that have elapsed since the last reported one, activation instants stay on the grid start+k*interval regardless of polling jitter, so the sum of all returned counts equals floor((now-start)/interval).", "quantifier": "every interval>0, every poll schedule (within clock range), every start time", "why_tests_cant": "drift and lost periods accumulate only over many irregular polls", "anchors": ["src/modm/processing/timer/periodic_timer.hpp: GenericPeriodicTimer::execute"]}
{"id": "C13", "title": "Timeout::remaining is the signed time until expiry", "statement": "For an armed or expired timeout remaining() equals interval minus the time since start (negative after expiry); for a stopped one it is zero; restart() re-arms with the previous interval.", "quantifier": "every clock value at start and at the query, including wrap-around in between", "why_tests_cant": "depends on the relation of two counter values modulo 2^width", "anchors": ["src/modm/processing/timer/timeout_impl.hpp: remaining, restart"]}
{"id": "C14", "title": "Cooperative priority scheduler runs every due task once in priority order", "statement": "modm::Scheduler runs each scheduled task exactly once per elapsed period, higher priority first, and never runs a task whose period has not elapsed; scheduling state stays consistent for ever.", "quantifier": "every set of tasks with periods and priorities, every number of ticks", "why_tests_cant": "the ready list is threaded through the tasks; corruption appears after particular period coincidences", "anchors": ["src/modm/processing/scheduler/scheduler.cpp: scheduleTask, scheduleInterupt", "src/modm/processing/scheduler/scheduler.hpp"]}
{"id": "C15", "title": "Fiber scheduler is round-robin fair and keeps its ring intact", "statement": "For any sequence of task start, yield and task end, every ready fiber runs exactly once between two consecutive runs of any other fiber that stays ready, no fiber is lost or run after its end, and the scheduler terminates exactly when no fiber is left.", "quantifier": "every number of fibers and every schedule of yields, starts and exits", "why_tests_cant": "the ring is a mutable circular list; all histories matter", "anchors": ["src/modm/processing/fiber/scheduler.hpp.in: Scheduler", "src/modm/processing/fiber/task.hpp"]}
{"id": "C16", "title": "Protothread semaphore never over-admits", "statement": "A protothread Semaphore with initial count n lets at most n protothreads hold it at any time under any interleaving, wakes a waiter whenever a unit is available and it is polled, and a Mutex admits one.", "quantifier": "every n, every interleaving of acquire/release polls of any number of protothreads", "why_tests_cant": "interleavings", "anchors": ["src/modm/processing/protothread/semaphore.hpp", "src/modm/processing/protothread/macros.hpp"]}
{"id": "C17", "title": "Resumable function state tracking", "statement": "For modm::Resumable and modm::NestedResumable the bookkeeping is exact: a function that has not finished is reported running, after its end or stop it is not running and restarts from its beginning, nesting deeper than the declared depth is refused without corrupting other levels, and querying the state never reads outside the object.", "quantifier": "every call/return/yield sequence, every declared depth", "why_tests_cant": "state machine histories", "anchors": ["src/modm/processing/resumable/resumable.hpp", "src/modm/processing/resumable/nested_resumable.hpp.in", "src/modm/processing/resumable/macros.hpp"]}
{"id": "C18", "title": "CRC functions compute the standard CRCs", "statement": "modm::math::crc16_ccitt, crc32 and crc8_ccitt equal, for every byte string, the polynomial-division CRC with the documented generator, initial value, reflection and final XOR, and the incremental update gives the same result for any split of the data.", "quantifier": "every byte string of every length, every split", "why_tests_cant": "infinitely many strings; vectors only sample", "anchors": ["src/modm/math/utils/crc.hpp: crc8_ccitt_update, crc16_ccitt_update, crc32_update, crc8_ccitt, crc16_ccitt, crc32"]}
{"id": "C19", "title": "Frame checksums detect every short burst error", "statement": "A frame protected by the 16-bit CRC (sab2, rpr, amnb data), the 32-bit CRC or the 8-bit CRC (sab, 1-wire, amnb header) is never accepted when it differs from a valid one only within a burst not longer than the CRC width (in particular any single-bit error), for frames of any length.", "quantifier": "every message, every length, every error pattern within a window of the CRC width", "why_tests_cant": "exponentially many messages and error patterns", "anchors": ["src/modm/communication/sab/interface.cpp: crcUpdate", "src/modm/communication/sab2/interface.cpp: crcUpdate", "src/modm/math/utils/crc.hpp"]}
{"id": "C20", "title": "Bit utilities are correct for all words", "statement": "modm::bitReverse reverses the bit order, modm::bitCount counts the set bits, modm::leftmostBit gives the index of the highest set bit, and modm::swap exchanges bytes, for all 8/16/32 bit values.", "quantifier": "every 8, 16 and 32 bit value", "why_tests_cant": "2^32 values; mask tricks fail on isolated values", "anchors": ["src/modm/math/utils/bit_operation.hpp", "src/modm/math/utils/bit_operation.cpp"]}
{"id": "C21", "title": "Endianness conversions round-trip and produce network order", "statement": "toBigEndian/fromBigEndian/toLittleEndian/fromLittleEndian are inverse to each other for all values on both host byte orders, and the memory image of toBigEndian(v) lists the bytes of v most significant first on either host.", "quantifier": "every value, both host orders, 8/16/32 bit", "why_tests_cant": "the suite runs on one host byte order only", "anchors": ["src/modm/math/utils/endianness.hpp"]}
{"id": "C22", "title": "Saturated arithmetic clamps the exact result", "statement": "For modm::Saturated<T> over any signed or unsigned integer type, +, -, *, +=, -=, *=, ++, --, unary minus and conversion give the exact mathematical result clamped to the range of T.", "quantifier": "every pair of operand values and operand types", "why_tests_cant": "2^(2w) operand pairs per type combination", "anchors": ["src/modm/math/saturation/saturated.hpp: Saturated"]}
{"id": "C23", "title": "Median filters return the median of the last N samples", "statement": "modm::filter::Median<T,N> for N=3,5,7,9 returns after every update the middle element of the sorted last N samples (initial value counting for samples not yet seen).", "quantifier": "every input history, every element order", "why_tests_cant": "the networks are only correct if they select the median for all N! orders from every stored arrangement", "anchors": ["src/modm/math/filter/median_3_impl.hpp", "src/modm/math/filter/median_5_impl.hpp", "src/modm/math/filter/median_7_impl.hpp", "src/modm/math/filter/median_9_impl.hpp"]}
{"id": "C24", "title": "Debounce filter has bounded hysteresis", "statement": "modm::filter::Debounce keeps its counter within [0,max], changes its output only when the counter reaches the respective bound, and changes it after at most max consecutive equal samples.", "quantifier": "every configuration and every input history", "why_tests_cant": "all boolean input sequences", "anchors": ["src/modm/math/filter/debounce_impl.hpp"]}
{"id": "C25", "title": "Moving average equals the average of the last N samples with no drift", "statement": "modm::filter::MovingAverage<T,N>::getValue() equals the truncated mean of exactly the last N inputs after any number of updates, provided N times the largest magnitude fits the type.", "quantifier": "every N, every history of in-range inputs", "why_tests_cant": "running-sum drift shows only over long histories", "anchors": ["src/modm/math/filter/moving_average.hpp"]}
{"id": "C26", "title": "Ramp reaches its target without overshoot", "statement": "modm::filter::Ramp moves monotonically towards the target by at most the configured step, never crosses it, reports the target reached exactly when its value equals the target and reaches a constant target after ceil(distance/step) updates.", "quantifier": "every start, target and positive steps within type range; every sequence of target changes", "why_tests_cant": "value and target space is unbounded", "anchors": ["src/modm/math/filter/ramp_impl.hpp"]}
{"id": "C27", "title": "PID controller output and integrator stay within their limits", "statement": "modm::Pid never outputs a value beyond maxOutput in magnitude, its error sum never exceeds maxErrorSum in magnitude, and while the output is limited the error sum does not grow in magnitude (anti-windup).", "quantifier": "every parameter set and every input history that does not overflow the wide type", "why_tests_cant": "all histories", "anchors": ["src/modm/math/filter/pid_impl.hpp"]}
{"id": "C28", "title": "FIR filter computes the convolution of the last N samples", "statement": "After any number of append()/update() calls modm::filter::Fir::getValue() is the dot product of the coefficients with the last N samples, independent of the block buffer position, for any BLOCK_SIZE.", "quantifier": "every N, block size, coefficient set and history", "why_tests_cant": "the ring window is moved only every BLOCK_SIZE samples", "anchors": ["src/modm/math/filter/fir_impl.hpp"]}
{"id": "C29", "title": "Piecewise linear interpolation passes through its points and clamps outside", "statement": "modm::interpolation::Linear::interpolate returns the first/last support value outside the table, exactly the support value at a support point, and between two neighbouring points a value between the two support values.", "quantifier": "every table with increasing abscissae and every argument", "why_tests_cant": "integer division and signedness make individual segments misbehave", "anchors": ["src/modm/math/interpolation/linear_impl.hpp"]}
{"id": "C30", "title": "Prescaler selection is optimal", "statement": "modm::Prescaler::from_range/from_list/from_power return an admissible prescaler whose resulting frequency error is minimal among all admissible prescalers.", "quantifier": "every input frequency, desired frequency and admissible set", "why_tests_cant": "the parameter space is unbounded; ties and clamping occur at isolated values", "anchors": ["src/modm/math/algorithm/prescaler.hpp"]}
{"id": "C31", "title": "Prescaler/counter selection is optimal", "statement": "modm::PrescalerCounter::from_range/from_list/from_power return a prescaler and counter within the allowed ranges whose product is closest to the requested ratio.", "quantifier": "every input/desired frequency, resolution and prescaler range", "why_tests_cant": "unbounded parameter space, nested search with early termination", "anchors": ["src/modm/math/algorithm/prescaler_counter.hpp"]}
{"id": "C32", "title": "Range iteration visits exactly the stated values", "statement": "Iterating modm::range(start, stop, step) visits start, start+step, ... while before stop, terminates for every admissible argument and visits nothing for an empty range.", "quantifier": "every start/stop/step of every integral type", "why_tests_cant": "overshoot past the stop value and type limits only at isolated arguments", "anchors": ["src/modm/math/algorithm/range.hpp"]}
{"id": "C33", "title": "SAB frames round-trip", "statement": "A message sent by sab::Interface::sendMessage with address<64 and payload of at most 32 bytes is received by an idle sab::Interface as an available message with the same address, flags, command and payload.", "quantifier": "every address, flag, command, payload", "why_tests_cant": "payload space is 256^32", "anchors": ["src/modm/communication/sab/interface_impl.hpp: sendMessage, update"]}
{"id": "C34", "title": "SAB receiver accepts only valid frames and recovers", "statement": "Whatever bytes arrive, the SAB receiver never writes outside its buffer, reports a message only if the bytes just received form a frame with correct length and CRC, keeps a reported message unchanged until dropped, and an intact frame following garbage that contains no sync byte is received.", "quantifier": "every byte stream and every chunking into update() calls", "why_tests_cant": "all byte streams", "anchors": ["src/modm/communication/sab/interface_impl.hpp: update"]}
{"id": "C35", "title": "SAB slave answers every request addressed to it exactly once", "statement": "For each received request addressed to the slave exactly one response frame is sent: the callback's answer, or an error frame with the documented code for unknown command, wrong payload length or missing response; frames for other addresses and responses are ignored silently.", "quantifier": "every action table, every received message, every callback behaviour that answers at most once", "why_tests_cant": "table contents and message space", "anchors": ["src/modm/communication/sab/slave_impl.hpp: update, send"]}
{"id": "C36", "title": "SAB2 frames round-trip for any payload", "statement": "Any message of at most N payload bytes written by sab2::Interface::sendMessage is delivered unchanged by a receiver in any idle state, whatever bytes (control codes included) it contains, also back to back with other frames.", "quantifier": "every payload content and length up to N, every N supported, every preceding garbage ended by a frame boundary", "why_tests_cant": "byte stuffing must be transparent for all contents", "anchors": ["src/modm/communication/sab2/interface_impl.hpp: sendMessage, update, writeByteEscaped", "src/modm/communication/sab2/interface.cpp: crcUpdate"]}
{"id": "C37", "title": "SAB2 receiver delivers only frames whose CRC covers the delivered content", "statement": "Whatever bytes arrive, the SAB2 receiver never writes outside its buffer and a reported message consists of exactly the unescaped bytes between two frame boundaries with a matching CRC; over-long frames are discarded.", "quantifier": "every byte stream", "why_tests_cant": "all byte streams, in particular over-long ones", "anchors": ["src/modm/communication/sab2/interface_impl.hpp: update"]}
{"id": "C38", "title": "AMNB messages round-trip over the wire", "statement": "A message of any type, address, command and payload up to the documented 8 kB sent by amnb::Interface::transmit and received by an idle interface with sufficient heap yields the same type, address, command, length and payload.", "quantifier": "every payload content and length 0..8192", "why_tests_cant": "length and content space; lengths near encoding limits", "anchors": ["src/modm/communication/amnb/interface.hpp: transmit, receiveHeader, receiveData", "src/modm/communication/amnb/message.hpp.in"]}
{"id": "C39", "title": "AMNB reception never touches memory it does not own", "statement": "Whatever bytes arrive, receiving AMNB messages writes only to the message object and to heap blocks the message itself allocated, and frees only such blocks, once.", "quantifier": "every byte stream, every sequence of messages", "why_tests_cant": "depends on leftovers of earlier messages", "anchors": ["src/modm/communication/amnb/message.hpp.in: allocate, deallocate, Storage", "src/modm/communication/amnb/node.hpp: receive"]}
{"id": "C40", "title": "AMNB request handling reports errors as errors", "statement": "Every request addressed to a node leads to exactly one queued reply (queue permitting) carrying the node's address and the command; a request with a wrong argument size, failed allocation or unknown command is answered by an error-type message, so that the requester does not see success.", "quantifier": "every action table and request", "why_tests_cant": "error paths combine message type, size and handler kind", "anchors": ["src/modm/communication/amnb/handler.hpp: Response, Action", "src/modm/communication/amnb/node.hpp: handleRxMessage"]}
{"id": "C41", "title": "AMNB retransmission count and back-off", "statement": "A message is transmitted a bounded number of times which does not decrease with the priority (higher command, more tries), the back-off random state never degenerates to zero, and every back-off delay lies in the window given by the mask and priority.", "quantifier": "every command, every random state reachable from a node address", "why_tests_cant": "255 commands times 65535 generator states", "anchors": ["src/modm/communication/amnb/node.hpp: send, reschedule, setSeed"]}
{"id": "C42", "title": "RPR frames round-trip and are forwarded unchanged", "statement": "A message sent by rpr::Interface is delivered to the addressed node (unicast, its multicast group, broadcast) with unchanged source, command and payload, and is forwarded byte-identically by nodes that are neither its source nor its unicast destination.", "quantifier": "every address, type, command and payload up to N", "why_tests_cant": "address and payload space", "anchors": ["src/modm/communication/rpr/interface_impl.hpp: writeMessage, update"]}
{"id": "C43", "title": "RPR transmits every queued message once", "statement": "Every message accepted by sendMessage while the ring is busy is written to the ring exactly once, in order, after the ring becomes idle.", "quantifier": "every sequence of sends and ring activity", "why_tests_cant": "histories of queueing and draining", "anchors": ["src/modm/communication/rpr/interface_impl.hpp: sendMessage, update, writeMessage, popMessage"]}
{"id": "C44", "title": "XPCC CAN identifiers encode the header injectively", "statement": "convertToHeader(convertToIdentifier(h, f)) recovers header h and fragment flag f for every header, identifiers fit 29 bits, and distinct headers have distinct identifiers.", "quantifier": "every header (type, ack, destination, source, packet id), both fragment flags", "why_tests_cant": "2^27 headers", "anchors": ["src/modm/communication/xpcc/backend/can/connector.cpp: convertToIdentifier, convertToHeader"]}
{"id": "C45", "title": "XPCC CAN fragments reassemble in any order", "statement": "A payload of 9..48 bytes split by the sending connector is delivered by a receiving connector exactly once and unchanged for every arrival order of its fragments, interleaved with fragments of other messages.", "quantifier": "every payload, every permutation, every interleaving with fragments of other (header, counter) pairs", "why_tests_cant": "8! orders times payloads times interleavings", "anchors": ["src/modm/communication/xpcc/backend/can/connector_impl.hpp: sendWaitingMessages, retrieveMessage"]}
{"id": "C46", "title": "XPCC CAN reassembly stays within the packet buffer", "statement": "Whatever CAN frames arrive, reassembly never writes outside the payload buffer allocated for the packet and delivers a packet only when all its bytes have been received.", "quantifier": "every sequence of CAN frames", "why_tests_cant": "needs frames inconsistent with each other", "anchors": ["src/modm/communication/xpcc/backend/can/connector_impl.hpp: retrieveMessage"]}
{"id": "C47", "title": "XPCC dispatcher sends at most three times and calls back at most once", "statement": "A request to another board is transmitted at most three times; it is dropped after acknowledge (without callback), after its response, or after the third timeout, and the response callback is called at most once, with the response or with a timeout header.", "quantifier": "every arrival schedule of acknowledges, responses and timeouts", "why_tests_cant": "schedules", "anchors": ["src/modm/communication/xpcc/dispatcher.cpp: handleWaitingMessages, handlePacket"]}
{"id": "C48", "title": "BlockAllocator hands out disjoint blocks and recovers all memory", "statement": "For every sequence of allocate and free, the blocks handed out lie inside the heap, are at least as large as requested, are pairwise disjoint and disjoint from the management words; allocate fails only if no contiguous free run is large enough; after all blocks have been freed the whole heap is one free block again.", "quantifier": "every heap size, block size and allocation/free history with intact management words", "why_tests_cant": "allocation histories are unbounded; coalescing has four neighbour cases", "anchors": ["src/modm/driver/storage/block_allocator_impl.hpp: initialize, allocate, free, getAvailableSize"]}
{"id": "C49", "title": "CAN messages round-trip through the Lawicel text format", "statement": "convertToCanMessage(convertToString(m)) returns true and reproduces identifier, frame kind, length and data for every valid CAN 2.0 message, and convertToCanMessage accepts only strings of the Lawicel grammar and never reads beyond the terminator.", "quantifier": "every message; every input string", "why_tests_cant": "2^29 identifiers, 2^64 data, all strings", "anchors": ["src/modm/driver/can/can_lawicel_formatter.cpp: convertToString, convertToCanMessage"]}
{"id": "C50", "title": "CAN message length and DLC stay consistent", "statement": "After construction, setLength or setDataLengthCode the length is the smallest CAN data length not below the requested one (clipped to the capacity), matches the DLC table and never exceeds the data buffer.", "quantifier": "every requested length/DLC and every buffer capacity", "why_tests_cant": "table search loops with 8-bit counters", "anchors": ["src/modm/architecture/interface/can_message.hpp.in: setLength, setDataLengthCode"]}
{"id": "C51", "title": "Unix time and calendar date convert into each other exactly", "statement": "UnixTime::toDate followed by Date::toUnixTimestamp is the identity for every 32 bit time, and every field of the date equals the proleptic Gregorian calendar value (year, month, day, weekday, day of year) for all times up to 2100-02-28.", "quantifier": "every 32 bit timestamp", "why_tests_cant": "2^32 timestamps", "anchors": ["src/modm/ui/time/time.cpp: UnixTime::toDate, Date::toUnixTimestamp"]}
{"id": "C52", "title": "ButtonGroup accepts a level change only after four equal samples", "statement": "For every key independently, the debounced state changes exactly when the raw input has differed from it in four consecutive update() calls, each accepted press/release is reported once by isPressed/isReleased, and other keys have no influence.", "quantifier": "every sequence of raw samples, every key, all widths", "why_tests_cant": "vertical counters for all keys in parallel over all histories", "anchors": ["src/modm/ui/button_group.hpp: ButtonGroup::update, isPressed, isReleased"]}
{"id": "C53", "title": "Register bit-field accessors only touch their own bits", "statement": "For modm::Flags, Configuration and Value, get after set returns what was set, set/reset/toggle/update leave all other bits unchanged, and all/any/none report exactly the set relation of the bits.", "quantifier": "every register value, mask, position and field value that fits its mask", "why_tests_cant": "all register values", "anchors": ["src/modm/architecture/interface/register.hpp: Flags, Configuration, Value"]}
{"id": "C54", "title": "Quadrature encoder output and input agree", "statement": "BitBangEncoderInput counts every quadrature step with the right sign as long as it is sampled between steps and loses no fraction across getDelta() calls; BitBangEncoderOutput emits exactly one valid quadrature step per position increment or decrement.", "quantifier": "every sequence of forward/backward steps and polls", "why_tests_cant": "direction reversals at every phase", "anchors": ["src/modm/driver/encoder/bitbang_encoder_input_impl.hpp", "src/modm/driver/encoder/bitbang_encoder_output_impl.hpp"]}
{"id": "C55", "title": "1-Wire search finds every device exactly once", "statement": "After resetSearch(), successive searchNext() calls return the ROM code of every device on the bus exactly once and then false, whatever the number and codes of devices (valid CRC, non-zero family); verifyDevice(rom) is true iff a device with that code is present.", "quantifier": "every finite set of ROM codes", "why_tests_cant": "2^56 codes, all subsets", "anchors": ["src/modm/platform/one_wire/bitbang/bitbang_master_impl.hpp.in: performSearch, searchNext, verifyDevice"]}
{"id": "C56", "title": "Monochrome display buffers: pixel operations are exact and in bounds", "statement": "setPixel/clearPixel/getPixel on the monochrome displays affect exactly the addressed pixel, ignore coordinates outside the display without touching any other memory, and the fast line/image routines draw the same pixels as the generic ones.", "quantifier": "every coordinate (negative and large included), every buffer content, every display size", "why_tests_cant": "coordinate space and aliasing", "anchors": ["src/modm/ui/display/monochrome_graphic_display_vertical_impl.hpp", "src/modm/ui/display/monochrome_graphic_display_horizontal_impl.hpp"]}
{"id": "C57", "title": "Line drawing follows the ideal line", "statement": "drawLine(x1,y1,x2,y2) sets both end points and a connected path of pixels of which none deviates from the ideal line by more than half a pixel in the minor direction, in either drawing direction.", "quantifier": "every pair of end points with coordinate differences below 2^15", "why_tests_cant": "2^64 end point pairs", "anchors": ["src/modm/ui/display/graphic_display.cpp: drawLine"]}
{"id": "C58", "title": "Block devices read back what was written and reject invalid ranges", "statement": "BdHeap, BdMirror and BdSpiStackFlash: after write/program returned true, read of the range returns the data and other addresses are unchanged; requests beyond the device or with illegal sizes are refused without effect; the mirror reports success only if both devices succeeded; the stacked flash maps every address to the right die.", "quantifier": "every address, size, content and device state", "why_tests_cant": "address space, boundary crossings", "anchors": ["src/modm/driver/storage/block_device_heap_impl.hpp", "src/modm/driver/storage/block_device_mirror_impl.hpp", "src/modm/driver/storage/block_device_spistack_flash_impl.hpp"]}
{"id": "C59", "title": "HSV to RGB conversion stays in gamut", "statement": "The conversion RgbT<uint8_t>(HsvT<uint8_t>) yields for every colour the closed-form HSV colour rounded down:  a triple whose maximum is the HSV value, whose components never underflow or wrap, and which is grey iff saturation contributes nothing. RGB565 packing, unpacking and saturated arithmetic work channel by channel; RGB to HSV keeps the value.", "quantifier": "every hue, saturation and value", "why_tests_cant": "2^24 colours with intermediate wrap-around arithmetic", "anchors": ["src/modm/ui/color/rgb_impl.hpp:25-48", "src/modm/ui/color/hsv_impl.hpp:26-71", "src/modm/ui/color/rgb565.hpp", "src/modm/ui/color.cpp: HsvT::toRgb (dead duplicate, not copied by color.lb)"]}
{"id": "C60", "title": "inplace_any destroys every object exactly once", "statement": "For every sequence of construction, copy, move, assignment, emplace, reset and swap of modm::inplace_any, each contained object is destroyed exactly once, has_value/any_cast reflect the last assigned value and swap exchanges the two contents.", "quantifier": "every operation sequence on any number of objects", "why_tests_cant": "lifetime histories", "anchors": ["src/modm/utils/inplace_any.hpp"]}
{"id": "C61", "title": "PID controller computes the scaled PID formula", "statement": "Pid<T, ScaleFactor>::update(e) sets the output to (kp e + ki S + kd (e - e')) / ScaleFactor, truncated and limited to +-maxOutput, where S is the error sum limited to +-maxErrorSum, for every T whose wide type holds the intermediate results.", "quantifier": "every type T, scale factor, parameter set, controller state and error", "why_tests_cant": "value space and implicit signed/unsigned conversions that depend on the widths of T and int", "anchors": ["src/modm/math/filter/pid_impl.hpp: update", "src/modm/math/filter/pid.hpp"]}
{"id": "C62", "title": "SAB query transactions deliver the slave's outcome", "statement": "After sab::Master::query the addressed slave's outcome reaches the master: success with the response payload if the response has the expected length, a payload error otherwise, the error code for an error frame, and a timeout after 10 ms without a response; an echo of the own request is ignored; responses of other slaves or to other commands do not complete the query.", "quantifier": "every address, command, payload, action table and timing within the range of the timer", "why_tests_cant": "Unit tests do not connect master and slave; the outcome depends on byte streams and times", "anchors": ["src/modm/communication/sab/master_impl.hpp: query, update", "src/modm/communication/sab/slave_impl.hpp: update"]}
{"id": "C63", "title": "CAN message constructors copy exactly the given data", "statement": "Constructing a CAN message from an identifier, a length and either a 64 bit value or a pointer to that many bytes yields a message whose data are the big-endian bytes of the value, respectively the bytes at the pointer, and reads nothing else.", "quantifier": "every length, value, array and buffer capacity", "why_tests_cant": "a read past the caller's array is silent", "anchors": ["src/modm/architecture/interface/can_message.hpp.in: Message(uint32_t, uint8_t, const uint64_t&, bool), Message(uint32_t, uint8_t, const uint8_t*, bool)"]}
{"id": "C64", "title": "CAN messages are ordered as the bus arbitrates them", "statement": "operator< on CAN messages is a strict weak order, and a < b holds exactly if a data frame a wins arbitration against a data frame b.", "quantifier": "every pair and triple of messages with valid identifiers", "why_tests_cant": "2^58 pairs of identifiers, mixed standard and extended", "anchors": ["src/modm/architecture/interface/can_message.hpp.in: operator <"]}
{"id": "C65", "title": "RPR reception stays within its buffers", "statement": "Whatever bytes arrive on the ring, in whatever chunks and interleaved with sends, rpr::Interface::update reads and writes only its receive buffer and its queues.", "quantifier": "every byte stream and every sequence of calls", "why_tests_cant": "needs over-long or malformed frames with particular lengths", "anchors": ["src/modm/communication/rpr/interface_impl.hpp: update, pushMessage"]}
{"id": "C66", "title": "RPR nodes hand each received message to the first matching listener", "statement": "rpr::Node::update hands every received message, in order and exactly once, to the first listener of the list whose type, source and command match (with the wildcards), whatever the callbacks send.", "quantifier": "every listener list and queue of received messages", "why_tests_cant": "combinations of wildcards and order", "anchors": ["src/modm/communication/rpr/node_impl.hpp: update, checkListenerCallbacks"]}
{"id": "C67", "title": "SysTick clocks are exact, monotonic and free of torn reads", "statement": "milli_clock::now() and micro_clock::now() on the SysTick timer return the time at which the timer was read, rounded down to the unit or one less (modulo 2^32), never go backwards from call to call, and return, whenever the tick interrupt runs relative to the accesses of the loop.", "quantifier": "every processor clock, divider and tick rate that compiles, every interleaving of the handler with the accesses", "why_tests_cant": "races of single instructions with a timer interrupt, fixed-point factors depending on the clock frequency", "anchors": ["src/modm/platform/clock/systick/systick_timer.hpp.in: initialize", "src/modm/platform/clock/systick/systick_timer.cpp.in: SysTick_Handler, milli_clock::now, micro_clock::now", "ext/aws/module.lb: validate_frequency"]}
{"id": "C68", "title": "The buffered UART sends every accepted byte once and in order", "statement": "With the transmit buffer, the bytes leaving an STM32 UART are exactly the bytes for which write() returned true, in order and once each; everything accepted is eventually sent by the interrupt alone; write() refuses only when the buffer is full. read() returns received bytes in order and none twice, and bytes are lost only by overrun or by a full buffer.", "quantifier": "every interleaving of the main program, the interrupt and the shift registers, every buffer size", "why_tests_cant": "lost wake-ups and lost bytes need an interrupt between two particular instructions", "anchors": ["src/modm/platform/uart/stm32/uart.cpp.in: write, writeBlocking, isWriteFinished, discardTransmitBuffer, read, irq", "src/modm/platform/uart/stm32/uart_hal_impl.hpp.in: write, read, acknowledgeInterruptFlags"]}
{"id": "C69", "title": "RTT channels deliver every byte once and in order", "statement": "Whatever the interleaving of the target with the debug host, Rtt::write and Rtt::read never leave the buffer, the host takes exactly the accepted bytes and read() delivers exactly the published bytes, in order; write() refuses only with size-1 bytes waiting; the size queries return the number of waiting bytes.", "quantifier": "every buffer size 0..65536, every interleaving of single accesses", "why_tests_cant": "the host accesses the memory asynchronously; index wrap-around and boundary sizes", "anchors": ["src/modm/platform/uart/rtt/rtt.cpp.in: RttBuffer::write, RttBuffer::read, isEmpty, getSize, Rtt::write, Rtt::read"]}
{"id": "C70", "title": "TLC594x channel values are packed into exactly their bits", "statement": "Setting a grayscale (12 bit) or dot-correction (6 bit) value of the LED drivers TLC594x changes exactly the bits of that channel in the stream sent to the chips, reading returns them, setting all channels sets each, and no access leaves the buffers.", "quantifier": "every number of channels that compiles, every channel, value and buffer content", "why_tests_cant": "tests look at a few channels; neighbours sharing a byte and large chains are not covered", "anchors": ["src/modm/driver/pwm/tlc594x_impl.hpp: setChannel, setAllChannels, getChannel, setDotCorrection, setAllDotCorrection, getDotCorrection"]}
{"id": "C71", "title": "The software SPI master exchanges every byte correctly", "statement": "In all four modes and both bit orders BitBangSpiMaster::transferBlocking delivers each byte to a slave of that mode and returns the byte the slave sends, with half a period of set-up, hold and output time; the array version fills and reads exactly the given buffers.", "quantifier": "every mode, order, byte, buffer layout (also overlapping) and number of bytes", "why_tests_cant": "tests without a slave on real pins check only the call sequence", "anchors": ["src/modm/platform/spi/bitbang/bitbang_spi_master_impl.hpp: initialize, setDataMode, setDataOrder, transferBlocking"]}
{"id": "C72", "title": "The software I2C master produces the exchange a transaction asks for", "statement": "BitBangI2cMaster::start() attaches the transaction once and detaches it once with a cause that fits the error state, returns on every bus, and with a slave that stretches the clock for at most 499 quarter periods puts exactly start, address, bytes, repeated start, stop on the bus, stores exactly the bytes the slave sent, reports a missing acknowledge, and releases both lines.", "quantifier": "every address, every buffer content and size, every pattern of acknowledges, clock stretching and bytes of the slave; for the callbacks every environment and every transaction", "why_tests_cant": "needs a slave on the pins; stretching, NACK at every position and error paths are not reachable in unit tests", "anchors": ["src/modm/platform/i2c/bitbang/bitbang_i2c_master_impl.hpp: initialize, start, error, startCondition, stopCondition, sclSetAndWait, write, read, writeBit, readBit"]}
{"id": "C73", "title": "I2C transactions can be reused", "statement": "A write/read transaction that has finished, with or without error, can be started again without configuring it anew and does the same exchange; configuring is refused while it is busy.", "quantifier": "every configuration, every outcome of the first run", "why_tests_cant": "reuse after each outcome is not tested", "anchors": ["src/modm/architecture/interface/i2c_transaction.hpp: I2cWriteReadTransaction, attaching, detaching"]}
{"id": "C74", "title": "TLSF never hands out overlapping or foreign memory", "statement": "Whatever sequence of creating the heap, adding pools, malloc, memalign, realloc, free and writes to live blocks a client performs, the live blocks are word aligned, lie inside the pools and do not overlap; malloc, free and adding a pool are defined, change no byte of a live block and nothing outside the heap; a refused malloc changes nothing.", "quantifier": "every configuration of the module, every execution of a client that frees only live blocks and writes only its own memory, every request up to the last size class or beyond the limit", "why_tests_cant": "allocator corruption depends on long histories of sizes and orders of frees", "anchors": ["ext/tlsf/tlsf.c.in: tlsf_create, tlsf_add_pool, tlsf_malloc, tlsf_free, block_split, block_absorb, block_trim_free, block_merge_prev, block_merge_next, insert_free_block, remove_free_block, search_suitable_block"]}
{"id": "C75", "title": "TLSF loses no memory and finds a fitting block", "statement": "In every execution no two free blocks are neighbours, every block of a pool that is not free is live and every live block is found by the walk over the pool; after everything is freed each pool is one free block of its whole length; malloc succeeds whenever some free block exceeds the rounded request by one part in the number of second-level classes.", "quantifier": "every configuration and execution", "why_tests_cant": "fragmentation and leaks show only after long runs; the good-fit guarantee concerns all free-list states", "anchors": ["ext/tlsf/tlsf.c.in: mapping_insert, mapping_search, search_suitable_block, block_merge_prev, block_merge_next, tlsf_free, tlsf_malloc"]}
{"id": "C76", "title": "TLSF memalign aligns and realloc keeps the contents", "statement": "memalign returns blocks of the requested power-of-two alignment with the guarantees of malloc. realloc of a live block fails without changing anything, and only if it neither fits nor a suitable block exists, or returns a block that overlaps no other live one and holds the old contents up to the smaller size; no other live block changes. Size 0 frees.", "quantifier": "every configuration and execution, alignments 1 to 2^30, every size up to the last size class", "why_tests_cant": "gap handling and in-place growth depend on the neighbouring blocks", "anchors": ["ext/tlsf/tlsf.c.in: tlsf_memalign, tlsf_realloc, block_trim_free_leading, block_trim_used, block_prepare_used"]}
{"id": "C77", "title": "TLSF refuses requests and pools it cannot handle", "statement": "Requests up to the stated maximum block size and pools up to the stated maximum are handled or refused without undefined behaviour, and a realloc beyond the maximum fails and leaves the block alone.", "quantifier": "every configuration, every state, every size", "why_tests_cant": "only sizes in a narrow band trigger the error", "anchors": ["ext/tlsf/tlsf.c.in: adjust_request_size, mapping_search, search_suitable_block, tlsf_add_pool, tlsf_realloc"]}
{"id": "C78", "title": "The heap table finds the largest fitting memory", "statement": "find_largest returns false only if no section has the traits asked for, and otherwise the longest run of adjoining sections that satisfy at least those traits. After a fault report was stored, a loop over the table yields the memory behind the report and all later sections.", "quantifier": "every heap table and every trait mask; every position of the report", "why_tests_cant": "the tables are made by the linker for each device, and the fault offset exists only after a crash", "anchors": ["src/modm/platform/core/cortex/heap_table.cpp.in: HeapTable::begin, HeapTable::Iterator::operator*, HeapTable::Iterator::operator++, HeapTable::find_largest"]}
{"id": "C79", "title": "A fault report survives the reset", "statement": "A report written by the crash handler is read back byte by byte after the reset; writing it changes nothing but heap memory outside the stack of the handler, and the heap set up after the reset does not overlap it.", "quantifier": "every heap table, report, memory content and position of the crash stack", "why_tests_cant": "the code runs only after a hard fault and needs reports that cross sections", "anchors": ["src/modm/platform/fault/crashcatcher/fault_storage.cpp: FaultStorage::openRead, openWrite, write, closeWrite, Iterator::operator++"]}
{"id": "C80", "title": "The C heap hands each request to the right memory", "statement": "Over any table of memory sections the TLSF front end sets up allocators covering every section with its traits. Live blocks of all allocators together never overlap. A request is served from memory with the traits asked for, from memory without a type that was asked for only when all memory of the type is exhausted, and fails only when all memory with the other traits is exhausted. free and realloc reach the allocator of the block and keep all other contents; calloc provides n elements of the size.", "quantifier": "every configuration, every table of at most six suitable sections, every execution, every size up to the last class and every trait mask", "why_tests_cant": "the interaction of several memories depends on the device and the order of requests", "anchors": ["src/modm/platform/heap/cortex/heap_tlsf.cpp: __modm_initialize_memory, get_tlsf_for_ptr, malloc_traits, __wrap__malloc_r, __wrap__calloc_r, __wrap__realloc_r, __wrap__free_r", "src/modm/architecture/interface/memory.hpp: MemoryTrait"]}
{"id": "C81", "title": "inplace_function stores callables like std::function", "statement": "Every construction, copy, move, assignment, swap and call of an inplace_function is defined and has the effect std::function documents: copies hold the same callable, moved-from functions are empty, self-assignment and swapping with itself change nothing, a call returns the result of the stored callable and keeps its changed state. Each callable is constructed once, destroyed exactly once and alive exactly while it is in the storage of one function.", "quantifier": "every sequence of operations on any number of functions, every callable type and behaviour", "why_tests_cant": "lifetime errors and double destructions show only with the right sequence and non-trivial callables", "anchors": ["src/modm/utils/inplace_function.hpp: inplace_function, inplace_function_detail::vtable"]}
{"id": "C82", "title": "bxCAN mailboxes carry the message unchanged", "statement": "sendMailbox programs a mailbox so that the frame on the bus has the message's identifier, format, remote flag, length and data, and readMailbox returns exactly the frame in the FIFO and its filter index, whatever the message object held before. A valid message sent and received is unchanged.", "quantifier": "every valid message, every frame, all junk in unused bytes and bits", "why_tests_cant": "bit packing errors show only with particular identifiers, lengths and left-over contents", "anchors": ["src/modm/platform/can/stm32/can.cpp.in: sendMailbox, readMailbox", "src/modm/architecture/driver/can_message.hpp: setDataLengthCode"]}
{"id": "C83", "title": "bxCAN filters accept exactly the requested frames", "statement": "A filter set up with the identifier and mask encodings accepts exactly the frames its documentation describes (extended or standard, masked identifier, remote flag), routes them to the given FIFO and leaves the other filter banks as they are; a disabled bank accepts nothing.", "quantifier": "all banks, identifiers, masks, flags, previous register contents and frames", "why_tests_cant": "2^29 identifiers times 2^29 masks; errors show only for identifiers with particular bits", "anchors": ["src/modm/platform/can/stm32/can_filter.hpp.in: ExtendedIdentifier, ExtendedFilterMask, StandardIdentifier, StandardFilterMask, ExtendedIdentifierShort, ExtendedFilterMaskShort, StandardIdentifierShort, StandardFilterMaskShort, setFilter, setFilterShort, setIdentifierFilter, setIdentifierFilterShort", "src/modm/platform/can/stm32/can_filter.cpp.in: setFilter, disableFilter"]}
{"id": "C84", "title": "bxCAN transmission loses nothing and keeps the order", "statement": "Every message accepted by sendMessage is sent exactly once, in the order of the calls, and is never left waiting while the mailboxes are free, however the transmit interrupt interleaves with sendMessage.", "quantifier": "every interleaving of completions, interrupts and the steps of sendMessage, every queue size", "why_tests_cant": "races between the test of the mailboxes, the queue and the interrupt are a few cycles wide", "anchors": ["src/modm/platform/can/stm32/can.cpp.in: sendMessage, TX interrupt"]}
{"id": "C85", "title": "bxCAN reception loses only what does not fit", "statement": "The receive interrupts always find a message to read; messages are delivered unchanged, never twice, and in order per FIFO; all are delivered as long as neither a FIFO nor the queue overflows, and an overflow costs only the messages that do not fit.", "quantifier": "every sequence of arrivals, interrupts and calls of getMessage, both FIFO modes, every queue size", "why_tests_cant": "overruns need a full FIFO at the right moment", "anchors": ["src/modm/platform/can/stm32/can.cpp.in: RX0/RX1 interrupts, getMessage"]}
{"id": "C86", "title": "bxCAN initialization reports failure", "statement": "initialize returns in bounded time; it returns true if the peripheral acknowledges entering and leaving the initialization mode in time and false if it does not.", "quantifier": "all timings of the two acknowledgements", "why_tests_cant": "a peripheral that does not answer is not available in tests", "anchors": ["src/modm/platform/can/stm32/can.cpp.in: initializeWithPrescaler"]}
{"id": "C87", "title": "Atomic operations are atomic on one core", "statement": "The __atomic functions for Cortex-M0, atomic::Container and Flag::testAndSet take effect one after the other, whatever interrupts come between their instructions: each returns what it would return on the number alone, and whenever interrupts are enabled the object holds the number left by the operations so far. Lock and Unlock blocks, nested in any way, disable and enable interrupts inside and restore the mask; no handler runs over a locked block. LockPriority(p) masks exactly what was masked before and the priorities from p on.", "quantifier": "all object sizes, all programs of operations and nested blocks, interrupts with any such program at every instruction, interrupting each other", "why_tests_cant": "an interrupt at a given instruction cannot be placed by a test", "anchors": ["ext/gcc/atomics_c11_cortex.cpp.in", "src/modm/platform/core/cortex/atomic_lock_impl.hpp.in", "src/modm/architecture/driver/atomic/container.hpp", "src/modm/architecture/driver/atomic/flag.hpp"]}
{"id": "C88", "title": "Function statics are constructed once", "statement": "With __cxa_guard_acquire, release and abort, a function-local static object is constructed exactly once however many contexts call the function: never by two at the same time, never again once it is complete; nobody uses it before; and the assertion about recursive initialization fails only during a construction.", "quantifier": "any number of contexts, all interleavings, constructors that throw", "why_tests_cant": "the window is two instructions wide", "anchors": ["ext/gcc/cxxabi.cpp.in"]}
{"id": "C89", "title": "Assertions follow the documented rules", "statement": "A failed assertion abandons if some handler fails it, else resumes if some handler ignores it, else the type of assertion decides; modm_assert always abandons. The condition is evaluated once in every build, every handler is called once, the outcome does not depend on the order of handlers, and code marked unreachable is not reached.", "quantifier": "all lists of handlers and answers, all five macros, both builds", "why_tests_cant": "handlers are collected by the linker in any order", "anchors": ["src/modm/architecture/interface/assert.h.in", "src/modm/architecture/interface/assert.hpp.in", "src/modm/platform/core/cortex/assert.cpp.in"]}
{"id": "C90", "title": "Critical sections of two cores", "statement": "On the RP2040 never are two programs inside blocks with atomic::Lock or SystemSpinLockGuard, and nothing blocks forever: until all programs have ended some core can go on.", "quantifier": "all programs and handlers of both cores, all interleavings and interrupts", "why_tests_cant": "needs an interrupt between two given instructions", "anchors": ["src/modm/platform/core/rp/multicore.hpp.in", "src/modm/platform/core/cortex/atomic_lock_impl.hpp.in"]}
{"id": "C91", "title": "IOStream writes numerals of the values, and the device wrapper loses exactly what it may", "statement": "Everything sent to an IOStream comes out in the mode in force: integers of 16, 32 and 64 bits in decimal with a minus sign exactly when negative and no leading zeros (also the smallest value), in hexadecimal and binary as all digits of the two's complement, bool, char and uint8_t likewise, strings up to their terminator, pointers as 0x and two digits per byte; the mode stays until the next manipulator, endl and flush set it back. A wrapper with BlockIfFull hands every character to a device which keeps accepting, once and in order; with DiscardIfFull exactly the refused characters are lost. get(s, n) stores at most n - 1 characters and the terminator. Pointers to functions are written as the function's address.", "quantifier": "for all sequences of things sent, values, pointer sizes 2, 4, 8, modes, device behaviours, inputs and buffers", "why_tests_cant": "2^64 values, all interleavings of refusals; the byte loops end only by the wrap-around of an 8 bit counter", "anchors": ["src/modm/io/iostream.hpp.in:99-257", "src/modm/io/iostream.cpp:22-107", "src/modm/io/iostream_printf.cpp.in:76-142", "src/modm/io/iodevice_wrapper.hpp:46-55", "src/modm/io/iodevice.hpp:36-42"]}
{"id": "C92", "title": "Integer vectors: products are exact and ccw tells the orientation", "statement": "For vectors of int8_t and int16_t the cross product is exact, the dot product and the squared length are exact except for (min, min), where they come out negative. ccw returns 1 when the third point is to the left of the line or behind the second, 0 when it is on the segment, -1 otherwise, for points within half the range of each other; for all points it does not (the products overflow), and for uint8_t and int32_t the wide type is too small for lengths.", "quantifier": "for all vectors, types and both sizes of int", "why_tests_cant": "2^64 pairs of vectors; the failures are at a single point or behind an overflow", "anchors": ["src/modm/math/geometry/vector2_impl.hpp:128-312", "src/modm/math/geometry/geometric_traits.hpp:47-110"]}
{"id": "C93", "title": "Segments intersect exactly when they have a common point", "statement": "LineSegment2D::intersects returns true exactly when the two (closed) segments have a point in common, also for collinear and touching segments, when both have a length and all points are within half the range of each other. Ray2D::intersects returns true exactly when the ray crosses the inside of the segment, within a much smaller range. Segments of length zero, long segments, and rays with coordinates of some hundreds are judged wrongly.", "quantifier": "for all segments, rays and coordinate types", "why_tests_cant": "continuum of positions and degenerate collinear cases", "anchors": ["src/modm/math/geometry/line_segment_2d_impl.hpp:160-168", "src/modm/math/geometry/ray_2d_impl.hpp:143-165"]}
{"id": "C94", "title": "Polygons: isInside and intersections", "statement": "For every strictly convex polygon of either orientation isInside returns true exactly for the points of its closed area (all points within half the range). Two polygons, or a polygon and a segment, intersect exactly when a side meets a side. A polygon and a ray are said to intersect exactly when the ray crosses the inside of a side, so a ray through two vertices is missed; a repeated vertex hides the inside of a clockwise polygon.", "quantifier": "for all polygons of any number of vertices, points, segments and rays", "why_tests_cant": "all convex polygons; argument by the sum of triangle areas", "anchors": ["src/modm/math/geometry/polygon_2d_impl.hpp:56-183"]}
{"id": "C95", "title": "An animation moves to its end and arrives in time", "statement": "Animation<T>::animateTo(value, time) with updates at any times not too far apart moves the value monotonically from its current value to the end, stays within 1 plus half a step plus t/2^fraction bits of the straight line, is running until exactly its time is over, and then has exactly the end value; the handler always knows the value. For all 8, 16 and 32 bit types on ARM, AVR and hosted. Times longer than 2^fraction bits ms per unit overshoot and wrap around (a light at 5 fading to 0 in a second flashes to 255), 8 bit values divide by zero for multiples of 65536 ms, 32 bit values lose their upper half when animated to themselves.", "quantifier": "for all types, values, times, sequences of update times", "why_tests_cant": "2^32 times and all update schedules; overshoot only for slow fades", "anchors": ["src/modm/ui/animation/interpolation.hpp:102-288", "src/modm/ui/animation/base_impl.hpp:30-131"]}
{"id": "C96", "title": "Key frames are shown in their order, and reach their values", "statement": "For any frames, animators, mode and repeat count and any times of the updates the frames are shown in a cycle (or forwards and backwards with each turning point once), exactly repeat times; only frames of the array are ever read, whatever is called; all animators run in step, so every frame reaches its values before the next; with an update each ms each frame takes one ms more than its length. isAnimating is false from the start of the last frame, getMode returns neither mode while running backwards, and a single frame is shown only once in the mode Autoreverse.", "quantifier": "for all arrays of frames, modes, repeat counts, call sequences and update times", "why_tests_cant": "unbounded sequences of frames and calls", "anchors": ["src/modm/ui/animation/key_frame_impl.hpp:30-220"]}
{"id": "C97", "title": "Pulse, indicator and strobe take their period", "statement": "Pulse::setPeriod splits the period exactly. Indicator::setPeriod makes the cycle longer than the period by the two fades, Strobe::setPeriod by the pause between the flashes; setFadeTimes keeps the time of the cycle unless the fades do not fit. A second flash too short for its fades switches off the first.", "quantifier": "for all periods, duty cycles, fade times", "why_tests_cant": "arithmetic over all periods and duty cycles; tests use the defaults", "anchors": ["src/modm/ui/animation/pulse.hpp:54-62", "src/modm/ui/animation/indicator.hpp:58-84", "src/modm/ui/animation/strobe.hpp:60-107"]}
{"id": "C98", "title": "MCP2515: every accepted message is sent once, every stored frame is delivered once", "statement": "For all sequences of sendMessage and getMessage calls on a chip behaving as its data sheet says (sending, receiving and changing mode between any two accesses of the driver): the messages sendMessage accepted are, as frames with the same kind, identifier, remote flag and data, exactly those sent or still waiting; the frames the chip stored are exactly those delivered or still waiting if none has a length code above 8. sendMessage comes back, refusing only if all three transmit buffers were waiting; getMessage returns false only if nothing was waiting. Messages of more than 8 bytes and received codes 9 to 15 overrun the buffers; neither direction keeps the order; the data length code of a received message is not set.", "quantifier": "all usages, all interleavings with the chip, all messages", "why_tests_cant": "races between the driver's accesses and the chip; tests see one interleaving", "anchors": ["src/modm/driver/can/mcp2515_impl.hpp:197-306", "src/modm/driver/can/mcp2515_impl.hpp:309-439"]}
{"id": "C99", "title": "MCP2515: filters and modes", "statement": "For any chip state and interleaving: once setFilter comes back, the filter and mask registers hold the table of 32 bytes; for a table made by the macros the chip accepts exactly the frames of the kind and with the masked identifier bits of one of the filters. setMode comes back in the mode asked for. setFilter forgets the mode in use before (it asks for the normal mode), and setMode(ListenOnlyLoopBack) returns with the chip in the normal mode.", "quantifier": "all tables, identifiers, masks, frames, chip states and interleavings", "why_tests_cant": "2^29 identifiers and masks; mode changes take place at any time", "anchors": ["src/modm/driver/can/mcp2515_impl.hpp:131-186", "src/modm/driver/can/mcp2515.hpp:70-95"]}
{"id": "C100", "title": "MCP2515: initialization and bit timing", "statement": "For every clock and bit rate that compiles: initialize never returns false on a chip that keeps its registers, and once it comes back the chip is in normal mode with both receive interrupts and the bit rate asked for, except that an odd prescaler makes it at least p/(p-1) times too fast, that with a clock of 20 MHz every bit rate but 1 Mbit/s is at least 10/9 times too fast, and that 8 MHz with 1 Mbit/s gives a second phase segment shorter than the chip allows.", "quantifier": "all clocks and bit rates, all chip states and interleavings", "why_tests_cant": "the configurations are compile-time constants: each program tests one; the chip's real bit rate is not visible to the program", "anchors": ["src/modm/driver/can/mcp2515_impl.hpp:40-128", "src/modm/driver/can/mcp2515_bit_timings.hpp:25-92"]}
{"id": "C101", "title": "FDCAN: message RAM", "statement": "For the message RAM of any number of FDCAN instances: the elements lie where the manual says and do not overlap; sending any valid message (classic or FD, up to 64 bytes) puts exactly its frame into the buffer and changes nothing else; reading any element gives a consistent message with the identifier, format, remote flag, data, filter index and time stamp of the frame; after clearing and any sequence of filter calls the peripheral accepts, rejects or routes every identifier as the calls say. The FD flag and the bit rate flag of received frames are lost or stale, and classic frames with a code above 8 get a length above 8.", "quantifier": "all instances, indices, messages, RAM contents, filter calls and identifiers", "why_tests_cant": "2^29 identifiers, 64 byte payloads and arbitrary old RAM contents; needs the peripheral", "anchors": ["src/modm/platform/can/stm32-fdcan/message_ram.hpp:98-277", "src/modm/platform/can/stm32-fdcan/can.cpp.in:91-156", "src/modm/platform/can/stm32-fdcan/can.cpp.in:484-624"]}
{"id": "C102", "title": "FDCAN: queues and interrupts lose nothing and do not stall", "statement": "For all interleavings of sendMessage, getMessage, both interrupts and the hardware: every accepted message is sent once or is still pending or waiting, no transmit buffer is used for two messages, waiting messages always have a pending buffer or interrupt behind them and can drain without the program; each receive FIFO's frames arrive once and in order, the software queue never refuses one, and the receive line is off only while the queue is full. Messages may overtake each other; a frame arriving before the flags are acknowledged waits for the next frame (false: it should be read); with overwriting (the default) a message may be a mixture of two frames.", "quantifier": "all reachable states, all queue sizes, all interleavings", "why_tests_cant": "needs a frame between two given instructions of the interrupt", "anchors": ["src/modm/platform/can/stm32-fdcan/can.cpp.in:213-281", "src/modm/platform/can/stm32-fdcan/can.cpp.in:386-464"]}
{"id": "C103", "title": "Real time clocks: what is shown is read, what is set is shown", "statement": "For all register contents of a DS1302 behaving as its data sheet says: write changes exactly the register asked for (nothing if protected), readRtc returns the eight clock registers, never do both sides drive the line, and for every valid time in 24 and 12 hour mode the accessors give that time; but the year is not decoded, and read of a single register returns it shifted by one bit. For an MCP7941x: setDateTime followed by getDateTime gives the same date for all valid dates, status bits are ignored, failures of a transaction are reported; but oscillatorRunning is true for every chip that answers.", "quantifier": "all register contents, addresses, valid dates, transaction outcomes", "why_tests_cant": "needs the chips; all dates and register contents", "anchors": ["src/modm/driver/rtc/ds1302_impl.hpp:17-123", "src/modm/driver/rtc/ds1302.hpp:31-148", "src/modm/driver/rtc/mcp7941x_impl.hpp:24-76", "src/modm/driver/rtc/mcp7941x.hpp:64-74"]}
{"id": "C104", "title": "Pressure sensors: only a calibration memory with the right check sum is accepted", "statement": "For all contents of the calibration memory of an MS5611 (16 bytes) and an MS5837 (14 bytes): calculateCrc is the remainder of the division by x^4 + x + 1, initialize stores the words high byte first and returns true exactly when the four check bits are right; so any change of up to four adjacent bits is detected. A dead line (all bytes 0), and for the MS5837 even seven failed transactions, are accepted as a valid calibration.", "quantifier": "all memory contents, all bursts of up to four bits, all old contents", "why_tests_cant": "2^128 memory contents; the unit test checks one check sum", "anchors": ["src/modm/driver/pressure/ms5611_data.hpp:35-67", "src/modm/driver/pressure/ms5837_data.hpp:36-55", "src/modm/driver/pressure/ms5611_impl.hpp:33-71", "src/modm/driver/pressure/ms5837_impl.hpp:37-60"]}
{"id": "C105", "title": "Pressure sensors: compensation and cache", "statement": "For all calibration words and raw values of an MS5611 with a first order temperature from -154.72 degrees on, and of an MS5837 from -187.24 to 483.40 degrees, no intermediate result overflows and pressure and temperature are within 1 + 1/512 of the last digit of the data sheet's exact rational formula, including the second order; outside it is false (the squares overflow 32 bits). After any sequence of readings and calls getTemperature returns the temperature of the current raw bytes and getPressure after it their pressure; getPressure alone may return a pressure compensated with the previous temperature.", "quantifier": "all calibration words, raw values and sequences of readings and calls", "why_tests_cant": "2^144 combinations; overflow only at the ends of the range; the stale value needs a call between two transactions", "anchors": ["src/modm/driver/pressure/ms5611_data_impl.hpp:24-85", "src/modm/driver/pressure/ms5837_data_impl.hpp:25-97"]}
{"id": "C106", "title": "BMP085: pressure and temperature of the data sheet", "statement": "For all calibration memories: initialize stores the eleven words with their signs. For all calibration words with AC5 below 32768, raw values and oversampling settings: the temperature is the one of the data sheet's algorithm in unbounded integers when it fits into int16_t, and from -47.4 to 97.4 degrees and up to 2152 hPa the pressure is, too. AC5 from 32768 on makes the first term too small by twice UT - AC6 (29.7 instead of 15.0 degrees), a difference UT - AC6 of 32768 or more wraps around, a memory of zeros divides by zero. After a readout with any calls between its halves the answers are those of the new bytes; a call while a transaction runs makes the old value stay.", "quantifier": "all calibration words, raw bytes, oversampling settings, call sequences", "why_tests_cant": "2^176 calibrations; the unit test has the one of the data sheet, whose AC5 is 11 below the limit; calls within a transaction", "anchors": ["src/modm/driver/pressure/bmp085_data_impl_fp.hpp:33-105", "src/modm/driver/pressure/bmp085_impl.hpp:29-115", "src/modm/driver/pressure/bmp085_data.hpp:41-109"]}
{"id": "C107", "title": "BME280: temperature, humidity calibration and cache", "statement": "For all calibration words and raw bytes the temperature is the one of the data sheet's algorithm in unbounded integers as long as no product overflows 32 bits, in particular within 16384 steps of T1; otherwise it is false. H2 to H6 are decoded as in the data sheet if H4 and H5 are not negative, and H4 and H5 are 4096 too large if they are. After a readout the answers are those of the new bytes; getTemperature while the transaction runs makes the old temperature stay, and the pressure is computed with it.", "quantifier": "all calibration words, raw bytes, call sequences", "why_tests_cant": "2^48 calibrations; negative H4 or H5 only on some chips; calls within a transaction", "anchors": ["src/modm/driver/pressure/bme280_data_impl_fp.hpp:40-168", "src/modm/driver/pressure/bme280_impl.hpp:125-186"]}
{"id": "C108", "title": "AD7280A: frames and check sum", "statement": "For all 24 bit numbers the check sum of the driver is the remainder of the division by x^8+x^5+x^3+x^2+x+1. For all devices, registers and values write sends the command of the data sheet (device address with the lowest bit first) with the right check sum; read returns the word received, and true exactly when its check sum is right; registers and conversions sent by the chip arrive with all their fields; of two words that differ within eight adjacent bits at most one is accepted. Two bits eight apart are not noticed.", "quantifier": "all devices, registers, values, words and bursts", "why_tests_cant": "2^32 words; errors on the daisy chain", "anchors": ["src/modm/driver/adc/ad7280a_impl.hpp:353-468"]}
