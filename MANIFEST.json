{
 "claims": [
  {
   "property": "C01",
   "status": "proved",
   "theorems": [
    "C01_every_interleaving_is_fifo",
    "C01_taken_is_prefix_of_accepted"
   ],
   "note": "all interleavings at single-access granularity, element copies torn; N<=65535"
  },
  {
   "property": "C02",
   "status": "proved",
   "theorems": [
    "C02_sequential_refinement",
    "C02_capacity_above_65535_refuted"
   ],
   "note": "exact for every N the 16 bit index supports; for larger N (no static_assert on 32 bit targets) the capacity claim is refuted"
  },
  {
   "property": "C03",
   "status": "proved",
   "theorems": [
    "C03_deque_refines_bounded_list"
   ],
   "note": "refinement to a bounded list for every N and every history"
  },
  {
   "property": "C04",
   "status": "partial",
   "theorems": [
    "C04_iteration_nonempty_partial",
    "C04_iteration_empty_refuted",
    "C04_decrement_end_refuted",
    "C04_decrement_past_last_refuted"
   ],
   "note": "proved for non-empty containers; refuted for the empty container (loop body runs once) and for decrementing end()"
  },
  {
   "property": "C05",
   "status": "proved",
   "theorems": [
    "C05_bounded_queue_is_fifo",
    "C05_bounded_stack_is_lifo"
   ],
   "note": "corollaries of the deque refinement"
  },
  {
   "property": "C06",
   "status": "partial",
   "theorems": [
    "C06_sequence",
    "C06_front_back",
    "C06_destructor",
    "C06_insert_before_refuted"
   ],
   "note": "Simulation of an abstract sequence for every call history, back/front correctness, no leak, destructor; the claim that insert places the element before pos is refuted (it places it behind). The allocator is assumed to return fresh non-null addresses (a null result is dereferenced unchecked)."
  },
  {
   "property": "C07",
   "status": "proved",
   "theorems": [
    "C07_sequence",
    "C07_destructor",
    "C07_decrement_end_undefined"
   ],
   "note": "Simulation of an abstract sequence for every call history, forward and backward chain, erase result, destructor; the end iterator cannot be decremented (stated as its own theorem). The allocator is assumed to return fresh non-null addresses."
  },
  {
   "property": "C08",
   "status": "partial",
   "theorems": [
    "C08_sequence",
    "C08_storage",
    "C08_destructor",
    "C08_self_assignment_undefined",
    "C08_append_own_element_undefined",
    "C08_all_calls_refuted",
    "C08_reserve_overflow_refuted",
    "C08_removeBack_empty_undefined"
   ],
   "note": "Simulation of abstract sequences with capacities for every number of arrays, every call history and every allocator; exact storage layout, no leak, element life times. The parts of the claim about a = a (with elements) and a.append(a[i]) (when the array grows) are false and refuted, for every history; reserve near the range of size_t overflows (refuted). T's copy is a plain value copy; the allocator never fails."
  },
  {
   "property": "C09",
   "status": "partial",
   "theorems": [
    "C09_sequence",
    "C09_lifetime",
    "C09_early_release",
    "C09_any_number_of_handles_refuted",
    "C09_self_assignment_undefined",
    "C09_self_assignment_refuted",
    "C09_print"
   ],
   "note": "Simulation of shared objects for every history in which no block's handle count falls to a nonzero multiple of 256 and a sole handle is not assigned to itself; exact life times. Outside: refuted (early release with 257 handles, use after free on self-assignment). Printing: contents up to 251 bytes, endless loop from 252 on. The allocator never fails; little-endian size field."
  },
  {
   "property": "C10",
   "status": "proved",
   "theorems": [
    "C10_timeout_equals_ideal_across_wrap",
    "C10_C11_never_early_never_twice"
   ],
   "note": "all histories on real time, clock wrap anywhere; never early even without the polling contract"
  },
  {
   "property": "C11",
   "status": "proved",
   "theorems": [
    "C10_C11_never_early_never_twice",
    "C11_states_exclusive"
   ],
   "note": "exactly once per restart, states exclusive"
  },
  {
   "property": "C12",
   "status": "partial",
   "theorems": [
    "C12_periodic_no_drift",
    "C12_counts_elapsed_periods_partial",
    "C12_counts_elapsed_periods_refuted"
   ],
   "note": "no drift proved for all schedules; the count is one too small for a poll exactly k>=2 periods late (refuted), exact otherwise"
  },
  {
   "property": "C13",
   "status": "partial",
   "theorems": [
    "C13_remaining_within_epoch_partial",
    "C13_remaining_after_wrap_refuted",
    "C13_restart_after_stop_refuted"
   ],
   "note": "exact while the clock did not wrap since the start; refuted after a wrap and for restart() after stop()"
  },
  {
   "property": "C14",
   "status": "partial",
   "theorems": [
    "C14_tick_partial",
    "C14_runs_partial",
    "C14_priority0_hangs",
    "C14_nested_order_refuted",
    "C14_nested_hang_refuted"
   ],
   "note": "For every sequence of scheduleTask/schedule calls with priorities 1..255 each tick ends and runs exactly the due tasks, once each, by descending priority (ties: last scheduled first), and over a history each task has run age/period times. The unrestricted claim is false: priority 0 never runs and hangs the third period (C14_priority0_hangs), ticks nested into the unlocked window run a lower priority task first or hang (C14_nested_*_refuted). Task::run() is opaque."
  },
  {
   "property": "C15",
   "status": "proved",
   "theorems": [
    "C15_queue",
    "C15_start",
    "C15_round_robin",
    "C15_no_run_after_end",
    "C15_terminates"
   ],
   "note": "The pointer ring is proved to behave as a queue for every history of start, yield, end and run; round robin, no run after end and termination follow for the logged executions. Contexts are reduced to fresh/saved; interrupts, several cores sharing a task and destruction of running tasks are outside the model."
  },
  {
   "property": "C16",
   "status": "partial",
   "theorems": [
    "C16_admission",
    "C16_wakes",
    "C16_control_flow",
    "C16_finished",
    "C16_release_wrap_refuted",
    "C16_long_file_refuted"
   ],
   "note": "Admission, wake-up and protothread control flow proved for any number of threads with any code and polling order, for the statement set wait/release/yield/goto/exit/restart, with source lines below 65535 and releases only of held units. Without these restrictions false (C16_release_wrap_refuted, C16_long_file_refuted). There is no Mutex class; a semaphore with n = 1 is the case n = 1. PT_SPAWN, PT_WAIT_THREAD, PT_CALL not modelled."
  },
  {
   "property": "C17",
   "status": "partial",
   "theorems": [
    "C17_nested",
    "C17_nested_safe",
    "C17_stop_levels",
    "C17_depth",
    "C17_depth_refuted",
    "C17_deepest_query_undefined",
    "C17_unchecked_refuted",
    "C17_clash_refuted",
    "C17_plain",
    "C17_plain_result",
    "C17_plain_stop",
    "C17_plain_queries"
   ],
   "note": "Nested objects equal a machine with a call stack for every use sequence when labels of different functions differ modulo 255; independent functions follow their code. False in the model: query from the deepest level reads behind the array, the unchecked build runs over the array, labels 255 apart are confused, the depth is wrong beyond 127 levels."
  },
  {
   "property": "C18",
   "status": "partial",
   "theorems": [
    "C18_crc_value_is_unique",
    "C18_crc16_ccitt_is_polynomial_remainder",
    "C18_crc32_is_polynomial_remainder",
    "C18_sab_crc_is_polynomial_remainder",
    "C18_sab2_rpr_crc_is_polynomial_remainder",
    "C18_residue_zero_iff_appended_crc",
    "C18_crc8_ccitt_refuted"
   ],
   "note": "crc16_ccitt, crc32, the SAB/1-Wire and the SAB2/RPR registers equal the polynomial remainder for every message; the portable crc8_ccitt does not (refuted)"
  },
  {
   "property": "C19",
   "status": "partial",
   "theorems": [
    "C19_crc8_ccitt_refuted",
    "C19_crc8_ccitt_ignores_bit_7",
    "C19_crc16_ccitt_detection",
    "C19_sab2_rpr_crc_detection",
    "C19_sab_crc_detection",
    "C19_crc32_bursts"
   ],
   "note": "bursts up to the register width for all four working CRCs, odd error counts and double errors for the 8 and 16 bit ones; the portable crc8_ccitt misses every flip of bit 7 (refuted)"
  },
  {
   "property": "C20",
   "status": "proved",
   "theorems": [
    "C20_bitReverse",
    "C20_bitCount",
    "C20_leftmostBit",
    "C20_swap"
   ],
   "note": "all 8, 16 and 32 bit words"
  },
  {
   "property": "C21",
   "status": "proved",
   "theorems": [
    "C21_endianness_16",
    "C21_endianness_32",
    "C21_endianness_signed"
   ],
   "note": "both byte orders of the host, signed and unsigned"
  },
  {
   "property": "C22",
   "status": "partial",
   "theorems": [
    "C22_add_sub_exact_partial",
    "C22_add_int_min_refuted",
    "C22_increment_decrement",
    "C22_conversion",
    "C22_mul_exact_partial",
    "C22_mul_negative_refuted",
    "C22_negate_absolute_partial",
    "C22_negate_absolute_min_refuted"
   ],
   "note": "all operand types and values; +, -, +=, -=, ++, --, conversions exact except for the smallest value of a 32/64 bit signed operand (refuted); products falling below the minimum, and -min, are not clamped (refuted)"
  },
  {
   "property": "C23",
   "status": "proved",
   "theorems": [
    "C23_median_of_last_N_samples",
    "C23_median_is_unique"
   ],
   "note": "Median3/5/7/9, every program of append/update; unique median"
  },
  {
   "property": "C24",
   "status": "proved",
   "theorems": [
    "C24_counter_in_range",
    "C24_changes_only_at_bounds",
    "C24_settles"
   ],
   "note": "every sequence of samples and resets; settles after maxValue equal samples"
  },
  {
   "property": "C25",
   "status": "partial",
   "theorems": [
    "C25_mean_of_last_N",
    "C25_large_N_refuted"
   ],
   "note": "every integer type and N with N and the window sum in the type; refuted when N does not fit the type; floating point not modelled"
  },
  {
   "property": "C26",
   "status": "partial",
   "theorems": [
    "C26_position_after_k_updates",
    "C26_no_overshoot_and_arrival",
    "C26_target_reached_partial",
    "C26_reset_refuted",
    "C26_far_target_refuted"
   ],
   "note": "exact position after k updates, no overshoot, arrival time, flag; refuted for reset() (stale flag) and for distances larger than the type"
  },
  {
   "property": "C27",
   "status": "proved",
   "theorems": [
    "C27_limits_hold",
    "C27_limits_hold_after_history",
    "C27_anti_windup"
   ],
   "note": "from every state, all signed types, overflow included"
  },
  {
   "property": "C28",
   "status": "proved",
   "theorems": [
    "C28_convolution"
   ],
   "note": "every N, block size, coefficient list, type and history"
  },
  {
   "property": "C29",
   "status": "partial",
   "theorems": [
    "C29_clamps_outside",
    "C29_exact_at_points_partial",
    "C29_between_neighbours_partial",
    "C29_unsigned_output_refuted",
    "C29_unsigned_input_refuted",
    "C29_input_distance_refuted"
   ],
   "note": "clamping for all tables; exact at and between points when outputs fit the signed type and the segment arithmetic fits; refuted for large unsigned outputs, 32 bit unsigned inputs and distant signed inputs"
  },
  {
   "property": "C30",
   "status": "proved",
   "theorems": [
    "C30_from_range_optimal",
    "C30_from_linear_optimal",
    "C30_from_power_optimal",
    "C30_from_range_real_refuted"
   ],
   "note": "from_range/from_list/from_linear optimal for the reported integer frequency, from_power for the real frequency; from_range refuted for the real frequency; doubles as exact rationals"
  },
  {
   "property": "C31",
   "status": "partial",
   "theorems": [
    "C31_optimal_partial",
    "C31_from_power_optimal",
    "C31_skipped_prescaler_refuted",
    "C31_from_power_odd_refuted",
    "C31_overflow_refuted"
   ],
   "note": "admissible and optimal among the prescalers that reach the ratio; from_power with even max_counter fully optimal; refuted in general, for odd max_counter and when the product wraps"
  },
  {
   "property": "C32",
   "status": "partial",
   "theorems": [
    "C32_exact_partial",
    "C32_condition_necessary",
    "C32_step_one",
    "C32_empty",
    "C32_termination_refuted"
   ],
   "note": "exact sequence iff the overshoot does not wrap into the interval; step 1 and invalid arguments unconditionally; termination refuted otherwise"
  },
  {
   "property": "C33",
   "status": "proved",
   "theorems": [
    "C33_sent_bytes_are_a_frame",
    "C33_round_trip",
    "C33_large_address_refuted",
    "C33_large_payload_refuted"
   ],
   "note": "wire format and round trip for every address < 64 and payload <= 32 bytes from any receiver in SYNC state; both bounds shown necessary"
  },
  {
   "property": "C34",
   "status": "partial",
   "theorems": [
    "C34_never_out_of_bounds",
    "C34_chunking_is_irrelevant",
    "C34_reports_exactly_the_valid_frames",
    "C34_intact_frame_after_garbage",
    "C34_recovers_after_36_other_bytes",
    "C34_message_kept_until_next_sync_partial",
    "C34_message_kept_until_dropped_refuted",
    "C34_unchecked_command_executed_refuted"
   ],
   "note": "memory safety, chunking independence, exact characterisation of the reported messages under polling after every byte, recovery; \"unchanged until dropped\" is refuted (kept only until the next sync byte), with the consequence that a slave can execute an unchecked command"
  },
  {
   "property": "C35",
   "status": "partial",
   "theorems": [
    "C35_request_answered_exactly_once",
    "C35_some_outcome_always_expected",
    "C35_others_ignored",
    "C35_at_most_one_reply_per_update",
    "C35_two_requests_in_one_update_refuted"
   ],
   "note": "exactly the demanded reply per request when update() sees one request at a time; two requests in one update() refuted; callbacks are functions from payload to a list of replies"
  },
  {
   "property": "C36",
   "status": "partial",
   "theorems": [
    "C36_sent_bytes_are_a_frame",
    "C36_round_trip",
    "C36_capacity_252_refuted",
    "C36_long_payload_refuted"
   ],
   "note": "Round trip of any list of messages, back to back, in any chunking, after any garbage, for N <= 251 and 255 <= N <= 65531. Not for N = 252..254 (8 bit length wraps, refuted) and not for payloads of 256 bytes or more where uint_fast8_t has 8 bits (the loop never ends, refuted)."
  },
  {
   "property": "C37",
   "status": "partial",
   "theorems": [
    "C37_never_out_of_bounds",
    "C37_update_stays_in_bounds",
    "C37_message_kept_until_dropped",
    "C37_delivers_exactly_partial",
    "C37_overlong_refuted"
   ],
   "note": "Memory safety for every N and stream; delivered messages are exactly the contents of the stretches with a matching checksum, for stretches of at most N + 4 content bytes. Over-long ones are not always discarded (refuted)."
  },
  {
   "property": "C38",
   "status": "partial",
   "theorems": [
    "C38_round_trip_partial",
    "C38_long_payload_truncated",
    "C38_round_trip_refuted"
   ],
   "note": "Compose, transmit, receiveHeader, receiveData for every type, address, command and payload of up to 255 bytes, with any junk in uninitialised fields and any allocator. From 256 bytes on the claim is false (dataLength() is a uint8_t) and refuted: only length mod 256 bytes are sent."
  },
  {
   "property": "C39",
   "status": "partial",
   "theorems": [
    "C39_memory_safe_partial",
    "C39_unwanted_undefined",
    "C39_leftover_refuted"
   ],
   "note": "Every byte stream with read errors, every number of receive() iterations, every handler table: no access outside owned blocks, no double free, no leak, provided neither of two situations occurs: leftover payload in the pointer field, large message nobody wants. Both do occur and both are shown to be undefined."
  },
  {
   "property": "C40",
   "status": "partial",
   "theorems": [
    "C40_one_reply_partial",
    "C40_wrong_size_is_success",
    "C40_errors_refuted",
    "C40_others_not_answered",
    "C40_overlong_refuted",
    "C40_no_memory_no_reply"
   ],
   "note": "One reply per request with address, command and the answer of the first matching action, for every action table; unknown command gives an error message. The part about wrong argument sizes is false (Response type, requester sees success) and shown so for every such request; failed allocation gives no reply."
  },
  {
   "property": "C41",
   "status": "partial",
   "theorems": [
    "C41_retries_partial",
    "C41_generator_lives",
    "C41_monotone_partial",
    "C41_lowest_priority_refuted"
   ],
   "note": "Commands 4 to 255: exact number of tries, monotone in the command, generator never zero, windows of all back-offs for every outcome of transmissions and busy medium. Commands 0 to 3: refuted (256 tries, delays outside the window)."
  },
  {
   "property": "C42",
   "status": "partial",
   "theorems": [
    "C42_send",
    "C42_receive_partial",
    "C42_receive_refuted",
    "C42_bad_checksum",
    "C42_unicast_ring_partial",
    "C42_broadcast_ring_partial",
    "C42_default_group_refuted"
   ],
   "note": "Frames, reception, forwarding and two ring theorems (unicast and broadcast) for payloads that fit; refuted as stated: the two checksum bytes are delivered as part of the payload, and a multicast to group 0x7fff is a broadcast. Partial: frames are handed to update() whole and allocation succeeds."
  },
  {
   "property": "C43",
   "status": "partial",
   "theorems": [
    "C43_busy_send",
    "C43_alone_partial",
    "C43_every_other_lost",
    "C43_refuted",
    "C43_direct_send_discards"
   ],
   "note": "Queueing in order is proved; refuted as stated: each message written from the queue takes another one with it (C43_every_other_lost for every queue), and a direct send discards the oldest queued message."
  },
  {
   "property": "C44",
   "status": "proved",
   "theorems": [
    "C44_identifier",
    "C44_round_trip",
    "C44_injective",
    "C44_onto"
   ],
   "note": "Encoding, range below 2^29, round trip in both directions, injective."
  },
  {
   "property": "C45",
   "status": "partial",
   "theorems": [
    "C45_send",
    "C45_any_order",
    "C45_round_trip",
    "C45_short",
    "C45_long_payload_lost",
    "C45_truncated_refuted"
   ],
   "note": "Sending: the frames of the queue in order for every sequence of driver answers. Receiving: fragments in any order, interleaved with any other frames, in any reachable state. Refuted beyond: payloads of 49 bytes and more are accepted for sending but delivered by no receiver (C45_long_payload_lost), and 300 bytes are delivered as 44."
  },
  {
   "property": "C46",
   "status": "partial",
   "theorems": [
    "C46_safe_partial",
    "C46_overflow_undefined",
    "C46_refuted",
    "C46_incomplete_refuted",
    "C46_mixture_refuted"
   ],
   "note": "Memory safety and accountability of every delivered byte for all frame sequences whose fragments agree on the size of their packet. Without that: buffer overflow, delivery of bytes never received, and mixtures of two packets (refuted with witnesses)."
  },
  {
   "property": "C47",
   "status": "partial",
   "theorems": [
    "C47_events",
    "C47_at_most",
    "C47_acknowledged",
    "C47_gives_up",
    "C47_waits_for_ever",
    "C47_callback_lost_refuted"
   ],
   "note": "At most three transmissions and one callback, with everything that may precede them, for every board (handlers, postman, clock) and every sequence of calls. The part that the entry is dropped only after its own acknowledge, response or timeout is refuted: entries are matched by addresses and packet identifier alone, so acknowledges of a response and of a request get mixed up and the callback is lost (C47_callback_lost_refuted); an acknowledged request waits for ever."
  },
  {
   "property": "C48",
   "status": "partial",
   "theorems": [
    "C48_first_fit",
    "C48_every_request_answered",
    "C48_blocks_disjoint",
    "C48_block_large_enough",
    "C48_all_freed",
    "C48_contents_survive",
    "C48_clamped_heap",
    "C48_huge_request_refuted",
    "C48_wide_pointer_refuted",
    "C48_tiny_heap_refuted"
   ],
   "note": "Full claim (first fit over slots, disjointness, containment, size, alignment, contents, complete recovery, available size) for heaps of 1 to 32767 slots and unsigned int as wide as a pointer, requests below SIZE_MAX - 4 - slot size. Refuted outside: huge request, 64 bit pointers with 32 bit unsigned int, heap smaller than a slot."
  },
  {
   "property": "C49",
   "status": "partial",
   "theorems": [
    "C49_round_trip",
    "C49_accepts_partial",
    "C49_accepts_refuted"
   ],
   "note": "C49_round_trip: every CAN 2.0 message, any output buffer of at least 27 characters, any message object to read into. C49_accepts_partial: for every C string, exact characterisation of what is accepted, no read past the terminator. C49_accepts_refuted: the first character is not checked, so x1230 is accepted as a t frame."
  },
  {
   "property": "C50",
   "status": "partial",
   "theorems": [
    "C50_setLength",
    "C50_constructor",
    "C50_setDataLengthCode_partial",
    "C50_large_code_undefined"
   ],
   "note": "All buffer capacities and all requested lengths (C50_setLength, C50_constructor); data length codes 0..15 (C50_setDataLengthCode_partial); codes from 16 on, which the parameter type admits, read outside the table (C50_large_code_undefined)."
  },
  {
   "property": "C51",
   "status": "partial",
   "theorems": [
    "C51_round_trip",
    "C51_date_unique",
    "C51_date_partial",
    "C51_day_of_year_refuted",
    "C51_after_2100_wrong",
    "C51_to_timestamp"
   ],
   "note": "Round trip for every time stamp and full Gregorian agreement of all fields below 2100-03-01, except the day of the year, which is stored in 8 bits (C51_day_of_year_refuted). From 2100-03-01 on the date is wrong (C51_after_2100_wrong)."
  },
  {
   "property": "C52",
   "status": "partial",
   "theorems": [
    "C52_debounced",
    "C52_debounced_partial",
    "C52_first_sample_refuted",
    "C52_flags",
    "C52_queries",
    "C52_reported_once",
    "C52_repeat",
    "C52_short_long"
   ],
   "note": "For every history of inputs and queries, every key and width; repetition timing and short/long presses included. Refuted for a key that reads pressed in the very first update(): it is accepted after one sample (C52_first_sample_refuted)."
  },
  {
   "property": "C53",
   "status": "partial",
   "theorems": [
    "C53_flags",
    "C53_queries",
    "C53_single_bit",
    "C53_all_enum_refuted",
    "C53_configuration_partial",
    "C53_configuration_refuted",
    "C53_value"
   ],
   "note": "For every register width, value, mask and field. Refuted where the statement reaches further: all(Enum) of an enum value with several bits means any, and Configuration::set with a value outside its mask changes foreign bits."
  },
  {
   "property": "C54",
   "status": "partial",
   "theorems": [
    "C54_input",
    "C54_input_total",
    "C54_output_partial",
    "C54_agree_partial",
    "C54_backward_step_lost",
    "C54_backward_refuted"
   ],
   "note": "Input: every movement and query sequence, every prescaler and counter width. Output: forwards only, with the agreement of both drivers. Refuted backwards: two of the four transitions do not change a line (C54_backward_step_lost, C54_backward_refuted)."
  },
  {
   "property": "C55",
   "status": "partial",
   "theorems": [
    "C55_enumerates",
    "C55_family",
    "C55_verify_sound",
    "C55_verify_partial",
    "C55_verify_refuted",
    "C55_skip_family_refuted"
   ],
   "note": "Complete enumeration for every set of devices with valid codes, any old buffer; search by family code; verifyDevice sound for every state. Refuted: verifyDevice denies a present device unless its code is still in the buffer (C55_verify_refuted), searchSkipCurrentFamily returns the same family again (C55_skip_family_refuted). The bus and the slaves are modelled at the level of time slots; transmission errors are not."
  },
  {
   "property": "C56",
   "status": "partial",
   "theorems": [
    "C56_vertical_pixel",
    "C56_horizontal_pixel",
    "C56_negative_undefined",
    "C56_clear_point_refuted",
    "C56_clear",
    "C56_fast_hline",
    "C56_fast_vline_partial",
    "C56_fast_vline_refuted",
    "C56_rectangle",
    "C56_horizontal_rectangle",
    "C56_fill",
    "C56_fill_refuted",
    "C56_fast_image",
    "C56_fast_image_undefined",
    "C56_image",
    "C56_fast_image_same",
    "C56_vertical_image"
   ],
   "note": "Both packings, every size, buffer and coordinate >= 0; lines, rectangles, filled rectangles and images as exact sets of pixels, the fast routines against the generic ones. Refuted: negative coordinates are not checked (C56_negative_undefined), clearPixel(Point) sets (C56_clear_point_refuted), the fast vertical line keeps its end in 8 bits (C56_fast_vline_refuted), an image reaching below the display is written behind the buffer (C56_fast_image_undefined), fillRectangle with a negative start draws nothing (C56_fill_refuted)."
  },
  {
   "property": "C57",
   "status": "proved",
   "theorems": [
    "C57_line",
    "C57_vertical_display",
    "C57_border_refuted"
   ],
   "note": "Every pair of end points with differences below 2^15, on any display; axis-parallel lines that touch coordinate 32767 excepted (C57_border_refuted: they are not drawn)."
  },
  {
   "property": "C58",
   "status": "partial",
   "theorems": [
    "C58_heap",
    "C58_heap_refuses",
    "C58_heap_wrap_undefined",
    "C58_mirror_partial",
    "C58_mirror_first",
    "C58_mirror_refuses",
    "C58_mirror_refuted",
    "C58_mirror_refusal_refuted",
    "C58_flash_initialize",
    "C58_flash_read",
    "C58_flash_program",
    "C58_flash_erase_partial",
    "C58_flash_write_partial",
    "C58_flash_refuses",
    "C58_flash_chip_erase_ignored",
    "C58_flash_chip_write",
    "C58_flash_write_refuted",
    "C58_flash_unaligned_refuted",
    "C58_flash_unaligned_erase_refuted",
    "C58_flash_wrap_refuted",
    "C58_stack_initialize",
    "C58_stack_read",
    "C58_stack_program",
    "C58_stack_write_partial",
    "C58_stack_erase_partial",
    "C58_stack_erase_refuted",
    "C58_stack_refuses",
    "C58_stack_idle",
    "C58_stack_busy_refuted"
   ],
   "note": "BdHeap: legal requests served, read back, frame, refusals (proved); address+size wrapping in 32 bits undefined. BdMirror: correct for heaps when the second device is not smaller; refuted otherwise (tests resultA twice). BdSpiFlash and BdSpiStackFlash over an environment model of the chip with arbitrary delays: read, page program, sector erase and write for aligned ranges, across dies; refuted for ranges covering a whole chip or die (no write enable before chip erase), unaligned addresses, sums beyond 2^32, and for isBusy() of a busy stack (RF_CALL evaluates --currentDie again)"
  },
  {
   "property": "C59",
   "status": "partial",
   "theorems": [
    "C59_hsv_to_rgb",
    "C59_hsv_gamut",
    "C59_hsv_grey",
    "C59_hsv_accuracy",
    "C59_hsv_to_565",
    "C59_hsv16_black",
    "C59_hsv16_refuted",
    "C59_565_pack",
    "C59_565_round_trip",
    "C59_565_quantisation",
    "C59_565_wide_refuted",
    "C59_565_add",
    "C59_565_sub",
    "C59_widen_narrow",
    "C59_hsv_value_partial",
    "C59_hsv_saturated_partial",
    "C59_grey_round_trip",
    "C59_hsv_sat_refuted"
   ],
   "note": "8 bit HSV to RGB proved equal to the closed HSV formula for all colours, hence maximum, minimum, grey criterion and accuracy; RGB565 packing, round trip, saturated arithmetic; RGB to HSV in binary32 (SpecFloat): value and full saturation for every colour the conversion is defined for, greys exact. Missing: that no colour overflows the float to integer conversion of the hue, and hue accuracy. 16 bit instantiations refuted. ui/color.cpp is a dead duplicate."
  },
  {
   "property": "C60",
   "status": "partial",
   "theorems": [
    "C60_defined",
    "C60_exactly_once",
    "C60_all_destroyed",
    "C60_contents_partial",
    "C60_observe",
    "C60_last_value",
    "C60_moved_from",
    "C60_swap_lopsided",
    "C60_swap_refuted",
    "C60_own_content_undefined",
    "C60_bad_cast"
   ],
   "note": "Exactly-once destruction, definedness, contents and any_cast proved for every sequence of allowed operations on any number of objects. swap of a holding with an empty object leaves both holding (C60_swap_refuted); value assignment from the own content is undefined (C60_own_content_undefined). Constructors that throw and size checks (compile time) not modelled."
  },
  {
   "property": "C61",
   "status": "partial",
   "theorems": [
    "C61_pid_formula_partial",
    "C61_pid_state_partial",
    "C61_pid_int16_refuted"
   ],
   "note": "exact for int32_t, for ScaleFactor 1 and for non-negative sums; refuted for int16_t with the documented parameters"
  },
  {
   "property": "C62",
   "status": "partial",
   "theorems": [
    "C62_query_reaches_slave_and_back",
    "C62_no_response_times_out",
    "C62_foreign_response_accepted_refuted"
   ],
   "note": "transaction and timeout proved; matching of the response to the query refuted (address and command of the response are not looked at)"
  },
  {
   "property": "C63",
   "status": "partial",
   "theorems": [
    "C63_from_value",
    "C63_from_array_partial",
    "C63_from_array_undefined"
   ],
   "note": "C63_from_value for all values and lengths; C63_from_array_partial when the array has as many bytes as the CAN length chosen; C63_from_array_undefined: with a buffer above 8 bytes an array of exactly the requested length is over-read for every length that is not a CAN length."
  },
  {
   "property": "C64",
   "status": "partial",
   "theorems": [
    "C64_strict_weak_order",
    "C64_arbitration_partial",
    "C64_arbitration_refuted"
   ],
   "note": "C64_strict_weak_order for all messages. C64_arbitration_partial: less implies winning, and winning implies less except for a standard frame against the extended frame with the same base and 18 zero bits (C64_arbitration_refuted)."
  },
  {
   "property": "C65",
   "status": "partial",
   "theorems": [
    "C65_safe_partial",
    "C65_long_frame_undefined"
   ],
   "note": "Safe for every execution as long as no stretch without delimiter has more than 255 content bytes; every longer frame for the node makes update() write in front of the receive buffer."
  },
  {
   "property": "C66",
   "status": "proved",
   "theorems": [
    "C66_dispatch",
    "C66_node_update"
   ],
   "note": "Every listener list, every queue, any callbacks (modelled by the messages they send)."
  },
  {
   "property": "C67",
   "status": "partial",
   "theorems": [
    "C67_reading",
    "C67_monotone",
    "C67_rate",
    "C67_returns",
    "C67_stands_8MHz",
    "C67_late_tick_refuted",
    "C67_nested_call_refuted",
    "C67_freertos_second",
    "C67_freertos_frequency_refuted"
   ],
   "note": "Exactness, order, rate and return proved for every interleaving with one context, provided the handler is not kept from running and the timer is faster than 1 MHz. False in the model: at exactly 8 MHz (1 MHz) the factor is 0, with a blocked handler the time goes back, a call from an interrupt makes an interrupted call read a period ahead, FreeRTOS rates dividing 999 are accepted. FreeRTOS timer setup and several cores not modelled."
  },
  {
   "property": "C68",
   "status": "partial",
   "theorems": [
    "C68_transmit",
    "C68_refused",
    "C68_finished",
    "C68_finished_refuted",
    "C68_drains",
    "C68_receive",
    "C68_dropped",
    "C68_acknowledge_refuted",
    "C68_unbuffered_receive_refuted",
    "C68_blocking_refuted",
    "C68_blocking_order_refuted",
    "C68_discard_refuted"
   ],
   "note": "Transmission proved for every interleaving when the main program uses write() only; reception for every program. False in the model: isWriteFinished() is true while the last byte is still unsent, writeBlocking() after write() loses or reorders bytes, discardTransmitBuffer() races with a receive interrupt, the acknowledge of the older peripherals throws bytes away. Hardware FIFO, flow control, DMA driver and line errors not modelled."
  },
  {
   "property": "C69",
   "status": "partial",
   "theorems": [
    "C69_transmit",
    "C69_refused",
    "C69_delivered",
    "C69_size",
    "C69_size_refuted",
    "C69_zero_undefined",
    "C69_receive",
    "C69_read_empty"
   ],
   "note": "Both directions proved for every interleaving and every size from 1 to 65536, accesses in program order (the cells are not volatile in the code). False in the model: the size of an empty buffer, and size 0 divides by zero in write()."
  },
  {
   "property": "C70",
   "status": "partial",
   "theorems": [
    "C70_set_channel",
    "C70_get_channel",
    "C70_set_all",
    "C70_set_dot",
    "C70_get_dot",
    "C70_set_all_dot",
    "C70_outside",
    "C70_dot_overflow_refuted",
    "C70_all_dot_overflow_refuted",
    "C70_many_channels_undefined"
   ],
   "note": "Proved for every chain up to 43688 channels (grayscale) and every chain (dot correction) for values up to 63. False in the model: dot-correction values above 63 overwrite other channels, and from 43692 channels on the 16-bit index wraps. The SPI transfer, latch and error pins are not modelled."
  },
  {
   "property": "C71",
   "status": "partial",
   "theorems": [
    "C71_transfer",
    "C71_array",
    "C71_mode",
    "C71_order",
    "C71_initialize_refuted",
    "C71_rate",
    "C71_rate_refuted"
   ],
   "note": "Exchange, timing, arrays and mode changes proved for all modes. False in the model: initialize() puts the clock low but keeps an inverted mode, so the slave misses the first bit; below 7630 Hz the delay is cut to 16 bits. The resumable wrappers, the lock and interrupts between the pin accesses are not modelled (a longer delay keeps all required times)."
  },
  {
   "property": "C72",
   "status": "partial",
   "theorems": [
    "C72_detached_once",
    "C72_returns",
    "C72_exchange",
    "C72_long_stretch_refuted",
    "C72_failed_stop_refuted",
    "C72_address_zero_refuted",
    "C72_null_read_undefined",
    "C72_failed_restart_refuted",
    "C72_baudrate",
    "C72_slow_baudrate_refuted"
   ],
   "note": "Callbacks and return proved for every environment and transaction; the exchange for every slave that stretches by at most 499 quarter periods, addresses 1 to 127. False in the model: longer stretching is reported as lost arbitration, a failed stop is not told to the transaction and leaves SDA low, a failed repeated start leaves SCL low, a NACK of address 0 is reported as DataNack, reading into nullptr stores a byte, below 3815 Bd the delay is cut to 16 bits. The configuration handler, other masters on the bus (for the exchange) and the lengths of the pulses are not modelled."
  },
  {
   "property": "C73",
   "status": "partial",
   "theorems": [
    "C73_reuse",
    "C73_reuse_write_read_refuted",
    "C73_second_start_refuted"
   ],
   "note": "Proved for transactions that only write, only read or only ping. False in the model for write followed by read: the second run leaves out the write. A second start of a busy transaction ends its busy state. I2cWriteTransaction and I2cReadTransaction not modelled."
  },
  {
   "property": "C74",
   "status": "proved",
   "theorems": [
    "C74_live_blocks_are_disjoint",
    "C74_malloc_is_safe",
    "C74_free_is_safe",
    "C74_pool_is_accepted"
   ],
   "note": "For every execution of a client that keeps to the rules, requests outside the band of C77. 32-bit words; the assertions (compiled out), the debug functions, tlsf_remove_pool and tlsf_create_with_pool are not modelled."
  },
  {
   "property": "C75",
   "status": "proved",
   "theorems": [
    "C75_good_fit",
    "C75_free_blocks_are_merged",
    "C75_nothing_leaks",
    "C75_all_freed"
   ],
   "note": "Walk over the memory words of the pools, independent of the lists and bitmaps."
  },
  {
   "property": "C76",
   "status": "proved",
   "theorems": [
    "C76_memalign",
    "C76_realloc",
    "C76_realloc_as_free_and_malloc"
   ],
   "note": "Alignments 2^e with e up to 30, sizes up to the last size class; memcpy copies whole words, which the rounding of block sizes guarantees."
  },
  {
   "property": "C77",
   "status": "partial",
   "theorems": [
    "C77_request_in_the_last_class_undefined",
    "C77_largest_pool_undefined",
    "C77_realloc_beyond_the_limit_refuted"
   ],
   "note": "False in the model: requests between the start of the last size class and the maximum read past the end of the bitmaps in every state; a pool of exactly the maximum is inserted past the end of the lists; realloc beyond the maximum reports success and gives the block back while the client holds it."
  },
  {
   "property": "C78",
   "status": "partial",
   "theorems": [
    "C78_find_largest_partial",
    "C78_largest_continuous_refuted",
    "C78_at_least_the_traits_refuted",
    "C78_rest_of_the_last_section",
    "C78_later_sections_refuted"
   ],
   "note": "False in the model: one of the traits suffices, adjoining sections are joined only when the first is the longest so far, and the offset of a report is also applied to the later sections. Proved: failure only without any trait, the result is a run of adjoining sections with some trait each and no shorter than any single one; the rest of the last section."
  },
  {
   "property": "C79",
   "status": "partial",
   "theorems": [
    "C79_report_is_read_back_partial",
    "C79_byte_behind_the_section_refuted",
    "C79_adjoining_sections_refuted",
    "C79_crash_stack_refuted",
    "C79_heap_over_the_report_refuted"
   ],
   "note": "Proved for reports that fit into the first section with four bytes of marker, away from the crash stack. Refuted beyond: a byte behind each section is written, adjoining sections lose a byte, the crash stack is not spared, the heap may be set up over the report."
  },
  {
   "property": "C80",
   "status": "partial",
   "theorems": [
    "C80_initialize",
    "C80_live_blocks_are_disjoint",
    "C80_malloc",
    "C80_free",
    "C80_realloc",
    "C80_types_only_undefined",
    "C80_calloc_refuted"
   ],
   "note": "Proved for requests with a trait besides the two types. Refuted: a request with nothing but the types (or no traits) calls tlsf_malloc with a null pointer when memory is exhausted and elements of mem_pools are unused; calloc allocates n bytes whatever the size of the elements."
  },
  {
   "property": "C81",
   "status": "proved",
   "theorems": [
    "C81_operations",
    "C81_exactly_once",
    "C81_all_destroyed",
    "C81_call",
    "C81_empty"
   ],
   "note": "Exceptions and the compile-time checks of size and alignment are not modelled."
  },
  {
   "property": "C82",
   "status": "partial",
   "theorems": [
    "C82_send_frame",
    "C82_receive_partial",
    "C82_round_trip",
    "C82_receive_refuted"
   ],
   "note": "Sending and the round trip are proved. Receiving is proved for 8 byte messages, or data length codes up to 8; refuted for codes 9 to 15 with 64 byte messages (length up to 64 for 8 bytes on the bus)."
  },
  {
   "property": "C83",
   "status": "partial",
   "theorems": [
    "C83_other_banks",
    "C83_disable",
    "C83_extended_mask",
    "C83_standard_mask_partial",
    "C83_standard_mask_refuted",
    "C83_list",
    "C83_short_list_partial",
    "C83_short_mask_partial",
    "C83_short_list_refuted"
   ],
   "note": "32-bit lists, extended masks and independence of the banks are proved. Standard masks are exact among standard frames only (refuted: extended frames pass); 16-bit extended encodings only for identifiers whose bits 19 to 21 do not spoil others (refuted: bit 19 sets RTR). The initialization mode of the filters is not modelled."
  },
  {
   "property": "C84",
   "status": "partial",
   "theorems": [
    "C84_nothing_lost",
    "C84_in_order_partial",
    "C84_stuck_refuted",
    "C84_order_refuted",
    "C84_masked_refuted"
   ],
   "note": "Nothing lost: proved for unmasked interrupts (refuted when masked). Order and draining: proved if no transmission completes between the test of the mailboxes and the push, refuted otherwise. The hardware follows the reference manual with TXFP set; error and abort conditions are not modelled."
  },
  {
   "property": "C85",
   "status": "partial",
   "theorems": [
    "C85_interrupt_defined",
    "C85_no_invention",
    "C85_queue_kept",
    "C85_all_delivered",
    "C85_overrun_refuted",
    "C85_order_refuted"
   ],
   "note": "Overflow: refuted (one message too many costs two), the rest proved. The order across FIFOs is not kept (refuted)."
  },
  {
   "property": "C86",
   "status": "partial",
   "theorems": [
    "C86_returns",
    "C86_acknowledged",
    "C86_not_left",
    "C86_not_entered_undetected",
    "C86_not_entered_refuted"
   ],
   "note": "Refuted for a mode that is never entered; proved otherwise."
  },
  {
   "property": "C87",
   "status": "partial",
   "theorems": [
    "C87_linearizable",
    "C87_mask_restored",
    "C87_blocks",
    "C87_defined",
    "C87_priority",
    "C87_priority_zero_refuted"
   ],
   "note": "Everything proved but LockPriority(0), which masks nothing (refuted). An operation is a sequence of word accesses under a Lock on one core; Container for any type as words; Flag::test, set and reset are single accesses and not modelled."
  },
  {
   "property": "C88",
   "status": "partial",
   "theorems": [
    "C88_exclusive",
    "C88_once_partial",
    "C88_twice_refuted",
    "C88_spurious_refuted"
   ],
   "note": "Once: proved if no context is interrupted between load and exchange, refuted otherwise (also for nested handlers). Exclusive construction: proved for all interleavings."
  },
  {
   "property": "C89",
   "status": "proved",
   "theorems": [
    "C89_outcome",
    "C89_order"
   ],
   "note": "Handlers are functions of the assertion; the description and the linker section are not modelled."
  },
  {
   "property": "C90",
   "status": "partial",
   "theorems": [
    "C90_exclusive",
    "C90_guards_go_on",
    "C90_locks_go_on_partial",
    "C90_interrupted_lock_hangs",
    "C90_nested_lock_hangs",
    "C90_lock_deadlock_refuted"
   ],
   "note": "Exclusion proved. Progress proved for SystemSpinLockGuard and, with handlers that use no lock, for atomic::Lock; refuted for atomic::Lock in a handler (it takes the spin lock before disabling interrupts and releases it after enabling them), and for nested locks. Mutex and Mailbox are not modelled."
  },
  {
   "property": "C91",
   "status": "partial",
   "theorems": [
    "C91_sequences_are_written_as_the_text_of_their_things",
    "C91_a_numeral_of_given_length_is_unique",
    "C91_function_pointers_are_written_refuted",
    "C91_function_pointers_are_undetected",
    "C91_blocking_devices_lose_nothing",
    "C91_blocking_devices_get_nothing_else",
    "C91_blocking_on_a_dead_device_hangs",
    "C91_discarding_devices_lose_what_they_refuse",
    "C91_get_fills_the_buffer_and_terminates_it"
   ],
   "note": "IOStream operators, modes, writeHex/writeBin/writePointer/writeIntegerMode/writeInteger, get, and both IODevice wrappers. Refuted: operator<< for function pointers writes the address of its own parameter (&pointer) and not that of the function. print_integer (external printf library) is taken to write decimal digits; floating point and printf not modelled."
  },
  {
   "property": "C92",
   "status": "proved",
   "theorems": [
    "C92_dot_products_are_exact_but_for_one",
    "C92_squared_lengths_are_exact_but_for_one",
    "C92_cross_products_are_exact",
    "C92_lengths_of_uint8_vectors_refuted",
    "C92_lengths_of_int32_vectors_refuted",
    "C92_ccw_tells_the_orientation",
    "C92_ccw_for_all_points_refuted"
   ],
   "note": "Vector<T,2> dot, cross, getLengthSquared, ccw for int8_t, uint8_t, int16_t, int32_t with 16 and 32 bit int. Exactness and orientation proved with the sharp exceptions; refuted for uint8_t and int32_t lengths and for ccw of points farther apart than half the range. Floating point coordinates, lengths, angles and rotation not modelled. The property states the exceptions; all of it, including them, is proved."
  },
  {
   "property": "C93",
   "status": "proved",
   "theorems": [
    "C93_intersects_says_whether_segments_meet",
    "C93_intersects_for_points_refuted",
    "C93_intersects_for_all_segments_refuted",
    "C93_ray_intersects_says_whether_it_crosses",
    "C93_ray_intersects_for_all_rays_refuted"
   ],
   "note": "LineSegment2D::intersects and Ray2D::intersects against the existence of a common (rational) point; refuted for segments of length zero, for long segments, and for rays with coordinates beyond 151 (int16_t/int32_t). getIntersections and distances (floating point) not modelled. The property states the exceptions; all of it, including them, is proved."
  },
  {
   "property": "C94",
   "status": "proved",
   "theorems": [
    "C94_isInside_says_whether_the_point_is_in_the_convex_polygon",
    "C94_isInside_with_a_repeated_vertex_refuted",
    "C94_polygons_intersect_when_their_sides_meet",
    "C94_a_segment_intersects_a_polygon_when_it_meets_a_side",
    "C94_a_ray_intersects_a_polygon_when_it_crosses_a_side",
    "C94_a_ray_intersects_a_polygon_refuted"
   ],
   "note": "Polygon2D::isInside for strictly convex polygons of either orientation, intersections with polygons, segments and rays reduced to their sides; refuted: repeated vertex in a clockwise polygon, ray through vertices. Circles (floating point) not modelled. The property states the exceptions; all of it, including them, is proved."
  },
  {
   "property": "C95",
   "status": "proved",
   "theorems": [
    "C95_an_animation_moves_to_its_end",
    "C95_an_animation_follows_the_line",
    "C95_bytes_follow_the_line_refuted",
    "C95_slow_animations_do_not_stop_at_the_end",
    "C95_fading_out_slowly_refuted",
    "C95_multiples_of_65536_ms_undefined",
    "C95_long_times_on_the_avr_refuted",
    "C95_animating_to_the_same_value",
    "C95_32_bit_values_are_cut_refuted",
    "C95_16_bit_values_are_cut_on_the_avr_refuted",
    "C95_the_handler_knows_the_value"
   ],
   "note": "FastRamp for the integer types and Animation<T>. Monotone, on the line and in time proved for times up to 2^fraction bits ms per unit; refuted beyond (overshoot, wrap-around), for multiples of 65536 ms with 8 bit types (division by zero), for long times on the AVR, for 32 bit (and on the AVR 16 bit) values animated to themselves. The floating point ramp is not modelled. The property states the exceptions; all of it, including them, is proved."
  },
  {
   "property": "C96",
   "status": "proved",
   "theorems": [
    "C96_only_frames_of_the_array_are_read",
    "C96_frames_are_shown_in_a_cycle",
    "C96_frames_are_shown_forwards_and_backwards",
    "C96_autoreverse_of_one_frame_stops",
    "C96_every_frame_reaches_its_values",
    "C96_frames_take_one_update_more",
    "C96_isAnimating_until_the_end_refuted",
    "C96_getMode_returns_the_mode_refuted"
   ],
   "note": "KeyFrameAnimation on the model of Animation, any number of animators. Order, repeat count, safety, values and timing proved; refuted: isAnimating during the last frame, getMode while reversed; a single frame with Autoreverse stops. The property states the exceptions; all of it, including them, is proved."
  },
  {
   "property": "C97",
   "status": "proved",
   "theorems": [
    "C97_a_pulse_takes_its_period",
    "C97_long_pulses_have_their_share_refuted",
    "C97_an_indicator_takes_its_period_and_the_fades",
    "C97_an_indicator_takes_its_period_refuted",
    "C97_fade_times_keep_the_time",
    "C97_fade_times_of_a_strobe_keep_the_time",
    "C97_a_strobe_takes_its_period_and_the_pause",
    "C97_short_second_flashes_refuted"
   ],
   "note": "Frame lengths of Pulse, Indicator and Strobe with the widths of TimeType and int. Pulse exact; the cycle of Indicator and Strobe is proved longer than the period (refuted); setFadeTimes proved. The property states the exceptions; all of it, including them, is proved."
  },
  {
   "property": "C98",
   "status": "partial",
   "theorems": [
    "C98_sent_once",
    "C98_received_once",
    "C98_send_refuses",
    "C98_ready_to_send",
    "C98_get_refuses",
    "C98_send_order_refuted",
    "C98_receive_order_refuted",
    "C98_send_long_undefined",
    "C98_get_long_undefined",
    "C98_get_keeps_dlc",
    "C98_get_dlc_refuted"
   ],
   "note": "Accounting in both directions and the refusals are proved; overruns for long messages and codes 9-15, lost order and the stale length code are proved as exceptions."
  },
  {
   "property": "C99",
   "status": "proved",
   "theorems": [
    "C99_filter_accepts",
    "C99_filter_registers",
    "C99_filter_forgets_mode",
    "C99_set_mode",
    "C99_listen_loopback_undetected"
   ],
   "note": "The property states the exceptions; all of it, including them, is proved. Tables mixing kinds under one mask are covered by C99_filter_registers only."
  },
  {
   "property": "C100",
   "status": "proved",
   "theorems": [
    "C100_initialize",
    "C100_odd_prescaler_wrong",
    "C100_20MHz_wrong",
    "C100_phase_segment_refuted"
   ],
   "note": "The property states the exceptions; all of it, including them, is proved."
  },
  {
   "property": "C101",
   "status": "partial",
   "theorems": [
    "C101_addresses",
    "C101_elements_disjoint",
    "C101_elements_inside",
    "C101_send",
    "C101_receive",
    "C101_receive_frame_partial",
    "C101_receive_short_fd_wrong",
    "C101_receive_long_classic_wrong",
    "C101_receive_stale_fd_refuted",
    "C101_standard_filters",
    "C101_extended_filters",
    "C101_filter_index"
   ],
   "note": "Layout, sending and filters are proved in full; receiving is proved for every element, but the FD and bit rate flags of the frame are lost, which is proved as wrong; C101_receive_frame_partial lists when the frame arrives unchanged."
  },
  {
   "property": "C102",
   "status": "partial",
   "theorems": [
    "C102_transmission",
    "C102_no_stall",
    "C102_drains",
    "C102_order_refuted",
    "C102_reception",
    "C102_reception_resumes",
    "C102_reception_lost_wakeup_refuted",
    "C102_overwrite_torn_refuted"
   ],
   "note": "Accounting, no stall and order per FIFO are proved for FIFOs that do not overwrite; overtaking, the lost wakeup of the reception interrupt and torn reads in overwrite mode are proved as refutations."
  },
  {
   "property": "C103",
   "status": "proved",
   "theorems": [
    "C103_write",
    "C103_readRtc",
    "C103_read_wrong",
    "C103_read_refuted",
    "C103_fields",
    "C103_fields_12h",
    "C103_year_wrong",
    "C103_oscillator",
    "C103_protect",
    "C103_get",
    "C103_set",
    "C103_set_fails",
    "C103_running_wrong",
    "C103_running_refuted"
   ],
   "note": "The property states the exceptions (year, single read, oscillatorRunning); all of it, including them, is proved. The clocks do not tick during an access."
  },
  {
   "property": "C104",
   "status": "proved",
   "theorems": [
    "C104_crc_5611",
    "C104_crc_5837",
    "C104_initialize_5611",
    "C104_initialize_5837",
    "C104_detects_5611",
    "C104_detects_5837",
    "C104_dead_5611_refuted",
    "C104_failing_5837_wrong"
   ],
   "note": "The property states the exceptions (dead line, failed transactions); all of it, including them, is proved."
  },
  {
   "property": "C105",
   "status": "partial",
   "theorems": [
    "C105_values_5611",
    "C105_values_5837",
    "C105_cold_5611_refuted",
    "C105_hot_5837_refuted",
    "C105_cache_5611",
    "C105_cache_5837",
    "C105_stale_pressure_refuted"
   ],
   "note": "The compensation is proved in the ranges given and refuted outside; the cache is proved for getTemperature followed by getPressure, and getPressure alone is refuted."
  },
  {
   "property": "C106",
   "status": "partial",
   "theorems": [
    "C106_initialize",
    "C106_temperature",
    "C106_pressure",
    "C106_ac5_refuted",
    "C106_ac5_wrong",
    "C106_difference_refuted",
    "C106_zero_undefined",
    "C106_cache",
    "C106_stale_refuted"
   ],
   "note": "Proved in the ranges given; AC5 from 32768 on, large differences, a memory of zeros and calls during a transaction are proved as wrong. The floating point variant is not modelled."
  },
  {
   "property": "C107",
   "status": "partial",
   "theorems": [
    "C107_temperature",
    "C107_near_T1",
    "C107_overflow_refuted",
    "C107_humidity",
    "C107_humidity_sign_wrong",
    "C107_cache",
    "C107_stale_wrong"
   ],
   "note": "Proved without overflow and for H4, H5 not negative, and wrong otherwise. The formulas of pressure and humidity are not modelled (the cache is proved for any formula)."
  },
  {
   "property": "C108",
   "status": "proved",
   "theorems": [
    "C108_crc",
    "C108_write",
    "C108_read",
    "C108_register",
    "C108_conversion",
    "C108_detects",
    "C108_two_bits_refuted"
   ],
   "note": "The property states the exception (two bits eight apart); all of it is proved. The layout of the frames is taken from the data sheet."
  }
 ]
}