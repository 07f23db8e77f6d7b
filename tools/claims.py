P("C01",["C01_crc_is_crc16"])
P("C02",["C02_build_check_round_trip"])
P("C03",["C03_accept_iff_id_and_crc","C03_short_never_accepted","C03_id_error","C03_crc_error"])
P("C04",["C04_errors_detected"])
P("C05",["C05_too_long_refused","C05_never_overflows"])
P("C06",["C06_write_then_read","C06_read_big_endian"])
P("C11",["C11_read_delivered_exactly","C11_bits_round_trip","C11_registers_round_trip"])
P("C12",["C12_write_confirmed_once"])
P("C13",["C13_exception_reported_once"])
Q("C14",["C14_refuted","C14_full_refuted","C14_safe_iff_partial"],"False of the code: a coil/discrete-input read of more than 126 items answered with function code 3 or 4 reads beyond the response buffer (C14_refuted, C14_full_refuted). Proved instead: exact characterisation of when undefined behaviour happens.")
Q("C15",["C15_refuted","C15_full_refuted","C15_kinds_separate_partial"],"False of the code: the response's function code, not the request's, selects the callback. Proved instead: reads never yield confirmations, writes never yield data.")
Q("C16",["C16_refuted","C16_long_enough_partial"],"False of the code: the response length is never compared with the quantity. Proved instead: a long enough response is delivered from its own bytes only.")
P("C18",["C18_queue_is_bounded_fifo","C18_availability"])
P("C33",["C33_read_bits","C33_read_regs"])
P("C34",["C34_write_bits","C34_write_regs","C34_frame"])
P("C35",["C35_exception_codes"])
Q("C36",["C36_memory_safe_partial","C36_refuted"],"Proved for table sizes 0..65535. False for larger configured sizes: the tables are clipped to 65535 entries but the single-write check is not.")
Q("C37",["C37_refused_change_nothing_partial","C37_prefix_written_bits_partial","C37_prefix_written_regs_partial","C37_refuted"],"False of the code for multiple writes that meet an unregistered item (exception 4 after writing the items before it). Everything else, and the exact effect in that case, is proved.")
Q("C42",["C42_complete_frames_partial","C42_refuted"],"False of the code: frames shorter than their function needs are executed with stale buffer bytes. Proved for frames that carry all bytes their function needs.")
P("C45",["C45_register_inside","C45_register_outside_is_unsafe","C45_read_uses_registered_bit","C45_read_uses_registered_reg"])
P("C51",["C51_reception_in_bounds","C51_byte_stored"])
Q("C52",["C52_bytes_in_order_partial","C52_once_if_txe_disabled_partial","C52_refuted"],"Bytes in order, each once: proved for all interrupt sequences. 'Completion exactly once' is false: the TXE branch also runs for reception interrupts after the end of the transmission.")
Q("C53",["C53_timers_defined_partial","C53_refuted"],"Division by zero for every baud rate below 2400 (C53_refuted); proved for all others.")
Q("C54",["C54_range_check_partial","C54_refuted","C54_model_agrees"],"Proved for 32-bit int, and for 16-bit int without wrap-around; false for 16-bit int in general.")
P("C38",["C38_only_intact_requests","C38_checked_is_received"])
P("C39",["C39_at_most_one_per_frame","C39_never_overlapping"])
P("C40",["C40_answered_exactly_once","C40_short_frames","C40_every_request_of_a_session","slave_init_is_fresh"])
Q("C41",["C41_recovers_from_garbage_partial","C41_refuted"],"Proved for any number of frames that are damaged, foreign, over-long or carry frame errors before their 1.5-character event, for every interleaving. False for a byte after the 1.5-character pause (frame error followed by a second 1.5-character event): the next request is lost.")
Q("C43",["C43_refuted","C43_next_answered_partial"],"False of the code: a frame error signalled while idle makes the slave drop the next request, always. Proved instead: only that one.")
Q("C44",["C44_refuted","C44_completion_noticed_partial"],"False of the code: completion signalled between lines 197 and 198 is lost and the slave never transmits again. Proved for completion at every other point.")
Q("C46",["C46_refuted","C46_nothing_transmitted_partial"],"False of the code: every poll before initialisation dereferences NULL. Proved: interrupts are ignored and nothing is transmitted.")
Q("C47",["C47_refuted","C47_clean_slate_partial"],"False of the code: initialisation does not reset the receive length. Proved when the receive buffer is empty.")
P("C50",["C50_other_ids_unaffected","C50_bus","C50_any_schedule"])
Q("C55",["C55_refuted","C55_regular_traffic_partial"],"False of the code: a byte after the 1.5-character pause leaves the slave deaf for ever (proved for every later traffic of regular receptions). Proved: traffic without such gaps never makes it deaf.")
P("C07",["C07_frames_on_the_wire","C07_frame_built"])
P("C08",["C08_accepted_exactly","C08_limits"])
Q("C09",["C09_refuted","C09_memory_safe_partial"],"False of the code: a multiple write with a valid quantity and a NULL array dereferences NULL. Proved for calls with an array of at least the requested quantity (and for refused quantities whatever the array), in every reachable state.")
Q("C10",["C10_refuted","C10_rejection_cost_partial"],"False of the code: a buffer is lost for ever with every request refused for its quantity. Proved: that is the only cost, exactly one buffer per such refusal; 'free queue empty' changes nothing.")
Q("C17",["C17_refuted","C17_refuted_exception","C17_informed_partial"],"False of the code: a response with another function code (or an exception for an unknown one) finishes the request silently. Proved: silence happens only for such function codes.")
P("C19",["C19_buffers","C19_in_flight","C19_calls_leave_them_alone","C19_driver_buffer"])
P("C20",["C20_in_order"])
P("C21",["C21_one_outcome","C21_after_transmission"])
P("C22",["C22_only_checked_responses","C22_checked_is_received","C22_delivers_the_checked_frame"])
Q("C26",["C26_refuted_timeout","C26_refuted_comm","C26_timeout_partial","C26_comm_partial"],"False of the code: both reports take the function code from the response buffer, not from the request. Proved: every other field of timeout reports; kind, slave ID and origin of the function code of communication error reports.")
P("C56",["C56_before_init_harmless"])
Q("C57",["C57_slave_refuted","C57_slave_fresh_partial","C57_master_refuted","C57_master_partial"],"False of the code at both ends: after use in RTU mode, initialisation in another mode leaves receive pointers and subscriptions in place while buffers become NULL (UB on the next byte or request). Proved from power-on (slave) and for masters whose driver was never given a receive buffer or receives nothing.")
P("C58",["C58_slave_poll_returns","C58_slave_poll_total","C58_master_poll_returns","C58_master_poll_never_loops"])
P("C59",["C59_clean_slate","C59_exactly_N_accepted","C59_next_poll_transmits","C59_first_poll_transmits"])
P("C60",["C60_slave_no_ub","C60_slave_no_ub_ready","C60_master_no_ub","C60_master_no_ub_small"])
P("C23",["C23_foreign_ignored"])
P("C24",["C24_reported_in_time","C24_from_transmission"])
Q("C25",["C25_refuted","C25_polled_every_tick_partial"],"False of the code in every waiting state: if the remaining ticks occur between two polls the timer passes 1 unseen and no timeout is ever reported. Proved if a poll completes between any two ticks.")
Q("C27",["C27_refuted","C27_second_time_partial"],"False of the code after every communication error: the error flag stays set, so the next intact answer is not delivered at its first transmission. Proved: with R >= 1 and one flag left over it is delivered at the second.")
Q("C28",["C28_refuted","C28_waiting_partial"],"False of the code: completion at lines 405/406 (after the frame was handed over) is overwritten and the request never finishes. Proved for completion at every later point, whatever else happens.")
Q("C29",["C29_refuted","C29_discarded_partial"],"False of the code: a left-over 1.5-character event with a buffer last used for the same slave blocks the master. Proved: otherwise the empty reception is discarded and the master waits with the full timeout.")
P("C30",["C30_drains"])
Q("C31",["C31_refuted","C31_delivered_partial"],"False of the code for every answer whose 3.5-character event precedes the handling of the 1.5-character event: it is wiped out and nothing is ever delivered. Proved with a poll between the two events.")
Q("C32",["C32_refuted","C32_delivered_partial","C32_reported_partial"],"False of the code for answers with both a frame error and a wrong CRC. Proved for all numbers of answers with one of the two errors, all R, all contents.")
P("C48",["C48_read_end_to_end","C61_session"])
Q("C49",["C49_write_end_to_end_partial","C49_full_unless_gap_partial","C61_session","C49_refuted"],"The property is false as stated: when an address inside the range has no variable, the items before it are written although the master gets exception 4 (C49_refuted). Proved for every request: one transmission, one answer, one callback, the addressed variables take exactly the values (all of them with the confirmation, those before the gap with exception 4, none with exception 2), nothing else changes; the full statement when the range leaves the table, every item is registered, or one item is written; and any sequence of reads and writes behaves as a memory.")
P("C61",["C61_session"])
P("C62",["C62_firmware_no_ub","C62_library_inside"])
Q("C63",["C63_bytes_on_the_line_partial","C63_refuted"],"False of the code when a character is received while the main program is inside the driver's send function (C63_refuted: a byte of the response is lost). Proved for all schedules in which the UART's handler does not interrupt the first three statements of that function.")
P("C64",["C64_traffic_on_the_line","C64_from_power_on","C64_repeated_timeout_refuted"])
P("C65",["C65_next_byte_recovers","C65_then_traffic"])
P("C66",["C66_never_unasked"])
P("C67",["C67_gap_is_a_frame_error"])
Q("C68",["C68_refuted","C68_refuted_first_request","C68_master_firmware_no_ub_partial","C68_library_inside"],"False of the code when a character arrives on the line before the first request: the handler stores it through a NULL pointer. Proved for all schedules in which that does not happen, the UART's handler does not interrupt the first three statements of send, and slaves asked for more than 126 items do not answer with a foreign function code (C14). The projection to library histories is proved for every schedule.")
Q("C69",["C69_refuted","C69_bytes_on_the_line_partial"],"False of the code when a character is received while the main program is inside the driver's send function (a byte of the request is lost). Proved for all other schedules.")
Q("C70",["C70_only_requests_partial","C69_refuted"],"As C69: false when the UART's handler interrupts the first three statements of send; proved for all other schedules.")
P("C71",["C71_answer_on_the_line"])
P("C72",["C72_damaged_answers_on_the_line"])
P("C73",["C73_silence_on_the_line"])
P("C74",["C74_queue_on_the_line"])
P("C75",["C75_bus_session","C75_others_untouched"])
Q("C76",["C76_application_starts","C76_application_is_firmware","C76_application_no_ub_partial","C76_refuted"],"As C68: proved for schedules without a UART interrupt inside the driver's send before the first byte is written and without a character on the line before the first request is being transmitted; false without the latter (C76_refuted: NULL receive buffer / callback).")
P("C77",["C77_what_is_asked","C77_rate","C77_rate_between","C77_no_buffer_lost","C77_refused_only_when_full"])
P("C78",["C78_keeps_asking"])
P("C79",["C79_application_no_ub","C79_soon_running","C79_application_is_firmware","C79_no_aliases","C79_traffic","C79_power_on"])
P("C80",["C80_LED_is_recent","C80_LED_follows","C80_switch"])
Q("C81",["C81_settings_partial","C81_eleven_bits","C81_second_init_ignored","C81_refuted"],"Proved for the first initialisation since reset. A later one, without disabling the USART, changes neither format nor bit rate (C81_second_init_ignored, for every register contents; C81_refuted).")
P("C82",["C82_bytes_arrive"])
Q("C83",["C83_hardware_notices","C83_parity_ignored","C83_refuted"],"False of the code: the hardware raises its error flags for every single-bit error (proved), but the interrupt handler looks at no error flag and stores the byte like any other (refuted; C83_parity_ignored: with arbitrary parity bits the same bytes are stored). The frame's CRC is the only protection (C04).")
Q("C84",["C84_bit_rate","C84_end_of_frame","C84_gap_first","C84_gap_partial","C84_gap_all_rates","C84_refuted"],"Bit rate, end of frame and order of the two pauses: proved for all baud rates. The minimal gap above 19200 bit/s is proved for multiples of 9600 and false otherwise; for every rate the gap is at least 555.5 microseconds (C84_gap_all_rates), which is the exact bound (28799 bit/s).")
P("C85",["C85_round","C85_next_round","C85_mirror"])
P("C86",["C86_noisy_session","C86_repeatable","C86_reports_true"])
P("C87",["C87_interpretation_reads_only_the_frame","C87_check_reads_only_the_frame","C87_slave_interrupted_anywhere","C87_master_interrupted_anywhere"])
P("C88",["C88_request_call_interrupted_anywhere"])
P("C89",["C89_slave_interrupt_order","C89_master_interrupt_order"])
P("C90",["C90_line_damage_caught","C90_slave","C90_master","C90_limit"])
Q("C91",["C91_push_interrupted","C91_pop_interrupted","C91_harmless_requests","C91_refuted_counter","C91_refuted_buffer","C91_refuted_two_callers"],
 "The code's queues are not protected against interrupts, so the property is false in general and what is proved is the exact part that holds. Proved: with the accesses of lines 633, 651 and 901 executed one by one and interrupted anywhere by the driver, ticks and request calls, the master behaves as if the queue operations were indivisible, provided no request falls between load and store of a counter nor, when no buffer is left, between the two updates of a hand-back. Refuted, each by a concrete run: a request between load and store of the counter at line 651 leads to a null-pointer dereference after both requests are answered; two requests between the two updates of line 901 lose a message buffer for ever; requests made from main program and interrupt handler can get the same buffer. Order of accesses as in the source (the fields are not volatile).")
Q("C92",["C92_clock_partial","C92_returns","C92_again","C92_refuted_wait_states","C92_refuted_pll_on"],
 "Proved: called with the PLL off (as after reset), or on with the same factors (a second call), core_init returns under every schedule in which the hardware gets its turns, and from then on processor, USART and timer run at 64 MHz and SysTick counts milliseconds, whatever else the registers held. Missing because the code does not do it: the flash wait states are the reserved value 4 instead of 2 (C92_refuted_wait_states), and with the PLL running with other factors the clock is another one (C92_refuted_pll_on).")
P("C93",["C93_answer","C93_read_bits","C93_read_regs","C93_exceptions","C93_write_bits","C93_write_regs","C93_untouched","C93_no_snapshot","C93_no_writes"])
P("C94",["C94_no_ub","C94_answered","C94_dropped","C94_no_application"])
Q("C95",["C95_harmless_manager","C95_harmless_program","C95_driver_only","C95_returns","C95_refuted_counter","C95_refuted_early","C95_refuted_buffers"],
 "Refuted in general: the manager taking a request (modbus_master.c:651) between load and store of the request queue's counter in a request call makes the manager dereference a null pointer once the queue is empty (C95_refuted_counter); a whole exchange between the counter's and the head's update does so at once (C95_refuted_early); the manager handing back a buffer (line 901) between load and store of the free queue's counter, twice with two buffers, makes the master refuse every request for ever (C95_refuted_buffers). Proved: at all other moments the call, and a whole program of calls, behaves as if uninterrupted; driver and tick never disturb a call; the call returns after at most 17 of its own steps.")
P("C96",["C96_requests_in_callbacks","C96_one_buffer"])
Q("C97",["C97_driver_board_partial","C97_defined","C97_rest","C97_refuted_rx_pin"],
 "Proved for every state of the board in which PA3's alternate function is 0 (reset) or 1. Missing because the code does not do it: USART_GPIO_init clears the field of PA2 twice instead of PA3's (modbus_driver_interface.c:172), so from another alternate function, for example 2, PA3 does not become USART2's RX (C97_refuted_rx_pin).")
Q("C98",["C98_set_priority","C98_no_nesting","C98_refuted_tick_first"],
 "Proved: no wrong nesting, for every earlier content of the registers, and NVIC_SetPriority changes one priority only, to the number modulo 4. Refuted: the source gives the tick the more urgent number (3 against 10), but only two bits count and 10 becomes 2, so the drivers' handlers interrupt the tick's handler and not the other way round (C98_refuted_tick_first).")
Q("C99",["C99_LED_pin","C99_start_partial","C99_refuted_power_clock"],
 "Proved: pin, LED, line, strobes (the receive pin with the limitation of C97). Refuted: core_init sets the bit for the power controller's clock in the wrong register (APBENR2 instead of APBENR1), so that clock stays off (C99_refuted_power_clock).")
Q("C100",["C100_silent_line","C100_late_characters_partial","C100_refuted_one_character","C100_refuted_pause"],
 "Proved: with a silent line the result is exactly the state C62-C67 and C79 start from, for every schedule of interrupts; and no undefined behaviour if nothing is received before all four callbacks are subscribed. Refuted without that condition, in every configuration: reception is enabled (line 288) before the callbacks are subscribed (lines 289-292), and the UART's handler calls the transmission-complete callback whenever the transmit register is empty, so one character in that window is a call through a NULL pointer; a character and a pause before line 288 is a store through a NULL pointer.")
Q("C101",["C101_no_ub","C101_at_rest","C101_then_traffic","C101_refuted_leftover"],
 "Proved: no undefined behaviour for every history and schedule; from a resting slave and with a silent line during the call the slave goes on with the new ID and the same data, and all traffic of C64 follows. Refuted in general: the bytes already received are not dropped, so after a call in the middle of a frame the next request is not answered (C101_refuted_leftover).")
Q("C102",["C102_silent_line","C102_then_application","C102_refuted_pause"],
 "Proved: with a silent line the result is exactly the start of C68-C74 and, with the ticks that passed, of C76-C78, for every schedule of interrupts and ticks. Refuted without that condition, in every configuration: the receiver time-out's interrupt is enabled before there is a receive buffer, so a character and the pause after it, during the call, are a store through a NULL pointer (C102_refuted_pause; after the call: C68_refuted).")
Q("C103",["C103_no_ub_partial","C103_driver_at_rest","C103_forgets","C103_refuted_transmitting"],
 "Proved: no undefined behaviour during the call for every history of C68 and every schedule; if the driver is at rest and the line silent during the call, the result is a started firmware in the sense of C68-C75 (all their theorems apply to what follows), whatever the master was waiting for. Refuted while a request is being transmitted: the driver goes on transmitting from a buffer that the next request is written to, so bytes of both get mixed on the line (C103_refuted_transmitting). Missing: undefined behaviour after a call made in that situation.")
Q("C104",["C104_handlers_partial","C104_pending","C104_tick","C104_no_ub_partial","C104_returns_partial","C104_bytes_on_the_line_partial","C104_one_completion_partial","C104_refuted"],
 "Proved when no handler switches the transmitter's interrupt off between the load and the store of CR1 in DRV:96 (enable_rcev, [CR1 |= RXNEIE] in the main program), besides the conditions of C68: every schedule of statements gives what a schedule of C68 gives, hardware events moved to the front of the handler they happen in. Refuted without it (C104_refuted): the store switches the transmitter's interrupt on again and completion is reported twice. Missing: what else happens in that case.")
P("C105",["C105_handlers","C105_no_ub","C105_returns","C105_bytes_on_the_line","C105_never_unasked","C105_gap_is_a_frame_error"])
P("C106",["C106_exact","C106_traffic_on_the_line"])
Q("C107",["C107_exact_partial","C107_queue_on_the_line_partial"],"The main program's read-modify-write of CR1 (DRV:96) is assumed not to be raced by the handler that switches the transmitter's interrupt off; with that race a second completion is signalled (C104_refuted).")
Q("C108",["C108_handlers","C108_library_inside","C108_requests_in_order","C108_bytes_on_the_line_partial","C108_completions","C108_overtaken","C108_no_race","C108_no_ub_partial","C108_returns_partial"],"The bytes on the line assume what C69 assumes (no USART interrupt inside the driver's send function), the absence of undefined behaviour and the handlers' return what C71 assumes: no USART interrupt inside the driver's send function, no character before the first reception is enabled, and answers that fit the request.")
