{"id": "C01", "title": "Checksum is CRC-16/MODBUS", "statement": "For every byte string, the checksum the library computes with its look-up table equals the bit-serial CRC-16/MODBUS checksum (initial value 0xFFFF, reflected polynomial 0xA001, no final xor) of exactly those bytes.", "quantifier": "all byte buffers and all lengths up to the buffer length", "why_tests_cant": "256 table entries times 65536 register states times unbounded message length; tests compare a handful of messages.", "anchors": ["src/common/modbus_crc.c: calculate_CRC, CRC_loock_up_table"]}
{"id": "C02", "title": "Frame build / frame check round trip", "statement": "For every message of at most 253 bytes and every slave ID, building an RTU frame succeeds, produces exactly address byte + unchanged PDU bytes + CRC low byte + CRC high byte, leaves all other buffer bytes unchanged, and checking the built frame with the same ID accepts it while checking it with any other ID reports a slave-ID error.", "quantifier": "all PDU contents, all lengths 1..253, all pairs of IDs", "why_tests_cant": "The set of frames is 256^253; a test samples a few.", "anchors": ["src/common/modbus_RTU.c: modbus_RTU_send, modbus_RTU_recv"]}
{"id": "C03", "title": "A frame is accepted exactly when its ID and CRC match", "statement": "The frame check accepts a received byte sequence if and only if its first byte is the expected ID, it has at least two bytes, and its last two bytes are the CRC-16/MODBUS of the preceding bytes, low byte first. Empty and one-byte receptions are never accepted. A wrong first byte is reported as slave-ID error, otherwise a wrong checksum as CRC error.", "quantifier": "all buffer contents, all received lengths, all IDs", "why_tests_cant": "An iff over all byte sequences cannot be enumerated.", "anchors": ["src/common/modbus_RTU.c: modbus_RTU_recv", "src/common/modbus_crc.c: calculate_CRC"]}
{"id": "C04", "title": "Transmission errors are detected", "statement": "If a frame that would be accepted is altered in one, two or three bits, in any odd number of bits, or in any set of bits lying within 16 consecutive bits, then the altered frame is rejected by the frame check for every ID, for all frame lengths that fit the length type (at most 255 bytes).", "quantifier": "all valid frames, all error patterns of the listed classes, all positions", "why_tests_cant": "The number of (frame, error pattern) pairs is astronomically large.", "anchors": ["src/common/modbus_crc.c: calculate_CRC", "src/common/modbus_RTU.c: modbus_RTU_recv"]}
{"id": "C05", "title": "Over-long messages are refused and never overflow the buffer", "statement": "Building a frame from a message longer than 253 bytes (or with a NULL buffer) returns an error and changes nothing; for every length accepted, no byte outside the 256-byte buffer is read or written and the reported length is the old one plus two without wrap-around.", "quantifier": "all lengths representable in the length type, all buffer contents", "why_tests_cant": "Memory safety over all lengths and contents; tests only observe values, not accesses.", "anchors": ["src/common/modbus_RTU.c: modbus_RTU_send", "src/common/modbus_type.h: MODBUS_PDU_MAX_LEN, MODBUS_RTU_BUFFER_SIZE"]}
{"id": "C06", "title": "16-bit fields are big-endian and round-trip", "statement": "Writing a 16-bit value at any position stores its high byte then its low byte, changes no other byte, and reading back returns the value; reading any two bytes yields 256*first+second.", "quantifier": "all values, all positions, all buffers", "why_tests_cant": "All values at all positions in all buffers.", "anchors": ["src/common/buf_rw.c: write_u16_to_buf, read_u16_from_buf"]}
{"id": "C07", "title": "Requests put on the wire are the Modbus frames asked for", "statement": "Whenever one of the eight master request functions answers 'sent to queue', the frame later handed to the driver is byte for byte the Modbus RTU request for the given function, address, quantity/values and slave ID (coils packed LSB first with zero padding, registers big-endian, byte count correct, CRC correct).", "quantifier": "all eight functions, all parameters, all coil/register arrays, any previous content of the message buffers", "why_tests_cant": "The parameter space includes arrays of up to 1968 coils / 123 registers and arbitrary stale buffer content.", "anchors": ["src/modbus_master.c: modbus_master_read_coils .. modbus_master_write_multiple_coils, generate_request", "src/master_internall/modbus_master_PDU.c: *_req, read_reg_request", "src/common/modbus_PDU_common.c"]}
{"id": "C08", "title": "Requests are accepted exactly within the Modbus quantity limits", "statement": "With a free message buffer and RTU mode, a request call answers 'sent to queue' exactly when the quantity is in 1..2000 (coils, discrete inputs), 1..125 (registers), 1..1968 (multiple coils write), 1..123 (multiple registers write); single writes are always accepted; otherwise it answers 'PDU request error' and nothing is queued. Without a free buffer it answers 'free queue empty' and changes nothing. 'RTU send error' is never answered.", "quantifier": "all parameters, all reachable master states", "why_tests_cant": "All 65536 quantities for all functions in all reachable states.", "anchors": ["src/modbus_master.c: generate_request", "src/master_internall/modbus_master_PDU.c: read_reg_request, modbus_get_max_len_2_read"]}
{"id": "C09", "title": "Request calls are memory safe", "statement": "A request call never accesses memory out of bounds, for any parameters, provided the data array handed to a multiple-write call has at least as many elements as the quantity (NULL data pointers included among what must be safe).", "quantifier": "all calls, all parameters, all reachable states", "why_tests_cant": "Out-of-bounds accesses do not necessarily show in tests; NULL arrays are never tried.", "anchors": ["src/master_internall/modbus_master_PDU.c: modbus_master_write_multiple_reg_req, modbus_master_write_multiple_coils_req"]}
{"id": "C10", "title": "A rejected request has no lasting effect", "statement": "A request call that returns an error leaves the master able to accept as many further requests as before the call.", "quantifier": "all histories of calls and events", "why_tests_cant": "Quantifies over histories of arbitrary length containing rejected calls.", "anchors": ["src/modbus_master.c: generate_request (error returns)"]}
{"id": "C11", "title": "Read responses are delivered exactly", "statement": "Processing a normal response to a read request calls the application once per requested item, in ascending address order, with the slave ID, address start+i (16-bit), and the i-th bit (LSB first) or i-th big-endian word of the response data, and calls nothing else.", "quantifier": "all four read functions, all addresses, quantities, response contents", "why_tests_cant": "All payloads of up to 2000 bits / 125 words.", "anchors": ["src/master_internall/modbus_master_PDU.c: modbus_master_read_slave_resp, update_master_*"]}
{"id": "C12", "title": "Write responses are confirmed exactly once", "statement": "Processing a normal response to a write request produces exactly one confirmation callback of the right kind with the slave ID, the requested address and quantity (1 for single writes).", "quantifier": "all four write functions, all parameters", "why_tests_cant": "All addresses/quantities/values.", "anchors": ["src/master_internall/modbus_master_PDU.c: report_write_operation_confirmation"]}
{"id": "C13", "title": "Exception responses are reported exactly once", "statement": "Processing an exception response produces exactly one exception callback, chosen by the function code, carrying slave ID, function code without the exception bit, the exception code byte, and the address and quantity fields of the request; exception responses with other function codes produce none.", "quantifier": "all request and response contents", "why_tests_cant": "All byte values in all relevant positions.", "anchors": ["src/master_internall/modbus_master_PDU.c: process_modbus_exception_code, send_exception_code_report_data"]}
{"id": "C14", "title": "Processing a response is memory safe whatever the slave answers", "statement": "For every request the master can have sent and every response bytes received, processing the response accesses no memory outside the message buffers.", "quantifier": "all requests, all 256-byte response buffer contents", "why_tests_cant": "Adversarial responses are not enumerable.", "anchors": ["src/master_internall/modbus_master_PDU.c: update_master_data_from_modbus_msg, update_*_from_modbus_msg"]}
{"id": "C15", "title": "A response with another function code is not delivered", "statement": "A response whose function code differs from the request's function code (and is not its exception) delivers no data and no write confirmation.", "quantifier": "all requests, all responses", "why_tests_cant": "All pairs of function codes and contents.", "anchors": ["src/master_internall/modbus_master_PDU.c: process_modbus_response, update_master_data_from_modbus_msg, report_write_operation_confirmation"]}
{"id": "C16", "title": "Only received bytes are delivered", "statement": "The values delivered to the application for a read request depend only on bytes of the received frame (not on earlier buffer content); a response too short for the requested quantity delivers nothing.", "quantifier": "all requests, responses of every length, all earlier buffer contents", "why_tests_cant": "Needs all combinations of response length and stale content.", "anchors": ["src/master_internall/modbus_master_PDU.c: modbus_master_read_slave_resp"]}
{"id": "C17", "title": "Every finished request informs the application", "statement": "When the master finishes a request (its buffer becomes free again), at least one callback concerning it has been made.", "quantifier": "all executions", "why_tests_cant": "Quantifies over all responses and schedules.", "anchors": ["src/modbus_master.c: modbus_master_msg_recived_correctly_state_handle, modbus_master_msg_process_end"]}
{"id": "C18", "title": "The message queue is a bounded FIFO", "statement": "From initialisation on, any sequence of pushes and pops behaves exactly like a FIFO list of capacity N (the configured number of messages, any N in 1..255): pop returns the oldest element or NULL when empty; push of a message appends it and clears the caller's pointer, or, when full, changes nothing and leaves the caller's pointer set; no out-of-bounds access ever happens.", "quantifier": "all operation sequences of any length, all capacities 1..255", "why_tests_cant": "Unbounded operation sequences with index wrap-around.", "anchors": ["src/master_internall/modbus_queue.c"]}
{"id": "C19", "title": "Message buffers are never lost, duplicated or shared", "statement": "In every reachable state of an initialised master, under every interleaving of request calls, polls and interrupts, every message buffer is in at most one of: free queue, pending queue, in flight; pending + in flight + free equals the number of message buffers minus the number of requests rejected with a PDU error since initialisation; the driver is never handed a buffer that a request call may overwrite while it is in flight.", "quantifier": "all schedules of request calls, polls (preempted at any statement) and interrupts", "why_tests_cant": "Needs all interleavings of unbounded length.", "anchors": ["src/modbus_master.c", "src/master_internall/modbus_queue.c"]}
{"id": "C20", "title": "Requests go out in order, at most 1+retries times, unchanged", "statement": "Under every schedule, frames handed to the driver are exactly the accepted request frames in order of acceptance, each handed over at least once before the next one and at most 1 + (configured retries) times, every repetition byte-identical to the first transmission.", "quantifier": "all schedules, all retry settings 0..254", "why_tests_cant": "All interleavings of unbounded length.", "anchors": ["src/modbus_master.c: modbus_master_idle_state_handling, modbus_master_send_req_from_msg_buf, modbus_master_RTU_CRC_error_state_handling, modbus_master_frame_error_state_handling"]}
{"id": "C21", "title": "One outcome per request", "statement": "Under every schedule each accepted request gets at most one outcome (one timeout report, or one communication error report, or the callbacks of one response); callbacks only happen while a request is in flight and after its transmission; after the outcome no further callback or retransmission of that request happens.", "quantifier": "all schedules", "why_tests_cant": "All interleavings of unbounded length.", "anchors": ["src/modbus_master.c: update_modbus_master_manager and handlers"]}
{"id": "C22", "title": "Only checked responses are delivered", "statement": "Under every schedule, response callbacks (data, confirmation, exception) are made only if, after the last transmission of the request in flight, the received bytes formed a frame with the ID of that request and a correct CRC, the 3.5-character event occurred afterwards, and no frame error had been signalled and left unconsumed when the master started processing.", "quantifier": "all schedules and received bytes", "why_tests_cant": "All interleavings of bytes, timer events and polls.", "anchors": ["src/modbus_master.c: modbus_master_RTU_recv_state_handle, modbus_master_resp_recived_state_handling"]}
{"id": "C23", "title": "Frames from other slaves are ignored while waiting", "statement": "While the master waits for a response, a frame whose first byte is not the requested slave's ID is discarded: no callback, the master keeps waiting, the timeout keeps running, and the next reception starts from an empty buffer.", "quantifier": "all waiting states, all foreign frames, any number of them", "why_tests_cant": "Arbitrary many arbitrary foreign frames.", "anchors": ["src/modbus_master.c: modbus_master_RTU_recv_state_handle"]}
{"id": "C24", "title": "A missing response is reported after the configured timeout", "statement": "If after a request has been transmitted no reception event occurs (and none is pending from earlier traffic: that is C29) and the master is polled at least once after every millisecond tick, then no callback is made during the first T-2 ticks and exactly one timeout report (slave ID, address and quantity of that request) is made at the first poll after tick T-1, after which the master is idle and the buffer is free again.", "quantifier": "all timeouts T>=2, all schedules with at least one poll per tick, any request calls in between", "why_tests_cant": "All interleavings over 1000 ticks.", "anchors": ["src/modbus_master.c: update_modbus_master_timout_timer, modbus_master_resp_waiting_state_handling, modbus_master_resp_timeout_handle"]}
{"id": "C25", "title": "A missing response is always reported eventually", "statement": "If a request was transmitted and no response ever arrives, a timeout is eventually reported provided the master keeps being polled (however irregularly relative to the 1 ms tick).", "quantifier": "all fair schedules of ticks and polls", "why_tests_cant": "Depends on the exact interleaving of tick interrupt and poll.", "anchors": ["src/modbus_master.c: modbus_master_resp_waiting_state_handling (1 == timer)", "src/modbus_master.c: update_modbus_master_timout_timer"]}
{"id": "C26", "title": "Error reports describe the failed request", "statement": "The timeout report carries slave ID, function code, address and quantity field of the request that timed out; communication error reports carry the slave ID and function code of the request and the kind of error.", "quantifier": "all requests, all earlier buffer contents, all schedules", "why_tests_cant": "Depends on stale content of the response buffer.", "anchors": ["src/modbus_master.c: modbus_master_resp_timeout_handle, modbus_master_RTU_CRC_error_state_handling, modbus_master_frame_error_state_handling"]}
{"id": "C27", "title": "A failed request does not disturb the next one", "statement": "After a request ended with a communication error, the next request whose response arrives intact is delivered at its first transmission.", "quantifier": "all histories ending in a communication error", "why_tests_cant": "Needs the history of R+1 failures followed by a success.", "anchors": ["src/modbus_master.c: modbus_master_RTU_CRC_error_state_handling, modbus_master_frame_error_state_handling"]}
{"id": "C28", "title": "Transmission-complete interrupts are never lost by the master", "statement": "After a request was handed to the driver and the driver signalled completion, the next polls bring the master to waiting for the response, whatever statement of the poll the completion interrupt preempted.", "quantifier": "all preemption points", "why_tests_cant": "A race: tests never preempt a poll.", "anchors": ["src/modbus_master.c: modbus_master_send_req_from_msg_buf"]}
{"id": "C29", "title": "Late traffic cannot block the master", "statement": "A 1.5-character event left over from earlier traffic does not prevent a later request from being completed or timed out.", "quantifier": "all histories", "why_tests_cant": "Needs leftover events across transactions.", "anchors": ["src/modbus_master.c: modbus_master_transmitting_state_handling, modbus_master_RTU_recv_state_handle"]}
{"id": "C30", "title": "The queue drains when no slave answers", "statement": "With any number of accepted requests pending at an idle master, no reception event pending from earlier traffic (that is C29) and no slave answering, under the regular schedule (poll, transmission complete, poll, then tick and poll) every request is transmitted exactly once and reported as timed out in order of acceptance, after which all message buffers are free (except those already lost as in C10).", "quantifier": "all pending queues (any length up to capacity, any requests), all timeouts T>=2", "why_tests_cant": "All queue contents times a thousand steps per request.", "anchors": ["src/modbus_master.c"]}
{"id": "C31", "title": "A correctly answered request is delivered whatever the poll timing", "statement": "If a request is in flight and, after transmission completes and the master started waiting, the response bytes arrive followed by the 1.5- and 3.5-character events (no frame error, no timeout expiry), then with polls interleaved arbitrarily among these events and at least two polls after the last, exactly the callbacks of that response are made, once, and the master is idle with the buffer freed.", "quantifier": "all responses, all interleavings of polls with reception events", "why_tests_cant": "All interleavings of polls with up to 255 byte events.", "anchors": ["src/modbus_master.c: update_modbus_master_manager and handlers"]}
{"id": "C32", "title": "Corrupted responses are retried, then reported once", "statement": "If k <= R responses arrive with wrong CRC (or frame error) and the next one is correct, the request is transmitted k+1 times and the correct response delivered once with no error report; if all R+1 responses are corrupted, exactly one communication error is reported with the right kind and the buffer is freed.", "quantifier": "all k, all R in 0..254, all corrupted and correct response contents", "why_tests_cant": "All contents and numbers of retries.", "anchors": ["src/modbus_master.c: modbus_master_RTU_CRC_error_state_handling, modbus_master_frame_error_state_handling"]}
{"id": "C33", "title": "Reads return the application's current data", "statement": "For every valid read request whose addressed items are all registered, the response PDU is function code, byte count, and the current values of exactly the addressed variables (bits LSB first with zero padding; words big-endian), and no application variable changes.", "quantifier": "all four read functions, all addresses/quantities, all registrations and values, any stale buffer content", "why_tests_cant": "All data, ranges and stale contents.", "anchors": ["src/slave_internall/modbus_slave_PDU.c: handle_slave_read_*", "src/slave_internall/modbus_slave_data.c"]}
{"id": "C34", "title": "Writes change exactly the addressed variables", "statement": "For every valid write request whose addressed items are all registered, exactly the addressed variables take the requested values in order (also when two addresses are registered to the same variable), every other variable keeps its value, and the response is the Modbus echo (function, address, value or quantity).", "quantifier": "all four write functions, all parameters, all registrations including aliasing", "why_tests_cant": "Frame condition over all variables and aliasing patterns.", "anchors": ["src/slave_internall/modbus_slave_PDU.c: modbus_slave_write_*", "src/slave_internall/modbus_slave_data.c: set_coil_state, set_register_value"]}
{"id": "C35", "title": "Invalid requests get the right exception", "statement": "Every request the slave does not execute is answered by function code with bit 7 set and the exception code: 1 for an unsupported function, 3 for a quantity out of range / wrong byte count / bad coil value, 2 for an address range beyond the configured table, 4 for an unregistered item, with that priority order (value before address; address before byte count for multiple writes).", "quantifier": "all requests (all 256-byte buffer contents), all configurations and registrations", "why_tests_cant": "All requests.", "anchors": ["src/slave_internall/modbus_slave_PDU.c: parse_master_request_and_prepare_resp, check_*, set_exception_code_resp"]}
{"id": "C36", "title": "The slave is memory safe for every request", "statement": "For every content of the request buffer, every registration of valid variables and every configured table size, handling a request accesses no memory out of bounds and terminates.", "quantifier": "all 256^256 buffer contents, all configurations", "why_tests_cant": "Memory safety over all inputs and configurations.", "anchors": ["src/slave_internall/modbus_slave_PDU.c", "src/slave_internall/modbus_slave_data.h: HOLDING_REG_QTY, COILS_QTY"]}
{"id": "C37", "title": "Failing requests change nothing", "statement": "A request answered by an exception changes no application variable.", "quantifier": "all requests, registrations and data", "why_tests_cant": "All partially registered ranges.", "anchors": ["src/slave_internall/modbus_slave_PDU.c: handle_slave_write_multiple_reg_service, set_coil_din_value_from_modbus_msg"]}
{"id": "C38", "title": "The slave only answers intact frames addressed to it", "statement": "Under every schedule, the slave transmits or changes application data only if the bytes received when the 1.5-character event was processed formed a frame with its own ID and correct CRC, a 3.5-character event occurred, and no frame error was signalled and unconsumed when it started processing.", "quantifier": "all schedules, all received bytes", "why_tests_cant": "All interleavings of bytes, timer events, error events and polls.", "anchors": ["src/modbus_slave.c: handle_modbus_slave_idle_state, handle_modbus_slave_msg_recived_state"]}
{"id": "C39", "title": "At most one response per frame, never overlapping", "statement": "Under every schedule, the number of transmissions never exceeds the number of 1.5-character events nor the number of 3.5-character events so far, and between two transmissions there is a transmission-complete event.", "quantifier": "all schedules", "why_tests_cant": "Unbounded interleavings.", "anchors": ["src/modbus_slave.c"]}
{"id": "C40", "title": "Every intact request is answered exactly once, whatever the poll timing", "statement": "From the idle state with empty buffer, if the bytes of an intact frame for this slave arrive, followed by the 1.5- and 3.5-character events, with polls interleaved arbitrarily and at least two polls after the last event, exactly one frame is transmitted: the slave ID, the response PDU prescribed for that request, and its CRC.", "quantifier": "all requests, all interleavings of polls with reception events", "why_tests_cant": "All interleavings for all requests.", "anchors": ["src/modbus_slave.c: check_modbus_request and handlers"]}
{"id": "C41", "title": "The slave recovers from garbage", "statement": "After any sequence of received frames that are damaged, foreign or interrupted by frame errors, each followed by its 1.5/3.5 events and polls, the slave is idle with empty buffer, has transmitted nothing, changed no data, and answers the next intact request.", "quantifier": "all finite sequences of bad frames", "why_tests_cant": "Unbounded sequences.", "anchors": ["src/modbus_slave.c: handle_modbus_slave_msg_recived_state"]}
{"id": "C42", "title": "The slave acts only on bytes of the received frame", "statement": "The effect of a request depends only on the bytes of the received frame; a frame too short for its function is not executed.", "quantifier": "all frames, all previous buffer contents", "why_tests_cant": "Needs stale content from earlier frames.", "anchors": ["src/modbus_slave.c: handle_modbus_slave_idle_state", "src/slave_internall/modbus_slave_PDU.c (request length never used)"]}
{"id": "C43", "title": "A frame error concerns only the frame it occurred in", "statement": "A frame error signalled outside the reception of a request does not cause a later intact request to be dropped.", "quantifier": "all histories", "why_tests_cant": "Needs an error event in another protocol phase.", "anchors": ["src/modbus_slave.c: modbus_frame_error_callback, handle_modbus_slave_transmitting_resp_state"]}
{"id": "C44", "title": "Transmission-complete interrupts are never lost by the slave", "statement": "After the slave handed a response to the driver and the driver signalled completion, the slave becomes idle at the next polls, whatever statement of the poll the completion interrupt preempted.", "quantifier": "all preemption points", "why_tests_cant": "A race.", "anchors": ["src/modbus_slave.c: handle_modbus_slave_msg_recived_state"]}
{"id": "C45", "title": "Registration connects exactly one address", "statement": "Registering a variable at an address inside the table makes subsequent requests for that address use that variable, and affects no other address or table; registering outside the table is never safe and must not be done.", "quantifier": "all addresses, all tables, all previous registrations", "why_tests_cant": "All addresses and tables.", "anchors": ["src/modbus_slave.c: register_app_data_to_modbus_slave_*", "src/slave_internall/modbus_slave_data.c: register_app_data_to_modbus_*"]}
{"id": "C46", "title": "Polling before initialisation is harmless", "statement": "Calling the slave poll function before initialisation has no effect.", "quantifier": "the state before initialisation", "why_tests_cant": "Static initial state is never exercised by tests (they initialise first).", "anchors": ["src/modbus_slave.c: handle_modbus_slave_default_state"]}
{"id": "C47", "title": "Initialisation gives a clean slate", "statement": "After slave initialisation in RTU mode, whatever happened before, the next intact request is answered.", "quantifier": "all states before initialisation", "why_tests_cant": "All previous states.", "anchors": ["src/modbus_slave.c: modbus_slave_init"]}
{"id": "C48", "title": "Master reads deliver the slave's data end to end", "statement": "If a master read request is accepted and both ends run the regular schedule over an error-free line with a slave of that ID, the master application receives, for each requested address in order, the current value of the slave variable registered there; or exactly one exception callback with the prescribed code.", "quantifier": "all read requests, all slave data and registrations", "why_tests_cant": "Composition over all data.", "anchors": ["src/modbus_master.c", "src/modbus_slave.c", "src/master_internall/modbus_master_PDU.c", "src/slave_internall/modbus_slave_PDU.c"]}
{"id": "C49", "title": "Master writes take effect at the slave end to end", "statement": "If a master write request is accepted and both ends run the regular schedule over an error-free line with a slave of that ID, the addressed slave variables take exactly the written values, nothing else changes, and the master application gets exactly one confirmation with address and quantity; or nothing is written and it gets one exception callback.", "quantifier": "all write requests, all slave data and registrations", "why_tests_cant": "Composition over all data.", "anchors": ["src/modbus_master.c", "src/modbus_slave.c"]}
{"id": "C50", "title": "Slaves with other IDs are unaffected", "statement": "On a bus, a request frame for one ID makes no slave with another ID transmit or change data, under every poll timing.", "quantifier": "all frames, all other IDs, all slave states reachable from idle, all interleavings of polls", "why_tests_cant": "All frames and IDs.", "anchors": ["src/modbus_slave.c", "src/common/modbus_RTU.c: modbus_RTU_recv"]}
{"id": "C51", "title": "Reception never overflows the buffer", "statement": "Whatever number of bytes arrives, the example driver's receive interrupt stores each byte inside the 256-byte buffer.", "quantifier": "all byte streams of any length", "why_tests_cant": "Unbounded streams.", "anchors": ["examples/STM32G070RB_MODBUS_SLAVE/Core/Src/modbus_driver_interface.c: MODBUS_USART_IRQHandler"]}
{"id": "C52", "title": "The example driver transmits the whole frame once, in order", "statement": "For every frame handed over, the example driver's transmit interrupt writes exactly the bytes of the frame in order to the UART and calls transmission-complete exactly once, after the last byte was written, whatever other interrupts (reception, time-out) occur.", "quantifier": "all frames of length 1..255, all sequences of UART interrupts", "why_tests_cant": "All frames.", "anchors": ["examples/STM32G070RB_MODBUS_SLAVE/Core/Src/modbus_driver_interface.c: slave_usart_send, MODBUS_USART_IRQHandler"]}
{"id": "C53", "title": "Driver timing is defined for every baud rate", "statement": "The example driver computes the 1.5 and 3.5 character timer values without undefined behaviour for every baud rate.", "quantifier": "all 32-bit baud rates", "why_tests_cant": "2^32 inputs.", "anchors": ["examples/STM32G070RB_MODBUS_SLAVE/Core/Src/modbus_driver_interface.c: get_ARR_value, get_RTOR_value"]}
{"id": "C54", "title": "Address range checks hold on every platform", "statement": "The address range check of the slave admits only ranges inside the table, on platforms with 32-bit and with 16-bit int.", "quantifier": "all addresses, quantities, table sizes, int widths 16 and 32", "why_tests_cant": "Unit tests run on the host's 32-bit int only.", "anchors": ["src/slave_internall/modbus_slave_PDU.c: check_read_req_data_correcntess", "examples/config/AVR"]}
{"id": "C55", "title": "Past traffic never makes the slave deaf", "statement": "Whatever frames, events and poll timing the slave has seen before, once the bus is quiet it answers an intact request addressed to it after at most finitely many repetitions by the master.", "quantifier": "all histories of reception events and polls, all later intact requests", "why_tests_cant": "The failing histories need a particular relative timing of two frames and the polls; the effect is permanent.", "anchors": ["src/modbus_slave.c: handle_modbus_slave_idle_state, handle_modbus_slave_msg_recived_state"]}
{"id": "C56", "title": "Master calls before initialisation are harmless", "statement": "Before initialisation every master request function answers 'free queue empty' and every poll and tick has no effect.", "quantifier": "all sequences of calls before initialisation", "why_tests_cant": "Tests always initialise first; all call sequences.", "anchors": ["src/modbus_master.c: static initial values, generate_request, update_modbus_master_manager"]}
{"id": "C57", "title": "Modes other than RTU are refused safely", "statement": "After initialisation in a mode other than RTU, no request is accepted, nothing is transmitted and no undefined behaviour occurs, for master and slave, whatever happened before.", "quantifier": "all histories before and after such an initialisation", "why_tests_cant": "All histories.", "anchors": ["src/modbus_master.c: modbus_master_init", "src/modbus_slave.c: init_modbus_driver, register_msg_req_resp_data_buffers"]}
{"id": "C58", "title": "Polls always return", "statement": "Every call of the master or slave poll function returns after a bounded number of statements, in every state (no busy waiting), even if interrupts arrive between any two statements.", "quantifier": "all states, all interrupt interleavings", "why_tests_cant": "All states and interleavings.", "anchors": ["src/modbus_master.c: update_modbus_master_manager", "src/modbus_slave.c: check_modbus_request"]}
{"id": "C59", "title": "Master initialisation gives a clean slate", "statement": "After master initialisation in RTU mode, whatever happened before, all message buffers are free, nothing is pending, exactly N requests can be accepted and the next poll with a pending request transmits it.", "quantifier": "all states before initialisation", "why_tests_cant": "All previous states.", "anchors": ["src/modbus_master.c: modbus_master_init"]}
{"id": "C60", "title": "Both ends initialised run without undefined behaviour", "statement": "From initialisation in RTU mode on, no schedule of polls, interrupts and (with valid arrays) request calls makes the slave, or the master talking to slaves that answer with the requested function code, execute undefined behaviour.", "quantifier": "all schedules, all received bytes", "why_tests_cant": "All schedules and bytes.", "anchors": ["src/modbus_master.c", "src/modbus_slave.c"]}
{"id": "C61", "title": "A session behaves as a memory", "statement": "A master and a slave connected by an undisturbed line: for every sequence of read and write requests made one after the other, each request is transmitted exactly once, and the callbacks are those of a single memory that is read and written in the order of the calls; at the end the slave holds that memory's data.", "quantifier": "all sequences (any length, any mixture) of requests, all interleavings within each exchange", "why_tests_cant": "Tests exercise one request at one end with the other end stubbed; sequences of requests through both ends are unbounded.", "anchors": ["src/modbus_master.c", "src/modbus_slave.c", "src/modbus_master_pdu.c", "src/modbus_slave_pdu.c"]}
{"id": "C62", "title": "The slave firmware never runs into undefined behaviour", "statement": "Library and STM32 example driver together, initialised in RTU mode: no schedule of main program lines, UART and timer interrupts, received characters, transmitter and timer activity makes the firmware execute undefined behaviour, and what the library does is always something it could do with an arbitrary driver (so the library's properties hold in the firmware).", "quantifier": "all schedules, including interrupts inside the driver's send function, all characters", "why_tests_cant": "Needs all placements of interrupts between statements of library and driver.", "anchors": ["examples/STM32G070RB_MODBUS_SLAVE/Core/Src/modbus_driver_interface.c", "src/modbus_slave.c"]}
{"id": "C63", "title": "The bytes on the line are the responses", "statement": "Whatever the schedule, the bytes the UART puts on the line are exactly the bytes of the responses the slave decided to send, in order, nothing missing once a transmission is complete.", "quantifier": "all schedules of main program lines, interrupts and hardware events", "why_tests_cant": "The driver fetches the bytes from the library's buffer long after the call; all interleavings matter.", "anchors": ["examples/STM32G070RB_MODBUS_SLAVE/Core/Src/modbus_driver_interface.c: slave_usart_send, MODBUS_USART_IRQHandler", "src/modbus_slave.c"]}
{"id": "C64", "title": "Regular traffic on the line is served", "statement": "For any sequence of frames on the line (each followed by silence, interrupts served in time): every intact request with the slave's ID is answered with exactly the specified response frame on the line and changes the data as specified; everything else leaves line and data untouched; afterwards the slave is ready again.", "quantifier": "all sequences of frames, all interleavings of main program and interrupts within the stated service times", "why_tests_cant": "Unbounded sequences and interleavings, across library, driver and UART.", "anchors": ["examples/STM32G070RB_MODBUS_SLAVE/Core/Src/modbus_driver_interface.c", "src/modbus_slave.c", "src/modbus_slave_pdu.c"]}
{"id": "C65", "title": "With the example driver a lost completion is made good by the next byte", "statement": "If the slave missed a transmission-complete signal and waits for it, the next character received on the line makes it idle again without transmitting anything or changing data, and all later traffic is served.", "quantifier": "all such states, all characters, all later traffic", "why_tests_cant": "The state is reached only by a rare interleaving; all states and continuations.", "anchors": ["examples/STM32G070RB_MODBUS_SLAVE/Core/Src/modbus_driver_interface.c: MODBUS_USART_IRQHandler", "src/modbus_slave.c: handle_modbus_slave_transmitting_resp_state"]}
{"id": "C66", "title": "The slave firmware never speaks unasked", "statement": "Under every schedule the library receives only characters that arrived on the line, in order; there are never more responses than characters received; each response follows a check of an intact frame carrying the slave's ID.", "quantifier": "all schedules, all characters", "why_tests_cant": "All schedules.", "anchors": ["examples/STM32G070RB_MODBUS_SLAVE/Core/Src/modbus_driver_interface.c", "src/modbus_slave.c"]}
{"id": "C67", "title": "Gaps inside a frame are noticed by the firmware", "statement": "Under every schedule a character that is given to the slave library after a receiver time-out (1.5 characters) and before the 3.5-character pause is signalled as a frame error at once; no other character is.", "quantifier": "all schedules, all characters", "why_tests_cant": "All schedules.", "anchors": ["examples/STM32G070RB_MODBUS_SLAVE/Core/Src/modbus_driver_interface.c: MODBUS_USART_IRQHandler, MODBUS_TIMER_IRQHandler"]}
{"id": "C68", "title": "The master firmware has no undefined behaviour", "statement": "The master library together with the STM32 example driver, UART, timer and SysTick never performs an invalid memory access, whatever the order of main program lines, interrupts, characters on the line and (valid) request calls; the library inside it behaves as one of its own histories.", "quantifier": "all schedules of main program lines, interrupts, hardware events and request calls; all characters", "why_tests_cant": "All interleavings, including characters before the first request and interrupts inside the driver's send function.", "anchors": ["examples/STM32G070RB_MODBUS_MASTER/Drivers/STM32G0_Drivers/modbus_driver_interface.c: master_usart_send, enable_usart_rx_interrupt, MODBUS_USART_IRQHandler, MODBUS_TIMER_IRQHandler", "src/modbus_master.c"]}
{"id": "C69", "title": "The bytes the master puts on the line are its requests", "statement": "Whatever the schedule, the bytes the UART puts on the line are exactly the bytes of the request frames the library decided to send, in order, nothing missing once a transmission is complete.", "quantifier": "all schedules of main program lines, interrupts, hardware events and request calls", "why_tests_cant": "The driver fetches the bytes from the library's buffer long after the call; all interleavings matter.", "anchors": ["examples/STM32G070RB_MODBUS_MASTER/Drivers/STM32G0_Drivers/modbus_driver_interface.c: master_usart_send, MODBUS_USART_IRQHandler", "src/modbus_master.c"]}
{"id": "C70", "title": "The master firmware says nothing but accepted requests", "statement": "Under every schedule the bytes on the line are a beginning of: the frames of the accepted requests in order of acceptance, each repeated 1 to 1 + R times.", "quantifier": "all schedules, all requests, all numbers of retries R", "why_tests_cant": "All schedules.", "anchors": ["examples/STM32G070RB_MODBUS_MASTER/Drivers/STM32G0_Drivers/modbus_driver_interface.c", "src/modbus_master.c"]}
{"id": "C71", "title": "An intact answer on the line is delivered", "statement": "When the master firmware is at rest with a request pending (the driver's frame-end flag may still be set and its timer running from earlier noise on the line), the slave's first answers (at most R) arrive damaged and the next one arrives intact, the interrupts being served between characters and the timeout not expiring: the request's frame appears on the line once per answer, the callbacks of the intact answer are made, the buffer is freed, nothing else is seen, and the firmware is at rest again.", "quantifier": "all firmware histories, all requests, all intact and damaged answers, all numbers of retries, all schedules of main program lines, ticks and further request calls in between", "why_tests_cant": "All histories and interleavings; answers are arbitrary.", "anchors": ["examples/STM32G070RB_MODBUS_MASTER/Drivers/STM32G0_Drivers/modbus_driver_interface.c", "src/modbus_master.c"]}
{"id": "C72", "title": "Damaged answers on the line are reported once", "statement": "In the same situation, if all R + 1 answers are damaged: the request's frame appears on the line R + 1 times, exactly one communication error naming the slave is reported, the buffer is freed.", "quantifier": "as C71", "why_tests_cant": "All histories and interleavings.", "anchors": ["examples/STM32G070RB_MODBUS_MASTER/Drivers/STM32G0_Drivers/modbus_driver_interface.c", "src/modbus_master.c"]}
{"id": "C73", "title": "Silence on the line is reported once", "statement": "In the same situation, if nobody answers: the request's frame appears on the line exactly once, one timeout error naming the request is reported within the configured time, the buffer is freed and the firmware is at rest again.", "quantifier": "all firmware histories, all requests, all timeouts from 2 ms, all schedules of main program lines and further request calls", "why_tests_cant": "All histories and interleavings.", "anchors": ["examples/STM32G070RB_MODBUS_MASTER/Drivers/STM32G0_Drivers/modbus_driver_interface.c", "src/modbus_master.c"]}
{"id": "C74", "title": "A queue of requests is served on the line", "statement": "For a queue of pending requests, each answered intact (after at most R damaged answers) or not at all: the line carries the requests' frames in order, each as often as transmitted; every request gets its own result, in order, and its buffer is freed; requests made meanwhile wait in order.", "quantifier": "all firmware histories, all queues, all mixtures of outcomes, all schedules as in C71 and C73", "why_tests_cant": "Unbounded sequences.", "anchors": ["examples/STM32G070RB_MODBUS_MASTER/Drivers/STM32G0_Drivers/modbus_driver_interface.c", "src/modbus_master.c"]}
{"id": "C75", "title": "One master and many slaves share a bus", "statement": "One master firmware and any number of slave firmwares with different IDs share a line; every firmware hears what the others transmit. Every request of the master appears on the line once, byte for byte; exactly the slave with that ID answers it (nobody if there is none, and the master reports a time-out); the application of the master is told the contents (or the success or exception) according to that slave's memory at that point; only write requests with a slave's ID change that slave's memory; after the session all are at rest again.", "quantifier": "all sequences of requests to present and absent slaves, all memories, all interleavings of main programs and interrupts of each firmware within the timing", "why_tests_cant": "The state space is a product of firmwares, schedules and memories.", "anchors": ["examples/STM32G070RB_MODBUS_MASTER/Drivers/STM32G0_Drivers/modbus_driver_interface.c:69-218", "examples/STM32G070RB_MODBUS_SLAVE/Core/Src/modbus_driver_interface.c:68-218", "src/modbus_master.c", "src/modbus_slave.c"]}
{"id": "C76", "title": "The example master application is safe", "statement": "The example master application (main loop with update_modbus_master_manager and update_modbus_data, SysTick handler, callbacks, driver interrupts) never does anything undefined, whatever the timing, and everything proved about the master firmware applies to it.", "quantifier": "all configurations, all interleavings of main program lines, SysTick, interrupts and hardware events", "why_tests_cant": "Interleavings of an endless main loop and interrupts cannot be enumerated.", "anchors": ["examples/STM32G070RB_MODBUS_MASTER/Core/Src/main.c:45-95", "examples/STM32G070RB_MODBUS_MASTER/Core/Src/modbus_master_data_interface.c", "examples/STM32G070RB_MODBUS_MASTER/Drivers/STM32G0_Drivers/modbus_driver_interface.c", "src/modbus_master.c"]}
{"id": "C77", "title": "What the example master application asks for", "statement": "Whatever the slave answers, and also if it does not: the application's requests are, in turn, read coil 1, read holding register 1, write coil 0, write holding register 0 of slave 1; the values written are the ones reported last by the read callbacks for coil 1 and holding register 1 (0 before the first report); at most one round of four per 300 ms; every request is accepted, or refused because every queue buffer holds an unfinished request; no buffer is ever lost.", "quantifier": "all histories of the application: all schedules, all answers and garbage on the line, all queue sizes", "why_tests_cant": "The claim is about every call in histories of any length.", "anchors": ["examples/STM32G070RB_MODBUS_MASTER/Core/Src/main.c:64-95", "examples/STM32G070RB_MODBUS_MASTER/Core/Src/modbus_master_data_interface.c:19-90", "src/modbus_master.c"]}
{"id": "C78", "title": "The example master application keeps asking", "statement": "Whatever has happened before, and whatever interrupts occur: once the main program has executed 5 lines, 300 ms have passed and it has executed 25 more lines, four more requests have been made.", "quantifier": "all histories of the application, all schedules", "why_tests_cant": "Liveness from every reachable state.", "anchors": ["examples/STM32G070RB_MODBUS_MASTER/Core/Src/main.c:53-95", "src/modbus_master.c"]}
{"id": "C79", "title": "The example slave application serves its variables", "statement": "The example slave application (registration of its variables, main loop, driver interrupts) never does anything undefined, whatever the timing, interrupts during the registration included; after 82 lines of the main program the intended memory map is in place (coils, discrete inputs, holding and input registers 0..19, coil 21 the LED; no two addresses share a variable; the variables have the initial values written in main.c) and everything proved about the slave firmware applies: requests on the line are answered from, and change, exactly these variables.", "quantifier": "all table sizes large enough, all interleavings of main program lines, interrupts and hardware events, all traffic", "why_tests_cant": "Interleavings of an endless main loop and interrupts cannot be enumerated.", "anchors": ["examples/STM32G070RB_MODBUS_SLAVE/Core/Src/main.c:33-71", "src/modbus_slave.c", "src/slave_internall/modbus_slave_PDU.c"]}
{"id": "C80", "title": "The LED follows coil 21", "statement": "At every moment the LED shows a value LED_status had at most 16 lines of the main program ago; when LED_status keeps its value for 17 lines of the main program, the LED shows it, under all interrupts. A write request for coil 21 that reaches the resting application is echoed on the line, then the LED shows the requested value, and no other variable has changed.", "quantifier": "all histories of the application, all schedules", "why_tests_cant": "Liveness from every reachable state under every interleaving.", "anchors": ["examples/STM32G070RB_MODBUS_SLAVE/Core/Src/main.c:52-82", "examples/STM32G070RB_MODBUS_SLAVE/Core/Src/LED_driver.c", "src/modbus_slave.c"]}
{"id": "C81", "title": "The line settings are the ones asked for", "statement": "After initialisation with a baud rate and a parity, whatever was set before, the UART sends and receives Modbus RTU characters of that parity: start bit, 8 data bits, lowest first, parity and one stop bit or two stop bits without parity: 11 bits in all.", "quantifier": "all baud rates of at least 2400, all parities, first and later initialisations, all bytes", "why_tests_cant": "All registers' histories and baud rates.", "anchors": ["examples/STM32G070RB_MODBUS_SLAVE/Core/Src/modbus_driver_interface.c:71-79,176-206", "examples/STM32G070RB_MODBUS_MASTER/Drivers/STM32G0_Drivers/modbus_driver_interface.c"]}
{"id": "C82", "title": "Bytes sent by one device are received by another", "statement": "Two devices initialised with the same baud rate understand each other: every sequence of bytes, with any pauses, put on the line by the one is stored byte for byte by the other, also when the parities differ (as in the two examples: master ODD, slave NONE); with equal parities no error flag is raised.", "quantifier": "all byte sequences, all pauses, all parities and baud rates", "why_tests_cant": "Unbounded sequences of characters.", "anchors": ["examples/STM32G070RB_MODBUS_SLAVE/Core/Src/modbus_driver_interface.c:113-135,176-206", "examples/STM32G070RB_MODBUS_MASTER/Drivers/STM32G0_Drivers/modbus_driver_interface.c", "examples/STM32G070RB_MODBUS_MASTER/Core/Src/main.c:48", "examples/STM32G070RB_MODBUS_SLAVE/Core/Src/main.c:49"]}
{"id": "C83", "title": "A character with a parity error is not taken for good", "statement": "When one bit of a character is damaged on the line and parity is used, the device notices: the byte is not given to the library as a good one.", "quantifier": "all bytes, all single-bit errors", "why_tests_cant": "All bytes and error positions.", "anchors": ["examples/STM32G070RB_MODBUS_SLAVE/Core/Src/modbus_driver_interface.c:113-135"]}
{"id": "C84", "title": "The times of the line", "statement": "For every baud rate: the bit rate is the one asked for to within one clock per bit; a frame ends after 3.5 characters (up to 19200 bit/s; 1750 microseconds above) and not before; a gap inside a frame is noticed after 1.5 characters (750 microseconds above 19200 bit/s) and not before; the gap is signalled before the end of the frame.", "quantifier": "all baud rates from 2400 to 4000000", "why_tests_cant": "Millions of baud rates.", "anchors": ["examples/STM32G070RB_MODBUS_SLAVE/Core/Src/modbus_driver_interface.c:200-255", "examples/STM32G070RB_MODBUS_MASTER/Drivers/STM32G0_Drivers/modbus_driver_interface.c"]}
{"id": "C85", "title": "The two example boards together", "statement": "When the example master and the example slave are joined by the line and everything happens in time, a round of the master's four requests makes the master's two variables hold coil 1 and holding register 1 of the slave, sets coil 0 and holding register 0 of the slave to the values the master wrote and changes nothing else in the slave; the line carries each request exactly once and exactly the slave's answers; both boards are ready for the next round. From the second round on coil 0 equals coil 1 and holding register 0 equals holding register 1.", "quantifier": "all histories of both applications before the round (any schedule), all timings of main loops, interrupts and bytes within the limits, all values of the variables, all configurations", "why_tests_cant": "Interleavings of two programs with their interrupts and the line.", "anchors": ["examples/STM32G070RB_MODBUS_MASTER/Core/Src/main.c", "examples/STM32G070RB_MODBUS_SLAVE/Core/Src/main.c"]}
{"id": "C86", "title": "Requests on a noisy bus", "statement": "Requests on a bus with several slaves where any transmission may reach the addressed slave intact, damaged or not at all, and may be answered at the master by the slave's answer, by something damaged or by nothing: the master repeats a request whose answer is damaged at most as often as configured; the application is told a result only if the request has been executed, and result and slave memory are those of executing it exactly once, however often it was transmitted and executed; if the application is told an error (timeout, communication error) the memory of the addressed slave is as if the request had been executed exactly once or not at all; no other slave's memory changes. (Until the master gives up on a request: what follows is subject to C72.)", "quantifier": "all firmware histories, all numbers and memories of slaves, all sequences of requests, all patterns of damage and loss, all damaged frames, all schedules within the time limits", "why_tests_cant": "Combinations of repetitions, losses and interleavings.", "anchors": ["src/modbus_master.c", "src/modbus_slave.c", "examples/STM32G070RB_MODBUS_MASTER/Drivers/STM32G0_Drivers/modbus_driver_interface.c", "examples/STM32G070RB_MODBUS_SLAVE/Core/Src/modbus_driver_interface.c"]}
{"id": "C87", "title": "A frame is interpreted the same way however interrupts fall", "statement": "While a slave interprets a checked, complete request, or a master a checked, complete response, interrupts may fall anywhere (bytes may be received behind the frame, timers expire, a transmission complete; at the master also request calls from callbacks): the stored data, the answer and the callbacks are those of the frame that was checked, and the resulting state is the same wherever the interrupts fell. Checking and interpreting read nothing but the bytes of the frame.", "quantifier": "all histories, all frames, all interrupts at all points (up to 255 bytes in the buffer)", "why_tests_cant": "Interrupts at every instruction.", "anchors": ["src/modbus_slave.c:162-200", "src/slave_internall/modbus_slave_PDU.c", "src/modbus_master.c:811-815", "src/master_internall/modbus_master_PDU.c", "src/common/modbus_RTU.c"]}
{"id": "C88", "title": "A request call is not disturbed by interrupts", "statement": "Bytes, timer events, ticks and completions that occur while the application calls a request function do not change its return value or the queued request, and the call does not change what the interrupts do: the result is the same wherever in the call they fall.", "quantifier": "all histories, all request calls with valid arrays, all interrupts", "why_tests_cant": "Interrupts at every instruction.", "anchors": ["src/modbus_master.c:149-310", "src/modbus_master.c:484-534", "src/master_internall/modbus_queue.c"]}
{"id": "C89", "title": "Only the order of the received bytes matters among interrupts", "statement": "Between two steps of the main program the order of the interrupts is irrelevant except for the order of the received bytes: the same bytes in the same order, the same number of ticks and the same other interrupts (each once or several times) lead to the same state.", "quantifier": "all states of a slave, all histories of a master, all lists of interrupts", "why_tests_cant": "All orders of all lists.", "anchors": ["src/modbus_slave.c", "src/modbus_master.c"]}
{"id": "C90", "title": "Bits flipped on the line do no harm", "statement": "If up to three data or parity bits of a frame are flipped on the line, or any number of them within 16 consecutive bits, then the bytes the driver stores are those sent or have a wrong CRC: a slave answers the request that was sent or does nothing at all, and a master reports what was sent or no data.", "quantifier": "all formats, all correct frames up to 255 bytes, all pauses between the characters, all patterns of flipped bits within these limits, all schedules", "why_tests_cant": "All frames times all error patterns.", "anchors": ["src/common/modbus_RTU.c: modbus_RTU_recv", "src/common/modbus_crc.c: calculate_CRC", "examples/STM32G070RB_MODBUS_MASTER/Drivers/STM32G0_Drivers/modbus_driver_interface.c", "examples/STM32G070RB_MODBUS_SLAVE/Core/Src/modbus_driver_interface.c", "src/modbus_slave.c", "src/modbus_master.c"]}
{"id": "C91", "title": "Requests may be made from an interrupt handler", "statement": "A request function may be called from an interrupt handler at any point of the manager's work, in particular while the manager takes a request from the queue or hands back a message buffer: the request is accepted or refused, transmitted and reported as if it had been made just before or just after that operation, and no request, buffer or report is lost.", "quantifier": "all configurations, all schedules of accesses to the two queues, driver events, ticks and request calls, all requests", "why_tests_cant": "The windows are a few instructions wide; all interleavings of all histories.", "anchors": ["src/master_internall/modbus_queue.c: modbus_queue_push, modbus_queue_pop", "src/modbus_master.c:484-505", "src/modbus_master.c:631-654", "src/modbus_master.c:898-903"]}
{"id": "C92", "title": "The examples' clock set-up delivers the clock the drivers compute with", "statement": "When core_init has returned, the processor, the USART and the timer run at 64 MHz, the value the drivers use for bit rates and delays, SysTick counts milliseconds, its interrupt is on in the master's example and off in the slave's, and flash runs with the wait states this clock needs; core_init returns, and a second call changes nothing of this.", "quantifier": "all contents of the clock registers at the call, all orders in which oscillator, PLL, clock switch and the program take steps", "why_tests_cant": "Start-up races between hardware flags and the program; register contents left by a boot loader.", "anchors": ["examples/STM32G070RB_MODBUS_SLAVE/Core/Src/core_init.c: core_init", "examples/STM32G070RB_MODBUS_MASTER/Drivers/STM32G0_Drivers/core_init/core_init.c: core_init"]}
{"id": "C93", "title": "The application may write its variables from interrupt handlers while the slave handles a request", "statement": "Interrupt handlers of the application may write the registered variables between any two accesses of the request being handled. Every value in a read answer is the value the variable had at the moment the slave read it; a write of the application is never lost: after a write request each variable holds the request's value unless the application wrote it later, and every other variable the application's last value; whether and how a request is refused, and every answer to a request whose variables the application leaves alone, are those of the undisturbed slave. An answer need not be a snapshot: variables the application changes together can be reported half old, half new.", "quantifier": "all configurations, data, request frames, all writes by the application before each of the request's accesses", "why_tests_cant": "All moments of all interrupts during all requests.", "anchors": ["src/slave_internall/modbus_slave_PDU.c", "src/slave_internall/modbus_slave_data.c:60-139"]}
{"id": "C94", "title": "The slave serves regular traffic while the application changes its variables at any moment", "statement": "Interrupt handlers of the application may write the registered variables at any moment of a reception, of the handling of the request and of the transmission of the answer: a complete intact request to the slave is answered exactly once, from the variables as they are when the request is interpreted; frames that are disturbed or for others have no effect; all writes of the application and of the request take effect, in the order in which they happen; and afterwards the slave waits for the next frame.", "quantifier": "all configurations, data, frames, all schedules of program lines, driver events and application writes", "why_tests_cant": "All moments of all interrupts in all schedules.", "anchors": ["src/modbus_slave.c:162-232", "src/slave_internall/modbus_slave_PDU.c"]}
{"id": "C95", "title": "The manager may be polled from an interrupt handler while the main program makes requests", "statement": "update_modbus_master_manager may be called from an interrupt handler (for example the tick) that interrupts a request function of the main program anywhere: the request is accepted or refused, transmitted and reported as if the call had been made at one moment between the interrupts, no request, buffer or report is lost, and the call returns after a bounded number of its own steps.", "quantifier": "all configurations, all histories, all requests, all interleavings of the call's accesses to the two queues with lines of the manager, driver events and ticks, all programs of such calls", "why_tests_cant": "The windows are a few instructions wide; all interleavings of all histories.", "anchors": ["src/modbus_master.c:484-505", "src/modbus_master.c: update_modbus_master_manager", "src/modbus_master.c:645-656", "src/modbus_master.c:898-903", "src/master_internall/modbus_queue.c: modbus_queue_push, modbus_queue_pop"]}
{"id": "C96", "title": "Requests may be made from inside callbacks", "statement": "The application may call request functions from inside any callback (data, write confirmation, exception, timeout, communication error), any number of them: the answer being delivered is delivered unchanged and completely, and the requests are accepted or refused, transmitted and reported as if they had been made right after the callbacks; with a single message buffer a request made inside a callback is always refused.", "quantifier": "all configurations, all histories, all reactions of the application to all callbacks, all schedules of interrupts and ticks", "why_tests_cant": "All combinations of histories and reactions.", "anchors": ["src/modbus_master.c:716-725", "src/modbus_master.c:811-815", "src/modbus_master.c:843-848", "src/modbus_master.c:878-883", "src/master_internall/modbus_master_PDU.c:549-712", "src/modbus_master.c:149-310"]}
{"id": "C97", "title": "The driver's initialisation sets up pins, clocks and interrupts", "statement": "When the driver's init function has returned, for any state of the board before: the clocks of port A, USART2 and TIM7 are on, PA1, PA2 and PA3 are USART2's DE, TX and RX, the interrupts of USART2 and TIM7 are enabled, and the line settings (C81-C84) have reached the peripherals (no write was lost because the peripheral's clock was still off). No other pin, clock, interrupt, priority or output level changes.", "quantifier": "all contents of the registers before the call, all rates from 2400 baud, all parities", "why_tests_cant": "All register contents, e.g. after a boot loader; on a simulated target the clocks and pins do not exist.", "anchors": ["examples/STM32G070RB_MODBUS_SLAVE/Core/Src/modbus_driver_interface.c:71-79, 164-241", "examples/STM32G070RB_MODBUS_SLAVE/Core/Inc/modbus_driver_config.h", "examples/STM32G070RB_MODBUS_MASTER/Drivers/STM32G0_Drivers/modbus_driver_interface.c"]}
{"id": "C98", "title": "The interrupt handlers do not interrupt each other the wrong way", "statement": "After the start of either example the USART's and the timer's handlers never interrupt each other, and the tick's handler never interrupts them, whatever the priority registers held before; setting the priority of one interrupt leaves all others alone. The order of urgency is the one written in the source (tick 3, drivers 10).", "quantifier": "all register contents before the start, all interrupts, all priorities", "why_tests_cant": "Preemption is invisible in unit tests; all register contents.", "anchors": ["examples/STM32G070RB_MODBUS_SLAVE/Core/Src/core_init.c:22", "examples/STM32G070RB_MODBUS_SLAVE/Core/Inc/modbus_driver_config.h:27, 61", "examples/STM32G070RB_MODBUS_SLAVE/Drivers/CMSIS/Include/core_cm0plus.h: __NVIC_SetPriority, __NVIC_EnableIRQ"]}
{"id": "C99", "title": "The LED's pin and the start of the example programs", "statement": "After the start of the slave example the LED's pin PA5 is an output, update_LED makes it high exactly if LED_status is 1 and touches no other pin or register; the start of both examples leaves the line set up for Modbus, gives the UCPD pull-ups' strobes and switches the power controller's clock on.", "quantifier": "all register contents before the start, all values of LED_status", "why_tests_cant": "All register contents.", "anchors": ["examples/STM32G070RB_MODBUS_SLAVE/Core/Src/LED_driver.c", "examples/STM32G070RB_MODBUS_SLAVE/Core/Src/core_init.c:11-25", "examples/STM32G070RB_MODBUS_SLAVE/Core/Src/main.c:45-82"]}
{"id": "C100", "title": "The slave may be started while others talk on the line", "statement": "modbus_slave_init, called after power-on with the STM32 driver, returns a slave that is ready and never executes undefined behaviour, whatever interrupts occur at any statement of it and whatever arrives on the line meanwhile; if nothing arrives the result is the initial state the other properties start from.", "quantifier": "all configurations with valid tables, all initial data, all IDs, all interleavings of the statements of the function with interrupts, characters, pauses and changes of the application's variables", "why_tests_cant": "The unit tests call the function without hardware; a character can arrive between any two statements.", "anchors": ["src/modbus_slave.c:121-126, 245-319 (modbus_slave_init)", "examples/STM32G070RB_MODBUS_SLAVE/Core/Src/modbus_driver_interface.c:71-163"]}
{"id": "C101", "title": "The slave may be initialised again", "statement": "Calling modbus_slave_init in a running firmware (for example with a new ID), outside of check_modbus_request, never executes undefined behaviour, keeps the application's data, and afterwards the slave answers requests to the new ID.", "quantifier": "all histories of the firmware before, all interleavings of the call with interrupts and characters, all traffic after it", "why_tests_cant": "All histories before and all schedules of the call.", "anchors": ["src/modbus_slave.c:121-126, 245-319 (modbus_slave_init)", "examples/STM32G070RB_MODBUS_SLAVE/Core/Src/modbus_driver_interface.c:71-163"]}
{"id": "C102", "title": "The master may be started while others talk on the line", "statement": "modbus_master_init, called after power-on with the STM32 driver and SysTick running, returns a master that is ready and never executes undefined behaviour, whatever interrupts occur at any line of it and whatever arrives on the line meanwhile; if nothing arrives, the application starts from the state the other properties start from, with the milliseconds that passed counted.", "quantifier": "all queue lengths and repeat counts, all interleavings of the lines of the function with interrupts, ticks, characters and pauses", "why_tests_cant": "The unit tests call the function without hardware; a character can arrive between any two lines.", "anchors": ["src/modbus_master.c:311-336, 422-461 (modbus_master_init)", "examples/STM32G070RB_MODBUS_MASTER/Drivers/STM32G0_Drivers/modbus_driver_interface.c:70-169", "examples/STM32G070RB_MODBUS_MASTER/Core/Src/main.c:45-95"]}
{"id": "C103", "title": "The master may be initialised again", "statement": "Calling modbus_master_init in a running firmware, outside of update_modbus_master_manager, never executes undefined behaviour; pending requests are forgotten, all message buffers are free again, and from then on only requests made after the call appear on the line.", "quantifier": "all histories of the firmware before (also waiting for an answer, with requests pending), all interleavings of the call with interrupts and characters, all behaviour after it", "why_tests_cant": "All histories before and all schedules of the call.", "anchors": ["src/modbus_master.c:311-336, 422-461 (modbus_master_init)", "examples/STM32G070RB_MODBUS_MASTER/Drivers/STM32G0_Drivers/modbus_driver_interface.c:70-169"]}
{"id": "C104", "title": "The master driver's interrupt handlers, statement by statement", "statement": "Characters, receiver time-outs, the timer and the transmitter may act between any two statements of the driver's interrupt handlers, and the driver's handlers may interrupt SysTick's, without a difference: there is no undefined behaviour, every handler returns, and state, callbacks, frames and bytes on the line are those of handlers that run in no time with some of the hardware events happening a little earlier; a transmission is reported complete once.", "quantifier": "all schedules of statements, interrupts, hardware events and request calls, all contents of the line", "why_tests_cant": "The unit tests call the handlers' callbacks from a mock; the hardware can act between any two statements.", "anchors": ["examples/STM32G070RB_MODBUS_MASTER/Drivers/STM32G0_Drivers/modbus_driver_interface.c:93-169", "examples/STM32G070RB_MODBUS_MASTER/Core/Src/main.c:87-95", "src/modbus_master.c:385-391, 402-408"]}
{"id": "C105", "title": "The slave driver's interrupt handlers, statement by statement", "statement": "Characters, receiver time-outs, the timer and the transmitter may act between any two statements of the slave driver's interrupt handlers without a difference: there is no undefined behaviour, every handler returns after at most 16 statements, and state, events, answers and bytes on the line are those of handlers that run in no time with some of the hardware events happening a little earlier, characters in their order. So the slave never answers unasked, a gap inside a frame is noticed, and as long as the UART's handler does not start while the main program is in the driver's send function and has not written the first byte, the bytes on the line are those of the answers.", "quantifier": "all schedules of statements, interrupts, hardware events and changes by the application, all contents of the line, all table sizes", "why_tests_cant": "The unit tests call the handlers' callbacks from a mock; the hardware can act between any two statements.", "anchors": ["examples/STM32G070RB_MODBUS_SLAVE/Core/Src/modbus_driver_interface.c:113-163"]}
{"id": "C106", "title": "Slave on the wire, its interrupt handlers statement by statement", "statement": "A sequence of frames and pauses on the line, each request leaving the slave the time to answer, is answered as the server specification says (C64), and the data model ends as that specification says, also when the handlers' statements are executed one by one and hardware events happen inside the handlers, as long as every event is on time: what it changes is not looked at by the rest of the handler that is running (a character does not arrive before the handler has fetched the one before, the transmitter may empty its register as soon as the handler has filled it, and so on).", "quantifier": "all frames, all contents of the line, all table sizes and data, all on-time interleavings of the handlers' statements with the hardware", "why_tests_cant": "The unit tests call the handlers' callbacks from a mock; between any two statements of a handler the hardware can act.", "anchors": ["examples/STM32G070RB_MODBUS_SLAVE/Core/Src/modbus_driver_interface.c:113-163", "src/modbus_slave.c:check_modbus_request"]}
{"id": "C107", "title": "Master on the wire, its interrupt handlers statement by statement", "statement": "A queue of requests, each answered (after at most R damaged answers) or not: the requests' frames are on the line in order, once per attempt, and every request gets its result (C74), also when the handlers' statements, the tick handler's and both halves of the store that enables the transmitter's interrupt are executed one by one and hardware events happen inside the handlers, as long as every event is on time: what it changes is not looked at by the rest of the handler that is running.", "quantifier": "all requests, answers, retry limits and time-outs, all on-time interleavings of the statements of the main program and the handlers with the hardware", "why_tests_cant": "The unit tests call the handlers' callbacks from a mock; between any two statements of a handler the hardware can act.", "anchors": ["examples/STM32G070RB_MODBUS_MASTER/Drivers/STM32G0_Drivers/modbus_driver_interface.c:78-168", "src/modbus_master.c:check_modbus_master_manager"]}
{"id": "C108", "title": "Master driver: the read-modify-write of CR1 interrupted anywhere", "statement": "The driver's function that enables the reception reads, changes and writes the USART's control register while the transmitter's interrupt is on, so a handler that runs between the read and the write can switch that interrupt off and the write switches it on again. Wherever the handlers run: the library inside stays in one of the histories the other properties speak about, the frames handed to the driver are those of the accepted requests, in order and each at most R+1 times, the bytes on the line are those of the frames handed to the driver, there is no undefined behaviour, every handler returns after at most 17 statements, and while nothing is received the number of completions signalled exceeds the number of transmissions by at most the number of overtaken writes.", "quantifier": "all interleavings of the statements of the main program and the handlers with the hardware, including the handlers that run between the read and the write of the control register", "why_tests_cant": "A unit test has no control register that a handler changes between a read and a write of the main program.", "anchors": ["examples/STM32G070RB_MODBUS_MASTER/Drivers/STM32G0_Drivers/modbus_driver_interface.c:96,120-169"]}
