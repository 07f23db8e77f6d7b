#!/usr/bin/env python3
"""Writes /verif/properties.jsonl from the table below (one JSON object per line)."""
import json, os
P = []
def p(id, title, statement, quantifier, why, anchors):
    P.append(dict(id=id, title=title, statement=statement, quantifier=quantifier,
                  why_tests_cant=why, anchors=anchors))

# ---------------------------------------------------------------- framing / CRC
p("C01", "Checksum is CRC-16/MODBUS",
  "For every byte string, the checksum the library computes with its look-up table equals the bit-serial CRC-16/MODBUS checksum (initial value 0xFFFF, reflected polynomial 0xA001, no final xor) of exactly those bytes.",
  "all byte buffers and all lengths up to the buffer length",
  "256 table entries times 65536 register states times unbounded message length; tests compare a handful of messages.",
  ["src/common/modbus_crc.c: calculate_CRC, CRC_loock_up_table"])
p("C02", "Frame build / frame check round trip",
  "For every message of at most 253 bytes and every slave ID, building an RTU frame succeeds, produces exactly address byte + unchanged PDU bytes + CRC low byte + CRC high byte, leaves all other buffer bytes unchanged, and checking the built frame with the same ID accepts it while checking it with any other ID reports a slave-ID error.",
  "all PDU contents, all lengths 1..253, all pairs of IDs",
  "The set of frames is 256^253; a test samples a few.",
  ["src/common/modbus_RTU.c: modbus_RTU_send, modbus_RTU_recv"])
p("C03", "A frame is accepted exactly when its ID and CRC match",
  "The frame check accepts a received byte sequence if and only if its first byte is the expected ID, it has at least two bytes, and its last two bytes are the CRC-16/MODBUS of the preceding bytes, low byte first. Empty and one-byte receptions are never accepted. A wrong first byte is reported as slave-ID error, otherwise a wrong checksum as CRC error.",
  "all buffer contents, all received lengths, all IDs",
  "An iff over all byte sequences cannot be enumerated.",
  ["src/common/modbus_RTU.c: modbus_RTU_recv", "src/common/modbus_crc.c: calculate_CRC"])
p("C04", "Transmission errors are detected",
  "If a frame that would be accepted is altered in one, two or three bits, in any odd number of bits, or in any set of bits lying within 16 consecutive bits, then the altered frame is rejected by the frame check for every ID, for all frame lengths that fit the length type (at most 255 bytes).",
  "all valid frames, all error patterns of the listed classes, all positions",
  "The number of (frame, error pattern) pairs is astronomically large.",
  ["src/common/modbus_crc.c: calculate_CRC", "src/common/modbus_RTU.c: modbus_RTU_recv"])
p("C05", "Over-long messages are refused and never overflow the buffer",
  "Building a frame from a message longer than 253 bytes (or with a NULL buffer) returns an error and changes nothing; for every length accepted, no byte outside the 256-byte buffer is read or written and the reported length is the old one plus two without wrap-around.",
  "all lengths representable in the length type, all buffer contents",
  "Memory safety over all lengths and contents; tests only observe values, not accesses.",
  ["src/common/modbus_RTU.c: modbus_RTU_send", "src/common/modbus_type.h: MODBUS_PDU_MAX_LEN, MODBUS_RTU_BUFFER_SIZE"])
p("C06", "16-bit fields are big-endian and round-trip",
  "Writing a 16-bit value at any position stores its high byte then its low byte, changes no other byte, and reading back returns the value; reading any two bytes yields 256*first+second.",
  "all values, all positions, all buffers",
  "All values at all positions in all buffers.",
  ["src/common/buf_rw.c: write_u16_to_buf, read_u16_from_buf"])
# ---------------------------------------------------------------- master requests
p("C07", "Requests put on the wire are the Modbus frames asked for",
  "Whenever one of the eight master request functions answers 'sent to queue', the frame later handed to the driver is byte for byte the Modbus RTU request for the given function, address, quantity/values and slave ID (coils packed LSB first with zero padding, registers big-endian, byte count correct, CRC correct).",
  "all eight functions, all parameters, all coil/register arrays, any previous content of the message buffers",
  "The parameter space includes arrays of up to 1968 coils / 123 registers and arbitrary stale buffer content.",
  ["src/modbus_master.c: modbus_master_read_coils .. modbus_master_write_multiple_coils, generate_request", "src/master_internall/modbus_master_PDU.c: *_req, read_reg_request", "src/common/modbus_PDU_common.c"])
p("C08", "Requests are accepted exactly within the Modbus quantity limits",
  "With a free message buffer and RTU mode, a request call answers 'sent to queue' exactly when the quantity is in 1..2000 (coils, discrete inputs), 1..125 (registers), 1..1968 (multiple coils write), 1..123 (multiple registers write); single writes are always accepted; otherwise it answers 'PDU request error' and nothing is queued. Without a free buffer it answers 'free queue empty' and changes nothing. 'RTU send error' is never answered.",
  "all parameters, all reachable master states",
  "All 65536 quantities for all functions in all reachable states.",
  ["src/modbus_master.c: generate_request", "src/master_internall/modbus_master_PDU.c: read_reg_request, modbus_get_max_len_2_read"])
p("C09", "Request calls are memory safe",
  "A request call never accesses memory out of bounds, for any parameters, provided the data array handed to a multiple-write call has at least as many elements as the quantity (NULL data pointers included among what must be safe).",
  "all calls, all parameters, all reachable states",
  "Out-of-bounds accesses do not necessarily show in tests; NULL arrays are never tried.",
  ["src/master_internall/modbus_master_PDU.c: modbus_master_write_multiple_reg_req, modbus_master_write_multiple_coils_req"])
p("C10", "A rejected request has no lasting effect",
  "A request call that returns an error leaves the master able to accept as many further requests as before the call.",
  "all histories of calls and events",
  "Quantifies over histories of arbitrary length containing rejected calls.",
  ["src/modbus_master.c: generate_request (error returns)"])
# ---------------------------------------------------------------- master responses
p("C11", "Read responses are delivered exactly",
  "Processing a normal response to a read request calls the application once per requested item, in ascending address order, with the slave ID, address start+i (16-bit), and the i-th bit (LSB first) or i-th big-endian word of the response data, and calls nothing else.",
  "all four read functions, all addresses, quantities, response contents",
  "All payloads of up to 2000 bits / 125 words.",
  ["src/master_internall/modbus_master_PDU.c: modbus_master_read_slave_resp, update_master_*"])
p("C12", "Write responses are confirmed exactly once",
  "Processing a normal response to a write request produces exactly one confirmation callback of the right kind with the slave ID, the requested address and quantity (1 for single writes).",
  "all four write functions, all parameters",
  "All addresses/quantities/values.",
  ["src/master_internall/modbus_master_PDU.c: report_write_operation_confirmation"])
p("C13", "Exception responses are reported exactly once",
  "Processing an exception response produces exactly one exception callback, chosen by the function code, carrying slave ID, function code without the exception bit, the exception code byte, and the address and quantity fields of the request; exception responses with other function codes produce none.",
  "all request and response contents",
  "All byte values in all relevant positions.",
  ["src/master_internall/modbus_master_PDU.c: process_modbus_exception_code, send_exception_code_report_data"])
p("C14", "Processing a response is memory safe whatever the slave answers",
  "For every request the master can have sent and every response bytes received, processing the response accesses no memory outside the message buffers.",
  "all requests, all 256-byte response buffer contents",
  "Adversarial responses are not enumerable.",
  ["src/master_internall/modbus_master_PDU.c: update_master_data_from_modbus_msg, update_*_from_modbus_msg"])
p("C15", "A response with another function code is not delivered",
  "A response whose function code differs from the request's function code (and is not its exception) delivers no data and no write confirmation.",
  "all requests, all responses",
  "All pairs of function codes and contents.",
  ["src/master_internall/modbus_master_PDU.c: process_modbus_response, update_master_data_from_modbus_msg, report_write_operation_confirmation"])
p("C16", "Only received bytes are delivered",
  "The values delivered to the application for a read request depend only on bytes of the received frame (not on earlier buffer content); a response too short for the requested quantity delivers nothing.",
  "all requests, responses of every length, all earlier buffer contents",
  "Needs all combinations of response length and stale content.",
  ["src/master_internall/modbus_master_PDU.c: modbus_master_read_slave_resp"])
p("C17", "Every finished request informs the application",
  "When the master finishes a request (its buffer becomes free again), at least one callback concerning it has been made.",
  "all executions",
  "Quantifies over all responses and schedules.",
  ["src/modbus_master.c: modbus_master_msg_recived_correctly_state_handle, modbus_master_msg_process_end"])
# ---------------------------------------------------------------- queue
p("C18", "The message queue is a bounded FIFO",
  "From initialisation on, any sequence of pushes and pops behaves exactly like a FIFO list of capacity N (the configured number of messages, any N in 1..255): pop returns the oldest element or NULL when empty; push of a message appends it and clears the caller's pointer, or, when full, changes nothing and leaves the caller's pointer set; no out-of-bounds access ever happens.",
  "all operation sequences of any length, all capacities 1..255",
  "Unbounded operation sequences with index wrap-around.",
  ["src/master_internall/modbus_queue.c"])
# ---------------------------------------------------------------- master manager
p("C19", "Message buffers are never lost, duplicated or shared",
  "In every reachable state of an initialised master, under every interleaving of request calls, polls and interrupts, every message buffer is in at most one of: free queue, pending queue, in flight; pending + in flight + free equals the number of message buffers minus the number of requests rejected with a PDU error since initialisation; the driver is never handed a buffer that a request call may overwrite while it is in flight.",
  "all schedules of request calls, polls (preempted at any statement) and interrupts",
  "Needs all interleavings of unbounded length.",
  ["src/modbus_master.c", "src/master_internall/modbus_queue.c"])
p("C20", "Requests go out in order, at most 1+retries times, unchanged",
  "Under every schedule, frames handed to the driver are exactly the accepted request frames in order of acceptance, each handed over at least once before the next one and at most 1 + (configured retries) times, every repetition byte-identical to the first transmission.",
  "all schedules, all retry settings 0..254",
  "All interleavings of unbounded length.",
  ["src/modbus_master.c: modbus_master_idle_state_handling, modbus_master_send_req_from_msg_buf, modbus_master_RTU_CRC_error_state_handling, modbus_master_frame_error_state_handling"])
p("C21", "One outcome per request",
  "Under every schedule each accepted request gets at most one outcome (one timeout report, or one communication error report, or the callbacks of one response); callbacks only happen while a request is in flight and after its transmission; after the outcome no further callback or retransmission of that request happens.",
  "all schedules",
  "All interleavings of unbounded length.",
  ["src/modbus_master.c: update_modbus_master_manager and handlers"])
p("C22", "Only checked responses are delivered",
  "Under every schedule, response callbacks (data, confirmation, exception) are made only if, after the last transmission of the request in flight, the received bytes formed a frame with the ID of that request and a correct CRC, the 3.5-character event occurred afterwards, and no frame error had been signalled and left unconsumed when the master started processing.",
  "all schedules and received bytes",
  "All interleavings of bytes, timer events and polls.",
  ["src/modbus_master.c: modbus_master_RTU_recv_state_handle, modbus_master_resp_recived_state_handling"])
p("C23", "Frames from other slaves are ignored while waiting",
  "While the master waits for a response, a frame whose first byte is not the requested slave's ID is discarded: no callback, the master keeps waiting, the timeout keeps running, and the next reception starts from an empty buffer.",
  "all waiting states, all foreign frames, any number of them",
  "Arbitrary many arbitrary foreign frames.",
  ["src/modbus_master.c: modbus_master_RTU_recv_state_handle"])
p("C24", "A missing response is reported after the configured timeout",
  "If after a request has been transmitted no reception event occurs (and none is pending from earlier traffic: that is C29) and the master is polled at least once after every millisecond tick, then no callback is made during the first T-2 ticks and exactly one timeout report (slave ID, address and quantity of that request) is made at the first poll after tick T-1, after which the master is idle and the buffer is free again.",
  "all timeouts T>=2, all schedules with at least one poll per tick, any request calls in between",
  "All interleavings over 1000 ticks.",
  ["src/modbus_master.c: update_modbus_master_timout_timer, modbus_master_resp_waiting_state_handling, modbus_master_resp_timeout_handle"])
p("C25", "A missing response is always reported eventually",
  "If a request was transmitted and no response ever arrives, a timeout is eventually reported provided the master keeps being polled (however irregularly relative to the 1 ms tick).",
  "all fair schedules of ticks and polls",
  "Depends on the exact interleaving of tick interrupt and poll.",
  ["src/modbus_master.c: modbus_master_resp_waiting_state_handling (1 == timer)", "src/modbus_master.c: update_modbus_master_timout_timer"])
p("C26", "Error reports describe the failed request",
  "The timeout report carries slave ID, function code, address and quantity field of the request that timed out; communication error reports carry the slave ID and function code of the request and the kind of error.",
  "all requests, all earlier buffer contents, all schedules",
  "Depends on stale content of the response buffer.",
  ["src/modbus_master.c: modbus_master_resp_timeout_handle, modbus_master_RTU_CRC_error_state_handling, modbus_master_frame_error_state_handling"])
p("C27", "A failed request does not disturb the next one",
  "After a request ended with a communication error, the next request whose response arrives intact is delivered at its first transmission.",
  "all histories ending in a communication error",
  "Needs the history of R+1 failures followed by a success.",
  ["src/modbus_master.c: modbus_master_RTU_CRC_error_state_handling, modbus_master_frame_error_state_handling"])
p("C28", "Transmission-complete interrupts are never lost by the master",
  "After a request was handed to the driver and the driver signalled completion, the next polls bring the master to waiting for the response, whatever statement of the poll the completion interrupt preempted.",
  "all preemption points",
  "A race: tests never preempt a poll.",
  ["src/modbus_master.c: modbus_master_send_req_from_msg_buf"])
p("C29", "Late traffic cannot block the master",
  "A 1.5-character event left over from earlier traffic does not prevent a later request from being completed or timed out.",
  "all histories",
  "Needs leftover events across transactions.",
  ["src/modbus_master.c: modbus_master_transmitting_state_handling, modbus_master_RTU_recv_state_handle"])
p("C30", "The queue drains when no slave answers",
  "With any number of accepted requests pending at an idle master, no reception event pending from earlier traffic (that is C29) and no slave answering, under the regular schedule (poll, transmission complete, poll, then tick and poll) every request is transmitted exactly once and reported as timed out in order of acceptance, after which all message buffers are free (except those already lost as in C10).",
  "all pending queues (any length up to capacity, any requests), all timeouts T>=2",
  "All queue contents times a thousand steps per request.",
  ["src/modbus_master.c"])
p("C31", "A correctly answered request is delivered whatever the poll timing",
  "If a request is in flight and, after transmission completes and the master started waiting, the response bytes arrive followed by the 1.5- and 3.5-character events (no frame error, no timeout expiry), then with polls interleaved arbitrarily among these events and at least two polls after the last, exactly the callbacks of that response are made, once, and the master is idle with the buffer freed.",
  "all responses, all interleavings of polls with reception events",
  "All interleavings of polls with up to 255 byte events.",
  ["src/modbus_master.c: update_modbus_master_manager and handlers"])
p("C32", "Corrupted responses are retried, then reported once",
  "If k <= R responses arrive with wrong CRC (or frame error) and the next one is correct, the request is transmitted k+1 times and the correct response delivered once with no error report; if all R+1 responses are corrupted, exactly one communication error is reported with the right kind and the buffer is freed.",
  "all k, all R in 0..254, all corrupted and correct response contents",
  "All contents and numbers of retries.",
  ["src/modbus_master.c: modbus_master_RTU_CRC_error_state_handling, modbus_master_frame_error_state_handling"])
# ---------------------------------------------------------------- slave
p("C33", "Reads return the application's current data",
  "For every valid read request whose addressed items are all registered, the response PDU is function code, byte count, and the current values of exactly the addressed variables (bits LSB first with zero padding; words big-endian), and no application variable changes.",
  "all four read functions, all addresses/quantities, all registrations and values, any stale buffer content",
  "All data, ranges and stale contents.",
  ["src/slave_internall/modbus_slave_PDU.c: handle_slave_read_*", "src/slave_internall/modbus_slave_data.c"])
p("C34", "Writes change exactly the addressed variables",
  "For every valid write request whose addressed items are all registered, exactly the addressed variables take the requested values in order (also when two addresses are registered to the same variable), every other variable keeps its value, and the response is the Modbus echo (function, address, value or quantity).",
  "all four write functions, all parameters, all registrations including aliasing",
  "Frame condition over all variables and aliasing patterns.",
  ["src/slave_internall/modbus_slave_PDU.c: modbus_slave_write_*", "src/slave_internall/modbus_slave_data.c: set_coil_state, set_register_value"])
p("C35", "Invalid requests get the right exception",
  "Every request the slave does not execute is answered by function code with bit 7 set and the exception code: 1 for an unsupported function, 3 for a quantity out of range / wrong byte count / bad coil value, 2 for an address range beyond the configured table, 4 for an unregistered item, with that priority order (value before address; address before byte count for multiple writes).",
  "all requests (all 256-byte buffer contents), all configurations and registrations",
  "All requests.",
  ["src/slave_internall/modbus_slave_PDU.c: parse_master_request_and_prepare_resp, check_*, set_exception_code_resp"])
p("C36", "The slave is memory safe for every request",
  "For every content of the request buffer, every registration of valid variables and every configured table size, handling a request accesses no memory out of bounds and terminates.",
  "all 256^256 buffer contents, all configurations",
  "Memory safety over all inputs and configurations.",
  ["src/slave_internall/modbus_slave_PDU.c", "src/slave_internall/modbus_slave_data.h: HOLDING_REG_QTY, COILS_QTY"])
p("C37", "Failing requests change nothing",
  "A request answered by an exception changes no application variable.",
  "all requests, registrations and data",
  "All partially registered ranges.",
  ["src/slave_internall/modbus_slave_PDU.c: handle_slave_write_multiple_reg_service, set_coil_din_value_from_modbus_msg"])
p("C38", "The slave only answers intact frames addressed to it",
  "Under every schedule, the slave transmits or changes application data only if the bytes received when the 1.5-character event was processed formed a frame with its own ID and correct CRC, a 3.5-character event occurred, and no frame error was signalled and unconsumed when it started processing.",
  "all schedules, all received bytes",
  "All interleavings of bytes, timer events, error events and polls.",
  ["src/modbus_slave.c: handle_modbus_slave_idle_state, handle_modbus_slave_msg_recived_state"])
p("C39", "At most one response per frame, never overlapping",
  "Under every schedule, the number of transmissions never exceeds the number of 1.5-character events nor the number of 3.5-character events so far, and between two transmissions there is a transmission-complete event.",
  "all schedules",
  "Unbounded interleavings.",
  ["src/modbus_slave.c"])
p("C40", "Every intact request is answered exactly once, whatever the poll timing",
  "From the idle state with empty buffer, if the bytes of an intact frame for this slave arrive, followed by the 1.5- and 3.5-character events, with polls interleaved arbitrarily and at least two polls after the last event, exactly one frame is transmitted: the slave ID, the response PDU prescribed for that request, and its CRC.",
  "all requests, all interleavings of polls with reception events",
  "All interleavings for all requests.",
  ["src/modbus_slave.c: check_modbus_request and handlers"])
p("C41", "The slave recovers from garbage",
  "After any sequence of received frames that are damaged, foreign or interrupted by frame errors, each followed by its 1.5/3.5 events and polls, the slave is idle with empty buffer, has transmitted nothing, changed no data, and answers the next intact request.",
  "all finite sequences of bad frames",
  "Unbounded sequences.",
  ["src/modbus_slave.c: handle_modbus_slave_msg_recived_state"])
p("C42", "The slave acts only on bytes of the received frame",
  "The effect of a request depends only on the bytes of the received frame; a frame too short for its function is not executed.",
  "all frames, all previous buffer contents",
  "Needs stale content from earlier frames.",
  ["src/modbus_slave.c: handle_modbus_slave_idle_state", "src/slave_internall/modbus_slave_PDU.c (request length never used)"])
p("C43", "A frame error concerns only the frame it occurred in",
  "A frame error signalled outside the reception of a request does not cause a later intact request to be dropped.",
  "all histories",
  "Needs an error event in another protocol phase.",
  ["src/modbus_slave.c: modbus_frame_error_callback, handle_modbus_slave_transmitting_resp_state"])
p("C44", "Transmission-complete interrupts are never lost by the slave",
  "After the slave handed a response to the driver and the driver signalled completion, the slave becomes idle at the next polls, whatever statement of the poll the completion interrupt preempted.",
  "all preemption points",
  "A race.",
  ["src/modbus_slave.c: handle_modbus_slave_msg_recived_state"])
p("C45", "Registration connects exactly one address",
  "Registering a variable at an address inside the table makes subsequent requests for that address use that variable, and affects no other address or table; registering outside the table is never safe and must not be done.",
  "all addresses, all tables, all previous registrations",
  "All addresses and tables.",
  ["src/modbus_slave.c: register_app_data_to_modbus_slave_*", "src/slave_internall/modbus_slave_data.c: register_app_data_to_modbus_*"])
p("C46", "Polling before initialisation is harmless",
  "Calling the slave poll function before initialisation has no effect.",
  "the state before initialisation",
  "Static initial state is never exercised by tests (they initialise first).",
  ["src/modbus_slave.c: handle_modbus_slave_default_state"])
p("C47", "Initialisation gives a clean slate",
  "After slave initialisation in RTU mode, whatever happened before, the next intact request is answered.",
  "all states before initialisation",
  "All previous states.",
  ["src/modbus_slave.c: modbus_slave_init"])
# ---------------------------------------------------------------- end to end
p("C48", "Master reads deliver the slave's data end to end",
  "If a master read request is accepted and both ends run the regular schedule over an error-free line with a slave of that ID, the master application receives, for each requested address in order, the current value of the slave variable registered there; or exactly one exception callback with the prescribed code.",
  "all read requests, all slave data and registrations",
  "Composition over all data.",
  ["src/modbus_master.c", "src/modbus_slave.c", "src/master_internall/modbus_master_PDU.c", "src/slave_internall/modbus_slave_PDU.c"])
p("C49", "Master writes take effect at the slave end to end",
  "If a master write request is accepted and both ends run the regular schedule over an error-free line with a slave of that ID, the addressed slave variables take exactly the written values, nothing else changes, and the master application gets exactly one confirmation with address and quantity; or nothing is written and it gets one exception callback.",
  "all write requests, all slave data and registrations",
  "Composition over all data.",
  ["src/modbus_master.c", "src/modbus_slave.c"])
p("C50", "Slaves with other IDs are unaffected",
  "On a bus, a request frame for one ID makes no slave with another ID transmit or change data, under every poll timing.",
  "all frames, all other IDs, all slave states reachable from idle, all interleavings of polls",
  "All frames and IDs.",
  ["src/modbus_slave.c", "src/common/modbus_RTU.c: modbus_RTU_recv"])
# ---------------------------------------------------------------- example driver / platforms
p("C51", "Reception never overflows the buffer",
  "Whatever number of bytes arrives, the example driver's receive interrupt stores each byte inside the 256-byte buffer.",
  "all byte streams of any length",
  "Unbounded streams.",
  ["examples/STM32G070RB_MODBUS_SLAVE/Core/Src/modbus_driver_interface.c: MODBUS_USART_IRQHandler"])
p("C52", "The example driver transmits the whole frame once, in order",
  "For every frame handed over, the example driver's transmit interrupt writes exactly the bytes of the frame in order to the UART and calls transmission-complete exactly once, after the last byte was written, whatever other interrupts (reception, time-out) occur.",
  "all frames of length 1..255, all sequences of UART interrupts",
  "All frames.",
  ["examples/STM32G070RB_MODBUS_SLAVE/Core/Src/modbus_driver_interface.c: slave_usart_send, MODBUS_USART_IRQHandler"])
p("C53", "Driver timing is defined for every baud rate",
  "The example driver computes the 1.5 and 3.5 character timer values without undefined behaviour for every baud rate.",
  "all 32-bit baud rates",
  "2^32 inputs.",
  ["examples/STM32G070RB_MODBUS_SLAVE/Core/Src/modbus_driver_interface.c: get_ARR_value, get_RTOR_value"])
p("C54", "Address range checks hold on every platform",
  "The address range check of the slave admits only ranges inside the table, on platforms with 32-bit and with 16-bit int.",
  "all addresses, quantities, table sizes, int widths 16 and 32",
  "Unit tests run on the host's 32-bit int only.",
  ["src/slave_internall/modbus_slave_PDU.c: check_read_req_data_correcntess", "examples/config/AVR"])
p("C55", "Past traffic never makes the slave deaf",
  "Whatever frames, events and poll timing the slave has seen before, once the bus is quiet it answers an intact request addressed to it after at most finitely many repetitions by the master.",
  "all histories of reception events and polls, all later intact requests",
  "The failing histories need a particular relative timing of two frames and the polls; the effect is permanent.",
  ["src/modbus_slave.c: handle_modbus_slave_idle_state, handle_modbus_slave_msg_recived_state"])
p("C56", "Master calls before initialisation are harmless",
  "Before initialisation every master request function answers 'free queue empty' and every poll and tick has no effect.",
  "all sequences of calls before initialisation",
  "Tests always initialise first; all call sequences.",
  ["src/modbus_master.c: static initial values, generate_request, update_modbus_master_manager"])
p("C57", "Modes other than RTU are refused safely",
  "After initialisation in a mode other than RTU, no request is accepted, nothing is transmitted and no undefined behaviour occurs, for master and slave, whatever happened before.",
  "all histories before and after such an initialisation",
  "All histories.",
  ["src/modbus_master.c: modbus_master_init", "src/modbus_slave.c: init_modbus_driver, register_msg_req_resp_data_buffers"])
p("C58", "Polls always return",
  "Every call of the master or slave poll function returns after a bounded number of statements, in every state (no busy waiting), even if interrupts arrive between any two statements.",
  "all states, all interrupt interleavings",
  "All states and interleavings.",
  ["src/modbus_master.c: update_modbus_master_manager", "src/modbus_slave.c: check_modbus_request"])
p("C59", "Master initialisation gives a clean slate",
  "After master initialisation in RTU mode, whatever happened before, all message buffers are free, nothing is pending, exactly N requests can be accepted and the next poll with a pending request transmits it.",
  "all states before initialisation",
  "All previous states.",
  ["src/modbus_master.c: modbus_master_init"])
p("C60", "Both ends initialised run without undefined behaviour",
  "From initialisation in RTU mode on, no schedule of polls, interrupts and (with valid arrays) request calls makes the slave, or the master talking to slaves that answer with the requested function code, execute undefined behaviour.",
  "all schedules, all received bytes",
  "All schedules and bytes.",
  ["src/modbus_master.c", "src/modbus_slave.c"])
p("C61", "A session behaves as a memory",
  "A master and a slave connected by an undisturbed line: for every sequence of read and write requests made one after the other, each request is transmitted exactly once, and the callbacks are those of a single memory that is read and written in the order of the calls; at the end the slave holds that memory's data.",
  "all sequences (any length, any mixture) of requests, all interleavings within each exchange",
  "Tests exercise one request at one end with the other end stubbed; sequences of requests through both ends are unbounded.",
  ["src/modbus_master.c", "src/modbus_slave.c", "src/modbus_master_pdu.c", "src/modbus_slave_pdu.c"])
p("C62", "The slave firmware never runs into undefined behaviour",
  "Library and STM32 example driver together, initialised in RTU mode: no schedule of main program lines, UART and timer interrupts, received characters, transmitter and timer activity makes the firmware execute undefined behaviour, and what the library does is always something it could do with an arbitrary driver (so the library's properties hold in the firmware).",
  "all schedules, including interrupts inside the driver's send function, all characters",
  "Needs all placements of interrupts between statements of library and driver.",
  ["examples/STM32G070RB_MODBUS_SLAVE/Core/Src/modbus_driver_interface.c", "src/modbus_slave.c"])
p("C63", "The bytes on the line are the responses",
  "Whatever the schedule, the bytes the UART puts on the line are exactly the bytes of the responses the slave decided to send, in order, nothing missing once a transmission is complete.",
  "all schedules of main program lines, interrupts and hardware events",
  "The driver fetches the bytes from the library's buffer long after the call; all interleavings matter.",
  ["examples/STM32G070RB_MODBUS_SLAVE/Core/Src/modbus_driver_interface.c: slave_usart_send, MODBUS_USART_IRQHandler", "src/modbus_slave.c"])
p("C64", "Regular traffic on the line is served",
  "For any sequence of frames on the line (each followed by silence, interrupts served in time): every intact request with the slave's ID is answered with exactly the specified response frame on the line and changes the data as specified; everything else leaves line and data untouched; afterwards the slave is ready again.",
  "all sequences of frames, all interleavings of main program and interrupts within the stated service times",
  "Unbounded sequences and interleavings, across library, driver and UART.",
  ["examples/STM32G070RB_MODBUS_SLAVE/Core/Src/modbus_driver_interface.c", "src/modbus_slave.c", "src/modbus_slave_pdu.c"])
p("C65", "With the example driver a lost completion is made good by the next byte",
  "If the slave missed a transmission-complete signal and waits for it, the next character received on the line makes it idle again without transmitting anything or changing data, and all later traffic is served.",
  "all such states, all characters, all later traffic",
  "The state is reached only by a rare interleaving; all states and continuations.",
  ["examples/STM32G070RB_MODBUS_SLAVE/Core/Src/modbus_driver_interface.c: MODBUS_USART_IRQHandler", "src/modbus_slave.c: handle_modbus_slave_transmitting_resp_state"])
p("C66", "The slave firmware never speaks unasked",
  "Under every schedule the library receives only characters that arrived on the line, in order; there are never more responses than characters received; each response follows a check of an intact frame carrying the slave's ID.",
  "all schedules, all characters",
  "All schedules.",
  ["examples/STM32G070RB_MODBUS_SLAVE/Core/Src/modbus_driver_interface.c", "src/modbus_slave.c"])
p("C67", "Gaps inside a frame are noticed by the firmware",
  "Under every schedule a character that is given to the slave library after a receiver time-out (1.5 characters) and before the 3.5-character pause is signalled as a frame error at once; no other character is.",
  "all schedules, all characters",
  "All schedules.",
  ["examples/STM32G070RB_MODBUS_SLAVE/Core/Src/modbus_driver_interface.c: MODBUS_USART_IRQHandler, MODBUS_TIMER_IRQHandler"])
DM = "examples/STM32G070RB_MODBUS_MASTER/Drivers/STM32G0_Drivers/modbus_driver_interface.c"
p("C68", "The master firmware has no undefined behaviour",
  "The master library together with the STM32 example driver, UART, timer and SysTick never performs an invalid memory access, whatever the order of main program lines, interrupts, characters on the line and (valid) request calls; the library inside it behaves as one of its own histories.",
  "all schedules of main program lines, interrupts, hardware events and request calls; all characters",
  "All interleavings, including characters before the first request and interrupts inside the driver's send function.",
  [DM + ": master_usart_send, enable_usart_rx_interrupt, MODBUS_USART_IRQHandler, MODBUS_TIMER_IRQHandler", "src/modbus_master.c"])
p("C69", "The bytes the master puts on the line are its requests",
  "Whatever the schedule, the bytes the UART puts on the line are exactly the bytes of the request frames the library decided to send, in order, nothing missing once a transmission is complete.",
  "all schedules of main program lines, interrupts, hardware events and request calls",
  "The driver fetches the bytes from the library's buffer long after the call; all interleavings matter.",
  [DM + ": master_usart_send, MODBUS_USART_IRQHandler", "src/modbus_master.c"])
p("C70", "The master firmware says nothing but accepted requests",
  "Under every schedule the bytes on the line are a beginning of: the frames of the accepted requests in order of acceptance, each repeated 1 to 1 + R times.",
  "all schedules, all requests, all numbers of retries R",
  "All schedules.",
  [DM, "src/modbus_master.c"])
p("C71", "An intact answer on the line is delivered",
  "When the master firmware is at rest with a request pending (the driver's frame-end flag may still be set and its timer running from earlier noise on the line), the slave's first answers (at most R) arrive damaged and the next one arrives intact, the interrupts being served between characters and the timeout not expiring: the request's frame appears on the line once per answer, the callbacks of the intact answer are made, the buffer is freed, nothing else is seen, and the firmware is at rest again.",
  "all firmware histories, all requests, all intact and damaged answers, all numbers of retries, all schedules of main program lines, ticks and further request calls in between",
  "All histories and interleavings; answers are arbitrary.",
  [DM, "src/modbus_master.c"])
p("C72", "Damaged answers on the line are reported once",
  "In the same situation, if all R + 1 answers are damaged: the request's frame appears on the line R + 1 times, exactly one communication error naming the slave is reported, the buffer is freed.",
  "as C71",
  "All histories and interleavings.",
  [DM, "src/modbus_master.c"])
p("C73", "Silence on the line is reported once",
  "In the same situation, if nobody answers: the request's frame appears on the line exactly once, one timeout error naming the request is reported within the configured time, the buffer is freed and the firmware is at rest again.",
  "all firmware histories, all requests, all timeouts from 2 ms, all schedules of main program lines and further request calls",
  "All histories and interleavings.",
  [DM, "src/modbus_master.c"])
p("C74", "A queue of requests is served on the line",
  "For a queue of pending requests, each answered intact (after at most R damaged answers) or not at all: the line carries the requests' frames in order, each as often as transmitted; every request gets its own result, in order, and its buffer is freed; requests made meanwhile wait in order.",
  "all firmware histories, all queues, all mixtures of outcomes, all schedules as in C71 and C73",
  "Unbounded sequences.",
  [DM, "src/modbus_master.c"])
p("C75", "One master and many slaves share a bus",
  "One master firmware and any number of slave firmwares with different IDs share a line; every firmware hears what the others transmit. Every request of the master appears on the line once, byte for byte; exactly the slave with that ID answers it (nobody if there is none, and the master reports a time-out); the application of the master is told the contents (or the success or exception) according to that slave's memory at that point; only write requests with a slave's ID change that slave's memory; after the session all are at rest again.",
  "all sequences of requests to present and absent slaves, all memories, all interleavings of main programs and interrupts of each firmware within the timing",
  "The state space is a product of firmwares, schedules and memories.",
  [DM+":69-218", "examples/STM32G070RB_MODBUS_SLAVE/Core/Src/modbus_driver_interface.c:68-218", "src/modbus_master.c", "src/modbus_slave.c"])
EM = "examples/STM32G070RB_MODBUS_MASTER/Core/Src/main.c"
p("C76", "The example master application is safe",
  "The example master application (main loop with update_modbus_master_manager and update_modbus_data, SysTick handler, callbacks, driver interrupts) never does anything undefined, whatever the timing, and everything proved about the master firmware applies to it.",
  "all configurations, all interleavings of main program lines, SysTick, interrupts and hardware events",
  "Interleavings of an endless main loop and interrupts cannot be enumerated.",
  [EM+":45-95", "examples/STM32G070RB_MODBUS_MASTER/Core/Src/modbus_master_data_interface.c", DM, "src/modbus_master.c"])
p("C77", "What the example master application asks for",
  "Whatever the slave answers, and also if it does not: the application's requests are, in turn, read coil 1, read holding register 1, write coil 0, write holding register 0 of slave 1; the values written are the ones reported last by the read callbacks for coil 1 and holding register 1 (0 before the first report); at most one round of four per 300 ms; every request is accepted, or refused because every queue buffer holds an unfinished request; no buffer is ever lost.",
  "all histories of the application: all schedules, all answers and garbage on the line, all queue sizes",
  "The claim is about every call in histories of any length.",
  [EM+":64-95", "examples/STM32G070RB_MODBUS_MASTER/Core/Src/modbus_master_data_interface.c:19-90", "src/modbus_master.c"])
p("C78", "The example master application keeps asking",
  "Whatever has happened before, and whatever interrupts occur: once the main program has executed 5 lines, 300 ms have passed and it has executed 25 more lines, four more requests have been made.",
  "all histories of the application, all schedules",
  "Liveness from every reachable state.",
  [EM+":53-95", "src/modbus_master.c"])
ES = "examples/STM32G070RB_MODBUS_SLAVE/Core/Src/main.c"
p("C79", "The example slave application serves its variables",
  "The example slave application (registration of its variables, main loop, driver interrupts) never does anything undefined, whatever the timing, interrupts during the registration included; after 82 lines of the main program the intended memory map is in place (coils, discrete inputs, holding and input registers 0..19, coil 21 the LED; no two addresses share a variable; the variables have the initial values written in main.c) and everything proved about the slave firmware applies: requests on the line are answered from, and change, exactly these variables.",
  "all table sizes large enough, all interleavings of main program lines, interrupts and hardware events, all traffic",
  "Interleavings of an endless main loop and interrupts cannot be enumerated.",
  [ES+":33-71", "src/modbus_slave.c", "src/slave_internall/modbus_slave_PDU.c"])
p("C80", "The LED follows coil 21",
  "At every moment the LED shows a value LED_status had at most 16 lines of the main program ago; when LED_status keeps its value for 17 lines of the main program, the LED shows it, under all interrupts. A write request for coil 21 that reaches the resting application is echoed on the line, then the LED shows the requested value, and no other variable has changed.",
  "all histories of the application, all schedules",
  "Liveness from every reachable state under every interleaving.",
  [ES+":52-82", "examples/STM32G070RB_MODBUS_SLAVE/Core/Src/LED_driver.c", "src/modbus_slave.c"])
DS = "examples/STM32G070RB_MODBUS_SLAVE/Core/Src/modbus_driver_interface.c"
p("C81", "The line settings are the ones asked for",
  "After initialisation with a baud rate and a parity, whatever was set before, the UART sends and receives Modbus RTU characters of that parity: start bit, 8 data bits, lowest first, parity and one stop bit or two stop bits without parity: 11 bits in all.",
  "all baud rates of at least 2400, all parities, first and later initialisations, all bytes",
  "All registers' histories and baud rates.",
  [DS+":71-79,176-206", DM])
p("C82", "Bytes sent by one device are received by another",
  "Two devices initialised with the same baud rate understand each other: every sequence of bytes, with any pauses, put on the line by the one is stored byte for byte by the other, also when the parities differ (as in the two examples: master ODD, slave NONE); with equal parities no error flag is raised.",
  "all byte sequences, all pauses, all parities and baud rates",
  "Unbounded sequences of characters.",
  [DS+":113-135,176-206", DM, "examples/STM32G070RB_MODBUS_MASTER/Core/Src/main.c:48", "examples/STM32G070RB_MODBUS_SLAVE/Core/Src/main.c:49"])
p("C83", "A character with a parity error is not taken for good",
  "When one bit of a character is damaged on the line and parity is used, the device notices: the byte is not given to the library as a good one.",
  "all bytes, all single-bit errors",
  "All bytes and error positions.",
  [DS+":113-135"])
p("C84", "The times of the line",
  "For every baud rate: the bit rate is the one asked for to within one clock per bit; a frame ends after 3.5 characters (up to 19200 bit/s; 1750 microseconds above) and not before; a gap inside a frame is noticed after 1.5 characters (750 microseconds above 19200 bit/s) and not before; the gap is signalled before the end of the frame.",
  "all baud rates from 2400 to 4000000",
  "Millions of baud rates.",
  [DS+":200-255", DM])
p("C85", "The two example boards together",
  "When the example master and the example slave are joined by the line and everything happens in time, a round of the master's four requests makes the master's two variables hold coil 1 and holding register 1 of the slave, sets coil 0 and holding register 0 of the slave to the values the master wrote and changes nothing else in the slave; the line carries each request exactly once and exactly the slave's answers; both boards are ready for the next round. From the second round on coil 0 equals coil 1 and holding register 0 equals holding register 1.",
  "all histories of both applications before the round (any schedule), all timings of main loops, interrupts and bytes within the limits, all values of the variables, all configurations",
  "Interleavings of two programs with their interrupts and the line.",
  [EM, ES])
p("C86", "Requests on a noisy bus",
  "Requests on a bus with several slaves where any transmission may reach the addressed slave intact, damaged or not at all, and may be answered at the master by the slave's answer, by something damaged or by nothing: the master repeats a request whose answer is damaged at most as often as configured; the application is told a result only if the request has been executed, and result and slave memory are those of executing it exactly once, however often it was transmitted and executed; if the application is told an error (timeout, communication error) the memory of the addressed slave is as if the request had been executed exactly once or not at all; no other slave's memory changes. (Until the master gives up on a request: what follows is subject to C72.)",
  "all firmware histories, all numbers and memories of slaves, all sequences of requests, all patterns of damage and loss, all damaged frames, all schedules within the time limits",
  "Combinations of repetitions, losses and interleavings.",
  ["src/modbus_master.c", "src/modbus_slave.c", DM, DS])
p("C87", "A frame is interpreted the same way however interrupts fall",
  "While a slave interprets a checked, complete request, or a master a checked, complete response, interrupts may fall anywhere (bytes may be received behind the frame, timers expire, a transmission complete; at the master also request calls from callbacks): the stored data, the answer and the callbacks are those of the frame that was checked, and the resulting state is the same wherever the interrupts fell. Checking and interpreting read nothing but the bytes of the frame.",
  "all histories, all frames, all interrupts at all points (up to 255 bytes in the buffer)",
  "Interrupts at every instruction.",
  ["src/modbus_slave.c:162-200", "src/slave_internall/modbus_slave_PDU.c", "src/modbus_master.c:811-815", "src/master_internall/modbus_master_PDU.c", "src/common/modbus_RTU.c"])
p("C88", "A request call is not disturbed by interrupts",
  "Bytes, timer events, ticks and completions that occur while the application calls a request function do not change its return value or the queued request, and the call does not change what the interrupts do: the result is the same wherever in the call they fall.",
  "all histories, all request calls with valid arrays, all interrupts",
  "Interrupts at every instruction.",
  ["src/modbus_master.c:149-310", "src/modbus_master.c:484-534", "src/master_internall/modbus_queue.c"])
p("C89", "Only the order of the received bytes matters among interrupts",
  "Between two steps of the main program the order of the interrupts is irrelevant except for the order of the received bytes: the same bytes in the same order, the same number of ticks and the same other interrupts (each once or several times) lead to the same state.",
  "all states of a slave, all histories of a master, all lists of interrupts",
  "All orders of all lists.",
  ["src/modbus_slave.c", "src/modbus_master.c"])
p("C90", "Bits flipped on the line do no harm",
  "If up to three data or parity bits of a frame are flipped on the line, or any number of them within 16 consecutive bits, then the bytes the driver stores are those sent or have a wrong CRC: a slave answers the request that was sent or does nothing at all, and a master reports what was sent or no data.",
  "all formats, all correct frames up to 255 bytes, all pauses between the characters, all patterns of flipped bits within these limits, all schedules",
  "All frames times all error patterns.",
  ["src/common/modbus_RTU.c: modbus_RTU_recv", "src/common/modbus_crc.c: calculate_CRC", DM, DS, "src/modbus_slave.c", "src/modbus_master.c"])
p("C91", "Requests may be made from an interrupt handler",
  "A request function may be called from an interrupt handler at any point of the manager's work, in particular while the manager takes a request from the queue or hands back a message buffer: the request is accepted or refused, transmitted and reported as if it had been made just before or just after that operation, and no request, buffer or report is lost.",
  "all configurations, all schedules of accesses to the two queues, driver events, ticks and request calls, all requests",
  "The windows are a few instructions wide; all interleavings of all histories.",
  ["src/master_internall/modbus_queue.c: modbus_queue_push, modbus_queue_pop", "src/modbus_master.c:484-505", "src/modbus_master.c:631-654", "src/modbus_master.c:898-903"])
p("C92", "The examples' clock set-up delivers the clock the drivers compute with",
  "When core_init has returned, the processor, the USART and the timer run at 64 MHz, the value the drivers use for bit rates and delays, SysTick counts milliseconds, its interrupt is on in the master's example and off in the slave's, and flash runs with the wait states this clock needs; core_init returns, and a second call changes nothing of this.",
  "all contents of the clock registers at the call, all orders in which oscillator, PLL, clock switch and the program take steps",
  "Start-up races between hardware flags and the program; register contents left by a boot loader.",
  ["examples/STM32G070RB_MODBUS_SLAVE/Core/Src/core_init.c: core_init", "examples/STM32G070RB_MODBUS_MASTER/Drivers/STM32G0_Drivers/core_init/core_init.c: core_init"])
p("C93", "The application may write its variables from interrupt handlers while the slave handles a request",
  "Interrupt handlers of the application may write the registered variables between any two accesses of the request being handled. Every value in a read answer is the value the variable had at the moment the slave read it; a write of the application is never lost: after a write request each variable holds the request's value unless the application wrote it later, and every other variable the application's last value; whether and how a request is refused, and every answer to a request whose variables the application leaves alone, are those of the undisturbed slave. An answer need not be a snapshot: variables the application changes together can be reported half old, half new.",
  "all configurations, data, request frames, all writes by the application before each of the request's accesses",
  "All moments of all interrupts during all requests.",
  ["src/slave_internall/modbus_slave_PDU.c", "src/slave_internall/modbus_slave_data.c:60-139"])
p("C94", "The slave serves regular traffic while the application changes its variables at any moment",
  "Interrupt handlers of the application may write the registered variables at any moment of a reception, of the handling of the request and of the transmission of the answer: a complete intact request to the slave is answered exactly once, from the variables as they are when the request is interpreted; frames that are disturbed or for others have no effect; all writes of the application and of the request take effect, in the order in which they happen; and afterwards the slave waits for the next frame.",
  "all configurations, data, frames, all schedules of program lines, driver events and application writes",
  "All moments of all interrupts in all schedules.",
  ["src/modbus_slave.c:162-232", "src/slave_internall/modbus_slave_PDU.c"])
p("C95", "The manager may be polled from an interrupt handler while the main program makes requests",
  "update_modbus_master_manager may be called from an interrupt handler (for example the tick) that interrupts a request function of the main program anywhere: the request is accepted or refused, transmitted and reported as if the call had been made at one moment between the interrupts, no request, buffer or report is lost, and the call returns after a bounded number of its own steps.",
  "all configurations, all histories, all requests, all interleavings of the call's accesses to the two queues with lines of the manager, driver events and ticks, all programs of such calls",
  "The windows are a few instructions wide; all interleavings of all histories.",
  ["src/modbus_master.c:484-505", "src/modbus_master.c: update_modbus_master_manager", "src/modbus_master.c:645-656", "src/modbus_master.c:898-903", "src/master_internall/modbus_queue.c: modbus_queue_push, modbus_queue_pop"])
p("C96", "Requests may be made from inside callbacks",
  "The application may call request functions from inside any callback (data, write confirmation, exception, timeout, communication error), any number of them: the answer being delivered is delivered unchanged and completely, and the requests are accepted or refused, transmitted and reported as if they had been made right after the callbacks; with a single message buffer a request made inside a callback is always refused.",
  "all configurations, all histories, all reactions of the application to all callbacks, all schedules of interrupts and ticks",
  "All combinations of histories and reactions.",
  ["src/modbus_master.c:716-725", "src/modbus_master.c:811-815", "src/modbus_master.c:843-848", "src/modbus_master.c:878-883", "src/master_internall/modbus_master_PDU.c:549-712", "src/modbus_master.c:149-310"])
p("C97", "The driver's initialisation sets up pins, clocks and interrupts",
  "When the driver's init function has returned, for any state of the board before: the clocks of port A, USART2 and TIM7 are on, PA1, PA2 and PA3 are USART2's DE, TX and RX, the interrupts of USART2 and TIM7 are enabled, and the line settings (C81-C84) have reached the peripherals (no write was lost because the peripheral's clock was still off). No other pin, clock, interrupt, priority or output level changes.",
  "all contents of the registers before the call, all rates from 2400 baud, all parities",
  "All register contents, e.g. after a boot loader; on a simulated target the clocks and pins do not exist.",
  ["examples/STM32G070RB_MODBUS_SLAVE/Core/Src/modbus_driver_interface.c:71-79, 164-241", "examples/STM32G070RB_MODBUS_SLAVE/Core/Inc/modbus_driver_config.h", "examples/STM32G070RB_MODBUS_MASTER/Drivers/STM32G0_Drivers/modbus_driver_interface.c"])
p("C98", "The interrupt handlers do not interrupt each other the wrong way",
  "After the start of either example the USART's and the timer's handlers never interrupt each other, and the tick's handler never interrupts them, whatever the priority registers held before; setting the priority of one interrupt leaves all others alone. The order of urgency is the one written in the source (tick 3, drivers 10).",
  "all register contents before the start, all interrupts, all priorities",
  "Preemption is invisible in unit tests; all register contents.",
  ["examples/STM32G070RB_MODBUS_SLAVE/Core/Src/core_init.c:22", "examples/STM32G070RB_MODBUS_SLAVE/Core/Inc/modbus_driver_config.h:27, 61", "examples/STM32G070RB_MODBUS_SLAVE/Drivers/CMSIS/Include/core_cm0plus.h: __NVIC_SetPriority, __NVIC_EnableIRQ"])
p("C99", "The LED's pin and the start of the example programs",
  "After the start of the slave example the LED's pin PA5 is an output, update_LED makes it high exactly if LED_status is 1 and touches no other pin or register; the start of both examples leaves the line set up for Modbus, gives the UCPD pull-ups' strobes and switches the power controller's clock on.",
  "all register contents before the start, all values of LED_status",
  "All register contents.",
  ["examples/STM32G070RB_MODBUS_SLAVE/Core/Src/LED_driver.c", "examples/STM32G070RB_MODBUS_SLAVE/Core/Src/core_init.c:11-25", "examples/STM32G070RB_MODBUS_SLAVE/Core/Src/main.c:45-82"])
p("C100", "The slave may be started while others talk on the line",
  "modbus_slave_init, called after power-on with the STM32 driver, returns a slave that is ready and never executes undefined behaviour, whatever interrupts occur at any statement of it and whatever arrives on the line meanwhile; if nothing arrives the result is the initial state the other properties start from.",
  "all configurations with valid tables, all initial data, all IDs, all interleavings of the statements of the function with interrupts, characters, pauses and changes of the application's variables",
  "The unit tests call the function without hardware; a character can arrive between any two statements.",
  ["src/modbus_slave.c:121-126, 245-319 (modbus_slave_init)", "examples/STM32G070RB_MODBUS_SLAVE/Core/Src/modbus_driver_interface.c:71-163"])
p("C101", "The slave may be initialised again",
  "Calling modbus_slave_init in a running firmware (for example with a new ID), outside of check_modbus_request, never executes undefined behaviour, keeps the application's data, and afterwards the slave answers requests to the new ID.",
  "all histories of the firmware before, all interleavings of the call with interrupts and characters, all traffic after it",
  "All histories before and all schedules of the call.",
  ["src/modbus_slave.c:121-126, 245-319 (modbus_slave_init)", "examples/STM32G070RB_MODBUS_SLAVE/Core/Src/modbus_driver_interface.c:71-163"])
p("C102", "The master may be started while others talk on the line",
  "modbus_master_init, called after power-on with the STM32 driver and SysTick running, returns a master that is ready and never executes undefined behaviour, whatever interrupts occur at any line of it and whatever arrives on the line meanwhile; if nothing arrives, the application starts from the state the other properties start from, with the milliseconds that passed counted.",
  "all queue lengths and repeat counts, all interleavings of the lines of the function with interrupts, ticks, characters and pauses",
  "The unit tests call the function without hardware; a character can arrive between any two lines.",
  ["src/modbus_master.c:311-336, 422-461 (modbus_master_init)", "examples/STM32G070RB_MODBUS_MASTER/Drivers/STM32G0_Drivers/modbus_driver_interface.c:70-169", "examples/STM32G070RB_MODBUS_MASTER/Core/Src/main.c:45-95"])
p("C103", "The master may be initialised again",
  "Calling modbus_master_init in a running firmware, outside of update_modbus_master_manager, never executes undefined behaviour; pending requests are forgotten, all message buffers are free again, and from then on only requests made after the call appear on the line.",
  "all histories of the firmware before (also waiting for an answer, with requests pending), all interleavings of the call with interrupts and characters, all behaviour after it",
  "All histories before and all schedules of the call.",
  ["src/modbus_master.c:311-336, 422-461 (modbus_master_init)", "examples/STM32G070RB_MODBUS_MASTER/Drivers/STM32G0_Drivers/modbus_driver_interface.c:70-169"])
p("C104", "The master driver's interrupt handlers, statement by statement",
  "Characters, receiver time-outs, the timer and the transmitter may act between any two statements of the driver's interrupt handlers, and the driver's handlers may interrupt SysTick's, without a difference: there is no undefined behaviour, every handler returns, and state, callbacks, frames and bytes on the line are those of handlers that run in no time with some of the hardware events happening a little earlier; a transmission is reported complete once.",
  "all schedules of statements, interrupts, hardware events and request calls, all contents of the line",
  "The unit tests call the handlers' callbacks from a mock; the hardware can act between any two statements.",
  ["examples/STM32G070RB_MODBUS_MASTER/Drivers/STM32G0_Drivers/modbus_driver_interface.c:93-169", "examples/STM32G070RB_MODBUS_MASTER/Core/Src/main.c:87-95", "src/modbus_master.c:385-391, 402-408"])
p("C105", "The slave driver's interrupt handlers, statement by statement",
  "Characters, receiver time-outs, the timer and the transmitter may act between any two statements of the slave driver's interrupt handlers without a difference: there is no undefined behaviour, every handler returns after at most 16 statements, and state, events, answers and bytes on the line are those of handlers that run in no time with some of the hardware events happening a little earlier, characters in their order. So the slave never answers unasked, a gap inside a frame is noticed, and as long as the UART's handler does not start while the main program is in the driver's send function and has not written the first byte, the bytes on the line are those of the answers.",
  "all schedules of statements, interrupts, hardware events and changes by the application, all contents of the line, all table sizes",
  "The unit tests call the handlers' callbacks from a mock; the hardware can act between any two statements.",
  ["examples/STM32G070RB_MODBUS_SLAVE/Core/Src/modbus_driver_interface.c:113-163"])
p("C106", "Slave on the wire, its interrupt handlers statement by statement",
  "A sequence of frames and pauses on the line, each request leaving the slave the time to answer, is answered as the server specification says (C64), and the data model ends as that specification says, also when the handlers' statements are executed one by one and hardware events happen inside the handlers, as long as every event is on time: what it changes is not looked at by the rest of the handler that is running (a character does not arrive before the handler has fetched the one before, the transmitter may empty its register as soon as the handler has filled it, and so on).",
  "all frames, all contents of the line, all table sizes and data, all on-time interleavings of the handlers' statements with the hardware",
  "The unit tests call the handlers' callbacks from a mock; between any two statements of a handler the hardware can act.",
  ["examples/STM32G070RB_MODBUS_SLAVE/Core/Src/modbus_driver_interface.c:113-163", "src/modbus_slave.c:check_modbus_request"])
p("C107", "Master on the wire, its interrupt handlers statement by statement",
  "A queue of requests, each answered (after at most R damaged answers) or not: the requests' frames are on the line in order, once per attempt, and every request gets its result (C74), also when the handlers' statements, the tick handler's and both halves of the store that enables the transmitter's interrupt are executed one by one and hardware events happen inside the handlers, as long as every event is on time: what it changes is not looked at by the rest of the handler that is running.",
  "all requests, answers, retry limits and time-outs, all on-time interleavings of the statements of the main program and the handlers with the hardware",
  "The unit tests call the handlers' callbacks from a mock; between any two statements of a handler the hardware can act.",
  ["examples/STM32G070RB_MODBUS_MASTER/Drivers/STM32G0_Drivers/modbus_driver_interface.c:78-168", "src/modbus_master.c:check_modbus_master_manager"])
p("C108", "Master driver: the read-modify-write of CR1 interrupted anywhere",
  "The driver's function that enables the reception reads, changes and writes the USART's control register while the transmitter's interrupt is on, so a handler that runs between the read and the write can switch that interrupt off and the write switches it on again. Wherever the handlers run: the library inside stays in one of the histories the other properties speak about, the frames handed to the driver are those of the accepted requests, in order and each at most R+1 times, the bytes on the line are those of the frames handed to the driver, there is no undefined behaviour, every handler returns after at most 17 statements, and while nothing is received the number of completions signalled exceeds the number of transmissions by at most the number of overtaken writes.",
  "all interleavings of the statements of the main program and the handlers with the hardware, including the handlers that run between the read and the write of the control register",
  "A unit test has no control register that a handler changes between a read and a write of the main program.",
  ["examples/STM32G070RB_MODBUS_MASTER/Drivers/STM32G0_Drivers/modbus_driver_interface.c:96,120-169"])
with open(os.path.join(os.path.dirname(__file__), "..", "properties.jsonl"), "w") as f:
    for x in P:
        f.write(json.dumps(x) + "\n")
print(len(P))
