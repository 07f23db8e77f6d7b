# Formal model of niwciu/MODBUS in Rocq (Coq 8.16.1)

## 1. Layout

| directory (rocq/theories) | content |
|---|---|
| `Model/` | executable Gallina transcription of the C code, no proofs; every definition cites file and lines in /repo |
| `Spec/`  | small independent specifications (bit-serial CRC, Modbus frame encoders, Modbus server, callback lists, FIFO, trace monitors) – nothing from `Model/` is used except plain data types |
| `Proofs/` | lemmas |
| `Props/` | the property theorems `Cnn_*` only (each closed by `exact lemma`), non-vacuity `Example`s, `Print Assumptions` |

## 2. Modelling conventions

* **Undefined behaviour is an outcome.** `outcome A := Ok a | UB | Diverge`. Array access outside the array,
  dereferencing NULL, dangling application pointers and division by zero give `UB`; a loop whose counter
  can never reach its bound gives `Diverge`.
* **Integers.** Values are `Z`; every conversion to `uint8_t/uint16_t/uint32_t` that can change a value is an explicit
  `u8/u16/u32` (mod 2^n) in the model.
* **Buffers** are `list Z` (256 long for the static RTU buffers); rows of the master's two-dimensional buffer arrays are
  separate lists, so running over the end of one row is `UB` (as it is in ISO C).
* **Pointers.** `modbus_req_resp_t.data` only ever points to "its" static buffer or is NULL: a flag plus the buffer.
  `modbus_msg_t *` in the master = index into the message array. Application variables registered at the slave = indices into
  a heap of `bool` / 16-bit cells, so aliasing of two addresses is possible.
* **Poll functions as line machines.** `check_modbus_request` and `update_modbus_master_manager` are small-step machines whose
  program counter is the C line about to be executed (short-circuit `&&` operands are separate lines). An interrupt may
  occur before every line. A *schedule* is a list of `Step` (main loop executes the next line; starts the next poll when none is active)
  and `Ev e` (interrupt callbacks: tx-done, T1.5, T3.5, frame error, byte received, ms tick; request API calls; application writes).
  Theorems "for every schedule" are proved by induction over such lists, of any length. Atomic polls are a special case (`poll`).
* **Configuration** (queue length, timeout, repeats, table sizes) is a parameter record; theorems hold for all values in
  the range the property names, not just for modbus_config.h.
* **Simplifications** (each repeated at the definition): the PDU routines called by a poll (`parse_master_request_and_prepare_resp`,
  `modbus_master_read_slave_resp`, report building) and `calculate_CRC` run as one step with respect to interrupts; request API calls are
  one step (they are made from the main loop or from library callbacks, i.e. between lines of the poll). C87 and C88 show that this
  loses nothing: these routines read only bytes that interrupts do not write, and interrupts at any point give the same result;
  `volatile`/compiler reordering is not modelled (flags are not declared volatile in the C code; we assume the compiler performs
  the accesses in source order); the hardware driver is represented by the interface contract of modbus_driver_interface.h
  (rx writes byte to `data[len]`, increments `len`), plus the STM32 example driver: alone in `Model/Driver.v`, together with library, UART and timer in `Model/SlaveSystem.v` and `Model/MasterSystem.v`.
* **Firmware** (`Model/SlaveSystem.v`, `Model/MasterSystem.v`; registers in `Model/Uart.v`): library + driver + UART/timer registers as one machine. Actions: the main program executes a line (of the library or
  of the driver's `send`), the interrupt controller starts a handler (only if its interrupt is pending), a character arrives, the
  transmitter takes a byte from TDR, receiver time-out, timer expiry. The handlers are one step each (they have equal priority).
  The master's machine also has SysTick and request calls. In the slave's driver, because RTOF is only cleared in the timer's handler, the main program is starved between the two events on real hardware;
  the model allows both this and the main program running there, so its theorems cover more schedules than the hardware has.

## 3. What is modelled

src/common/*.c, src/master_internall/*.c, src/slave_internall/*.c, src/modbus_master.c, src/modbus_slave.c completely;
examples/STM32G070RB_MODBUS_SLAVE/Core/Src/modbus_driver_interface.c: send (statement by statement), enable rx, both IRQ handlers,
RTOR/ARR computation, reset values of the registers used;
examples/STM32G070RB_MODBUS_MASTER/Drivers/STM32G0_Drivers/modbus_driver_interface.c: the same parts (there RTOF is cleared in the UART's handler,
and `send` also stops the timer);
examples/STM32G070RB_MODBUS_MASTER/Core/Src/main.c and modbus_master_data_interface.c (main loop, periodic requests, SysTick handler, callbacks with their bodies) in `Model/MasterApp.v`; examples/STM32G070RB_MODBUS_SLAVE/Core/Src/main.c and LED_driver.c (registration, main loop, LED) in `Model/SlaveApp.v`.
src/master_internall/modbus_queue.c once more, access by access, in `Model/QueueSteps.v`, and the manager with its queue accesses one by one in `Model/MasterFine.v` (for C91 only). The reverse, a request call executed access by access and interrupted by the manager, is `Model/MasterReq.v` (for C95 only). Callbacks that make requests are modelled in `Model/MasterCallback.v` (for C96 only): the requests depend on the callback's arguments, and the callback does not call the manager.

src/slave_internall/modbus_slave_PDU.c once more in `Model/SlaveIrqData.v` (for C93 and, within `Model/SlaveIrqRun.v`, C94): the same handlers, with the application's interrupt handlers writing variables before each access to a variable. An access to one variable is indivisible (true of the examples' Cortex-M0+ for bool and uint16_t; not of 8-bit processors).

src/modbus_master.c lines 311-336 (modbus_master_init) once more in `Model/MasterInit.v` (C102, C103): with the STM32 driver and SysTick, one step per line (the loops in lines 313-316 and the driver's pin and register functions one step each), handlers and line events between any two of them. `Model/Master.v`, `Model/MasterSystem.v` and `Model/MasterApp.v` execute the function in one step; C102_silent_line says when that is exact.

DRV:93-169 and SysTick's handler of the master once more in `Model/MasterHandlers.v` (C104): one step per statement, hardware events between any two of them, the driver's handlers interrupting SysTick's, RXNEIE a separate bit. `Model/MasterSystem.v` executes a handler in one step; C104_handlers_partial says when that is exact. The read-modify-writes of the timer's registers and, inside the handlers, of CR1 remain one step (nothing that runs meanwhile writes other bits of them).

The slave driver's handlers (lines 113-163) once more in `Model/SlaveHandlers.v` (C105): one step per statement, hardware events between any two of them. `Model/SlaveSystem.v` executes a handler in one step; C105_handlers says that nothing is lost thereby. Read-modify-writes of CR1 (inside the handlers), of TIM7's CR1 and SR remain one step (nothing that runs meanwhile writes other bits of them).

src/modbus_slave.c lines 121-126 and 245-319 (modbus_slave_init) once more in `Model/SlaveInit.v` (C100, C101): with the STM32 driver, one step per statement, interrupt handlers and line events between any two of them, callbacks not yet subscribed being NULL. `Model/Slave.v` and `Model/SlaveSystem.v` execute the function in one step; C100_silent_line says when that is exact.

examples: core_init.c lines 28-60 (both examples) in `Model/Clock.v`: the clock registers, which of their bits the program can write and when, and a hardware step that sets the ready flags and the switch status; the meaning of the fields is `Spec/Clock.v` (both from ST's manual, trusted). Lines 11-25 (SYSCFG clock, power controller, SysTick priority, UCPD pull-ups), the drivers' pins, clock enables and NVIC calls (with __NVIC_SetPriority and __NVIC_EnableIRQ of core_cm0plus.h) and LED_driver.c are in `Model/Board.v`, where a write to a peripheral whose clock is off is lost.
The register set-up of USART and timer in both drivers (`USART_module_config`, `TIMER7_init`, the same text in both) in `Model/Line.v`, together with the bits on the line
and the USART's receiver; the meaning of the register bits, which of them are locked while the USART is enabled, and the receiver are taken from ST's reference manual (RM0454):
that part of `Model/Line.v` is hardware, not code.
Not modelled: the start-up code (vector table, copying of .data), the debug pins, HAL, the unit-test mocks. (The two examples initialise different parities, master ODD, slave NONE: C82 shows that the bytes arrive all the same.)

## 4. Properties: what is modelled and how it is proved

R = the full property is false of the code: a `_refuted` theorem gives the witness and the strongest true version is proved beside it.

| id | plan |
|---|---|
| C01 | table CRC vs bit-serial spec: 256-entry sweep lifted by xor-linearity, induction on the message |
| C02 C03 C05 C06 | exact functional characterisation of RTU_send / RTU_recv / buf_rw on all buffers and lengths |
| C04 | bit-serial register is linear and injective: bursts by injectivity, odd weight by the parity invariant, 2-bit errors by the order of x (sweep of 2040 distances) |
| C07 C08 | model of the 8 request functions = independent encoders; return codes exact |
| C09 R | NULL data array is dereferenced; proved safe for non-NULL arrays that are long enough |
| C10 R | rejected request leaks its buffer: witness; proved: exactly one buffer is lost per PDU error, none otherwise |
| C11 C12 C13 | response processing = independent callback lists |
| C14 R | foreign function code reads out of the buffer; proved safe when function codes agree, or exception |
| C15 R C16 R C17 R | witnesses; true versions proved |
| C18 | refinement of the ring buffer to a FIFO list, induction over operation lists, all capacities |
| C19 C20 C21 C22 | trace-monitor refinement of the master line machine over all schedules |
| C23 C24 C30 C31 C32 | phase invariants over schedules |
| C25 R C26 R C27 R C28 R C29 R | witnesses (hang / wrong report / retransmission / lost interrupt), true versions |
| C33 C34 C35 C36 C37R | slave PDU handler = independent Modbus server specification, for all buffer contents; partial writes refute C37 |
| C38 C39 | monitors over all schedules of the slave line machine |
| C40 C41 C50 | phase invariants for arbitrary interleavings of lines and events |
| C42 R C43 R C44 R C46 R C47 R C55 R | witnesses; C55: a trap state is reachable and provably never answers again |
| C45 | table update lemma + effect through the PDU handler |
| C48 C49 | composition of C31, C40 and the two PDU characterisations |
| C51 C52R C53R C54R | driver / arithmetic models |
| C56 C57R C58 C59 C60 | invariants over schedules |
| C61 | induction over the exchanges of a session: master and slave machine composed, the whole view of the application |
| C62 | every firmware run projects to a library run; driver invariants (indices inside the buffer) |
| C63 R | invariant: bytes on the line ++ bytes still to come = frames handed over; witness when `send` is interrupted |
| C64 | composition of C40/C41 with the driver: every schedule of the hardware for a frame projects to a library reception |
| C65 | the trap state of C44 is left with the next byte on the line (the driver signals completion again), then C64 |
| C66 C67 | projection + monitors (C38, C39; frame error after a pause) |
| C68 R C69 R C70 R | as C62, C63 for the master's driver; NULL dereference before the first request; C20 transported to the line |
| C71-C74 | forward phases of the whole firmware (hand-over, bytes leaving, waiting, reception, timer), projection of each phase to a library phase (C23, C32), induction over tries and requests; the driver may start with a stale frame-end flag and a running timer (`C71_case_noise` reaches such a state) |
| C75 | a bus = a master firmware and a list of slave firmwares, each with its own schedule; what the master puts on the line (`line_sent`) arrives at every slave, what the asked slave puts on the line arrives at the master and at the other slaves; C64 for the asked slave and the bystanders, C71/C73 for the master, induction over the requests. The statement's timing: one request at a time, answers undamaged, bystanders poll between frames |
| C76 R C77 C78 | `Model/MasterApp.v`: main loop, `update_modbus_data`, callbacks (bodies), SysTick of the example; projection of every application run to a firmware run (`proj`, `a_act_proj`), invariant `ainv` by induction over the schedule (calls so far, variables = last reports, ticks paid per round); progress by a potential (`ppot` <= 25). C76 fails as C68 does |
| C79 C80 | `Model/SlaveApp.v`: registration loop, main loop, `update_LED` of the slave example, interrupts everywhere; invariant `binv` by induction over the schedule (during registration the tables are those of the registrations done, and hardware commutes with them; afterwards a run of the firmware started with the intended map); LED by a potential (lines left until update_LED, `b_pot`) |
| C81 R C82 C83 R C84 R | `Model/Line.v`: registers after initialisation computed for each parity, arithmetic for the baud rate; second initialisation by bit-wise reasoning on locked bits; receiver = automaton over the bits of the line, induction over the characters; times as inequalities over all baud rates (`lia`, `nia`) |
| C85 | `Spec/Pair.v`: both example applications on the bus of C75; the applications' schedules project to firmware schedules (`a_sched`, `b_sched`); the bus session theorem gives the callbacks and the memory, which are then computed for the example's map (`round_served`) |
| C86 | `Spec/Noise.v`: the bus of C75 with transmissions that reach the slave or not (`garbled`, `node_takes`) and answers that arrive, are damaged or lost (`ending`); `server` is idempotent (`store_again`, `server_again`), so the memory after any number of executions is that after one; induction over the transmissions (`noisy_run`) and over the session |
| C87 | `Proofs/Prefix.v`: the PDU routines on a message with another request half that agrees on the frame's bytes; `begins` (`Spec/Atomic.v`): any buffer that starts with the frame, whatever follows; commutation of the interpretation with each interrupt, induction over the interrupts; the checked bytes stay in front of the buffer (`kept`, `ci_pref`) |
| C88 | generation of a request with another response half (`gen_w`), with other flags and timer (`blind`), with a byte arriving in the response half of any message (`req_rx`); induction over the interrupts |
| C89 | closed form of the state after a list of interrupts (`s_after`, `m_after`) |
| C90 | `Spec/Flips.v`: bits on the line with start bits, stop bits and pauses intact, all others arbitrary; the flipped data bits are a subsequence of the flipped bits (`damage_sub`), so few stay few and close stay close; the CRC's guarantees (C04) for the rest; composition with C40, C41 and C22. `C90_limit`: four flipped bits can turn one request into another |
| C91 R | `Model/QueueSteps.v` (push and pop access by access), `Model/MasterFine.v` (the manager with lines 633, 651, 901 access by access); `at_push`/`at_pop` relate a queue with an operation under way to the queue before or after it (linearisation point: the first of the two bookkeeping updates of a push, the last access of a pop), lifted to the master by `frel` (forward simulation of `f_run` by `m_run`); what remains is refuted by concrete runs |
| C92 R | `Model/Clock.v`, `Spec/Clock.v`; `cinv`: for every line the fields that have been set, kept by every program and hardware step (masks computed, words arbitrary); progress: each time the hardware has caught up, the next program step leaves its line. |
| C93 | `Model/SlaveIrqData.v`, `Spec/SlaveIrqData.v`; the interrupted handlers equal the undisturbed ones (C33-C35) on data frozen at the moments of the accesses (`parse_i`); writes of request and application are one list of writes, of which the last one to a variable counts. |
| C94 | `Model/SlaveIrqRun.v`: `Model/Slave.v` with line 195 from `Model/SlaveIrqData.v` and application writes as actions; each run is related to one of `Model/Slave.v` with other data (`Proofs/SlaveIrqRun.v`), and C40/C38 are applied to that run. |
| C95 R | `Model/MasterReq.v`: a request call (`generate_request`) step by step, its pop and push access by access, interleaved with `m_act` (lines of the manager, driver events, ticks); `pre` relates the interrupted state to that of a master on which the call has not yet been made, `post` to one on which it has (the linearisation point is the access after which the manager can see the message: the counter when the queue was empty, otherwise the head), forward simulation by `m_run`; programs of calls by induction; a measure for termination; the remaining moments are refuted by concrete runs |
| C96 | `Model/MasterCallback.v`: the lines that call back, with every access to the message after a callback reading the memory the callback left; the invariant of `Proofs/MasterInv.v` (the message under way is not free) makes the requests leave it alone (`busy`), so line and requests commute (`meets`), lifted to runs |
| C97 R C98 R C99 R | `Model/Board.v`: clock enables, pins, NVIC and the drivers' init functions around those of `Model/Line.v`; bit arithmetic over all register contents (`Proofs/Board.v`: fields by their bits, priority bytes by cases on the byte) |
| C100 R C101 R | `Model/SlaveInit.v`: modbus_slave_init with the driver, statement by statement, with the driver's handlers and their possibly NULL callbacks; induction over the schedule with a function from the number of executed statements to the state (silent line) and an invariant (subscribed callbacks) |
| C102 R C103 R | `Model/MasterInit.v`: modbus_master_init with the driver, line by line, with the driver's handlers, their possibly NULL callbacks, and SysTick; silent line: the lines executed so far determine the state except for the timers; characters: an invariant on memory, buffers and the transmitter's pointers |
| C104 R | `Model/MasterHandlers.v`: the statements of the driver's handlers, of SysTick's and of [CR1 \|= RXNEIE], hardware events between any two of them; simulation: while a handler runs, the schedule with indivisible handlers is kept up to its start, every hardware event commutes with the statements executed so far (it then goes before the handler) or with those still to be executed (it then goes after it) |
| C105 | `Model/SlaveHandlers.v`: the statements of the slave driver's handlers, hardware events between any two of them; the simulation of C104; then C62, C63, C66 and C67 about the schedule with indivisible handlers |
| C106 | on time = `passed` in `Spec/SlaveHandlers.v`: the handler's statement and the event commute, so the run is that of `Model/SlaveSystem.v` under the same schedule, each handler where it starts; then C64 |
| C107 | the same for the master (`Spec/MasterHandlers.v`, `Proofs/MasterOnTime.v`), SysTick's handler where it ends; then C74, whose start state is reached by C104 |
| C108 | `Spec/MasterRace.v`: a run of `Model/MasterSystem.v` with one more action, the store of an old CR1; the simulation of C104 is restarted after every overtaken store (`Proofs/MasterRace.v`); no undefined behaviour from an invariant of what the driver fetches that such a store keeps (`Proofs/MasterRaceSafe.v`); the bytes on the line by the invariant of C69, which such a store keeps because the library has just left line 405 (`Proofs/MasterRaceWire.v`); the old values stored are counted against the handlers' writes by a potential (`Proofs/MasterRaceCount.v`) |

## 5. Trusted base

Coq's kernel (with `vm_compute`), the Coq standard library (lists, ZArith, lia), and the faithfulness of the transcription in `Model/`.
`Print Assumptions` output for every theorem is in section 6.

## 6. Print Assumptions

Generated by `tools/mkassump.py` from MANIFEST.json. Every theorem is closed: no axiom, not even one of the standard library.
(The axioms `Coq.ssr.ssrunder.*` that `vcheck` lists are declared by a module of the standard library that other
standard-library modules load; no theorem here depends on them.)

<!-- assumptions -->
| property | theorem (file `Props/`) | Print Assumptions |
|---|---|---|
| C01 | `C01_crc_is_crc16` (Frames) | Closed under the global context |
| C02 | `C02_build_check_round_trip` (Frames) | Closed under the global context |
| C03 | `C03_accept_iff_id_and_crc` (Frames), `C03_short_never_accepted` (Frames), `C03_id_error` (Frames), `C03_crc_error` (Frames) | Closed under the global context |
| C04 | `C04_errors_detected` (Frames) | Closed under the global context |
| C05 | `C05_too_long_refused` (Frames), `C05_never_overflows` (Frames) | Closed under the global context |
| C06 | `C06_write_then_read` (Frames), `C06_read_big_endian` (Frames) | Closed under the global context |
| C07 | `C07_frames_on_the_wire` (MasterRun), `C07_frame_built` (MasterRun) | Closed under the global context |
| C08 | `C08_accepted_exactly` (MasterRun), `C08_limits` (MasterRun) | Closed under the global context |
| C09 | `C09_refuted` (MasterRun), `C09_memory_safe_partial` (MasterRun) | Closed under the global context |
| C10 | `C10_refuted` (MasterRun), `C10_rejection_cost_partial` (MasterRun) | Closed under the global context |
| C100 | `C100_silent_line` (SlaveInit), `C100_late_characters_partial` (SlaveInit), `C100_refuted_one_character` (SlaveInit), `C100_refuted_pause` (SlaveInit) | Closed under the global context |
| C101 | `C101_no_ub` (SlaveInit), `C101_at_rest` (SlaveInit), `C101_then_traffic` (SlaveInit), `C101_refuted_leftover` (SlaveInit) | Closed under the global context |
| C102 | `C102_silent_line` (MasterInit), `C102_then_application` (MasterInit), `C102_refuted_pause` (MasterInit) | Closed under the global context |
| C103 | `C103_no_ub_partial` (MasterInit), `C103_driver_at_rest` (MasterInit), `C103_forgets` (MasterInit), `C103_refuted_transmitting` (MasterInit) | Closed under the global context |
| C104 | `C104_handlers_partial` (MasterHandlers), `C104_pending` (MasterHandlers), `C104_tick` (MasterHandlers), `C104_no_ub_partial` (MasterHandlers), `C104_returns_partial` (MasterHandlers), `C104_bytes_on_the_line_partial` (MasterHandlers), `C104_one_completion_partial` (MasterHandlers), `C104_refuted` (MasterHandlers) | Closed under the global context |
| C105 | `C105_handlers` (SlaveHandlers), `C105_no_ub` (SlaveHandlers), `C105_returns` (SlaveHandlers), `C105_bytes_on_the_line` (SlaveHandlers), `C105_never_unasked` (SlaveHandlers), `C105_gap_is_a_frame_error` (SlaveHandlers) | Closed under the global context |
| C106 | `C106_exact` (SlaveHandlers), `C106_traffic_on_the_line` (SlaveHandlers) | Closed under the global context |
| C107 | `C107_exact_partial` (MasterOnTime), `C107_queue_on_the_line_partial` (MasterOnTime) | Closed under the global context |
| C108 | `C108_handlers` (MasterRace), `C108_library_inside` (MasterRace), `C108_requests_in_order` (MasterRace), `C108_bytes_on_the_line_partial` (MasterRace), `C108_completions` (MasterRace), `C108_overtaken` (MasterRace), `C108_no_race` (MasterRace), `C108_no_ub_partial` (MasterRace), `C108_returns_partial` (MasterRace) | Closed under the global context |
| C11 | `C11_read_delivered_exactly` (Responses), `C11_bits_round_trip` (Responses), `C11_registers_round_trip` (Responses) | Closed under the global context |
| C12 | `C12_write_confirmed_once` (Responses) | Closed under the global context |
| C13 | `C13_exception_reported_once` (Responses) | Closed under the global context |
| C14 | `C14_refuted` (Responses), `C14_full_refuted` (Responses), `C14_safe_iff_partial` (Responses) | Closed under the global context |
| C15 | `C15_refuted` (Responses), `C15_full_refuted` (Responses), `C15_kinds_separate_partial` (Responses) | Closed under the global context |
| C16 | `C16_refuted` (Responses), `C16_long_enough_partial` (Responses) | Closed under the global context |
| C17 | `C17_refuted` (MasterRun), `C17_refuted_exception` (MasterRun), `C17_informed_partial` (MasterRun) | Closed under the global context |
| C18 | `C18_queue_is_bounded_fifo` (Queue), `C18_availability` (Queue) | Closed under the global context |
| C19 | `C19_buffers` (MasterRun), `C19_in_flight` (MasterRun), `C19_calls_leave_them_alone` (MasterRun), `C19_driver_buffer` (MasterRun) | Closed under the global context |
| C20 | `C20_in_order` (MasterRun) | Closed under the global context |
| C21 | `C21_one_outcome` (MasterRun), `C21_after_transmission` (MasterRun) | Closed under the global context |
| C22 | `C22_only_checked_responses` (MasterRun), `C22_checked_is_received` (MasterRun), `C22_delivers_the_checked_frame` (MasterReports) | Closed under the global context |
| C23 | `C23_foreign_ignored` (MasterTime) | Closed under the global context |
| C24 | `C24_reported_in_time` (MasterTime), `C24_from_transmission` (MasterTime) | Closed under the global context |
| C25 | `C25_refuted` (MasterTime), `C25_polled_every_tick_partial` (MasterTime) | Closed under the global context |
| C26 | `C26_refuted_timeout` (MasterReports), `C26_refuted_comm` (MasterReports), `C26_timeout_partial` (MasterReports), `C26_comm_partial` (MasterReports) | Closed under the global context |
| C27 | `C27_refuted` (MasterRetry), `C27_second_time_partial` (MasterRetry) | Closed under the global context |
| C28 | `C28_refuted` (MasterRetry), `C28_waiting_partial` (MasterRetry) | Closed under the global context |
| C29 | `C29_refuted` (MasterTime), `C29_discarded_partial` (MasterTime) | Closed under the global context |
| C30 | `C30_drains` (MasterTime) | Closed under the global context |
| C31 | `C31_refuted` (MasterRetry), `C31_delivered_partial` (MasterRetry) | Closed under the global context |
| C32 | `C32_refuted` (MasterRetry), `C32_delivered_partial` (MasterRetry), `C32_reported_partial` (MasterRetry) | Closed under the global context |
| C33 | `C33_read_bits` (SlavePdu), `C33_read_regs` (SlavePdu) | Closed under the global context |
| C34 | `C34_write_bits` (SlavePdu), `C34_write_regs` (SlavePdu), `C34_frame` (SlavePdu) | Closed under the global context |
| C35 | `C35_exception_codes` (SlavePdu) | Closed under the global context |
| C36 | `C36_memory_safe_partial` (SlavePdu), `C36_refuted` (SlavePdu) | Closed under the global context |
| C37 | `C37_refused_change_nothing_partial` (SlavePdu), `C37_prefix_written_bits_partial` (SlavePdu), `C37_prefix_written_regs_partial` (SlavePdu), `C37_refuted` (SlavePdu) | Closed under the global context |
| C38 | `C38_only_intact_requests` (SlaveRun), `C38_checked_is_received` (SlaveRun) | Closed under the global context |
| C39 | `C39_at_most_one_per_frame` (SlaveRun), `C39_never_overlapping` (SlaveRun) | Closed under the global context |
| C40 | `C40_answered_exactly_once` (SlaveRun), `C40_short_frames` (SlaveRun), `C40_every_request_of_a_session` (SlaveRun), `slave_init_is_fresh` (SlaveRun) | Closed under the global context |
| C41 | `C41_recovers_from_garbage_partial` (SlaveRun), `C41_refuted` (SlaveRun) | Closed under the global context |
| C42 | `C42_complete_frames_partial` (SlavePdu), `C42_refuted` (SlavePdu) | Closed under the global context |
| C43 | `C43_refuted` (SlaveRun), `C43_next_answered_partial` (SlaveRun) | Closed under the global context |
| C44 | `C44_refuted` (SlaveRun), `C44_completion_noticed_partial` (SlaveRun) | Closed under the global context |
| C45 | `C45_register_inside` (SlavePdu), `C45_register_outside_is_unsafe` (SlavePdu), `C45_read_uses_registered_bit` (SlavePdu), `C45_read_uses_registered_reg` (SlavePdu) | Closed under the global context |
| C46 | `C46_refuted` (SlaveRun), `C46_nothing_transmitted_partial` (SlaveRun) | Closed under the global context |
| C47 | `C47_refuted` (SlaveRun), `C47_clean_slate_partial` (SlaveRun) | Closed under the global context |
| C48 | `C48_read_end_to_end` (EndToEnd), `C61_session` (EndToEnd) | Closed under the global context |
| C49 | `C49_write_end_to_end_partial` (EndToEnd), `C49_full_unless_gap_partial` (EndToEnd), `C61_session` (EndToEnd), `C49_refuted` (EndToEnd) | Closed under the global context |
| C50 | `C50_other_ids_unaffected` (SlaveRun), `C50_bus` (SlaveRun), `C50_any_schedule` (SlaveRun) | Closed under the global context |
| C51 | `C51_reception_in_bounds` (DriverProps), `C51_byte_stored` (DriverProps) | Closed under the global context |
| C52 | `C52_bytes_in_order_partial` (DriverProps), `C52_once_if_txe_disabled_partial` (DriverProps), `C52_refuted` (DriverProps) | Closed under the global context |
| C53 | `C53_timers_defined_partial` (DriverProps), `C53_refuted` (DriverProps) | Closed under the global context |
| C54 | `C54_range_check_partial` (DriverProps), `C54_refuted` (DriverProps), `C54_model_agrees` (DriverProps) | Closed under the global context |
| C55 | `C55_refuted` (SlaveRun), `C55_regular_traffic_partial` (SlaveRun) | Closed under the global context |
| C56 | `C56_before_init_harmless` (MasterSafe) | Closed under the global context |
| C57 | `C57_slave_refuted` (SlaveRun), `C57_slave_fresh_partial` (SlaveRun), `C57_master_refuted` (MasterSafe), `C57_master_partial` (MasterSafe) | Closed under the global context |
| C58 | `C58_slave_poll_returns` (SlaveRun), `C58_slave_poll_total` (SlaveRun), `C58_master_poll_returns` (MasterSafe), `C58_master_poll_never_loops` (MasterSafe) | Closed under the global context |
| C59 | `C59_clean_slate` (MasterSafe), `C59_exactly_N_accepted` (MasterSafe), `C59_next_poll_transmits` (MasterSafe), `C59_first_poll_transmits` (MasterSafe) | Closed under the global context |
| C60 | `C60_slave_no_ub` (SlaveRun), `C60_slave_no_ub_ready` (SlaveRun), `C60_master_no_ub` (MasterSafe), `C60_master_no_ub_small` (MasterSafe) | Closed under the global context |
| C61 | `C61_session` (EndToEnd) | Closed under the global context |
| C62 | `C62_firmware_no_ub` (SlaveSystem), `C62_library_inside` (SlaveSystem) | Closed under the global context |
| C63 | `C63_bytes_on_the_line_partial` (SlaveSystem), `C63_refuted` (SlaveSystem) | Closed under the global context |
| C64 | `C64_traffic_on_the_line` (SlaveSystem), `C64_from_power_on` (SlaveSystem), `C64_repeated_timeout_refuted` (SlaveSystem) | Closed under the global context |
| C65 | `C65_next_byte_recovers` (SlaveSystem), `C65_then_traffic` (SlaveSystem) | Closed under the global context |
| C66 | `C66_never_unasked` (SlaveSystem) | Closed under the global context |
| C67 | `C67_gap_is_a_frame_error` (SlaveSystem) | Closed under the global context |
| C68 | `C68_refuted` (MasterSystem), `C68_refuted_first_request` (MasterSystem), `C68_master_firmware_no_ub_partial` (MasterSystem), `C68_library_inside` (MasterSystem) | Closed under the global context |
| C69 | `C69_refuted` (MasterSystem), `C69_bytes_on_the_line_partial` (MasterSystem) | Closed under the global context |
| C70 | `C70_only_requests_partial` (MasterSystem), `C69_refuted` (MasterSystem) | Closed under the global context |
| C71 | `C71_answer_on_the_line` (MasterLine) | Closed under the global context |
| C72 | `C72_damaged_answers_on_the_line` (MasterLine) | Closed under the global context |
| C73 | `C73_silence_on_the_line` (MasterLine) | Closed under the global context |
| C74 | `C74_queue_on_the_line` (MasterLine) | Closed under the global context |
| C75 | `C75_bus_session` (Bus), `C75_others_untouched` (Bus) | Closed under the global context |
| C76 | `C76_application_starts` (MasterApp), `C76_application_is_firmware` (MasterApp), `C76_application_no_ub_partial` (MasterApp), `C76_refuted` (MasterApp) | Closed under the global context |
| C77 | `C77_what_is_asked` (MasterApp), `C77_rate` (MasterApp), `C77_rate_between` (MasterApp), `C77_no_buffer_lost` (MasterApp), `C77_refused_only_when_full` (MasterApp) | Closed under the global context |
| C78 | `C78_keeps_asking` (MasterApp) | Closed under the global context |
| C79 | `C79_application_no_ub` (SlaveApp), `C79_soon_running` (SlaveApp), `C79_application_is_firmware` (SlaveApp), `C79_no_aliases` (SlaveApp), `C79_traffic` (SlaveApp), `C79_power_on` (SlaveApp) | Closed under the global context |
| C80 | `C80_LED_is_recent` (SlaveApp), `C80_LED_follows` (SlaveApp), `C80_switch` (SlaveApp) | Closed under the global context |
| C81 | `C81_settings_partial` (Line), `C81_eleven_bits` (Line), `C81_second_init_ignored` (Line), `C81_refuted` (Line) | Closed under the global context |
| C82 | `C82_bytes_arrive` (Line) | Closed under the global context |
| C83 | `C83_hardware_notices` (Line), `C83_parity_ignored` (Line), `C83_refuted` (Line) | Closed under the global context |
| C84 | `C84_bit_rate` (Line), `C84_end_of_frame` (Line), `C84_gap_first` (Line), `C84_gap_partial` (Line), `C84_gap_all_rates` (Line), `C84_refuted` (Line) | Closed under the global context |
| C85 | `C85_round` (Pair), `C85_next_round` (Pair), `C85_mirror` (Pair) | Closed under the global context |
| C86 | `C86_noisy_session` (Noise), `C86_repeatable` (Noise), `C86_reports_true` (Noise) | Closed under the global context |
| C87 | `C87_interpretation_reads_only_the_frame` (Atomic), `C87_check_reads_only_the_frame` (Atomic), `C87_slave_interrupted_anywhere` (Atomic), `C87_master_interrupted_anywhere` (Atomic) | Closed under the global context |
| C88 | `C88_request_call_interrupted_anywhere` (Atomic) | Closed under the global context |
| C89 | `C89_slave_interrupt_order` (Atomic), `C89_master_interrupt_order` (Atomic) | Closed under the global context |
| C90 | `C90_line_damage_caught` (Flips), `C90_slave` (Flips), `C90_master` (Flips), `C90_limit` (Flips) | Closed under the global context |
| C91 | `C91_push_interrupted` (QueueIrq), `C91_pop_interrupted` (QueueIrq), `C91_harmless_requests` (QueueIrq), `C91_refuted_counter` (QueueIrq), `C91_refuted_buffer` (QueueIrq), `C91_refuted_two_callers` (QueueIrq) | Closed under the global context |
| C92 | `C92_clock_partial` (Clock), `C92_returns` (Clock), `C92_again` (Clock), `C92_refuted_wait_states` (Clock), `C92_refuted_pll_on` (Clock) | Closed under the global context |
| C93 | `C93_answer` (SlaveIrqData), `C93_read_bits` (SlaveIrqData), `C93_read_regs` (SlaveIrqData), `C93_exceptions` (SlaveIrqData), `C93_write_bits` (SlaveIrqData), `C93_write_regs` (SlaveIrqData), `C93_untouched` (SlaveIrqData), `C93_no_snapshot` (SlaveIrqData), `C93_no_writes` (SlaveIrqData) | Closed under the global context |
| C94 | `C94_no_ub` (SlaveIrqRun), `C94_answered` (SlaveIrqRun), `C94_dropped` (SlaveIrqRun), `C94_no_application` (SlaveIrqRun) | Closed under the global context |
| C95 | `C95_harmless_manager` (MasterReq), `C95_harmless_program` (MasterReq), `C95_driver_only` (MasterReq), `C95_returns` (MasterReq), `C95_refuted_counter` (MasterReq), `C95_refuted_early` (MasterReq), `C95_refuted_buffers` (MasterReq) | Closed under the global context |
| C96 | `C96_requests_in_callbacks` (MasterCallback), `C96_one_buffer` (MasterCallback) | Closed under the global context |
| C97 | `C97_driver_board_partial` (Board), `C97_defined` (Board), `C97_rest` (Board), `C97_refuted_rx_pin` (Board) | Closed under the global context |
| C98 | `C98_set_priority` (Board), `C98_no_nesting` (Board), `C98_refuted_tick_first` (Board) | Closed under the global context |
| C99 | `C99_LED_pin` (Board), `C99_start_partial` (Board), `C99_refuted_power_clock` (Board) | Closed under the global context |
