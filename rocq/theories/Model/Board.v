(** The examples' board set-up: clocks of the peripherals, pins, interrupt priorities, the LED's pin.
    DRV = examples/STM32G070RB_MODBUS_SLAVE/Core/Src/modbus_driver_interface.c (the master's driver, examples/STM32G070RB_MODBUS_MASTER/
    Drivers/STM32G0_Drivers/modbus_driver_interface.c, has the same text in these functions, and the same modbus_driver_config.h);
    CI = examples/STM32G070RB_MODBUS_SLAVE/Core/Src/core_init.c; CM0 = Drivers/CMSIS/Include/core_cm0plus.h.
    Bit positions: Drivers/CMSIS/Device/stm32g070xx.h.  That a peripheral without a clock ignores writes and reads as 0, and how the
    NVIC treats its registers, is hardware, from RM0454 and the Cortex-M0+ manual. *)
From Coq Require Export List ZArith Bool Lia.
From Verif Require Export Model.Base Model.Driver Model.Line.
Export ListNotations.
Open Scope Z_scope.

(** registers: clock enables; port A; system configuration; interrupt enables and priorities (IP[0..7], SHP[0..1]); USART2 and TIM7 (Model/Line.v) *)
Record board := mk_board { IOPENR : Z; APBENR1 : Z; APBENR2 : Z; MODER : Z; AFRL : Z; ODR : Z; CFGR1 : Z; ISER : Z; IP : Z -> Z; SHP : Z -> Z; io : periph }.
Definition set_IOPENR (b : board) (v : Z) := mk_board (u32 v) (APBENR1 b) (APBENR2 b) (MODER b) (AFRL b) (ODR b) (CFGR1 b) (ISER b) (IP b) (SHP b) (io b).
Definition set_APBENR1 (b : board) (v : Z) := mk_board (IOPENR b) (u32 v) (APBENR2 b) (MODER b) (AFRL b) (ODR b) (CFGR1 b) (ISER b) (IP b) (SHP b) (io b).
Definition set_APBENR2 (b : board) (v : Z) := mk_board (IOPENR b) (APBENR1 b) (u32 v) (MODER b) (AFRL b) (ODR b) (CFGR1 b) (ISER b) (IP b) (SHP b) (io b).
(** hardware: port A without a clock ignores the write *)
Definition clocked_A (b : board) : bool := Z.testbit (IOPENR b) 0.
Definition set_MODER (b : board) (v : Z) := if clocked_A b then mk_board (IOPENR b) (APBENR1 b) (APBENR2 b) (u32 v) (AFRL b) (ODR b) (CFGR1 b) (ISER b) (IP b) (SHP b) (io b) else b.
Definition set_AFRL (b : board) (v : Z) := if clocked_A b then mk_board (IOPENR b) (APBENR1 b) (APBENR2 b) (MODER b) (u32 v) (ODR b) (CFGR1 b) (ISER b) (IP b) (SHP b) (io b) else b.
Definition set_ODR (b : board) (v : Z) := if clocked_A b then mk_board (IOPENR b) (APBENR1 b) (APBENR2 b) (MODER b) (AFRL b) (u32 v) (CFGR1 b) (ISER b) (IP b) (SHP b) (io b) else b.
(** hardware: SYSCFG's clock is APBENR2 bit 0 *)
Definition set_CFGR1 (b : board) (v : Z) := if Z.testbit (APBENR2 b) 0 then mk_board (IOPENR b) (APBENR1 b) (APBENR2 b) (MODER b) (AFRL b) (ODR b) (u32 v) (ISER b) (IP b) (SHP b) (io b) else b.
(** hardware: writing 1s to ISER enables, writing 0s has no effect *)
Definition set_ISER (b : board) (v : Z) := mk_board (IOPENR b) (APBENR1 b) (APBENR2 b) (MODER b) (AFRL b) (ODR b) (CFGR1 b) (Z.lor (ISER b) (u32 v)) (IP b) (SHP b) (io b).
(** hardware: only the two upper bits of each priority byte are implemented (stm32g070xx.h:52), the others read as 0 *)
Definition PRIO_implemented := 0xC0C0C0C0.
Definition upd (f : Z -> Z) (i v : Z) : Z -> Z := fun j => if j =? i then v else f j.
Definition set_IP (b : board) (i v : Z) := mk_board (IOPENR b) (APBENR1 b) (APBENR2 b) (MODER b) (AFRL b) (ODR b) (CFGR1 b) (ISER b) (upd (IP b) i (Z.land (u32 v) PRIO_implemented)) (SHP b) (io b).
Definition set_SHP (b : board) (i v : Z) := mk_board (IOPENR b) (APBENR1 b) (APBENR2 b) (MODER b) (AFRL b) (ODR b) (CFGR1 b) (ISER b) (IP b) (upd (SHP b) i (Z.land (u32 v) PRIO_implemented)) (io b).
Definition set_io (b : board) (p : periph) := mk_board (IOPENR b) (APBENR1 b) (APBENR2 b) (MODER b) (AFRL b) (ODR b) (CFGR1 b) (ISER b) (IP b) (SHP b) p.
(** code that works on the registers of USART2 (clock: APBENR1 bit 17) or TIM7 (bit 5).  Simplification: without the clock, reads are as with it (they cannot be observed: the writes are lost) *)
Definition on_periph (bit : Z) (f : periph -> outcome periph) (b : board) : outcome board :=
  let* p := f (io b) in Ok (if Z.testbit (APBENR1 b) bit then set_io b p else b).

(** stm32g070xx.h:4444-4445, 4478-4514 *)
Definition GPIOAEN := 0x1. Definition TIM7EN := 0x20. Definition USART2EN := 0x20000. Definition APBENR1_PWREN := 0x10000000. Definition SYSCFGEN := 0x1.
(** stm32g070xx.h:2537-2561: MODE1, MODE2, MODE3, MODE5 *)
Definition MODE1 := 0xC. Definition MODE1_1 := 0x8. Definition MODE2 := 0x30. Definition MODE2_1 := 0x20. Definition MODE3 := 0xC0. Definition MODE3_1 := 0x80. Definition MODE5 := 0xC00. Definition MODE5_0 := 0x400.
(** stm32g070xx.h:3086-3103, 2893-2895, 5728-5733 *)
Definition AFSEL1 := 0xF0. Definition AFSEL1_0 := 0x10. Definition AFSEL2 := 0xF00. Definition AFSEL2_0 := 0x100. Definition AFSEL3_0 := 0x1000.
Definition OD5 := 0x20. Definition UCPD1_STROBE := 0x200. Definition UCPD2_STROBE := 0x400.
(** stm32g070xx.h:76, 93, 103 *)
Definition SysTick_IRQn := -1. Definition TIM7_IRQn := 18. Definition USART2_IRQn := 28.

(** CM0:728-730 _BIT_SHIFT, _SHP_IDX, _IP_IDX *)
Definition BIT_SHIFT (n : Z) : Z := Z.land (u32 n) 3 * 8.
Definition SHP_IDX (n : Z) : Z := Z.shiftr (u32 (Z.land (u32 n) 15 - 8)) 2.
Definition IP_IDX (n : Z) : Z := Z.shiftr (u32 n) 2.
(** the word written in CM0:854-855 and 859-860; __NVIC_PRIO_BITS = 2 *)
Definition prio_word (old n prio : Z) : Z :=
  Z.lor (old &~ u32 (Z.shiftl 0xFF (BIT_SHIFT n))) (u32 (Z.shiftl (Z.land (u32 (Z.shiftl prio (8 - 2))) 0xFF) (BIT_SHIFT n))).
(** CM0:850-862  __NVIC_SetPriority *)
Definition NVIC_SetPriority (n prio : Z) (b : board) : board :=
  if 0 <=? n then set_IP b (IP_IDX n) (prio_word (IP b (IP_IDX n)) n prio)
  else set_SHP b (SHP_IDX n) (prio_word (SHP b (SHP_IDX n)) n prio).
(** CM0:741-749  __NVIC_EnableIRQ *)
Definition NVIC_EnableIRQ (n : Z) (b : board) : board := if 0 <=? n then set_ISER b (u32 (Z.shiftl 1 (Z.land (u32 n) 31))) else b.

(** DRV:164-175  USART_GPIO_init; modbus_driver_config.h:31-52.  Line 172 names the TX mask twice *)
Definition USART_GPIO_init (b : board) : board :=
  let b := set_IOPENR b (IOPENR b |' GPIOAEN) in
  let b := set_MODER b (MODER b &~ (MODE2 |' MODE3 |' MODE1)) in
  let b := set_MODER b (MODER b |' (MODE2_1 |' MODE3_1 |' MODE1_1)) in
  let b := set_AFRL b (AFRL b &~ (AFSEL2 |' AFSEL2 |' AFSEL1)) in
  set_AFRL b (AFRL b |' (AFSEL2_0 |' AFSEL3_0 |' AFSEL1_0)).
(** DRV:176-206  USART_module_config: the clock (179), then the registers (Model/Line.v) *)
Definition USART_module_config_b (baud : Z) (par : parity) (b : board) : outcome board :=
  let b := set_APBENR1 b (APBENR1 b |' USART2EN) in
  on_periph 17 (USART_module_config baud par) b.
(** DRV:225-229  USART_set_and_enable_interrupts; modbus_driver_config.h:27 *)
Definition USART_set_and_enable_interrupts (b : board) : board := NVIC_EnableIRQ USART2_IRQn (NVIC_SetPriority USART2_IRQn 10 b).
(** DRV:230-241  TIMER7_init; modbus_driver_config.h:61 *)
Definition TIMER7_init_b (baud : Z) (b : board) : outcome board :=
  let b := set_APBENR1 b (APBENR1 b |' TIM7EN) in
  let* b := on_periph 5 (TIMER7_init baud) b in
  Ok (NVIC_EnableIRQ TIM7_IRQn (NVIC_SetPriority TIM7_IRQn 10 b)).
(** DRV:71-79  slave_usart_init, master_usart_init *)
Definition driver_init (baud : Z) (par : parity) (b : board) : outcome board :=
  let b := USART_GPIO_init b in
  let* b := USART_module_config_b baud par b in
  let b := USART_set_and_enable_interrupts b in
  TIMER7_init_b baud b.

(** CI:11-25; the rest of core_init: Model/Clock.v *)
Definition core_init_head (b : board) : board :=
  let b := set_APBENR2 b (APBENR2 b |' SYSCFGEN) in
  let b := set_APBENR2 b (APBENR2 b |' APBENR1_PWREN) in
  let b := NVIC_SetPriority SysTick_IRQn 3 b in
  set_CFGR1 b (CFGR1 b |' (UCPD1_STROBE |' UCPD2_STROBE)).

(** LED_driver.c:13-27 (examples/STM32G070RB_MODBUS_SLAVE/Core/Src); LED_driver.h:22-26 *)
Definition LED_init (b : board) : board :=
  let b := set_IOPENR b (IOPENR b |' GPIOAEN) in
  let b := set_MODER b (MODER b &~ MODE5) in
  set_MODER b (MODER b |' MODE5_0).
Definition LED_on (b : board) : board := set_ODR b (ODR b |' OD5).
Definition LED_off (b : board) : board := set_ODR b (ODR b &~ OD5).
(** the slave's main.c:61-71 update_LED *)
Definition update_LED (LED_status : Z) (b : board) : board := if LED_status =? 1 then LED_on b else LED_off b.

(** the start of the main programs: slave, main.c:47-49 (modbus_slave_init calls slave_usart_init with 115200, NONE); master, main.c:47-48 (115200, ODD) *)
Definition slave_start (b : board) : outcome board := driver_init 115200 NONE (LED_init (core_init_head b)).
Definition master_start (b : board) : outcome board := driver_init 115200 ODD (core_init_head b).

(** reset values (RM0454, Cortex-M0+): port A's MODER 0xEBFFFFFF (analog, PA13 and PA14 for the debugger) *)
Definition board_reset : board := mk_board 0 0 0 0xEBFFFFFF 0 0 0 0 (fun _ => 0) (fun _ => 0) periph_reset.
