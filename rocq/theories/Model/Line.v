(** The drivers' initialisation at register level, and the bits on the line.
    DRV = examples/STM32G070RB_MODBUS_SLAVE/Core/Src/modbus_driver_interface.c; the master's driver
    (examples/STM32G070RB_MODBUS_MASTER/Drivers/STM32G0_Drivers/modbus_driver_interface.c) has the same text in
    USART_module_config, get_RTOR_value, TIMER7_init, get_ARR_value.  Bit positions: Drivers/CMSIS/Device/stm32g070xx.h.
    The behaviour of the peripheral (what the bits mean, which bits can be written while it is enabled, the receiver)
    is hardware, written from ST's reference manual RM0454, not code of the repository. *)
From Coq Require Export List ZArith Bool Lia.
From Verif Require Export Model.Base Model.Driver.
Export ListNotations.
Open Scope Z_scope.

(** src/modbus_public_type.h:39-44 *)
Inductive parity := NONE | ODD | EVEN.

(** ** Registers *)
Record periph := mk_periph { CR1 : Z; CR2 : Z; CR3 : Z; BRR : Z; RTOR : Z; T_CR1 : Z; T_DIER : Z; T_PSC : Z; T_ARR : Z }.
(** reset values (RM0454) *)
Definition periph_reset : periph := mk_periph 0 0 0 0 0 0 0 0 65535.
(** stm32g070xx.h:6791-6866 *)
Definition CR1_UE := 0x1. Definition CR1_RE := 0x4. Definition CR1_TE := 0x8. Definition CR1_RTOIE := 0x4000000.
Definition CR1_PCE := 0x400. Definition CR1_PS := 0x200. Definition CR1_M0 := 0x1000. Definition CR1_M1 := 0x10000000.
Definition CR1_DEAT_3 := 0x1000000. Definition CR1_DEDT_3 := 0x80000.
(** stm32g070xx.h:6905-6938 *)
Definition CR2_STOP_1 := 0x2000. Definition CR2_RTOEN := 0x800000.
(** stm32g070xx.h:6980-6988 *)
Definition CR3_OVRDIS := 0x1000. Definition CR3_DEM := 0x4000.
(** stm32g070xx.h:5941-5946, 6076-6078 *)
Definition T_OPM := 0x8. Definition T_URS := 0x4. Definition T_UIE := 0x1.
(** bits the hardware does not change while the USART is enabled (UE = 1): word length, parity, oversampling, DE times; stop bits; overrun, DE mode; all of BRR *)
Definition CR1_locked := 0x1000 + 0x10000000 + 0x400 + 0x200 + 0x8000 + 0x3E00000 + 0x1F0000.
Definition CR2_locked := 0x3000.
Definition CR3_locked := 0x1000 + 0x4000.
Definition enabled (p : periph) : bool := Z.testbit (CR1 p) 0.
Definition write_bits (locked : Z) (p : periph) (old new : Z) : Z := if enabled p then Z.lor (Z.land (u32 new) (Z.lnot locked)) (Z.land old locked) else u32 new.
Definition set_CR1 (p : periph) (v : Z) : periph := mk_periph (write_bits CR1_locked p (CR1 p) v) (CR2 p) (CR3 p) (BRR p) (RTOR p) (T_CR1 p) (T_DIER p) (T_PSC p) (T_ARR p).
Definition set_CR2 (p : periph) (v : Z) : periph := mk_periph (CR1 p) (write_bits CR2_locked p (CR2 p) v) (CR3 p) (BRR p) (RTOR p) (T_CR1 p) (T_DIER p) (T_PSC p) (T_ARR p).
Definition set_CR3 (p : periph) (v : Z) : periph := mk_periph (CR1 p) (CR2 p) (write_bits CR3_locked p (CR3 p) v) (BRR p) (RTOR p) (T_CR1 p) (T_DIER p) (T_PSC p) (T_ARR p).
Definition set_BRR (p : periph) (v : Z) : periph := mk_periph (CR1 p) (CR2 p) (CR3 p) (if enabled p then BRR p else v mod 65536) (RTOR p) (T_CR1 p) (T_DIER p) (T_PSC p) (T_ARR p).
Definition set_RTOR (p : periph) (v : Z) : periph := mk_periph (CR1 p) (CR2 p) (CR3 p) (BRR p) (u32 v) (T_CR1 p) (T_DIER p) (T_PSC p) (T_ARR p).
Definition set_timer (p : periph) (cr1 dier psc arr : Z) : periph := mk_periph (CR1 p) (CR2 p) (CR3 p) (BRR p) (RTOR p) (u32 cr1) (u32 dier) (psc mod 65536) (arr mod 65536).
Notation "a |' b" := (Z.lor a b) (at level 50, left associativity).
Notation "a &~ b" := (Z.land a (Z.lnot b)) (at level 40, left associativity).

(** DRV:180-200: the part of USART_module_config that sets CR1 (without UE), CR2, CR3 *)
Definition USART_set_CR (par : parity) (p : periph) : periph :=
  let p := set_CR1 p (CR1 p |' (CR1_RE |' CR1_TE |' CR1_RTOIE)) in
  let p :=
    match par with
    | NONE =>
        let p := set_CR1 p (CR1 p &~ (CR1_PCE |' CR1_PS |' CR1_M0)) in
        set_CR2 p (CR2 p |' CR2_STOP_1)
    | ODD => set_CR1 p (CR1 p |' (CR1_PCE |' CR1_PS |' CR1_M0))
    | EVEN =>
        let p := set_CR1 p (CR1 p &~ CR1_PS) in
        set_CR1 p (CR1 p |' (CR1_PCE |' CR1_M0))
    end in
  let p := set_CR1 p (CR1 p |' (CR1_DEAT_3 |' CR1_DEDT_3)) in
  let p := set_CR2 p (CR2 p |' CR2_RTOEN) in
  set_CR3 p (CR3 p |' (CR3_OVRDIS |' CR3_DEM)).
(** DRV:176-206  USART_module_config (clock enable: Model/Board.v); modbus_driver_config.h: MODBUS_USART_CLK_FREQ 64000000.  A division by zero is undefined. *)
Definition USART_module_config (baud : Z) (par : parity) (p : periph) : outcome periph :=
  let p := USART_set_CR par p in
  if baud =? 0 then UB else
  let p := set_BRR p (64000000 / baud) in
  let* r := get_RTOR_value baud in
  let p := set_RTOR p (RTOR p |' r) in
  Ok (set_CR1 p (CR1 p |' CR1_UE)).
(** DRV:230-241  TIMER7_init (clock enable and NVIC: Model/Board.v) *)
Definition TIMER7_init (baud : Z) (p : periph) : outcome periph :=
  let* arr := get_ARR_value baud in
  Ok (set_timer p (T_CR1 p |' (T_OPM |' T_URS)) T_UIE (64000000 / 1000000 - 1) arr).
(** DRV:71-79  slave_usart_init / master_usart_init (GPIO and NVIC: Model/Board.v; the flag FRAME_DETECTION_FLAG is in Model/Uart.v) *)
Definition usart_init (baud : Z) (par : parity) (p : periph) : outcome periph :=
  let* p := USART_module_config baud par p in
  TIMER7_init baud p.

(** ** The line (hardware) *)
(** character format: data bits, parity (Some true = odd, Some false = even), stop bits in half bits *)
Record fmt := mk_fmt { f_data : nat; f_parity : option bool; f_stop2 : nat }.
Definition word_length (p : periph) : nat := if Z.testbit (CR1 p) 28 then 7%nat else if Z.testbit (CR1 p) 12 then 9%nat else 8%nat.
Definition format_of (p : periph) : fmt :=
  let pce := Z.testbit (CR1 p) 10 in
  mk_fmt (if pce then word_length p - 1 else word_length p)
         (if pce then Some (Z.testbit (CR1 p) 9) else None)
         (match Z.testbit (CR2 p) 13, Z.testbit (CR2 p) 12 with false, false => 2 | false, true => 1 | true, false => 4 | true, true => 3 end).
Definition ones (l : list bool) : bool := fold_right xorb false l.
Definition data_bits (n : nat) (b : Z) : list bool := map (fun i => Z.testbit b (Z.of_nat i)) (seq 0 n).
(** a character on the line: start bit, data, lowest bit first, parity, stop bits *)
Definition char_on_line (f : fmt) (b : Z) : list bool :=
  let d := data_bits (f_data f) b in
  [false] ++ d ++ match f_parity f with Some odd => [xorb odd (ones d)] | None => [] end ++ repeat true (f_stop2 f / 2).
(** the receiver: waits for a start bit; collects the word; the first stop bit; after a framing error it waits for the line to be high.
    Simplification: one sample per bit, receiver and transmitter in step *)
Inductive rstate := RHunt | RLow | RWord (acc : list bool).
Record rchar := mk_rchar { c_word : list bool; c_pe : bool; c_fe : bool }.
Definition word_bits (f : fmt) : nat := (f_data f + match f_parity f with Some _ => 1 | None => 0 end)%nat.
Definition rx_bit (f : fmt) (s : rstate) (x : bool) : rstate * list rchar :=
  match s with
  | RHunt => (if x then RHunt else RWord [], [])
  | RLow => (if x then RHunt else RLow, [])
  | RWord acc =>
      if (length acc <? word_bits f)%nat then (RWord (acc ++ [x]), [])
      else (if x then RHunt else RLow, [mk_rchar acc (match f_parity f with Some odd => negb (Bool.eqb (ones acc) odd) | None => false end) (negb x)])
  end.
Fixpoint rx_bits (f : fmt) (s : rstate) (l : list bool) : rstate * list rchar :=
  match l with
  | [] => (s, [])
  | x :: l => let '(s1, c1) := rx_bit f s x in let '(s2, c2) := rx_bits f s1 l in (s2, c1 ++ c2)
  end.
(** the value in RDR (parity bit included) *)
Fixpoint bits_value (l : list bool) : Z := match l with [] => 0 | x :: l => (if x then 1 else 0) + 2 * bits_value l end.
Definition rdr (c : rchar) : Z := bits_value (c_word c).
(** DRV:119 [rx_msg->data[rx_msg->len] = MODBUS_USART->RDR]: the byte stored; the handler reads no error flag *)
Definition stored (c : rchar) : Z := u8 (rdr c).
