(** The STM32 example driver, examples/STM32G070RB_MODBUS_SLAVE/Core/Src/modbus_driver_interface.c (called DRV below);
    the master's example driver has the same send / receive / transmit code.  Also the 16-bit variant of the
    slave's range check (AVR targets, examples/config/AVR). *)
From Verif Require Export Model.Types.

(** DRV:16-36: tx_buf (cur_byte_ptr, last_byte_ptr as indices into the message handed to send), rx_msg,
    FRAME_DETECTION_FLAG (true = FRAME_RECEIVED), TXEIE bit of CR1 *)
Record drv := mk_drv {
  d_txmsg : list Z; d_cur : Z; d_last : Z; d_txeie : bool; d_frame_received : bool; d_rx : rr }.

(** what the driver does: write the transmit register, call the library's callbacks *)
Inductive dout := DTdr (b : Z) | DTxDone | DT15 | DT35 | DFrameErr.

(** DRV:81-90  slave_usart_send.  The message is [data] (None = NULL), msg_len its uint8_t length. *)
Definition usart_send (data : option (list Z)) (msg_len : Z) (d : drv) : outcome (drv * list dout) :=
  match data with
  | None => Ok (d, [])
  | Some b =>
      if 0 <? msg_len
      then let* x := aget b 0 in
           Ok (mk_drv b 0 (msg_len - 1) true (d_frame_received d) (d_rx d), [DTdr x])
      else Ok (d, [])
  end.

(** DRV:113-152  MODBUS_USART_IRQHandler; the status register: [rxne = Some b] when RXNE is set with data b,
    [txe], [rtof].  The TXE part is entered whenever TXE is set, whatever caused the interrupt. *)
Definition usart_irq_rx (rxne : option Z) (d : drv) : outcome (drv * list dout) :=
  match rxne with
  | None => Ok (d, [])
  | Some b =>
      let* r := wr (d_rx d) (rr_len (d_rx d)) (u8 b) in
      Ok (mk_drv (d_txmsg d) (d_cur d) (d_last d) (d_txeie d) (d_frame_received d) (set_len r (u8 (rr_len r + 1))),
          if d_frame_received d then [DFrameErr] else [])
  end.
Definition usart_irq_tx (txe : bool) (d : drv) : outcome (drv * list dout) :=
  if txe
  then if d_cur d <? d_last d
       then let* x := aget (d_txmsg d) (d_cur d + 1) in
            Ok (mk_drv (d_txmsg d) (d_cur d + 1) (d_last d) (d_txeie d) (d_frame_received d) (d_rx d), [DTdr x])
       else Ok (mk_drv (d_txmsg d) (d_cur d) (d_last d) false (d_frame_received d) (d_rx d), [DTxDone])
  else Ok (d, []).
Definition usart_irq_rto (rtof : bool) (d : drv) : drv * list dout :=
  if rtof
  then (mk_drv (d_txmsg d) (d_cur d) (d_last d) (d_txeie d) true (d_rx d), [DT15])
  else (d, []).
Record irq := mk_irq { i_rxne : option Z; i_txe : bool; i_rtof : bool }.
Definition usart_irq (i : irq) (d : drv) : outcome (drv * list dout) :=
  let* '(d, o1) := usart_irq_rx (i_rxne i) d in
  let* '(d, o2) := usart_irq_tx (i_txe i) d in
  let '(d, o3) := usart_irq_rto (i_rtof i) d in
  Ok (d, o1 ++ o2 ++ o3).

(** DRV:154-163  MODBUS_TIMER_IRQHandler *)
Definition timer_irq (d : drv) : drv * list dout :=
  (mk_drv (d_txmsg d) (d_cur d) (d_last d) (d_txeie d) false (d_rx d), [DT35]).

Fixpoint usart_irqs (l : list irq) (d : drv) : outcome (drv * list dout) :=
  match l with
  | [] => Ok (d, [])
  | i :: t =>
      let* '(d, o1) := usart_irq i d in
      let* '(d, o2) := usart_irqs t d in
      Ok (d, o1 ++ o2)
  end.

(** DRV:207-220  get_RTOR_value (uint32_t arithmetic) *)
Definition get_RTOR_value (baud : Z) : outcome Z :=
  if baud <=? 19200 then Ok 17
  else let q := baud / 9600 in
       let q := u32 (q * 83) in
       let q := q / 10 in
       Ok (if 0xFFFFFF <? q then 0xFFFFFF else q).

(** DRV:242-255  get_ARR_value; division by zero = UB *)
Definition get_ARR_value (baud : Z) : outcome Z :=
  if baud <=? 19200
  then let q := baud / 2400 in
       if q =? 0 then UB else Ok (16042 / q)
  else Ok 1750.

(** src/slave_internall/modbus_slave_PDU.c:683 on a target with [w]-bit int (w = 16 or 32): uint16_t operands are
    promoted to int when int has more than 16 bits, otherwise to unsigned int, and the sum wraps modulo 2^w *)
Definition range_exceeded_w (w : Z) (adr data_qty app_data_qty : Z) : bool :=
  let sum := if 16 <? w then adr + data_qty else (adr + data_qty) mod 2 ^ 16 in
  app_data_qty <? sum.
