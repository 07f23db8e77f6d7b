(** State of the STM32 example drivers and of the UART and timer registers they use. *)
From Coq Require Import ZArith.
Open Scope Z_scope.

(** examples/STM32G070RB_MODBUS_SLAVE/Core/Src/modbus_driver_interface.c:32-35 and
    examples/STM32G070RB_MODBUS_MASTER/Drivers/STM32G0_Drivers/modbus_driver_interface.c:15-20, 27, 35 (FRAME_DETECTION_FLAG, tx_buf; the two pointers
    as indices: slave into the response buffer, master 256 * row + column of master_RTU_req_buf; their static value
    NULL, NULL is written 0, 0: the code only compares them and dereferences the current one when it is smaller)
    and the hardware: transmit data register ([None] = empty, i.e. TXE is set), receive data register ([Some b] = RXNE is
    set), TXEIE, RTOF, the timer's CEN and UIF.  RXNEIE is set by enable_rcev together with rx_msg, which is part of the library
    state in this model ([s_rx], [mm_rx]).  RTOIE is set by init. *)
Record uart := mk_uart {
  u_cur : Z; u_last : Z; u_det : bool;
  u_tdr : option Z; u_rdr : option Z; u_txeie : bool; u_rtof : bool; u_cen : bool; u_uif : bool }.

(** usart_init (slave :71-79, master :70-77) and reset values: transmit register empty, nothing received, no interrupt pending *)
Definition uart_init : uart := mk_uart 0 0 false None None false false false false.
