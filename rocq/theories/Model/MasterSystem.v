(** The master firmware: the library (Model/Master.v) together with the STM32 example driver
    examples/STM32G070RB_MODBUS_MASTER/Drivers/STM32G0_Drivers/modbus_driver_interface.c (called DRV below), its UART and timer, and the SysTick
    handler and main loop of examples/STM32G070RB_MODBUS_MASTER/Core/Src/main.c.  The driver works on the library's own buffers: it stores received
    bytes in the response buffer and fetches the bytes to transmit from the request buffer at the time of each interrupt; DRV:79-92
    [send] is executed statement by statement, so interrupts may occur inside it. *)
From Verif Require Export Model.Master Model.Uart.

(** the statements of DRV:81-91 still to be executed by the main program; tx_msg = row [i] of master_RTU_req_buf, msg_len = [n] *)
Inductive wpc := W83 (i : nat) (n : Z) | W84 (i : nat) (n : Z) | W85 (i : nat) | W86 | W89 | W90 | W91.
Record mfw := mk_mfw { w_lib : mconf; w_u : uart; w_sub : option wpc }.

Inductive wact :=
| WMain                  (* the main program executes its next line *)
| WUsart | WTimer        (* the interrupt controller starts a handler *)
| WTick                  (* SysTick, every millisecond *)
| WReq (a : api)         (* the application calls a request function *)
| WRx (b : Z)            (* a character arrives on the line *)
| WShift                 (* the transmitter takes the byte from TDR and puts it on the line *)
| WRto                   (* receiver time-out: RTOF is set *)
| WTim.                  (* the one-pulse timer expires, if it is running *)
Inductive witem := WLib (x : mitem) | WLine (b : Z).

(** an interrupt handler (or the application) calls the library, or stores a byte for it *)
Definition w_event (c : cfg) (e : mev) (k : mconf) : outcome (mconf * list witem) :=
  let* '(k', t) := m_act c (MEv e) k in Ok (k', map WLib t).

(** element [p] of master_RTU_req_buf, reached by incrementing a pointer into a row: the end of the row is not crossed *)
Definition req_byte (k : mconf) (p : Z) : outcome Z :=
  if p mod 256 =? 0 then UB
  else let* m := get_msg (mc_s k) (Z.to_nat (p / 256)) in rd (m_req m) (p mod 256).

(** DRV:81.  Line 404 of modbus_master.c calls send(req.data, req.len) *)
Definition w_call_send (k : mconf) : outcome (option wpc) :=
  let* '(i, m) := cur_msg (mc_s k) in
  let r := m_req m in
  Ok (Some (if rr_ptr r && (0 <? rr_len r) then W83 i (rr_len r) else W89)).
(** DRV:83-91 *)
Definition w_send_line (p : wpc) (k : mconf) (u : uart) : outcome (option wpc * uart) :=
  match p with
  | W83 i n => Ok (Some (W84 i n), mk_uart (256 * Z.of_nat i) (u_last u) (u_det u) (u_tdr u) (u_rdr u) (u_txeie u) (u_rtof u) (u_cen u) (u_uif u))
  | W84 i n => Ok (Some (W85 i), mk_uart (u_cur u) (256 * Z.of_nat i + n - 1) (u_det u) (u_tdr u) (u_rdr u) (u_txeie u) (u_rtof u) (u_cen u) (u_uif u))
  | W85 i => let* m := get_msg (mc_s k) i in
             let* b := rd (m_req m) 0 in
             Ok (Some W86, mk_uart (u_cur u) (u_last u) (u_det u) (Some b) (u_rdr u) (u_txeie u) (u_rtof u) (u_cen u) (u_uif u))
  | W86 => Ok (Some W89, mk_uart (u_cur u) (u_last u) (u_det u) (u_tdr u) (u_rdr u) true (u_rtof u) (u_cen u) (u_uif u))
  | W89 => Ok (Some W90, mk_uart (u_cur u) (u_last u) false (u_tdr u) (u_rdr u) (u_txeie u) (u_rtof u) (u_cen u) (u_uif u))
  | W90 => Ok (Some W91, mk_uart (u_cur u) (u_last u) (u_det u) (u_tdr u) (u_rdr u) (u_txeie u) (u_rtof u) false (u_uif u))
  | W91 => Ok (None, mk_uart (u_cur u) (u_last u) (u_det u) (u_tdr u) (u_rdr u) (u_txeie u) false (u_cen u) (u_uif u))
  end.

(** DRV:123-134 (RXNE).  rx_msg is NULL before the first enable_rcev, the callbacks are NULL before they are subscribed: UB. *)
Definition w_usart_rx (c : cfg) (k : mconf) (u : uart) : outcome (mconf * uart * list witem) :=
  match u_rdr u with
  | None => Ok (k, u, [])
  | Some b =>
      match mm_rx (mc_s k) with
      | None => UB
      | Some _ =>
          let* '(k1, t1) := w_event c (MRx b) k in
          let u1 := mk_uart (u_cur u) (u_last u) (u_det u) (u_tdr u) None (u_txeie u) (u_rtof u) true (u_uif u) in
          if u_det u
          then if mm_sub (mc_s k)
               then let* '(k2, t2) := w_event c MFrameErr k1 in Ok (k2, u1, t1 ++ t2)
               else UB
          else Ok (k1, u1, t1)
      end
  end.
(** DRV:135-148 (TXE): the byte is fetched from the request buffer now.  Simplification: the comparison of pointers into different rows, or of
    a pointer with NULL, is that of the addresses. *)
Definition w_usart_tx (c : cfg) (k : mconf) (u : uart) : outcome (mconf * uart * list witem) :=
  match u_tdr u with
  | Some _ => Ok (k, u, [])
  | None =>
      if u_cur u <? u_last u
      then let* b := req_byte k (u_cur u + 1) in
           Ok (k, mk_uart (u_cur u + 1) (u_last u) (u_det u) (Some b) (u_rdr u) (u_txeie u) (u_rtof u) (u_cen u) (u_uif u), [])
      else if mm_sub (mc_s k)
           then let* '(k1, t1) := w_event c MTxDone k in
                Ok (k1, mk_uart (u_cur u) (u_last u) (u_det u) (u_tdr u) (u_rdr u) false (u_rtof u) (u_cen u) (u_uif u), t1)
           else UB
  end.
(** DRV:149-157 (RTOF; the flag is cleared here) *)
Definition w_usart_rto (c : cfg) (k : mconf) (u : uart) : outcome (mconf * uart * list witem) :=
  if u_rtof u
  then let u1 := mk_uart (u_cur u) (u_last u) true (u_tdr u) (u_rdr u) (u_txeie u) false (u_cen u) (u_uif u) in
       if mm_sub (mc_s k)
       then let* '(k1, t1) := w_event c MT15 k in Ok (k1, u1, t1)
       else Ok (k, u1, [])
  else Ok (k, u, []).
(** DRV:120-158 MODBUS_USART_IRQHandler.  Simplification: one step with respect to the hardware (a flag that is set while the
    handler runs is as if set before it, or causes the next call), to the timer's handler (same priority, modbus_driver_config.h:27, 57) and to SysTick
    (which shares only the response timer with the main program).
    Model/MasterHandlers.v has the statements. *)
Definition w_usart (c : cfg) (k : mconf) (u : uart) : outcome (mconf * uart * list witem) :=
  let* '(k, u, t1) := w_usart_rx c k u in
  let* '(k, u, t2) := w_usart_tx c k u in
  let* '(k, u, t3) := w_usart_rto c k u in
  Ok (k, u, t1 ++ t2 ++ t3).
(** the UART requests an interrupt: RXNE and RXNEIE, TXE and TXEIE, RTOF and RTOIE *)
Definition w_pending (k : mconf) (u : uart) : bool :=
  (match u_rdr u, mm_rx (mc_s k) with Some _, Some _ => true | _, _ => false end) ||
  (match u_tdr u with None => u_txeie u | Some _ => false end) || u_rtof u.

(** DRV:160-169 MODBUS_TIMER_IRQHandler *)
Definition w_timer (c : cfg) (k : mconf) (u : uart) : outcome (mconf * uart * list witem) :=
  if u_uif u
  then if mm_sub (mc_s k)
       then let* '(k1, t1) := w_event c MT35 k in
            Ok (k1, mk_uart (u_cur u) (u_last u) false (u_tdr u) (u_rdr u) (u_txeie u) (u_rtof u) (u_cen u) false, t1)
       else UB
  else Ok (k, u, []).

(** main.c:53-58 (update_modbus_master_manager in a loop), 87-95 SysTick_Handler *)
Definition w_act (c : cfg) (a : wact) (w : mfw) : outcome (mfw * list witem) :=
  let k := w_lib w in let u := w_u w in
  match a with
  | WMain =>
      match w_sub w with
      | Some p => let* '(p', u') := w_send_line p k u in Ok (mk_mfw k u' p', [])
      | None =>
          let* '(k', t) := m_act c MStep k in
          let* p := match mc_pc k with Some M404 => w_call_send k | _ => Ok None end in
          Ok (mk_mfw k' u p, map WLib t)
      end
  | WUsart =>
      if w_pending k u then let* '(k', u', t) := w_usart c k u in Ok (mk_mfw k' u' (w_sub w), t) else Ok (w, [])
  | WTimer => let* '(k', u', t) := w_timer c k u in Ok (mk_mfw k' u' (w_sub w), t)
  | WTick => let* '(k', t) := w_event c MTick k in Ok (mk_mfw k' u (w_sub w), t)
  | WReq a => let* '(k', t) := w_event c (MReq a) k in Ok (mk_mfw k' u (w_sub w), t)
  (* hardware: a character received while RXNE is set overwrites RDR (CR3.OVRDIS is set, DRV:205) *)
  | WRx b => Ok (mk_mfw k (mk_uart (u_cur u) (u_last u) (u_det u) (u_tdr u) (Some (u8 b)) (u_txeie u) (u_rtof u) (u_cen u) (u_uif u)) (w_sub w), [])
  | WShift =>
      match u_tdr u with
      | Some b => Ok (mk_mfw k (mk_uart (u_cur u) (u_last u) (u_det u) None (u_rdr u) (u_txeie u) (u_rtof u) (u_cen u) (u_uif u)) (w_sub w), [WLine b])
      | None => Ok (w, [])
      end
  | WRto => Ok (mk_mfw k (mk_uart (u_cur u) (u_last u) (u_det u) (u_tdr u) (u_rdr u) (u_txeie u) true (u_cen u) (u_uif u)) (w_sub w), [])
  (* OPM: CEN is cleared by the update event *)
  | WTim =>
      if u_cen u
      then Ok (mk_mfw k (mk_uart (u_cur u) (u_last u) (u_det u) (u_tdr u) (u_rdr u) (u_txeie u) (u_rtof u) false true) (w_sub w), [])
      else Ok (w, [])
  end.
Fixpoint w_run (c : cfg) (l : list wact) (w : mfw) : outcome (mfw * list witem) :=
  match l with
  | [] => Ok (w, [])
  | a :: l =>
      let* '(w1, t1) := w_act c a w in
      let* '(w2, t2) := w_run c l w1 in
      Ok (w2, t1 ++ t2)
  end.
