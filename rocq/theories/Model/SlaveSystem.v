(** The slave firmware: the library (Model/Slave.v) together with the STM32 example driver
    examples/STM32G070RB_MODBUS_SLAVE/Core/Src/modbus_driver_interface.c (called DRV below) and the UART and timer
    registers the driver uses.  In contrast to Model/Driver.v the driver works on the library's own buffers:
    it stores received bytes in the request buffer and fetches the bytes to transmit from the response buffer at the time of
    each interrupt; DRV:81-90 [send] is executed statement by statement, so interrupts may occur inside it. *)
From Verif Require Export Model.Slave Model.Uart.

(** the statements of DRV:85-88 still to be executed by the main program; [n] = msg_len *)
Inductive dpc := D85 (n : Z) | D86 (n : Z) | D87 | D88.
Record sys := mk_sys { y_lib : sconf; y_u : uart; y_sub : option dpc }.

Inductive yact :=
| AMain                                     (* the main program executes its next line *)
| AUsart | ATimer                           (* the interrupt controller starts a handler *)
| AApp (bits : list bool) (regs : list Z)   (* the application changes its variables *)
| HRx (b : Z)                               (* a character arrives on the line *)
| HShift                                    (* the transmitter takes the byte from TDR and puts it on the line *)
| HRto                                      (* receiver time-out: RTOF is set *)
| HTim.                                     (* the one-pulse timer expires, if it is running *)
Inductive yitem := YLib (x : sitem) | YLine (b : Z).

(** an interrupt handler calls the library, or stores a byte for it *)
Definition y_event (e : sev) (k : sconf) : outcome sconf :=
  let* s := s_event e (sc_s k) in Ok (mk_sconf s (sc_pc k)).

(** DRV:83-88.  Line 197 of modbus_slave.c calls send(resp.data, resp.len) *)
Definition call_send (k : sconf) : option dpc :=
  let r := m_resp (s_msg (sc_s k)) in
  if rr_ptr r && (0 <? rr_len r) then Some (D85 (rr_len r)) else None.
Definition send_line (p : dpc) (k : sconf) (u : uart) : outcome (option dpc * uart) :=
  match p with
  | D85 n => Ok (Some (D86 n), mk_uart 0 (u_last u) (u_det u) (u_tdr u) (u_rdr u) (u_txeie u) (u_rtof u) (u_cen u) (u_uif u))
  | D86 n => Ok (Some D87, mk_uart (u_cur u) (n - 1) (u_det u) (u_tdr u) (u_rdr u) (u_txeie u) (u_rtof u) (u_cen u) (u_uif u))
  | D87 => let* b := rd (m_resp (s_msg (sc_s k))) 0 in
           Ok (Some D88, mk_uart (u_cur u) (u_last u) (u_det u) (Some b) (u_rdr u) (u_txeie u) (u_rtof u) (u_cen u) (u_uif u))
  | D88 => Ok (None, mk_uart (u_cur u) (u_last u) (u_det u) (u_tdr u) (u_rdr u) true (u_rtof u) (u_cen u) (u_uif u))
  end.

(** DRV:116-128 (RXNE).  rx_msg is NULL before enable_rcev, the callbacks are NULL before they are subscribed: UB. *)
Definition y_usart_rx (k : sconf) (u : uart) : outcome (sconf * uart * list yitem) :=
  match u_rdr u with
  | None => Ok (k, u, [])
  | Some b =>
      if s_rx (sc_s k)
      then let* k1 := y_event (SRx b) k in
           let u1 := mk_uart (u_cur u) (u_last u) (u_det u) (u_tdr u) None (u_txeie u) (u_rtof u) true (u_uif u) in
           if u_det u
           then if s_sub (sc_s k)
                then let* k2 := y_event SFrameErr k1 in Ok (k2, u1, [YLib (TEv (SRx b)); YLib (TEv SFrameErr)])
                else UB
           else Ok (k1, u1, [YLib (TEv (SRx b))])
      else UB
  end.
(** DRV:129-142 (TXE): the byte is fetched from the response buffer now *)
Definition y_usart_tx (k : sconf) (u : uart) : outcome (sconf * uart * list yitem) :=
  match u_tdr u with
  | Some _ => Ok (k, u, [])
  | None =>
      if u_cur u <? u_last u
      then let* b := rd (m_resp (s_msg (sc_s k))) (u_cur u + 1) in
           Ok (k, mk_uart (u_cur u + 1) (u_last u) (u_det u) (Some b) (u_rdr u) (u_txeie u) (u_rtof u) (u_cen u) (u_uif u), [])
      else if s_sub (sc_s k)
           then let* k1 := y_event STxDone k in
                Ok (k1, mk_uart (u_cur u) (u_last u) (u_det u) (u_tdr u) (u_rdr u) false (u_rtof u) (u_cen u) (u_uif u), [YLib (TEv STxDone)])
           else UB
  end.
(** DRV:143-151 (RTOF; the flag is not cleared here) *)
Definition y_usart_rto (k : sconf) (u : uart) : outcome (sconf * uart * list yitem) :=
  if u_rtof u
  then let u1 := mk_uart (u_cur u) (u_last u) true (u_tdr u) (u_rdr u) (u_txeie u) (u_rtof u) (u_cen u) (u_uif u) in
       if s_sub (sc_s k)
       then let* k1 := y_event ST15 k in Ok (k1, u1, [YLib (TEv ST15)])
       else Ok (k, u1, [])
  else Ok (k, u, []).
(** DRV:113-152 MODBUS_USART_IRQHandler.  Simplification: one step with respect to the hardware (a flag that is set while the
    handler runs is as if set before it, or causes the next call) and to the timer's handler (same priority, modbus_driver_config.h:27, 57);
    Model/SlaveHandlers.v has the statements. *)
Definition y_usart (k : sconf) (u : uart) : outcome (sconf * uart * list yitem) :=
  let* '(k, u, t1) := y_usart_rx k u in
  let* '(k, u, t2) := y_usart_tx k u in
  let* '(k, u, t3) := y_usart_rto k u in
  Ok (k, u, t1 ++ t2 ++ t3).
(** the UART requests an interrupt: RXNE and RXNEIE, TXE and TXEIE, RTOF and RTOIE *)
Definition usart_pending (k : sconf) (u : uart) : bool :=
  (match u_rdr u with Some _ => s_rx (sc_s k) | None => false end) ||
  (match u_tdr u with None => u_txeie u | Some _ => false end) || u_rtof u.

(** DRV:154-163 MODBUS_TIMER_IRQHandler *)
Definition y_timer (k : sconf) (u : uart) : outcome (sconf * uart * list yitem) :=
  if u_uif u
  then if s_sub (sc_s k)
       then let* k1 := y_event ST35 k in
            Ok (k1, mk_uart (u_cur u) (u_last u) false (u_tdr u) (u_rdr u) (u_txeie u) false (u_cen u) false, [YLib (TEv ST35)])
       else UB
  else Ok (k, u, []).

Definition y_act (c : cfg) (a : yact) (y : sys) : outcome (sys * list yitem) :=
  let k := y_lib y in let u := y_u y in
  match a with
  | AMain =>
      match y_sub y with
      | Some p => let* '(p', u') := send_line p k u in Ok (mk_sys k u' p', [])
      | None =>
          let* '(k', t) := s_act c SStep k in
          Ok (mk_sys k' u (match sc_pc k with Some L197 => call_send k | _ => None end), map YLib t)
      end
  | AUsart =>
      if usart_pending k u then let* '(k', u', t) := y_usart k u in Ok (mk_sys k' u' (y_sub y), t) else Ok (y, [])
  | ATimer => let* '(k', u', t) := y_timer k u in Ok (mk_sys k' u' (y_sub y), t)
  | AApp b r => let* k' := y_event (SApp b r) k in Ok (mk_sys k' u (y_sub y), [YLib (TEv (SApp b r))])
  (* hardware: a character received while RXNE is set overwrites RDR (CR3.OVRDIS is set, DRV:199) *)
  | HRx b => Ok (mk_sys k (mk_uart (u_cur u) (u_last u) (u_det u) (u_tdr u) (Some (u8 b)) (u_txeie u) (u_rtof u) (u_cen u) (u_uif u)) (y_sub y), [])
  | HShift =>
      match u_tdr u with
      | Some b => Ok (mk_sys k (mk_uart (u_cur u) (u_last u) (u_det u) None (u_rdr u) (u_txeie u) (u_rtof u) (u_cen u) (u_uif u)) (y_sub y), [YLine b])
      | None => Ok (y, [])
      end
  | HRto => Ok (mk_sys k (mk_uart (u_cur u) (u_last u) (u_det u) (u_tdr u) (u_rdr u) (u_txeie u) true (u_cen u) (u_uif u)) (y_sub y), [])
  (* OPM: CEN is cleared by the update event *)
  | HTim =>
      if u_cen u
      then Ok (mk_sys k (mk_uart (u_cur u) (u_last u) (u_det u) (u_tdr u) (u_rdr u) (u_txeie u) (u_rtof u) false true) (y_sub y), [])
      else Ok (y, [])
  end.
Fixpoint y_run (c : cfg) (l : list yact) (y : sys) : outcome (sys * list yitem) :=
  match l with
  | [] => Ok (y, [])
  | a :: l =>
      let* '(y1, t1) := y_act c a y in
      let* '(y2, t2) := y_run c l y1 in
      Ok (y2, t1 ++ t2)
  end.
