(** The master firmware with the interrupt handlers executed statement by statement: the UART and the timer go on while a handler runs, and the
    driver's handlers interrupt SysTick's (C98).  examples/STM32G070RB_MODBUS_MASTER/Drivers/STM32G0_Drivers/modbus_driver_interface.c is called DRV,
    src/modbus_master.c LIB.  The main program and the request functions are those of Model/MasterSystem.v, except that DRV:96 (CR1 is read,
    then written) is two steps. *)
From Verif Require Export Model.MasterSystem.

(** the statement executed next in DRV:120-158 (U...) or 160-169 (V...).  U125 reads RDR, U125s stores the byte *)
Inductive hpc :=
| U123 | U125 | U125s (b : Z) | U126 (b : Z) | U128 | U130 | U132 | U133
| U135 | U137 | U139 | U140 | U145 | U146
| U149 | U151 | U153 | U155 | U156
| V162 | V164 | V165 | V167.
(** LIB:385-391, called by SysTick_Handler: the test; the load, the store of the decremented value.
    Simplification: the handler's own variable update_timer, which nothing but the main program shares, is left out *)
Inductive tpc := K387 | K389 | K389s (v : Z).
(** DRV:96 [CR1 |= RXNEIE]: the load, the store of the value loaded (of which only TXEIE may change meanwhile) *)
Inductive cpc := E96 | E96s (txeie : bool).
(** [h_rxne]: RXNEIE *)
Record hfw := mk_hfw { h_fw : mfw; h_rxne : bool; h_irq : option hpc; h_tick : option tpc; h_cr1 : option cpc }.

(** one statement of a handler; [None]: it returns.  Read-modify-write of TIM7's CR1 and SR (133, 167) and, inside a handler, of USART2's CR1 (145) are one
    step: the other bits do not change.  132: the counter starts anew (no interrupt: URS, Model/Line.v) *)
Definition h_line (c : cfg) (p : hpc) (k : mconf) (u : uart) : outcome (option hpc * mconf * uart * list witem) :=
  match p with
  | U123 => Ok (match u_rdr u with Some _ => Some U125 | None => Some U135 end, k, u, [])
  | U125 => match mm_rx (mc_s k), u_rdr u with
            | None, _ => UB
            | Some _, Some b => Ok (Some (U125s b), k, mk_uart (u_cur u) (u_last u) (u_det u) (u_tdr u) None (u_txeie u) (u_rtof u) (u_cen u) (u_uif u), [])
            | Some _, None => Ok (Some U135, k, u, [])
            end
  | U125s b => match mm_rx (mc_s k) with
               | None => UB
               | Some i => let* m := get_msg (mc_s k) i in
                           let* r := wr (m_resp m) (rr_len (m_resp m)) (u8 b) in
                           let* s := put_msg (mc_s k) i (set_resp m r) in
                           Ok (Some (U126 b), mk_mconf s (mc_pc k), u, [])
               end
  | U126 b => match mm_rx (mc_s k) with
              | None => UB
              | Some i => let* m := get_msg (mc_s k) i in
                          let* s := put_msg (mc_s k) i (set_resp m (set_len (m_resp m) (u8 (rr_len (m_resp m) + 1)))) in
                          Ok (Some U128, mk_mconf s (mc_pc k), u, [WLib (MTEv (MRx b))])
              end
  | U128 => Ok (Some (if u_det u then U130 else U132), k, u, [])
  | U130 => if mm_sub (mc_s k) then let* '(k1, t) := w_event c MFrameErr k in Ok (Some U132, k1, u, t) else UB
  | U132 => Ok (Some U133, k, u, [])
  | U133 => Ok (Some U135, k, mk_uart (u_cur u) (u_last u) (u_det u) (u_tdr u) (u_rdr u) (u_txeie u) (u_rtof u) true (u_uif u), [])
  | U135 => Ok (match u_tdr u with None => Some U137 | Some _ => Some U149 end, k, u, [])
  | U137 => Ok (Some (if u_cur u <? u_last u then U139 else U145), k, u, [])
  | U139 => Ok (Some U140, k, mk_uart (u_cur u + 1) (u_last u) (u_det u) (u_tdr u) (u_rdr u) (u_txeie u) (u_rtof u) (u_cen u) (u_uif u), [])
  | U140 => let* b := req_byte k (u_cur u) in
            Ok (Some U149, k, mk_uart (u_cur u) (u_last u) (u_det u) (Some b) (u_rdr u) (u_txeie u) (u_rtof u) (u_cen u) (u_uif u), [])
  | U145 => Ok (Some U146, k, mk_uart (u_cur u) (u_last u) (u_det u) (u_tdr u) (u_rdr u) false (u_rtof u) (u_cen u) (u_uif u), [])
  | U146 => if mm_sub (mc_s k) then let* '(k1, t) := w_event c MTxDone k in Ok (Some U149, k1, u, t) else UB
  | U149 => Ok (if u_rtof u then Some U151 else None, k, u, [])
  | U151 => Ok (Some (if mm_sub (mc_s k) then U153 else U155), k, u, [])
  | U153 => let* '(k1, t) := w_event c MT15 k in Ok (Some U155, k1, u, t)
  | U155 => Ok (Some U156, k, mk_uart (u_cur u) (u_last u) true (u_tdr u) (u_rdr u) (u_txeie u) (u_rtof u) (u_cen u) (u_uif u), [])
  | U156 => Ok (None, k, mk_uart (u_cur u) (u_last u) (u_det u) (u_tdr u) (u_rdr u) (u_txeie u) false (u_cen u) (u_uif u), [])
  | V162 => Ok (if u_uif u then Some V164 else None, k, u, [])
  | V164 => if mm_sub (mc_s k) then let* '(k1, t) := w_event c MT35 k in Ok (Some V165, k1, u, t) else UB
  | V165 => Ok (Some V167, k, mk_uart (u_cur u) (u_last u) false (u_tdr u) (u_rdr u) (u_txeie u) (u_rtof u) (u_cen u) (u_uif u), [])
  | V167 => Ok (None, k, mk_uart (u_cur u) (u_last u) (u_det u) (u_tdr u) (u_rdr u) (u_txeie u) (u_rtof u) (u_cen u) false, [])
  end.
(** one statement of SysTick's handler; the tick counts as done with the last one *)
Definition t_line (p : tpc) (k : mconf) : option tpc * mconf * list witem :=
  match p with
  | K387 => if negb (mm_timer (mc_s k) =? 0) then (Some K389, k, []) else (None, k, [WLib (MTEv MTick)])
  | K389 => (Some (K389s (mm_timer (mc_s k))), k, [])
  | K389s v => (None, mk_mconf (m_set_timer (mc_s k) (v - 1)) (mc_pc k), [WLib (MTEv MTick)])
  end.

Inductive hact :=
| HMain | HReq (a : api)      (* the main program executes its next line, or calls a request function: no handler is running *)
| HUsart | HTimer             (* the interrupt controller starts a driver's handler: none is running, its interrupt is pending *)
| HTick                       (* ... starts SysTick's handler: no handler is running *)
| HStep                       (* the handler that is running executes its next statement *)
| HHw (x : wact).             (* WRx, WShift, WRto, WTim: hardware, at any time *)
Definition is_hw (x : wact) : bool := match x with WRx _ | WShift | WRto | WTim => true | _ => false end.
(** the UART requests an interrupt *)
Definition h_pending (h : hfw) : bool :=
  let u := w_u (h_fw h) in
  (match u_rdr u with Some _ => h_rxne h | None => false end) || (match u_tdr u with None => u_txeie u | Some _ => false end) || u_rtof u.
Definition no_handler (h : hfw) : bool := match h_irq h, h_tick h with None, None => true | _, _ => false end.
(** the main program's next line is 405 of LIB: enable_rcev *)
Definition at405 (w : mfw) : bool := match w_sub w, mc_pc (w_lib w) with None, Some M405 => true | _, _ => false end.

Definition h_act (c : cfg) (a : hact) (h : hfw) : outcome (hfw * list witem) :=
  let w := h_fw h in let u := w_u w in
  match a with
  | HMain =>
      if no_handler h
      then match h_cr1 h with
           | Some E96 => Ok (mk_hfw w (h_rxne h) None None (Some (E96s (u_txeie u))), [])
           | Some (E96s v) =>
               Ok (mk_hfw (mk_mfw (w_lib w) (mk_uart (u_cur u) (u_last u) (u_det u) (u_tdr u) (u_rdr u) v (u_rtof u) (u_cen u) (u_uif u)) (w_sub w)) true None None None, [])
           | None => let* '(w', t) := w_act c WMain w in Ok (mk_hfw w' (h_rxne h) None None (if at405 w then Some E96 else None), t)
           end
      else Ok (h, [])
  | HReq r => if no_handler h then let* '(w', t) := w_act c (WReq r) w in Ok (mk_hfw w' (h_rxne h) None None (h_cr1 h), t) else Ok (h, [])
  | HUsart => Ok (match h_irq h with
                  | None => if h_pending h then mk_hfw w (h_rxne h) (Some U123) (h_tick h) (h_cr1 h) else h
                  | Some _ => h
                  end, [])
  | HTimer => Ok (match h_irq h with
                  | None => if u_uif u then mk_hfw w (h_rxne h) (Some V162) (h_tick h) (h_cr1 h) else h
                  | Some _ => h
                  end, [])
  | HTick => Ok (if no_handler h then mk_hfw w (h_rxne h) None (Some K387) (h_cr1 h) else h, [])
  | HStep =>
      match h_irq h, h_tick h with
      | Some p, _ => let* '(p', k', u', t) := h_line c p (w_lib w) u in Ok (mk_hfw (mk_mfw k' u' (w_sub w)) (h_rxne h) p' (h_tick h) (h_cr1 h), t)
      | None, Some p => let '(p', k', t) := t_line p (w_lib w) in Ok (mk_hfw (mk_mfw k' u (w_sub w)) (h_rxne h) None p' (h_cr1 h), t)
      | None, None => Ok (h, [])
      end
  | HHw x => if is_hw x then let* '(w', t) := w_act c x w in Ok (mk_hfw w' (h_rxne h) (h_irq h) (h_tick h) (h_cr1 h), t) else Ok (h, [])
  end.
Fixpoint h_run (c : cfg) (l : list hact) (h : hfw) : outcome (hfw * list witem) :=
  match l with
  | [] => Ok (h, [])
  | a :: l =>
      let* '(h1, t1) := h_act c a h in
      let* '(h2, t2) := h_run c l h1 in
      Ok (h2, t1 ++ t2)
  end.
