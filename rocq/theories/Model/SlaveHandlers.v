(** The slave firmware with the interrupt handlers executed statement by statement: the UART and the timer go on while a handler runs.
    examples/STM32G070RB_MODBUS_SLAVE/Core/Src/modbus_driver_interface.c is called DRV; the main program is that of Model/SlaveSystem.v. *)
From Verif Require Export Model.SlaveSystem.

(** the statement executed next in DRV:113-152 (G116...G149) or 154-163 (T156...T161).  G119 reads RDR, G119s stores the byte *)
Inductive gpc :=
| G116 | G119 | G119s (b : Z) | G120 (b : Z) | G122 | G124 | G126 | G127
| G129 | G131 | G133 | G134 | G139 | G140
| G143 | G145 | G147 | G149
| T156 | T158 | T159 | T160 | T161.
Record gfw := mk_gfw { g_sys : sys; g_irq : option gpc }.

(** one statement of a handler; [None]: it returns.  Read-modify-write of TIM7's CR1 and SR (127, 161) and of USART2's CR1 (139) are one
    step: the other bits do not change (enable_rcev, DRV:91, is called during initialisation only).  126: the counter starts anew (no interrupt: URS, Model/Line.v) *)
Definition g_line (p : gpc) (k : sconf) (u : uart) : outcome (option gpc * sconf * uart * list yitem) :=
  match p with
  | G116 => Ok (match u_rdr u with Some _ => Some G119 | None => Some G129 end, k, u, [])
  | G119 => if s_rx (sc_s k)
            then match u_rdr u with
                 | Some b => Ok (Some (G119s b), k, mk_uart (u_cur u) (u_last u) (u_det u) (u_tdr u) None (u_txeie u) (u_rtof u) (u_cen u) (u_uif u), [])
                 | None => Ok (Some G129, k, u, [])
                 end
            else UB
  | G119s b => if s_rx (sc_s k)
               then let s := sc_s k in
                    let* r := wr (m_req (s_msg s)) (rr_len (m_req (s_msg s))) (u8 b) in
                    Ok (Some (G120 b), mk_sconf (s_set_msg s (set_req (s_msg s) r)) (sc_pc k), u, [])
               else UB
  | G120 b => if s_rx (sc_s k)
              then let s := sc_s k in
                   let r := m_req (s_msg s) in
                   Ok (Some G122, mk_sconf (s_set_msg s (set_req (s_msg s) (set_len r (u8 (rr_len r + 1))))) (sc_pc k), u, [YLib (TEv (SRx b))])
              else UB
  | G122 => Ok (Some (if u_det u then G124 else G126), k, u, [])
  | G124 => if s_sub (sc_s k) then let* k1 := y_event SFrameErr k in Ok (Some G126, k1, u, [YLib (TEv SFrameErr)]) else UB
  | G126 => Ok (Some G127, k, u, [])
  | G127 => Ok (Some G129, k, mk_uart (u_cur u) (u_last u) (u_det u) (u_tdr u) (u_rdr u) (u_txeie u) (u_rtof u) true (u_uif u), [])
  | G129 => Ok (match u_tdr u with None => Some G131 | Some _ => Some G143 end, k, u, [])
  | G131 => Ok (Some (if u_cur u <? u_last u then G133 else G139), k, u, [])
  | G133 => Ok (Some G134, k, mk_uart (u_cur u + 1) (u_last u) (u_det u) (u_tdr u) (u_rdr u) (u_txeie u) (u_rtof u) (u_cen u) (u_uif u), [])
  | G134 => let* b := rd (m_resp (s_msg (sc_s k))) (u_cur u) in
            Ok (Some G143, k, mk_uart (u_cur u) (u_last u) (u_det u) (Some b) (u_rdr u) (u_txeie u) (u_rtof u) (u_cen u) (u_uif u), [])
  | G139 => Ok (Some G140, k, mk_uart (u_cur u) (u_last u) (u_det u) (u_tdr u) (u_rdr u) false (u_rtof u) (u_cen u) (u_uif u), [])
  | G140 => if s_sub (sc_s k) then let* k1 := y_event STxDone k in Ok (Some G143, k1, u, [YLib (TEv STxDone)]) else UB
  | G143 => Ok (if u_rtof u then Some G145 else None, k, u, [])
  | G145 => Ok (Some (if s_sub (sc_s k) then G147 else G149), k, u, [])
  | G147 => let* k1 := y_event ST15 k in Ok (Some G149, k1, u, [YLib (TEv ST15)])
  | G149 => Ok (None, k, mk_uart (u_cur u) (u_last u) true (u_tdr u) (u_rdr u) (u_txeie u) (u_rtof u) (u_cen u) (u_uif u), [])
  | T156 => Ok (if u_uif u then Some T158 else None, k, u, [])
  | T158 => if s_sub (sc_s k) then let* k1 := y_event ST35 k in Ok (Some T159, k1, u, [YLib (TEv ST35)]) else UB
  | T159 => Ok (Some T160, k, mk_uart (u_cur u) (u_last u) false (u_tdr u) (u_rdr u) (u_txeie u) (u_rtof u) (u_cen u) (u_uif u), [])
  | T160 => Ok (Some T161, k, mk_uart (u_cur u) (u_last u) (u_det u) (u_tdr u) (u_rdr u) (u_txeie u) false (u_cen u) (u_uif u), [])
  | T161 => Ok (None, k, mk_uart (u_cur u) (u_last u) (u_det u) (u_tdr u) (u_rdr u) (u_txeie u) (u_rtof u) (u_cen u) false, [])
  end.

Inductive gact :=
| GMain | GApp (bits : list bool) (regs : list Z)   (* the main program executes its next line, the application changes its variables: no handler is running *)
| GUsart | GTimer             (* the interrupt controller starts a handler: none is running, its interrupt is pending *)
| GStep                       (* the handler that is running executes its next statement *)
| GHw (x : yact).             (* HRx, HShift, HRto, HTim: hardware, at any time *)
Definition is_hw (x : yact) : bool := match x with HRx _ | HShift | HRto | HTim => true | _ => false end.
Definition g_act (c : cfg) (a : gact) (g : gfw) : outcome (gfw * list yitem) :=
  let y := g_sys g in
  match a, g_irq g with
  | GMain, None => let* '(y', t) := y_act c AMain y in Ok (mk_gfw y' None, t)
  | GApp b r, None => let* '(y', t) := y_act c (AApp b r) y in Ok (mk_gfw y' None, t)
  | GUsart, None => Ok (mk_gfw y (if usart_pending (y_lib y) (y_u y) then Some G116 else None), [])
  | GTimer, None => Ok (mk_gfw y (if u_uif (y_u y) then Some T156 else None), [])
  | GStep, Some p => let* '(p', k', u', t) := g_line p (y_lib y) (y_u y) in Ok (mk_gfw (mk_sys k' u' (y_sub y)) p', t)
  | GHw x, q => if is_hw x then let* '(y', t) := y_act c x y in Ok (mk_gfw y' q, t) else Ok (g, [])
  | _, _ => Ok (g, [])
  end.
Fixpoint g_run (c : cfg) (l : list gact) (g : gfw) : outcome (gfw * list yitem) :=
  match l with
  | [] => Ok (g, [])
  | a :: l =>
      let* '(g1, t1) := g_act c a g in
      let* '(g2, t2) := g_run c l g1 in
      Ok (g2, t1 ++ t2)
  end.
