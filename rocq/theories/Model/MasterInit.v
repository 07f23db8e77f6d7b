(** modbus_master_init (src/modbus_master.c:311-336, called LIB) with the STM32 example driver
    (examples/STM32G070RB_MODBUS_MASTER/Drivers/STM32G0_Drivers/modbus_driver_interface.c, called DRV), line by line, interrupts and characters on the
    line between any two lines: the part that Model/Master.v, Model/MasterSystem.v and Model/MasterApp.v execute in one step.  RTU mode. *)
From Verif Require Export Model.MasterApp.

(** the line executed next: LIB:313 (register_msg_req_resp_data_buffers), 314, 315 (modbus_queue_init), 316 (push_all_available_msg_buffer_to_free_queue), 318;
    319: DRV:72 (pins), 73 (USART_module_config, the UART is enabled), 74 (interrupts of the UART), 75 (TIMER7_init), 76 (FRAME_DETECTION_FLAG);
    LIB:322-325 (subscriptions), 327-331 (flags), 333-335.
    Simplification: the functions called in 313-316 are one step each (no interrupt handler accesses the queues or the data pointers of messages that are not being
    received), and so are the driver's functions of lines 72, 73, 74, 75 (their effects: Model/Line.v, Model/Board.v). *)
Inductive jpc := J313 | J314 | J315 | J316 | J318 | K72 | K73 | K74 | K75 | K76 | J322 | J323 | J324 | J325 | J327 | J328 | J329 | J330 | J331 | J333 | J334 | J335.
(** the driver's callback pointers, DRV:30-33: subscribed (not NULL) *)
Record jsubs := mk_jsubs { e_tx : bool; e_t15 : bool; e_t35 : bool; e_fe : bool }.
(** [j_ue]: the UART is enabled; [j_nu], [j_nt]: the interrupts of UART and timer are enabled in the NVIC; [j_timer]: the application's update_timer (main.c:41).
    The field [mm_sub] of the library's state (one flag for all four callbacks) is set by the last subscription and not used before. *)
Record minit := mk_minit { j_lib : master; j_u : uart; j_ue : bool; j_nu : bool; j_nt : bool; j_subs : jsubs; j_timer : Z; j_pc : option jpc }.
Definition j_set (x : minit) (s : master) (p : jpc) : minit := mk_minit s (j_u x) (j_ue x) (j_nu x) (j_nt x) (j_subs x) (j_timer x) (Some p).

(** one line *)
Definition j_line (c : cfg) (x : minit) : outcome minit :=
  let s := j_lib x in let u := j_u x in let b := j_subs x in
  match j_pc x with
  | Some J313 => Ok (j_set x (register_msg_req_resp_data_buffers RTU s) J314)
  | Some J314 => Ok (j_set x (m_set_free s (modbus_queue_init (mm_free s))) J315)
  | Some J315 => Ok (j_set x (m_set_txq s (modbus_queue_init (mm_txq s))) J316)
  | Some J316 => let* q := push_all_loop (c_queue c) (Z.to_nat (c_queue c)) 0 (mm_free s) in Ok (j_set x (m_set_free s q) J318)
  | Some J318 => Ok (j_set x (m_set_drv s true) K72)
  | Some K72 => Ok (j_set x s K73)
  | Some K73 => Ok (mk_minit s u true (j_nu x) (j_nt x) b (j_timer x) (Some K74))
  | Some K74 => Ok (mk_minit s u (j_ue x) true (j_nt x) b (j_timer x) (Some K75))
  | Some K75 => Ok (mk_minit s u (j_ue x) (j_nu x) true b (j_timer x) (Some K76))
  | Some K76 => Ok (mk_minit s (mk_uart (u_cur u) (u_last u) false (u_tdr u) (u_rdr u) (u_txeie u) (u_rtof u) (u_cen u) (u_uif u)) (j_ue x) (j_nu x) (j_nt x) b (j_timer x) (Some J322))
  | Some J322 => Ok (mk_minit s u (j_ue x) (j_nu x) (j_nt x) (mk_jsubs true (e_t15 b) (e_t35 b) (e_fe b)) (j_timer x) (Some J323))
  | Some J323 => Ok (mk_minit s u (j_ue x) (j_nu x) (j_nt x) (mk_jsubs (e_tx b) true (e_t35 b) (e_fe b)) (j_timer x) (Some J324))
  | Some J324 => Ok (mk_minit s u (j_ue x) (j_nu x) (j_nt x) (mk_jsubs (e_tx b) (e_t15 b) true (e_fe b)) (j_timer x) (Some J325))
  | Some J325 => Ok (mk_minit (m_set_sub s true) u (j_ue x) (j_nu x) (j_nt x) (mk_jsubs (e_tx b) (e_t15 b) (e_t35 b) true) (j_timer x) (Some J327))
  | Some J327 => Ok (j_set x (m_set_tx s CLEARED) J328)
  | Some J328 => Ok (j_set x (m_set_t15 s CLEARED) J329)
  | Some J329 => Ok (j_set x (m_set_t35 s CLEARED) J330)
  | Some J330 => Ok (j_set x (m_set_fe s CLEARED) J331)
  | Some J331 => Ok (j_set x (m_set_crc s CLEARED) J333)
  | Some J333 => Ok (j_set x (m_set_st s M_IDLE) J334)
  | Some J334 => Ok (j_set x (m_set_rep s 0) J335)
  | Some J335 => Ok (mk_minit (m_set_timer s 0) u (j_ue x) (j_nu x) (j_nt x) b (j_timer x) None)
  | None => Ok x
  end.

(** the effect of a callback, of a byte stored, or of a tick (Model/Master.v) *)
Definition j_event (c : cfg) (e : mev) (s : master) : outcome (master * list witem) :=
  let* '(s', o) := m_event c e (m_set_sub s true) in Ok (m_set_sub s' (mm_sub s), map WLib (MTEv e :: map MTOut o)).
(** DRV:123-134; a call of a callback that is NULL, and an access through rx_msg = NULL, are undefined *)
Definition j_usart_rx (c : cfg) (b : jsubs) (s : master) (u : uart) : outcome (master * uart * list witem) :=
  match u_rdr u with
  | None => Ok (s, u, [])
  | Some v =>
      match mm_rx s with
      | None => UB
      | Some _ =>
          let* '(s1, t1) := j_event c (MRx v) s in
          let u1 := mk_uart (u_cur u) (u_last u) (u_det u) (u_tdr u) None (u_txeie u) (u_rtof u) true (u_uif u) in
          if u_det u
          then if e_fe b then let* '(s2, t2) := j_event c MFrameErr s1 in Ok (s2, u1, t1 ++ t2) else UB
          else Ok (s1, u1, t1)
      end
  end.
(** DRV:135-148 *)
Definition j_usart_tx (c : cfg) (b : jsubs) (s : master) (u : uart) : outcome (master * uart * list witem) :=
  match u_tdr u with
  | Some _ => Ok (s, u, [])
  | None =>
      if u_cur u <? u_last u
      then let* v := req_byte (mk_mconf s None) (u_cur u + 1) in
           Ok (s, mk_uart (u_cur u + 1) (u_last u) (u_det u) (Some v) (u_rdr u) (u_txeie u) (u_rtof u) (u_cen u) (u_uif u), [])
      else if e_tx b
           then let* '(s1, t1) := j_event c MTxDone s in
                Ok (s1, mk_uart (u_cur u) (u_last u) (u_det u) (u_tdr u) (u_rdr u) false (u_rtof u) (u_cen u) (u_uif u), t1)
           else UB
  end.
(** DRV:149-157: the only callback that is compared with NULL *)
Definition j_usart_rto (c : cfg) (b : jsubs) (s : master) (u : uart) : outcome (master * uart * list witem) :=
  if u_rtof u
  then let u1 := mk_uart (u_cur u) (u_last u) true (u_tdr u) (u_rdr u) (u_txeie u) false (u_cen u) (u_uif u) in
       if e_t15 b then let* '(s1, t1) := j_event c MT15 s in Ok (s1, u1, t1) else Ok (s, u1, [])
  else Ok (s, u, []).
(** DRV:120-158 *)
Definition j_usart (c : cfg) (b : jsubs) (s : master) (u : uart) : outcome (master * uart * list witem) :=
  let* '(s, u, t1) := j_usart_rx c b s u in
  let* '(s, u, t2) := j_usart_tx c b s u in
  let* '(s, u, t3) := j_usart_rto c b s u in
  Ok (s, u, t1 ++ t2 ++ t3).
(** DRV:160-169 *)
Definition j_timer_irq (c : cfg) (b : jsubs) (s : master) (u : uart) : outcome (master * uart * list witem) :=
  if u_uif u
  then if e_t35 b
       then let* '(s1, t1) := j_event c MT35 s in
            Ok (s1, mk_uart (u_cur u) (u_last u) false (u_tdr u) (u_rdr u) (u_txeie u) (u_rtof u) (u_cen u) false, t1)
       else UB
  else Ok (s, u, []).

(** main program and hardware, with the actions of Model/MasterSystem.v (the application calls no request function here: WReq has no effect).  Hardware: nothing happens on
    the line's side while the UART is not enabled.  The tick is main.c:87-95. *)
Definition j_act (c : cfg) (a : wact) (x : minit) : outcome (minit * list witem) :=
  let s := j_lib x in let u := j_u x in
  let hw u' t := Ok (if j_ue x then mk_minit s u' (j_ue x) (j_nu x) (j_nt x) (j_subs x) (j_timer x) (j_pc x) else x, if j_ue x then t else []) in
  match a with
  | WMain => let* x' := j_line c x in Ok (x', [])
  | WUsart =>
      if j_nu x && w_pending (mk_mconf s None) u
      then let* '(s', u', t) := j_usart c (j_subs x) s u in Ok (mk_minit s' u' (j_ue x) (j_nu x) (j_nt x) (j_subs x) (j_timer x) (j_pc x), t)
      else Ok (x, [])
  | WTimer =>
      if j_nt x
      then let* '(s', u', t) := j_timer_irq c (j_subs x) s u in Ok (mk_minit s' u' (j_ue x) (j_nu x) (j_nt x) (j_subs x) (j_timer x) (j_pc x), t)
      else Ok (x, [])
  | WTick =>
      let* '(s', t) := j_event c MTick s in
      Ok (mk_minit s' u (j_ue x) (j_nu x) (j_nt x) (j_subs x) (if j_timer x =? 0 then 0 else j_timer x - 1) (j_pc x), t)
  | WReq _ => Ok (x, [])
  | WRx b => hw (mk_uart (u_cur u) (u_last u) (u_det u) (u_tdr u) (Some (u8 b)) (u_txeie u) (u_rtof u) (u_cen u) (u_uif u)) []
  | WShift =>
      match u_tdr u with
      | Some b => hw (mk_uart (u_cur u) (u_last u) (u_det u) None (u_rdr u) (u_txeie u) (u_rtof u) (u_cen u) (u_uif u)) [WLine b]
      | None => Ok (x, [])
      end
  | WRto => hw (mk_uart (u_cur u) (u_last u) (u_det u) (u_tdr u) (u_rdr u) (u_txeie u) true (u_cen u) (u_uif u)) []
  | WTim => if u_cen u then hw (mk_uart (u_cur u) (u_last u) (u_det u) (u_tdr u) (u_rdr u) (u_txeie u) (u_rtof u) false true) [] else Ok (x, [])
  end.
Fixpoint j_run (c : cfg) (l : list wact) (x : minit) : outcome (minit * list witem) :=
  match l with
  | [] => Ok (x, [])
  | a :: l =>
      let* '(x1, t1) := j_act c a x in
      let* '(x2, t2) := j_run c l x1 in
      Ok (x2, t1 ++ t2)
  end.
(** the call at power-on; SysTick is already running (core_init, MAIN:47) *)
Definition m_power_on (c : cfg) : minit :=
  mk_minit (master_static c) uart_init false false false (mk_jsubs false false false false) UPDATE_INTERVAL_MS (Some J313).
(** the call in a running firmware (the main program is not inside update_modbus_master_manager) *)
Definition m_call_again (w : mfw) (timer : Z) : minit := mk_minit (mc_s (w_lib w)) (w_u w) true true true (mk_jsubs true true true true) timer (Some J313).
(** firmware and application when the function has returned *)
Definition m_running (x : minit) : mfw := mk_mfw (mk_mconf (j_lib x) None) (j_u x) None.
Definition m_running_app (x : minit) : mapp := mk_mapp (m_running x) (j_timer x) vars_init A55.
