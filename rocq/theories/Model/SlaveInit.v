(** modbus_slave_init (src/modbus_slave.c:121-126, called LIB) with the STM32 example driver
    (examples/STM32G070RB_MODBUS_SLAVE/Core/Src/modbus_driver_interface.c, called DRV), statement by statement, interrupts and characters on the
    line at any point: the part that Model/Slave.v and Model/SlaveSystem.v execute in one step.  RTU mode. *)
From Verif Require Export Model.SlaveSystem.

(** the statement executed next.  LIB:267, 268 (register_msg_req_resp_data_buffers), 252 (slave_msg_ptr); 286 (the driver's interface);
    DRV:73 (pins), 74 (USART_module_config, the UART is enabled), 76 (interrupts of the UART), 77 (TIMER7_init), 78 (FRAME_DETECTION_FLAG);
    LIB:288 (enable_rcev: DRV:94, 95 in one step), 289-292 (subscriptions), 311-318 (init_modbus_slave_internall_data).
    Simplification: the driver's functions of lines 73, 74, 76, 77 are one step each (their effects: Model/Line.v, Model/Board.v). *)
Inductive ipc := I267 | I268 | I252 | I286 | V73 | V74 | V76 | V77 | V78 | I288 | I289 | I290 | I291 | I292 | I311 | I313 | I315 | I316 | I317 | I318.
(** the driver's callback pointers, DRV:27-30: subscribed (not NULL) *)
Record subs := mk_subs { b_tx : bool; b_t15 : bool; b_t35 : bool; b_fe : bool }.
(** [i_ue]: the UART is enabled; [i_nu], [i_nt]: the interrupts of UART and timer are enabled in the NVIC.
    The field [s_sub] of the library's state (one flag for all four callbacks) is set by the last subscription and not used before. *)
Record isys := mk_isys { i_lib : slave; i_u : uart; i_ue : bool; i_nu : bool; i_nt : bool; i_subs : subs; i_pc : option ipc }.
Definition i_set (x : isys) (s : slave) (p : ipc) : isys := mk_isys s (i_u x) (i_ue x) (i_nu x) (i_nt x) (i_subs x) (Some p).

(** one statement *)
Definition i_line (id : Z) (x : isys) : isys :=
  let s := i_lib x in let u := i_u x in let m := s_msg s in let b := i_subs x in
  match i_pc x with
  | Some I267 => i_set x (s_set_msg s (mk_msg (mk_rr true (rr_buf (m_req m)) (rr_len (m_req m))) (m_resp m))) I268
  | Some I268 => i_set x (s_set_msg s (mk_msg (m_req m) (mk_rr true (rr_buf (m_resp m)) (rr_len (m_resp m))))) I252
  | Some I252 => i_set x (s_set_mptr s true) I286
  | Some I286 => i_set x (s_set_drv s true) V73
  | Some V73 => i_set x s V74
  | Some V74 => mk_isys s u true (i_nu x) (i_nt x) b (Some V76)
  | Some V76 => mk_isys s u (i_ue x) true (i_nt x) b (Some V77)
  | Some V77 => mk_isys s u (i_ue x) (i_nu x) true b (Some V78)
  | Some V78 => mk_isys s (mk_uart (u_cur u) (u_last u) false (u_tdr u) (u_rdr u) (u_txeie u) (u_rtof u) (u_cen u) (u_uif u)) (i_ue x) (i_nu x) (i_nt x) b (Some I288)
  | Some I288 => i_set x (s_set_rx s true) I289
  | Some I289 => mk_isys s u (i_ue x) (i_nu x) (i_nt x) (mk_subs true (b_t15 b) (b_t35 b) (b_fe b)) (Some I290)
  | Some I290 => mk_isys s u (i_ue x) (i_nu x) (i_nt x) (mk_subs (b_tx b) true (b_t35 b) (b_fe b)) (Some I291)
  | Some I291 => mk_isys s u (i_ue x) (i_nu x) (i_nt x) (mk_subs (b_tx b) (b_t15 b) true (b_fe b)) (Some I292)
  | Some I292 => mk_isys (s_set_sub s true) u (i_ue x) (i_nu x) (i_nt x) (mk_subs (b_tx b) (b_t15 b) (b_t35 b) true) (Some I311)
  | Some I311 => i_set x (s_set_id s id) I313
  | Some I313 => i_set x (s_set_st s S_IDLE) I315
  | Some I315 => i_set x (s_set_t15 s CLEARED) I316
  | Some I316 => i_set x (s_set_t35 s CLEARED) I317
  | Some I317 => i_set x (s_set_fe s CLEARED) I318
  | Some I318 => mk_isys (s_set_tx s CLEARED) u (i_ue x) (i_nu x) (i_nt x) b None
  | None => x
  end.

(** the effect of a callback, or of a byte stored (Model/Slave.v) *)
Definition i_event (e : sev) (s : slave) : outcome slave := let* s' := s_event e (s_set_sub s true) in Ok (s_set_sub s' (s_sub s)).
(** DRV:116-128; a call of a callback that is NULL, and an access through rx_msg = NULL, are undefined *)
Definition i_usart_rx (b : subs) (s : slave) (u : uart) : outcome (slave * uart * list yitem) :=
  match u_rdr u with
  | None => Ok (s, u, [])
  | Some v =>
      if s_rx s
      then let* s1 := i_event (SRx v) s in
           let u1 := mk_uart (u_cur u) (u_last u) (u_det u) (u_tdr u) None (u_txeie u) (u_rtof u) true (u_uif u) in
           if u_det u
           then if b_fe b then let* s2 := i_event SFrameErr s1 in Ok (s2, u1, [YLib (TEv (SRx v)); YLib (TEv SFrameErr)]) else UB
           else Ok (s1, u1, [YLib (TEv (SRx v))])
      else UB
  end.
(** DRV:129-142 *)
Definition i_usart_tx (b : subs) (s : slave) (u : uart) : outcome (slave * uart * list yitem) :=
  match u_tdr u with
  | Some _ => Ok (s, u, [])
  | None =>
      if u_cur u <? u_last u
      then let* v := rd (m_resp (s_msg s)) (u_cur u + 1) in
           Ok (s, mk_uart (u_cur u + 1) (u_last u) (u_det u) (Some v) (u_rdr u) (u_txeie u) (u_rtof u) (u_cen u) (u_uif u), [])
      else if b_tx b
           then let* s1 := i_event STxDone s in
                Ok (s1, mk_uart (u_cur u) (u_last u) (u_det u) (u_tdr u) (u_rdr u) false (u_rtof u) (u_cen u) (u_uif u), [YLib (TEv STxDone)])
           else UB
  end.
(** DRV:143-151: the only callback that is compared with NULL *)
Definition i_usart_rto (b : subs) (s : slave) (u : uart) : outcome (slave * uart * list yitem) :=
  if u_rtof u
  then let u1 := mk_uart (u_cur u) (u_last u) true (u_tdr u) (u_rdr u) (u_txeie u) (u_rtof u) (u_cen u) (u_uif u) in
       if b_t15 b then let* s1 := i_event ST15 s in Ok (s1, u1, [YLib (TEv ST15)]) else Ok (s, u1, [])
  else Ok (s, u, []).
(** DRV:113-152 *)
Definition i_usart (b : subs) (s : slave) (u : uart) : outcome (slave * uart * list yitem) :=
  let* '(s, u, t1) := i_usart_rx b s u in
  let* '(s, u, t2) := i_usart_tx b s u in
  let* '(s, u, t3) := i_usart_rto b s u in
  Ok (s, u, t1 ++ t2 ++ t3).
(** DRV:154-163 *)
Definition i_timer (b : subs) (s : slave) (u : uart) : outcome (slave * uart * list yitem) :=
  if u_uif u
  then if b_t35 b
       then let* s1 := i_event ST35 s in
            Ok (s1, mk_uart (u_cur u) (u_last u) false (u_tdr u) (u_rdr u) (u_txeie u) false (u_cen u) false, [YLib (TEv ST35)])
       else UB
  else Ok (s, u, []).

(** main program and hardware, with the actions of Model/SlaveSystem.v.  Hardware: nothing happens on the line's side while the UART is not enabled *)
Definition i_act (id : Z) (a : yact) (x : isys) : outcome (isys * list yitem) :=
  let s := i_lib x in let u := i_u x in
  let hw u' t := Ok (if i_ue x then mk_isys s u' (i_ue x) (i_nu x) (i_nt x) (i_subs x) (i_pc x) else x, if i_ue x then t else []) in
  match a with
  | AMain => Ok (i_line id x, [])
  | AUsart =>
      if i_nu x && usart_pending (mk_sconf s None) u
      then let* '(s', u', t) := i_usart (i_subs x) s u in Ok (mk_isys s' u' (i_ue x) (i_nu x) (i_nt x) (i_subs x) (i_pc x), t)
      else Ok (x, [])
  | ATimer =>
      if i_nt x
      then let* '(s', u', t) := i_timer (i_subs x) s u in Ok (mk_isys s' u' (i_ue x) (i_nu x) (i_nt x) (i_subs x) (i_pc x), t)
      else Ok (x, [])
  | AApp bs rs => let* s' := s_event (SApp bs rs) s in Ok (mk_isys s' u (i_ue x) (i_nu x) (i_nt x) (i_subs x) (i_pc x), [YLib (TEv (SApp bs rs))])
  | HRx v => hw (mk_uart (u_cur u) (u_last u) (u_det u) (u_tdr u) (Some (u8 v)) (u_txeie u) (u_rtof u) (u_cen u) (u_uif u)) []
  | HShift =>
      match u_tdr u with
      | Some v => hw (mk_uart (u_cur u) (u_last u) (u_det u) None (u_rdr u) (u_txeie u) (u_rtof u) (u_cen u) (u_uif u)) [YLine v]
      | None => Ok (x, [])
      end
  | HRto => hw (mk_uart (u_cur u) (u_last u) (u_det u) (u_tdr u) (u_rdr u) (u_txeie u) true (u_cen u) (u_uif u)) []
  | HTim => if u_cen u then hw (mk_uart (u_cur u) (u_last u) (u_det u) (u_tdr u) (u_rdr u) (u_txeie u) (u_rtof u) false true) [] else Ok (x, [])
  end.
Fixpoint i_run (id : Z) (l : list yact) (x : isys) : outcome (isys * list yitem) :=
  match l with
  | [] => Ok (x, [])
  | a :: l =>
      let* '(x1, t1) := i_act id a x in
      let* '(x2, t2) := i_run id l x1 in
      Ok (x2, t1 ++ t2)
  end.
(** the call at power-on *)
Definition power_on (c : cfg) (bits : list bool) (regs : list Z) : isys :=
  mk_isys (slave_static c bits regs) uart_init false false false (mk_subs false false false false) (Some I267).
(** the call in a running firmware (the main program is not inside check_modbus_request) *)
Definition call_again (y : sys) : isys := mk_isys (sc_s (y_lib y)) (y_u y) true true true (mk_subs true true true true) (Some I267).
(** the firmware when the function has returned *)
Definition running_fw (x : isys) : sys := mk_sys (mk_sconf (i_lib x) None) (i_u x) None.
