(** src/modbus_slave.c: the slave's state machine as a machine that executes one C line at a time,
    interrupt callbacks and driver events, initialisation and registration API. *)
From Verif Require Export Model.SlavePDU.

(** src/common/modbus_type.h:141-147  modbus_slave_state_t *)
Inductive sstate := S_IDLE | S_MSG_RECIVED | S_TRANSMITTING_RESP | S_UNKNOWN.

(** src/modbus_slave.c:35-43: the static variables.
    [s_drv]: slave_RTU_driver is not NULL; [s_mptr]: slave_msg_ptr = &slave_msg (false: NULL);
    [s_sub]: the four callbacks are subscribed at the driver; [s_rx]: the driver's receive pointer is
    &slave_msg.req (set by enable_rcev). *)
Record slave := mk_slave {
  s_id : Z;             (* modbus_slave_ID *)
  s_st : sstate;        (* slave_manager_state_machine *)
  s_drv : bool;
  s_mptr : bool;
  s_msg : msg;          (* slave_msg (buffers: src/slave_internall/modbus_slave_RTU.c:11-12) *)
  s_t15 : flag;         (* TIMER_1_5_CHAR_FLAG *)
  s_t35 : flag;         (* TIMER_3_5_CHAR_FLAG *)
  s_fe : flag;          (* FRAME_ERROR_FLAG *)
  s_tx : flag;          (* RESP_TRANSMITION_FLAG *)
  s_data : sdata;       (* tables and application variables *)
  s_sub : bool;
  s_rx : bool
}.

Definition s_set_id s x := mk_slave x (s_st s) (s_drv s) (s_mptr s) (s_msg s) (s_t15 s) (s_t35 s) (s_fe s) (s_tx s) (s_data s) (s_sub s) (s_rx s).
Definition s_set_st s x := mk_slave (s_id s) x (s_drv s) (s_mptr s) (s_msg s) (s_t15 s) (s_t35 s) (s_fe s) (s_tx s) (s_data s) (s_sub s) (s_rx s).
Definition s_set_drv s x := mk_slave (s_id s) (s_st s) x (s_mptr s) (s_msg s) (s_t15 s) (s_t35 s) (s_fe s) (s_tx s) (s_data s) (s_sub s) (s_rx s).
Definition s_set_mptr s x := mk_slave (s_id s) (s_st s) (s_drv s) x (s_msg s) (s_t15 s) (s_t35 s) (s_fe s) (s_tx s) (s_data s) (s_sub s) (s_rx s).
Definition s_set_msg s x := mk_slave (s_id s) (s_st s) (s_drv s) (s_mptr s) x (s_t15 s) (s_t35 s) (s_fe s) (s_tx s) (s_data s) (s_sub s) (s_rx s).
Definition s_set_t15 s x := mk_slave (s_id s) (s_st s) (s_drv s) (s_mptr s) (s_msg s) x (s_t35 s) (s_fe s) (s_tx s) (s_data s) (s_sub s) (s_rx s).
Definition s_set_t35 s x := mk_slave (s_id s) (s_st s) (s_drv s) (s_mptr s) (s_msg s) (s_t15 s) x (s_fe s) (s_tx s) (s_data s) (s_sub s) (s_rx s).
Definition s_set_fe s x := mk_slave (s_id s) (s_st s) (s_drv s) (s_mptr s) (s_msg s) (s_t15 s) (s_t35 s) x (s_tx s) (s_data s) (s_sub s) (s_rx s).
Definition s_set_tx s x := mk_slave (s_id s) (s_st s) (s_drv s) (s_mptr s) (s_msg s) (s_t15 s) (s_t35 s) (s_fe s) x (s_data s) (s_sub s) (s_rx s).
Definition s_set_data s x := mk_slave (s_id s) (s_st s) (s_drv s) (s_mptr s) (s_msg s) (s_t15 s) (s_t35 s) (s_fe s) (s_tx s) x (s_sub s) (s_rx s).
Definition s_set_sub s x := mk_slave (s_id s) (s_st s) (s_drv s) (s_mptr s) (s_msg s) (s_t15 s) (s_t35 s) (s_fe s) (s_tx s) (s_data s) x (s_rx s).
Definition s_set_rx s x := mk_slave (s_id s) (s_st s) (s_drv s) (s_mptr s) (s_msg s) (s_t15 s) (s_t35 s) (s_fe s) (s_tx s) (s_data s) (s_sub s) x.

(** Static initial values, src/modbus_slave.c:35-43, src/slave_internall/modbus_slave_RTU.c:11-12,
    src/slave_internall/modbus_slave_data.c:15-18 (all table entries NULL); the application's
    variables [bits], [regs] are arbitrary. *)
Definition slave_static (c : cfg) (bits : list bool) (regs : list Z) : slave :=
  let buf := repeat 0 256 in
  let tab q := repeat (@None nat) (Z.to_nat (table_size q)) in
  mk_slave 0 S_UNKNOWN false false
    (mk_msg (mk_rr false buf 0) (mk_rr false buf 0))
    FUNKNOWN FUNKNOWN FUNKNOWN FUNKNOWN
    (mk_sdata (tab (c_coils c)) (tab (c_din c)) (tab (c_ireg c)) (tab (c_hreg c)) bits regs)
    false false.

(** What can be observed: calls into the driver, and (for the specification of when things happen) the
    calls of the frame check, of the request interpreter, and the discarding of a frame. *)
Inductive sout :=
| SoSend (frame : list Z)     (* line 197: slave_RTU_driver->send(data, len): the len bytes at data *)
| SoCheck (frame : list Z)    (* line 168: modbus_RTU_recv examines the received bytes *)
| SoNoFrameErr                (* line 193: no frame error is pending *)
| SoExec                      (* line 195: parse_master_request_and_prepare_resp is executed *)
| SoDiscard                   (* line 190: the received frame is discarded, frame error consumed *)
| SoClear.                    (* lines 188, 220, 238: slave_msg_ptr->req.len = 0, reception starts anew *)

(** Program counter: the line of src/modbus_slave.c executed next.  L186b, L193b: right operand of the
    [&&] in that line. *)
Inductive spc :=
| L164 | L167 | L168 | L169 (RTU_status : Z) | L171 | L173
| L186 | L186b | L188 | L189 | L190 | L191
| L193 | L193b | L195 | L196 | L197 | L198 | L199 | L200
| L216 | L218 | L219 | L220
| L232 | L233 | L234 | L235 | L236 | L237 | L238.

(** src/modbus_slave.c:139-153: the switch (reads the state variable once) *)
Definition s_dispatch (s : slave) : spc :=
  match s_st s with
  | S_IDLE => L164
  | S_MSG_RECIVED => L186
  | S_TRANSMITTING_RESP => L216
  | S_UNKNOWN => L232
  end.

(** One line.  Result: next line ([None]: check_modbus_request returns), new state, outputs. *)
Definition s_line (c : cfg) (l : spc) (s : slave) : outcome (option spc * slave * list sout) :=
  let go l s := Ok (Some l, s, []) in
  let ret s := Ok (None, s, []) in
  match l with
  (* handle_modbus_slave_idle_state, src/modbus_slave.c:162-175 *)
  | L164 => if is_set (s_t15 s) then go L167 s else ret s
  | L167 => go L168 (s_set_t15 s CLEARED)
  | L168 =>
      if s_mptr s
      then let* st := modbus_RTU_recv (m_req (s_msg s)) (s_id s) in
           Ok (Some (L169 st), s, [SoCheck (firstn (Z.to_nat (rr_len (m_req (s_msg s)))) (rr_buf (m_req (s_msg s))))])
      else UB
  | L169 st => if negb (st =? RET_OK) then go L171 s else go L173 s
  | L171 => go L173 (s_set_fe s SET)
  | L173 => ret (s_set_st s S_MSG_RECIVED)
  (* handle_modbus_slave_msg_recived_state, src/modbus_slave.c:184-206 *)
  | L186 => if is_set (s_fe s) then go L186b s else go L193 s
  | L186b => if is_set (s_t35 s) then go L188 s else go L193 s
  | L188 => if s_mptr s
            then Ok (Some L189, s_set_msg s (set_req (s_msg s) (set_len (m_req (s_msg s)) 0)), [SoClear])
            else UB
  | L189 => go L190 (s_set_st s S_IDLE)
  | L190 => Ok (Some L191, s_set_fe s CLEARED, [SoDiscard])
  | L191 => ret (s_set_t35 s CLEARED)
  | L193 => if is_clr (s_fe s) then Ok (Some L193b, s, [SoNoFrameErr]) else ret s
  | L193b => if is_set (s_t35 s) then go L195 s else ret s
  | L195 =>
      (* simplification: the whole interpretation of the request is one step with respect to interrupts;
         a NULL slave_msg_ptr is refused by line 83 of modbus_slave_PDU.c *)
      if s_mptr s
      then let* '(_, m, d) := parse_master_request_and_prepare_resp c (s_msg s) (s_data s) in
           Ok (Some L196, s_set_data (s_set_msg s m) d, [SoExec])
      else go L196 s
  | L196 =>
      if s_mptr s
      then let* '(_, r) := modbus_RTU_send (m_resp (s_msg s)) (s_id s) in
           go L197 (s_set_msg s (set_resp (s_msg s) r))
      else UB
  | L197 =>
      if s_mptr s && s_drv s
      then Ok (Some L198, s, [SoSend (firstn (Z.to_nat (rr_len (m_resp (s_msg s)))) (rr_buf (m_resp (s_msg s))))])
      else UB
  | L198 => go L199 (s_set_tx s SET)
  | L199 => go L200 (s_set_st s S_TRANSMITTING_RESP)
  | L200 => ret (s_set_t35 s CLEARED)
  (* handle_modbus_slave_transmitting_resp_state, src/modbus_slave.c:214-222 *)
  | L216 => if is_clr (s_tx s) then go L218 s else ret s
  | L218 => go L219 (s_set_st s S_IDLE)
  | L219 => if s_mptr s
            then go L220 (s_set_msg s (set_resp (s_msg s) (set_len (m_resp (s_msg s)) 0)))
            else UB
  | L220 => if s_mptr s
            then Ok (None, s_set_msg s (set_req (s_msg s) (set_len (m_req (s_msg s)) 0)), [SoClear])
            else UB
  (* handle_modbus_slave_default_state, src/modbus_slave.c:230-239 *)
  | L232 => go L233 (s_set_st s S_IDLE)
  | L233 => go L234 (s_set_t15 s CLEARED)
  | L234 => go L235 (s_set_t35 s CLEARED)
  | L235 => go L236 (s_set_fe s CLEARED)
  | L236 => go L237 (s_set_tx s CLEARED)
  | L237 => if s_mptr s
            then go L238 (s_set_msg s (set_resp (s_msg s) (set_len (m_resp (s_msg s)) 0)))
            else UB
  | L238 => if s_mptr s
            then Ok (None, s_set_msg s (set_req (s_msg s) (set_len (m_req (s_msg s)) 0)), [SoClear])
            else UB
  end.

(** Interrupts and the application. *)
Inductive sev :=
| STxDone                                   (* driver: message transmitted *)
| ST15 | ST35                               (* driver: 1.5 / 3.5 character times without traffic *)
| SFrameErr                                 (* driver: character after the 1.5 character pause *)
| SRx (b : Z)                               (* driver: byte received *)
| SApp (bits : list bool) (regs : list Z).  (* the application changes its own variables *)

(** src/modbus_slave.c:327-363: the four callbacks (ignored while not subscribed; in the driver
    contract no interrupt is enabled before init).
    SRx: examples/STM32G070RB_MODBUS_SLAVE/Core/Src/modbus_driver_interface.c:119-120
    [rx_msg->data[rx_msg->len] = RDR; rx_msg->len++] (len is uint8_t).
    SApp: variables are changed in place: same number of cells, 16-bit values; other values are ignored. *)
Definition s_event (e : sev) (s : slave) : outcome slave :=
  match e with
  | STxDone => Ok (if s_sub s then s_set_tx s CLEARED else s)
  | ST15 => Ok (if s_sub s then s_set_t15 s SET else s)
  | ST35 => Ok (if s_sub s then s_set_t35 s SET else s)
  | SFrameErr => Ok (if s_sub s then s_set_fe s SET else s)
  | SRx b =>
      if s_rx s
      then let r := m_req (s_msg s) in
           let* r := wr r (rr_len r) (u8 b) in
           Ok (s_set_msg s (set_req (s_msg s) (set_len r (u8 (rr_len r + 1)))))
      else Ok s
  | SApp bits regs =>
      Ok (if Nat.eqb (length bits) (length (v_bits (s_data s)))
             && Nat.eqb (length regs) (length (v_regs (s_data s)))
             && forallb (fun v => (0 <=? v) && (v <? 65536)) regs
          then s_set_data s (set_regs (set_bits (s_data s) bits) regs)
          else s)
  end.

(** Schedules: [SStep] = the main loop executes its next line of check_modbus_request, entering the
    function anew (the switch) when it is not inside; [SEv] = an interrupt (or the application) between two lines. *)
Inductive sact := SStep | SEv (e : sev).
Record sconf := mk_sconf { sc_s : slave; sc_pc : option spc }.
Inductive sitem := TEv (e : sev) | TOut (o : sout).

Definition s_act (c : cfg) (a : sact) (k : sconf) : outcome (sconf * list sitem) :=
  match a with
  | SEv e => let* s := s_event e (sc_s k) in Ok (mk_sconf s (sc_pc k), [TEv e])
  | SStep =>
      match sc_pc k with
      | None => Ok (mk_sconf (sc_s k) (Some (s_dispatch (sc_s k))), [])
      | Some l =>
          let* '(l', s, o) := s_line c l (sc_s k) in
          Ok (mk_sconf s l', map TOut o)
      end
  end.

Fixpoint s_run (c : cfg) (sched : list sact) (k : sconf) : outcome (sconf * list sitem) :=
  match sched with
  | [] => Ok (k, [])
  | a :: rest =>
      let* '(k1, t1) := s_act c a k in
      let* '(k2, t2) := s_run c rest k1 in
      Ok (k2, t1 ++ t2)
  end.

(** An uninterrupted call of check_modbus_request (src/modbus_slave.c:137-154); the fuel bounds the number
    of lines (see the theorem that polls always return). *)
Fixpoint s_lines (fuel : nat) (c : cfg) (l : spc) (s : slave) : outcome (slave * list sout) :=
  match fuel with
  | O => Diverge
  | S f =>
      let* '(l', s, o) := s_line c l s in
      match l' with
      | None => Ok (s, o)
      | Some l' => let* '(s, o') := s_lines f c l' s in Ok (s, o ++ o')
      end
  end.
Definition check_modbus_request (c : cfg) (s : slave) : outcome (slave * list sout) :=
  s_lines 12 c (s_dispatch s) s.

(** src/modbus_slave.c:249-270  init_modbus_data_buffers_and_queues, register_msg_req_resp_data_buffers *)
Definition init_modbus_data_buffers_and_queues (md : mode) (s : slave) : slave :=
  let m := s_msg s in
  let m := match md with
           | RTU => mk_msg (mk_rr true (rr_buf (m_req m)) (rr_len (m_req m)))
                           (mk_rr true (rr_buf (m_resp m)) (rr_len (m_resp m)))
           | UNKNOWN_MODE => m
           end in
  s_set_mptr (s_set_msg s m) true.

(** src/modbus_slave.c:282-299  init_modbus_driver *)
Definition init_modbus_driver (md : mode) (s : slave) : slave :=
  match md with
  | RTU => s_set_sub (s_set_rx (s_set_drv s true) true) true
  | UNKNOWN_MODE => s_set_drv s false
  end.

(** src/modbus_slave.c:309-319  init_modbus_slave_internall_data *)
Definition init_modbus_slave_internall_data (id : Z) (s : slave) : slave :=
  let s := s_set_id s id in
  let s := s_set_st s S_IDLE in
  let s := s_set_t15 s CLEARED in
  let s := s_set_t35 s CLEARED in
  let s := s_set_fe s CLEARED in
  s_set_tx s CLEARED.

(** src/modbus_slave.c:121-126  modbus_slave_init (baud rate and parity only reach the driver).
    Simplification: no interrupt is taken during initialisation. *)
Definition modbus_slave_init (md : mode) (id : Z) (s : slave) : slave :=
  init_modbus_slave_internall_data id
    (init_modbus_driver md (init_modbus_data_buffers_and_queues md s)).

(** src/modbus_slave.c:66-108: the four registration functions *)
Inductive table := TCoils | TDin | TIreg | THreg.
Definition modbus_slave_register (t : table) (adr : Z) (ptr : option nat) (s : slave) : outcome slave :=
  let d := s_data s in
  match t with
  | TCoils => let* tb := register_app_data (t_coils d) adr ptr in
              Ok (s_set_data s (mk_sdata tb (t_din d) (t_ireg d) (t_hreg d) (v_bits d) (v_regs d)))
  | TDin => let* tb := register_app_data (t_din d) adr ptr in
            Ok (s_set_data s (mk_sdata (t_coils d) tb (t_ireg d) (t_hreg d) (v_bits d) (v_regs d)))
  | TIreg => let* tb := register_app_data (t_ireg d) adr ptr in
             Ok (s_set_data s (mk_sdata (t_coils d) (t_din d) tb (t_hreg d) (v_bits d) (v_regs d)))
  | THreg => let* tb := register_app_data (t_hreg d) adr ptr in
             Ok (s_set_data s (mk_sdata (t_coils d) (t_din d) (t_ireg d) tb (v_bits d) (v_regs d)))
  end.
