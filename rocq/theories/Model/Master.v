(** src/modbus_master.c: request API, initialisation, the master's state machine as a machine that executes
    one C line at a time, interrupt callbacks and driver events. *)
From Verif Require Export Model.MasterPDU Model.Queue.

(** src/common/modbus_type.h:129-136  modbus_master_state_t *)
Inductive mstate := M_IDLE | M_REPEAT_REQUEST | M_TRANSMITTING_REQ | M_RESP_WAITING | M_RESP_RECIVED.

(** src/modbus_master.c:47-65 static variables; [mm_drv]: RTU_driver is not NULL.
    A [modbus_msg_t *] is the index of the message in modbus_msg[] ([None] = NULL).
    [mm_sub]: callbacks subscribed; [mm_rx]: the driver's receive pointer is &modbus_msg[i].resp. *)
Record master := mk_master {
  mm_st : mstate;              (* modbus_master_manager_state_machine *)
  mm_drv : bool;
  mm_free : queue nat;         (* master_free_queue *)
  mm_txq : queue nat;          (* master_tx_rx_queue *)
  mm_msgs : list msg;          (* modbus_msg[] with the buffers of modbus_master_RTU.c:28-29 *)
  mm_cur : option nat;         (* msg_buf *)
  mm_timer : Z;                (* modbus_master_resp_timeout_timer *)
  mm_rep : Z;                  (* modbus_master_msg_repeat_couter *)
  mm_t15 : flag; mm_t35 : flag; mm_fe : flag; mm_tx : flag; mm_crc : flag;
  mm_sub : bool;
  mm_rx : option nat
}.
Definition m_set_st s x := mk_master x (mm_drv s) (mm_free s) (mm_txq s) (mm_msgs s) (mm_cur s) (mm_timer s) (mm_rep s) (mm_t15 s) (mm_t35 s) (mm_fe s) (mm_tx s) (mm_crc s) (mm_sub s) (mm_rx s).
Definition m_set_drv s x := mk_master (mm_st s) x (mm_free s) (mm_txq s) (mm_msgs s) (mm_cur s) (mm_timer s) (mm_rep s) (mm_t15 s) (mm_t35 s) (mm_fe s) (mm_tx s) (mm_crc s) (mm_sub s) (mm_rx s).
Definition m_set_free s x := mk_master (mm_st s) (mm_drv s) x (mm_txq s) (mm_msgs s) (mm_cur s) (mm_timer s) (mm_rep s) (mm_t15 s) (mm_t35 s) (mm_fe s) (mm_tx s) (mm_crc s) (mm_sub s) (mm_rx s).
Definition m_set_txq s x := mk_master (mm_st s) (mm_drv s) (mm_free s) x (mm_msgs s) (mm_cur s) (mm_timer s) (mm_rep s) (mm_t15 s) (mm_t35 s) (mm_fe s) (mm_tx s) (mm_crc s) (mm_sub s) (mm_rx s).
Definition m_set_msgs s x := mk_master (mm_st s) (mm_drv s) (mm_free s) (mm_txq s) x (mm_cur s) (mm_timer s) (mm_rep s) (mm_t15 s) (mm_t35 s) (mm_fe s) (mm_tx s) (mm_crc s) (mm_sub s) (mm_rx s).
Definition m_set_cur s x := mk_master (mm_st s) (mm_drv s) (mm_free s) (mm_txq s) (mm_msgs s) x (mm_timer s) (mm_rep s) (mm_t15 s) (mm_t35 s) (mm_fe s) (mm_tx s) (mm_crc s) (mm_sub s) (mm_rx s).
Definition m_set_timer s x := mk_master (mm_st s) (mm_drv s) (mm_free s) (mm_txq s) (mm_msgs s) (mm_cur s) x (mm_rep s) (mm_t15 s) (mm_t35 s) (mm_fe s) (mm_tx s) (mm_crc s) (mm_sub s) (mm_rx s).
Definition m_set_rep s x := mk_master (mm_st s) (mm_drv s) (mm_free s) (mm_txq s) (mm_msgs s) (mm_cur s) (mm_timer s) x (mm_t15 s) (mm_t35 s) (mm_fe s) (mm_tx s) (mm_crc s) (mm_sub s) (mm_rx s).
Definition m_set_t15 s x := mk_master (mm_st s) (mm_drv s) (mm_free s) (mm_txq s) (mm_msgs s) (mm_cur s) (mm_timer s) (mm_rep s) x (mm_t35 s) (mm_fe s) (mm_tx s) (mm_crc s) (mm_sub s) (mm_rx s).
Definition m_set_t35 s x := mk_master (mm_st s) (mm_drv s) (mm_free s) (mm_txq s) (mm_msgs s) (mm_cur s) (mm_timer s) (mm_rep s) (mm_t15 s) x (mm_fe s) (mm_tx s) (mm_crc s) (mm_sub s) (mm_rx s).
Definition m_set_fe s x := mk_master (mm_st s) (mm_drv s) (mm_free s) (mm_txq s) (mm_msgs s) (mm_cur s) (mm_timer s) (mm_rep s) (mm_t15 s) (mm_t35 s) x (mm_tx s) (mm_crc s) (mm_sub s) (mm_rx s).
Definition m_set_tx s x := mk_master (mm_st s) (mm_drv s) (mm_free s) (mm_txq s) (mm_msgs s) (mm_cur s) (mm_timer s) (mm_rep s) (mm_t15 s) (mm_t35 s) (mm_fe s) x (mm_crc s) (mm_sub s) (mm_rx s).
Definition m_set_crc s x := mk_master (mm_st s) (mm_drv s) (mm_free s) (mm_txq s) (mm_msgs s) (mm_cur s) (mm_timer s) (mm_rep s) (mm_t15 s) (mm_t35 s) (mm_fe s) (mm_tx s) x (mm_sub s) (mm_rx s).
Definition m_set_sub s x := mk_master (mm_st s) (mm_drv s) (mm_free s) (mm_txq s) (mm_msgs s) (mm_cur s) (mm_timer s) (mm_rep s) (mm_t15 s) (mm_t35 s) (mm_fe s) (mm_tx s) (mm_crc s) x (mm_rx s).
Definition m_set_rx s x := mk_master (mm_st s) (mm_drv s) (mm_free s) (mm_txq s) (mm_msgs s) (mm_cur s) (mm_timer s) (mm_rep s) (mm_t15 s) (mm_t35 s) (mm_fe s) (mm_tx s) (mm_crc s) (mm_sub s) x.

(** Static initial values: src/modbus_master.c:47-65, src/master_internall/modbus_master_RTU.c:28-29 *)
Definition master_static (c : cfg) : master :=
  mk_master M_IDLE false (queue_zero (c_queue c)) (queue_zero (c_queue c))
    (repeat (mk_msg (mk_rr false (repeat 0 256) 0) (mk_rr false (repeat 0 256) 0)) (Z.to_nat (c_queue c)))
    None 0 0 FUNKNOWN FUNKNOWN FUNKNOWN FUNKNOWN FUNKNOWN false None.

(** src/modbus_master.c:151, 171, 191, 211, 231, 251, 272, 293: the parameter structure *)
Definition api_param (a : api) : req_param :=
  match a with
  | ReadCoils adr qty id => mk_param FC_READ_COILS adr qty id false None 0 None
  | ReadDiscreteInputs adr qty id => mk_param FC_READ_DISCRETE_INPUTS adr qty id false None 0 None
  | ReadInputReg adr qty id => mk_param FC_READ_INPUT_REGISTERS adr qty id false None 0 None
  | ReadHoldingReg adr qty id => mk_param FC_READ_HOLDING_REGISTERS adr qty id false None 0 None
  | WriteSingleCoil adr id v => mk_param FC_WRITE_SINGLE_COIL adr 0 id v None 0 None
  | WriteSingleReg adr id v => mk_param FC_WRITE_SINGLE_REGISTER adr 0 id false None v None
  | WriteMultipleReg adr qty id d => mk_param FC_WRITE_MULTIPLE_REGISTER adr qty id false None 0 d
  | WriteMultipleCoils adr qty id d => mk_param FC_WRITE_MULTIPLE_COILS adr qty id false d 0 None
  end.

(** message number i *)
Definition get_msg (s : master) (i : nat) : outcome msg := aget (mm_msgs s) (Z.of_nat i).
Definition put_msg (s : master) (i : nat) (m : msg) : outcome master :=
  let* l := aset (mm_msgs s) (Z.of_nat i) m in Ok (m_set_msgs s l).

(** src/modbus_master.c:484-505  generate_request *)
Definition generate_request (c : cfg) (p : req_param) (s : master) : outcome (req_ret * master) :=
  let* '(ptr, q) := modbus_queue_pop (c_queue c) (mm_free s) in
  let s := m_set_free s q in
  match ptr with
  | None => Ok (FREE_QUEUE_EMPTY_ERROR, s)
  | Some i =>
      let* m := get_msg s i in
      let* '(st, m) := generate_request_PDU_data m p in
      let* s := put_msg s i m in
      if st <? 0 then Ok (LIB_PDU_REQ_ERROR, s)
      else
        let* '(st, r) := modbus_RTU_send (m_req m) (p_id p) in
        let* s := put_msg s i (set_req m r) in
        if RET_ERROR =? st then Ok (LIB_RTU_SEND_ERROR, s)
        else
          let* '(q, _) := modbus_queue_push (c_queue c) (mm_txq s) (Some i) in
          Ok (REQUEST_SEND_TO_QUEUE, m_set_txq s q)
  end.
(** src/modbus_master.c:149-295: the eight request functions *)
Definition modbus_master_request (c : cfg) (a : api) (s : master) : outcome (req_ret * master) :=
  generate_request c (api_param a) s.

(** src/modbus_master.c:422-441  register_msg_req_resp_data_buffers *)
Definition register_msg_req_resp_data_buffers (md : mode) (s : master) : master :=
  let b := match md with RTU => true | UNKNOWN_MODE => false end in
  m_set_msgs s
    (map (fun m => mk_msg (mk_rr b (rr_buf (m_req m)) (rr_len (m_req m)))
                          (mk_rr b (rr_buf (m_resp m)) (rr_len (m_resp m)))) (mm_msgs s)).

(** src/modbus_master.c:453-461 (the uint8_t counter reaches N because N <= 255) *)
Fixpoint push_all_loop (N : Z) (n i : nat) (q : queue nat) : outcome (queue nat) :=
  match n with
  | O => Ok q
  | S n' => let* '(q, _) := modbus_queue_push N q (Some i) in push_all_loop N n' (S i) q
  end.

(** src/modbus_master.c:311-336  modbus_master_init.  Simplification: no interrupt during init (see Model/MasterInit.v). *)
Definition modbus_master_init (c : cfg) (md : mode) (s : master) : outcome master :=
  let s := register_msg_req_resp_data_buffers md s in
  let s := m_set_free s (modbus_queue_init (mm_free s)) in
  let s := m_set_txq s (modbus_queue_init (mm_txq s)) in
  let* q := push_all_loop (c_queue c) (Z.to_nat (c_queue c)) 0 (mm_free s) in
  let s := m_set_free s q in
  let s := m_set_drv s true in
  let s := m_set_sub s true in
  let s := m_set_tx s CLEARED in
  let s := m_set_t15 s CLEARED in
  let s := m_set_t35 s CLEARED in
  let s := m_set_fe s CLEARED in
  let s := m_set_crc s CLEARED in
  let s := m_set_st s M_IDLE in
  let s := m_set_rep s 0 in
  Ok (m_set_timer s 0).

(** Observations: driver calls, application callbacks, and internal landmarks used by specifications. *)
Inductive mout :=
| MoSend (frame : list Z)       (* line 404: RTU_driver->send(data, len) *)
| MoCb (c : cb)                 (* a callback *)
| MoCheck (frame : list Z)      (* line 749: modbus_RTU_recv examines the received bytes *)
| MoHandle                      (* line 748: the master starts handling a reception, the 3.5-character flag is cleared *)
| MoClear                       (* lines 671, 758, 838, 873: resp.len = 0, reception starts anew *)
| MoNoFrameErr                  (* line 792: no frame error is pending *)
| MoRetry (e : resp_err)        (* lines 837, 872: the error is consumed, the request will be repeated *)
| MoFree                        (* line 901: the message buffer is handed back *)
| MoRet (a : api) (r : req_ret). (* a request function returned r *)

(** Program counter: line of src/modbus_master.c; suffixes b, c: further operands of [&&] in that line. *)
Inductive mpc :=
| M649 | M651 | M404 | M405 | M406 | M407
| M669 | M671 | M672 | M673
| M690 | M694 | M718
| M746 | M747 (id : Z) | M748 (id : Z) | M749 (id : Z) | M750 (st : Z) | M752 | M753 | M754
| M756 (st : Z) | M758 | M762 | M763
| M784 | M784b | M788 | M788b | M792 | M792b | M792c
| M813
| M833 | M834 | M836 | M837 | M838 | M844
| M868 | M869 | M871 | M872 | M873 | M879
| M900 | M901 | M902.

(** src/modbus_master.c:353-373: the switch; the default case cannot occur for the five enumerators *)
Definition m_dispatch (s : master) : mpc :=
  match mm_st s with
  | M_IDLE => M649
  | M_REPEAT_REQUEST => M404
  | M_TRANSMITTING_REQ => M669
  | M_RESP_WAITING => M690
  | M_RESP_RECIVED => M784
  end.

(** dereference msg_buf *)
Definition cur_msg (s : master) : outcome (nat * msg) :=
  match mm_cur s with
  | None => UB
  | Some i => let* m := get_msg s i in Ok (i, m)
  end.
Definition set_cur_resp_len (s : master) (n : Z) : outcome master :=
  let* '(i, m) := cur_msg s in put_msg s i (set_resp m (set_len (m_resp m) n)).

(** src/modbus_master.c:715-724  modbus_master_resp_timeout_handle: the report; line 721 takes the function
    code from the RESPONSE buffer.  Simplification: one step (the only byte an interrupt could change is read once). *)
Definition timeout_report (m : msg) : outcome err_report :=
  let* id := rd (m_req m) MODBUS_SLAVE_ADR_IDX in
  let* adr := read_u16_from_buf (m_req m) MODBUS_REQUEST_ADR_IDX in
  let* qty := read_u16_from_buf (m_req m) MODBUS_REQUEST_QTY_IDX in
  let* fc := rd (m_resp m) MODBUS_FUNCTION_CODE_IDX in
  Ok (mk_err id fc adr qty RESP_TIMEOUT_ERR).

(** src/modbus_master.c:843-847 and 878-882: the static report; data_adr and data_qty are never assigned, so
    they keep their static initial value 0.  Simplification: one step. *)
Definition comm_report (m : msg) (e : resp_err) : outcome err_report :=
  let* id := rd (m_resp m) MODBUS_SLAVE_ADR_IDX in
  let* fc := rd (m_resp m) MODBUS_FUNCTION_CODE_IDX in
  Ok (mk_err id (Z.land fc 0x7F) 0 0 e).

Definition m_line (c : cfg) (l : mpc) (s : master) : outcome (option mpc * master * list mout) :=
  let go l s := Ok (Some l, s, []) in
  let ret s := Ok (None, s, []) in
  match l with
  (* modbus_master_idle_state_handling, src/modbus_master.c:647-654 *)
  | M649 => if check_data_to_send_availability (mm_txq s) then go M651 s else ret s
  | M651 =>
      let* '(p, q) := modbus_queue_pop (c_queue c) (mm_txq s) in
      go M404 (m_set_cur (m_set_txq s q) p)
  (* modbus_master_send_req_from_msg_buf, src/modbus_master.c:402-408 *)
  | M404 =>
      let* '(_, m) := cur_msg s in
      if mm_drv s
      then Ok (Some M405, s, [MoSend (firstn (Z.to_nat (rr_len (m_req m))) (rr_buf (m_req m)))])
      else UB
  | M405 =>
      (* &msg_buf->resp; NULL msg_buf would be UB *)
      let* '(i, _) := cur_msg s in
      if mm_drv s then go M406 (m_set_rx s (Some i)) else UB
  | M406 => go M407 (m_set_tx s SET)
  | M407 => ret (m_set_st s M_TRANSMITTING_REQ)
  (* modbus_master_transmitting_state_handling, src/modbus_master.c:667-675 *)
  | M669 => if is_clr (mm_tx s) then go M671 s else ret s
  | M671 => let* s := set_cur_resp_len s 0 in Ok (Some M672, s, [MoClear])
  | M672 => go M673 (m_set_timer s (u32 (c_timeout c)))
  | M673 => ret (m_set_st s M_RESP_WAITING)
  (* modbus_master_resp_waiting_state_handling, src/modbus_master.c:688-699 *)
  | M690 => if is_set (mm_t15 s) then go M746 s else go M694 s
  | M694 => if 1 =? mm_timer s then go M718 s else ret s
  | M718 =>
      let* '(_, m) := cur_msg s in
      let* r := timeout_report m in
      Ok (Some M900, s, [MoCb (TimeoutErr r)])
  (* modbus_master_RTU_recv_state_handle, src/modbus_master.c:743-765 *)
  | M746 => let* '(_, m) := cur_msg s in
            let* id := rd (m_req m) MODBUS_SLAVE_ADR_IDX in go (M747 id) s
  | M747 id => go (M748 id) (m_set_t15 s CLEARED)
  | M748 id => Ok (Some (M749 id), m_set_t35 s CLEARED, [MoHandle])
  | M749 id =>
      let* '(_, m) := cur_msg s in
      let* st := modbus_RTU_recv (m_resp m) id in
      Ok (Some (M750 st), s, [MoCheck (firstn (Z.to_nat (rr_len (m_resp m))) (rr_buf (m_resp m)))])
  | M750 st => if RET_ERROR_CRC =? st then go M752 s else go (M756 st) s
  | M752 => go M753 (m_set_timer s 0)
  | M753 => go M754 (m_set_crc s SET)
  | M754 => ret (m_set_st s M_RESP_RECIVED)
  | M756 st => if RET_ERROR_SLAVE_ID =? st then go M758 s else go M762 s
  | M758 => let* s := set_cur_resp_len s 0 in Ok (None, s, [MoClear])
  | M762 => go M763 (m_set_timer s 0)
  | M763 => ret (m_set_st s M_RESP_RECIVED)
  (* modbus_master_resp_recived_state_handling, src/modbus_master.c:782-800 *)
  | M784 => if is_set (mm_fe s) then go M784b s else go M788 s
  | M784b => if is_set (mm_t35 s) then go M868 s else go M788 s
  | M788 => if is_set (mm_crc s) then go M788b s else go M792 s
  | M788b => if is_set (mm_t35 s) then go M833 s else go M792 s
  | M792 => if is_clr (mm_fe s) then Ok (Some M792b, s, [MoNoFrameErr]) else ret s
  | M792b => if is_clr (mm_crc s) then go M792c s else ret s
  | M792c => if is_set (mm_t35 s) then go M813 s else ret s
  (* modbus_master_msg_recived_correctly_state_handle, src/modbus_master.c:811-815.
     Simplification: the interpretation of the response (all its callbacks) is one step. *)
  | M813 =>
      let* '(_, m) := cur_msg s in
      let* '(_, l) := modbus_master_read_slave_resp m in
      Ok (Some M900, s, map MoCb l)
  (* modbus_master_RTU_CRC_error_state_handling, src/modbus_master.c:831-850 *)
  | M833 => go M834 (m_set_rep s (u8 (mm_rep s + 1)))
  | M834 => if mm_rep s <=? c_repeat c then go M836 s else go M844 s
  | M836 => go M837 (m_set_st s M_REPEAT_REQUEST)
  | M837 => Ok (Some M838, m_set_crc s CLEARED, [MoRetry RESP_RTU_CRC_ERR])
  | M838 => let* s := set_cur_resp_len s 0 in Ok (None, s, [MoClear])
  | M844 =>
      let* '(_, m) := cur_msg s in
      let* r := comm_report m RESP_RTU_CRC_ERR in
      Ok (Some M900, s, [MoCb (CommErr r)])
  (* modbus_master_frame_error_state_handling, src/modbus_master.c:866-885 *)
  | M868 => go M869 (m_set_rep s (u8 (mm_rep s + 1)))
  | M869 => if mm_rep s <=? c_repeat c then go M871 s else go M879 s
  | M871 => go M872 (m_set_st s M_REPEAT_REQUEST)
  | M872 => Ok (Some M873, m_set_fe s CLEARED, [MoRetry RESP_FRAME_ERR])
  | M873 => let* s := set_cur_resp_len s 0 in Ok (None, s, [MoClear])
  | M879 =>
      let* '(_, m) := cur_msg s in
      let* r := comm_report m RESP_FRAME_ERR in
      Ok (Some M900, s, [MoCb (CommErr r)])
  (* modbus_master_msg_process_end, src/modbus_master.c:898-903 *)
  | M900 => go M901 (m_set_rep s 0)
  | M901 =>
      let* '(q, p) := modbus_queue_push (c_queue c) (mm_free s) (mm_cur s) in
      Ok (Some M902, m_set_cur (m_set_free s q) p, [MoFree])
  | M902 => ret (m_set_st s M_IDLE)
  end.

(** Interrupts, ticks and request calls *)
Inductive mev :=
| MTxDone | MT15 | MT35 | MFrameErr
| MRx (b : Z)
| MTick          (* update_modbus_master_timout_timer, called every millisecond *)
| MReq (a : api). (* the application calls a request function *)

(** src/modbus_master.c:571-619 callbacks, 385-391 update_modbus_master_timout_timer, request API;
    MRx: examples/STM32G070RB_MODBUS_MASTER/Drivers/STM32G0_Drivers/modbus_driver_interface.c
    MODBUS_USART_IRQHandler [rx_msg->data[rx_msg->len] = RDR; rx_msg->len++].
    Simplification: a request call is one step. *)
Definition m_event (c : cfg) (e : mev) (s : master) : outcome (master * list mout) :=
  match e with
  | MTxDone => Ok (if mm_sub s then m_set_tx s CLEARED else s, [])
  | MT15 => Ok (if mm_sub s then m_set_t15 s SET else s, [])
  | MT35 => Ok (if mm_sub s then m_set_t35 s SET else s, [])
  | MFrameErr => Ok (if mm_sub s then m_set_fe s SET else s, [])
  | MRx b =>
      match mm_rx s with
      | None => Ok (s, [])
      | Some i =>
          let* m := get_msg s i in
          let r := m_resp m in
          let* r := wr r (rr_len r) (u8 b) in
          let* s := put_msg s i (set_resp m (set_len r (u8 (rr_len r + 1)))) in
          Ok (s, [])
      end
  | MTick => Ok (if negb (mm_timer s =? 0) then m_set_timer s (mm_timer s - 1) else s, [])
  | MReq a => let* '(r, s) := modbus_master_request c a s in Ok (s, [MoRet a r])
  end.

Inductive mact := MStep | MEv (e : mev).
Record mconf := mk_mconf { mc_s : master; mc_pc : option mpc }.
Inductive mitem := MTEv (e : mev) | MTOut (o : mout).

Definition m_act (c : cfg) (a : mact) (k : mconf) : outcome (mconf * list mitem) :=
  match a with
  | MEv e => let* '(s, o) := m_event c e (mc_s k) in
             Ok (mk_mconf s (mc_pc k), MTEv e :: map MTOut o)
  | MStep =>
      match mc_pc k with
      | None => Ok (mk_mconf (mc_s k) (Some (m_dispatch (mc_s k))), [])
      | Some l =>
          let* '(l', s, o) := m_line c l (mc_s k) in
          Ok (mk_mconf s l', map MTOut o)
      end
  end.

Fixpoint m_run (c : cfg) (sched : list mact) (k : mconf) : outcome (mconf * list mitem) :=
  match sched with
  | [] => Ok (k, [])
  | a :: rest =>
      let* '(k1, t1) := m_act c a k in
      let* '(k2, t2) := m_run c rest k1 in
      Ok (k2, t1 ++ t2)
  end.

(** An uninterrupted call of update_modbus_master_manager (src/modbus_master.c:351-374) *)
Fixpoint m_lines (fuel : nat) (c : cfg) (l : mpc) (s : master) : outcome (master * list mout) :=
  match fuel with
  | O => Diverge
  | S f =>
      let* '(l', s, o) := m_line c l s in
      match l' with
      | None => Ok (s, o)
      | Some l' => let* '(s, o') := m_lines f c l' s in Ok (s, o ++ o')
      end
  end.
Definition update_modbus_master_manager (c : cfg) (s : master) : outcome (master * list mout) :=
  m_lines 16 c (m_dispatch s) s.
