(** The manager with an application that makes requests from inside the callbacks (modbus_master_interface.h: data, confirmation, exception and error
    callbacks).  [react x]: the requests the application makes when it is called back with [x].  src/modbus_master.c:351-374 with the lines that
    call back executed one access after the other: what the callback changes is seen by the accesses after it.
    Simplification: the callback does not call the manager, and the requests it makes depend on the callback's arguments only (another
    [react] may be used for every line). *)
From Verif Require Export Model.Master.
Import ListNotations.
Open Scope Z_scope.

(** the requests a callback makes, one after the other (src/modbus_master.c:149-310) *)
Fixpoint cb_requests (c : cfg) (l : list api) (s : master) : outcome (master * list mitem) :=
  match l with
  | [] => Ok (s, [])
  | a :: l => let* '(s, o) := m_event c (MReq a) s in let* '(s, t) := cb_requests c l s in Ok (s, MTEv (MReq a) :: map MTOut o ++ t)
  end.
Section React.
Context (c : cfg) (react : cb -> list api).
Definition call_back (x : cb) (s : master) : outcome (master * list mitem) :=
  let* '(s, t) := cb_requests c (react x) s in Ok (s, MTOut (MoCb x) :: t).
(** no callback, or one, as the last thing a function does *)
Fixpoint call_backs (l : list cb) (s : master) : outcome (master * list mitem) :=
  match l with [] => Ok (s, []) | x :: l => let* '(s, t) := call_back x s in let* '(s, t') := call_backs l s in Ok (s, t ++ t') end.
(** src/master_internall/modbus_master_PDU.c:591-604 and 619-632, on the message number [j] *)
Fixpoint g_bits_loop (n : nat) (mk : Z -> Z -> bool -> cb) (j : nat) (slave_adr data_adr i : Z) (s : master) : outcome (master * list mitem) :=
  match n with
  | O => Ok (s, [])
  | S n' =>
      let* m := get_msg s j in
      let* byte := rd (m_resp m) (MODBUS_RESP_READ_DATA_IDX + i / 8) in
      let* '(s, t) := call_back (if negb (0 =? Z.land byte (Z.shiftl 1 (i mod 8))) then mk slave_adr (u16 (data_adr + i)) true else mk slave_adr (u16 (data_adr + i)) false) s in
      let* '(s, t') := g_bits_loop n' mk j slave_adr data_adr (i + 1) s in
      Ok (s, t ++ t')
  end.
(** src/master_internall/modbus_master_PDU.c:646-653 and 667-674 *)
Fixpoint g_regs_loop (n : nat) (mk : Z -> Z -> Z -> cb) (j : nat) (slave_adr data_adr i : Z) (s : master) : outcome (master * list mitem) :=
  match n with
  | O => Ok (s, [])
  | S n' =>
      let* m := get_msg s j in
      let* v := read_u16_from_buf (m_resp m) (MODBUS_RESP_READ_DATA_IDX + i * 2) in
      let* '(s, t) := call_back (mk slave_adr (u16 (data_adr + i)) v) s in
      let* '(s, t') := g_regs_loop n' mk j slave_adr data_adr (i + 1) s in
      Ok (s, t ++ t')
  end.
(** src/master_internall/modbus_master_PDU.c:549-577 *)
Definition g_update_master_data (j : nat) (s : master) : outcome (master * list mitem) :=
  let* m := get_msg s j in
  let* slave_adr := rd (m_resp m) MODBUS_SLAVE_ADR_IDX in
  let* resp_fun_code := rd (m_resp m) MODBUS_FUNCTION_CODE_IDX in
  let* data_adr := read_u16_from_buf (m_req m) MODBUS_REQUEST_ADR_IDX in
  let* data_qty := read_u16_from_buf (m_req m) MODBUS_REQUEST_QTY_IDX in
  let n := Z.to_nat data_qty in
  if resp_fun_code =? FC_READ_COILS then g_bits_loop n CoilRead j slave_adr data_adr 0 s
  else if resp_fun_code =? FC_READ_DISCRETE_INPUTS then g_bits_loop n DisinRead j slave_adr data_adr 0 s
  else if resp_fun_code =? FC_READ_INPUT_REGISTERS then g_regs_loop n InregRead j slave_adr data_adr 0 s
  else if resp_fun_code =? FC_READ_HOLDING_REGISTERS then g_regs_loop n HregRead j slave_adr data_adr 0 s
  else Ok (s, []).
(** src/master_internall/modbus_master_PDU.c:688-712 and 773-784: all reads are done before the one callback *)
Definition g_report_write (j : nat) (s : master) : outcome (master * list mitem) :=
  let* m := get_msg s j in let* '(_, l) := report_write_operation_confirmation m in call_backs l s.
Definition g_exception (j : nat) (s : master) : outcome (master * list mitem) :=
  let* m := get_msg s j in let* '(_, l) := process_modbus_exception_code m in call_backs l s.
(** src/master_internall/modbus_master_PDU.c:62-71 *)
Definition g_mapper : list (Z * (nat -> master -> outcome (master * list mitem))) :=
  [ (FC_READ_COILS, g_update_master_data); (FC_READ_DISCRETE_INPUTS, g_update_master_data);
    (FC_READ_HOLDING_REGISTERS, g_update_master_data); (FC_READ_INPUT_REGISTERS, g_update_master_data);
    (FC_WRITE_SINGLE_COIL, g_report_write); (FC_WRITE_SINGLE_REGISTER, g_report_write);
    (FC_WRITE_MULTIPLE_COILS, g_report_write); (FC_WRITE_MULTIPLE_REGISTER, g_report_write) ].
(** src/master_internall/modbus_master_PDU.c:341-355, 838-852 *)
Definition g_read_slave_resp (j : nat) (s : master) : outcome (master * list mitem) :=
  let* m := get_msg s j in
  if negb (RET_OK =? check_null_ptr_correctness m) then Ok (s, [])
  else
    let* ex := modbus_response_contain_exception_code m in
    if (ex : bool) then g_exception j s
    else
      let* req_fun_code := rd (m_req m) MODBUS_FUNCTION_CODE_IDX in
      match find_resp_handler req_fun_code g_mapper with Some action => action j s | None => Ok (s, []) end.
(** src/modbus_master.c:716-725, 811-815, 843-848, 878-883; every other line does not call back *)
Definition g_line (l : mpc) (s : master) : outcome (option mpc * master * list mitem) :=
  match l with
  | M718 => let* '(_, m) := cur_msg s in let* r := timeout_report m in let* '(s, t) := call_back (TimeoutErr r) s in Ok (Some M900, s, t)
  | M813 => let* '(j, _) := cur_msg s in let* '(s, t) := g_read_slave_resp j s in Ok (Some M900, s, t)
  | M844 => let* '(_, m) := cur_msg s in let* r := comm_report m RESP_RTU_CRC_ERR in let* '(s, t) := call_back (CommErr r) s in Ok (Some M900, s, t)
  | M879 => let* '(_, m) := cur_msg s in let* r := comm_report m RESP_FRAME_ERR in let* '(s, t) := call_back (CommErr r) s in Ok (Some M900, s, t)
  | _ => let* '(l', s, o) := m_line c l s in Ok (l', s, map MTOut o)
  end.
End React.
(** the manager executes its next line, the callbacks reacting as said; or an interrupt, a tick, a request from elsewhere *)
Inductive gact := GStep (react : cb -> list api) | GEv (e : mev).
Definition g_act (c : cfg) (x : gact) (k : mconf) : outcome (mconf * list mitem) :=
  match x with
  | GEv e => m_act c (MEv e) k
  | GStep react => match mc_pc k with None => m_act c MStep k | Some l => let* '(l', s, t) := g_line c react l (mc_s k) in Ok (mk_mconf s l', t) end
  end.
Fixpoint g_run (c : cfg) (acts : list gact) (k : mconf) : outcome (mconf * list mitem) :=
  match acts with
  | [] => Ok (k, [])
  | x :: l => let* '(k1, t1) := g_act c x k in let* '(k2, t2) := g_run c l k1 in Ok (k2, t1 ++ t2)
  end.
