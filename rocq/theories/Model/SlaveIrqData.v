(** src/slave_internall/modbus_slave_PDU.c with an application that writes its variables from interrupt handlers while a
    request is being handled.  The accesses of the handlers to application variables are lines 60-139 of
    modbus_slave_data.c; before the k-th access of a request (k = 0, 1, ...) the interrupt handlers make the writes [app k].
    An access to one variable (a bool or an aligned uint16_t) is indivisible on the processor of the examples (Cortex-M0+);
    on an 8-bit processor a register is two accesses and this model does not apply.  Everything but the
    moments of the accesses is as in Model.SlavePDU. *)
From Verif Require Export Model.SlavePDU.

(** a write by the application to one of its variables *)
Inductive aw := WBit (x : nat) (v : bool) | WReg (x : nat) (v : Z).
Fixpoint at_put {A : Type} (l : list A) (i : nat) (v : A) : list A :=
  match l, i with [], _ => [] | _ :: t, O => v :: t | x :: t, S j => x :: at_put t j v end.
Definition aw_do (d : sdata) (w : aw) : sdata :=
  match w with WBit x v => set_bits d (at_put (v_bits d) x v) | WReg x v => set_regs d (at_put (v_regs d) x v) end.
Definition aw_run (d : sdata) (l : list aw) : sdata := fold_left aw_do l d.

Section Irq.
Context (app : nat -> list aw).
Definition before (i : Z) (d : sdata) : sdata := aw_run d (app (Z.to_nat i)).

(** modbus_slave_PDU.c:157-166 *)
Fixpoint read_coil_loop_i (n : nat) (d : sdata) (m : msg) (adr i last : Z) : outcome ((msg + msg * Z) * sdata) :=
  match n with
  | O => Ok (inr (m, last), d)
  | S n' =>
      let d := before i d in
      let* v := get_coil_din_state (t_coils d) (v_bits d) (adr + i) in
      if RET_ERROR =? v
      then let* m := set_exception_code_resp m MODBUS_SERVER_DEVICE_FAILURE_ERROR in Ok (inl m, d)
      else
        let* old := rd (m_resp m) (MODBUS_RESP_READ_DATA_IDX + i / 8) in
        let* r := wr (m_resp m) (MODBUS_RESP_READ_DATA_IDX + i / 8) (u8 (Z.lor old (Z.shiftl v (i mod 8)))) in
        read_coil_loop_i n' d (set_resp m r) adr (i + 1) v
  end.
(** modbus_slave_PDU.c:148-168 *)
Definition handle_slave_read_coil_service_i (m : msg) (d : sdata) : outcome (Z * msg * sdata) :=
  let* adr := read_u16_from_buf (m_req m) MODBUS_REQUEST_ADR_IDX in
  let* coil_qty := read_u16_from_buf (m_req m) MODBUS_REQUEST_QTY_IDX in
  let byte_cnt := get_coil_din_byte_count coil_qty in
  let* r := wr (m_resp m) MODBUS_RESP_READ_BYTE_CNT_IDX byte_cnt in
  let* r := clear_coil_din_status_byte r MODBUS_RESP_READ_DATA_IDX byte_cnt in
  let* '(e, d) := read_coil_loop_i (Z.to_nat coil_qty) d (set_resp m r) adr 0 RET_OK in
  match e with
  | inl m => Ok (RET_ERROR, m, d)
  | inr (m, v) => Ok (update_msg_len_and_ret_status m v byte_cnt, d)
  end.
(** modbus_slave_PDU.c:123-135 *)
Definition modbus_slave_read_coils_i (c : cfg) (m : msg) (d : sdata) : outcome (Z * msg * sdata) :=
  let* r := wr (m_resp m) MODBUS_FUNCTION_CODE_IDX FC_READ_COILS in
  let* '(status, m) := check_read_req_data_correcntess (set_resp m r) MODBUS_MAX_READ_COILS_QTY (u16 (c_coils c)) in
  if negb (RET_ERROR =? status) then handle_slave_read_coil_service_i m d else Ok (status, m, d).

(** modbus_slave_PDU.c:220-232 *)
Fixpoint read_din_loop_i (n : nat) (d : sdata) (m : msg) (adr i last : Z) : outcome (msg * Z * sdata) :=
  match n with
  | O => Ok (m, last, d)
  | S n' =>
      let d := before i d in
      let* v := get_coil_din_state (t_din d) (v_bits d) (adr + i) in
      if RET_ERROR =? v
      then let* m := set_exception_code_resp m MODBUS_SERVER_DEVICE_FAILURE_ERROR in Ok (m, v, d)
      else
        let* old := rd (m_resp m) (MODBUS_RESP_READ_DATA_IDX + i / 8) in
        let* r := wr (m_resp m) (MODBUS_RESP_READ_DATA_IDX + i / 8) (u8 (Z.lor old (Z.shiftl v (i mod 8)))) in
        read_din_loop_i n' d (set_resp m r) adr (i + 1) v
  end.
(** modbus_slave_PDU.c:211-234 *)
Definition handle_slave_read_discrete_inputs_service_i (m : msg) (d : sdata) : outcome (Z * msg * sdata) :=
  let* adr := read_u16_from_buf (m_req m) MODBUS_REQUEST_ADR_IDX in
  let* din_qty := read_u16_from_buf (m_req m) MODBUS_REQUEST_QTY_IDX in
  let byte_cnt := get_coil_din_byte_count din_qty in
  let* r := wr (m_resp m) MODBUS_RESP_READ_BYTE_CNT_IDX byte_cnt in
  let* r := clear_coil_din_status_byte r MODBUS_RESP_READ_DATA_IDX byte_cnt in
  let* '(m, v, d) := read_din_loop_i (Z.to_nat din_qty) d (set_resp m r) adr 0 RET_OK in
  Ok (update_msg_len_and_ret_status m v byte_cnt, d).
(** modbus_slave_PDU.c:184-194 *)
Definition modbus_slave_read_discrete_inputs_i (c : cfg) (m : msg) (d : sdata) : outcome (Z * msg * sdata) :=
  let* r := wr (m_resp m) MODBUS_FUNCTION_CODE_IDX FC_READ_DISCRETE_INPUTS in
  let* '(status, m) := check_read_req_data_correcntess (set_resp m r) MODBUS_MAX_READ_DISCRETE_INPUTS_QTY (u16 (c_din c)) in
  if RET_OK =? status then handle_slave_read_discrete_inputs_service_i m d else Ok (status, m, d).

(** modbus_slave_PDU.c:283-295 and 347-359; [tab]: which of the two tables *)
Fixpoint read_reg_loop_i (tab : sdata -> list (option nat)) (n : nat) (d : sdata) (m : msg) (adr i last : Z) : outcome (msg * Z * sdata) :=
  match n with
  | O => Ok (m, last, d)
  | S n' =>
      let d := before i d in
      let* v := get_register_state (tab d) (v_regs d) (adr + i) in
      if RET_ERROR =? v
      then let* m := set_exception_code_resp m MODBUS_SERVER_DEVICE_FAILURE_ERROR in Ok (m, v, d)
      else
        let* r := write_u16_to_buf (m_resp m) (MODBUS_RESP_READ_DATA_IDX + i * 2) (u16 v) in
        read_reg_loop_i tab n' d (set_resp m r) adr (i + 1) v
  end.
(** modbus_slave_PDU.c:275-297 ([tab] = t_hreg) and 340-361 ([tab] = t_ireg) *)
Definition handle_slave_read_reg_service_i (tab : sdata -> list (option nat)) (m : msg) (d : sdata) : outcome (Z * msg * sdata) :=
  let* adr := read_u16_from_buf (m_req m) MODBUS_REQUEST_ADR_IDX in
  let* reg_qty := read_u16_from_buf (m_req m) MODBUS_REQUEST_QTY_IDX in
  let byte_cnt := u8 (2 * reg_qty) in
  let* r := wr (m_resp m) MODBUS_RESP_READ_BYTE_CNT_IDX byte_cnt in
  let* '(m, v, d) := read_reg_loop_i tab (Z.to_nat reg_qty) d (set_resp m r) adr 0 RET_OK in
  Ok (update_msg_len_and_ret_status m v byte_cnt, d).
(** modbus_slave_PDU.c:249-259 *)
Definition modbus_slave_read_holding_reg_i (c : cfg) (m : msg) (d : sdata) : outcome (Z * msg * sdata) :=
  let* r := wr (m_resp m) MODBUS_FUNCTION_CODE_IDX FC_READ_HOLDING_REGISTERS in
  let* '(status, m) := check_read_req_data_correcntess (set_resp m r) MODBUS_MAX_READ_REG_QTY (u16 (c_hreg c)) in
  if RET_OK =? status then handle_slave_read_reg_service_i t_hreg m d else Ok (status, m, d).
(** modbus_slave_PDU.c:314-324 *)
Definition modbus_slave_read_input_reg_i (c : cfg) (m : msg) (d : sdata) : outcome (Z * msg * sdata) :=
  let* r := wr (m_resp m) MODBUS_FUNCTION_CODE_IDX FC_READ_INPUT_REGISTERS in
  let* '(status, m) := check_read_req_data_correcntess (set_resp m r) MODBUS_MAX_READ_REG_QTY (u16 (c_ireg c)) in
  if RET_OK =? status then handle_slave_read_reg_service_i t_ireg m d else Ok (status, m, d).

(** modbus_slave_PDU.c:376-390: one access, in handle_slave_write_single_coil_service (437-452) *)
Definition modbus_slave_write_single_coil_i (c : cfg) (m : msg) (d : sdata) : outcome (Z * msg * sdata) :=
  let* adr := read_u16_from_buf (m_req m) MODBUS_REQUEST_ADR_IDX in
  let* coil_state := read_u16_from_buf (m_req m) MODBUS_RESP_WRITE_SINGLE_DATA_IDX in
  let* r := wr (m_resp m) MODBUS_FUNCTION_CODE_IDX FC_WRITE_SINGLE_COIL in
  let* '(status, m) := check_write_single_coil_req_data_correctness c (set_resp m r) adr coil_state in
  if status =? RET_OK
  then handle_slave_write_single_coil_service m (before 0 d) adr coil_state
  else Ok (status, m, d).
(** modbus_slave_PDU.c:803-822 *)
Fixpoint set_coil_din_value_loop_i (n : nat) (req : rr) (base start_adr i : Z) (d : sdata) (last : Z) : outcome (Z * sdata) :=
  match n with
  | O => Ok (last, d)
  | S n' =>
      let* byte := rd req (base + i / 8) in
      let d := before i d in
      let* '(status, cells) :=
        if negb (Z.land byte (Z.shiftl 1 (i mod 8)) =? 0)
        then set_coil_state (t_coils d) (v_bits d) (start_adr + i) true
        else set_coil_state (t_coils d) (v_bits d) (start_adr + i) false in
      let d := set_bits d cells in
      if status =? RET_ERROR then Ok (status, d)
      else set_coil_din_value_loop_i n' req base start_adr (i + 1) d status
  end.
(** modbus_slave_PDU.c:466-490 *)
Definition modbus_slave_write_multiple_coils_i (c : cfg) (m : msg) (d : sdata) : outcome (Z * msg * sdata) :=
  let* r := wr (m_resp m) MODBUS_FUNCTION_CODE_IDX FC_WRITE_MULTIPLE_COILS in
  let* '(status, m) := check_write_req_data_correctness (set_resp m r) MODBUS_MAX_WRITE_COILS_QTY (u16 (c_coils c)) in
  if RET_OK =? status
  then
    let* adr := read_u16_from_buf (m_req m) MODBUS_REQUEST_ADR_IDX in
    let* coils_qty := read_u16_from_buf (m_req m) MODBUS_REQUEST_QTY_IDX in
    let* '(status, d) := set_coil_din_value_loop_i (Z.to_nat coils_qty) (m_req m) MODBUS_REQUEST_WRITE_MULTI_DATA_IDX adr 0 d RET_OK in
    if RET_OK =? status
    then
      let* r := write_u16_to_buf (m_resp m) MODBUS_RESP_WRITE_ADR_IDX adr in
      let* r := write_u16_to_buf r MODBUS_RESP_WRITE_MULTIPLE_DATA_QTY_IDX coils_qty in
      Ok (status, set_resp m (set_len r MODBUS_WRITE_MULTI_RESP_LEN), d)
    else
      let* m := set_exception_code_resp m MODBUS_SERVER_DEVICE_FAILURE_ERROR in
      Ok (status, m, d)
  else Ok (status, m, d).
(** modbus_slave_PDU.c:504-520: one access, in handle_slave_write_single_reg_service (534-550) *)
Definition modbus_slave_write_single_reg_i (c : cfg) (m : msg) (d : sdata) : outcome (Z * msg * sdata) :=
  let* adr := read_u16_from_buf (m_req m) MODBUS_REQUEST_ADR_IDX in
  let* r := wr (m_resp m) MODBUS_FUNCTION_CODE_IDX FC_WRITE_SINGLE_REGISTER in
  let m := set_resp m r in
  if c_hreg c <=? adr
  then let* m := set_exception_code_resp m MODBUS_ILLEGAL_DATA_ADDRESS_ERROR in Ok (RET_ERROR, m, d)
  else handle_slave_write_single_reg_service m (before 0 d).
(** modbus_slave_PDU.c:598-603 *)
Fixpoint write_multi_reg_loop_i (n : nat) (req : rr) (adr i : Z) (d : sdata) (last : Z) : outcome (Z * sdata) :=
  match n with
  | O => Ok (last, d)
  | S n' =>
      let* v := read_u16_from_buf req (MODBUS_REQUEST_WRITE_MULTI_DATA_IDX + i * 2) in
      let d := before i d in
      let* '(status, cells) := set_register_value (t_hreg d) (v_regs d) (adr + i) v in
      let d := set_regs d cells in
      if RET_ERROR =? status then Ok (status, d)
      else write_multi_reg_loop_i n' req adr (i + 1) d status
  end.
(** modbus_slave_PDU.c:592-615 *)
Definition handle_slave_write_multiple_reg_service_i (m : msg) (d : sdata) : outcome (Z * msg * sdata) :=
  let* adr := read_u16_from_buf (m_req m) MODBUS_REQUEST_ADR_IDX in
  let* hreg_qty := read_u16_from_buf (m_req m) MODBUS_REQUEST_QTY_IDX in
  let* '(status, d) := write_multi_reg_loop_i (Z.to_nat hreg_qty) (m_req m) adr 0 d RET_OK in
  if RET_OK =? status
  then
    let* r := write_u16_to_buf (m_resp m) MODBUS_RESP_WRITE_ADR_IDX adr in
    let* r := write_u16_to_buf r MODBUS_RESP_WRITE_MULTIPLE_DATA_QTY_IDX hreg_qty in
    Ok (status, set_resp m (set_len r MODBUS_WRITE_MULTI_RESP_LEN), d)
  else
    let* m := set_exception_code_resp m MODBUS_SERVER_DEVICE_FAILURE_ERROR in
    Ok (status, m, d).
(** modbus_slave_PDU.c:565-576 *)
Definition modbus_slave_write_multiple_reg_i (c : cfg) (m : msg) (d : sdata) : outcome (Z * msg * sdata) :=
  let* r := wr (m_resp m) MODBUS_FUNCTION_CODE_IDX FC_WRITE_MULTIPLE_REGISTER in
  let* '(status, m) := check_write_req_data_correctness (set_resp m r) MODBUS_MAX_WRITE_REG_QTY (u16 (c_hreg c)) in
  if RET_OK =? status
  then handle_slave_write_multiple_reg_service_i m d
  else Ok (status, m, d).

(** modbus_slave_PDU.c:44-53 *)
Definition modbus_slave_function_mapper_i (c : cfg) : list (Z * (msg -> sdata -> outcome (Z * msg * sdata))) :=
  [ (FC_READ_COILS, modbus_slave_read_coils_i c);
    (FC_READ_DISCRETE_INPUTS, modbus_slave_read_discrete_inputs_i c);
    (FC_READ_HOLDING_REGISTERS, modbus_slave_read_holding_reg_i c);
    (FC_READ_INPUT_REGISTERS, modbus_slave_read_input_reg_i c);
    (FC_WRITE_SINGLE_COIL, modbus_slave_write_single_coil_i c);
    (FC_WRITE_SINGLE_REGISTER, modbus_slave_write_single_reg_i c);
    (FC_WRITE_MULTIPLE_COILS, modbus_slave_write_multiple_coils_i c);
    (FC_WRITE_MULTIPLE_REGISTER, modbus_slave_write_multiple_reg_i c) ].
(** modbus_slave_PDU.c:80-109 *)
Definition parse_master_request_and_prepare_resp_i (c : cfg) (m : msg) (d : sdata) : outcome (Z * msg * sdata) :=
  if negb (rr_ptr (m_req m)) || negb (rr_ptr (m_resp m)) then Ok (RET_NULL_PTR_ERROR, m, d)
  else
    let* req_fun_code := rd (m_req m) MODBUS_FUNCTION_CODE_IDX in
    match find_handler req_fun_code (modbus_slave_function_mapper_i c) with
    | Some action => action m d
    | None =>
        let* r := wr (m_resp m) MODBUS_FUNCTION_CODE_IDX req_fun_code in
        let* m := set_exception_code_resp (set_resp m r) MODBUS_ILLEGAL_FUNCTION_ERROR in
        Ok (RET_ERROR_UNKNOWN_MAPPER_FUN_CODE, m, d)
    end.
End Irq.
