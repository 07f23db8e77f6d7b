(** src/slave_internall/modbus_slave_PDU.c *)
From Verif Require Export Model.Common Model.SlaveData.

(** src/slave_internall/modbus_slave_PDU.c:626-631 *)
Definition set_exception_code_resp (m : msg) (code : Z) : outcome msg :=
  let* fc := rd (m_resp m) MODBUS_FUNCTION_CODE_IDX in
  let* r := wr (m_resp m) MODBUS_FUNCTION_CODE_IDX (u8 (Z.lor fc MODBUS_EXCEPTION_CODE_MASK)) in
  let* r := wr r MODBUS_RESP_EXCEPTION_CODE_IDX code in
  Ok (set_resp m (set_len r MODBUS_PDU_EXCEPTION_CODE_LEN)).

(** src/slave_internall/modbus_slave_PDU.c:646-657 *)
Definition update_msg_len_and_ret_status (m : msg) (last_ret_val byte_cnt : Z) : Z * msg :=
  if negb (RET_ERROR =? last_ret_val)
  then (RET_OK, set_resp m (set_len (m_resp m) (u8 (MODBUS_READ_RESP_LEN + byte_cnt))))
  else (RET_ERROR, m).

(** src/slave_internall/modbus_slave_PDU.c:683: the comparison [(adr + data_qty) > app_data_qty].
    uint16_t operands are promoted to int (32 bits on the supported 32-bit targets: no wrap-around).
    See [range_exceeded_w] in Model/Driver.v for 16-bit int. *)
Definition range_exceeded (adr data_qty app_data_qty : Z) : bool := app_data_qty <? adr + data_qty.

(** src/slave_internall/modbus_slave_PDU.c:673-693.  [app_data_qty] is a uint16_t parameter: the caller's
    constant is converted (see the callers). *)
Definition check_read_req_data_correcntess (m : msg) (max_read_data_qty app_data_qty : Z) : outcome (Z * msg) :=
  let* adr := read_u16_from_buf (m_req m) MODBUS_REQUEST_ADR_IDX in
  let* data_qty := read_u16_from_buf (m_req m) MODBUS_REQUEST_QTY_IDX in
  if (0 =? data_qty) || (max_read_data_qty <? data_qty)
  then let* m := set_exception_code_resp m MODBUS_ILLEGAL_DATA_VALUE_ERROR in Ok (RET_ERROR, m)
  else if range_exceeded adr data_qty app_data_qty
  then let* m := set_exception_code_resp m MODBUS_ILLEGAL_DATA_ADDRESS_ERROR in Ok (RET_ERROR, m)
  else Ok (RET_OK, m).

(** src/slave_internall/modbus_slave_PDU.c:743-757 *)
Definition check_write_req_byte_count_correctenss (m : msg) : outcome (Z * msg) :=
  let* byte_count := rd (m_req m) MODBUS_REQUEST_BYTE_CNT_IDX in
  let* coils_qty := read_u16_from_buf (m_req m) MODBUS_REQUEST_QTY_IDX in
  if byte_count =? get_coil_din_byte_count coils_qty
  then Ok (RET_OK, m)
  else let* m := set_exception_code_resp m MODBUS_ILLEGAL_DATA_VALUE_ERROR in Ok (RET_ERROR, m).

(** src/slave_internall/modbus_slave_PDU.c:773-786; [reg_qty * 2] is an int, not truncated *)
Definition check_write_req_reg_byte_count_correctenss (m : msg) : outcome (Z * msg) :=
  let* byte_count := rd (m_req m) MODBUS_REQUEST_BYTE_CNT_IDX in
  let* reg_qty := read_u16_from_buf (m_req m) MODBUS_REQUEST_QTY_IDX in
  if byte_count =? reg_qty * 2
  then Ok (RET_OK, m)
  else let* m := set_exception_code_resp m MODBUS_ILLEGAL_DATA_VALUE_ERROR in Ok (RET_ERROR, m).

(** src/slave_internall/modbus_slave_PDU.c:711-727 *)
Definition check_write_req_data_correctness (m : msg) (max_write_data_qty app_data_qty : Z) : outcome (Z * msg) :=
  let* func_code := rd (m_req m) MODBUS_FUNCTION_CODE_IDX in
  let* '(status, m) := check_read_req_data_correcntess m max_write_data_qty app_data_qty in
  if RET_OK =? status
  then if FC_WRITE_MULTIPLE_COILS =? func_code
       then check_write_req_byte_count_correctenss m
       else check_write_req_reg_byte_count_correctenss m
  else Ok (status, m).

(** src/slave_internall/modbus_slave_PDU.c:157-166, the loop of handle_slave_read_coil_service:
    iterations i .. coil_qty-1 ([n] of them).  [inl m]: left by the return in line 163;
    [inr (m, v)]: ran to the end, v = last read_coil_val. *)
Fixpoint read_coil_loop (n : nat) (tab : list (option nat)) (cells : list bool) (m : msg) (adr i last : Z)
  : outcome (msg + msg * Z) :=
  match n with
  | O => Ok (inr (m, last))
  | S n' =>
      let* v := get_coil_din_state tab cells (adr + i) in
      if RET_ERROR =? v
      then let* m := set_exception_code_resp m MODBUS_SERVER_DEVICE_FAILURE_ERROR in Ok (inl m)
      else
        let* old := rd (m_resp m) (MODBUS_RESP_READ_DATA_IDX + i / 8) in
        let* r := wr (m_resp m) (MODBUS_RESP_READ_DATA_IDX + i / 8) (u8 (Z.lor old (Z.shiftl v (i mod 8)))) in
        read_coil_loop n' tab cells (set_resp m r) adr (i + 1) v
  end.

(** src/slave_internall/modbus_slave_PDU.c:148-168 *)
Definition handle_slave_read_coil_service (m : msg) (d : sdata) : outcome (Z * msg) :=
  let* adr := read_u16_from_buf (m_req m) MODBUS_REQUEST_ADR_IDX in
  let* coil_qty := read_u16_from_buf (m_req m) MODBUS_REQUEST_QTY_IDX in
  let byte_cnt := get_coil_din_byte_count coil_qty in
  let* r := wr (m_resp m) MODBUS_RESP_READ_BYTE_CNT_IDX byte_cnt in
  let* r := clear_coil_din_status_byte r MODBUS_RESP_READ_DATA_IDX byte_cnt in
  let* e := read_coil_loop (Z.to_nat coil_qty) (t_coils d) (v_bits d) (set_resp m r) adr 0 RET_OK in
  match e with
  | inl m => Ok (RET_ERROR, m)
  | inr (m, v) => Ok (update_msg_len_and_ret_status m v byte_cnt)
  end.

(** src/slave_internall/modbus_slave_PDU.c:123-135; MAIN_APP_COILS_QTY is converted to uint16_t *)
Definition modbus_slave_read_coils (c : cfg) (m : msg) (d : sdata) : outcome (Z * msg * sdata) :=
  let* r := wr (m_resp m) MODBUS_FUNCTION_CODE_IDX FC_READ_COILS in
  let* '(status, m) := check_read_req_data_correcntess (set_resp m r) MODBUS_MAX_READ_COILS_QTY (u16 (c_coils c)) in
  if negb (RET_ERROR =? status)
  then let* '(status, m) := handle_slave_read_coil_service m d in Ok (status, m, d)
  else Ok (status, m, d).

(** src/slave_internall/modbus_slave_PDU.c:220-232, loop of handle_slave_read_discrete_inputs_service;
    result: message and last read_discrete_input_val (RET_ERROR after break) *)
Fixpoint read_din_loop (n : nat) (tab : list (option nat)) (cells : list bool) (m : msg) (adr i last : Z)
  : outcome (msg * Z) :=
  match n with
  | O => Ok (m, last)
  | S n' =>
      let* v := get_coil_din_state tab cells (adr + i) in
      if RET_ERROR =? v
      then let* m := set_exception_code_resp m MODBUS_SERVER_DEVICE_FAILURE_ERROR in Ok (m, v)
      else
        let* old := rd (m_resp m) (MODBUS_RESP_READ_DATA_IDX + i / 8) in
        let* r := wr (m_resp m) (MODBUS_RESP_READ_DATA_IDX + i / 8) (u8 (Z.lor old (Z.shiftl v (i mod 8)))) in
        read_din_loop n' tab cells (set_resp m r) adr (i + 1) v
  end.

(** src/slave_internall/modbus_slave_PDU.c:211-234 *)
Definition handle_slave_read_discrete_inputs_service (m : msg) (d : sdata) : outcome (Z * msg) :=
  let* adr := read_u16_from_buf (m_req m) MODBUS_REQUEST_ADR_IDX in
  let* din_qty := read_u16_from_buf (m_req m) MODBUS_REQUEST_QTY_IDX in
  let byte_cnt := get_coil_din_byte_count din_qty in
  let* r := wr (m_resp m) MODBUS_RESP_READ_BYTE_CNT_IDX byte_cnt in
  let* r := clear_coil_din_status_byte r MODBUS_RESP_READ_DATA_IDX byte_cnt in
  let* '(m, v) := read_din_loop (Z.to_nat din_qty) (t_din d) (v_bits d) (set_resp m r) adr 0 RET_OK in
  Ok (update_msg_len_and_ret_status m v byte_cnt).

(** src/slave_internall/modbus_slave_PDU.c:184-194 *)
Definition modbus_slave_read_discrete_inputs (c : cfg) (m : msg) (d : sdata) : outcome (Z * msg * sdata) :=
  let* r := wr (m_resp m) MODBUS_FUNCTION_CODE_IDX FC_READ_DISCRETE_INPUTS in
  let* '(status, m) := check_read_req_data_correcntess (set_resp m r) MODBUS_MAX_READ_DISCRETE_INPUTS_QTY (u16 (c_din c)) in
  if RET_OK =? status
  then let* '(status, m) := handle_slave_read_discrete_inputs_service m d in Ok (status, m, d)
  else Ok (status, m, d).

(** src/slave_internall/modbus_slave_PDU.c:283-295 and 347-359: the loops of the two register read
    services are the same code for the tables Slave_Holding_Registers / Slave_Input_Registers *)
Fixpoint read_reg_loop (n : nat) (tab : list (option nat)) (cells : list Z) (m : msg) (adr i last : Z)
  : outcome (msg * Z) :=
  match n with
  | O => Ok (m, last)
  | S n' =>
      let* v := get_register_state tab cells (adr + i) in
      if RET_ERROR =? v
      then let* m := set_exception_code_resp m MODBUS_SERVER_DEVICE_FAILURE_ERROR in Ok (m, v)
      else
        let* r := write_u16_to_buf (m_resp m) (MODBUS_RESP_READ_DATA_IDX + i * 2) (u16 v) in
        read_reg_loop n' tab cells (set_resp m r) adr (i + 1) v
  end.

(** src/slave_internall/modbus_slave_PDU.c:275-297; byte_cnt is a uint8_t *)
Definition handle_slave_read_holding_reg_service (m : msg) (d : sdata) : outcome (Z * msg) :=
  let* adr := read_u16_from_buf (m_req m) MODBUS_REQUEST_ADR_IDX in
  let* reg_qty := read_u16_from_buf (m_req m) MODBUS_REQUEST_QTY_IDX in
  let byte_cnt := u8 (2 * reg_qty) in
  let* r := wr (m_resp m) MODBUS_RESP_READ_BYTE_CNT_IDX byte_cnt in
  let* '(m, v) := read_reg_loop (Z.to_nat reg_qty) (t_hreg d) (v_regs d) (set_resp m r) adr 0 RET_OK in
  Ok (update_msg_len_and_ret_status m v byte_cnt).

(** src/slave_internall/modbus_slave_PDU.c:249-259 *)
Definition modbus_slave_read_holding_reg (c : cfg) (m : msg) (d : sdata) : outcome (Z * msg * sdata) :=
  let* r := wr (m_resp m) MODBUS_FUNCTION_CODE_IDX FC_READ_HOLDING_REGISTERS in
  let* '(status, m) := check_read_req_data_correcntess (set_resp m r) MODBUS_MAX_READ_REG_QTY (u16 (c_hreg c)) in
  if RET_OK =? status
  then let* '(status, m) := handle_slave_read_holding_reg_service m d in Ok (status, m, d)
  else Ok (status, m, d).

(** src/slave_internall/modbus_slave_PDU.c:340-361 *)
Definition handle_slave_read_input_reg_service (m : msg) (d : sdata) : outcome (Z * msg) :=
  let* adr := read_u16_from_buf (m_req m) MODBUS_REQUEST_ADR_IDX in
  let* reg_qty := read_u16_from_buf (m_req m) MODBUS_REQUEST_QTY_IDX in
  let byte_cnt := u8 (2 * reg_qty) in
  let* r := wr (m_resp m) MODBUS_RESP_READ_BYTE_CNT_IDX byte_cnt in
  let* '(m, v) := read_reg_loop (Z.to_nat reg_qty) (t_ireg d) (v_regs d) (set_resp m r) adr 0 RET_OK in
  Ok (update_msg_len_and_ret_status m v byte_cnt).

(** src/slave_internall/modbus_slave_PDU.c:314-324 *)
Definition modbus_slave_read_input_reg (c : cfg) (m : msg) (d : sdata) : outcome (Z * msg * sdata) :=
  let* r := wr (m_resp m) MODBUS_FUNCTION_CODE_IDX FC_READ_INPUT_REGISTERS in
  let* '(status, m) := check_read_req_data_correcntess (set_resp m r) MODBUS_MAX_READ_REG_QTY (u16 (c_ireg c)) in
  if RET_OK =? status
  then let* '(status, m) := handle_slave_read_input_reg_service m d in Ok (status, m, d)
  else Ok (status, m, d).

(** src/slave_internall/modbus_slave_PDU.c:406-422; the comparison in line 413 uses the untruncated
    constant MAIN_APP_COILS_QTY *)
Definition check_write_single_coil_req_data_correctness (c : cfg) (m : msg) (coil_adr coil_state : Z) : outcome (Z * msg) :=
  if negb (coil_state =? COIL_OFF) && negb (coil_state =? COIL_ON)
  then let* m := set_exception_code_resp m MODBUS_ILLEGAL_DATA_VALUE_ERROR in Ok (RET_ERROR, m)
  else if c_coils c <=? coil_adr
  then let* m := set_exception_code_resp m MODBUS_ILLEGAL_DATA_ADDRESS_ERROR in Ok (RET_ERROR, m)
  else Ok (RET_OK, m).

(** src/slave_internall/modbus_slave_PDU.c:437-452 *)
Definition handle_slave_write_single_coil_service (m : msg) (d : sdata) (coil_adr coil_state : Z)
  : outcome (Z * msg * sdata) :=
  let* '(status, cells) := set_coil_state (t_coils d) (v_bits d) coil_adr (negb (coil_state =? 0)) in
  if RET_OK =? status
  then
    let* r := write_u16_to_buf (m_resp m) MODBUS_RESP_WRITE_ADR_IDX coil_adr in
    let* r := write_u16_to_buf r MODBUS_RESP_WRITE_SINGLE_DATA_IDX coil_state in
    Ok (status, set_resp m (set_len r MODBUS_WRITE_SINGLE_RESP_LEN), set_bits d cells)
  else
    let* m := set_exception_code_resp m MODBUS_SERVER_DEVICE_FAILURE_ERROR in
    Ok (status, m, set_bits d cells).

(** src/slave_internall/modbus_slave_PDU.c:376-390 *)
Definition modbus_slave_write_single_coil (c : cfg) (m : msg) (d : sdata) : outcome (Z * msg * sdata) :=
  let* adr := read_u16_from_buf (m_req m) MODBUS_REQUEST_ADR_IDX in
  let* coil_state := read_u16_from_buf (m_req m) MODBUS_RESP_WRITE_SINGLE_DATA_IDX in
  let* r := wr (m_resp m) MODBUS_FUNCTION_CODE_IDX FC_WRITE_SINGLE_COIL in
  let* '(status, m) := check_write_single_coil_req_data_correctness c (set_resp m r) adr coil_state in
  if status =? RET_OK
  then handle_slave_write_single_coil_service m d adr coil_state
  else Ok (status, m, d).

(** src/slave_internall/modbus_slave_PDU.c:803-822; [base] = offset of data_state_ptr in req.data,
    [n] = remaining iterations, [last] = current value of status *)
Fixpoint set_coil_din_value_loop (n : nat) (req : rr) (base start_adr i : Z)
  (tab : list (option nat)) (cells : list bool) (last : Z) : outcome (Z * list bool) :=
  match n with
  | O => Ok (last, cells)
  | S n' =>
      let* byte := rd req (base + i / 8) in
      let* '(status, cells) :=
        if negb (Z.land byte (Z.shiftl 1 (i mod 8)) =? 0)
        then set_coil_state tab cells (start_adr + i) true
        else set_coil_state tab cells (start_adr + i) false in
      if status =? RET_ERROR then Ok (status, cells)
      else set_coil_din_value_loop n' req base start_adr (i + 1) tab cells status
  end.

(** src/slave_internall/modbus_slave_PDU.c:466-490 *)
Definition modbus_slave_write_multiple_coils (c : cfg) (m : msg) (d : sdata) : outcome (Z * msg * sdata) :=
  let* r := wr (m_resp m) MODBUS_FUNCTION_CODE_IDX FC_WRITE_MULTIPLE_COILS in
  let* '(status, m) := check_write_req_data_correctness (set_resp m r) MODBUS_MAX_WRITE_COILS_QTY (u16 (c_coils c)) in
  if RET_OK =? status
  then
    let* adr := read_u16_from_buf (m_req m) MODBUS_REQUEST_ADR_IDX in
    let* coils_qty := read_u16_from_buf (m_req m) MODBUS_REQUEST_QTY_IDX in
    let* '(status, cells) :=
      set_coil_din_value_loop (Z.to_nat coils_qty) (m_req m) MODBUS_REQUEST_WRITE_MULTI_DATA_IDX
        adr 0 (t_coils d) (v_bits d) RET_OK in
    if RET_OK =? status
    then
      let* r := write_u16_to_buf (m_resp m) MODBUS_RESP_WRITE_ADR_IDX adr in
      let* r := write_u16_to_buf r MODBUS_RESP_WRITE_MULTIPLE_DATA_QTY_IDX coils_qty in
      Ok (status, set_resp m (set_len r MODBUS_WRITE_MULTI_RESP_LEN), set_bits d cells)
    else
      let* m := set_exception_code_resp m MODBUS_SERVER_DEVICE_FAILURE_ERROR in
      Ok (status, m, set_bits d cells)
  else Ok (status, m, d).

(** src/slave_internall/modbus_slave_PDU.c:534-550 *)
Definition handle_slave_write_single_reg_service (m : msg) (d : sdata) : outcome (Z * msg * sdata) :=
  let* adr := read_u16_from_buf (m_req m) MODBUS_REQUEST_ADR_IDX in
  let* reg_val_to_save := read_u16_from_buf (m_req m) MODBUS_REQUEST_QTY_IDX in
  let* '(status, cells) := set_register_value (t_hreg d) (v_regs d) adr reg_val_to_save in
  if RET_OK =? status
  then
    let* r := write_u16_to_buf (m_resp m) MODBUS_RESP_WRITE_ADR_IDX adr in
    let* r := write_u16_to_buf r MODBUS_RESP_WRITE_SINGLE_DATA_IDX reg_val_to_save in
    Ok (status, set_resp m (set_len r MODBUS_WRITE_SINGLE_RESP_LEN), set_regs d cells)
  else
    let* m := set_exception_code_resp m MODBUS_SERVER_DEVICE_FAILURE_ERROR in
    Ok (status, m, set_regs d cells).

(** src/slave_internall/modbus_slave_PDU.c:504-520; line 510 uses the untruncated constant *)
Definition modbus_slave_write_single_reg (c : cfg) (m : msg) (d : sdata) : outcome (Z * msg * sdata) :=
  let* adr := read_u16_from_buf (m_req m) MODBUS_REQUEST_ADR_IDX in
  let* r := wr (m_resp m) MODBUS_FUNCTION_CODE_IDX FC_WRITE_SINGLE_REGISTER in
  let m := set_resp m r in
  if c_hreg c <=? adr
  then let* m := set_exception_code_resp m MODBUS_ILLEGAL_DATA_ADDRESS_ERROR in Ok (RET_ERROR, m, d)
  else handle_slave_write_single_reg_service m d.

(** src/slave_internall/modbus_slave_PDU.c:598-603 *)
Fixpoint write_multi_reg_loop (n : nat) (req : rr) (adr i : Z)
  (tab : list (option nat)) (cells : list Z) (last : Z) : outcome (Z * list Z) :=
  match n with
  | O => Ok (last, cells)
  | S n' =>
      let* v := read_u16_from_buf req (MODBUS_REQUEST_WRITE_MULTI_DATA_IDX + i * 2) in
      let* '(status, cells) := set_register_value tab cells (adr + i) v in
      if RET_ERROR =? status then Ok (status, cells)
      else write_multi_reg_loop n' req adr (i + 1) tab cells status
  end.

(** src/slave_internall/modbus_slave_PDU.c:592-615 *)
Definition handle_slave_write_multiple_reg_service (m : msg) (d : sdata) : outcome (Z * msg * sdata) :=
  let* adr := read_u16_from_buf (m_req m) MODBUS_REQUEST_ADR_IDX in
  let* hreg_qty := read_u16_from_buf (m_req m) MODBUS_REQUEST_QTY_IDX in
  let* '(status, cells) := write_multi_reg_loop (Z.to_nat hreg_qty) (m_req m) adr 0 (t_hreg d) (v_regs d) RET_OK in
  if RET_OK =? status
  then
    let* r := write_u16_to_buf (m_resp m) MODBUS_RESP_WRITE_ADR_IDX adr in
    let* r := write_u16_to_buf r MODBUS_RESP_WRITE_MULTIPLE_DATA_QTY_IDX hreg_qty in
    Ok (status, set_resp m (set_len r MODBUS_WRITE_MULTI_RESP_LEN), set_regs d cells)
  else
    let* m := set_exception_code_resp m MODBUS_SERVER_DEVICE_FAILURE_ERROR in
    Ok (status, m, set_regs d cells).

(** src/slave_internall/modbus_slave_PDU.c:565-576 *)
Definition modbus_slave_write_multiple_reg (c : cfg) (m : msg) (d : sdata) : outcome (Z * msg * sdata) :=
  let* r := wr (m_resp m) MODBUS_FUNCTION_CODE_IDX FC_WRITE_MULTIPLE_REGISTER in
  let* '(status, m) := check_write_req_data_correctness (set_resp m r) MODBUS_MAX_WRITE_REG_QTY (u16 (c_hreg c)) in
  if RET_OK =? status
  then handle_slave_write_multiple_reg_service m d
  else Ok (status, m, d).

(** src/slave_internall/modbus_slave_PDU.c:44-53 *)
Definition modbus_slave_function_mapper (c : cfg) : list (Z * (msg -> sdata -> outcome (Z * msg * sdata))) :=
  [ (FC_READ_COILS, modbus_slave_read_coils c);
    (FC_READ_DISCRETE_INPUTS, modbus_slave_read_discrete_inputs c);
    (FC_READ_HOLDING_REGISTERS, modbus_slave_read_holding_reg c);
    (FC_READ_INPUT_REGISTERS, modbus_slave_read_input_reg c);
    (FC_WRITE_SINGLE_COIL, modbus_slave_write_single_coil c);
    (FC_WRITE_SINGLE_REGISTER, modbus_slave_write_single_reg c);
    (FC_WRITE_MULTIPLE_COILS, modbus_slave_write_multiple_coils c);
    (FC_WRITE_MULTIPLE_REGISTER, modbus_slave_write_multiple_reg c) ].

(** src/slave_internall/modbus_slave_PDU.c:92-100: first mapper entry with the code *)
Fixpoint find_handler {H : Type} (fc : Z) (l : list (Z * H)) : option H :=
  match l with
  | [] => None
  | (c, h) :: t => if fc =? c then Some h else find_handler fc t
  end.

(** src/slave_internall/modbus_slave_PDU.c:80-109.  [rx_msg] itself is non-NULL here (its NULL test is
    represented in Model/Slave.v by the caller's pointer). *)
Definition parse_master_request_and_prepare_resp (c : cfg) (m : msg) (d : sdata) : outcome (Z * msg * sdata) :=
  if negb (rr_ptr (m_req m)) || negb (rr_ptr (m_resp m)) then Ok (RET_NULL_PTR_ERROR, m, d)
  else
    let* req_fun_code := rd (m_req m) MODBUS_FUNCTION_CODE_IDX in
    match find_handler req_fun_code (modbus_slave_function_mapper c) with
    | Some action => action m d
    | None =>
        let* r := wr (m_resp m) MODBUS_FUNCTION_CODE_IDX req_fun_code in
        let* m := set_exception_code_resp (set_resp m r) MODBUS_ILLEGAL_FUNCTION_ERROR in
        Ok (RET_ERROR_UNKNOWN_MAPPER_FUN_CODE, m, d)
    end.
