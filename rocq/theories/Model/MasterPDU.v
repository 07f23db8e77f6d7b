(** src/master_internall/modbus_master_PDU.c: building requests, interpreting responses. *)
From Verif Require Export Model.Common Model.Iface.

(** src/common/modbus_type.h:255-265  req_input_param_struct_t; arrays: [None] = NULL pointer *)
Record req_param := mk_param {
  p_fc : Z; p_adr : Z; p_qty : Z; p_id : Z;
  p_coil : bool; p_coils : option (list bool); p_reg : Z; p_regs : option (list Z) }.

(** src/master_internall/modbus_master_PDU.c:728-739 (msg_buf itself is never NULL here) *)
Definition check_null_ptr_correctness (m : msg) : Z :=
  if negb (rr_ptr (m_req m)) || negb (rr_ptr (m_resp m)) then RET_NULL_PTR_ERROR else RET_OK.

(** src/master_internall/modbus_master_PDU.c:516-533 *)
Definition modbus_get_max_len_2_read (req_code : Z) : Z :=
  if FC_READ_COILS =? req_code then MODBUS_MAX_READ_COILS_QTY
  else if FC_READ_DISCRETE_INPUTS =? req_code then MODBUS_MAX_READ_DISCRETE_INPUTS_QTY
  else MODBUS_MAX_READ_REG_QTY.

(** src/master_internall/modbus_master_PDU.c:491-505 *)
Definition read_reg_request (req : rr) (req_code adr data_len : Z) : outcome (Z * rr) :=
  if (data_len <=? modbus_get_max_len_2_read req_code) && (MODBUS_MIN_REG_COIL_QTY <=? data_len)
  then
    let* req := wr req MODBUS_FUNCTION_CODE_IDX req_code in
    let* req := write_u16_to_buf req MODBUS_REQUEST_ADR_IDX adr in
    let* req := write_u16_to_buf req MODBUS_REQUEST_QTY_IDX data_len in
    Ok (RET_OK, set_len req MODBUS_READ_REQUEST_LEN)
  else Ok (RET_ERROR, req).

(** common body of the four read request functions,
    src/master_internall/modbus_master_PDU.c:88-98, 113-123, 138-148, 163-173 *)
Definition read_req (code : Z) (m : msg) (p : req_param) : outcome (Z * msg) :=
  if RET_OK =? check_null_ptr_correctness m
  then let* '(st, r) := read_reg_request (m_req m) code (p_adr p) (p_qty p) in Ok (st, set_req m r)
  else Ok (RET_NULL_PTR_ERROR, m).
(** src/master_internall/modbus_master_PDU.c:88-98 *)
Definition modbus_master_read_holding_reg_req := read_req FC_READ_HOLDING_REGISTERS.
(** src/master_internall/modbus_master_PDU.c:113-123 *)
Definition modbus_master_read_input_reg_req := read_req FC_READ_INPUT_REGISTERS.
(** src/master_internall/modbus_master_PDU.c:138-148 *)
Definition modbus_master_read_discrete_inputs_req := read_req FC_READ_DISCRETE_INPUTS.
(** src/master_internall/modbus_master_PDU.c:163-173 *)
Definition modbus_master_read_coils_req := read_req FC_READ_COILS.

(** src/master_internall/modbus_master_PDU.c:188-203 *)
Definition modbus_master_write_single_reg_req (m : msg) (p : req_param) : outcome (Z * msg) :=
  if RET_OK =? check_null_ptr_correctness m
  then
    let* r := wr (m_req m) MODBUS_FUNCTION_CODE_IDX FC_WRITE_SINGLE_REGISTER in
    let* r := write_u16_to_buf r MODBUS_REQUEST_ADR_IDX (p_adr p) in
    let* r := write_u16_to_buf r MODBUS_REQUEST_QTY_IDX (p_reg p) in
    Ok (RET_OK, set_req m (set_len r MODBUS_WRITE_SINGLE_REQUEST_LEN))
  else Ok (RET_NULL_PTR_ERROR, m).

(** src/master_internall/modbus_master_PDU.c:218-233 *)
Definition modbus_master_write_single_coil_req (m : msg) (p : req_param) : outcome (Z * msg) :=
  if RET_OK =? check_null_ptr_correctness m
  then
    let* r := wr (m_req m) MODBUS_FUNCTION_CODE_IDX FC_WRITE_SINGLE_COIL in
    let* r := write_u16_to_buf r MODBUS_REQUEST_ADR_IDX (p_adr p) in
    let* r := write_u16_to_buf r MODBUS_REQUEST_QTY_IDX (b2z (p_coil p) * COIL_ON) in
    Ok (RET_OK, set_req m (set_len r MODBUS_WRITE_SINGLE_REQUEST_LEN))
  else Ok (RET_NULL_PTR_ERROR, m).

(** read element i of an array handed over by the caller: NULL or out of range = UB *)
Definition arr_get {A : Type} (a : option (list A)) (i : Z) : outcome A :=
  match a with Some l => aget l i | None => UB end.

(** src/master_internall/modbus_master_PDU.c:269-273 *)
Fixpoint write_regs_loop (n : nat) (r : rr) (regs : option (list Z)) (i : Z) : outcome rr :=
  match n with
  | O => Ok r
  | S n' =>
      let* data := arr_get regs i in
      let* r := write_u16_to_buf r (MODBUS_REQUEST_WRITE_MULTI_DATA_IDX + i * 2) data in
      write_regs_loop n' r regs (i + 1)
  end.

(** src/master_internall/modbus_master_PDU.c:250-279 *)
Definition modbus_master_write_multiple_reg_req (m : msg) (p : req_param) : outcome (Z * msg) :=
  if negb (RET_OK =? check_null_ptr_correctness m) then Ok (RET_NULL_PTR_ERROR, m)
  else if (MODBUS_MAX_WRITE_REG_QTY <? p_qty p) || (p_qty p <? MODBUS_MIN_REG_COIL_QTY) then Ok (RET_ERROR, m)
  else
    let* r := wr (m_req m) MODBUS_FUNCTION_CODE_IDX FC_WRITE_MULTIPLE_REGISTER in
    let* r := write_u16_to_buf r MODBUS_REQUEST_ADR_IDX (p_adr p) in
    let* r := write_u16_to_buf r MODBUS_REQUEST_QTY_IDX (p_qty p) in
    let* r := wr r MODBUS_REQUEST_BYTE_CNT_IDX (u8 (p_qty p * 2)) in
    let* r := write_regs_loop (Z.to_nat (p_qty p)) r (p_regs p) 0 in
    let* bc := rd r MODBUS_REQUEST_BYTE_CNT_IDX in
    Ok (RET_OK, set_req m (set_len r (u8 (MODBUS_WRITE_MULTI_REQUEST_LEN + bc)))).

(** src/master_internall/modbus_master_PDU.c:317-321 *)
Fixpoint write_coils_loop (n : nat) (r : rr) (coils : option (list bool)) (i : Z) : outcome rr :=
  match n with
  | O => Ok r
  | S n' =>
      let* data := arr_get coils i in
      let* old := rd r (MODBUS_REQUEST_WRITE_MULTI_DATA_IDX + i / 8) in
      let* r := wr r (MODBUS_REQUEST_WRITE_MULTI_DATA_IDX + i / 8)
                  (u8 (Z.lor old (Z.shiftl (b2z data) (i mod 8)))) in
      write_coils_loop n' r coils (i + 1)
  end.

(** src/master_internall/modbus_master_PDU.c:296-325 *)
Definition modbus_master_write_multiple_coils_req (m : msg) (p : req_param) : outcome (Z * msg) :=
  if negb (RET_OK =? check_null_ptr_correctness m) then Ok (RET_NULL_PTR_ERROR, m)
  else if (MODBUS_MAX_WRITE_COILS_QTY <? p_qty p) || (p_qty p <? MODBUS_MIN_REG_COIL_QTY) then Ok (RET_ERROR, m)
  else
    let byte_count := get_coil_din_byte_count (p_qty p) in
    let* r := wr (m_req m) MODBUS_FUNCTION_CODE_IDX FC_WRITE_MULTIPLE_COILS in
    let* r := write_u16_to_buf r MODBUS_REQUEST_ADR_IDX (p_adr p) in
    let* r := write_u16_to_buf r MODBUS_REQUEST_QTY_IDX (p_qty p) in
    let* r := wr r MODBUS_REQUEST_BYTE_CNT_IDX byte_count in
    let* r := clear_coil_din_status_byte r MODBUS_REQUEST_WRITE_MULTI_DATA_IDX byte_count in
    let* r := write_coils_loop (Z.to_nat (p_qty p)) r (p_coils p) 0 in
    let* bc := rd r MODBUS_REQUEST_BYTE_CNT_IDX in
    Ok (RET_OK, set_req m (set_len r (u8 (MODBUS_WRITE_MULTI_REQUEST_LEN + bc)))).

(** src/modbus_master.c:122-131 *)
Definition master_functions_mapper : list (Z * (msg -> req_param -> outcome (Z * msg))) :=
  [ (FC_READ_COILS, modbus_master_read_coils_req);
    (FC_READ_DISCRETE_INPUTS, modbus_master_read_discrete_inputs_req);
    (FC_READ_HOLDING_REGISTERS, modbus_master_read_holding_reg_req);
    (FC_READ_INPUT_REGISTERS, modbus_master_read_input_reg_req);
    (FC_WRITE_SINGLE_COIL, modbus_master_write_single_coil_req);
    (FC_WRITE_SINGLE_REGISTER, modbus_master_write_single_reg_req);
    (FC_WRITE_MULTIPLE_COILS, modbus_master_write_multiple_coils_req);
    (FC_WRITE_MULTIPLE_REGISTER, modbus_master_write_multiple_reg_req) ].

(** src/modbus_master.c:522-534: every mapper entry with the code is executed (there is no break) *)
Fixpoint gen_pdu_loop (l : list (Z * (msg -> req_param -> outcome (Z * msg)))) (m : msg) (p : req_param) (st : Z)
  : outcome (Z * msg) :=
  match l with
  | [] => Ok (st, m)
  | (c, f) :: t =>
      if c =? p_fc p
      then let* '(st, m) := f m p in gen_pdu_loop t m p st
      else gen_pdu_loop t m p st
  end.
Definition generate_request_PDU_data (m : msg) (p : req_param) : outcome (Z * msg) :=
  gen_pdu_loop master_functions_mapper m p RET_ERROR_UNKNOWN_MAPPER_FUN_CODE.

(** src/master_internall/modbus_master_PDU.c:591-604 and 619-632: same loop, callback
    modbus_master_coil_read / modbus_master_disin_read ([mk]); the address argument is uint16_t *)
Fixpoint update_bits_loop (n : nat) (mk : Z -> Z -> bool -> cb) (resp : rr) (slave_adr data_adr i : Z)
  : outcome (list cb) :=
  match n with
  | O => Ok []
  | S n' =>
      let* byte := rd resp (MODBUS_RESP_READ_DATA_IDX + i / 8) in
      let c := if negb (0 =? Z.land byte (Z.shiftl 1 (i mod 8)))
               then mk slave_adr (u16 (data_adr + i)) true
               else mk slave_adr (u16 (data_adr + i)) false in
      let* rest := update_bits_loop n' mk resp slave_adr data_adr (i + 1) in
      Ok (c :: rest)
  end.

(** src/master_internall/modbus_master_PDU.c:646-653 and 667-674 *)
Fixpoint update_regs_loop (n : nat) (mk : Z -> Z -> Z -> cb) (resp : rr) (slave_adr data_adr i : Z)
  : outcome (list cb) :=
  match n with
  | O => Ok []
  | S n' =>
      let* v := read_u16_from_buf resp (MODBUS_RESP_READ_DATA_IDX + i * 2) in
      let* rest := update_regs_loop n' mk resp slave_adr data_adr (i + 1) in
      Ok (mk slave_adr (u16 (data_adr + i)) v :: rest)
  end.

(** src/master_internall/modbus_master_PDU.c:549-577 *)
Definition update_master_data_from_modbus_msg (m : msg) : outcome (Z * list cb) :=
  let* slave_adr := rd (m_resp m) MODBUS_SLAVE_ADR_IDX in
  let* resp_fun_code := rd (m_resp m) MODBUS_FUNCTION_CODE_IDX in
  let* data_adr := read_u16_from_buf (m_req m) MODBUS_REQUEST_ADR_IDX in
  let* data_qty := read_u16_from_buf (m_req m) MODBUS_REQUEST_QTY_IDX in
  let n := Z.to_nat data_qty in
  if resp_fun_code =? FC_READ_COILS then
    let* l := update_bits_loop n CoilRead (m_resp m) slave_adr data_adr 0 in Ok (RET_OK, l)
  else if resp_fun_code =? FC_READ_DISCRETE_INPUTS then
    let* l := update_bits_loop n DisinRead (m_resp m) slave_adr data_adr 0 in Ok (RET_OK, l)
  else if resp_fun_code =? FC_READ_INPUT_REGISTERS then
    let* l := update_regs_loop n InregRead (m_resp m) slave_adr data_adr 0 in Ok (RET_OK, l)
  else if resp_fun_code =? FC_READ_HOLDING_REGISTERS then
    let* l := update_regs_loop n HregRead (m_resp m) slave_adr data_adr 0 in Ok (RET_OK, l)
  else Ok (RET_ERROR, []).

(** src/master_internall/modbus_master_PDU.c:688-712 *)
Definition report_write_operation_confirmation (m : msg) : outcome (Z * list cb) :=
  let* slave_adr := rd (m_resp m) MODBUS_SLAVE_ADR_IDX in
  let* data_adr := read_u16_from_buf (m_req m) MODBUS_REQUEST_ADR_IDX in
  let* resp_fun_code := rd (m_resp m) MODBUS_FUNCTION_CODE_IDX in
  if FC_WRITE_SINGLE_COIL =? resp_fun_code then Ok (RET_OK, [CoilWrite slave_adr data_adr 1])
  else if FC_WRITE_SINGLE_REGISTER =? resp_fun_code then Ok (RET_OK, [HregWrite slave_adr data_adr 1])
  else if FC_WRITE_MULTIPLE_COILS =? resp_fun_code then
    let* data_qty := read_u16_from_buf (m_req m) MODBUS_REQUEST_QTY_IDX in
    Ok (RET_OK, [CoilWrite slave_adr data_adr data_qty])
  else
    let* data_qty := read_u16_from_buf (m_req m) MODBUS_REQUEST_QTY_IDX in
    Ok (RET_OK, [HregWrite slave_adr data_adr data_qty]).

(** src/master_internall/modbus_master_PDU.c:754-757 *)
Definition modbus_response_contain_exception_code (m : msg) : outcome bool :=
  let* fc := rd (m_resp m) MODBUS_FUNCTION_CODE_IDX in
  Ok (Z.land fc MODBUS_EXCEPTION_CODE_MASK =? MODBUS_EXCEPTION_CODE_MASK).

(** src/master_internall/modbus_master_PDU.c:800-825 *)
Definition send_exception_code_report_data (e : exc_report) : list cb :=
  if (x_fc e =? FC_READ_COILS) || (x_fc e =? FC_WRITE_SINGLE_COIL) || (x_fc e =? FC_WRITE_MULTIPLE_COILS)
  then [CoilExc e]
  else if x_fc e =? FC_READ_DISCRETE_INPUTS then [DisinExc e]
  else if (x_fc e =? FC_READ_HOLDING_REGISTERS) || (x_fc e =? FC_WRITE_SINGLE_REGISTER)
          || (x_fc e =? FC_WRITE_MULTIPLE_REGISTER)
  then [HregExc e]
  else if x_fc e =? FC_READ_INPUT_REGISTERS then [InregExc e]
  else [].

(** src/master_internall/modbus_master_PDU.c:773-784; [x & ~0x80U] on a byte = [x & 0x7F] *)
Definition process_modbus_exception_code (m : msg) : outcome (Z * list cb) :=
  let* id := rd (m_resp m) MODBUS_SLAVE_ADR_IDX in
  let* fc := rd (m_resp m) MODBUS_FUNCTION_CODE_IDX in
  let* code := rd (m_resp m) MODBUS_RESP_EXCEPTION_CODE_IDX in
  let* adr := read_u16_from_buf (m_req m) MODBUS_REQUEST_ADR_IDX in
  let* qty := read_u16_from_buf (m_req m) MODBUS_REQUEST_QTY_IDX in
  Ok (RET_OK, send_exception_code_report_data (mk_exc id (Z.land fc 0x7F) code adr qty)).

(** src/master_internall/modbus_master_PDU.c:62-71 and the handlers 368-475 *)
Definition modbus_master_function_mapper : list (Z * (msg -> outcome (Z * list cb))) :=
  [ (FC_READ_COILS, update_master_data_from_modbus_msg);
    (FC_READ_DISCRETE_INPUTS, update_master_data_from_modbus_msg);
    (FC_READ_HOLDING_REGISTERS, update_master_data_from_modbus_msg);
    (FC_READ_INPUT_REGISTERS, update_master_data_from_modbus_msg);
    (FC_WRITE_SINGLE_COIL, report_write_operation_confirmation);
    (FC_WRITE_SINGLE_REGISTER, report_write_operation_confirmation);
    (FC_WRITE_MULTIPLE_COILS, report_write_operation_confirmation);
    (FC_WRITE_MULTIPLE_REGISTER, report_write_operation_confirmation) ].

(** src/master_internall/modbus_master_PDU.c:843-849: first entry with the code *)
Fixpoint find_resp_handler {H : Type} (fc : Z) (l : list (Z * H)) : option H :=
  match l with
  | [] => None
  | (c, h) :: t => if c =? fc then Some h else find_resp_handler fc t
  end.

(** src/master_internall/modbus_master_PDU.c:838-852: dispatch on the REQUEST's function code *)
Definition process_modbus_response (m : msg) : outcome (Z * list cb) :=
  let* req_fun_code := rd (m_req m) MODBUS_FUNCTION_CODE_IDX in
  match find_resp_handler req_fun_code modbus_master_function_mapper with
  | Some action => action m
  | None => Ok (RET_ERROR, [])
  end.

(** src/master_internall/modbus_master_PDU.c:341-355 *)
Definition modbus_master_read_slave_resp (m : msg) : outcome (Z * list cb) :=
  if negb (RET_OK =? check_null_ptr_correctness m) then Ok (RET_NULL_PTR_ERROR, [])
  else
    let* ex := modbus_response_contain_exception_code m in
    if (ex : bool) then process_modbus_exception_code m else process_modbus_response m.
