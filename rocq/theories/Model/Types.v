(** Constants and data types: src/common/modbus_type.h, src/modbus_public_type.h,
    src/modbus_config.h. *)
From Verif Require Export Model.Base.

(** src/common/modbus_type.h:33  MODBUS_RTU_BUFFER_SIZE *)
Definition MODBUS_RTU_BUFFER_SIZE : Z := 256.
(** src/common/modbus_type.h:36  MODBUS_PDU_MAX_LEN *)
Definition MODBUS_PDU_MAX_LEN : Z := 253.
(** src/common/modbus_type.h:39 *)
Definition MODBUS_MAX_SPECIFIC_DATA_ITEMS_QTY : Z := 65535.
(** src/common/modbus_type.h:42 *)
Definition MODBUS_MAX_READ_DISCRETE_INPUTS_QTY : Z := 0x7D0.
(** src/common/modbus_type.h:45 *)
Definition MODBUS_MAX_READ_COILS_QTY : Z := 0x7D0.
(** src/common/modbus_type.h:48 *)
Definition MODBUS_MAX_WRITE_COILS_QTY : Z := 0x7B0.
(** src/common/modbus_type.h:51 *)
Definition MODBUS_MAX_READ_REG_QTY : Z := 0x7D.
(** src/common/modbus_type.h:54 *)
Definition MODBUS_MAX_WRITE_REG_QTY : Z := 0x7B.
(** src/common/modbus_type.h:57 *)
Definition MODBUS_MIN_REG_COIL_QTY : Z := 1.
(** src/common/modbus_type.h:60-77: byte positions in a frame *)
Definition MODBUS_SLAVE_ADR_IDX : Z := 0.
Definition MODBUS_FUNCTION_CODE_IDX : Z := 1.
Definition MODBUS_REQUEST_ADR_IDX : Z := 2.
Definition MODBUS_REQUEST_QTY_IDX : Z := 4.
Definition MODBUS_REQUEST_BYTE_CNT_IDX : Z := 6.
Definition MODBUS_REQUEST_WRITE_MULTI_DATA_IDX : Z := 7.
Definition MODBUS_RESP_READ_BYTE_CNT_IDX : Z := 2.
Definition MODBUS_RESP_READ_DATA_IDX : Z := 3.
Definition MODBUS_RESP_WRITE_ADR_IDX : Z := 2.
Definition MODBUS_RESP_WRITE_SINGLE_DATA_IDX : Z := 4.
Definition MODBUS_RESP_WRITE_MULTIPLE_DATA_QTY_IDX : Z := 4.
Definition MODBUS_RESP_EXCEPTION_CODE_IDX : Z := 2.
(** src/common/modbus_type.h:80-88: lengths (slave address byte included, CRC not) and mask *)
Definition MODBUS_READ_REQUEST_LEN : Z := 6.
Definition MODBUS_WRITE_SINGLE_REQUEST_LEN : Z := 6.
Definition MODBUS_WRITE_MULTI_REQUEST_LEN : Z := 7.
Definition MODBUS_READ_RESP_LEN : Z := 3.
Definition MODBUS_WRITE_SINGLE_RESP_LEN : Z := 6.
Definition MODBUS_WRITE_MULTI_RESP_LEN : Z := 6.
Definition MODBUS_PDU_EXCEPTION_CODE_LEN : Z := 3.
Definition MODBUS_EXCEPTION_CODE_MASK : Z := 0x80.

(** src/common/modbus_type.h:99-103  modbus_w_coil_t *)
Definition COIL_OFF : Z := 0x0000.
Definition COIL_ON : Z := 0xFF00.

(** src/common/modbus_type.h:108-124  modbus_ret_t (the values that occur in the code) *)
Definition RET_ERROR_UNKNOWN_MAPPER_FUN_CODE : Z := -11.
Definition RET_NULL_PTR_ERROR : Z := -10.
Definition RET_ERROR_CRC : Z := -3.
Definition RET_ERROR_SLAVE_ID : Z := -2.
Definition RET_ERROR : Z := -1.
Definition RET_OK : Z := 0.

(** src/modbus_public_type.h:30-34  modbus_mode_t *)
Inductive mode := RTU | UNKNOWN_MODE.

(** src/modbus_public_type.h:49-55  modbus_exception_code_t *)
Definition MODBUS_ILLEGAL_FUNCTION_ERROR : Z := 1.
Definition MODBUS_ILLEGAL_DATA_ADDRESS_ERROR : Z := 2.
Definition MODBUS_ILLEGAL_DATA_VALUE_ERROR : Z := 3.
Definition MODBUS_SERVER_DEVICE_FAILURE_ERROR : Z := 4.

(** src/modbus_public_type.h:60-66  modbus_master_req_ret_t *)
Inductive req_ret :=
| REQUEST_SEND_TO_QUEUE
| FREE_QUEUE_EMPTY_ERROR
| LIB_PDU_REQ_ERROR
| LIB_RTU_SEND_ERROR.

(** src/modbus_public_type.h:71-76  modbus_master_resp_read_error_t *)
Inductive resp_err := RESP_RTU_CRC_ERR | RESP_TIMEOUT_ERR | RESP_FRAME_ERR.

(** src/modbus_public_type.h:81-91  modbus_fun_code_t *)
Definition FC_READ_COILS : Z := 0x01.
Definition FC_READ_DISCRETE_INPUTS : Z := 0x02.
Definition FC_READ_HOLDING_REGISTERS : Z := 0x03.
Definition FC_READ_INPUT_REGISTERS : Z := 0x04.
Definition FC_WRITE_SINGLE_COIL : Z := 0x05.
Definition FC_WRITE_SINGLE_REGISTER : Z := 0x06.
Definition FC_WRITE_MULTIPLE_COILS : Z := 0x0F.
Definition FC_WRITE_MULTIPLE_REGISTER : Z := 0x10.

(** src/common/modbus_type.h:152-157  modbus_status_flag_t *)
Inductive flag := CLEARED | SET | FUNKNOWN.
Definition is_set (f : flag) : bool := match f with SET => true | _ => false end.
Definition is_clr (f : flag) : bool := match f with CLEARED => true | _ => false end.

(** src/common/modbus_type.h:182-186  modbus_req_resp_t.  The [data] pointer is either NULL
    ([rr_ptr = false]) or points to the static buffer reserved for it ([rr_buf]). *)
Record rr := mk_rr { rr_ptr : bool; rr_buf : list Z; rr_len : Z }.

(** src/common/modbus_type.h:198-202  modbus_msg_t *)
Record msg := mk_msg { m_req : rr; m_resp : rr }.

(** Access through [data]: NULL or out of the 256-byte buffer = UB (C semantics). *)
Definition rd (r : rr) (i : Z) : outcome Z :=
  if rr_ptr r then aget (rr_buf r) i else UB.
Definition wr (r : rr) (i v : Z) : outcome rr :=
  if rr_ptr r
  then let* b := aset (rr_buf r) i v in Ok (mk_rr true b (rr_len r))
  else UB.
Definition set_len (r : rr) (n : Z) : rr := mk_rr (rr_ptr r) (rr_buf r) n.
Definition set_req (m : msg) (r : rr) : msg := mk_msg r (m_resp m).
Definition set_resp (m : msg) (r : rr) : msg := mk_msg (m_req m) r.

(** src/modbus_config.h:26-35: compile-time configuration, a parameter of the model. *)
Record cfg := mk_cfg {
  c_queue : Z;    (* MODBUS_MASTER_MAX_MSG_QUEUE_ITEMS *)
  c_timeout : Z;  (* MODBUS_MASTER_RESP_TIME_OUT_MS *)
  c_repeat : Z;   (* MODBUS_MASTER_REQ_REPEAT_ON_ANY_ERROR *)
  c_coils : Z;    (* MAIN_APP_COILS_QTY *)
  c_din : Z;      (* MAIN_APP_DISCRET_INPUTS_QTY *)
  c_ireg : Z;     (* MAIN_APP_INPUT_REG_QTY *)
  c_hreg : Z      (* MAIN_APP_HOLDING_REG_QTY *)
}.

(** src/modbus_config.h:26-35, the shipped values *)
Definition default_cfg : cfg := mk_cfg 5 1000 3 100 100 100 100.
