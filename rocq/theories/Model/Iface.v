(** The interface types between library and application: requests, callbacks, reports. *)
From Verif Require Export Model.Types.

(** src/modbus_public_type.h:112-122  modbus_read_data_t (exception report) *)
Record exc_report := mk_exc { x_id : Z; x_fc : Z; x_code : Z; x_adr : Z; x_qty : Z }.
(** src/modbus_public_type.h:103-110  modbus_master_error_report_t *)
Record err_report := mk_err { r_id : Z; r_fc : Z; r_adr : Z; r_qty : Z; r_err : resp_err }.

(** src/modbus_master_data_interface.h: the callbacks the application implements; a call is an event. *)
Inductive cb :=
| CoilRead (id adr : Z) (v : bool)      (* modbus_master_coil_read *)
| DisinRead (id adr : Z) (v : bool)     (* modbus_master_disin_read *)
| InregRead (id adr v : Z)              (* modbus_master_inreg_read *)
| HregRead (id adr v : Z)               (* modbus_master_hreg_read *)
| CoilWrite (id adr qty : Z)            (* modbus_master_coil_write *)
| HregWrite (id adr qty : Z)            (* modbus_master_hreg_write *)
| CoilExc (e : exc_report)              (* modbus_master_coil_exception *)
| DisinExc (e : exc_report)             (* modbus_master_disin_exception *)
| HregExc (e : exc_report)              (* modbus_master_hreg_exception *)
| InregExc (e : exc_report)             (* modbus_master_inreg_exception *)
| TimeoutErr (e : err_report)           (* modbus_master_data_timeout_error *)
| CommErr (e : err_report).             (* modbus_master_communication_error *)

(** The request functions and their parameters, src/modbus_master.c:149-295 *)
Inductive api :=
| ReadCoils (adr qty id : Z)
| ReadDiscreteInputs (adr qty id : Z)
| ReadInputReg (adr qty id : Z)
| ReadHoldingReg (adr qty id : Z)
| WriteSingleCoil (adr id : Z) (v : bool)
| WriteSingleReg (adr id v : Z)
| WriteMultipleReg (adr qty id : Z) (data : option (list Z))
| WriteMultipleCoils (adr qty id : Z) (data : option (list bool)).

