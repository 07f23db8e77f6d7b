(** src/slave_internall/modbus_slave_data.c and modbus_slave_data.h: tables of pointers to application
    variables. *)
From Verif Require Export Model.Types.

(** src/slave_internall/modbus_slave_data.h:31-62: table sizes (preprocessor minimum) *)
Definition table_size (main_app_qty : Z) : Z :=
  if main_app_qty <? MODBUS_MAX_SPECIFIC_DATA_ITEMS_QTY
  then main_app_qty else MODBUS_MAX_SPECIFIC_DATA_ITEMS_QTY.

(** src/slave_internall/modbus_slave_data.c:15-18: the four tables of pointers.  Application variables
    live in two heaps of cells; a non-NULL pointer is the index of a cell ([None] = NULL, the static
    initial value).  A pointer to a cell that does not exist models a dangling pointer (UB on use). *)
Record sdata := mk_sdata {
  t_coils : list (option nat);   (* Slave_Coils *)
  t_din   : list (option nat);   (* Slave_Discrete_Inputs *)
  t_ireg  : list (option nat);   (* Slave_Input_Registers *)
  t_hreg  : list (option nat);   (* Slave_Holding_Registers *)
  v_bits  : list bool;           (* application variables of type bool *)
  v_regs  : list Z               (* application variables of type uint16_t *)
}.
Definition set_bits (d : sdata) (b : list bool) : sdata :=
  mk_sdata (t_coils d) (t_din d) (t_ireg d) (t_hreg d) b (v_regs d).
Definition set_regs (d : sdata) (r : list Z) : sdata :=
  mk_sdata (t_coils d) (t_din d) (t_ireg d) (t_hreg d) (v_bits d) r.

(** src/slave_internall/modbus_slave_data.c:30-33 and 45-48: table[adr] = ptr (no range check) *)
Definition register_app_data (table : list (option nat)) (adr : Z) (ptr : option nat)
  : outcome (list (option nat)) := aset table adr ptr.

(** src/slave_internall/modbus_slave_data.c:60-68.  [adr] is a uint16_t parameter. *)
Definition get_coil_din_state (tab : list (option nat)) (cells : list bool) (adr : Z) : outcome Z :=
  let* p := aget tab (u16 adr) in
  match p with
  | Some c => let* v := aget cells (Z.of_nat c) in Ok (b2z v)
  | None => Ok RET_ERROR
  end.

(** src/slave_internall/modbus_slave_data.c:80-91 *)
Definition set_coil_state (tab : list (option nat)) (cells : list bool) (adr : Z) (v : bool)
  : outcome (Z * list bool) :=
  let* p := aget tab (u16 adr) in
  match p with
  | Some c => let* cells := aset cells (Z.of_nat c) v in Ok (RET_OK, cells)
  | None => Ok (RET_ERROR, cells)
  end.

(** src/slave_internall/modbus_slave_data.c:103-113 *)
Definition get_register_state (tab : list (option nat)) (cells : list Z) (adr : Z) : outcome Z :=
  let* p := aget tab (u16 adr) in
  match p with
  | Some c => aget cells (Z.of_nat c)
  | None => Ok RET_ERROR
  end.

(** src/slave_internall/modbus_slave_data.c:128-139 *)
Definition set_register_value (tab : list (option nat)) (cells : list Z) (adr v : Z)
  : outcome (Z * list Z) :=
  let* p := aget tab (u16 adr) in
  match p with
  | Some c => let* cells := aset cells (Z.of_nat c) v in Ok (RET_OK, cells)
  | None => Ok (RET_ERROR, cells)
  end.
