(** The example master application, examples/STM32G070RB_MODBUS_MASTER/Core/Src/main.c (called MAIN below) and
    Core/Src/modbus_master_data_interface.c (called DATA), on top of the master firmware (Model/MasterSystem.v): main loop, periodic requests,
    SysTick handler, callbacks. *)
From Verif Require Export Model.MasterSystem.

(** Core/Inc/main.h:3-9 *)
Definition SLAVE_ADDRES_EXAMPLE_NODE : Z := 1.
Definition READ_COIL_ADR : Z := 1.
Definition READ_HREG_ADR : Z := 1.
Definition WRITE_COIL_ADR : Z := 0.
Definition WRITE_HREG_ADR : Z := 0.
Definition UPDATE_INTERVAL_MS : Z := 300.
(** MAIN:33, 37, 39 (never assigned) *)
Definition coil_qty : Z := 1.
Definition reg_qty : Z := 1.
Definition request_interval : Z := UPDATE_INTERVAL_MS.

(** MAIN:31-36: the variables of the application *)
Record vars := mk_vars { readed_coil : bool; prev_coil_val : bool; readed_hreg : Z; prev_hreg_val : Z }.
Definition vars_init : vars := mk_vars false false 0 0.

(** the callbacks, DATA:19-90 *)
Definition data_cb (x : cb) (v : vars) : vars :=
  match x with
  | CoilRead id adr b =>
      if (SLAVE_ADDRES_EXAMPLE_NODE =? id) && (READ_COIL_ADR =? adr) then mk_vars b (prev_coil_val v) (readed_hreg v) (prev_hreg_val v) else v
  | HregRead id adr r =>
      if (SLAVE_ADDRES_EXAMPLE_NODE =? id) && (READ_HREG_ADR =? adr) then mk_vars (readed_coil v) (prev_coil_val v) r (prev_hreg_val v) else v
  | CoilExc _ => mk_vars (readed_coil v) false (readed_hreg v) (prev_hreg_val v)
  | HregExc _ => mk_vars (readed_coil v) (prev_coil_val v) (readed_hreg v) 0
  | CoilWrite _ _ _ | HregWrite _ _ _ | DisinRead _ _ _ | DisinExc _ | InregRead _ _ _ | InregExc _ | TimeoutErr _ | CommErr _ => v
  end.
(** the callbacks among the things that happened, in order *)
Definition run_cbs (t : list witem) (v : vars) : vars :=
  fold_left (fun v x => match x with WLib (MTOut (MoCb k)) => data_cb k v | _ => v end) t v.

(** line of MAIN about to be executed by the main program; A55: inside update_modbus_master_manager, or about to call it *)
Inductive apc := A55 | A66 | A79 | A80 | A81 | A82 | A83.
(** MAIN:41 update_timer (uint16_t) *)
Record mapp := mk_mapp { a_fw : mfw; a_timer : Z; a_vars : vars; a_pc : apc }.

Inductive aact :=
| AaMain                  (* the main program executes its next line *)
| AaTick                  (* SysTick, every millisecond *)
| AaHw (x : wact).        (* interrupt handlers of the driver, hardware (WMain, WTick, WReq are not hardware: no effect) *)

(** the main program is between two calls of update_modbus_master_manager *)
Definition between_polls (w : mfw) : bool :=
  match mc_pc (w_lib w), w_sub w with None, None => true | _, _ => false end.
(** MAIN:79-82 a request function is called *)
Definition a_request (c : cfg) (r : api) (next : apc) (a : mapp) : outcome (mapp * list witem) :=
  let* '(w, t) := w_act c (WReq r) (a_fw a) in
  Ok (mk_mapp w (a_timer a) (run_cbs t (a_vars a)) next, t).
(** MAIN:53-59 main loop, 64-85 update_modbus_data, 87-95 SysTick_Handler.  Simplification: as in the firmware, a request call and SysTick are one step. *)
Definition a_act (c : cfg) (x : aact) (a : mapp) : outcome (mapp * list witem) :=
  let v := a_vars a in
  match x with
  | AaMain =>
      match a_pc a with
      | A55 =>
          let* '(w, t) := w_act c WMain (a_fw a) in
          Ok (mk_mapp w (a_timer a) (run_cbs t v) (if between_polls w then A66 else A55), t)
      | A66 => Ok (mk_mapp (a_fw a) (a_timer a) v (if a_timer a =? 0 then A79 else A55), [])
      | A79 => a_request c (ReadCoils READ_COIL_ADR coil_qty SLAVE_ADDRES_EXAMPLE_NODE) A80 a
      | A80 => a_request c (ReadHoldingReg READ_HREG_ADR reg_qty SLAVE_ADDRES_EXAMPLE_NODE) A81 a
      | A81 => a_request c (WriteSingleCoil WRITE_COIL_ADR SLAVE_ADDRES_EXAMPLE_NODE (readed_coil v)) A82 a
      | A82 => a_request c (WriteSingleReg WRITE_HREG_ADR SLAVE_ADDRES_EXAMPLE_NODE (readed_hreg v)) A83 a
      | A83 => Ok (mk_mapp (a_fw a) request_interval v A55, [])
      end
  | AaTick =>
      let* '(w, t) := w_act c WTick (a_fw a) in
      Ok (mk_mapp w (if a_timer a =? 0 then 0 else a_timer a - 1) (run_cbs t v) (a_pc a), t)
  | AaHw x =>
      match x with
      | WMain | WTick | WReq _ => Ok (a, [])
      | _ => let* '(w, t) := w_act c x (a_fw a) in Ok (mk_mapp w (a_timer a) (run_cbs t v) (a_pc a), t)
      end
  end.
Fixpoint a_run (c : cfg) (l : list aact) (a : mapp) : outcome (mapp * list witem) :=
  match l with
  | [] => Ok (a, [])
  | x :: l =>
      let* '(a1, t1) := a_act c x a in
      let* '(a2, t2) := a_run c l a1 in
      Ok (a2, t1 ++ t2)
  end.
(** MAIN:45-53: power-on, initialisation.  Simplification: no interrupt during initialisation (see Model/MasterInit.v) *)
Definition master_app (c : cfg) : outcome mapp :=
  let* s := modbus_master_init c RTU (master_static c) in
  Ok (mk_mapp (mk_mfw (mk_mconf s None) uart_init None) UPDATE_INTERVAL_MS vars_init A55).
