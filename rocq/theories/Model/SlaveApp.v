(** The example slave application, examples/STM32G070RB_MODBUS_SLAVE/Core/Src/main.c (called MAIN below) and LED_driver.c, on top of the slave
    firmware (Model/SlaveSystem.v): registration of the variables, main loop, LED. *)
From Verif Require Export Model.SlaveSystem.

(** MAIN:33-37, 39: the variables and their initial values.  Cells of type bool: coil_data, din_data, LED_status; of type uint16_t: hreg_data, inreg_data. *)
Definition coil_data : list bool := map (Z.eqb 1) [1; 0; 1; 0; 0; 1; 0; 1; 1; 1; 0; 0; 0; 1; 1; 1; 1; 0; 0; 1].
Definition din_data : list bool := map (Z.eqb 1) [1; 1; 1; 1; 0; 0; 0; 1; 1; 1; 0; 0; 0; 1; 1; 1; 1; 0; 0; 1].
Definition hreg_data : list Z := [2001; 2002; 2003; 2004; 2005; 2006; 2007; 2008; 2009; 2010; 3001; 3002; 3003; 3004; 3005; 3006; 3007; 3008; 3009; 3010].
Definition inreg_data : list Z := [60; 61; 62; 4204; 4205; 4206; 4207; 4208; 4209; 4210; 4301; 4302; 4303; 4304; 4305; 4306; 4307; 4308; 4309; 4310].
Definition Slave_ID : Z := 1.
Definition app_bits : list bool := coil_data ++ din_data ++ [false].
Definition app_regs : list Z := hreg_data ++ inreg_data.
Definition p_coil (i : nat) : nat := i.
Definition p_din (i : nat) : nat := (20 + i)%nat.
Definition p_LED_status : nat := 40%nat.
Definition p_hreg (i : nat) : nat := i.
Definition p_inreg (i : nat) : nat := (20 + i)%nat.

(** MAIN:61-71 register_modbus_data: the calls, in order *)
Definition registrations : list (table * Z * nat) :=
  flat_map (fun i => [(TCoils, Z.of_nat i, p_coil i); (TDin, Z.of_nat i, p_din i); (THreg, Z.of_nat i, p_hreg i); (TIreg, Z.of_nat i, p_inreg i)]) (seq 0 20)
  ++ [(TCoils, 21, p_LED_status)].

(** what the main program executes next: one of the registrations, check_modbus_request (MAIN:55), update_LED (MAIN:57) *)
Inductive bpc := B50 (todo : list (table * Z * nat)) | B55 | B57.
(** [b_led]: bit LED_OUT_PIN of the port's output register *)
Record sapp := mk_sapp { b_fw : sys; b_pc : bpc; b_led : bool }.
Inductive bact :=
| BaMain              (* the main program executes its next line *)
| BaHw (x : yact).    (* interrupt handlers of the driver, hardware (AMain, AApp are not hardware: no effect) *)
(** the main program is between two calls of check_modbus_request *)
Definition s_between_polls (y : sys) : bool := match sc_pc (y_lib y), y_sub y with None, None => true | _, _ => false end.
(** MAIN:45-59, 61-71, 72-82.  Simplification: a registration and update_LED are one step each. *)
Definition b_act (c : cfg) (x : bact) (b : sapp) : outcome (sapp * list yitem) :=
  match x with
  | BaMain =>
      match b_pc b with
      | B50 [] => Ok (mk_sapp (b_fw b) B55 (b_led b), [])
      | B50 ((tb, adr, p) :: todo) =>
          let y := b_fw b in
          let* s := modbus_slave_register tb adr (Some p) (sc_s (y_lib y)) in
          Ok (mk_sapp (mk_sys (mk_sconf s (sc_pc (y_lib y))) (y_u y) (y_sub y)) (B50 todo) (b_led b), [])
      | B55 =>
          let* '(y, t) := y_act c AMain (b_fw b) in
          Ok (mk_sapp y (if s_between_polls y then B57 else B55) (b_led b), t)
      | B57 =>
          let* v := aget (v_bits (s_data (sc_s (y_lib (b_fw b))))) (Z.of_nat p_LED_status) in
          Ok (mk_sapp (b_fw b) B55 (if v then true else false), [])
      end
  | BaHw x =>
      match x with
      | AMain | AApp _ _ => Ok (b, [])
      | _ => let* '(y, t) := y_act c x (b_fw b) in Ok (mk_sapp y (b_pc b) (b_led b), t)
      end
  end.
Fixpoint b_run (c : cfg) (l : list bact) (b : sapp) : outcome (sapp * list yitem) :=
  match l with
  | [] => Ok (b, [])
  | x :: l =>
      let* '(b1, t1) := b_act c x b in
      let* '(b2, t2) := b_run c l b1 in
      Ok (b2, t1 ++ t2)
  end.
(** MAIN:47-50: power-on, LED_init (LED_driver.c:13-18; the output register is 0 at reset), modbus_slave_init.  Simplification: no interrupt during modbus_slave_init
    (interrupts during the registration that follows are modelled) *)
Definition slave_app (c : cfg) : sapp :=
  mk_sapp (mk_sys (mk_sconf (modbus_slave_init RTU Slave_ID (slave_static c app_bits app_regs)) None) uart_init None) (B50 registrations) false.
