(** Vocabulary for the example slave application. *)
From Coq Require Import List ZArith Bool.
From Verif Require Import Model.Base Model.Types Model.SlaveData Model.Slave Model.SlaveSystem Model.SlaveApp.
From Verif Require Export Spec.SlaveSystem.
Import ListNotations.
Open Scope Z_scope.

(** table sizes the example needs (100 each in modbus_config.h) *)
Definition example_cfg_ok (c : cfg) : Prop :=
  22 <= c_coils c <= 65535 /\ 20 <= c_din c <= 65535 /\ 20 <= c_ireg c <= 65535 /\ 20 <= c_hreg c <= 65535.
(** a history of the application: power-on, then the schedule [sched] *)
Definition slave_app_history (c : cfg) (sched : list bact) (b : sapp) (t : list yitem) : Prop := b_run c sched (slave_app c) = Ok (b, t).
(** the registration of the variables is over *)
Definition running (b : sapp) : bool := match b_pc b with B50 _ => false | _ => true end.
(** the application's memory *)
Definition b_data (b : sapp) : sdata := s_data (sc_s (y_lib (b_fw b))).
Definition LED_status (d : sdata) : bool := nth 40 (v_bits d) false.
(** the intended memory map: coils 0..19 are coil_data, coil 21 is LED_status, discrete inputs, holding and input registers 0..19 are
    din_data, hreg_data, inreg_data; nothing else is registered *)
Definition example_coil (adr : nat) : option nat := if (adr <? 20)%nat then Some adr else if (adr =? 21)%nat then Some 40%nat else None.
Definition example_other (base adr : nat) : option nat := if (adr <? 20)%nat then Some (base + adr)%nat else None.
Definition example_data (c : cfg) : sdata :=
  mk_sdata (map example_coil (seq 0 (Z.to_nat (c_coils c)))) (map (example_other 20) (seq 0 (Z.to_nat (c_din c))))
           (map (example_other 20) (seq 0 (Z.to_nat (c_ireg c)))) (map (example_other 0) (seq 0 (Z.to_nat (c_hreg c))))
           (coil_data ++ din_data ++ [false]) (hreg_data ++ inreg_data).
(** the firmware after power-on, with this memory map *)
Definition example_firmware (c : cfg) : sys :=
  mk_sys (mk_sconf (s_set_data (modbus_slave_init RTU 1 (slave_static c (coil_data ++ din_data ++ [false]) (hreg_data ++ inreg_data))) (example_data c)) None) uart_init None.
(** main program lines in a schedule *)
Definition b_mains (l : list bact) : nat := length (filter (fun x => match x with BaMain => true | _ => false end) l).
(** the schedule as the firmware (library, driver, hardware) sees it: without registrations and update_LED *)
Fixpoint b_sched (c : cfg) (l : list bact) (b : sapp) : list yact :=
  match l with
  | [] => []
  | x :: l =>
      match x with
      | BaMain => match b_pc b with B55 => [AMain] | _ => [] end
      | BaHw y => match y with AMain | AApp _ _ => [] | _ => [y] end
      end ++ match b_act c x b with Ok (b1, _) => b_sched c l b1 | _ => [] end
  end.
(** the request "write single coil 21" (LED on or off) to the slave 1 *)
Definition switch_LED (v : bool) : list Z := rtu_frame 1 [5; 0; 21; if v then 255 else 0; 0].
(** the data with nothing changed but LED_status *)
Definition with_LED (d : sdata) (v : bool) : sdata :=
  mk_sdata (t_coils d) (t_din d) (t_ireg d) (t_hreg d) (firstn 40 (v_bits d) ++ [v] ++ skipn 41 (v_bits d)) (v_regs d).
(** the initial values: which coils and discrete inputs are set; holding registers 2001..2010, 3001..3010; input registers 60, 61, 62, 4204..4210, 4301..4310 *)
Definition coil_value (i : nat) : bool := existsb (Nat.eqb i) [0; 2; 5; 7; 8; 9; 13; 14; 15; 16; 19]%nat.
Definition din_value (i : nat) : bool := existsb (Nat.eqb i) [0; 1; 2; 3; 7; 8; 9; 13; 14; 15; 16; 19]%nat.
Definition hreg_value (i : nat) : Z := (if (i <? 10)%nat then 2001 else 2991) + Z.of_nat i.
Definition inreg_value (i : nat) : Z := (if (i <? 3)%nat then 60 else if (i <? 10)%nat then 4201 else 4291) + Z.of_nat i.
