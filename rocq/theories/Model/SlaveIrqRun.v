(** The slave (src/modbus_slave.c, Model.Slave) with an application that changes its variables from interrupt handlers at any moment: between
    two lines of check_modbus_request and, inside line 195, between two accesses of the request to variables (Model.SlaveIrqData). *)
From Verif Require Export Model.Slave Model.SlaveIrqData.

(** [IStep app]: the next line of check_modbus_request; [app] counts only while line 195 is executed.  [IApp w]: the application writes a variable *)
Inductive iact := IStep (app : nat -> list aw) | IEv (e : sev) | IApp (w : aw).
(** src/modbus_slave.c:195 interrupted; all other lines as in Model.Slave *)
Definition i_line (app : nat -> list aw) (c : cfg) (l : spc) (s : slave) : outcome (option spc * slave * list sout) :=
  match l with
  | L195 =>
      if s_mptr s
      then let* '(_, m, d) := parse_master_request_and_prepare_resp_i app c (s_msg s) (s_data s) in
           Ok (Some L196, s_set_data (s_set_msg s m) d, [SoExec])
      else Ok (Some L196, s, [])
  | _ => s_line c l s
  end.
(** one action: a line (src/modbus_slave.c:162-232) as in Model.Slave, a driver event, or a write of the application (its interrupt handler, not in
    /repo: a write to a registered variable) *)
Definition i_act (c : cfg) (a : iact) (k : sconf) : outcome (sconf * list sitem) :=
  match a with
  | IEv e => s_act c (SEv e) k
  | IApp w => Ok (mk_sconf (s_set_data (sc_s k) (aw_do (s_data (sc_s k)) w)) (sc_pc k), [])
  | IStep app =>
      match sc_pc k with
      | None => s_act c SStep k
      | Some l => let* '(l', s, o) := i_line app c l (sc_s k) in Ok (mk_sconf s l', map TOut o)
      end
  end.
(** a schedule (not in /repo: the order in which main loop and interrupts run) *)
Fixpoint i_run (c : cfg) (sched : list iact) (k : sconf) : outcome (sconf * list sitem) :=
  match sched with
  | [] => Ok (k, [])
  | a :: rest =>
      let* '(k1, t1) := i_act c a k in
      let* '(k2, t2) := i_run c rest k1 in
      Ok (k2, t1 ++ t2)
  end.
