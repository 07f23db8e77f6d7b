(** The master's manager with its accesses to the two queues executed one by one, so that a request made from an interrupt
    handler can fall in between.  Everything else as in Model.Master. *)
From Verif Require Export Model.QueueSteps Model.Master.
Import ListNotations.
Open Scope Z_scope.

(** where the program is inside lines 649 (second half of the test), 651 and 901 of src/modbus_master.c *)
Inductive qpc := AtLine | AtCheck | AtPop (pc : pop_pc nat) | AtPush (pc : push_pc nat).
Record fconf := mk_fconf { fc_k : mconf; fc_q : qpc }.
Inductive fmove := FStep | FEv (e : mev).

(** src/modbus_master.c:651 [msg_buf = modbus_queue_pop(tx_rx_q)], one access *)
Definition f_pop (c : cfg) (pc : pop_pc nat) (s : master) : outcome (fconf * list mitem) :=
  let* '(pc, q) := pop_step (c_queue c) pc (mm_txq s) in
  let s := m_set_txq s q in
  match pc with
  | QDone r => Ok (mk_fconf (mk_mconf (m_set_cur s r) (Some M404)) AtLine, [])
  | _ => Ok (mk_fconf (mk_mconf s (Some M651)) (AtPop pc), [])
  end.
(** src/modbus_master.c:901 [modbus_queue_push(free_q, &msg_buf)], one access; the last one is [*data = NULL] (lines 65, 73 of
    modbus_queue.c) *)
Definition f_push (c : cfg) (pc : push_pc nat) (s : master) : outcome (fconf * list mitem) :=
  let* '(pc, q) := push_step (c_queue c) (mm_cur s) pc (mm_free s) in
  let s := m_set_free s q in
  match pc with
  | PDone d => Ok (mk_fconf (mk_mconf (m_set_cur s d) (Some M902)) AtLine, [MTOut MoFree])
  | _ => Ok (mk_fconf (mk_mconf s (Some M901)) (AtPush pc), [])
  end.
(** src/modbus_master.c:631-654: the two operands of the test at line 633, then as above; other lines: Model.Master *)
Definition f_step (c : cfg) (k : fconf) : outcome (fconf * list mitem) :=
  let s := mc_s (fc_k k) in
  match fc_q k with
  | AtCheck => Ok (mk_fconf (mk_mconf s (if 0 <? q_items (mm_txq s) then Some M651 else None)) AtLine, [])
  | AtPop pc => f_pop c pc s
  | AtPush pc => f_push c pc s
  | AtLine =>
      match mc_pc (fc_k k) with
      | Some M649 => Ok (if negb (q_head (mm_txq s) =? q_tail (mm_txq s)) then mk_fconf (mk_mconf s (Some M651)) AtLine else mk_fconf (fc_k k) AtCheck, [])
      | Some M651 => f_pop c Q89 s
      | Some M901 => f_push c P52 s
      | _ => let* '(k', o) := m_act c MStep (fc_k k) in Ok (mk_fconf k' AtLine, o)
      end
  end.
Definition f_act (c : cfg) (a : fmove) (k : fconf) : outcome (fconf * list mitem) :=
  match a with
  | FStep => f_step c k
  | FEv e => let* '(k', o) := m_act c (MEv e) (fc_k k) in Ok (mk_fconf k' (fc_q k), o)
  end.
Fixpoint f_run (c : cfg) (acts : list fmove) (k : fconf) : outcome (fconf * list mitem) :=
  match acts with
  | [] => Ok (k, [])
  | a :: l => let* '(k1, t1) := f_act c a k in let* '(k2, t2) := f_run c l k1 in Ok (k2, t1 ++ t2)
  end.
