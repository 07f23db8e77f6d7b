(** A request call of the master (src/modbus_master.c:484-505 generate_request) executed in small steps, so that interrupt handlers - the
    driver's, the tick and one that calls update_modbus_master_manager - can fall in between.  The two queue operations are executed access
    by access (Model.QueueSteps).  Simplification: generate_request_PDU_data and modbus_RTU_send are one step each; they write only the
    request half of a message that no interrupt handler accesses. *)
From Verif Require Export Model.QueueSteps Model.Master.
Import ListNotations.
Open Scope Z_scope.

(** where the call is: line 486 (modbus_queue_pop), 492, 497, 503 (modbus_queue_push), returned *)
Inductive rpc := RPop (pc : pop_pc nat) | RGen (i : nat) | RSend (i : nat) | RPush (i : nat) (pc : push_pc nat) | RRet (r : req_ret).
(** src/modbus_master.c:484-505 *)
Definition r_step (c : cfg) (p : req_param) (pc : rpc) (s : master) : outcome (rpc * master) :=
  match pc with
  | RPop pc =>
      let* '(pc, q) := pop_step (c_queue c) pc (mm_free s) in
      Ok (match pc with QDone None => RRet FREE_QUEUE_EMPTY_ERROR | QDone (Some i) => RGen i | _ => RPop pc end, m_set_free s q)
  | RGen i =>
      let* m := get_msg s i in
      let* '(st, m) := generate_request_PDU_data m p in
      let* s := put_msg s i m in
      Ok (if st <? 0 then RRet LIB_PDU_REQ_ERROR else RSend i, s)
  | RSend i =>
      let* m := get_msg s i in
      let* '(st, r) := modbus_RTU_send (m_req m) (p_id p) in
      let* s := put_msg s i (set_req m r) in
      Ok (if RET_ERROR =? st then RRet LIB_RTU_SEND_ERROR else RPush i P52, s)
  | RPush i pc =>
      let* '(pc, q) := push_step (c_queue c) (Some i) pc (mm_txq s) in
      Ok (match pc with PDone _ => RRet REQUEST_SEND_TO_QUEUE | _ => RPush i pc end, m_set_txq s q)
  | RRet r => Ok (RRet r, s)
  end.
(** the next step of the call, or one action of an interrupt handler: a driver event, a tick, or the next line of the manager *)
Inductive ract := RStep | RIrq (x : mact).
Definition r_act (c : cfg) (a : api) (x : ract) (k : rpc * mconf) : outcome (rpc * mconf * list mitem) :=
  match x with
  | RStep => let* '(pc, s) := r_step c (api_param a) (fst k) (mc_s (snd k)) in Ok (pc, mk_mconf s (mc_pc (snd k)), [])
  | RIrq x => let* '(k', t) := m_act c x (snd k) in Ok (fst k, k', t)
  end.
Fixpoint r_run (c : cfg) (a : api) (acts : list ract) (k : rpc * mconf) : outcome (rpc * mconf * list mitem) :=
  match acts with
  | [] => Ok (fst k, snd k, [])
  | x :: l => let* '(pc1, k1, t1) := r_act c a x k in let* '(pc2, k2, t2) := r_run c a l (pc1, k1) in Ok (pc2, k2, t1 ++ t2)
  end.
(** A main program that makes requests while interrupt handlers run: before, during and after each call.  The result lists for every call
    where it got to (returned, if enough of its steps are given) and what was observed, in order. *)
Inductive stage := Between (l : list mact) | Call (a : api) (acts : list ract).
Fixpoint p_run (c : cfg) (prog : list stage) (k : mconf) : outcome (mconf * list mitem * list (api * rpc)) :=
  match prog with
  | [] => Ok (k, [], [])
  | Between l :: prog => let* '(k1, t1) := m_run c l k in let* '(k2, t2, rs) := p_run c prog k1 in Ok (k2, t1 ++ t2, rs)
  | Call a acts :: prog =>
      let* '(pc, k1, t1) := r_run c a acts (RPop Q89, k) in let* '(k2, t2, rs) := p_run c prog k1 in Ok (k2, t1 ++ t2, (a, pc) :: rs)
  end.
