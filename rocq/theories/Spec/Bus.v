(** One master firmware and any number of slave firmwares on one bus: everything a firmware puts on the line is heard by all the others. *)
From Coq Require Import List ZArith Bool.
From Verif Require Import Model.Base Model.Types Model.Iface Model.SlaveData Model.Slave Model.Master Model.SlaveSystem Model.MasterSystem.
From Verif Require Spec.SlaveSystem.
From Verif Require Export Spec.MasterSystem Spec.EndToEnd.
Import ListNotations.
Open Scope Z_scope.

(** a slave firmware with its configuration *)
Record node := mk_node { n_cfg : cfg; n_sys : sys }.
Definition n_id (n : node) : Z := s_id (sc_s (y_lib (n_sys n))).
Definition n_data (n : node) : sdata := s_data (sc_s (y_lib (n_sys n))).
Definition node_rests (n : node) : Prop := cfg_tables_ok (n_cfg n) /\ SlaveSystem.sys_rests (n_cfg n) (n_sys n).
(** node [n] under its own schedule *)
Definition node_run (n : node) (l : list yact) (n' : node) (t : list yitem) : Prop :=
  n_cfg n' = n_cfg n /\ y_run (n_cfg n) l (n_sys n) = Ok (n_sys n', t).

(** A frame [g] arrives at a node that has nothing to say to it. *)
Definition overhears (g : list Z) (l : list yact) : Prop := exists l1 l2, l = l1 ++ l2 /\ SlaveSystem.wire_frame g l1 /\ SlaveSystem.wire_silence l2.
(** The request [g] arrives at the node it is for; then the node has the time to put its answer on the line. *)
Definition is_asked (n : node) (g : list Z) (l : list yact) : Prop :=
  exists l1 l2, l = l1 ++ l2 /\ SlaveSystem.wire_frame g l1 /\ SlaveSystem.wire_answer (length (rtu_frame (n_id n) (fst (server (n_cfg n) (n_data n) g)))) l2.
(** What happens at node [n] (schedule [l]) when request [g] for slave [id] is on the line and then the answer [f]: the node with that ID hears the request and
    says [f]; the others hear the request and then the answer. *)
Definition node_hears (id : Z) (g f : list Z) (n : node) (l : list yact) : Prop :=
  if n_id n =? id
  then is_asked n g l /\ forall n' t, node_run n l n' t -> f = SlaveSystem.on_line t
  else exists l1 l2, l = l1 ++ l2 /\ overhears g l1 /\ overhears f l2.

(** A request on the bus: what happens at the master, and at each of the slaves.  The master is in [w] and has gone through [pre]; [g] = the bytes it puts
    on the line when it transmits the request; timing as for a single firmware. *)
Record bcall := mk_bcall { b_exch : exch; b_slaves : list (list yact) }.
Definition bus_call (c : cfg) (w : mfw) (pre : list wact) (ns : list node) (a : api) (b : bcall) : Prop :=
  match b_exch b with
  | Answered [] f v =>
      wtry_ok (c_timeout c) (length (request_frame a)) f v /\ In (api_id a) (map n_id ns) /\
      forall w1 t1 w2 t2, w_run c pre w = Ok (w1, t1) -> w_run c (v_send v ++ v_out v) w1 = Ok (w2, t2) ->
        Forall2 (node_hears (api_id a) (m_on_line t2) f) ns (b_slaves b)
  | Answered _ _ _ => False
  | Unanswered x =>
      wsilent_ok (c_timeout c) (length (request_frame a)) x /\ ~ In (api_id a) (map n_id ns) /\
      forall w1 t1 w2 t2, w_run c pre w = Ok (w1, t1) -> w_run c (x_send x ++ x_out x) w1 = Ok (w2, t2) ->
        Forall2 (fun _ l => overhears (m_on_line t2) l) ns (b_slaves b)
  end.
(** the slaves under their schedules; what they put on the line, all together *)
Inductive bus_run : list node -> list (list yact) -> list node -> list Z -> Prop :=
| bus_run_nil : bus_run [] [] [] []
| bus_run_cons n l n' t ns ls ns' out : node_run n l n' t -> bus_run ns ls ns' out -> bus_run (n :: ns) (l :: ls) (n' :: ns') (SlaveSystem.on_line t ++ out).
(** a session: requests one after the other *)
Fixpoint bus_session (c : cfg) (w : mfw) (pre : list wact) (ns : list node) (ps : list (api * bcall)) : Prop :=
  match ps with
  | [] => True
  | (a, b) :: ps => bus_call c w pre ns a b /\ forall ns' out, bus_run ns (b_slaves b) ns' out -> bus_session c w (pre ++ exch_sched (b_exch b)) ns' ps
  end.
Inductive bus_runs : list node -> list (list (list yact)) -> list node -> list (list Z) -> Prop :=
| bus_runs_nil ns : bus_runs ns [] ns []
| bus_runs_cons ns ls ns1 out lss ns2 outs : bus_run ns ls ns1 out -> bus_runs ns1 lss ns2 outs -> bus_runs ns (ls :: lss) ns2 (out :: outs).
(** what the slaves have to say to a request: exactly the answer *)
Definition bus_answer (b : bcall) : list Z := match b_exch b with Answered _ f _ => f | Unanswered _ => [] end.

(** The slaves' memories: ID, configuration, data.  What the application of the master is told about its requests, and what the memories are in the end. *)
Definition mem := (Z * cfg * sdata)%type.
Definition mem_of (n : node) : mem := (n_id n, n_cfg n, n_data n).
Inductive bus_served : list mem -> list api -> list (list cb) -> list mem -> Prop :=
| bus_none ms : bus_served ms [] [] ms
| bus_read ms1 c d ms2 a l reqs ls ms' : is_read a = true -> read_result c d a l ->
    bus_served (ms1 ++ (api_id a, c, d) :: ms2) reqs ls ms' -> bus_served (ms1 ++ (api_id a, c, d) :: ms2) (a :: reqs) (l :: ls) ms'
| bus_write ms1 c d ms2 a d1 l reqs ls ms' : is_read a = false -> write_result c d a d1 l ->
    bus_served (ms1 ++ (api_id a, c, d1) :: ms2) reqs ls ms' -> bus_served (ms1 ++ (api_id a, c, d) :: ms2) (a :: reqs) (l :: ls) ms'
| bus_absent ms a r reqs ls ms' : ~ In (api_id a) (map (fun m => fst (fst m)) ms) -> timeout_report_of a r ->
    bus_served ms reqs ls ms' -> bus_served ms (a :: reqs) ([TimeoutErr r] :: ls) ms'.
