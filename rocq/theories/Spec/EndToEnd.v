(** A master and a slave joined by an error-free line, and what a read or write request has to achieve in terms of the slave's
    variables and the master's callbacks. *)
From Coq Require Import List ZArith Bool.
From Verif Require Import Model.Base Model.Types Model.Iface Model.SlaveData Model.Slave Model.Master.
From Verif Require Export Spec.Client Spec.Refusal.
From Verif Require Spec.SlaveTraffic.
From Verif Require Export Spec.MasterTraffic.
Import ListNotations.
Open Scope Z_scope.

(** The slave is idle: between two polls, or in one that has just begun; nothing received, no event pending. *)
Definition slave_rests (c : cfg) (q : sconf) : Prop := SlaveTraffic.slave_idle c (sc_s q) /\ (sc_pc q = None \/ sc_pc q = Some L164).

(** The line is error-free: the bytes of every frame the master [k] hands to its driver in the sending part of [y] arrive at
    the slave [q] (schedule [ss]: the bytes, then the 1.5- and 3.5-character events, lines of the slave's poll function being
    executed in between at any point, two polls afterwards); the bytes of every frame the slave hands to its driver arrive at the master as
    the answer part of [y]; no frame error is signalled.  Each end has its own poll timing. *)
Record error_free (c : cfg) (k : mconf) (y : try) (cs : cfg) (q : sconf) (ss : list sact) : Prop := {
  to_slave : forall k1 o1, m_run c (y_send y) k = Ok (k1, o1) ->
    SlaveTraffic.reception_of SlaveTraffic.two_polls (map SRx (concat (m_sent o1))) ss;
  to_master : forall sk so, s_run cs ss q = Ok (sk, so) -> y_frame y = concat (SlaveTrace.sent so);
  no_error : ~ In MFrameErr (m_events (y_rx y)) }.

(** the callback that delivers the [k]-th requested item: slave ID, address, current value of the variable registered there *)
Definition value_cb (d : sdata) (a : api) (k : nat) : option cb :=
  match a with
  | ReadCoils adr _ id => option_map (CoilRead id (adr + Z.of_nat k)) (var_at (t_coils d) (v_bits d) (Z.to_nat adr + k))
  | ReadDiscreteInputs adr _ id => option_map (DisinRead id (adr + Z.of_nat k)) (var_at (t_din d) (v_bits d) (Z.to_nat adr + k))
  | ReadInputReg adr _ id => option_map (InregRead id (adr + Z.of_nat k)) (var_at (t_ireg d) (v_regs d) (Z.to_nat adr + k))
  | ReadHoldingReg adr _ id => option_map (HregRead id (adr + Z.of_nat k)) (var_at (t_hreg d) (v_regs d) (Z.to_nat adr + k))
  | _ => None
  end.
(** the callback that reports an exception *)
Definition exception_cb (a : api) (code : Z) : cb :=
  let e := mk_exc (api_id a) (api_fc a) code (api_adr a) (api_field a) in
  match a with
  | ReadCoils _ _ _ | WriteSingleCoil _ _ _ | WriteMultipleCoils _ _ _ _ => CoilExc e
  | ReadDiscreteInputs _ _ _ => DisinExc e
  | ReadInputReg _ _ _ => InregExc e
  | ReadHoldingReg _ _ _ | WriteSingleReg _ _ _ | WriteMultipleReg _ _ _ _ => HregExc e
  end.
(** the range of addresses lies inside the slave's table *)
Definition range_ok (c : cfg) (a : api) : Prop := api_adr a + api_qty a <= size_of (api_fc a) c.

(** The callbacks [l] made for read request [a] to a slave with data [d]. *)
Inductive read_result (c : cfg) (d : sdata) (a : api) : list cb -> Prop :=
| read_values l : range_ok c a -> map Some l = map (value_cb d a) (seq 0 (Z.to_nat (api_qty a))) -> read_result c d a l
| read_outside : ~ range_ok c a -> read_result c d a [exception_cb a 2]
| read_unregistered k : range_ok c a -> (k < Z.to_nat (api_qty a))%nat -> value_cb d a k = None -> read_result c d a [exception_cb a 4].

(** the values to be written *)
Definition api_bits (a : api) : list bool :=
  match a with
  | WriteSingleCoil _ _ v => [v]
  | WriteMultipleCoils _ q _ (Some l) => firstn (Z.to_nat q) l
  | _ => []
  end.
Definition api_regs (a : api) : list Z :=
  match a with
  | WriteSingleReg _ _ v => [v]
  | WriteMultipleReg _ q _ (Some l) => firstn (Z.to_nat q) l
  | _ => []
  end.
(** [d'] is [d] with the first [n] of the values written to the variables registered from the start address on *)
Definition values_written (n : nat) (a : api) (d d' : sdata) : Prop :=
  match a with
  | WriteSingleCoil adr _ _ | WriteMultipleCoils adr _ _ _ =>
      exists cells, d' = set_bits d cells /\ written (t_coils d) (v_bits d) cells (Z.to_nat adr) (firstn n (api_bits a))
  | WriteSingleReg adr _ _ | WriteMultipleReg adr _ _ _ =>
      exists cells, d' = set_regs d cells /\ written (t_hreg d) (v_regs d) cells (Z.to_nat adr) (firstn n (api_regs a))
  | _ => False
  end.
(** the [k]-th addressed item has a variable *)
Definition item_registered (d : sdata) (a : api) (k : nat) : Prop := registered (table_of (api_fc a) d) (Z.to_nat (api_adr a) + k) = true.
Definition confirm_cb (a : api) : cb :=
  match a with
  | WriteSingleCoil adr id _ => CoilWrite id adr 1
  | WriteMultipleCoils adr q id _ => CoilWrite id adr q
  | WriteSingleReg adr id _ => HregWrite id adr 1
  | _ => HregWrite (api_id a) (api_adr a) (api_qty a)
  end.
(** The data [d'] of the slave and the callbacks [l] after write request [a] to a slave with data [d].  As the code does it:
    the items before the first unregistered one are written although the answer is an exception. *)
Inductive write_result (c : cfg) (d : sdata) (a : api) : sdata -> list cb -> Prop :=
| write_all d' : range_ok c a -> (forall k, (k < Z.to_nat (api_qty a))%nat -> item_registered d a k) ->
    values_written (Z.to_nat (api_qty a)) a d d' -> write_result c d a d' [confirm_cb a]
| write_outside : ~ range_ok c a -> write_result c d a d [exception_cb a 2]
| write_prefix n d' : range_ok c a -> (n < Z.to_nat (api_qty a))%nat -> (forall k, (k < n)%nat -> item_registered d a k) ->
    ~ item_registered d a n -> values_written n a d d' -> write_result c d a d' [exception_cb a 4].
(** The same as the property demands it: nothing is written if the answer is an exception. *)
Inductive write_result_full (c : cfg) (d : sdata) (a : api) : sdata -> list cb -> Prop :=
| full_all d' : range_ok c a -> (forall k, (k < Z.to_nat (api_qty a))%nat -> item_registered d a k) ->
    values_written (Z.to_nat (api_qty a)) a d d' -> write_result_full c d a d' [confirm_cb a]
| full_outside : ~ range_ok c a -> write_result_full c d a d [exception_cb a 2]
| full_unregistered n : range_ok c a -> (n < Z.to_nat (api_qty a))%nat ->
    ~ item_registered d a n -> write_result_full c d a d [exception_cb a 4].

(** A session: the application calls one request function after the other, each after the previous request is finished.  A call:
    the request, the master's schedule for it (without further calls), the slave's schedule up to the answer, the slave's schedule
    for the completion of its transmission. *)
Record call := mk_call { l_api : api; l_try : try; l_slave : list sact; l_done : list sact }.
Definition master_sched (x : call) : list mact := MEv (MReq (l_api x)) :: try_sched (l_try x).
Definition slave_sched (x : call) : list sact := l_slave x ++ l_done x.
(** every call is allowed, is for this slave, is timed regularly and meets an error-free line *)
Fixpoint regular_session (c cs : cfg) (k : mconf) (q : sconf) (l : list call) : Prop :=
  match l with
  | [] => True
  | x :: l =>
      api_ok (l_api x) /\ api_valid (l_api x) = true /\ api_id (l_api x) = s_id (sc_s q) /\
      try_timed (c_timeout c) (l_try x) /\ no_calls (try_sched (l_try x)) /\ SlaveTraffic.completion (l_done x) /\
      (forall k1 o1, m_act c (MEv (MReq (l_api x))) k = Ok (k1, o1) -> error_free c k1 (l_try x) cs q (l_slave x)) /\
      (forall k2 o2 q2 o3, m_run c (master_sched x) k = Ok (k2, o2) -> s_run cs (slave_sched x) q = Ok (q2, o3) -> regular_session c cs k2 q2 l)
  end.
(** the results of requests [reqs], in order, by a memory that starts with [d]: the callbacks for each, and the final data *)
Inductive served (c : cfg) : sdata -> list api -> list (list cb) -> sdata -> Prop :=
| served_none d : served c d [] [] d
| served_read d a l reqs ls d' : is_read a = true -> read_result c d a l -> served c d reqs ls d' -> served c d (a :: reqs) (l :: ls) d'
| served_write d a d1 l reqs ls d' : is_read a = false -> write_result c d a d1 l -> served c d1 reqs ls d' -> served c d (a :: reqs) (l :: ls) d'.
(** what an observer of the master sees of a session: for each request its frame, its callbacks, the release of its buffer *)
Definition session_view (reqs : list api) (ls : list (list cb)) : list vis :=
  concat (map (fun p => VSend (request_frame (fst p)) :: map VCb (snd p) ++ [VFree]) (combine reqs ls)).
