(** C95: the manager polled from an interrupt handler while the main program makes requests. *)
From Verif Require Import Model.Base Model.Types Model.Iface Model.Common Model.Queue Model.QueueSteps Model.Master Model.MasterReq.
From Verif Require Import Spec.Frame Spec.QueueIrq Spec.MasterTrace Spec.MasterReq Proofs.MasterReq Props.MasterRun.
Import ListNotations.
Open Scope Z_scope.

(** *** C95 *)
(** One call, its queue accesses executed one by one ([r_run]), interrupted anywhere by the driver, the tick, and by lines of the manager at
    harmless moments: when it returns, state, result and observations are those of a master on which the call was made at one moment
    among the interrupts.  If the behaviour is undefined, then so is that of a run of the uninterrupted master. *)
Theorem C95_harmless_manager : forall c sched k t a acts, cfg_master_ok c -> m_history c sched k t -> req_safe a -> no_requests (r_irqs acts) -> r_harmless c a acts (RPop Q89, k) ->
  match r_run c a acts (RPop Q89, k) with
  | Ok (RRet r, k', t') => exists is1 is2 t1 t2, r_irqs acts = is1 ++ is2 /\ t' = t1 ++ t2 /\
      m_history c (sched ++ is1 ++ MEv (MReq a) :: is2) k' (t ++ t1 ++ [MTEv (MReq a); MTOut (MoRet a r)] ++ t2) /\ exists k1, m_history c (sched ++ is1) k1 (t ++ t1)
  | Ok _ => True
  | UB => exists is1 is2 l, r_irqs acts = is1 ++ is2 /\ (l = is1 ++ is2 \/ l = is1 ++ MEv (MReq a) :: is2) /\ m_run c l k = UB
  | Diverge => False
  end.
Proof. exact request_interrupted. Qed.
Print Assumptions C95_harmless_manager.
(** A whole program of such calls: there is a history of the uninterrupted master with the same calls, in the same order and with the same
    results, and otherwise the same events, transmissions and callbacks in the same order. *)
Theorem C95_harmless_program : forall c prog sched k t k' t' rs, cfg_master_ok c -> m_history c sched k t -> p_safe prog -> p_harmless c prog k ->
  p_run c prog k = Ok (k', t', rs) -> Forall (fun x => returned (snd x)) rs ->
  exists sched' t2, m_history c (sched ++ sched') k' (t ++ t2) /\ answers t2 = rs /\ other_items t2 = t'.
Proof. intros. eapply program_interrupted; eauto. Qed.
Print Assumptions C95_harmless_program.
(** Interrupted by the driver and the tick only, a call is never disturbed. *)
Theorem C95_driver_only : forall c sched k t a acts r k' t', cfg_master_ok c -> m_history c sched k t -> req_safe a -> no_requests (r_irqs acts) -> no_manager acts ->
  r_run c a acts (RPop Q89, k) = Ok (RRet r, k', t') -> exists is1 is2 t1 t2, r_irqs acts = is1 ++ is2 /\ t' = t1 ++ t2 /\
    m_history c (sched ++ is1 ++ MEv (MReq a) :: is2) k' (t ++ t1 ++ [MTEv (MReq a); MTOut (MoRet a r)] ++ t2).
Proof.
  intros c sched k t a acts r k' t' Hc Hi Sa Nr Nm E. assert (X := request_interrupted c sched k t a acts Hc Hi Sa Nr (no_manager_harmless c a acts _ Nm)).
  rewrite E in X. destruct X as (is1 & is2 & t1 & t2 & X1 & X2 & X3 & _). exists is1, is2, t1, t2. auto.
Qed.
Print Assumptions C95_driver_only.
(** Whatever the handlers do: the call returns after at most 17 of its own steps. *)
Theorem C95_returns : forall c a acts k pc k' t, r_run c a acts (RPop Q89, k) = Ok (pc, k', t) -> (17 <= own_steps acts)%nat -> returned pc.
Proof. exact own_steps_return. Qed.
Print Assumptions C95_returns.

(** whole calls of the manager in the states of an exchange: take the request and send it; (the frame is out) start listening; (the answer is in)
    process it; (the line is free) report and hand the buffer back *)
Definition h_send : list mact := msteps 7.
Definition h_answer : list mact := [MEv MTxDone] ++ msteps 5 ++ mfeed rh_answer ++ [MEv MT15] ++ msteps 10 ++ [MEv MT35].
Definition h_finish : list mact := msteps 10.
Definition h_exchange : list mact := h_send ++ h_answer ++ h_finish.
Lemma no_reqs l : req_free l = true -> no_requests l.
Proof. intros H a I. induction l as [|x l IH]; [destruct I|]. destruct I as [->|I]; [discriminate H|]. apply IH; auto. destruct x as [|[]]; auto; discriminate H. Qed.
(** n steps of the call, the handlers, the rest of the call *)
Definition paused (n : nat) (l : list mact) : list ract := repeat RStep n ++ map RIrq l ++ repeat RStep 17.
(** The call has been executed to just before the n-th step; then handlers whose calls of the manager are complete *)
Definition whole_calls (c : cfg) (a : api) (n : nat) (l : list mact) (k : mconf) (pc : rpc) : Prop :=
  mc_pc k = None /\ exists k1 k2 t, r_run c a (repeat RStep n) (RPop Q89, k) = Ok (pc, k1, []) /\ m_run c l k1 = Ok (k2, t) /\ mc_pc k2 = None.
(** A request is made, then another; when its message is in the queue and the head but not the counter has been updated, a handler
    takes the first and sends it; both are answered. *)
Definition a_prog : list stage := [Call rh (paused 4 [MEv MTick] ); Call rh (paused 12 h_send); Between (h_answer ++ h_finish ++ h_exchange)].
Definition k00 : mconf := mk_mconf m0 None.
Lemma k00_history : m_history mcfg [] k00 [].
Proof. exists m0. split; [apply m0_started|]. split; [intros a []|reflexivity]. Qed.
Example C95_harmless_case : m_history mcfg [] k00 [] /\ p_safe a_prog /\ p_harmless mcfg a_prog k00 /\
  exists k t rs, p_run mcfg a_prog k00 = Ok (k, t, rs) /\ Forall (fun x => returned (snd x)) rs /\ rs = [(rh, RRet REQUEST_SEND_TO_QUEUE); (rh, RRet REQUEST_SEND_TO_QUEUE)] /\
    m_sent t = [request_frame rh; request_frame rh] /\ finished t = 2%nat.
Proof.
  split; [apply k00_history|]. split; [|split; [apply p_harmlessb_ok; vm_compute; reflexivity|]].
  { repeat constructor; cbv beta iota; try apply rh_safe; apply no_reqs; vm_compute; reflexivity. }
  do 3 eexists. split; [vm_compute; reflexivity|]. split; [repeat constructor; eexists; reflexivity|]. split; [reflexivity|]. split; vm_compute; reflexivity.
Qed.

(** Other moments.  One request is waiting, a second is being made; between load and store of the queue's counter a handler takes the first
    and sends it.  Both are accepted and answered; then the idle manager dereferences a null pointer. *)
Theorem C95_refuted_counter : exists k0 k t rs, m_history mcfg (ask rh) k0 [MTEv (MReq rh); MTOut (MoRet rh REQUEST_SEND_TO_QUEUE)] /\ whole_calls mcfg rh 13 h_send k0 (RPush 1 (P72s 1)) /\
  p_run mcfg [Call rh (paused 13 h_send); Between (h_answer ++ h_finish ++ h_exchange)] k0 = Ok (k, t, rs) /\ rs = [(rh, RRet REQUEST_SEND_TO_QUEUE)] /\
  finished t = 2%nat /\ mm_st (mc_s k) = M_IDLE /\ mc_pc k = None /\ m_run mcfg (msteps 7) k = UB.
Proof.
  exists (fst (run_of (ask rh))). do 3 eexists. split.
  { exists m0. split; [apply m0_started|]. split; [apply ask_safe, rh_safe|vm_compute; reflexivity]. }
  split. { split; [vm_compute; reflexivity|]. do 3 eexists. split; [vm_compute; reflexivity|]. split; vm_compute; reflexivity. }
  split; [vm_compute; reflexivity|]. split; [reflexivity|]. split; [vm_compute; reflexivity|]. split; [vm_compute; reflexivity|]. split; vm_compute; reflexivity.
Qed.
Print Assumptions C95_refuted_counter.
(** The queue is empty; a request is being made; between the two updates of the queue's counter and head the handlers complete the whole exchange.
    When the manager is called again before the call continues it dereferences a null pointer. *)
Theorem C95_refuted_early : exists k pc t, whole_calls mcfg rh 15 h_exchange k00 (RPush 0 (P64 1)) /\
  r_run mcfg rh (repeat RStep 15 ++ map RIrq h_exchange) (RPop Q89, k00) = Ok (pc, k, t) /\ finished t = 1%nat /\ mm_st (mc_s k) = M_IDLE /\ m_run mcfg (msteps 7) k = UB.
Proof.
  do 3 eexists. split. { split; [reflexivity|]. do 3 eexists. split; [vm_compute; reflexivity|]. split; vm_compute; reflexivity. }
  split; [vm_compute; reflexivity|]. split; [vm_compute; reflexivity|]. split; vm_compute; reflexivity.
Qed.
Print Assumptions C95_refuted_early.
(** Two buffers.  Twice, a request is made while another is being finished: between load and store of the free buffers' counter a handler hands a
    buffer back.  All four are accepted and answered; nothing is waiting or under way, but every request is refused. *)
Definition cfg2 : cfg := mk_cfg 2 4 1 4 4 4 4.
Definition k20 : mconf := mk_mconf (match modbus_master_init cfg2 RTU (master_static cfg2) with Ok s => s | _ => master_static cfg2 end) None.
Definition meet : list stage := [Call rh (repeat RStep 17); Between (h_send ++ h_answer); Call rh (paused 4 h_finish); Between h_exchange].
Theorem C95_refuted_buffers : exists k t rs, m_history cfg2 [] k20 [] /\ p_run cfg2 (meet ++ meet) k20 = Ok (k, t, rs) /\ Forall (fun x => snd x = RRet REQUEST_SEND_TO_QUEUE) rs /\ length rs = 4%nat /\
  finished t = 4%nat /\ mm_st (mc_s k) = M_IDLE /\ mc_pc k = None /\ forall a, modbus_master_request cfg2 a (mc_s k) = Ok (FREE_QUEUE_EMPTY_ERROR, mc_s k).
Proof.
  do 3 eexists. split. { eexists. split; [exists (master_static cfg2); split; [apply static_master_ok; unfold cfg_master_ok; cbn; lia|vm_compute; reflexivity]|]. split; [intros a []|vm_compute; reflexivity]. }
  split; [vm_compute; reflexivity|]. split; [repeat constructor|]. split; [reflexivity|]. split; [vm_compute; reflexivity|]. split; [vm_compute; reflexivity|]. split; [vm_compute; reflexivity|].
  intros a. unfold modbus_master_request, generate_request. reflexivity.
Qed.
Print Assumptions C95_refuted_buffers.
