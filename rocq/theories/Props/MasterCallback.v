(** C96: requests made from inside the callbacks. *)
From Verif Require Import Model.Base Model.Types Model.Iface Model.Common Model.Queue Model.Master Model.MasterCallback.
From Verif Require Import Spec.Frame Spec.MasterTrace Spec.MasterCallback Proofs.MasterTrace Proofs.MasterHist2 Proofs.MasterErr Proofs.MasterAtomic Proofs.MasterCallback Props.MasterRun.
Import ListNotations.
Open Scope Z_scope.

(** *** C96 *)
(** Whatever requests the application makes in whatever callbacks: there is a history of the master whose callbacks make no requests, with the
    requests right after the line that calls back; the final state, the requests with their results, and all other events, transmissions and
    callbacks are the same, in the same order.  If the behaviour is undefined, then so is that of a master whose callbacks make no requests. *)
Theorem C96_requests_in_callbacks : forall c sched k t acts, cfg_master_ok c -> m_history c sched k t -> g_safe acts ->
  match g_run c acts k with
  | Ok (k', t') => exists sched' t2, after_line acts sched' /\ m_history c (sched ++ sched') k' (t ++ t2) /\ calls_of t2 = calls_of t' /\ rest_of t2 = rest_of t'
  | UB => exists sched', reqs_safe sched' /\ m_run c sched' k = UB
  | Diverge => False
  end.
Proof.
  intros c sched k t acts Hc Hi Sf. assert (X := callbacks_run c Hc acts t k (ci_inv _ _ _ _ (history_cinv _ _ _ _ Hc Hi)) Sf). destruct (g_run c acts k) as [[k' t']| |]; auto.
  destruct X as (sc & t2 & A & Sc & R & X1 & X2). exists sc, t2. split; [exact A|]. split; [|auto]. apply (history_app c sched k t sc k' t2 Hi Sc R).
Qed.
Print Assumptions C96_requests_in_callbacks.
(** With a single message buffer a request made in a callback is always refused: the buffer is handed back only after the callback. *)
Theorem C96_one_buffer : forall c sched k t react k' t', cfg_master_ok c -> c_queue c = 1 -> m_history c sched k t -> (forall x a, In a (react x) -> req_safe a) ->
  g_act c (GStep react) k = Ok (k', t') -> forall a r, In (a, r) (calls_of t') -> r = FREE_QUEUE_EMPTY_ERROR.
Proof.
  intros c sched k t react k' t' Hc N Hi Hr E a r I. assert (M := ci_inv _ _ _ _ (history_cinv _ _ _ _ Hc Hi)). cbn [g_act] in E. unfold mloc in M. destruct (mc_pc k) as [l|].
  - apply bind_ok in E as ([[l' s'] o] & E & X). injection X as _ <-. exact (one_buffer_line c t l (mc_s k) react l' s' o Hc N Hr M E a r I).
  - cbn [m_act] in E. destruct (mc_pc k) as [l|] eqn:Pc; [|injection E as _ <-; destruct I]. cbn [bind] in E.
    apply bind_ok in E as ([[l' s'] o] & E & X). injection X as _ <-. rewrite (quiet_lines _ _ _ _ _ _ E) in I. destruct I.
Qed.
Print Assumptions C96_one_buffer.
(** an application that asks again when the last register of an answer arrives, and after a timeout *)
Definition again (x : cb) : list api := match x with HregRead 9 2 _ | TimeoutErr _ => [rh] | _ => [] end.
Definition of_sched (l : list mact) : list gact := map (fun x => match x with MStep => GStep again | MEv e => GEv e end) l.
Lemma again_safe l : reqs_safe l -> g_safe (of_sched l).
Proof.
  intros H. apply Forall_forall. intros x I. apply in_map_iff in I as (y & <- & I). destruct y as [|e].
  - intros b a Ia. destruct b; cbn [again] in Ia; repeat match type of Ia with context [match ?z with _ => _ end] => destruct z; cbn [In] in Ia end; try contradiction; destruct Ia as [<-|[]]; apply rh_safe.
  - destruct e; auto.
Qed.
Definition endless : list gact := of_sched (transact rh rh_answer ++ msteps 4 ++ [MEv MTxDone] ++ msteps 10 ++ repeat (MEv MTick) 3 ++ msteps 20).
Example C96_case : m_history mcfg [] (mk_mconf m0 None) [] /\ g_safe endless /\ exists k t, g_run mcfg endless (mk_mconf m0 None) = Ok (k, t) /\
  visible t = [VSend (request_frame rh); VCb (HregRead 9 1 0x1234); VCb (HregRead 9 2 0xABCD); VFree; VSend (request_frame rh); VCb (TimeoutErr (mk_err 9 0 1 2 RESP_TIMEOUT_ERR)); VFree; VSend (request_frame rh)] /\
  calls_of t = [(rh, REQUEST_SEND_TO_QUEUE); (rh, REQUEST_SEND_TO_QUEUE); (rh, REQUEST_SEND_TO_QUEUE)].
Proof.
  split; [exists m0; split; [apply m0_started|]; split; [intros a []|reflexivity]|]. split.
  { apply again_safe. apply reqs_safe_app; [apply reqs_safe_app; [apply ask_safe, rh_safe|apply req_free_safe; vm_compute; reflexivity]|apply req_free_safe; vm_compute; reflexivity]. }
  do 2 eexists. split; [vm_compute; reflexivity|]. split; vm_compute; reflexivity.
Qed.
(** with one buffer the same application is refused *)
Definition mcfg1 : cfg := mk_cfg 1 4 1 4 4 4 4.
Definition m01 : master := match modbus_master_init mcfg1 RTU (master_static mcfg1) with Ok s => s | _ => master_static mcfg1 end.
Definition before_report : list mact := ask rh ++ msteps 7 ++ [MEv MTxDone] ++ msteps 5 ++ mfeed rh_answer ++ [MEv MT15] ++ msteps 10 ++ [MEv MT35] ++ msteps 6.
Example C96_one_buffer_case : exists k t k' t', m_history mcfg1 before_report k t /\ g_act mcfg1 (GStep again) k = Ok (k', t') /\ calls_of t' = [(rh, FREE_QUEUE_EMPTY_ERROR)].
Proof.
  do 4 eexists. split; [exists m01; split; [exists (master_static mcfg1); split; [apply static_master_ok; unfold cfg_master_ok; cbn; lia|vm_compute; reflexivity]|]; split|].
  - apply reqs_safe_app; [apply ask_safe, rh_safe|apply req_free_safe; vm_compute; reflexivity].
  - vm_compute. reflexivity.
  - split; vm_compute; reflexivity.
Qed.
