(** C87-C89: what the model treats as one step may be interrupted anywhere; the order of interrupts. *)
From Verif Require Import Props.Frames Props.SlavePdu Props.SlaveRun Props.MasterRun.
From Verif Require Import Model.Base Model.Types Model.Iface Model.Common Model.SlavePDU Model.Slave Model.Master Spec.Buf Spec.Server Spec.SlaveTrace Spec.Client.
From Verif Require Import Spec.Refusal Spec.MasterTraffic Spec.Atomic.
From Verif Require Import Proofs.SlaveAtomic Proofs.MasterAtomic Proofs.Order.

(** *** C87 *)
(** Interpreting a complete request reads nothing but the bytes of its frame: not the length field, not what follows in the buffer
    (the buffer may even end there).  So bytes that arrive behind the frame while it is interpreted make no difference. *)
Theorem C87_interpretation_reads_only_the_frame : forall c d m g, cfg_tables_ok c -> data_ok c d -> rr_ok (m_resp m) ->
  bytes g -> (length g < 256)%nat -> frame_complete g -> begins (m_req m) g ->
  exists st r, parse_master_request_and_prepare_resp c m d = Ok (st, mk_msg (m_req m) r, snd (server c d g)) /\ answer_is r (fst (server c d g)).
Proof. exact Atomic.parse_begins. Qed.
Print Assumptions C87_interpretation_reads_only_the_frame.

(** The frame check, which is given the length at the time of the call, reads nothing but the frame either. *)
Theorem C87_check_reads_only_the_frame : forall r g id, bytes g -> (0 < length g < 256)%nat -> begins r g ->
  (modbus_RTU_recv (set_len r (Z.of_nat (length g))) id = Ok RET_OK <-> crc_ok g /\ hd_error g = Some id).
Proof.
  intros r g id B L H. rewrite (Atomic.recv_begins r g id B L H). destruct (Atomic.plain_ok g B (proj2 L)) as (P & F & _).
  rewrite (C03_accept_iff_id_and_crc _ id P), F. reflexivity.
Qed.
Print Assumptions C87_check_reads_only_the_frame.

(** In any history of a slave, at the point where a checked, complete request is about to be interpreted: whatever interrupts come
    (fewer than 256 bytes received in all), whether before, between or after, the data, the answer, the resulting state and the
    next line are the same. *)
Theorem C87_slave_interrupted_anywhere : forall c s sched k t es g, cfg_tables_ok c -> slave_fresh c s -> s_run c sched (mk_sconf s None) = Ok (k, t) ->
  sc_pc k = Some L195 -> checked t = Some g -> frame_complete g ->
  Z.of_nat (length (received t)) + s_rx_count es < 256 -> (forall e, In e es -> s_interrupt e) ->
  exists k' r, answer_is r (fst (server c (s_data (sc_s k)) g)) /\ s_data (sc_s k') = snd (server c (s_data (sc_s k)) g) /\ m_resp (s_msg (sc_s k')) = r /\ sc_pc k' = Some L196 /\
    forall es1 es2, es1 ++ es2 = es -> s_run c (map SEv es1 ++ SStep :: map SEv es2) k = Ok (k', map TEv es1 ++ TOut SoExec :: map TEv es2).
Proof. exact slave_atomic. Qed.
Print Assumptions C87_slave_interrupted_anywhere.
Definition before_exec : list sact := feed sample_frame ++ [SEv ST15] ++ polls 9 ++ [SEv ST35] ++ polls 1.
Example C87_slave_case : exists k t, s_run sample_cfg before_exec (mk_sconf sample_slave None) = Ok (k, t) /\ sc_pc k = Some L195 /\
  checked t = Some sample_frame /\ frame_complete sample_frame /\ Z.of_nat (length (received t)) + s_rx_count [SRx 1; ST15; SRx 2; STxDone; SFrameErr] < 256.
Proof.
  do 2 eexists. split; [vm_compute; reflexivity|]. split; [reflexivity|]. split; [vm_compute; reflexivity|]. split; [apply sample_frame_ok|vm_compute; reflexivity].
Qed.

(** In any history of a master, at the point where the checked response [g] is about to be interpreted: whatever comes (interrupts,
    ticks and also request calls, for instance from a callback), before, between or after: the callbacks are those of [g] and
    everything else is as if nothing had been interrupted. *)
Theorem C87_master_interrupted_anywhere : forall c sched k t a g es, cfg_master_ok c -> m_history c sched k t -> mc_pc k = Some M813 ->
  current t = Some a -> m_checked t = Some g -> complete_answer a g ->
  Z.of_nat (length (m_received t)) + m_rx_count es < 256 -> (forall b, In (MReq b) es -> req_safe b) ->
  exists l kr T, delivered a g = Some l /\ m_run c (map MEv es) k = Ok (kr, T) /\
    forall es1 es2, es1 ++ es2 = es -> exists t1 t2, t1 ++ t2 = T /\
      m_run c (map MEv es1 ++ MStep :: map MEv es2) k = Ok (mk_mconf (mc_s kr) (Some M900), t1 ++ map MTOut (map MoCb l) ++ t2).
Proof. exact master_atomic. Qed.
Print Assumptions C87_master_interrupted_anywhere.
Definition before_cbs : list mact := ask rh ++ msteps 8 ++ [MEv MTxDone] ++ msteps 6 ++ mfeed rh_answer ++ [MEv MT15] ++ msteps 16 ++ [MEv MT35] ++ msteps 1.
Example C87_master_case : exists k t, m_history mcfg before_cbs k t /\ mc_pc k = Some M813 /\ current t = Some rh /\ m_checked t = Some rh_answer /\
  complete_answer rh rh_answer /\ Z.of_nat (length (m_received t)) + m_rx_count [MRx 1; MReq rh; MT15; MRx 2; MTick] < 256.
Proof.
  exists (fst (run_of before_cbs)), (snd (run_of before_cbs)). split.
  - exists m0. split; [apply m0_started|]. split; [|vm_compute; reflexivity]. apply reqs_safe_app; [apply ask_safe, rh_safe|]. apply req_free_safe. vm_compute. reflexivity.
  - split; [vm_compute; reflexivity|]. split; [vm_compute; reflexivity|]. split; [vm_compute; reflexivity|]. split; [|vm_compute; reflexivity].
    right. split; [vm_compute; reflexivity|]. split; [vm_compute; lia|]. intros _. vm_compute. discriminate.
Qed.

(** *** C88 *)
(** In any history: a request call during which interrupts occur has the same result, and leads to the same state, wherever the
    interrupts fall. *)
Theorem C88_request_call_interrupted_anywhere : forall c sched k t a es, cfg_master_ok c -> m_history c sched k t -> req_safe a -> (forall e, In e es -> m_interrupt e) ->
  exists k' r, forall es1 es2, es1 ++ es2 = es ->
    m_run c (map MEv es1 ++ MEv (MReq a) :: map MEv es2) k = Ok (k', map MTEv es1 ++ MTEv (MReq a) :: MTOut (MoRet a r) :: map MTEv es2).
Proof. exact request_atomic. Qed.
Print Assumptions C88_request_call_interrupted_anywhere.
(** the call is made while a response is being received *)
Definition mid_rx : list mact := ask rh ++ msteps 8 ++ [MEv MTxDone] ++ msteps 6 ++ mfeed [9; 3; 4].
Example C88_case : exists k t k2 t2, m_history mcfg mid_rx k t /\
  m_run mcfg (map MEv [MRx 18; MTick] ++ MEv (MReq rh) :: map MEv [MRx 52; MT15]) k = Ok (k2, t2) /\
  t2 = [MTEv (MRx 18); MTEv MTick; MTEv (MReq rh); MTOut (MoRet rh REQUEST_SEND_TO_QUEUE); MTEv (MRx 52); MTEv MT15] /\ m_received (t ++ t2) = [9; 3; 4; 18; 52].
Proof.
  exists (fst (run_of mid_rx)), (snd (run_of mid_rx)). do 2 eexists. split.
  - exists m0. split; [apply m0_started|]. split; [|vm_compute; reflexivity]. apply reqs_safe_app; [apply ask_safe, rh_safe|]. apply req_free_safe. vm_compute. reflexivity.
  - split; [vm_compute; reflexivity|]. split; [reflexivity|vm_compute; reflexivity].
Qed.

(** *** C89 *)
(** Two lists of interrupts with the same bytes in the same order and the same other interrupts (in any order, any number of times)
    lead an initialised slave, wherever its program is, to the same state. *)
Theorem C89_slave_interrupt_order : forall c k es es', slave_ready c (sc_s k) -> (forall e, In e (es ++ es') -> s_interrupt e) ->
  SlaveTrace.rx_bytes es = SlaveTrace.rx_bytes es' -> (forall e, match e with SRx _ => True | _ => In e es <-> In e es' end) ->
  exists k', s_run c (map SEv es) k = Ok (k', map TEv es) /\ s_run c (map SEv es') k = Ok (k', map TEv es').
Proof. exact s_order. Qed.
Print Assumptions C89_slave_interrupt_order.
Example C89_slave_case : slave_ready sample_cfg sample_slave /\
  SlaveTrace.rx_bytes [ST35; SRx 3; SFrameErr; SRx 4; ST15; ST15] = SlaveTrace.rx_bytes [SRx 3; SRx 4; ST15; SFrameErr; ST35] /\
  forall e, match e with SRx _ => True | _ => In e [ST35; SRx 3; SFrameErr; SRx 4; ST15; ST15] <-> In e [SRx 3; SRx 4; ST15; SFrameErr; ST35] end.
Proof.
  split; [apply sample_fresh|]. split; [reflexivity|]. intros []; cbn; auto; split; intros H; repeat destruct H as [H|H]; try discriminate H; try contradiction; auto 8.
Qed.
(** The same for a master with any history; in addition the number of ticks must be the same. *)
Theorem C89_master_interrupt_order : forall c sched k t es es', cfg_master_ok c -> m_history c sched k t -> (forall e, In e (es ++ es') -> m_interrupt e) ->
  MasterTraffic.rx_bytes es = MasterTraffic.rx_bytes es' -> ticks es = ticks es' -> (forall e, match e with MRx _ | MTick => True | _ => In e es <-> In e es' end) ->
  exists k', m_run c (map MEv es) k = Ok (k', map MTEv es) /\ m_run c (map MEv es') k = Ok (k', map MTEv es').
Proof. exact m_order. Qed.
Print Assumptions C89_master_interrupt_order.
Example C89_master_case : exists k t, m_history mcfg mid_rx k t /\ ticks [MTick; MRx 7; MT15; MTick; MRx 8] = ticks [MRx 7; MTick; MT15; MRx 8; MT15; MTick] /\
  (exists k1 t1 t2, m_run mcfg (map MEv [MTick; MRx 7; MT15; MTick; MRx 8]) k = Ok (k1, t1) /\ m_run mcfg (map MEv [MRx 7; MTick; MT15; MRx 8; MT15; MTick]) k = Ok (k1, t2) /\ mm_timer (mc_s k1) < mm_timer (mc_s k)) /\
  (** the order of bytes does matter *)
  (exists k1 t1 k2 t2, m_run mcfg (map MEv [MRx 7; MRx 8]) k = Ok (k1, t1) /\ m_run mcfg (map MEv [MRx 8; MRx 7]) k = Ok (k2, t2) /\ k1 <> k2).
Proof.
  exists (fst (run_of mid_rx)), (snd (run_of mid_rx)). split.
  - exists m0. split; [apply m0_started|]. split; [|vm_compute; reflexivity]. apply reqs_safe_app; [apply ask_safe, rh_safe|]. apply req_free_safe. vm_compute. reflexivity.
  - split; [reflexivity|]. split.
    + do 3 eexists. split; [vm_compute; reflexivity|]. split; vm_compute; reflexivity.
    + do 4 eexists. split; [vm_compute; reflexivity|]. split; [vm_compute; reflexivity|]. intros E.
      apply (f_equal (fun k => map (fun m => firstn 5 (rr_buf (m_resp m))) (mm_msgs (mc_s k)))) in E. vm_compute in E. discriminate E.
Qed.
