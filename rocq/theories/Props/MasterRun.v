(** C07-C10, C17, C19-C22: the master under every schedule of executed lines, interrupts, ticks and request calls. *)
From Verif Require Import Props.Frames.
From Verif Require Import Proofs.MasterHist2.

(** *** concrete masters *)
Lemma static_master_ok c : cfg_master_ok c -> master_memory_ok c (master_static c).
Proof.
  intros [HN HR]. unfold master_memory_ok, master_static. cbn [mm_msgs mm_free mm_txq mm_rx].
  assert (Z256 : bytes (repeat 0 256)) by (apply bytes_dec; reflexivity).
  split; [apply repeat_length|]. split.
  { apply Forall_forall. intros m Hm. apply repeat_spec in Hm. subst m. unfold half_mem_ok. cbn [m_req m_resp rr_buf rr_len]. rewrite repeat_length. unfold byte. repeat split; auto; lia. }
  unfold queue_zero. cbn [q_slots]. rewrite repeat_length. repeat split; auto. discriminate.
Qed.
(** 3 message buffers, response timeout 4 ms, 1 repetition *)
Definition mcfg : cfg := mk_cfg 3 4 1 4 4 4 4.
Lemma mcfg_ok : cfg_master_ok mcfg.
Proof. unfold cfg_master_ok. cbn. lia. Qed.
Definition m0 : master := match modbus_master_init mcfg RTU (master_static mcfg) with Ok s => s | _ => master_static mcfg end.
Lemma m0_started : started mcfg m0.
Proof. exists (master_static mcfg). split; [apply static_master_ok, mcfg_ok|vm_compute; reflexivity]. Qed.
Definition msteps (n : nat) : list mact := repeat MStep n.
Definition mfeed (f : list Z) : list mact := map (fun b => MEv (MRx b)) f.
Definition ask (a : api) : list mact := [MEv (MReq a)].
Definition rh : api := ReadHoldingReg 1 2 9.
Lemma rh_safe : req_safe rh.
Proof. split; [|intros; exact I]. unfold api_typed, rh, byte, word. cbn. repeat split; lia. Qed.
(** a full transaction: accepted, transmitted, answered *)
Definition rh_answer : list Z := rtu_frame 9 [3; 4; 18; 52; 171; 205].
Definition transact (a : api) (resp : list Z) : list mact :=
  ask a ++ msteps 8 ++ [MEv MTxDone] ++ msteps 6 ++ mfeed resp ++ [MEv MT15] ++ msteps 16 ++ [MEv MT35] ++ msteps 16.
Definition run_of (sched : list mact) : mconf * list mitem := match m_run mcfg sched (mk_mconf m0 None) with Ok x => x | _ => (mk_mconf m0 None, []) end.
Lemma reqs_safe_one a n : req_safe a -> forall l, (forall b, In (MEv (MReq b)) l -> req_safe b) -> reqs_safe (ask a ++ msteps n ++ l).
Proof.
  intros H l Hl b Hb. unfold ask in Hb. cbn in Hb. destruct Hb as [Hb|Hb]; [inversion Hb; subst; auto|].
  apply in_app_or in Hb as [Hb|Hb]; auto. apply repeat_spec in Hb. discriminate.
Qed.
Fixpoint req_free (l : list mact) : bool := match l with [] => true | MEv (MReq _) :: _ => false | _ :: l => req_free l end.
Lemma req_free_safe l : req_free l = true -> reqs_safe l.
Proof. intros H a Ha. induction l as [|x l IH]; [destruct Ha|]. destruct Ha as [->|Ha]; [discriminate|]. apply IH; auto. destruct x as [|[]]; auto; discriminate. Qed.
Lemma reqs_safe_app l1 l2 : reqs_safe l1 -> reqs_safe l2 -> reqs_safe (l1 ++ l2).
Proof. intros H1 H2 a Ha. apply in_app_or in Ha as [Ha|Ha]; auto. Qed.
Lemma ask_safe a : req_safe a -> reqs_safe (ask a).
Proof. intros H b [E|[]]. inversion E; subst; auto. Qed.
Example rh_history : m_history mcfg (transact rh rh_answer) (fst (run_of (transact rh rh_answer))) (snd (run_of (transact rh rh_answer))).
Proof.
  exists m0. split; [apply m0_started|]. split.
  - apply reqs_safe_app; [apply ask_safe, rh_safe|]. apply req_free_safe. vm_compute. reflexivity.
  - vm_compute. reflexivity.
Qed.
Example rh_visible : visible (snd (run_of (transact rh rh_answer))) = [VSend (request_frame rh); VCb (HregRead 9 1 0x1234); VCb (HregRead 9 2 0xABCD); VFree].
Proof. vm_compute. reflexivity. Qed.

(** *** C07 *)
(** Under every schedule: whenever a frame is handed to the driver there is a request being handled (the oldest accepted
    request not yet finished) and the frame is, byte for byte, that request's Modbus RTU frame. *)
Theorem C07_frames_on_the_wire : forall c sched k t, cfg_master_ok c -> m_history c sched k t ->
  forall t1 f t2, t = t1 ++ MTOut (MoSend f) :: t2 -> exists a, current t1 = Some a /\ f = request_frame a.
Proof. intros c sched k t Hc H t1 f t2 E. exact (hist_send c sched k t Hc H t1 _ t2 E f eq_refl). Qed.
Print Assumptions C07_frames_on_the_wire.
(** the call itself: whatever the buffer held before, the accepted request's frame is in it *)
Theorem C07_frame_built : forall a m, msg_ok m -> api_ok a -> api_valid a = true ->
  exists r r', generate_request_PDU_data m (api_param a) = Ok (RET_OK, mk_msg r (m_resp m)) /\ modbus_RTU_send r (api_id a) = Ok (RET_OK, r') /\
    rx_frame r' = request_frame a.
Proof.
  intros a m Hm Ha V. destruct (gen_pdu_valid a m Hm Ha V) as (r & G & H). destruct (send_holds r (request_pdu a) (api_id a) H) as (r' & S1 & Rr & F).
  { apply request_pdu_len; auto. } { apply Ha. } exists r, r'. auto.
Qed.
Print Assumptions C07_frame_built.
Example C07_case : exists k t t2, m_history mcfg (transact rh rh_answer) k t /\
  t = [MTEv (MReq rh); MTOut (MoRet rh REQUEST_SEND_TO_QUEUE)] ++ MTOut (MoSend [9; 3; 0; 1; 0; 2; 148; 131]) :: t2.
Proof. do 3 eexists. split; [exact rh_history|]. vm_compute. reflexivity. Qed.

(** *** C08, C09 *)
(** In every reachable state every call with arguments of the C types (and, where the array is going to be read, an array
    of the requested quantity) returns: 'free queue empty' without any effect if no buffer is free; else 'sent to queue'
    exactly if the quantity is within the limits ([api_valid]), one more request waiting; else 'PDU error', nothing queued. *)
Theorem C08_accepted_exactly : forall c sched k t a, cfg_master_ok c -> m_history c sched k t -> req_safe a ->
  exists r s', modbus_master_request c a (mc_s k) = Ok (r, s') /\ r <> LIB_RTU_SEND_ERROR /\
    (free_bufs c (mc_s k) = [] -> r = FREE_QUEUE_EMPTY_ERROR /\ s' = mc_s k) /\
    (free_bufs c (mc_s k) <> [] -> api_valid a = true -> r = REQUEST_SEND_TO_QUEUE /\ length (waiting c s') = S (length (waiting c (mc_s k)))) /\
    (free_bufs c (mc_s k) <> [] -> api_valid a = false -> r = LIB_PDU_REQ_ERROR /\ waiting c s' = waiting c (mc_s k)).
Proof.
  intros c sched k t a Hc H Hs. destruct (ci_inv _ _ _ _ (history_cinv _ _ _ _ Hc H)) as (free & pend & apis & eps & v & [K B Rq Ac Vi Ep Pa Fi Cn]).
  destruct (req_event c a free pend _ _ Hc B Hs) as (s' & r & free' & pend' & E & Q & B').
  cbn [m_event] in E. destruct (modbus_master_request c a (mc_s k)) as [[r2 s2]| |] eqn:R; try discriminate. cbn [bind] in E. inversion E; subst r2 s2.
  exists r, s'. split; auto. unfold free_bufs, waiting.
  rewrite (rep_queue_list _ _ _ (mb_free _ _ _ _ _ B)), (rep_queue_list _ _ _ (mb_pend _ _ _ _ _ B)), (rep_queue_list _ _ _ (mb_pend _ _ _ _ _ B')).
  destruct Q as [Q|j free' q Q V|j free' q q2 m m' Q V N Rm M F].
  - split; [discriminate|]. split; auto. split; congruence.
  - split; [discriminate|]. split; [congruence|]. split; [congruence|auto].
  - split; [discriminate|]. split; [congruence|]. split; [|congruence]. intros _ _. rewrite app_length. cbn. split; auto. lia.
Qed.
Print Assumptions C08_accepted_exactly.
(** the limits are those of the Modbus specification *)
Theorem C08_limits : forall a, api_valid a = true <-> match a with
  | ReadCoils _ q _ | ReadDiscreteInputs _ q _ => 1 <= q <= 2000
  | ReadInputReg _ q _ | ReadHoldingReg _ q _ => 1 <= q <= 125
  | WriteMultipleReg _ q _ _ => 1 <= q <= 123
  | WriteMultipleCoils _ q _ _ => 1 <= q <= 1968
  | _ => True end.
Proof. intros a. destruct a; cbn; try (split; auto; fail); lia. Qed.
Print Assumptions C08_limits.
Example C08_case : exists k t, m_history mcfg [] k t /\ free_bufs mcfg (mc_s k) = [0; 1; 2]%nat /\ req_safe rh /\ api_valid rh = true /\ req_safe (ReadCoils 0 2001 9) /\ api_valid (ReadCoils 0 2001 9) = false.
Proof.
  exists (mk_mconf m0 None), []. split. { exists m0. split; [apply m0_started|]. split; [intros a []|reflexivity]. }
  split; [reflexivity|]. split; [apply rh_safe|]. split; [reflexivity|]. split; [|reflexivity]. split; [|discriminate]. unfold api_typed, byte, word. cbn. repeat split; lia.
Qed.

(** C09 is false as stated: a multiple write with quantity 1 and a NULL array dereferences NULL. *)
Theorem C09_refuted : exists c s a, cfg_master_ok c /\ started c s /\ api_typed a /\ modbus_master_request c a s = UB.
Proof.
  exists mcfg, m0, (WriteMultipleReg 0 1 9 None). split; [apply mcfg_ok|]. split; [apply m0_started|]. split; [|vm_compute; reflexivity].
  unfold api_typed, byte, word. cbn. repeat split; lia.
Qed.
Print Assumptions C09_refuted.
(** What holds: in every reachable state a call with an array (not NULL) of the requested quantity - or with a quantity
    that is refused, whatever the array - executes no undefined behaviour.  Missing: NULL arrays. *)
Theorem C09_memory_safe_partial : forall c sched k t a, cfg_master_ok c -> m_history c sched k t ->
  api_typed a -> (api_valid a = false \/ api_arrays a) -> exists r s', modbus_master_request c a (mc_s k) = Ok (r, s').
Proof.
  intros c sched k t a Hc H Ty Ar. destruct (C08_accepted_exactly c sched k t a Hc H) as (r & s' & E & _); eauto. split; auto. intros V. destruct Ar; congruence.
Qed.
Print Assumptions C09_memory_safe_partial.

(** *** C10 *)
(** C10 is false: with one buffer, one call refused for its quantity makes the next, valid, call fail - for ever. *)
Definition cfg1 : cfg := mk_cfg 1 4 1 4 4 4 4.
Lemma cfg1_ok : cfg_master_ok cfg1.
Proof. unfold cfg_master_ok. cbn. lia. Qed.
Definition s1 : master := match modbus_master_init cfg1 RTU (master_static cfg1) with Ok s => s | _ => master_static cfg1 end.
Lemma s1_started : started cfg1 s1.
Proof. exists (master_static cfg1). split; [apply static_master_ok, cfg1_ok|vm_compute; reflexivity]. Qed.
Definition bad0 : api := ReadCoils 0 0 9.
Lemma bad0_safe : req_safe bad0.
Proof. split; [|discriminate]. unfold api_typed, bad0, byte, word. cbn. repeat split; lia. Qed.
Theorem C10_refuted :
  (exists k, m_run cfg1 (ask rh) (mk_mconf s1 None) = Ok (k, [MTEv (MReq rh); MTOut (MoRet rh REQUEST_SEND_TO_QUEUE)])) /\
  (exists k, m_run cfg1 (ask bad0) (mk_mconf s1 None) = Ok (k, [MTEv (MReq bad0); MTOut (MoRet bad0 LIB_PDU_REQ_ERROR)]) /\
   forall sched k' t', reqs_safe sched -> m_run cfg1 sched k = Ok (k', t') -> accepted t' = []).
Proof.
  split; [eexists; vm_compute; reflexivity|].
  assert (R : exists k, m_run cfg1 (ask bad0) (mk_mconf s1 None) = Ok (k, [MTEv (MReq bad0); MTOut (MoRet bad0 LIB_PDU_REQ_ERROR)])) by (eexists; vm_compute; reflexivity).
  destruct R as (k & R). exists k. split; auto. intros sched k' t' HS R'.
  assert (I : cinv cfg1 [MTEv (MReq bad0); MTOut (MoRet bad0 LIB_PDU_REQ_ERROR)] (mloc k) (mc_s k)).
  { apply (history_cinv _ (ask bad0)); [apply cfg1_ok|]. exists s1. split; [apply s1_started|]. split; auto. apply ask_safe, bad0_safe. }
  exact (starved cfg1 sched _ k k' t' cfg1_ok HS I eq_refl R').
Qed.
Print Assumptions C10_refuted.
(** What holds: a call answered 'free queue empty' changes nothing; a call answered 'PDU error' costs exactly one free
    buffer and has no other effect on the queues.  Missing: that buffer is never given back. *)
Theorem C10_rejection_cost_partial : forall c sched k t a r s', cfg_master_ok c -> m_history c sched k t -> req_safe a ->
  modbus_master_request c a (mc_s k) = Ok (r, s') -> r <> REQUEST_SEND_TO_QUEUE ->
  waiting c s' = waiting c (mc_s k) /\ mm_msgs s' = mm_msgs (mc_s k) /\
  (r = FREE_QUEUE_EMPTY_ERROR -> s' = mc_s k) /\
  (r = LIB_PDU_REQ_ERROR -> exists i, free_bufs c (mc_s k) = i :: free_bufs c s').
Proof.
  intros c sched k t a r s' Hc H Hs R Hr. destruct (ci_inv _ _ _ _ (history_cinv _ _ _ _ Hc H)) as (free & pend & apis & eps & v & [K B Rq Ac Vi Ep Pa Fi Cn]).
  destruct (req_event c a free pend _ _ Hc B Hs) as (s2 & r2 & free' & pend' & E & Q & B').
  cbn [m_event] in E. rewrite R in E. cbn [bind] in E. inversion E; subst r2 s2. unfold free_bufs, waiting.
  rewrite (rep_queue_list _ _ _ (mb_pend _ _ _ _ _ B)), (rep_queue_list _ _ _ (mb_pend _ _ _ _ _ B')), (rep_queue_list _ _ _ (mb_free _ _ _ _ _ B)), (rep_queue_list _ _ _ (mb_free _ _ _ _ _ B')).
  destruct Q as [Q|j free' q Q V|j free' q q2 m m' Q V N Rm M F]; try congruence; repeat (split; [auto; discriminate|]); try discriminate; eauto.
Qed.
Print Assumptions C10_rejection_cost_partial.
Example C10_case : exists s', modbus_master_request mcfg bad0 m0 = Ok (LIB_PDU_REQ_ERROR, s') /\ free_bufs mcfg m0 = [0; 1; 2]%nat /\ free_bufs mcfg s' = [1; 2]%nat.
Proof. eexists. split; [vm_compute; reflexivity|]. split; vm_compute; reflexivity. Qed.

(** *** C17 *)
(** C17 is false: a response with another function code finishes the request without any callback (here: function code 5
    answers a read); so does an exception response with an unknown function code. *)
Theorem C17_refuted : exists k t, m_history mcfg (transact rh (rtu_frame 9 [5; 0; 1; 255; 0])) k t /\
  visible t = [VSend (request_frame rh); VFree].
Proof.
  do 2 eexists. split.
  - exists m0. split; [apply m0_started|]. split; [apply reqs_safe_app; [apply ask_safe, rh_safe|apply req_free_safe; vm_compute; reflexivity]|vm_compute; reflexivity].
  - vm_compute. reflexivity.
Qed.
Print Assumptions C17_refuted.
Theorem C17_refuted_exception : exists k t, m_history mcfg (transact rh (rtu_frame 9 [0xAA; 2])) k t /\
  visible t = [VSend (request_frame rh); VFree].
Proof.
  do 2 eexists. split.
  - exists m0. split; [apply m0_started|]. split; [apply reqs_safe_app; [apply ask_safe, rh_safe|apply req_free_safe; vm_compute; reflexivity]|vm_compute; reflexivity].
  - vm_compute. reflexivity.
Qed.
Print Assumptions C17_refuted_exception.
(** What holds: a finished request without callback got a response whose function code is neither the request's nor the
    request's with the exception bit.  Missing: callbacks for other function codes. *)
Lemma normal_nonempty a id adr b : api_valid a = true -> normal_callbacks (api_fc a) id adr (api_qty a) b <> [].
Proof.
  intros V. destruct a; cbn [api_fc normal_callbacks api_qty]; try discriminate; unfold bit_callbacks, reg_callbacks; cbn in V;
  (destruct (Z.to_nat qty) eqn:Q; [lia|]; discriminate).
Qed.
Theorem C17_informed_partial : forall c sched k t, cfg_master_ok c -> m_history c sched k t ->
  exists eps v rest, visible t = concat (map episode_trace eps) ++ v /\ accepted t = map e_api eps ++ rest /\ length eps = finished t /\
    forall e, In e eps -> e_cbs e = [] -> exists b, delivered (e_api e) b = Some [] /\
      (api_valid (e_api e) = true -> byte_at b 1 <> api_fc (e_api e) /\ byte_at b 1 <> api_fc (e_api e) + 128).
Proof.
  intros c sched k t Hc H. destruct (history_episodes _ _ _ _ Hc H) as (eps & v & rest & V1 & V2 & V3 & V4 & _). exists eps, v, rest. repeat (split; auto).
  intros e He Hb. rewrite Forall_forall in V2. destruct (V2 e He) as (_ & _ & [(r & X & _)|[(r & X & _)|(b & X)]]); try congruence.
  rewrite Hb in X. exists b. split; auto. intros V. split; intros F.
  - rewrite (delivered_match _ _ V F) in X. inversion X. eapply normal_nonempty; eauto.
  - unfold delivered in X. rewrite F in X. destruct (e_api e); cbn in X; discriminate.
Qed.
Print Assumptions C17_informed_partial.

(** *** C19 *)
Theorem C19_buffers : forall c sched k t, cfg_master_ok c -> m_history c sched k t ->
  NoDup (in_flight k ++ waiting c (mc_s k) ++ free_bufs c (mc_s k)) /\
  Forall (fun i => (i < Z.to_nat (c_queue c))%nat) (in_flight k ++ waiting c (mc_s k) ++ free_bufs c (mc_s k)) /\
  (length (in_flight k) + length (waiting c (mc_s k)) + length (free_bufs c (mc_s k)) + pdu_errors t)%nat = Z.to_nat (c_queue c).
Proof.
  intros c sched k t Hc H. destruct (ci_inv _ _ _ _ (history_cinv _ _ _ _ Hc H)) as (free & pend & apis & eps & v & [K B Rq Ac Vi Ep Pa Fi Cn]).
  unfold free_bufs, waiting. rewrite (rep_queue_list _ _ _ (mb_free _ _ _ _ _ B)), (rep_queue_list _ _ _ (mb_pend _ _ _ _ _ B)), <- fly_in_flight.
  split; [apply B|]. split; [apply B|]. exact Cn.
Qed.
Print Assumptions C19_buffers.
(** exactly one buffer is in flight between lines 404 and 901 *)
Theorem C19_in_flight : forall c sched k t, cfg_master_ok c -> m_history c sched k t -> busy k = true -> exists i, in_flight k = [i].
Proof.
  intros c sched k t Hc H Bz. destruct (ci_inv _ _ _ _ (history_cinv _ _ _ _ Hc H)) as (free & pend & apis & eps & v & I).
  assert (F : fly_line (mloc k) = true).
  { revert Bz. unfold busy, mloc, m_dispatch. destruct (mc_pc k) as [[]|]; cbn; auto. destruct (mm_st (mc_s k)); auto. }
  destruct (minv_current _ _ _ _ _ _ _ _ _ I F) as (i & a & C & _). unfold in_flight. rewrite Bz, C. eauto.
Qed.
Print Assumptions C19_in_flight.
(** a request call changes no message that is in flight or waiting; and while a request is in flight the driver, once
    told the receive buffer (line 405), has that message's *)
Theorem C19_calls_leave_them_alone : forall c sched k t a r s', cfg_master_ok c -> m_history c sched k t -> req_safe a ->
  modbus_master_request c a (mc_s k) = Ok (r, s') ->
  forall i, In i (in_flight k ++ waiting c (mc_s k)) -> nth_error (mm_msgs s') i = nth_error (mm_msgs (mc_s k)) i.
Proof.
  intros c sched k t a r s' Hc H Hs R. destruct (ci_inv _ _ _ _ (history_cinv _ _ _ _ Hc H)) as (free & pend & apis & eps & v & [K B Rq Ac Vi Ep Pa Fi Cn]).
  destruct (req_event c a free pend _ _ Hc B Hs) as (s2 & r2 & free' & pend' & E & Q & B').
  cbn [m_event] in E. rewrite R in E. cbn [bind] in E. inversion E; subst r2 s2.
  intros i Hi. unfold waiting in Hi. rewrite (rep_queue_list _ _ _ (mb_pend _ _ _ _ _ B)), <- fly_in_flight in Hi. eapply req_keeps; eauto.
Qed.
Print Assumptions C19_calls_leave_them_alone.
Theorem C19_driver_buffer : forall c sched k t, cfg_master_ok c -> m_history c sched k t ->
  busy k = true -> mloc k <> M404 -> mloc k <> M405 -> exists i, in_flight k = [i] /\ mm_rx (mc_s k) = Some i.
Proof.
  intros c sched k t Hc H Bz N1 N2. destruct (ci_inv _ _ _ _ (history_cinv _ _ _ _ Hc H)) as (free & pend & apis & eps & v & I).
  assert (F : fly_line (mloc k) = true).
  { clear N1 N2. revert Bz. unfold busy, mloc, m_dispatch. destruct (mc_pc k) as [[]|]; cbn; auto. destruct (mm_st (mc_s k)); auto. }
  destruct (minv_current _ _ _ _ _ _ _ _ _ I F) as (i & a & C & _). unfold in_flight. rewrite Bz, C. exists i. split; auto. rewrite <- C.
  apply (mb_rxc _ _ _ _ _ (iv_buf _ _ _ _ _ _ _ _ _ I)). destruct (mloc k); try discriminate F; try reflexivity; congruence.
Qed.
Print Assumptions C19_driver_buffer.
Example C19_case : exists k t, m_history mcfg (ask rh ++ msteps 8 ++ ask rh ++ ask bad0) k t /\
  in_flight k = [0]%nat /\ waiting mcfg (mc_s k) = [1]%nat /\ free_bufs mcfg (mc_s k) = [] /\ pdu_errors t = 1%nat /\ mm_rx (mc_s k) = Some 0%nat.
Proof.
  do 2 eexists. split.
  - exists m0. split; [apply m0_started|]. split; [|vm_compute; reflexivity].
    repeat apply reqs_safe_app; try (apply ask_safe; auto using rh_safe, bad0_safe). apply req_free_safe. reflexivity.
  - vm_compute. auto 10.
Qed.

(** *** C20 *)
(** The frames handed to the driver: for each request in order of acceptance, its frame 1 .. 1 + R times. *)
Theorem C20_in_order : forall c sched k t, cfg_master_ok c -> m_history c sched k t ->
  exists l : list (api * nat), m_sent t = flat_map (fun p => repeat (request_frame (fst p)) (snd p)) l /\
    (exists rest, accepted t = map fst l ++ rest) /\
    Forall (fun p => (1 <= snd p)%nat /\ Z.of_nat (snd p) <= 1 + c_repeat c) l.
Proof.
  intros c sched k t Hc H. destruct (history_episodes _ _ _ _ Hc H) as (eps & v & rest & V1 & V2 & V3 & V4 & V5).
  assert (F : Forall (fun p : api * nat => (1 <= snd p)%nat /\ Z.of_nat (snd p) <= 1 + c_repeat c) (map (fun e => (e_api e, e_sends e)) eps)).
  { apply Forall_map. eapply Forall_impl; [|exact V2]. intros e (A & B & _). auto. }
  assert (M : map fst (map (fun e => (e_api e, e_sends e)) eps) = map e_api eps) by (rewrite map_map; reflexivity).
  destruct V5 as [->|(a & rest' & n & cbs & -> & Hn & Hn2 & -> & _)].
  - exists (map (fun e => (e_api e, e_sends e)) eps). rewrite sent_visible, V1, app_nil_r, sent_eps. split; auto. split; auto. exists rest. rewrite M. auto.
  - exists (map (fun e => (e_api e, e_sends e)) eps ++ [(a, n)]). rewrite sent_visible, V1, !flat_map_app, sent_eps, sent_sends, sent_vcbs. cbn [flat_map fst snd]. split; [reflexivity|]. split.
    + exists rest'. rewrite map_app, M. cbn [map fst]. rewrite <- app_assoc. auto.
    + apply Forall_app. split; auto.
Qed.
Print Assumptions C20_in_order.
(** a repetition really happens: wrong CRC, one retry, then the right answer *)
Definition corrupt : list Z := [9; 3; 4; 18; 52; 171; 205; 0; 0].
Definition retry_sched : list mact :=
  ask rh ++ msteps 8 ++ [MEv MTxDone] ++ msteps 6 ++ mfeed corrupt ++ [MEv MT15] ++ msteps 16 ++ [MEv MT35] ++ msteps 16 ++
  [MEv MTxDone] ++ msteps 6 ++ mfeed rh_answer ++ [MEv MT15] ++ msteps 16 ++ [MEv MT35] ++ msteps 16.
Lemma retry_safe : reqs_safe retry_sched.
Proof. apply reqs_safe_app; [apply ask_safe, rh_safe|]. apply req_free_safe. vm_compute. reflexivity. Qed.
Example C20_case : exists k t, m_history mcfg retry_sched k t /\ m_sent t = [request_frame rh; request_frame rh].
Proof. do 2 eexists. split; [exists m0; split; [apply m0_started|]; split; [apply retry_safe|vm_compute; reflexivity]|vm_compute; reflexivity]. Qed.

(** *** C21 *)
(** Everything visible from outside is, for each accepted request in order: its transmissions, then one outcome, then the
    end (buffer free); followed possibly by the transmissions (and outcome) of the request being handled. *)
Theorem C21_one_outcome : forall c sched k t, cfg_master_ok c -> m_history c sched k t ->
  exists eps v rest, visible t = concat (map episode_trace eps) ++ v /\ Forall (episode_ok c) eps /\ accepted t = map e_api eps ++ rest /\ finished t = length eps /\
    (v = [] \/ exists a rest' n cbs, rest = a :: rest' /\ (1 <= n)%nat /\ Z.of_nat n <= 1 + c_repeat c /\ v = sends a n ++ map VCb cbs /\ (cbs = [] \/ outcome_of a cbs)).
Proof. intros c sched k t Hc H. exact (history_episodes c sched k t Hc H). Qed.
Print Assumptions C21_one_outcome.
(** callbacks are made only while a request is handled and the driver has signalled the end of its last transmission *)
Theorem C21_after_transmission : forall c sched k t, cfg_master_ok c -> m_history c sched k t ->
  forall t1 x t2, t = t1 ++ MTOut (MoCb x) :: t2 -> exists a, current t1 = Some a /\ tx_complete t1 = true.
Proof. intros c sched k t Hc H t1 x t2 E. destruct (hist_cb c sched k t Hc H t1 _ t2 E x eq_refl) as (a & A & B & _). eauto. Qed.
Print Assumptions C21_after_transmission.
Example C21_case : exists k t, m_history mcfg retry_sched k t /\
  visible t = sends rh 2 ++ map VCb [HregRead 9 1 0x1234; HregRead 9 2 0xABCD] ++ [VFree] /\ accepted t = [rh].
Proof. do 2 eexists. split; [exists m0; split; [apply m0_started|]; split; [apply retry_safe|vm_compute; reflexivity]|split; vm_compute; reflexivity]. Qed.

(** *** C22 *)
(** A response callback at any point of any history: the bytes last checked since the last transmission were an intact frame
    with the ID of the request being handled, a 3.5-character event occurred since its handling began, and no frame
    error was pending when the master decided to deliver. *)
Theorem C22_only_checked_responses : forall c sched k t, cfg_master_ok c -> m_history c sched k t ->
  forall t1 x t2, t = t1 ++ MTOut (MoCb x) :: t2 -> is_response x ->
  exists a g, current t1 = Some a /\ m_checked t1 = Some g /\ intact (api_id a) g /\ m_t35_after t1 = true /\ m_started_clean t1 = true.
Proof.
  intros c sched k t Hc H t1 x t2 E R. destruct (hist_cb c sched k t Hc H t1 _ t2 E x eq_refl) as (a & A & _ & B). destruct (B R) as ((g & G1 & G2) & G3 & G4). exists a, g. auto.
Qed.
Print Assumptions C22_only_checked_responses.
(** what is checked is what was received since reception started anew (modulo the 256-byte wrap of the length) *)
Theorem C22_checked_is_received : forall c sched k t, cfg_master_ok c -> m_history c sched k t ->
  forall t1 g t2, t = t1 ++ MTOut (MoCheck g) :: t2 -> g = m_buffered (m_received t1).
Proof. intros c sched k t Hc H t1 g t2 E. exact (hist_check c sched k t Hc H t1 _ t2 E g eq_refl). Qed.
Print Assumptions C22_checked_is_received.
Example C22_case : exists k t t1 t2, m_history mcfg (transact rh rh_answer) k t /\ t = t1 ++ MTOut (MoCb (HregRead 9 1 0x1234)) :: t2 /\
  is_response (HregRead 9 1 0x1234) /\ m_checked t1 = Some rh_answer /\ m_received t1 = rh_answer.
Proof.
  do 2 eexists. exists (firstn 19 (snd (run_of (transact rh rh_answer)))), (skipn 20 (snd (run_of (transact rh rh_answer)))).
  split; [exact rh_history|]. split; [vm_compute; reflexivity|]. split; [exact I|]. split; vm_compute; reflexivity.
Qed.
