(** C56-C60 (master): before initialisation, other modes, termination, clean slate, absence of undefined behaviour. *)
From Verif Require Import Props.Frames Props.MasterRun.
From Verif Require Import Proofs.MasterSafe.

(** *** C56 *)
(** Every request call is answered 'free queue empty'; nothing else happens and the state never changes. *)
Definition before_init_trace (l : list mev) : list mitem :=
  flat_map (fun e => match e with MReq a => [MTEv (MReq a); MTOut (MoRet a FREE_QUEUE_EMPTY_ERROR)] | e => [MTEv e] end) l.
Theorem C56_before_init_harmless : forall c sched, cfg_master_ok c ->
  exists pc, m_run c sched (mk_mconf (master_static c) None) = Ok (mk_mconf (master_static c) pc, before_init_trace (m_events sched)).
Proof.
  intros c sched Hc.
  destruct (m_phase c (fun rem t l s => l = M649 /\ s = master_static c /\ t ++ before_init_trace rem = before_init_trace (m_events sched)))
    with (sched := sched) (t := @nil mitem) (k := mk_mconf (master_static c) None) (rem := @nil mev) as (k & o & E & _ & S1 & T).
  - intros rem t l s (-> & -> & T). cbn [m_line]. change (mm_txq (master_static c)) with (@queue_zero nat (c_queue c)). rewrite (avail_iff _ _ _ (zero_rep c Hc)). do 3 eexists. split; [reflexivity|]. cbn [map m_next]. rewrite app_nil_r. auto.
  - intros e rem t l s (-> & -> & T). assert (Z : forall o, t ++ MTEv e :: map MTOut o = t ++ (MTEv e :: map MTOut o)) by reflexivity.
    destruct e; cbn [m_event]; try (do 2 eexists; split; [reflexivity|]; cbn [map]; repeat (split; [reflexivity|]); rewrite <- app_assoc; exact T).
    unfold modbus_master_request, generate_request. change (mm_free (master_static c)) with (@queue_zero nat (c_queue c)). rewrite (pop_empty _ _ (zero_rep c Hc)).
    cbn [bind]. do 2 eexists. split; [reflexivity|]. cbn [map]. repeat (split; [reflexivity|]). rewrite <- app_assoc. exact T.
  - cbn [mc_s mc_pc]. rewrite app_nil_r. auto.
  - exists (mc_pc k). rewrite E. cbn [app before_init_trace flat_map] in T. rewrite app_nil_r in T. subst o. rewrite <- S1. destruct k. reflexivity.
Qed.
Print Assumptions C56_before_init_harmless.
Example C56_case : exists pc, m_run mcfg (ask rh ++ msteps 3 ++ [MEv MTick; MEv (MRx 7)] ++ ask (WriteMultipleReg 0 1 9 None)) (mk_mconf (master_static mcfg) None) =
  Ok (mk_mconf (master_static mcfg) pc, [MTEv (MReq rh); MTOut (MoRet rh FREE_QUEUE_EMPTY_ERROR); MTEv MTick; MTEv (MRx 7);
      MTEv (MReq (WriteMultipleReg 0 1 9 None)); MTOut (MoRet (WriteMultipleReg 0 1 9 None) FREE_QUEUE_EMPTY_ERROR)]).
Proof. eexists. vm_compute. reflexivity. Qed.

(** *** C57 (master) *)
(** False as stated: after use in RTU mode the driver still holds the receive pointer; initialisation in another mode sets
    the buffers to NULL and the next received byte is written through NULL. *)
Theorem C57_master_refuted : exists c sched k t s', cfg_master_ok c /\ m_history c sched k t /\ modbus_master_init c UNKNOWN_MODE (mc_s k) = Ok s' /\
  m_run c [MEv (MRx 9)] (mk_mconf s' None) = UB.
Proof.
  exists mcfg, (transact rh rh_answer). do 3 eexists. split; [apply mcfg_ok|]. split; [exact rh_history|]. split; vm_compute; reflexivity.
Qed.
Print Assumptions C57_master_refuted.
(** What holds, whatever happened before: initialisation succeeds and from there, under every schedule (even calls with
    invalid arrays), if the driver was never given a receive buffer or receives nothing: no undefined behaviour, no
    request accepted, nothing transmitted, no callback.  Missing: bytes received after use in RTU mode. *)
Theorem C57_master_partial : forall c s0 sched, cfg_master_ok c -> master_memory_ok c s0 ->
  mm_rx s0 = None \/ (forall b, ~ In (MEv (MRx b)) sched) ->
  exists s k t, modbus_master_init c UNKNOWN_MODE s0 = Ok s /\ m_run c sched (mk_mconf s None) = Ok (k, t) /\
    accepted t = [] /\ m_sent t = [] /\ callbacks t = [].
Proof.
  intros c s0 sched Hc Hm Hr. destruct (init_dead c s0 Hc Hm) as (s & E & D & R).
  destruct (dead_run c sched s _ D) as (k & t & E2 & Q).
  - destruct Hr as [Hr|Hr]; [left; congruence|right]. intros b Hb. apply (Hr b). clear - Hb. induction sched as [|[|e] sched IH]; cbn in *; [auto|auto|]. destruct Hb as [->|Hb]; auto.
  - exists s, k, t. split; auto. split; auto. apply quiet_facts. auto.
Qed.
Print Assumptions C57_master_partial.
Example C57_case : master_memory_ok mcfg (master_static mcfg) /\ mm_rx (master_static mcfg) = None.
Proof. split; [apply static_master_ok, mcfg_ok|reflexivity]. Qed.

(** *** C58 (master) *)
(** From any state and any line of a poll: within 11 further lines the poll has returned, whatever events come between. *)
Theorem C58_master_poll_returns : forall c sched k l k' t, mc_pc k = Some l -> (11 <= m_steps sched)%nat -> m_run c sched k = Ok (k', t) ->
  exists s1 s2 k1 t1, sched = s1 ++ s2 /\ m_run c s1 k = Ok (k1, t1) /\ mc_pc k1 = None /\ (m_steps s1 <= 11)%nat.
Proof.
  intros c sched k l k' t P H E. assert (X := m_rank_pos l). destruct (m_returns c sched k l k' t P ltac:(lia) E) as (s1 & s2 & k1 & t1 & A & B & D & F).
  exists s1, s2, k1, t1. repeat split; auto. lia.
Qed.
Print Assumptions C58_master_poll_returns.
(** An uninterrupted poll never loops, in any state whatsoever (16 lines are enough). *)
Theorem C58_master_poll_never_loops : forall c s, update_modbus_master_manager c s <> Diverge.
Proof. exact nd_poll. Qed.
Print Assumptions C58_master_poll_never_loops.
Example C58_case : exists s o, update_modbus_master_manager mcfg m0 = Ok (s, o).
Proof. do 2 eexists. vm_compute. reflexivity. Qed.

(** *** C59 *)
Theorem C59_clean_slate : forall c s0, cfg_master_ok c -> master_memory_ok c s0 -> exists s, modbus_master_init c RTU s0 = Ok s /\
  free_bufs c s = seq 0 (Z.to_nat (c_queue c)) /\ waiting c s = [] /\ in_flight (mk_mconf s None) = [] /\ update_modbus_master_manager c s = Ok (s, []).
Proof.
  intros c s0 Hc Hm. destruct (init_char c s0 Hc Hm) as (s & E & R1 & R2 & _ & St & _). exists s. split; auto.
  unfold free_bufs, waiting. rewrite (rep_queue_list _ _ _ R1), (rep_queue_list _ _ _ R2). repeat (split; [reflexivity|]).
  split. { unfold in_flight, busy. cbn [mc_pc mc_s]. rewrite St. reflexivity. }
  unfold update_modbus_master_manager, m_dispatch. rewrite St. cbn [m_lines m_line]. rewrite (avail_iff _ _ _ R2). reflexivity.
Qed.
Print Assumptions C59_clean_slate.
(** Calls with valid quantities: the first N are accepted, all further ones are answered 'free queue empty'. *)
Definition call (a : api) : mact := MEv (MReq a).
Definition answered (l : list (api * req_ret)) : list mitem := flat_map (fun p => [MTEv (MReq (fst p)); MTOut (MoRet (fst p) (snd p))]) l.
Lemma calls_run c : cfg_master_ok c -> forall l t s, Minv c t M649 s -> Forall (fun a => req_safe a /\ api_valid a = true) l ->
  let n := length (free_bufs c s) in
  exists s', m_run c (map call l) (mk_mconf s None) =
    Ok (mk_mconf s' None, answered (map (fun a => (a, REQUEST_SEND_TO_QUEUE)) (firstn n l) ++ map (fun a => (a, FREE_QUEUE_EMPTY_ERROR)) (skipn n l))) /\ mm_st s' = mm_st s.
Proof.
  intros Hc. induction l as [|a l IH]; intros t s I F n; unfold n; clear n; [rewrite firstn_nil, skipn_nil; cbn; eauto|]. inversion F as [|? ? [Fs Fv] Fl]; subst.
  destruct I as (free & pend & apis & eps & v & I). assert (B := iv_buf _ _ _ _ _ _ _ _ _ I).
  destruct (req_event c a free pend M649 s Hc B Fs) as (s2 & r & free' & pend' & E & Q & B').
  assert (I2 : Minv c (t ++ MTEv (MReq a) :: map MTOut [MoRet a r]) M649 s2) by (apply (Minv_event c t M649 s (MReq a) s2 [MoRet a r] Hc Fs); [unfold Minv; eauto 10|auto]).
  assert (St := m_event_st _ _ _ _ _ E). destruct (IH _ _ I2 Fl) as (s3 & R & St3). unfold free_bufs in *.
  rewrite (rep_queue_list _ _ _ (mb_free _ _ _ _ _ B)). rewrite (rep_queue_list _ _ _ (mb_free _ _ _ _ _ B')) in R.
  exists s3. split; [|congruence]. cbn [map m_run]. unfold call at 1. cbn [m_act mc_s mc_pc]. rewrite E. cbn [bind]. rewrite R. cbn [bind map].
  do 2 f_equal. destruct Q as [Q|j free' q Q V|j free' q q2 m m' Q V N Rm M F2]; try congruence; subst; reflexivity.
Qed.
Theorem C59_exactly_N_accepted : forall c s l, cfg_master_ok c -> started c s -> Forall (fun a => req_safe a /\ api_valid a = true) l ->
  let n := Z.to_nat (c_queue c) in
  exists k, m_run c (map call l) (mk_mconf s None) =
    Ok (k, answered (map (fun a => (a, REQUEST_SEND_TO_QUEUE)) (firstn n l) ++ map (fun a => (a, FREE_QUEUE_EMPTY_ERROR)) (skipn n l))).
Proof.
  intros c s l Hc (s0 & Hm & E) F n. destruct (init_char c s0 Hc Hm) as (s' & E' & Ch). rewrite E in E'. inversion E'; subst s'.
  assert (I : Minv c [] M649 s) by (unfold Minv; do 5 eexists; eapply start_minv; eauto).
  destruct (calls_run c Hc l [] s I F) as (s' & R & _). destruct Ch as (R1 & _). unfold free_bufs in R. rewrite (rep_queue_list _ _ _ R1), seq_length in R. eauto.
Qed.
Print Assumptions C59_exactly_N_accepted.
(** In every history: if the master is idle between two polls and a request is pending, the next poll transmits the
    oldest pending request (and does nothing else observable). *)
Theorem C59_next_poll_transmits : forall c sched k t a, cfg_master_ok c -> m_history c sched k t -> mc_pc k = None -> mm_st (mc_s k) = M_IDLE ->
  current t = Some a -> exists s', update_modbus_master_manager c (mc_s k) = Ok (s', [MoSend (request_frame a)]).
Proof.
  intros c sched k t a Hc H P St Cu. assert (I := ci_inv _ _ _ _ (history_cinv _ _ _ _ Hc H)). unfold mloc, m_dispatch in I. rewrite P, St in I. eapply idle_poll; eauto.
Qed.
Print Assumptions C59_next_poll_transmits.
(** ... in particular after initialisation and any number (>= 1) of valid calls, interleaved with interrupts and ticks. *)
Theorem C59_first_poll_transmits : forall c s sched k t a rest, cfg_master_ok c -> started c s -> reqs_safe sched -> m_steps sched = 0%nat ->
  m_run c sched (mk_mconf s None) = Ok (k, t) -> accepted t = a :: rest -> exists s', update_modbus_master_manager c (mc_s k) = Ok (s', [MoSend (request_frame a)]).
Proof.
  intros c s sched k t a rest Hc Hs Hr H0 E Ac.
  assert (X : mc_pc k = None /\ mm_st (mc_s k) = M_IDLE /\ finished t = 0%nat).
  { assert (Y : mm_st s = M_IDLE). { destruct Hs as (s0 & Hm & E0). destruct (init_char c s0 Hc Hm) as (s' & E' & _ & _ & _ & St & _). rewrite E0 in E'. inversion E'; subst; auto. }
    clear Ac Hs Hr. remember (mk_mconf s None) as k0 eqn:K0. assert (P0 : mc_pc k0 = None /\ mm_st (mc_s k0) = M_IDLE) by (subst; auto). clear K0 Y s.
    revert k0 t P0 E. induction sched as [|[|e] sched IH]; intros k0 t P0 E; cbn [m_run] in E.
    - inversion E; subst. destruct P0. auto.
    - discriminate.
    - cbn [m_act] in E. destruct (m_event c e (mc_s k0)) as [[s1 o]| |] eqn:Ee; try discriminate. cbn [bind] in E. destruct (m_run c sched _) as [[k2 t2]| |] eqn:E2; try discriminate.
      cbn [bind] in E. inversion E; subst. destruct (IH H0 (mk_mconf s1 (mc_pc k0)) t2) as (A1 & A2 & A3); [cbn [mc_pc mc_s]; rewrite (m_event_st _ _ _ _ _ Ee); exact P0|exact E2|]. split; auto. split; auto.
      cbn [finished app]. rewrite finished_app, A3. destruct e; cbn [m_event] in Ee; try (inversion Ee; subst; reflexivity).
      + destruct (mm_rx (mc_s k0)); [|inversion Ee; reflexivity]. destruct (get_msg _ _); try discriminate. cbn [bind] in Ee. destruct (wr _ _ _); try discriminate. cbn [bind] in Ee.
        destruct (put_msg _ _ _); try discriminate. inversion Ee; reflexivity.
      + destruct (modbus_master_request _ _ _) as [[r s2]| |]; try discriminate. cbn [bind] in Ee. inversion Ee; subst. reflexivity. }
  destruct X as (P & St & Fi). eapply C59_next_poll_transmits; [exact Hc|exists s; split; [exact Hs|split; [exact Hr|exact E]]|exact P|exact St|]. unfold current. rewrite Fi, Ac. reflexivity.
Qed.
Print Assumptions C59_first_poll_transmits.
Example C59_case : Forall (fun a => req_safe a /\ api_valid a = true) [rh; rh; rh; rh] /\
  exists s', match m_run mcfg (map call [rh; rh]) (mk_mconf m0 None) with Ok (k, _) => update_modbus_master_manager mcfg (mc_s k) = Ok (s', [MoSend [9; 3; 0; 1; 0; 2; 148; 131]]) | _ => False end.
Proof. split; [repeat constructor; try apply rh_safe|]. eexists. vm_compute. reflexivity. Qed.

(** *** C60 (master) *)
(** [polite t]: if the request being handled asks for more than 126 coils or inputs, then fewer than 256 bytes have been
    received for it, and the bytes last checked, if intact and from that slave, have the requested function code or report
    an exception.  (C14 shows that this assumption is needed; for smaller requests nothing is assumed.) *)
Definition polite_slaves (c : cfg) (s : master) (sched : list mact) : Prop :=
  forall s1 s2 k t, sched = s1 ++ s2 -> m_run c s1 (mk_mconf s None) = Ok (k, t) ->
  forall a, current t = Some a -> is_read a = true -> 126 < api_qty a ->
    (length (m_received t) < 256)%nat /\ (forall g, m_checked t = Some g -> intact (api_id a) g -> byte_at g 1 = api_fc a \/ 128 <= byte_at g 1).
Theorem C60_master_no_ub : forall c s sched, cfg_master_ok c -> started c s -> reqs_safe sched -> polite_slaves c s sched ->
  exists k t, m_run c sched (mk_mconf s None) = Ok (k, t).
Proof. intros c s sched Hc Hs Hr Hp. apply run_total; auto. Qed.
Print Assumptions C60_master_no_ub.
(** No assumption about the slaves at all if no call asks for more than 126 items. *)
Theorem C60_master_no_ub_small : forall c s sched, cfg_master_ok c -> started c s -> reqs_safe sched ->
  (forall a, In (MEv (MReq a)) sched -> is_read a = true -> api_qty a <= 126) -> exists k t, m_run c sched (mk_mconf s None) = Ok (k, t).
Proof.
  intros c s sched Hc Hs Hr Hq. apply run_total; auto. intros s1 s2 k t E R a Cu Rd L. exfalso.
  assert (X : forall sch kk k' t', m_run c sch kk = Ok (k', t') -> forall b, In b (accepted t') -> In (MEv (MReq b)) sch).
  { clear. induction sch as [|x sch IH]; intros kk k' t' E b Hb; cbn [m_run] in E.
    - inversion E; subst. destruct Hb.
    - destruct (m_act c x kk) as [[k1 t1]| |] eqn:A; try discriminate. cbn [bind] in E. destruct (m_run c sch k1) as [[k2 t2]| |] eqn:E2; try discriminate. cbn [bind] in E. inversion E; subst.
      rewrite accepted_app in Hb. apply in_app_or in Hb as [Hb|Hb]; [left|right; eauto].
      destruct x as [|e]; cbn [m_act] in A.
      + destruct (mc_pc kk); [|inversion A; subst; destruct Hb]. destruct (m_line c m (mc_s kk)) as [[[? ?] ?]| |] eqn:El; try discriminate. cbn [bind] in A. inversion A; subst.
        rewrite (proj1 (line_accepted _ _ _ _ _ _ El)) in Hb. destruct Hb.
      + destruct (m_event c e (mc_s kk)) as [[s1 o]| |] eqn:Ee; try discriminate. cbn [bind] in A. inversion A; subst. cbn [accepted] in Hb.
        destruct e; cbn [m_event] in Ee; try (inversion Ee; subst; destruct Hb; fail).
        * destruct (mm_rx (mc_s kk)); [|inversion Ee; subst; destruct Hb]. destruct (get_msg _ _); try discriminate. cbn [bind] in Ee. destruct (wr _ _ _); try discriminate. cbn [bind] in Ee.
          destruct (put_msg _ _ _); try discriminate. inversion Ee; subst; destruct Hb.
        * destruct (modbus_master_request _ _ _) as [[r s2]| |]; try discriminate. cbn [bind] in Ee. inversion Ee; subst. cbn in Hb. destruct r; try (destruct Hb; fail); destruct Hb as [<-|[]]; reflexivity. }
  assert (Y : In (MEv (MReq a)) s1) by (eapply X; eauto; unfold current in Cu; eapply nth_error_In; eauto).
  assert (Z := Hq a ltac:(subst sched; apply in_or_app; auto) Rd). lia.
Qed.
Print Assumptions C60_master_no_ub_small.
Definition rc : api := ReadCoils 3 200 9.
Lemma rc_safe : req_safe rc.
Proof. split; [|intros; exact I]. unfold api_typed, rc, byte, word. cbn. repeat split; lia. Qed.
Definition rc_sched : list mact := transact rc (rtu_frame 9 ([1; 25] ++ repeat 170 25)).
Definition politeb (t : list mitem) : bool :=
  match current t with
  | Some a => negb (is_read a && (126 <? api_qty a)) || (Nat.ltb (length (m_received t)) 256 && match m_checked t with Some g => (byte_at g 1 =? api_fc a) || (128 <=? byte_at g 1) | None => true end)
  | None => true
  end.
Example C60_case : reqs_safe rc_sched /\ polite_slaves mcfg m0 rc_sched /\ exists k t, m_run mcfg rc_sched (mk_mconf m0 None) = Ok (k, t) /\ length (callbacks t) = 200%nat.
Proof.
  split; [apply reqs_safe_app; [apply ask_safe, rc_safe|apply req_free_safe; vm_compute; reflexivity]|]. split; [|do 2 eexists; split; vm_compute; reflexivity].
  intros s1 s2 k t E R a Cu Rd L.
  assert (X : forallb (fun n => match m_run mcfg (firstn n rc_sched) (mk_mconf m0 None) with Ok (_, t) => politeb t | _ => false end) (seq 0 (S (length rc_sched))) = true) by (vm_compute; reflexivity).
  rewrite forallb_forall in X. specialize (X (length s1)). rewrite E in X. rewrite firstn_app, firstn_all, Nat.sub_diag, firstn_O, app_nil_r, R in X.
  specialize (X ltac:(apply in_seq; rewrite app_length; lia)). unfold politeb in X. rewrite Cu, Rd in X. replace (126 <? api_qty a) with true in X by lia. cbn [andb negb orb] in X.
  apply andb_true_iff in X as [X1 X2]. apply Nat.ltb_lt in X1. split; auto. intros g G _. rewrite G in X2. lia.
Qed.
