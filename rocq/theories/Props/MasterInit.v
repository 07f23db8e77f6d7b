(** C102, C103: the master's initialisation, interrupts and characters at any point. *)
From Verif Require Import Proofs.MasterWire Proofs.MasterInit Props.MasterRun Props.MasterSystem Props.MasterLine Props.MasterApp.

(** *** C102: initialisation at power-on *)
Lemma start_shape c s : cfg_master_ok c -> master_memory_ok c s -> exists s', modbus_master_init c RTU s = Ok s' /\ mm_timer s' = 0 /\ mm_rx s' = mm_rx s /\ started c s'.
Proof. intros Hc M. destruct (init_char c s Hc M) as (s' & E & St). exists s'. split; [exact E|]. split; [apply St|]. split; [apply St|]. exists s. auto. Qed.
Lemma ticks_app c s u v n : mm_timer s = 0 -> forall ut, 0 <= ut ->
  exists t, a_run c (repeat AaTick n) (mk_mapp (mk_mfw (mk_mconf s None) u None) ut v A55) = Ok (mk_mapp (mk_mfw (mk_mconf s None) u None) (after_ticks n ut) v A55, t).
Proof.
  intros Z. induction n as [|n IH]; intros ut G; cbn [repeat a_run].
  - exists []. unfold after_ticks. rewrite Z.sub_0_r, Z.max_r by lia. reflexivity.
  - cbn [a_act w_act a_fw w_lib w_u w_sub]. unfold w_event. cbn [m_act m_event mc_s mc_pc]. rewrite Z. cbn [Z.eqb negb bind map run_cbs fold_left a_timer a_vars a_pc].
    destruct (IH (if ut =? 0 then 0 else ut - 1)) as (t & E). { destruct (ut =? 0) eqn:X; [lia|apply Z.eqb_neq in X; lia]. }
    assert (A : after_ticks (S n) ut = after_ticks n (if ut =? 0 then 0 else ut - 1)) by (unfold after_ticks; destruct (ut =? 0) eqn:X; [apply Z.eqb_eq in X|apply Z.eqb_neq in X]; lia).
    cbn [app]. rewrite E. cbn [bind]. rewrite A. eexists. reflexivity.
Qed.
(** If nothing is received until it returns, the result is the application's start that C76-C78 assume (and its firmware the one of C68-C74), followed by the ticks that passed,
    whatever interrupts the NVIC offers. *)
Theorem C102_silent_line : forall c sched, cfg_master_ok c -> m_silent sched = true -> (22 <= w_mains sched)%nat ->
  exists x t a0 t0, j_run c sched (m_power_on c) = Ok (x, t) /\ j_pc x = None /\ m_on_line t = [] /\ visible (m_lib_of t) = [] /\
    master_app c = Ok a0 /\ a_run c (repeat AaTick (w_ticks sched)) a0 = Ok (m_running_app x, t0) /\ master_firmware c = Ok (m_running x).
Proof.
  intros c sched Hc Q M. destruct (start_shape c _ Hc (static_master_ok c Hc)) as (s & E & Ti & _).
  destruct (silent_init c (m_power_on c) s sched eq_refl E) as (t & R & O & V); auto; [repeat split|cbn; unfold UPDATE_INTERVAL_MS; lia|].
  destruct (ticks_app c s uart_init vars_init (w_ticks sched) Ti UPDATE_INTERVAL_MS ltac:(unfold UPDATE_INTERVAL_MS; lia)) as (t0 & R0).
  assert (MA : master_app c = Ok (mk_mapp (mk_mfw (mk_mconf s None) uart_init None) UPDATE_INTERVAL_MS vars_init A55)) by (unfold master_app; rewrite E; reflexivity).
  assert (MF : master_firmware c = Ok (mk_mfw (mk_mconf s None) uart_init None)) by (unfold master_firmware; rewrite E; reflexivity).
  eexists. exists t. eexists. exists t0. split; [exact R|]. split; [reflexivity|]. split; [exact O|]. split; [exact V|]. split; [exact MA|].
  unfold m_running_app, m_running. cbn [wt j_lib j_u j_timer j_done m_power_on]. rewrite (timer_self _ Ti). split; [exact R0|exact MF].
Qed.
Print Assumptions C102_silent_line.
(** so what the application does afterwards is an application history *)
Theorem C102_then_application : forall c sched later x t a t', cfg_master_ok c -> m_silent sched = true -> (22 <= w_mains sched)%nat ->
  j_run c sched (m_power_on c) = Ok (x, t) -> a_run c later (m_running_app x) = Ok (a, t') -> exists t0, app_history c (repeat AaTick (w_ticks sched) ++ later) a (t0 ++ t').
Proof.
  intros c sched later x t a t' Hc Q M R1 R2. destruct (C102_silent_line c sched Hc Q M) as (x' & t1 & a0 & t0 & R & _ & _ & _ & A & R0 & _). rewrite R1 in R. injection R as <- <-.
  exists t0, a0. split; [exact A|]. apply a_run_split. eauto 7.
Qed.
Print Assumptions C102_then_application.
(** but a character and the pause after it, from the moment the UART is enabled on, end in an access through a NULL pointer, in every configuration *)
Theorem C102_refuted_pause : forall c v n, cfg_master_ok c -> (n <= 14)%nat -> j_run c (repeat WMain 7 ++ [WRx v; WRto] ++ repeat WMain (S n) ++ [WUsart]) (m_power_on c) = UB.
Proof.
  intros c v n [HN HR] Hn. destruct (push_all_ok (c_queue c) (Z.to_nat (c_queue c)) 0 (modbus_queue_init (queue_zero (c_queue c))) []) as (q & E & _).
  { apply rep_init; auto. unfold queue_zero. cbn. apply repeat_length. } { cbn. lia. }
  assert (X : j_run c (repeat WMain 7 ++ [WRx v; WRto]) (m_power_on c) =
    let s := m_set_drv (m_set_free (m_set_txq (m_set_free (register_msg_req_resp_data_buffers RTU (master_static c)) (modbus_queue_init (queue_zero (c_queue c)))) (modbus_queue_init (queue_zero (c_queue c)))) q) true in
    Ok (mk_minit s (mk_uart 0 0 false None (Some (u8 v)) false true false false) true false false (mk_jsubs false false false false) 300 (Some K74), [])).
  { cbn [repeat app j_run j_act m_power_on bind j_line j_pc j_set j_lib j_u j_ue j_nu j_nt j_subs j_timer].
    match goal with |- context [push_all_loop ?a ?b ?d ?e] => change (push_all_loop a b d e) with (push_all_loop a b d (modbus_queue_init (queue_zero (c_queue c) : queue nat))) end. rewrite E. reflexivity. }
  assert (Split : forall l1 l2 x y t, j_run c l1 x = Ok (y, t) -> j_run c l2 y = UB -> j_run c (l1 ++ l2) x = UB).
  { induction l1 as [|a l1 IH]; intros l2 x y t E1 E2; cbn [app j_run] in *; [injection E1 as <- <-; exact E2|]. destruct (j_act c a x) as [[x1 t1]| |]; cbn [bind] in *; try discriminate.
    destruct (j_run c l1 x1) as [[x2 t2]| |] eqn:E3; cbn [bind] in *; try discriminate. injection E1 as <- <-. now rewrite (IH _ _ _ _ E3 E2). }
  rewrite app_assoc. eapply Split; [exact X|]. do 15 (destruct n as [|n]; [reflexivity|]). lia.
Qed.
Print Assumptions C102_refuted_pause.
Example C102_case : exists x t, j_run xcfg (repeat WMain 8 ++ [WTick; WUsart; WTimer; WShift] ++ repeat WMain 9 ++ [WTick] ++ repeat WMain 9) (m_power_on xcfg) = Ok (x, t) /\ j_pc x = None /\ j_timer x = 298 /\ length t = 2%nat.
Proof. do 2 eexists. split; [vm_compute; reflexivity|]. split; [reflexivity|]. split; reflexivity. Qed.

(** *** C103: initialisation of a running master *)
(** the main program is outside of the library and the driver *)
Definition m_outside (w : mfw) : Prop := mc_pc (w_lib w) = None /\ w_sub w = None.
(** no undefined behaviour during the call, from every history (of those of C68) and with every schedule *)
Theorem C103_no_ub_partial : forall c w0 sched0 w t0 timer sched, cfg_master_ok c -> mfw_started c w0 -> w_reqs_safe sched0 -> m_send_undisturbed c w0 sched0 -> no_early_rx c w0 sched0 ->
  w_run c sched0 w0 = Ok (w, t0) -> m_outside w -> has_buffer w sched ->
  exists x t, j_run c sched (m_call_again w timer) = Ok (x, t) /\ ((22 <= w_mains sched)%nat -> j_pc x = None).
Proof.
  intros c w0 sched0 w t0 timer sched Hc H0 HR HU HN R (P & Su) B.
  assert (I := ci_inv _ _ _ _ (mfw_cinv _ _ _ _ _ Hc H0 HR R)). assert (W := wire_run _ _ Hc H0 _ _ _ HR HU R). assert (G := given_run _ _ H0 _ _ _ HN R).
  destruct (jinv_run c sched Hc (m_call_again w timer)) as (x & t & E & _ & N).
  - assert (I' := I). destruct I' as (f1 & f2 & f3 & f4 & f5 & Mi). assert (Mb := iv_buf _ _ _ _ _ _ _ _ _ Mi). destruct Mb as [B1 B2 B3 B4 _ _ _ _ B9 _].
    split; [|reflexivity| |exact G|exact Logic.I].
    + split; [exact B3|exact B4|exact (rep_slots _ _ _ B1)|exact (rep_slots _ _ _ B2)|exact B9].
    + eapply wire_fetch; eauto.
  - destruct B as [B|B]; auto.
  - exists x, t. split; [exact E|]. intros M. apply jnum_none. rewrite N. cbn [m_call_again j_pc jnum]. lia.
Qed.
Print Assumptions C103_no_ub_partial.
(** while the driver is at rest and nothing is received: the result is a started, resting firmware; requests that were pending are forgotten *)
Theorem C103_driver_at_rest : forall c sched0 w t0 timer sched, cfg_master_ok c -> w_history c sched0 w t0 -> m_outside w -> driver_rests w -> 0 <= timer -> m_silent sched = true -> (22 <= w_mains sched)%nat ->
  exists x t, j_run c sched (m_call_again w timer) = Ok (x, t) /\ j_pc x = None /\ m_on_line t = [] /\ visible (m_lib_of t) = [] /\
    mfw_started c (m_running x) /\ w_rests (m_running x) /\ j_timer x = Z.max 0 (timer - Z.of_nat (w_ticks sched)).
Proof.
  intros c sched0 w t0 timer sched Hc (w0 & H0 & HR & R) (P & Su) (_ & D1 & D2 & D3 & D4 & D5 & D6 & D7 & D8) G Q M.
  assert (I := ci_inv _ _ _ _ (mfw_cinv _ _ _ _ _ Hc H0 HR R)). destruct I as (f1 & f2 & f3 & f4 & f5 & Mi). assert (Mb := iv_buf _ _ _ _ _ _ _ _ _ Mi). destruct Mb as [B1 B2 B3 B4 _ _ _ _ B9 _].
  assert (Mem : master_memory_ok c (mc_s (w_lib w))).
  { split; [exact B3|]. split; [|split; [exact (rep_slots _ _ _ B1)|split; [exact (rep_slots _ _ _ B2)|exact B9]]]. eapply Forall_impl; [|exact B4]. intros m [(_ & A1 & A2 & A3) (_ & A4 & A5 & A6)]. split; split; auto. }
  destruct (init_char c _ Hc Mem) as (s & E & Ch). assert (Ti : mm_timer s = 0) by apply Ch.
  destruct (silent_init c (m_call_again w timer) s sched eq_refl E) as (t & Rn & O & V); auto; [cbn; repeat split; auto|].
  eexists. exists t. split; [exact Rn|]. split; [reflexivity|]. split; [exact O|]. split; [exact V|].
  unfold m_running. cbn [wt j_lib j_u j_timer j_done m_call_again]. rewrite (timer_self _ Ti).
  destruct Ch as (_ & _ & _ & C1 & _ & _ & _ & _ & C2 & F1 & F2 & F3 & F4 & F5).
  split; [|split; [|reflexivity]].
  - split; [exists (mc_s (w_lib w)); auto|]. split; [reflexivity|]. unfold tx_idle. cbn. split; [auto|]. intros H. congruence.
  - split; [split; [reflexivity|exact C1]|]. split; [repeat split; assumption|]. unfold driver_rests. cbn. auto 10.
Qed.
Print Assumptions C103_driver_at_rest.
(** what happens later is a history of its own: all theorems about histories apply; for example, only requests made since the call appear on the line *)
Theorem C103_forgets : forall c sched0 w t0 timer sched x t later w' t', cfg_master_ok c -> w_history c sched0 w t0 -> m_outside w -> driver_rests w -> 0 <= timer -> m_silent sched = true -> (22 <= w_mains sched)%nat ->
  j_run c sched (m_call_again w timer) = Ok (x, t) -> w_reqs_safe later -> m_send_undisturbed c (m_running x) later -> w_run c later (m_running x) = Ok (w', t') ->
  w_history c later w' t' /\
  exists (l : list (api * nat)) rest missing,
    m_on_line t' ++ missing = concat (flat_map (fun p => repeat (request_frame (fst p)) (snd p)) l) /\ accepted (m_lib_of t') = map fst l ++ rest /\
    Forall (fun p => (1 <= snd p)%nat /\ Z.of_nat (snd p) <= 1 + c_repeat c) l.
Proof.
  intros c sched0 w t0 timer sched x t later w' t' Hc H O D G Q M R HR HU R2. destruct (C103_driver_at_rest c sched0 w t0 timer sched Hc H O D G Q M) as (x' & t1 & R' & _ & _ & _ & St & _).
  rewrite R in R'. injection R' as <- <-. split; [exists (m_running x); auto|]. exact (C70_only_requests_partial _ _ _ _ _ Hc St HR HU R2).
Qed.
Print Assumptions C103_forgets.
(** not so while a request is being transmitted: the driver goes on with it, in a buffer that a new request is written to.  Here the line carries three bytes of the first
    request, a fourth, then bytes of the second request from the same position on, then the second request: the slave sees none of them. *)
Definition r2 : api := WriteSingleReg 5 7 513.
Theorem C103_refuted_transmitting : exists sched0 w t0 x t later w' t', w_run mcfg sched0 w0 = Ok (w, t0) /\ m_outside w /\ j_run mcfg (repeat WMain 22) (m_call_again w 0) = Ok (x, t) /\ j_pc x = None /\
  w_run mcfg later (m_running x) = Ok (w', t') /\ accepted (m_lib_of t') = [r2] /\ request_frame r2 = [7; 6; 0; 5; 2; 1; 89; 13] /\
  m_on_line t0 = [9; 3; 0] /\ m_on_line t' = [1; 2; 1; 89; 13; 7; 6; 0; 5; 2; 1; 89; 13].
Proof.
  exists ([WReq rh] ++ wmains 14 ++ w_out 3). do 4 eexists. exists ([WReq r2] ++ w_out 6 ++ wmains 14 ++ w_out 12). do 2 eexists.
  split; [vm_compute; reflexivity|]. split; [split; reflexivity|]. split; [vm_compute; reflexivity|]. split; [reflexivity|]. split; [vm_compute; reflexivity|].
  split; [vm_compute; reflexivity|]. split; [vm_compute; reflexivity|]. split; vm_compute; reflexivity.
Qed.
Print Assumptions C103_refuted_transmitting.
(** a master that waits for an answer, another request pending: the hypotheses of C103 *)
Definition waiting_sched : list wact := [WReq rh; WReq r2] ++ wmains 14 ++ w_out 8 ++ wmains 8.
Example C103_case : exists w t0, w_run mcfg waiting_sched w0 = Ok (w, t0) /\ m_outside w /\ driver_rests w /\ mm_st (mc_s (w_lib w)) = M_RESP_WAITING /\ accepted (m_lib_of t0) = [rh; r2] /\
  has_buffer w [WRx 5; WUsart; WRto] /\ m_send_undisturbed mcfg w0 waiting_sched /\ no_early_rx mcfg w0 waiting_sched.
Proof.
  do 2 eexists. split; [vm_compute; reflexivity|]. split; [split; reflexivity|]. split; [unfold driver_rests; cbn; repeat split; discriminate|]. split; [reflexivity|]. split; [vm_compute; reflexivity|].
  split; [right; discriminate|]. split; [apply undisturbed_check; vm_compute; reflexivity|apply listens_check; vm_compute; reflexivity].
Qed.
