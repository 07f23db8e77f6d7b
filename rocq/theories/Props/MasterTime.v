(** C23-C25, C29, C30: waiting for responses. *)
From Verif Require Import Props.Frames Props.MasterRun.
From Verif Require Import Proofs.MasterIdle.

Lemma timeout_u32 c : 2 <= c_timeout c < 4294967296 -> u32 (c_timeout c) = c_timeout c.
Proof. intros H. unfold u32. apply Z.mod_small. lia. Qed.

(** *** C23 *)
(** While the master waits (nothing received yet), any number of frames from elsewhere arrive, in time: nothing visible happens, the
    master still waits, the timer has only lost the ticks, and the response buffer is empty again. *)
Theorem C23_foreign_ignored : forall c sched k t a n gs, cfg_master_ok c -> m_history c sched k t -> current t = Some a -> awaits k n -> m_received t = [] ->
  Forall (stray_ok (api_id a)) gs -> reqs_safe (concat (map stray_sched gs)) -> 2 + sched_ticks (concat (map stray_sched gs)) <= n ->
  exists k' o, m_run c (concat (map stray_sched gs)) k = Ok (k', o) /\ visible o = [] /\ current (t ++ o) = Some a /\
    awaits k' (n - sched_ticks (concat (map stray_sched gs))) /\ m_received (t ++ o) = [] /\ response_len k' = Some 0.
Proof.
  intros c sched k t a n gs Hc H Cu Aw Rx Hg HS Tm. assert (I := history_cinv _ _ _ _ Hc H). destruct Aw as [W [T15 Ti]]. remember (sched_ticks (concat (map stray_sched gs))) as d eqn:Ed.
  destruct (strays c a (finished t) (visible t) (mm_crc (mc_s k)) (mm_rep (mc_s k)) Hc gs (n - d) t k) as (k' & o & R & I' & B & _ & Ti' & L' & T' & Rx'); auto; try lia.
  - apply base_now; auto.
  - split; auto.
  - apply (awaits_loc k n). split; auto.
  - exists k', o. split; auto. destruct B as (B1 & B2 & B3). rewrite visible_app in B3. split; [apply (app_inv_head (visible t)); rewrite B3, app_nil_r; auto|]. split; auto. split; [apply awaits_of; auto|]. split; auto.
    assert (X := ci_rx _ _ _ _ I'). destruct X as (i & m & C & N & Y); [destruct (mloc k'); try discriminate L'; reflexivity|]. unfold response_len. rewrite C, N. rewrite Rx' in Y. destruct Y as [Y _]. rewrite Y. reflexivity.
Qed.
Print Assumptions C23_foreign_ignored.

(** *** C24 *)
(** The timer shows [n] and no 1.5-character event is pending: nothing is visible during the next [n]-2 ticks, whatever happens
    except a 1.5-character event (and however the master is polled); after one more tick the next poll reports the timeout
    (slave ID, address, quantity of the request), once, and the master is idle again with the buffer freed. *)
Theorem C24_reported_in_time : forall c sched k t a n u v, cfg_master_ok c -> m_history c sched k t -> current t = Some a -> awaits k n -> 2 <= n ->
  reqs_safe (u ++ MEv MTick :: v) -> ~ In MT15 (m_events u) -> sched_ticks u = n - 2 -> (forall e, In e (m_events v) -> e <> MTick /\ e <> MT15) -> (9 <= m_steps v)%nat ->
  exists k1 o1, m_run c u k = Ok (k1, o1) /\ visible o1 = [] /\ awaits k1 2 /\
  exists v1 v2 k2 o2 r, v = v1 ++ v2 /\ m_run c (MEv MTick :: v1) k1 = Ok (k2, o2) /\ visible o2 = [VCb (TimeoutErr r); VFree] /\ timeout_report_of a r /\ idle k2.
Proof.
  intros c sched k t a n u v Hc H Cu Aw Hn HS N15 Tk HE W. assert (I := history_cinv _ _ _ _ Hc H).
  destruct (wait_report c Hc a (finished t) (visible t) n u v t k) as (k1 & o1 & R1 & B1 & Aw1 & v1 & v2 & k2 & o2 & Ev & R2 & I2 & Q2 & L2 & P2); auto; try apply Aw.
  { apply base_now; auto. } { eapply awaits_loc; eauto. }
  exists k1, o1. split; auto. destruct B1 as (B1 & B2 & B3). rewrite visible_app in B3. assert (V1 : visible o1 = []) by (apply (app_inv_head (visible t)); rewrite B3, app_nil_r; auto). split; auto. split; auto.
  destruct Q2 as [_ Q2]. rewrite L2 in Q2. destruct Q2 as (r & Tr & Fi & Vi). exists v1, v2, k2, o2, r. split; auto. split; auto. split; [|split; auto; apply idle_of; auto].
  rewrite !visible_app, V1 in Vi. exact (app_inv_head _ _ _ Vi).
Qed.
Print Assumptions C24_reported_in_time.
(** the same from the end of the transmission: the driver signals completion, the master gets to waiting ([x]), then as above *)
Theorem C24_from_transmission : forall c sched k t a x u v, cfg_master_ok c -> 2 <= c_timeout c < 4294967296 -> m_history c sched k t -> current t = Some a -> transmits k -> mm_t15 (mc_s k) = CLEARED ->
  reqs_safe (x ++ u ++ MEv MTick :: v) -> (forall e, In e (m_events x) -> calm e /\ e <> MTick) -> (7 <= m_steps x)%nat ->
  ~ In MT15 (m_events u) -> sched_ticks u = c_timeout c - 2 -> (forall e, In e (m_events v) -> e <> MTick /\ e <> MT15) -> (9 <= m_steps v)%nat ->
  exists k1 o1, m_run c (MEv MTxDone :: x ++ u) k = Ok (k1, o1) /\ visible o1 = [] /\
  exists v1 v2 k2 o2 r, v = v1 ++ v2 /\ m_run c (MEv MTick :: v1) k1 = Ok (k2, o2) /\ visible o2 = [VCb (TimeoutErr r); VFree] /\ timeout_report_of a r /\ idle k2.
Proof.
  intros c sched k t a x u v Hc HT H Cu Tr T15 HS HX WX N15 Tk HE W. assert (I := history_cinv _ _ _ _ Hc H). apply reqs_app in HS as [HS1 HS2].
  assert (HS1' : reqs_safe (MEv MTxDone :: x)) by (intros b [Hb|Hb]; [discriminate Hb|auto]).
  destruct (tx_exact c Hc a (finished t) (visible t) x t k) as (k1 & o1 & R1 & I1 & B1 & Aw1 & _); auto.
  { apply base_now; auto. } { left. apply transmits_loc; auto. } { rewrite timeout_u32; lia. }
  rewrite timeout_u32 in Aw1 by lia. destruct B1 as (B1 & B2 & B3). rewrite visible_app in B3. assert (V1 : visible o1 = []) by (apply (app_inv_head (visible t)); rewrite B3, app_nil_r; auto).
  destruct (C24_reported_in_time c (sched ++ MEv MTxDone :: x) k1 (t ++ o1) a (c_timeout c) u v) as (k2 & o2 & R2 & V2 & _ & E); auto; [|lia|].
  { eapply hist_more; eauto. }
  exists k2, (o1 ++ o2). rewrite visible_app, V1, V2. split; [|auto]. change (MEv MTxDone :: x ++ u) with ((MEv MTxDone :: x) ++ u). rewrite m_run_app, R1. cbn [bind]. rewrite R2. reflexivity.
Qed.
Print Assumptions C24_from_transmission.

(** *** C25 *)
(** C25 is false, in every waiting state: if the remaining ticks all occur between two polls, the timer reaches 0 unseen, and
    then no number of polls, ticks, calls or other events (short of a reception) ever reports anything. *)
Theorem C25_refuted : forall c sched k t a n v, cfg_master_ok c -> m_history c sched k t -> current t = Some a -> awaits k (Z.of_nat n) ->
  reqs_safe v -> ~ In MT15 (m_events v) ->
  exists k' o, m_run c (repeat (MEv MTick) n ++ v) k = Ok (k', o) /\ visible o = [] /\ awaits k' 0.
Proof.
  intros c sched k t a n v Hc H Cu Aw HS N15. assert (I := history_cinv _ _ _ _ Hc H).
  destruct (run_out c a (finished t) (visible t) Hc n t k) as (k1 & o1 & R1 & I1 & B1 & L1 & T1 & Tm1); auto; try apply Aw.
  { apply base_now; auto. } { eapply awaits_loc; eauto. }
  destruct (stuck_wait c Hc a (finished t) (visible t) v (t ++ o1) k1) as (k2 & o2 & R2 & I2 & (B2 & _ & T2 & Tm2 & L2)); auto. { split; auto. }
  exists k2, (o1 ++ o2). split; [rewrite m_run_app, R1; cbn [bind]; rewrite R2; reflexivity|]. split; [|apply awaits_of; auto].
  destruct B2 as (_ & _ & B2). rewrite <- app_assoc, visible_app in B2. apply (app_inv_head (visible t)). rewrite B2, app_nil_r. auto.
Qed.
Print Assumptions C25_refuted.
(** What holds: if one poll completes between any two ticks, the timeout is reported (and the request finished) by the last of
    [n]-1 ticks.  Missing: schedules with several ticks between two polls. *)
Theorem C25_polled_every_tick_partial : forall c sched k t a n bs, cfg_master_ok c -> m_history c sched k t -> current t = Some a -> awaits k n -> 2 <= n ->
  Forall polled_tick bs -> Z.of_nat (length bs) = n - 1 -> reqs_safe (concat bs) ->
  exists s1 s2 k' o r, concat bs = s1 ++ s2 /\ m_run c s1 k = Ok (k', o) /\ visible o = [VCb (TimeoutErr r); VFree] /\ timeout_report_of a r /\ idle k'.
Proof.
  intros c sched k t a n bs Hc H Cu Aw Hn Hb Ln HS. destruct (@exists_last _ bs) as (us & (b & ->)); [intros ->; cbn in Ln; lia|].
  apply Forall_app in Hb as [Hu Hb]. inversion Hb as [|? ? (v & -> & W & HE) _]; subst. rewrite concat_app in *. cbn [concat] in *. rewrite app_nil_r in *. rewrite app_length in Ln. cbn [length] in Ln.
  assert (X : ~ In MT15 (m_events (concat us)) /\ sched_ticks (concat us) = Z.of_nat (length us)).
  { clear - Hu. induction Hu as [|x us (b & -> & _ & Hx) Hu [IH1 IH2]]; [split; [intros []|reflexivity]|]. cbn [concat]. unfold sched_ticks in *. rewrite m_events_app, ticks_app. cbn [m_events ticks length].
    assert (NT : ticks (m_events b) = 0%nat /\ ~ In MT15 (m_events b)). { clear - Hx. induction (m_events b) as [|e l IH]; [auto|]. destruct IH as [IH1 IH2]; [intros; apply Hx; right; auto|]. destruct (Hx e (or_introl eq_refl)). split; [destruct e; auto; congruence|]. intros [Z|Z]; congruence. }
    destruct NT as [NT N15]. split; [|lia]. intros [Z|Z]; [discriminate|]. apply in_app_or in Z as [Z|Z]; auto. }
  destruct X as [N15 Tk].
  destruct (C24_reported_in_time c sched k t a n (concat us) v) as (k1 & o1 & R1 & V1 & _ & v1 & v2 & k2 & o2 & r & -> & R2 & V2 & Tr & Id); auto; [lia|].
  exists (concat us ++ MEv MTick :: v1), v2, k2, (o1 ++ o2), r. split; [rewrite <- app_assoc; reflexivity|]. split; [rewrite m_run_app, R1; cbn [bind]; rewrite R2; reflexivity|]. rewrite visible_app, V1, V2. auto.
Qed.
Print Assumptions C25_polled_every_tick_partial.

(** *** concrete cases *)
Definition waiting_sched : list mact := ask rh ++ msteps 8 ++ [MEv MTxDone] ++ msteps 8.
Definition wait_k : mconf := fst (run_of waiting_sched).
Definition wait_t : list mitem := snd (run_of waiting_sched).
Lemma waiting_history : m_history mcfg waiting_sched wait_k wait_t.
Proof.
  exists m0. split; [apply m0_started|]. split; [apply reqs_safe_app; [apply ask_safe, rh_safe|apply req_free_safe; vm_compute; reflexivity]|vm_compute; reflexivity].
Qed.
Lemma wait_awaits : awaits wait_k 4 /\ current wait_t = Some rh /\ m_received wait_t = [].
Proof. split; [|split; vm_compute; reflexivity]. split; [|split; vm_compute; reflexivity]. right; left; vm_compute; reflexivity. Qed.
Definition other : stray := mk_stray (mfeed [7; 3; 2; 0; 1] ++ MEv MTick :: msteps 3 ++ [MEv MFrameErr]) (MStep :: MEv MT35 :: MEv (MReq rh) :: msteps 12).
Example C23_case : m_history mcfg waiting_sched wait_k wait_t /\ current wait_t = Some rh /\ awaits wait_k 4 /\ m_received wait_t = [] /\ Forall (stray_ok (api_id rh)) [other; other] /\
  reqs_safe (concat (map stray_sched [other; other])) /\ 2 + sched_ticks (concat (map stray_sched [other; other])) <= 4.
Proof.
  split; [apply waiting_history|]. destruct wait_awaits as (A & B & C). split; auto. split; auto. split; auto.
  assert (X : stray_ok (api_id rh) other).
  { constructor; [vm_compute; intuition discriminate|vm_compute; discriminate|vm_compute; discriminate|vm_compute; lia| |vm_compute; lia]. intros e He. vm_compute in He. destruct He as [<-|[<-|[]]]; exact I. }
  split; [auto|]. split; [|vm_compute; discriminate]. intros x Hx. vm_compute in Hx. repeat (destruct Hx as [Hx|Hx]; [try discriminate Hx; inversion Hx; apply rh_safe|]). destruct Hx.
Qed.
Definition slow : list mact := MEv MTick :: msteps 7 ++ ask rh ++ MEv MTick :: msteps 3 ++ mfeed [1].
Example C24_case : m_history mcfg waiting_sched wait_k wait_t /\ current wait_t = Some rh /\ awaits wait_k 4 /\ reqs_safe (slow ++ MEv MTick :: msteps 9) /\ ~ In MT15 (m_events slow) /\
  sched_ticks slow = 4 - 2 /\ (9 <= m_steps (msteps 9))%nat.
Proof.
  split; [apply waiting_history|]. destruct wait_awaits as (A & B & C). split; auto. split; auto. split; [|split; [vm_compute; intuition discriminate|split; [reflexivity|vm_compute; lia]]].
  intros x Hx. vm_compute in Hx. repeat (destruct Hx as [Hx|Hx]; [try discriminate Hx; inversion Hx; apply rh_safe|]). destruct Hx.
Qed.
Example C25_case : awaits wait_k (Z.of_nat 4) /\ Forall polled_tick (repeat (MEv MTick :: msteps 9) 3) /\ Z.of_nat (length (repeat (MEv MTick :: msteps 9) 3)) = 4 - 1.
Proof. split; [apply wait_awaits|]. split; [|reflexivity]. repeat constructor; exists (msteps 9); (split; [reflexivity|]; split; [vm_compute; lia|intros e []]). Qed.

(** *** C29 *)
(** C29 is false.  A master with one message buffer completes a transaction; then, while it is idle, a 1.5-character event of other
    traffic occurs; then the application's next request is transmitted.  Its response is never waited for: without another
    3.5-character event nothing is ever reported, however often the master is polled, ticked and called. *)
Definition late_sched : list mact := transact rh rh_answer ++ [MEv MT15] ++ ask rh ++ msteps 8 ++ [MEv MTxDone] ++ msteps 20.
Definition late_run : mconf * list mitem := match m_run cfg1 late_sched (mk_mconf s1 None) with Ok x => x | _ => (mk_mconf s1 None, []) end.
Lemma late_history : m_history cfg1 late_sched (fst late_run) (snd late_run).
Proof.
  exists s1. split; [apply s1_started|]. split; [|vm_compute; reflexivity].
  intros x Hx. vm_compute in Hx. repeat (destruct Hx as [Hx|Hx]; [try discriminate Hx; inversion Hx; apply rh_safe|]). destruct Hx.
Qed.
Theorem C29_refuted : exists k t, m_history cfg1 late_sched k t /\ accepted t = [rh; rh] /\
  visible t = [VSend (request_frame rh); VCb (HregRead 9 1 0x1234); VCb (HregRead 9 2 0xABCD); VFree; VSend (request_frame rh)] /\
  forall v, reqs_safe v -> ~ In MT35 (m_events v) -> exists k' o, m_run cfg1 v k = Ok (k', o) /\ visible o = [].
Proof.
  exists (fst late_run), (snd late_run). split; [apply late_history|]. split; [vm_compute; reflexivity|]. split; [vm_compute; reflexivity|].
  intros v HS N35. assert (I := history_cinv _ _ _ _ cfg1_ok late_history).
  destruct (stuck_rx cfg1 cfg1_ok rh (finished (snd late_run)) (visible (snd late_run)) v (snd late_run) (fst late_run)) as (k' & o & R & _ & ((_ & _ & B) & _)); auto.
  { split; [apply base_now; vm_compute; reflexivity|]. split; [auto|]. split; vm_compute; reflexivity. }
  exists k', o. split; auto. rewrite visible_app in B. apply (app_inv_head (visible (snd late_run))). rewrite B, app_nil_r. auto.
Qed.
Print Assumptions C29_refuted.
(** What holds: if the response buffer of the request does not begin with the slave's ID (it has been used for another slave, or
    never), a left-over 1.5-character event costs nothing: the empty reception is discarded, and the master waits with the full
    timeout, from where C24 and C31 go on.  Missing: a buffer last used for a response of the same slave. *)
Theorem C29_discarded_partial : forall c sched k t a x, cfg_master_ok c -> 2 <= c_timeout c < 4294967296 -> m_history c sched k t -> current t = Some a -> transmits k -> mm_t15 (mc_s k) = SET ->
  response_byte0 k <> Some (api_id a) -> reqs_safe x -> (forall e, In e (m_events x) -> quiet_line e /\ e <> MTick) -> (20 <= m_steps x)%nat ->
  exists k' o, m_run c (MEv MTxDone :: x) k = Ok (k', o) /\ visible o = [] /\ current (t ++ o) = Some a /\ awaits k' (c_timeout c) /\ m_received (t ++ o) = [] /\ response_len k' = Some 0.
Proof.
  intros c sched k t a x Hc HT H Cu Tr T15 Fo HS HE W. assert (I := history_cinv _ _ _ _ Hc H). assert (L := transmits_loc _ Tr).
  destruct (steps_split x 7 13 W) as (x1 & x2 & -> & W1 & W2).
  destruct (stale_discarded c Hc a (finished t) (visible t) (mm_crc (mc_s k)) (mm_rep (mc_s k)) x1 x2 t k) as (k' & o & R & I' & B & _ & Aw & Rx); auto.
  { intros b [Hb|Hb]; [discriminate Hb|auto]. } { apply base_now; auto. } { split; auto. }
  { destruct (Minv_current _ _ _ _ (ci_inv _ _ _ _ I)) as (i & a' & m & C & _ & N & _); [rewrite L; reflexivity|]. exists i, m. split; auto. split; auto. intros Z. apply Fo. unfold response_byte0. rewrite C, N, Z. auto. }
  { rewrite timeout_u32; lia. }
  rewrite timeout_u32 in Aw by lia. exists k', o. split; auto. destruct B as (B1 & B2 & B3). rewrite visible_app in B3. split; [apply (app_inv_head (visible t)); rewrite B3, app_nil_r; auto|]. split; auto. split; auto. split; auto.
  assert (X := ci_rx _ _ _ _ I'). assert (L' := awaits_loc _ _ Aw). destruct X as (i & m & C & N & Y); [destruct (mloc k'); try discriminate L'; reflexivity|]. unfold response_len. rewrite C, N. rewrite Rx in Y. destruct Y as [Y _]. rewrite Y. reflexivity.
Qed.
Print Assumptions C29_discarded_partial.
Definition stale_sched : list mact := [MEv MT15] ++ ask rh ++ msteps 7.
Example C29_case : m_history mcfg stale_sched (fst (run_of stale_sched)) (snd (run_of stale_sched)) /\ current (snd (run_of stale_sched)) = Some rh /\
  transmits (fst (run_of stale_sched)) /\ mm_t15 (mc_s (fst (run_of stale_sched))) = SET /\ response_byte0 (fst (run_of stale_sched)) = Some 0 /\ api_id rh = 9.
Proof.
  split. { exists m0. split; [apply m0_started|]. split; [|vm_compute; reflexivity]. intros x Hx. vm_compute in Hx. repeat (destruct Hx as [Hx|Hx]; [try discriminate Hx; inversion Hx; apply rh_safe|]). destruct Hx. }
  split; [vm_compute; reflexivity|]. split; [split; vm_compute; reflexivity|]. vm_compute. auto.
Qed.

(** *** C30 *)
(** The idle master without a pending 1.5-character event and without further calls: every pending request is transmitted once and
    reported as timed out, in order; afterwards nothing is pending, and all message buffers are free (except those lost to earlier
    calls with a wrong quantity, see C10). *)
Theorem C30_drains : forall c sched k t zs, cfg_master_ok c -> 2 <= c_timeout c < 4294967296 -> m_history c sched k t -> idle k -> mm_t15 (mc_s k) = CLEARED ->
  Forall (silent_ok (c_timeout c)) zs -> length zs = length (pending_reqs t) -> no_calls (concat (map silent_sched zs)) ->
  exists k' o reps, m_run c (concat (map silent_sched zs)) k = Ok (k', o) /\ Forall2 timeout_report_of (pending_reqs t) reps /\
    visible o = concat (map (fun p => [VSend (request_frame (fst p)); VCb (TimeoutErr (snd p)); VFree]) (combine (pending_reqs t) reps)) /\
    pending_reqs (t ++ o) = [] /\ in_flight k' = [] /\ waiting c (mc_s k') = [] /\ (length (free_bufs c (mc_s k')) + pdu_errors t)%nat = Z.to_nat (c_queue c).
Proof.
  intros c sched k t zs Hc HT H Id T15 Hz Ln NC. assert (I := history_cinv _ _ _ _ Hc H). assert (Sf := no_calls_safe _ NC). rewrite <- (timeout_u32 c) in Hz by lia.
  destruct (silent_all c Hc ltac:(rewrite timeout_u32; lia) zs (pending_reqs t) [] [] t k) as (s1 & s2 & k1 & o1 & reps & E1 & Se1 & R1 & I1 & L1 & P1 & F1 & Rp1 & V1); auto.
  { intros e []. } { apply idle_loc; auto. } { apply Id. } { rewrite app_nil_r. auto. }
  cbn [app] in E1. rewrite E1 in NC, Sf. apply no_calls_app in NC as [NC1 NC2]. apply reqs_app in Sf as [Sf1 Sf2]. destruct (calls_none _ _ _ _ _ NC1 R1) as [A1 Pe1].
  assert (Pd : pending_reqs (t ++ o1) = []).
  { unfold pending_reqs in *. rewrite accepted_app, finished_app, A1, app_nil_r, F1, skipn_length. apply skipn_all2. lia. }
  destruct (stay_idle c (visible (t ++ o1)) (finished (t ++ o1)) (pdu_errors (t ++ o1)) s2 (t ++ o1) k1) as (k2 & o2 & R2 & I2 & (L2 & Vi2 & Fi2 & Pd2 & Pe2 & _)); auto.
  { unfold Qi. repeat (split; [solve [auto]|]). exact NC2. }
  assert (R : m_run c (s1 ++ s2) k = Ok (k2, o1 ++ o2)) by (rewrite m_run_app, R1; cbn [bind]; rewrite R2; reflexivity).
  assert (H2 : m_history c (sched ++ s1 ++ s2) k2 (t ++ o1 ++ o2)) by (eapply hist_more; eauto; apply reqs_safe_app; auto).
  rewrite <- app_assoc in Vi2, Fi2, Pd2, Pe2, I2. exists k2, (o1 ++ o2), reps. rewrite E1. split; auto. split; auto.
  split. { rewrite visible_app in Vi2. rewrite visible_app in Vi2. rewrite (visible_app t o1) in Vi2. apply app_inv_head in Vi2. rewrite visible_app, Vi2. exact V1. }
  split; auto. assert (Bz : in_flight k2 = []). { unfold in_flight. replace (busy k2) with false; auto. unfold mloc, m_dispatch in L2. unfold busy. destruct (mc_pc k2) as [[]|]; auto; try discriminate L2. destruct (mm_st (mc_s k2)); auto; discriminate L2. }
  split; auto. destruct (C19_buffers c _ k2 _ Hc H2) as (_ & _ & N).
  assert (W : waiting c (mc_s k2) = []).
  { destruct (ci_inv _ _ _ _ I2) as (free & pend & apis & eps & v & [K B Rq Ac Vi Ep Pa Fi Cn]). unfold waiting. rewrite (rep_queue_list _ _ _ (mb_pend _ _ _ _ _ B)).
    unfold pending_reqs in Pd2. rewrite Ac, Fi, skipn_app, map_length, Nat.sub_diag in Pd2. apply app_eq_nil in Pd2 as [_ Pd2]. cbn [skipn] in Pd2. subst apis.
    rewrite L2 in Rq. unfold fly in Rq. cbn [fly_line app] in Rq. inversion Rq; auto. }
  split; auto. rewrite Bz, W in N. cbn [length plus] in N. rewrite Pe2, pdu_errors_app, Pe1, Nat.add_0_r in N. exact N.
Qed.
Print Assumptions C30_drains.
Definition quiet_try : silent := mk_silent (msteps 8) (msteps 8) [MEv MTick; MStep; MEv MTick] (msteps 12).
Definition three : list mact := ask rh ++ ask (WriteSingleCoil 5 7 true) ++ ask rh.
Example C30_case : m_history mcfg three (fst (run_of three)) (snd (run_of three)) /\ idle (fst (run_of three)) /\ mm_t15 (mc_s (fst (run_of three))) = CLEARED /\
  pending_reqs (snd (run_of three)) = [rh; WriteSingleCoil 5 7 true; rh] /\ Forall (silent_ok (c_timeout mcfg)) (repeat quiet_try 3) /\ no_calls (concat (map silent_sched (repeat quiet_try 3))).
Proof.
  split. { exists m0. split; [apply m0_started|]. split; [|vm_compute; reflexivity]. intros b Hb. vm_compute in Hb. repeat (destruct Hb as [Hb|Hb]; [inversion Hb; first [apply rh_safe|split; [unfold api_typed, byte, word; cbn; repeat split; lia|intros; exact I]]|]). destruct Hb. }
  split; [split; vm_compute; reflexivity|]. split; [vm_compute; reflexivity|]. split; [vm_compute; reflexivity|]. split.
  - assert (silent_ok (c_timeout mcfg) quiet_try); [|apply Forall_forall; intros x Hx; apply repeat_spec in Hx; rewrite Hx; auto]. constructor; try (vm_compute; lia); try reflexivity; intros e He; vm_compute in He; try (destruct He; fail). destruct He as [<-|[<-|[]]]; exact I.
  - intros a Ha. vm_compute in Ha. intuition discriminate.
Qed.
