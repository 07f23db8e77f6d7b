(** C38-C41, C43, C44, C46, C47, C50, C55, C57, C58, C60 (slave): the slave's state machine under every schedule of
    executed lines and interrupts. *)
From Verif Require Import Props.Frames Props.SlavePdu.
From Verif Require Import Proofs.SlaveTraffic.

(** *** initialisation reaches the states the theorems start from *)
(** buffers of the right size, tables matching the configuration *)
Definition slave_memory_ok (c : cfg) (s : slave) : Prop :=
  length (rr_buf (m_req (s_msg s))) = 256%nat /\ bytes (rr_buf (m_req (s_msg s))) /\ byte (rr_len (m_req (s_msg s))) /\
  length (rr_buf (m_resp (s_msg s))) = 256%nat /\ bytes (rr_buf (m_resp (s_msg s))) /\ byte (rr_len (m_resp (s_msg s))) /\
  data_ok c (s_data s).
Lemma init_ready c id s : slave_memory_ok c s -> byte id -> slave_ready c (modbus_slave_init RTU id s).
Proof.
  intros (A1 & A2 & A3 & B1 & B2 & B3 & D) I. unfold slave_ready. cbn. unfold msg_ok, rr_ok. cbn. auto 15.
Qed.
Lemma init_fresh c id s : slave_memory_ok c s -> byte id -> rr_len (m_req (s_msg s)) = 0 -> slave_fresh c (modbus_slave_init RTU id s).
Proof. intros H I L. split; [apply init_ready; auto|]. cbn. auto 10. Qed.
Lemma static_memory_ok c bits regs : cfg_tables_ok c -> Forall word regs -> slave_memory_ok c (slave_static c bits regs).
Proof.
  intros Hc Hr. unfold slave_memory_ok, slave_static. cbn [s_msg s_data m_req m_resp rr_buf rr_len].
  assert (Z256 : bytes (repeat 0 256)) by (apply bytes_dec; reflexivity).
  repeat match goal with |- _ /\ _ => split end; auto; try (unfold byte; lia).
  destruct Hc as (H1 & H2 & H3 & H4).
  assert (TS : forall q, 0 <= q <= 65535 -> Z.of_nat (length (repeat (@None nat) (Z.to_nat (table_size q)))) = q).
  { intros q Hq. rewrite repeat_length. unfold table_size, MODBUS_MAX_SPECIFIC_DATA_ITEMS_QTY. destruct (q <? 65535) eqn:X; lia. }
  assert (TN : forall (q : Z) (A : Type) (cells : list A), ptrs_ok (repeat (@None nat) (Z.to_nat (table_size q))) cells).
  { intros q A cells j x Hj. exfalso. apply nth_error_In, repeat_spec in Hj. discriminate. }
  unfold data_ok. cbn [t_coils t_din t_ireg t_hreg v_bits v_regs].
  repeat match goal with |- _ /\ _ => split end; auto.
Qed.
(** from power-on, initialisation in RTU mode gives a fresh slave *)
Theorem slave_init_is_fresh : forall c bits regs id, cfg_tables_ok c -> Forall word regs -> byte id ->
  slave_fresh c (modbus_slave_init RTU id (slave_static c bits regs)).
Proof. intros. apply init_fresh; auto. apply static_memory_ok; auto. Qed.

Definition sample_slave : slave :=
  mk_slave 9 S_IDLE true true (sample_msg []) CLEARED CLEARED CLEARED CLEARED sample_data true true.
Lemma sample_fresh : slave_fresh sample_cfg sample_slave.
Proof.
  split; [|cbn; auto 10]. unfold slave_ready. cbn [s_drv s_mptr s_sub s_rx s_id s_msg s_data sample_slave].
  repeat match goal with |- _ /\ _ => split end; auto; try (apply sample_msg_ok; [cbn; lia|reflexivity]); try apply sample_data_ok. unfold byte; lia.
Qed.
(** request: read holding registers 1, 2 *)
Definition sample_frame : list Z := rtu_frame 9 [3; 0; 1; 0; 2].
Lemma sample_frame_ok : bytes sample_frame /\ (length sample_frame < 256)%nat /\ intact 9 sample_frame /\ frame_complete sample_frame.
Proof.
  split; [apply bytes_dec; vm_compute; reflexivity|]. split; [vm_compute; lia|]. split.
  - split; [exists (9 :: [3; 0; 1; 0; 2]); reflexivity|reflexivity].
  - split; [vm_compute; lia|]. intros H. exfalso. assert (E : byte_at sample_frame 1 = 3) by (vm_compute; reflexivity). rewrite E in H. lia.
Qed.
Definition feed (f : list Z) : list sact := map (fun b => SEv (SRx b)) f.
Lemma feed_events f : events (feed f) = map SRx f.
Proof. induction f; cbn; [reflexivity|]. now rewrite <- IHf. Qed.
Definition polls (n : nat) : list sact := repeat SStep n.

(** *** C38 *)
(** Whatever happened before: if the next action transmits, or changes the application's data (the application itself
    aside), then the history permits it: the last frame check was given an intact frame with this slave's ID, a
    3.5-character event came after the last answer or drop, no frame error was pending when processing started. *)
Theorem C38_only_intact_requests : forall c s sched k t a k' o, cfg_tables_ok c -> slave_fresh c s ->
  s_run c sched (mk_sconf s None) = Ok (k, t) -> s_act c a k = Ok (k', o) ->
  sent o <> [] \/ (s_data (sc_s k') <> s_data (sc_s k) /\ (forall b r, a <> SEv (SApp b r))) ->
  may_act (s_id s) t.
Proof.
  intros c s sched k t a k' o Hc (R & F1 & F2 & F3 & F4 & F5 & F6) E A H.
  assert (I := sinv_run c (s_id s) sched Hc [] (mk_sconf s None) k t (sinv_start c s R F1 F2 F3 F4 F5) E). cbn [app] in I.
  destruct a as [|e]; cbn [s_act] in A.
  - destruct (sc_pc k) as [l|] eqn:P.
    + destruct (s_line c l (sc_s k)) as [[[l' s'] o']| |] eqn:EL; try discriminate. cbn [bind] in A. inversion A; subst k' o. cbn [sc_s] in H.
      assert (CK := i_chk _ _ _ _ _ I). unfold loc in CK. rewrite P in CK.
      destruct l; line_inv EL; cbn [map sent chk_ok] in *; auto; prj; exfalso; destruct H as [H|[H _]]; congruence.
    + inversion A; subst. cbn [sc_s sent] in H. exfalso. destruct H as [H|[H _]]; congruence.
  - destruct (s_event e (sc_s k)) as [s'| |] eqn:EE; try discriminate. cbn [bind] in A. inversion A; subst k' o. cbn [sc_s sent] in H. exfalso.
    destruct H as [H|[H H2]]; [congruence|]. destruct e; ev_inv EE; prj; try congruence. eapply H2; eauto.
Qed.
Print Assumptions C38_only_intact_requests.
(** and the frame check is given what has been received since reception last started anew *)
Theorem C38_checked_is_received : forall c s sched k t t1 g t2, cfg_tables_ok c -> slave_fresh c s ->
  s_run c sched (mk_sconf s None) = Ok (k, t) -> t = t1 ++ TOut (SoCheck g) :: t2 -> g = buffered (received t1).
Proof.
  intros c s sched k t t1 g t2 Hc (R & F1 & F2 & F3 & F4 & F5 & F6) E Q.
  destruct (rinv_run c sched Hc [] (mk_sconf s None) k t) as (_ & _ & X); auto.
  - split; auto. split; [apply rxb_nil; auto|]. intros ? ? ? W. destruct t0; discriminate.
  - eapply X; eauto.
Qed.
Print Assumptions C38_checked_is_received.
(** the theorem is about something: here the slave executes a write and transmits *)
Example C38_case : exists k t k' o, slave_fresh sample_cfg sample_slave /\
  s_run sample_cfg (feed (rtu_frame 9 [6; 0; 1; 0; 77]) ++ SEv ST15 :: polls 6 ++ SEv ST35 :: polls 4) (mk_sconf sample_slave None) = Ok (k, t) /\
  s_act sample_cfg SStep k = Ok (k', o) /\ s_data (sc_s k') <> s_data (sc_s k).
Proof.
  do 4 eexists. split; [apply sample_fresh|]. split; [vm_compute; reflexivity|]. split; [vm_compute; reflexivity|]. vm_compute. discriminate.
Qed.

(** *** C39 *)
Theorem C39_at_most_one_per_frame : forall c s sched k t, cfg_tables_ok c -> slave_fresh c s ->
  s_run c sched (mk_sconf s None) = Ok (k, t) ->
  (count is_send t <= count is_t15 t)%nat /\ (count is_send t <= count is_t35 t)%nat.
Proof.
  intros c s sched k t Hc (R & F1 & F2 & F3 & F4 & F5 & F6) E.
  assert (I := sinv_run c (s_id s) sched Hc [] (mk_sconf s None) k t (sinv_start c s R F1 F2 F3 F4 F5) E). cbn [app] in I.
  destruct (i_cnt _ _ _ _ _ I) as (N1 & N2 & _). lia.
Qed.
Print Assumptions C39_at_most_one_per_frame.
Lemma tx_after t f t2 : ~ In (TEv STxDone) t2 -> transmitting (t ++ TOut (SoSend f) :: t2) = true.
Proof.
  induction t2 as [|x t2 IH] using rev_ind; intros H.
  - rewrite tx_snoc. reflexivity.
  - rewrite app_comm_cons, app_assoc, tx_snoc, IH.
    + destruct x as [[]|[]]; auto. exfalso. apply H. apply in_or_app. right. left. reflexivity.
    + intros Q. apply H. apply in_or_app. auto.
Qed.
Theorem C39_never_overlapping : forall c s sched k t t1 f t2 g t3, cfg_tables_ok c -> slave_fresh c s ->
  s_run c sched (mk_sconf s None) = Ok (k, t) ->
  t = t1 ++ TOut (SoSend f) :: t2 ++ TOut (SoSend g) :: t3 -> In (TEv STxDone) t2.
Proof.
  intros c s sched k t t1 f t2 g t3 Hc (R & F1 & F2 & F3 & F4 & F5 & F6) E Q.
  assert (I := sinv_run c (s_id s) sched Hc [] (mk_sconf s None) k t (sinv_start c s R F1 F2 F3 F4 F5) E). cbn [app] in I.
  assert (G := i_good _ _ _ _ _ I).
  rewrite app_comm_cons, app_assoc in Q. destruct (G _ _ _ Q) as [_ X]; [right; eauto|]. specialize (X g eq_refl).
  destruct (existsb (fun x => match x with TEv STxDone => true | _ => false end) t2) eqn:W.
  - apply existsb_exists in W as (x & Hx & W). destruct x as [[]|]; try discriminate. exact Hx.
  - rewrite tx_after in X; [discriminate|]. intros Hx. assert (existsb (fun x => match x with TEv STxDone => true | _ => false end) t2 = true) by (apply existsb_exists; eexists; split; [exact Hx|reflexivity]).
    congruence.
Qed.
Print Assumptions C39_never_overlapping.
Example C39_case : exists k t, let sched := feed sample_frame ++ [SEv ST15; SEv ST35] ++ polls 16 ++ SEv STxDone :: polls 5 in
  s_run sample_cfg (sched ++ sched) (mk_sconf sample_slave None) = Ok (k, t) /\ length (sent t) = 2%nat.
Proof. do 2 eexists. split; vm_compute; reflexivity. Qed.

(** *** C40 *)
(** one intact request, every interleaving *)
Theorem C40_answered_exactly_once : forall c s f sched, cfg_tables_ok c -> slave_idle c s ->
  bytes f -> (length f < 256)%nat -> intact (s_id s) f -> frame_complete f ->
  reception_of two_polls (map SRx f) sched ->
  exists k t, s_run c sched (mk_sconf s None) = Ok (k, t) /\
    sent t = [rtu_frame (s_id s) (fst (server c (s_data s) f))] /\ s_data (sc_s k) = snd (server c (s_data s) f).
Proof.
  intros c s f sched Hc Hs Hf Lf If Cf (pre & n & -> & Hn & He).
  destruct (good_from_idle c (mk_sconf s None) f pre n [] Hc (idle_start c s Hs) Hf Lf If He Hn) as (k & o & E & S1 & D1 & _).
  cbn [sc_s sent app] in *. exists k, o. split; auto.
  rewrite (server_stale c (s_data s) f (rr_buf (m_req (s_msg s)))) in S1, D1; auto; apply Hs.
Qed.
Print Assumptions C40_answered_exactly_once.
(** without [frame_complete]: the answer still is exactly one frame with this ID and correct CRC, but the missing bytes are
    taken from the buffer's previous contents (see C42) *)
Theorem C40_short_frames : forall c s f sched, cfg_tables_ok c -> slave_idle c s ->
  bytes f -> (length f < 256)%nat -> intact (s_id s) f ->
  reception_of two_polls (map SRx f) sched ->
  exists k t stale, s_run c sched (mk_sconf s None) = Ok (k, t) /\
    sent t = [rtu_frame (s_id s) (fst (server c (s_data s) (f ++ stale)))] /\ s_data (sc_s k) = snd (server c (s_data s) (f ++ stale)).
Proof.
  intros c s f sched Hc Hs Hf Lf If (pre & n & -> & Hn & He).
  destruct (good_from_idle c (mk_sconf s None) f pre n [] Hc (idle_start c s Hs) Hf Lf If He Hn) as (k & o & E & S1 & D1 & _).
  cbn [sc_s sent app] in *. exists k, o. eexists. split; eauto.
Qed.
Print Assumptions C40_short_frames.
(** a whole history of frames, good and bad, in order *)
Theorem C40_every_request_of_a_session : forall c s sched out d', cfg_tables_ok c -> slave_idle c s ->
  traffic c (s_id s) (s_data s) sched out d' ->
  exists k t, s_run c sched (mk_sconf s None) = Ok (k, t) /\ sent t = out /\ s_data (sc_s k) = d'.
Proof.
  intros c s sched out d' Hc Hs H.
  destruct (traffic_run c sched out d' (s_id s) Hc (s_data s) H (mk_sconf s None) [] (idle_start c s Hs) eq_refl eq_refl) as (k & o & E & S1 & D & _).
  exists k, o. auto.
Qed.
Print Assumptions C40_every_request_of_a_session.
Lemma sample_reception f n : (16 <= n)%nat -> reception_of two_polls (map SRx f) (feed f ++ SEv ST15 :: polls 3 ++ SEv ST35 :: polls n).
Proof.
  intros H. exists (feed f ++ SEv ST15 :: polls 3 ++ [SEv ST35]), n. split; [|split; auto].
  - rewrite <- !app_assoc. reflexivity.
  - exists (map SRx f ++ [ST15]). rewrite events_app, feed_events. cbn. rewrite <- app_assoc. split; [reflexivity|].
    unfold line_events. rewrite filter_app. f_equal. clear. induction f; cbn; congruence.
Qed.
Example C40_case :
  slave_idle sample_cfg sample_slave /\ bytes sample_frame /\ (length sample_frame < 256)%nat /\ intact (s_id sample_slave) sample_frame /\ frame_complete sample_frame /\
  exists sched, reception_of two_polls (map SRx sample_frame) sched /\
  exists k t, s_run sample_cfg sched (mk_sconf sample_slave None) = Ok (k, t) /\ sent t = [rtu_frame 9 [3; 4; 0x12; 0x34; 0xAB; 0xCD]].
Proof.
  split; [apply fresh_idle, sample_fresh|]. destruct sample_frame_ok as (A & B & C & D). repeat (split; [assumption|]).
  eexists. split; [apply (sample_reception sample_frame 16); lia|]. do 2 eexists. split; vm_compute; reflexivity.
Qed.
(** the same with transmission signalled complete after every byte, as the STM32 example driver does *)
Definition feed_tx (f : list Z) : list sact := flat_map (fun b => [SEv (SRx b); SStep; SEv STxDone]) f.
Example C40_case_tx :
  exists sched, reception_of two_polls (map SRx sample_frame) sched /\ (length sample_frame <= length (filter (fun e => negb (not_tx e)) (events sched)))%nat /\
  exists k t, s_run sample_cfg sched (mk_sconf sample_slave None) = Ok (k, t) /\ sent t = [rtu_frame 9 [3; 4; 0x12; 0x34; 0xAB; 0xCD]].
Proof.
  exists ((feed_tx sample_frame ++ [SEv STxDone; SEv ST15; SStep; SEv STxDone; SEv ST35]) ++ polls 16). split.
  - do 2 eexists. split; [reflexivity|]. split; [unfold two_polls; lia|]. 
    exists (removelast (events (feed_tx sample_frame ++ [SEv STxDone; SEv ST15; SStep; SEv STxDone; SEv ST35]))). split; vm_compute; reflexivity.
  - split; [vm_compute; lia|]. do 2 eexists. split; vm_compute; reflexivity.
Qed.

(** *** C41 *)
(** Frames that are damaged, foreign, too long or accompanied by a frame error (bytes and frame errors before the 1.5-character
    event): any number of them leaves the slave idle and its data unchanged, nothing is transmitted, and the next intact request
    is answered. Missing for the full claim: frame errors signalled after a 1.5-character event (refuted below). *)
Theorem C41_recovers_from_garbage_partial : forall c s (garbage : list (list sev * list sact)) f sched, cfg_tables_ok c -> slave_idle c s ->
  Forall (fun '(xs, sc) => reception_of two_polls xs sc /\ forallb is_reception xs = true /\
            (has_frame_err xs = true \/ ~ intact (s_id s) (buffered (rx_bytes xs)))) garbage ->
  (exists k t, s_run c (concat (map snd garbage)) (mk_sconf s None) = Ok (k, t) /\ sent t = [] /\ s_data (sc_s k) = s_data s /\
     (sc_pc k = None -> slave_idle c (sc_s k))) /\
  (bytes f -> (length f < 256)%nat -> intact (s_id s) f -> frame_complete f -> reception_of two_polls (map SRx f) sched ->
   exists k t, s_run c (concat (map snd garbage) ++ sched) (mk_sconf s None) = Ok (k, t) /\
     sent t = [rtu_frame (s_id s) (fst (server c (s_data s) f))] /\ s_data (sc_s k) = snd (server c (s_data s) f)).
Proof.
  intros c s garbage f sched Hc Hs Hg.
  assert (T0 : traffic c (s_id s) (s_data s) (concat (map snd garbage)) [] (s_data s)).
  { clear - Hg. induction garbage as [|[xs sc] g IH]; cbn [map concat snd]; [constructor|]. inversion Hg as [|? ? H0 H4]; subst. destruct H0 as (H1 & H2 & H3). econstructor; eauto. }
  destruct (traffic_run c _ _ _ (s_id s) Hc (s_data s) T0 (mk_sconf s None) [] (idle_start c s Hs) eq_refl eq_refl) as (k & o & E & S1 & D & I & K).
  split.
  - exists k, o. split; auto. split; auto. split; auto. intros P. destruct K as (R & B & L & K1 & K2 & K3 & K4).
    unfold slave_idle. unfold loc in *. rewrite P in *. split; auto. split; [rewrite (b_st _ _ B), L; reflexivity|]. destruct (b_tx _ _ B); auto 10.
  - intros Hf Lf If Cf (pre & n & -> & Hn & He). rewrite <- I in If.
    destruct (good_from_idle c k f pre n o Hc K Hf Lf If He Hn) as (k' & o' & E' & S2 & D2 & _). cbn [sent app] in S1.
    exists k', (o ++ o'). rewrite run_app, E. cbn [bind]. rewrite E'. cbn [bind]. split; auto.
    rewrite (server_stale c (s_data (sc_s k)) f) in S2, D2; auto; try apply K. rewrite S1, I, D in *. auto.
Qed.
Print Assumptions C41_recovers_from_garbage_partial.
(** A byte that comes after the 1.5-character pause: the driver signals a frame error and, after the byte, a second
    1.5-character event.  The slave then is not idle again and the next intact request is lost (with polls running all the time). *)
Definition gap_history : list sact :=
  feed [9; 3] ++ SEv ST15 :: polls 40 ++ [SEv (SRx 0); SEv SFrameErr; SEv ST15; SEv ST35] ++ polls 40.
Theorem C41_refuted : exists c s k t k2 t2, cfg_tables_ok c /\ slave_fresh c s /\
  s_run c gap_history (mk_sconf s None) = Ok (k, t) /\ s_st (sc_s k) <> S_IDLE /\
  intact (s_id s) sample_frame /\ s_run c (feed sample_frame ++ SEv ST15 :: polls 40 ++ SEv ST35 :: polls 40) k = Ok (k2, t2) /\ sent t2 = [].
Proof.
  exists sample_cfg, sample_slave. do 4 eexists. split; [apply sample_cfg_ok|]. split; [apply sample_fresh|].
  split; [vm_compute; reflexivity|]. split; [discriminate|]. split; [apply sample_frame_ok|]. split; vm_compute; reflexivity.
Qed.
Print Assumptions C41_refuted.

(** *** C43 *)
(** A frame error signalled while the slave is idle makes it drop the next request, for every slave, request and interleaving. *)
Theorem C43_refuted : forall c s f sched, cfg_tables_ok c -> slave_idle c s -> reception_of two_polls (SFrameErr :: map SRx f) sched ->
  exists k t, s_run c sched (mk_sconf s None) = Ok (k, t) /\ sent t = [] /\ s_data (sc_s k) = s_data s.
Proof.
  intros c s f sched Hc Hs (pre & n & -> & Hn & He).
  destruct (bad_from_idle c (mk_sconf s None) (SFrameErr :: map SRx f) pre n [] Hc (idle_start c s Hs)) as (k & o & E & K & I & D & S1); auto.
  { cbn. clear. induction f; auto. }
  exists k, o. auto.
Qed.
Print Assumptions C43_refuted.
(** ... but only that one *)
Theorem C43_next_answered_partial : forall c s f1 sched1 f sched, cfg_tables_ok c -> slave_idle c s ->
  reception_of two_polls (SFrameErr :: map SRx f1) sched1 ->
  bytes f -> (length f < 256)%nat -> intact (s_id s) f -> frame_complete f -> reception_of two_polls (map SRx f) sched ->
  exists k t, s_run c (sched1 ++ sched) (mk_sconf s None) = Ok (k, t) /\
    sent t = [rtu_frame (s_id s) (fst (server c (s_data s) f))] /\ s_data (sc_s k) = snd (server c (s_data s) f).
Proof.
  intros c s f1 sched1 f sched Hc Hs H1 Hf Lf If Cf H2.
  destruct (C41_recovers_from_garbage_partial c s [(SFrameErr :: map SRx f1, sched1)] f sched Hc Hs) as [_ G].
  - constructor; [|constructor]. split; auto. split; [|left; reflexivity]. cbn. clear. induction f1; auto.
  - specialize (G Hf Lf If Cf H2). cbn [map snd concat] in G. now rewrite app_nil_r in G.
Qed.
Print Assumptions C43_next_answered_partial.

(** *** C44 *)
(** Completion signalled between line 197 (response handed to the driver) and line 198 (flag set): the slave never transmits
    again, whatever happens, until completion is signalled once more although nothing is transmitted. *)
Theorem C44_refuted : exists c s sched k t, cfg_tables_ok c /\ slave_fresh c s /\
  s_run c sched (mk_sconf s None) = Ok (k, t) /\ length (sent t) = 1%nat /\ transmitting t = false /\
  forall later, ~ In STxDone (events later) ->
    exists k' t', s_run c later k = Ok (k', t') /\ sent t' = [] /\ s_st (sc_s k') <> S_IDLE.
Proof.
  exists sample_cfg, sample_slave, (feed sample_frame ++ [SEv ST15; SEv ST35] ++ polls 13 ++ SEv STxDone :: polls 5).
  do 2 eexists. split; [apply sample_cfg_ok|]. split; [apply sample_fresh|]. split; [vm_compute; reflexivity|].
  split; [vm_compute; reflexivity|]. split; [vm_compute; reflexivity|]. intros later H.
  match goal with |- exists k' t', s_run _ _ ?k = _ /\ _ => assert (K : stuck_tx sample_cfg k) end.
  { split.
    - destruct sample_fresh as [(_ & _ & _ & _ & I & _) _]. unfold slave_ready. cbn [sc_s s_drv s_mptr s_sub s_rx s_id s_msg s_data].
      do 4 (split; [reflexivity|]). split; [exact I|]. split; [|apply sample_data_ok].
      unfold msg_ok, rr_ok. cbn [m_req m_resp rr_ptr rr_buf rr_len].
      repeat match goal with |- _ /\ _ => split end; try reflexivity; try (apply bytes_dec; reflexivity); unfold byte; lia.
    - split; [constructor; try reflexivity; try discriminate; cbn; unfold set_or_clr; auto|]. split; [right; right; reflexivity|reflexivity]. }
  destruct (stuck_run _ _ later [] sample_cfg_ok K H) as (k' & o & E & (R & B & L & X) & S1). exists k', o. split; auto. split; auto.
  rewrite (b_st _ _ B). destruct L as [->|[->| ->]]; discriminate.
Qed.
Print Assumptions C44_refuted.
(** Completion signalled later (after line 198; from line 199 on or outside of the function): the slave becomes idle. *)
Theorem C44_completion_noticed_partial : forall c s f arr k t done, cfg_tables_ok c -> slave_idle c s ->
  bytes f -> (length f < 256)%nat -> intact (s_id s) f -> arrival (map SRx f) (events arr) ->
  s_run c arr (mk_sconf s None) = Ok (k, t) -> sent t <> [] -> sc_pc k <> Some L198 ->
  completion done ->
  exists k' t', s_run c done k = Ok (k', t') /\ s_st (sc_s k') = S_IDLE /\ rr_len (m_req (s_msg (sc_s k'))) = 0 /\ sent t' = [].
Proof.
  intros c s f arr k t done Hc Hs Hf Lf If He E NS NP (pre2 & n2 & -> & Hn2 & He2).
  assert (R : slave_ready c s) by apply Hs.
  assert (Hd : data_ok c (s_data s)) by apply R.
  assert (Lb : length (rr_buf (m_req (s_msg s))) = 256%nat) by apply R.
  destruct (idle_start c s Hs) as (R0 & B0 & L0 & F1 & F2 & F3 & F4). cbn [sc_s] in *.
  destruct (phase_tx c (G c (s_data s) (s_id s) f (rr_buf (m_req (s_msg s))) [])) with (sched := arr) (t := @nil sitem) (k := mk_sconf s None) (xs := map SRx f) as (k1 & o1 & E1 & H1).
  - intros rem t' l s' X. eapply G_line in X; auto. destruct X as (l' & s2 & o & A1 & A2 & _). eauto.
  - intros. eapply G_event; eauto.
  - intros. eapply G_tx; eauto.
  - cbn [sc_s]. split; auto. split; auto. split; auto. split; auto. exists [], false, false.
    split; [left; split; auto; split; auto; exists f; auto|]. split; [split; [rewrite F4; reflexivity|reflexivity]|]. rewrite L0. cbn [body]. auto.
  - exact He.
  - rewrite E in E1. inversion E1; subst k1 o1. cbn [app] in H1.
    destruct H1 as (R1 & B1 & I1 & Fe & f1 & n15 & n35 & V & Q & Y).
    assert (NL : loc k <> L198). { intros W. unfold loc in W. destruct (sc_pc k) eqn:P; [congruence|]. unfold s_dispatch in W. destruct (s_st (sc_s k)); discriminate. }
    destruct (transmit_run c Hc (s_data (sc_s k)) (s_id (sc_s k)) (sent t) pre2 n2 k t) as (k2 & o2 & E2 & (K1 & K2 & K3 & K4 & K5 & K6 & K7) & _ & _ & S2); auto.
    { unfold T. destruct (loc k) eqn:L; cbn [body] in Y; unfold pre, post in Y; try contradiction; try congruence; repeat match goal with H : _ /\ _ |- _ => destruct H end; try congruence; fin. }
    exists k2, o2. split; auto. split; [rewrite (b_st _ _ K2), K3; reflexivity|]. split; auto.
    rewrite sent_app in S2. rewrite <- (app_nil_r (sent t)) in S2 at 2. now apply app_inv_head in S2.
Qed.
Print Assumptions C44_completion_noticed_partial.
Example C44_case : exists k t, let pre := feed sample_frame ++ [SEv ST15; SEv ST35] ++ polls 14 in
  arrival (map SRx sample_frame) (events pre) /\ s_run sample_cfg pre (mk_sconf sample_slave None) = Ok (k, t) /\ sent t <> [] /\ sc_pc k = Some L199.
Proof. do 2 eexists. split; [exists (map SRx sample_frame ++ [ST15]); split; vm_compute; reflexivity|]. split; [vm_compute; reflexivity|]. split; [discriminate|reflexivity]. Qed.

(** *** C46 *)
(** Every poll before initialisation is undefined behaviour (line 237 writes through the NULL slave_msg_ptr). *)
Theorem C46_refuted : forall c bits regs, check_modbus_request c (slave_static c bits regs) = UB.
Proof. intros. reflexivity. Qed.
Print Assumptions C46_refuted.
(** What holds: interrupts before initialisation are ignored, and nothing is transmitted. *)
Theorem C46_nothing_transmitted_partial : forall c bits regs sched k t,
  s_run c sched (mk_sconf (slave_static c bits regs) None) = Ok (k, t) -> sent t = [].
Proof.
  intros c bits regs sched k t E.
  refine (proj1 (run_inv c (fun t k => sent t = [] /\ s_mptr (sc_s k) = false /\
     (s_st (sc_s k) = S_UNKNOWN /\ (sc_pc k = None \/ sc_pc k = Some L232) \/
      match sc_pc k with Some L233 | Some L234 | Some L235 | Some L236 | Some L237 => True | _ => False end)) _ sched [] _ k t _ E)).
  2:{ cbn. auto 10. }
  clear. intros t k a k' o (S1 & M & I) E. destruct a as [|e]; cbn [s_act] in E.
  - destruct (sc_pc k) as [l|] eqn:P.
    + destruct (s_line c l (sc_s k)) as [[[l' s'] o']| |] eqn:EL; try discriminate. cbn [bind] in E. inversion E; subst k' o. cbn [sc_s sc_pc].
      rewrite sent_app, S1. destruct I as [(I1 & [I2|I2])|I]; [discriminate|inversion I2; subst l|destruct l; try contradiction]; cbn [s_line] in EL; rewrite ?M in EL; inversion EL; subst; cbn; auto 10.
    + inversion E; subst. cbn [sc_s sc_pc]. rewrite app_nil_r. destruct I as [(I1 & _)|[]]. unfold s_dispatch. rewrite I1. auto 10.
  - destruct (s_event e (sc_s k)) as [s'| |] eqn:EE; try discriminate. cbn [bind] in E. inversion E; subst k' o. cbn [sc_s sc_pc].
    rewrite sent_app, S1. split; [reflexivity|]. rewrite (event_st _ _ _ EE). split; auto. destruct e; ev_inv EE; auto.
Qed.
Print Assumptions C46_nothing_transmitted_partial.

(** *** C47 *)
(** If bytes had been received before initialisation, the next intact request is lost. *)
Theorem C47_refuted : exists c s0 k t, cfg_tables_ok c /\ slave_memory_ok c s0 /\
  s_run c (feed sample_frame ++ [SEv ST15; SEv ST35] ++ polls 40) (mk_sconf (modbus_slave_init RTU 9 s0) None) = Ok (k, t) /\
  intact 9 sample_frame /\ sent t = [].
Proof.
  exists sample_cfg, (s_set_msg sample_slave (sample_msg [9])). do 2 eexists. split; [apply sample_cfg_ok|]. split.
  { unfold slave_memory_ok. cbn [s_msg s_set_msg s_data sample_slave].
    destruct (sample_msg_ok [9] ltac:(cbn; lia) eq_refl) as [(_ & A2 & A3 & A4) (_ & B2 & B3 & B4)]. repeat (split; [assumption|]). apply sample_data_ok. }
  split; [vm_compute; reflexivity|]. split; [apply sample_frame_ok|vm_compute; reflexivity].
Qed.
Print Assumptions C47_refuted.
(** With an empty receive buffer (at power-on, for example) initialisation gives a clean slate whatever the flags and state were. *)
Theorem C47_clean_slate_partial : forall c s0 id f sched, cfg_tables_ok c -> slave_memory_ok c s0 -> byte id -> rr_len (m_req (s_msg s0)) = 0 ->
  bytes f -> (length f < 256)%nat -> intact id f -> frame_complete f -> reception_of two_polls (map SRx f) sched ->
  exists k t, s_run c sched (mk_sconf (modbus_slave_init RTU id s0) None) = Ok (k, t) /\
    sent t = [rtu_frame id (fst (server c (s_data s0) f))] /\ s_data (sc_s k) = snd (server c (s_data s0) f).
Proof.
  intros c s0 id f sched Hc Hm Hi L Hf Lf If Cf H.
  exact (C40_answered_exactly_once c (modbus_slave_init RTU id s0) f sched Hc (fresh_idle _ _ (init_fresh c id s0 Hm Hi L)) Hf Lf If Cf H).
Qed.
Print Assumptions C47_clean_slate_partial.

(** *** C50 *)
(** A frame for another ID (intact or not), any interleaving. *)
Theorem C50_other_ids_unaffected : forall c s f sched, cfg_tables_ok c -> slave_idle c s ->
  bytes f -> (length f < 256)%nat -> hd_error f <> Some (s_id s) -> reception_of two_polls (map SRx f) sched ->
  exists k t, s_run c sched (mk_sconf s None) = Ok (k, t) /\ sent t = [] /\ s_data (sc_s k) = s_data s.
Proof.
  intros c s f sched Hc Hs Hf Lf Hd (pre & n & -> & Hn & He).
  assert (X : rx_bytes (map SRx f) = f).
  { clear - Hf. induction f as [|b f IH]; auto. inversion Hf; subst. cbn [map rx_bytes flat_map app]. f_equal; [unfold u8, byte in *; now rewrite Z.mod_small|]. apply IH; auto. }
  destruct (bad_from_idle c (mk_sconf s None) (map SRx f) pre n [] Hc (idle_start c s Hs)) as (k & o & E & K & I & D & S1); auto.
  { clear. induction f; auto. }
  { right. cbn [sc_s]. rewrite X, buffered_short by auto. intros [_ W]. congruence. }
  exists k, o. auto.
Qed.
Print Assumptions C50_other_ids_unaffected.
(** On a bus: the slaves are independent machines that see the same bytes; each has its own poll timing. *)
Theorem C50_bus : forall c (slaves : list (slave * list sact)) id pdu, cfg_tables_ok c -> byte id -> bytes (rtu_frame id pdu) -> (length (rtu_frame id pdu) < 256)%nat ->
  Forall (fun '(s, sched) => slave_idle c s /\ s_id s <> id /\ reception_of two_polls (map SRx (rtu_frame id pdu)) sched) slaves ->
  Forall (fun '(s, sched) => exists k t, s_run c sched (mk_sconf s None) = Ok (k, t) /\ sent t = [] /\ s_data (sc_s k) = s_data s) slaves.
Proof.
  intros c slaves id pdu Hc Hi Hb Hl H. eapply Forall_impl; [|exact H]. intros [s sched] (A & B & C).
  apply (C50_other_ids_unaffected c s (rtu_frame id pdu) sched); auto. cbn. congruence.
Qed.
Print Assumptions C50_bus.
(** Under every schedule whatsoever: as long as no frame given to the check is intact and for this ID, nothing is transmitted. *)
Theorem C50_any_schedule : forall c s sched k t, cfg_tables_ok c -> slave_fresh c s -> s_run c sched (mk_sconf s None) = Ok (k, t) ->
  (forall t1 g t2, t = t1 ++ TOut (SoCheck g) :: t2 -> ~ intact (s_id s) (buffered (received t1))) -> sent t = [].
Proof.
  intros c s sched k t Hc Hs E H. assert (Hs' := Hs). destruct Hs' as (R & F1 & F2 & F3 & F4 & F5 & F6).
  assert (I := sinv_run c (s_id s) sched Hc [] (mk_sconf s None) k t (sinv_start c s R F1 F2 F3 F4 F5) E). cbn [app] in I.
  assert (Gd := i_good _ _ _ _ _ I). destruct (sent t) as [|f l] eqn:S1; auto. exfalso.
  assert (X : exists t1 g t2, t = t1 ++ TOut (SoSend g) :: t2).
  { clear - S1. revert f l S1. induction t as [|x t IH]; intros f l S1; [discriminate|]. destruct x as [e|[g|g| | | |]]; cbn [sent] in S1;
    try (destruct (IH _ _ S1) as (t1 & g' & t2 & ->); eexists (_ :: t1), g', t2; reflexivity). exists [], g, t. reflexivity. }
  destruct X as (t1 & g & t2 & ->). destruct (Gd t1 (SoSend g) t2 eq_refl) as [((h & C & A) & _) _]; [right; eauto|].
  assert (Y : exists u v, t1 = u ++ TOut (SoCheck h) :: v).
  { clear - C. induction t1 as [|x t1 IH] using rev_ind; [discriminate|]. rewrite checked_snoc in C.
    destruct x as [e|[]]; try discriminate; try (destruct (IH C) as (u & v & ->); eexists u, (v ++ [_]); rewrite <- app_assoc; reflexivity).
    inversion C; subst. exists t1, []. reflexivity. }
  destruct Y as (u & v & ->). rewrite <- app_assoc in *. cbn [app] in *. apply (H u h (v ++ TOut (SoSend g) :: t2) eq_refl).
  rewrite <- (C38_checked_is_received c s sched k _ u h (v ++ TOut (SoSend g) :: t2) Hc Hs E eq_refl). exact A.
Qed.
Print Assumptions C50_any_schedule.

(** *** C55 *)
(** After the history of C41_refuted no traffic of regular receptions whatsoever makes the slave transmit again (until it is
    re-initialised or powered off): it is deaf. *)
Theorem C55_refuted : exists c s k t, cfg_tables_ok c /\ slave_fresh c s /\ s_run c gap_history (mk_sconf s None) = Ok (k, t) /\
  forall later : list (list sev * list sact),
    Forall (fun '(xs, sc) => reception_of 20 xs sc /\ forallb is_reception xs = true) later ->
    exists k' t', s_run c (concat (map snd later)) k = Ok (k', t') /\ sent t' = [] /\ s_data (sc_s k') = s_data s.
Proof.
  exists sample_cfg, sample_slave. do 2 eexists. split; [apply sample_cfg_ok|]. split; [apply sample_fresh|]. split; [vm_compute; reflexivity|].
  match goal with |- forall later, _ -> exists k' t', s_run _ _ ?k = _ /\ _ => assert (K : trapped sample_cfg k); [|assert (D : s_data (sc_s k) = s_data sample_slave) by reflexivity; generalize dependent k] end.
  { split.
    - destruct sample_fresh as [(_ & _ & _ & _ & I & _) _]. unfold slave_ready. cbn [sc_s s_drv s_mptr s_sub s_rx s_id s_msg s_data].
      do 4 (split; [reflexivity|]). split; [exact I|]. split; [|apply sample_data_ok].
      unfold msg_ok, rr_ok. cbn [m_req m_resp rr_ptr rr_buf rr_len].
      repeat match goal with |- _ /\ _ => split end; try reflexivity; try (apply bytes_dec; reflexivity); unfold byte; lia.
    - split; [constructor; try reflexivity; try discriminate; cbn; unfold set_or_clr; auto|]. split; [|repeat split; reflexivity]. cbn. auto. }
  intros k K D later. revert k K D. induction later as [|[xs sc] later IH]; intros k K D H.
  - exists k, []. cbn. auto.
  - inversion H as [|? ? H1 H2]; subst. destruct H1 as ((pre & n & -> & Hn & He) & Hx).
    destruct (trap_run _ k xs pre n [] sample_cfg_ok K Hx He Hn) as (k1 & o1 & E1 & K1 & I1 & D1 & S1).
    destruct (IH k1 K1) as (k2 & o2 & E2 & S2 & D2); [congruence|auto|].
    exists k2, (o1 ++ o2). cbn [map snd concat]. rewrite run_app, E1. cbn [bind]. rewrite E2. cbn [bind]. split; auto. split; auto.
    rewrite sent_app, S2, app_nil_r. exact S1.
Qed.
Print Assumptions C55_refuted.
(** Regular traffic (no frame error after a 1.5-character event, each frame followed by enough polls) never makes the slave deaf. *)
Theorem C55_regular_traffic_partial : forall c s sched out d f sched2, cfg_tables_ok c -> slave_idle c s ->
  traffic c (s_id s) (s_data s) sched out d ->
  bytes f -> (length f < 256)%nat -> intact (s_id s) f -> frame_complete f -> reception_of two_polls (map SRx f) sched2 ->
  exists k t, s_run c (sched ++ sched2) (mk_sconf s None) = Ok (k, t) /\ sent t = out ++ [rtu_frame (s_id s) (fst (server c d f))].
Proof.
  intros c s sched out d f sched2 Hc Hs H Hf Lf If Cf (pre & n & -> & Hn & He).
  destruct (traffic_run c _ _ _ (s_id s) Hc (s_data s) H (mk_sconf s None) [] (idle_start c s Hs) eq_refl eq_refl) as (k & o & E & S1 & D & I & K).
  rewrite <- I in If. destruct (good_from_idle c k f pre n o Hc K Hf Lf If He Hn) as (k' & o' & E' & S2 & D2 & _). cbn [sent app] in S1.
  exists k', (o ++ o'). rewrite run_app, E. cbn [bind]. rewrite E'. cbn [bind]. split; auto.
  rewrite (server_stale c (s_data (sc_s k)) f) in S2; auto; try apply K. rewrite S1, I, D in *. auto.
Qed.
Print Assumptions C55_regular_traffic_partial.

(** *** C57 (slave) *)
(** Initialised in another mode after RTU: a request leads to a call through the NULL driver pointer. *)
Theorem C57_slave_refuted : exists c s0, cfg_tables_ok c /\ slave_fresh c s0 /\
  s_run c (feed sample_frame ++ [SEv ST15; SEv ST35] ++ polls 40) (mk_sconf (modbus_slave_init UNKNOWN_MODE 9 s0) None) = UB.
Proof. exists sample_cfg, sample_slave. split; [apply sample_cfg_ok|]. split; [apply sample_fresh|]. vm_compute. reflexivity. Qed.
Print Assumptions C57_slave_refuted.
(** From power-on: no undefined behaviour, nothing transmitted, no data changed, under every schedule. *)
Theorem C57_slave_fresh_partial : forall c bits regs id sched,
  exists k t, s_run c sched (mk_sconf (modbus_slave_init UNKNOWN_MODE id (slave_static c bits regs)) None) = Ok (k, t) /\ sent t = [] /\
    ((forall b r, ~ In (SApp b r) (events sched)) -> s_data (sc_s k) = s_data (slave_static c bits regs)).
Proof.
  intros c bits regs id sched.
  set (d0 := s_data (slave_static c bits regs)).
  destruct (phase c (fun rem t l s => l = L164 /\ s_st s = S_IDLE /\ s_t15 s = CLEARED /\ s_sub s = false /\ s_rx s = false /\ sent t = [] /\
     ((forall b r, ~ In (SApp b r) (events sched)) -> s_data s = d0 /\ (forall b r, ~ In (SApp b r) rem))))
    with (sched := sched) (t := @nil sitem) (k := mk_sconf (modbus_slave_init UNKNOWN_MODE id (slave_static c bits regs)) None) (rem := @nil sev)
    as (k & o & E & _ & _ & _ & _ & _ & S1 & D).
  - intros rem t l s (-> & A1 & A2 & A3 & A4 & A5 & A6). cbn [s_line]. rewrite A2. cbn [is_set]. do 3 eexists. split; [reflexivity|].
    cbn [next map]. unfold s_dispatch. rewrite A1, app_nil_r. auto 10.
  - intros e rem t l s (-> & A1 & A2 & A3 & A4 & A5 & A6). rewrite sent_app. cbn [sent]. rewrite app_nil_r.
    destruct e; cbn [s_event]; rewrite ?A3, ?A4; eexists; (split; [reflexivity|]);
      try (repeat (split; [auto; fail|]); intros N; destruct (A6 N) as [A7 A8]; split; auto; intros b' r' Q; apply (A8 b' r'); right; exact Q).
    assert (X : (forall b r, ~ In (SApp b r) (events sched)) -> False) by (intros N; destruct (A6 N) as [_ A8]; apply (A8 bits0 regs0); left; auto).
    destruct (_ && _ && _); cbn; (repeat (split; [auto; fail|])); intros N; destruct (X N).
  - rewrite app_nil_r. cbn. auto 10.
  - exists k, o. split; auto. split; auto. intros N. apply D. exact N.
Qed.
Print Assumptions C57_slave_fresh_partial.

(** *** C58 (slave) *)
(** In every state and under every schedule: the poll function returns after at most 10 of its lines. *)
Theorem C58_slave_poll_returns : forall c sched k l k' t, sc_pc k = Some l -> (10 <= steps sched)%nat -> s_run c sched k = Ok (k', t) ->
  exists s1 s2 k1 t1, sched = s1 ++ s2 /\ s_run c s1 k = Ok (k1, t1) /\ sc_pc k1 = None /\ (steps s1 <= 10)%nat.
Proof.
  intros c sched k l k' t P H E. assert (X := rank_pos l). destruct (returns c sched k l k' t P ltac:(lia) E) as (s1 & s2 & k1 & t1 & A & B & C & D).
  exists s1, s2, k1, t1. repeat split; auto. lia.
Qed.
Print Assumptions C58_slave_poll_returns.
Theorem C58_slave_poll_total : forall c s, cfg_tables_ok c -> slave_ready c s ->
  exists s' o, check_modbus_request c s = Ok (s', o) /\ slave_ready c s'.
Proof. intros c s Hc R. apply lines_return; auto. assert (X := rank_pos (s_dispatch s)). lia. Qed.
Print Assumptions C58_slave_poll_total.

(** *** C60 (slave) *)
Theorem C60_slave_no_ub : forall c bits regs id sched, cfg_tables_ok c -> Forall word regs -> byte id ->
  exists k t, s_run c sched (mk_sconf (modbus_slave_init RTU id (slave_static c bits regs)) None) = Ok (k, t).
Proof.
  intros c bits regs id sched Hc Hr Hi.
  destruct (run_ready c sched Hc (mk_sconf (modbus_slave_init RTU id (slave_static c bits regs)) None)) as (k & t & E & _).
  - apply init_ready; auto. apply static_memory_ok; auto.
  - eauto.
Qed.
Print Assumptions C60_slave_no_ub.
(** the same from every state with registered variables *)
Theorem C60_slave_no_ub_ready : forall c sched s pc, cfg_tables_ok c -> slave_ready c s ->
  exists k t, s_run c sched (mk_sconf s pc) = Ok (k, t) /\ slave_ready c (sc_s k).
Proof. intros c sched s pc Hc R. destruct (run_ready c sched Hc (mk_sconf s pc) R) as (k & t & E & R' & _). eauto. Qed.
Print Assumptions C60_slave_no_ub_ready.
