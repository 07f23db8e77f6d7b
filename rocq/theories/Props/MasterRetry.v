(** C27, C28, C31, C32: answers, corrupted answers, and what they leave behind. *)
From Verif Require Import Props.Frames Props.MasterRun Props.MasterReports Props.MasterTime.
From Verif Require Import Proofs.MasterGood.

Lemma visible_rest t o V : visible (t ++ o) = visible t ++ V -> visible o = V.
Proof. rewrite visible_app. apply app_inv_head. Qed.
Lemma ready_idle c t k a : cinv c t (mloc k) (mc_s k) -> idle k -> current t = Some a -> no_leftovers k -> ready c a (finished t) (visible t) 0 t k.
Proof.
  intros I Id Cu (T & Cr & Fe). split; auto. assert (L := idle_loc _ Id). rewrite L in *. split; [unfold fl; rewrite T, Cr, Fe; f_equal; apply (rep_idle c t); auto|]. apply base_now; auto.
Qed.
Ltac one_req := intros ? Hx; vm_compute in Hx; repeat (destruct Hx as [Hx|Hx]; [try discriminate Hx; inversion Hx; apply rh_safe|]); destruct Hx.

(** *** C31 *)
(** C31 is false, for every waiting master and every correct answer: if the 3.5-character event comes before the master has started
    to handle the reception (here: right after the 1.5-character event), it is wiped out by the handling, and then no number of
    polls delivers the answer or reports anything. *)
Theorem C31_refuted : forall c sched k t a n u v1 v2, cfg_master_ok c -> m_history c sched k t -> current t = Some a -> awaits k n -> m_received t = [] -> no_leftovers k ->
  let f := rx_bytes (m_events u) in
  hd_error f = Some (api_id a) -> (length f < 256)%nat -> crc_ok f -> complete_answer a f -> ~ In MT15 (m_events u) -> ~ In MFrameErr (m_events u) ->
  reqs_safe (u ++ MEv MT15 :: MEv MT35 :: v1 ++ v2) -> 2 + sched_ticks (u ++ v1) <= n -> (6 <= m_steps v1)%nat -> (forall e, In e (m_events (v1 ++ v2)) -> bev e) ->
  exists k' o, m_run c (u ++ MEv MT15 :: MEv MT35 :: v1 ++ v2) k = Ok (k', o) /\ visible o = [] /\ busy k' = true.
Proof.
  intros c sched k t a n u v1 v2 Hc H Cu Aw Rx (_ & Cr & Fe) f Hh Hl Hcrc Hca N15 NF HS Ti W HE. assert (I := history_cinv _ _ _ _ Hc H).
  destruct (early_t35 c Hc a (finished t) (visible t) f (mm_rep (mc_s k)) n u v1 v2 t k) as (k' & o & R & I' & (_ & _ & B) & Bz); auto; try apply Aw.
  { apply base_now; auto. } { eapply awaits_loc; eauto. } { unfold sched_ticks in Ti. rewrite m_events_app in Ti. exact Ti. }
  exists k', o. split; auto. split; auto. rewrite <- (app_nil_r (visible t)) in B. exact (visible_rest _ _ _ B).
Qed.
Print Assumptions C31_refuted.
(** What holds: if a poll's worth of steps lies between the two events and 19 steps (two polls) after them, the answer is
    delivered once, and the master is idle, however the polls interleave with the bytes.  Missing: the 3.5-character event before
    the first poll after the 1.5-character event. *)
Theorem C31_delivered_partial : forall c sched k t a n y, cfg_master_ok c -> m_history c sched k t -> current t = Some a -> awaits k n -> m_received t = [] -> no_leftovers k ->
  good_answer a y -> answer_timed n y -> reqs_safe (answer_sched y) ->
  exists s1 s2 k' o l, answer_sched y = s1 ++ s2 /\ m_run c s1 k = Ok (k', o) /\ delivered a (y_frame y) = Some l /\ visible o = map VCb l ++ [VFree] /\ idle k' /\ no_leftovers k'.
Proof.
  intros c sched k t a n y Hc H Cu Aw Rx (_ & Cr & Fe) ((Hh & Hl) & Hcrc & Hca & NF) [Z1 Z2 Z3 Z4 Z5 Z6] HS. assert (I := history_cinv _ _ _ _ Hc H).
  destruct (answer_phase c Hc a (finished t) (visible t) (y_frame y) false false false false (mm_rep (mc_s k)) Hh Hl Hcrc eq_refl eq_refl (fun _ _ => Hca) (y_rx y) (y_15 y) (y_35 y) t k)
    as (w1 & w2 & k' & o & Ew & R & I' & L' & Dc & P); auto; try apply Aw.
  { apply base_now; auto. } { eapply awaits_loc; eauto. } { unfold tm_enough. destruct Aw as (_ & _ & ->). exact Z6. }
  destruct (mloc k') eqn:L; try discriminate Dc; cbn [late] in L'.
  - destruct L' as ((l & Rs & _ & Fi & Vi) & Fl & Rp). exists (y_rx y ++ MEv MT15 :: y_15 y ++ MEv MT35 :: w1), w2, k', o, l.
    split. { unfold answer_sched. rewrite Ew. rewrite <- app_assoc. cbn [app]. rewrite <- app_assoc. reflexivity. }
    split; auto. split; [exact Rs|]. split; [exact (visible_rest _ _ _ Vi)|]. split; [apply idle_of; auto|exact Fl].
  - destruct L' as (_ & _ & _ & Z & _). discriminate.
Qed.
Print Assumptions C31_delivered_partial.

(** *** C32 *)
(** C32 is false: an answer with a frame error and a wrong CRC leaves one of the two error flags behind; here the next, intact,
    answer is then taken for another corrupted one, and with one repetition allowed an error is reported instead of the answer. *)
Definition both_sched : list mact :=
  ask rh ++ msteps 8 ++ [MEv MTxDone] ++ msteps 6 ++ mfeed corrupt ++ [MEv MFrameErr; MEv MT15] ++ msteps 16 ++ [MEv MT35] ++ msteps 16 ++
  [MEv MTxDone] ++ msteps 6 ++ mfeed rh_answer ++ [MEv MT15] ++ msteps 16 ++ [MEv MT35] ++ msteps 16.
Theorem C32_refuted : exists k t r, m_history mcfg both_sched k t /\ c_repeat mcfg = 1 /\ crc_ok rh_answer /\
  visible t = [VSend (request_frame rh); VSend (request_frame rh); VCb (CommErr r); VFree].
Proof.
  do 3 eexists. split; [exists m0; split; [apply m0_started|]; split; [one_req|vm_compute; reflexivity]|]. split; [reflexivity|]. split; [|vm_compute; reflexivity].
  exists [9; 3; 4; 18; 52; 171; 205]. reflexivity.
Qed.
Print Assumptions C32_refuted.
(** What holds, if no error flag is left over: with [k] <= R corrupted answers (each has a wrong CRC or a frame error, not both) and then
    a correct one, the request is transmitted [k]+1 times and the answer delivered, nothing else.  Missing: answers with both errors. *)
Theorem C32_delivered_partial : forall c sched k t a ys y, cfg_master_ok c -> 2 <= c_timeout c < 4294967296 -> m_history c sched k t -> current t = Some a -> idle k -> no_leftovers k ->
  Forall (fun y => try_timed (c_timeout c) y /\ (crc_bad a y \/ frame_bad a y)) ys -> Z.of_nat (length ys) <= c_repeat c ->
  try_timed (c_timeout c) y -> good_answer a y -> reqs_safe (concat (map try_sched ys) ++ try_sched y) ->
  exists s1 s2 k' o l, concat (map try_sched ys) ++ try_sched y = s1 ++ s2 /\ m_run c s1 k = Ok (k', o) /\ delivered a (y_frame y) = Some l /\
    visible o = sends a (S (length ys)) ++ map VCb l ++ [VFree] /\ idle k' /\ no_leftovers k'.
Proof.
  intros c sched k t a ys y Hc HT H Cu Id NL Hys Ln Y G HS. assert (I := history_cinv _ _ _ _ Hc H).
  destruct (retried_delivered c Hc a ys y (finished t) (visible t) t k) as (s1 & s2 & k' & o & l & E & R & D & (I' & Id' & Fi & Vi) & NL' & _ & _); auto.
  { unfold bad_try. rewrite timeout_u32 by lia. auto. } { rewrite timeout_u32; auto. } { apply ready_idle; auto. }
  exists s1, s2, k', o, l. split; auto. split; auto. split; auto. split; auto. rewrite <- app_assoc in Vi. exact (visible_rest _ _ _ Vi).
Qed.
Print Assumptions C32_delivered_partial.
(** ... and if all R+1 answers are corrupted, exactly one error is reported, of the kind of the last answer, and the buffer freed. *)
Theorem C32_reported_partial : forall c sched k t a ys y, cfg_master_ok c -> 2 <= c_timeout c < 4294967296 -> m_history c sched k t -> current t = Some a -> idle k -> no_leftovers k ->
  Forall (fun y => try_timed (c_timeout c) y /\ (crc_bad a y \/ frame_bad a y)) (ys ++ [y]) -> Z.of_nat (length ys) = c_repeat c ->
  reqs_safe (concat (map try_sched (ys ++ [y]))) ->
  exists s1 s2 k' o e, concat (map try_sched (ys ++ [y])) = s1 ++ s2 /\ m_run c s1 k = Ok (k', o) /\
    visible o = sends a (S (length ys)) ++ [VCb (CommErr e); VFree] /\ r_id e = api_id a /\
    (crc_bad a y /\ r_err e = RESP_RTU_CRC_ERR \/ frame_bad a y /\ r_err e = RESP_FRAME_ERR) /\ idle k'.
Proof.
  intros c sched k t a ys y Hc HT H Cu Id NL Hys Ln HS. assert (I := history_cinv _ _ _ _ Hc H).
  destruct (retried_failed c Hc a ys y (finished t) (visible t) t k) as (s1 & s2 & k' & o & e & E & R & K & Ie & (I' & Id' & Fi & Vi)); auto.
  { unfold bad_try. rewrite timeout_u32 by lia. auto. } { apply ready_idle; auto. }
  exists s1, s2, k', o, e. split; auto. split; auto. rewrite <- app_assoc in Vi. split; [exact (visible_rest _ _ _ Vi)|]. auto.
Qed.
Print Assumptions C32_reported_partial.

(** *** C27 *)
(** C27 is false, after every communication error for a wrong CRC (frame error): the flag is still set, so the next intact answer is
    not delivered at its first transmission: with R = 0 an error is reported instead, else the request is repeated. *)
Theorem C27_refuted : forall c sched k t a y, cfg_master_ok c -> 2 <= c_timeout c < 4294967296 -> m_history c sched k t -> current t = Some a -> idle k -> mm_t15 (mc_s k) = CLEARED ->
  crc_error_reported t = true /\ mm_fe (mc_s k) = CLEARED \/ frame_error_reported t = true /\ mm_crc (mc_s k) = CLEARED ->
  try_timed (c_timeout c) y -> good_answer a y -> reqs_safe (try_sched y) ->
  exists s1 s2 k' o, try_sched y = s1 ++ s2 /\ m_run c s1 k = Ok (k', o) /\
    (1 <= c_repeat c /\ visible o = [VSend (request_frame a)] /\ mc_pc k' = None /\ mm_st (mc_s k') = M_REPEAT_REQUEST \/
     c_repeat c = 0 /\ exists e, visible o = [VSend (request_frame a); VCb (CommErr e); VFree] /\ idle k').
Proof.
  intros c sched k t a y Hc HT H Cu Id T15 Er Y G HS. assert (I := history_cinv _ _ _ _ Hc H). destruct (history_linv _ _ _ _ Hc H) as [_ L1 L2]. assert (L := idle_loc _ Id). rewrite <- (timeout_u32 c) in Y by auto.
  assert (X : exists FE pre, FE && pre = false /\ FE || pre = true /\ fl (mc_s k) = (CLEARED, bl pre, bl FE, 0)).
  { unfold fl. rewrite T15. assert (Rp : mm_rep (mc_s k) = 0) by (apply (rep_idle c t); rewrite <- L; auto). rewrite Rp. destruct Er as [[Er Ot]|[Er Ot]]; rewrite Ot.
    - exists false, true. rewrite L1 by auto. auto. - exists true, false. rewrite L2 by auto. auto. }
  destruct X as (FE & pre & X1 & X2 & X3). assert (Rc : 0 <= c_repeat c) by apply Hc.
  destruct (leftover_phase c Hc a y (finished t) (visible t) FE pre 0 [] t k) as (s1 & s2 & k' & o & E & _ & R & D); auto; [intros e []|rewrite L; split; [auto|apply base_now; auto]|].
  exists s1, s2, k', o. split; auto. split; auto. destruct D as [([_ D] & L' & P' & Le)|(Le & e & Re & _ & _ & Id' & _ & Vi)].
  - left. split; [lia|]. rewrite L' in D. destruct D as [_ D]. destruct D as (_ & _ & D). split; [exact (visible_rest _ _ _ D)|]. split; auto. unfold mloc in L'. rewrite P' in L'. unfold m_dispatch in L'. destruct (mm_st (mc_s k')); try discriminate L'; auto.
  - right. split; [lia|]. exists e. split; auto. unfold sent in Vi. rewrite <- app_assoc in Vi. exact (visible_rest _ _ _ Vi).
Qed.
Print Assumptions C27_refuted.
(** What holds (R >= 1, exactly one of the error flags left over): the second transmission's intact answer is delivered, once, and no
    error reported.  Missing: delivery at the first transmission; R = 0; both flags set. *)
Theorem C27_second_time_partial : forall c sched k t a y1 y2, cfg_master_ok c -> 2 <= c_timeout c < 4294967296 -> 1 <= c_repeat c -> m_history c sched k t -> current t = Some a -> idle k -> mm_t15 (mc_s k) = CLEARED ->
  mm_crc (mc_s k) = SET /\ mm_fe (mc_s k) = CLEARED \/ mm_crc (mc_s k) = CLEARED /\ mm_fe (mc_s k) = SET ->
  try_timed (c_timeout c) y1 -> good_answer a y1 -> try_timed (c_timeout c) y2 -> good_answer a y2 -> reqs_safe (try_sched y1 ++ try_sched y2) ->
  exists s1 s2 k' o l, try_sched y1 ++ try_sched y2 = s1 ++ s2 /\ m_run c s1 k = Ok (k', o) /\ delivered a (y_frame y2) = Some l /\
    visible o = sends a 2 ++ map VCb l ++ [VFree] /\ idle k' /\ no_leftovers k'.
Proof.
  intros c sched k t a y1 y2 Hc HT Rc H Cu Id T15 Er Y1 G1 Y2 G2 HS. assert (I := history_cinv _ _ _ _ Hc H). assert (L := idle_loc _ Id). rewrite <- (timeout_u32 c) in Y1, Y2 by auto. apply reqs_app in HS as [HS1 HS2].
  assert (X : exists FE pre, FE && pre = false /\ FE || pre = true /\ fl (mc_s k) = (CLEARED, bl pre, bl FE, 0)).
  { unfold fl. rewrite T15. assert (Rp : mm_rep (mc_s k) = 0) by (apply (rep_idle c t); rewrite <- L; auto). rewrite Rp. destruct Er as [[Er Ot]|[Er Ot]]; rewrite Er, Ot; [exists false, true|exists true, false]; auto. }
  destruct X as (FE & pre & X1 & X2 & X3).
  destruct (leftover_phase c Hc a y1 (finished t) (visible t) FE pre 0 [] t k) as (s1 & s2 & k1 & o1 & E1 & Se1 & R1 & [(Rd & _)|(Le & _)]); auto; [intros e []|rewrite L; split; [auto|apply base_now; auto]| |lia].
  cbn [app] in E1. destruct (good_phase c Hc a y2 (finished t) (sent a (visible t)) (0 + 1) s2 (t ++ o1) k1) as (s3 & s4 & k2 & o2 & l & E2 & _ & R2 & D & (I2 & Id2 & Fi & Vi) & NL); auto.
  { apply reqs_app. split; auto. rewrite E1 in HS1. apply reqs_app in HS1. tauto. }
  exists (s1 ++ s3), s4, k2, (o1 ++ o2), l. split; [rewrite E1, <- app_assoc, E2, app_assoc; reflexivity|]. split; [rewrite m_run_app, R1; cbn [bind]; rewrite R2; reflexivity|]. split; auto. split; auto.
  unfold sent in Vi. rewrite <- !app_assoc in Vi. exact (visible_rest _ _ _ Vi).
Qed.
Print Assumptions C27_second_time_partial.

(** *** C28 *)
(** C28 is false: a completion interrupt that occurs after the frame was handed to the driver but before line 406 has run is
    overwritten; then no number of polls brings the master to waiting, and the request is never finished. *)
Theorem C28_refuted : forall c sched k t a v, cfg_master_ok c -> m_history c sched k t -> current t = Some a -> mc_pc k = Some M405 \/ mc_pc k = Some M406 ->
  reqs_safe v -> ~ In MTxDone (m_events v) ->
  exists k' o, m_run c (MEv MTxDone :: v) k = Ok (k', o) /\ visible o = [] /\ (forall n, ~ awaits k' n) /\ busy k' = true.
Proof.
  intros c sched k t a v Hc H Cu P HS N. assert (I := history_cinv _ _ _ _ Hc H).
  destruct (event_now c Hc _ _ MTxDone I safetx) as (s2 & o2 & E2 & X2 & I2 & L2 & A2). set (k2 := mk_mconf s2 (mc_pc k)) in *.
  destruct (lost_tx c Hc a (finished t) (visible t) v (t ++ MTEv MTxDone :: map MTOut o2) k2) as (k3 & o3 & R3 & I3 & ((_ & _ & B) & _ & Q)); auto.
  { split; [apply base_ev; [apply base_now; auto|apply (ef_o _ _ _ _ _ X2)]|]. split; auto. rewrite L2. unfold mloc. destruct P as [P|P]; rewrite P; exact Logic.I. }
  exists k3, ((MTEv MTxDone :: map MTOut o2) ++ o3). split; [cbn [m_run]; rewrite A2; cbn [bind]; fold k2; rewrite R3; reflexivity|].
  split. { rewrite <- app_assoc in B. rewrite <- (app_nil_r (visible t)) in B. exact (visible_rest _ _ _ B). }
  split. { intros n Aw. apply awaits_loc in Aw. destruct (mloc k3); try discriminate Aw; exact Q. }
  unfold busy. unfold mloc, m_dispatch in Q. destruct (mc_pc k3) as [[]|]; auto; try (destruct Q; fail). destruct (mm_st (mc_s k3)); auto; destruct Q.
Qed.
Print Assumptions C28_refuted.
(** What holds: at line 407 and in the transmitting state a completion interrupt brings the master to waiting within the next poll,
    whatever else happens.  Missing: interrupts at lines 405 and 406. *)
Theorem C28_waiting_partial : forall c sched k t a v, cfg_master_ok c -> m_history c sched k t -> current t = Some a -> mc_pc k = Some M407 \/ transmits k \/ mc_pc k = Some M669 ->
  reqs_safe v -> (7 <= m_steps v)%nat ->
  exists s1 s2 k' o, v = s1 ++ s2 /\ m_run c (MEv MTxDone :: s1) k = Ok (k', o) /\ visible o = [] /\ mc_pc k' = None /\ mm_st (mc_s k') = M_RESP_WAITING.
Proof.
  intros c sched k t a v Hc H Cu P HS W. assert (I := history_cinv _ _ _ _ Hc H).
  assert (L : mloc k = M407 \/ mloc k = M669). { destruct P as [P|[P|P]]; [left; unfold mloc; rewrite P; auto|right; apply transmits_loc; auto|right; unfold mloc; rewrite P; auto]. }
  destruct (event_now c Hc _ _ MTxDone I safetx) as (s2 & o2 & E2 & X2 & I2 & L2 & A2). set (k2 := mk_mconf s2 (mc_pc k)) in *.
  destruct (to_waiting c a (finished t) (visible t) Hc v (t ++ MTEv MTxDone :: map MTOut o2) k2) as (v1 & v2 & k3 & o3 & Ev & R3 & I3 & (_ & _ & B) & L3 & P3); auto.
  { apply base_ev; [apply base_now; auto|apply (ef_o _ _ _ _ _ X2)]. } { apply (ef_tx _ _ _ _ _ X2). } { rewrite L2. tauto. }
  exists v1, v2, k3, ((MTEv MTxDone :: map MTOut o2) ++ o3). split; auto. split; [cbn [m_run]; rewrite A2; cbn [bind]; fold k2; rewrite R3; reflexivity|].
  split. { rewrite <- app_assoc in B. rewrite <- (app_nil_r (visible t)) in B. exact (visible_rest _ _ _ B). }
  split; auto. unfold mloc in L3. rewrite P3 in L3. unfold m_dispatch in L3. destruct (mm_st (mc_s k3)); try discriminate L3; auto.
Qed.
Print Assumptions C28_waiting_partial.

(** *** concrete cases *)
Lemma corrupt_bad : ~ crc_ok corrupt.
Proof. intros X. apply crc_ok_iff in X; [vm_compute in X; discriminate X|apply bytes_dec; reflexivity]. Qed.
Lemma answer_good : crc_ok rh_answer.
Proof. exists [9; 3; 4; 18; 52; 171; 205]. reflexivity. Qed.
(** the bytes [f] with a tick between the first two, and possibly a frame error *)
Definition arrives (f : list Z) (fe : bool) : list mact := mfeed (firstn 1 f) ++ MEv MTick :: MStep :: mfeed (skipn 1 f) ++ (if fe then [MEv MFrameErr] else []).
Definition sample_try (f : list Z) (fe : bool) : try := mk_try (msteps 8) (msteps 8) (arrives f fe) (msteps 6) (msteps 21).
Lemma sample_timed f fe : f = rh_answer \/ f = corrupt -> try_timed (c_timeout mcfg) (sample_try f fe).
Proof.
  intros H. assert (X : ~ In MT15 (m_events (y_rx (sample_try f fe))) /\ ticks (m_events (y_rx (sample_try f fe))) = 1%nat) by (destruct H as [->| ->]; destruct fe; split; vm_compute; try reflexivity; intuition discriminate).
  destruct X as [X1 X2]. constructor; cbn [y_send y_tx]; try (intros e []); try (vm_compute; lia).
  constructor; cbn [y_15 y_35]; auto; try (intros e []); try (vm_compute; lia). rewrite ticks_app, X2. vm_compute. discriminate.
Qed.
Lemma sample_good : good_answer rh (sample_try rh_answer false).
Proof.
  split; [split; [vm_compute; reflexivity|vm_compute; lia]|]. split; [exact answer_good|]. split; [|vm_compute; intuition discriminate]. right. split; [reflexivity|]. split; [vm_compute; lia|]. intros _. vm_compute. discriminate.
Qed.
Lemma sample_crc_bad : crc_bad rh (sample_try corrupt false).
Proof. split; [split; [vm_compute; reflexivity|vm_compute; lia]|]. split; [exact corrupt_bad|vm_compute; intuition discriminate]. Qed.
Lemma sample_frame_bad : frame_bad rh (sample_try rh_answer true).
Proof. split; [split; [vm_compute; reflexivity|vm_compute; lia]|]. split; [exact answer_good|vm_compute; intuition]. Qed.
Definition asked : list mact := ask rh.
Lemma asked_history : m_history mcfg asked (fst (run_of asked)) (snd (run_of asked)).
Proof. exists m0. split; [apply m0_started|]. split; [one_req|vm_compute; reflexivity]. Qed.
Example C31_case : m_history mcfg waiting_sched wait_k wait_t /\ current wait_t = Some rh /\ awaits wait_k 4 /\ m_received wait_t = [] /\ no_leftovers wait_k /\
  good_answer rh (sample_try rh_answer false) /\ answer_timed 4 (sample_try rh_answer false) /\ delivered rh rh_answer = Some [HregRead 9 1 0x1234; HregRead 9 2 0xABCD].
Proof.
  split; [apply waiting_history|]. destruct wait_awaits as (A & B & C). split; auto. split; auto. split; auto. split; [repeat split|]. split; [apply sample_good|].
  split; [|reflexivity]. destruct (sample_timed rh_answer false (or_introl eq_refl)) as [_ _ _ _ X]. exact X.
Qed.
Example C31_refuted_case : let u := mfeed rh_answer in let f := rx_bytes (m_events u) in hd_error f = Some (api_id rh) /\ (length f < 256)%nat /\ crc_ok f /\ complete_answer rh f /\
  ~ In MT15 (m_events u) /\ ~ In MFrameErr (m_events u) /\ 2 + sched_ticks (u ++ msteps 6) <= 4 /\ (6 <= m_steps (msteps 6))%nat /\ forall e, In e (m_events (msteps 6 ++ msteps 1000)) -> bev e.
Proof.
  split; [reflexivity|]. split; [vm_compute; lia|]. split; [exact answer_good|]. split; [apply sample_good|]. split; [vm_compute; intuition discriminate|]. split; [vm_compute; intuition discriminate|].
  split; [vm_compute; discriminate|]. split; [vm_compute; lia|]. intros e He. vm_compute in He. destruct He.
Qed.
Example C32_case : m_history mcfg asked (fst (run_of asked)) (snd (run_of asked)) /\ current (snd (run_of asked)) = Some rh /\ idle (fst (run_of asked)) /\ no_leftovers (fst (run_of asked)) /\
  Forall (fun y => try_timed (c_timeout mcfg) y /\ (crc_bad rh y \/ frame_bad rh y)) [sample_try corrupt false; sample_try rh_answer true] /\
  try_timed (c_timeout mcfg) (sample_try rh_answer false) /\ good_answer rh (sample_try rh_answer false).
Proof.
  split; [apply asked_history|]. split; [reflexivity|]. split; [split; reflexivity|]. split; [repeat split|]. split; [|split; [apply sample_timed; auto|apply sample_good]].
  constructor; [split; [apply sample_timed; auto|left; apply sample_crc_bad]|]. constructor; [split; [apply sample_timed; auto|right; apply sample_frame_bad]|constructor].
Qed.
Definition failed_sched : list mact :=
  ask rh ++ concat (repeat (msteps 12 ++ [MEv MTxDone] ++ msteps 6 ++ mfeed damaged ++ [MEv MT15] ++ msteps 16 ++ [MEv MT35] ++ msteps 21) 2) ++ ask rh.
Lemma failed_history : m_history mcfg failed_sched (fst (run_of failed_sched)) (snd (run_of failed_sched)).
Proof. exists m0. split; [apply m0_started|]. split; [one_req|vm_compute; reflexivity]. Qed.
Example C27_case : m_history mcfg failed_sched (fst (run_of failed_sched)) (snd (run_of failed_sched)) /\ current (snd (run_of failed_sched)) = Some rh /\ idle (fst (run_of failed_sched)) /\
  mm_t15 (mc_s (fst (run_of failed_sched))) = CLEARED /\ crc_error_reported (snd (run_of failed_sched)) = true /\ mm_crc (mc_s (fst (run_of failed_sched))) = SET /\ mm_fe (mc_s (fst (run_of failed_sched))) = CLEARED /\
  try_timed (c_timeout mcfg) (sample_try rh_answer false) /\ good_answer rh (sample_try rh_answer false).
Proof.
  split; [apply failed_history|]. split; [vm_compute; reflexivity|]. split; [split; vm_compute; reflexivity|]. split; [vm_compute; reflexivity|]. split; [vm_compute; reflexivity|]. split; [vm_compute; reflexivity|]. split; [vm_compute; reflexivity|].
  split; [apply sample_timed; auto|apply sample_good].
Qed.
Definition handed : list mact := ask rh ++ msteps 4.
Definition handed_later : list mact := ask rh ++ msteps 6.
Example C28_case : (m_history mcfg handed (fst (run_of handed)) (snd (run_of handed)) /\ current (snd (run_of handed)) = Some rh /\ mc_pc (fst (run_of handed)) = Some M405) /\
  (m_history mcfg handed_later (fst (run_of handed_later)) (snd (run_of handed_later)) /\ current (snd (run_of handed_later)) = Some rh /\ mc_pc (fst (run_of handed_later)) = Some M407).
Proof. split; (split; [exists m0; split; [apply m0_started|]; split; [one_req|vm_compute; reflexivity]|split; vm_compute; reflexivity]). Qed.
