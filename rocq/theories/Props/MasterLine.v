(** C71-C74: what a user of the master firmware sees of the line: requests go out, answers come in, results are delivered. *)
From Verif Require Import Props.MasterRun Props.MasterTime Props.MasterRetry Props.MasterSystem.
From Verif Require Import Proofs.MasterWire Proofs.MasterLines.

Lemma w_history_lib c sched w t : w_history c sched w t -> exists ls, m_history c ls (w_lib w) (m_lib_of t).
Proof. intros (w0 & S0 & HS & R). eapply C68_library_inside; eauto. Qed.
Lemma w_history_cinv c sched w t : cfg_master_ok c -> w_history c sched w t -> cinv c (m_lib_of t) (mloc (w_lib w)) (mc_s (w_lib w)).
Proof. intros Hc H. destruct (w_history_lib _ _ _ _ H) as (ls & Hl). eapply history_cinv; eauto. Qed.
Lemma w_history_more c sched w t l w' t' : w_history c sched w t -> w_reqs_safe l -> w_run c l w = Ok (w', t') -> w_history c (sched ++ l) w' (t ++ t').
Proof.
  intros (w0 & S0 & HS & R) HL R'. exists w0. split; auto. split; [apply wsafe_app; auto|]. rewrite w_run_app, R. cbn [bind]. rewrite R'. reflexivity.
Qed.

(** *** C71 *)
(** The slave's answers to the first transmissions are damaged, at most R of them, the next one is intact: the request's frame is on the line
    once per answer, the intact answer is delivered and the message buffer is free again; nothing else is seen. *)
Theorem C71_answer_on_the_line : forall c sched w t a bad f v, cfg_master_ok c -> 2 <= c_timeout c < 4294967296 -> w_history c sched w t -> w_ready w -> current (m_lib_of t) = Some a ->
  Z.of_nat (length bad) <= c_repeat c -> Forall (fun p => bad_frame a (fst p) /\ wtry_ok (c_timeout c) (length (request_frame a)) (fst p) (snd p)) bad ->
  good_frame a f -> wtry_ok (c_timeout c) (length (request_frame a)) f v -> w_reqs_safe (exch_sched (Answered bad f v)) ->
  exists l1 l2 w' t' l, exch_sched (Answered bad f v) = l1 ++ l2 /\ w_run c l1 w = Ok (w', t') /\ w_rests w' /\ delivered a f = Some l /\
    m_on_line t' = concat (repeat (request_frame a) (S (length bad))) /\ visible (m_lib_of t') = sends a (S (length bad)) ++ map VCb l ++ [VFree].
Proof.
  intros c sched w t a bad f v Hc HT H (Id & Nl & D) Cu Le Hb Hg Hv HS. assert (I := w_history_cinv _ _ _ _ Hc H).
  destruct (line_exchange c a (Answered bad f v) [] (m_lib_of t) w Hc HT) as (l1 & l2 & w' & t' & l & E & _ & R & De & Nl' & (_ & Id' & _ & V) & O & D'); auto.
  { cbn. auto. }
  exists l1, l2, w', t', l. split; auto. split; auto. split; [split; auto|]. split; auto. split; auto. cbn [exch_sends] in V. rewrite <- app_assoc in V. exact (visible_rest _ _ _ V).
Qed.
Print Assumptions C71_answer_on_the_line.

(** *** C72 *)
(** All R+1 answers are damaged: the request's frame is on the line R+1 times, one communication error is reported and the buffer is free. *)
Theorem C72_damaged_answers_on_the_line : forall c sched w t a bad, cfg_master_ok c -> 2 <= c_timeout c < 4294967296 -> w_history c sched w t -> w_ready w -> current (m_lib_of t) = Some a ->
  Z.of_nat (length bad) = c_repeat c + 1 -> Forall (fun p => bad_frame a (fst p) /\ wtry_ok (c_timeout c) (length (request_frame a)) (fst p) (snd p)) bad ->
  w_reqs_safe (concat (map (fun p => wtry_sched (snd p)) bad)) ->
  exists l1 l2 w' t' e, concat (map (fun p => wtry_sched (snd p)) bad) = l1 ++ l2 /\ w_run c l1 w = Ok (w', t') /\ idle (w_lib w') /\ driver_rests w' /\
    r_err e = RESP_RTU_CRC_ERR /\ r_id e = api_id a /\
    m_on_line t' = concat (repeat (request_frame a) (length bad)) /\ visible (m_lib_of t') = sends a (length bad) ++ [VCb (CommErr e); VFree].
Proof.
  intros c sched w t a bad Hc HT H (Id & Nl & D) Cu Le Hb HS. assert (I := w_history_cinv _ _ _ _ Hc H). assert (L := idle_loc _ Id).
  destruct (exists_last (l := bad)) as (ys & y & ->). { intros ->. cbn in Le. unfold cfg_master_ok in Hc. lia. }
  assert (Ln : length (ys ++ [y]) = S (length ys)) by (rewrite app_length; cbn; lia). rewrite Ln in *.
  destruct (line_failed c Hc a ys y (finished (m_lib_of t)) (visible (m_lib_of t)) [] (m_lib_of t) w) as (l1 & l2 & w' & t' & e & E & _ & R & ((_ & Id' & _ & V) & O & D') & Re & Ie); auto.
  { unfold bad_one. rewrite timeout_u32 by auto. exact Hb. } { lia. } { split; [apply ready_idle; auto|]. split; auto. rewrite L. reflexivity. }
  exists l1, l2, w', t', e. split; auto. split; auto. split; auto. split; auto. split; auto. split; auto. split; auto. rewrite <- app_assoc in V. exact (visible_rest _ _ _ V).
Qed.
Print Assumptions C72_damaged_answers_on_the_line.

(** *** C73 *)
(** Nobody answers: the request's frame is on the line once, a timeout error that names the request is reported before T milliseconds have passed
    since the master started to wait, and the buffer is free. *)
Theorem C73_silence_on_the_line : forall c sched w t a x, cfg_master_ok c -> 2 <= c_timeout c < 4294967296 -> w_history c sched w t -> w_ready w -> current (m_lib_of t) = Some a ->
  wsilent_ok (c_timeout c) (length (request_frame a)) x -> w_reqs_safe (wsilent_sched x) ->
  exists l1 l2 w' t' r, wsilent_sched x = l1 ++ l2 /\ w_run c l1 w = Ok (w', t') /\ w_rests w' /\ timeout_report_of a r /\
    m_on_line t' = request_frame a /\ visible (m_lib_of t') = [VSend (request_frame a); VCb (TimeoutErr r); VFree].
Proof.
  intros c sched w t a x Hc HT H (Id & Nl & D) Cu Ok HS. assert (I := w_history_cinv _ _ _ _ Hc H).
  destruct (line_exchange c a (Unanswered x) [] (m_lib_of t) w Hc HT) as (l1 & l2 & w' & t' & l & E & _ & R & (r & -> & Tr) & Nl' & (_ & Id' & _ & V) & O & D'); auto.
  exists l1, l2, w', t', r. split; auto. split; auto. split; [split; auto|]. split; auto. split. { rewrite O. unfold frames_out. cbn [exch_sends repeat concat]. apply app_nil_r. }
  rewrite <- app_assoc in V. exact (visible_rest _ _ _ V).
Qed.
Print Assumptions C73_silence_on_the_line.

(** *** C74 *)
(** A queue of requests, each answered (after at most R damaged answers) or not: what is on the line is the requests' frames, in order, and every request gets its result. *)
Theorem C74_queue_on_the_line : forall c sched w t ps more, cfg_master_ok c -> 2 <= c_timeout c < 4294967296 -> w_history c sched w t -> w_ready w ->
  pending_reqs (m_lib_of t) = map fst ps ++ more -> Forall (fun p => exch_ok c (fst p) (snd p)) ps -> w_reqs_safe (concat (map (fun p => exch_sched (snd p)) ps)) ->
  exists l1 l2 w' t' ls, concat (map (fun p => exch_sched (snd p)) ps) = l1 ++ l2 /\ forallb w_plain l2 = true /\ w_run c l1 w = Ok (w', t') /\ w_ready w' /\ (ps <> [] -> w_rests w') /\
    Forall2 (fun p l => exch_result (fst p) (snd p) l) ps ls /\
    m_on_line t' = concat (map exch_frames ps) /\ visible (m_lib_of t') = concat (map exch_view (combine ps ls)) /\
    pending_reqs (m_lib_of (t ++ t')) = more ++ accepted (m_lib_of t').
Proof.
  intros c sched w t ps more Hc HT H (Id & Nl & D) Pd Ok HS. assert (I := w_history_cinv _ _ _ _ Hc H).
  destruct (line_all c Hc HT ps more [] (m_lib_of t) w) as (l1 & l2 & w' & t' & ls & E & P & R & Re & _ & Id' & Nl' & D' & D2 & O & V & _ & Pd'); auto.
  exists l1, l2, w', t', ls. split; auto. split; auto. split; auto. split; [split; auto|]. split; [intros X; split; auto|]. rewrite m_lib_of_app. auto.
Qed.
Print Assumptions C74_queue_on_the_line.

(** *** cases *)
Lemma rounds_out_n n : w_rounds n (w_out n).
Proof. unfold w_out. induction n as [|n IH]; [constructor|]. exact (w_rounds_S n [] [] _ IH). Qed.
Definition line_try_of (f : list Z) : wtry :=
  mk_wtry (wmains 14) (w_out 8 ++ [WTick]) (wmains 8) (flat_map (fun b => [WRx b; WMain; WUsart]) f ++ [WRto]) (wmains 12 ++ [WTim]) (wmains 24).
Lemma rounds_more n l r : w_rounds n l -> w_rounds n (l ++ r).
Proof.
  induction 1 as [|n a b l H IH]; [constructor|]. replace ((a ++ WShift :: b ++ WUsart :: l) ++ r) with (a ++ WShift :: b ++ WUsart :: (l ++ r)); [now constructor|].
  rewrite <- ?app_assoc. cbn [app]. rewrite <- ?app_assoc. reflexivity.
Qed.
Lemma line_try_ok f : wtry_ok 4 8 f (line_try_of f).
Proof.
  assert (X : w_hardware (v_rx (line_try_of f)) = flat_map (fun b => [WRx b; WUsart]) f ++ [WRto]).
  { cbn [line_try_of v_rx]. unfold w_hardware. rewrite filter_app. cbn. f_equal. induction f as [|b f IH]; auto. cbn. rewrite IH. reflexivity. }
  assert (Y : w_ticks (v_rx (line_try_of f)) = 0%nat).
  { cbn [line_try_of v_rx]. rewrite w_ticks_app. replace (w_ticks [WRto]) with 0%nat by reflexivity. clear X. induction f as [|b f IH]; auto. }
  constructor; auto; try (vm_compute; reflexivity); try (vm_compute; lia).
  - apply rounds_more, rounds_out_n.
  - rewrite !w_ticks_app, Y. vm_compute. discriminate.
Qed.
Definition line_silence : wsilent := mk_wsilent (wmains 14) (w_out 8) (wmains 8) (repeat (WTick :: wmains 9) 3).
Lemma line_silence_ok : wsilent_ok 4 8 line_silence.
Proof.
  constructor; try (vm_compute; reflexivity); try (vm_compute; lia); try (vm_compute; discriminate).
  - apply rounds_out_n.
  - repeat constructor; exists (wmains 9); repeat split; vm_compute; lia.
Qed.
Definition broken : list Z := [9; 3; 4; 18; 53; 171; 205; 0; 0].
Lemma broken_bad : bad_frame rh broken.
Proof. split; [split; [repeat constructor; lia|split; [reflexivity|cbn; lia]]|]. intros X. apply crc_ok_iff in X; [vm_compute in X; discriminate X|repeat constructor; lia]. Qed.
Lemma answer_fine : good_frame rh rh_answer.
Proof.
  split; [split; [apply Verif.Props.Frames.bytes_dec; vm_compute; reflexivity|split; [reflexivity|vm_compute; lia]]|]. split; [exact answer_good|]. right. split; [reflexivity|]. split; [vm_compute; lia|]. intros _. vm_compute. discriminate.
Qed.
Definition start_reqs (l : list api) : list wact := map WReq l.
Definition after (l : list wact) : mfw * list witem := match w_run mcfg l w0 with Ok x => x | _ => (w0, []) end.
Lemma after_history n : (n <= 3)%nat -> let s := start_reqs (repeat rh n) in w_history mcfg s (fst (after s)) (snd (after s)).
Proof.
  intros Hn s. exists w0. split; [apply w0_started|]. split.
  - intros a Ha. unfold s, start_reqs in Ha. apply in_map_iff in Ha as (b & E & Hb). inversion E; subst. apply repeat_spec in Hb. subst. apply rh_safe.
  - do 4 (destruct n as [|n]; [vm_compute; reflexivity|]). lia.
Qed.
Lemma rest_check w : w_rests w <-> mc_pc (w_lib w) = None /\ mm_st (mc_s (w_lib w)) = M_IDLE /\ no_leftovers (w_lib w) /\ driver_rests w.
Proof. unfold w_rests, idle. tauto. Qed.
Lemma after_rests n : (n <= 3)%nat -> w_rests (fst (after (start_reqs (repeat rh n)))).
Proof. intros Hn. do 4 (destruct n as [|n]; [vm_compute; repeat split; discriminate|]). lia. Qed.
Lemma no_calls_safe l : forallb (fun x => match x with WReq _ => false | _ => true end) l = true -> w_reqs_safe l.
Proof. intros H a Ha. rewrite forallb_forall in H. apply H in Ha. discriminate. Qed.
Definition sample_exch : list (api * exch) := [(rh, Answered [(broken, line_try_of broken)] rh_answer (line_try_of rh_answer)); (rh, Unanswered line_silence); (rh, Answered [] rh_answer (line_try_of rh_answer))].
Lemma sample_exch_ok : Forall (fun p => exch_ok mcfg (fst p) (snd p)) sample_exch.
Proof.
  assert (G : wtry_ok 4 8 rh_answer (line_try_of rh_answer)) by apply line_try_ok.
  constructor; [|constructor; [exact line_silence_ok|constructor; [|constructor]]]; cbn [fst snd exch_ok].
  - split; [vm_compute; discriminate|]. split; [constructor; [|constructor]; split; [apply broken_bad|apply line_try_ok]|]. split; [apply answer_fine|exact G].
  - split; [vm_compute; discriminate|]. split; [constructor|]. split; [apply answer_fine|exact G].
Qed.
Example C71_C74_case : let s := start_reqs (repeat rh 3) in let w := fst (after s) in let t := snd (after s) in
  w_history mcfg s w t /\ w_rests w /\ pending_reqs (m_lib_of t) = map fst sample_exch /\ Forall (fun p => exch_ok mcfg (fst p) (snd p)) sample_exch /\ w_reqs_safe (concat (map (fun p => exch_sched (snd p)) sample_exch)) /\
  delivered rh rh_answer = Some [HregRead 9 1 0x1234; HregRead 9 2 0xABCD].
Proof.
  split; [apply after_history; lia|]. split; [apply after_rests; lia|]. split; [vm_compute; reflexivity|]. split; [apply sample_exch_ok|]. split; [apply no_calls_safe; vm_compute; reflexivity|vm_compute; reflexivity].
Qed.
Example C72_case : Z.of_nat (length [(broken, line_try_of broken); (broken, line_try_of broken)]) = c_repeat mcfg + 1 /\
  Forall (fun p => bad_frame rh (fst p) /\ wtry_ok (c_timeout mcfg) (length (request_frame rh)) (fst p) (snd p)) [(broken, line_try_of broken); (broken, line_try_of broken)].
Proof. split; [reflexivity|]. constructor; [|constructor; [|constructor]]; split; try exact broken_bad; apply line_try_ok. Qed.
(** noise on the line: after a request has been served the frame-end flag is set and the timer is running, and yet the next request can be sent *)
(** A frame of another slave arrives while the master waits, then the response timeout expires before the driver's timer: the next request is sent although the frame-end flag is set and
    the timer is running. *)
Definition noisy : list wact :=
  let v := line_try_of rh_answer in
  start_reqs (repeat rh 2) ++ v_send v ++ w_out 8 ++ v_wait v ++ [WRx 5; WUsart; WRto; WUsart] ++ wmains 20 ++ repeat WTick 3 ++ wmains 5.
Example C71_case_noise : let w := fst (after noisy) in let t := snd (after noisy) in
  w_history mcfg noisy w t /\ w_ready w /\ u_det (w_u w) = true /\ u_cen (w_u w) = true /\ current (m_lib_of t) = Some rh.
Proof.
  split.
  - exists w0. split; [apply w0_started|]. split; [|vm_compute; reflexivity].
    intros a Ha. unfold noisy in Ha. apply in_app_or in Ha as [Ha|Ha]; [unfold start_reqs in Ha; apply in_map_iff in Ha as (b & E & Hb); inversion E; subst; apply repeat_spec in Hb; subst; apply rh_safe|].
    exfalso. revert a Ha. assert (X : forall l, forallb (fun x => match x with WReq _ => false | _ => true end) l = true -> forall a, In (WReq a) l -> False) by (intros l H a Ha; rewrite forallb_forall in H; apply H in Ha; discriminate). apply X. vm_compute. reflexivity.
  - vm_compute. repeat split; discriminate.
Qed.
