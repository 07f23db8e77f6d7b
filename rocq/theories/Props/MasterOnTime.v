(** C107: the master firmware with the interrupt handlers' statements one by one: requests, answers and results when every hardware event is on time. *)
From Verif Require Import Props.MasterRun Props.MasterTime Props.MasterRetry Props.MasterSystem Props.MasterLine Props.MasterHandlers.
From Verif Require Import Proofs.MasterWire Proofs.MasterLines Proofs.Bus Proofs.MasterOnTime.
From Verif Require Import Model.MasterHandlers Spec.MasterHandlers.

(** If every hardware event is on time (a character does not arrive before the handler has fetched the one before, and so on), the firmware with indivisible handlers does
    the same under the same schedule, the driver's handlers happening when they start and SysTick's when it ends. *)
Theorem C107_exact_partial : forall c h0 sched h t, hfw_started c h0 -> cr1_undisturbed c h0 sched -> h_on_time c h0 sched -> h_run c sched h0 = Ok (h, t) -> h_irq h = None ->
  exists t', w_run c (acts_of c sched h0) (h_fw h0) = Ok (h_fw h, t') /\ m_lib_of t' = m_lib_of t /\ m_on_line t' = m_on_line t.
Proof.
  intros c h0 sched h t HS CR T R Q. destruct (started_side c h0 HS) as (S1 & S2). destruct (exact_run c h0 sched S1 S2 CR T h t R) as ([t' _ R' L O|] & _); [|congruence]. eauto.
Qed.
Print Assumptions C107_exact_partial.
Lemma acts_reqs c l : forall h, h_reqs_safe l -> w_reqs_safe (acts_of c l h).
Proof.
  induction l as [|a l IH]; intros h H r I; [contradiction|]. cbn [acts_of] in I. apply in_app_or in I as [I|I].
  - apply act_of_req in I. subst a. apply H. now left.
  - destruct (h_act c a h) as [[h1 t1]| |]; [|contradiction..]. apply (IH h1); auto. intros x Hx. apply H. now right.
Qed.
Lemma always_suffix c h a b h1 t1 (P : hact -> hfw -> Prop) : h_run c a h = Ok (h1, t1) -> h_always c h (a ++ b) (fun x h _ => P x h) -> h_always c h1 b (fun x h _ => P x h).
Proof. intros R H l1 x l2 h2 t2 -> E. apply (H (a ++ l1) x l2 h2 (t1 ++ t2)); [now rewrite <- app_assoc|]. rewrite h_run_app, R. cbn [bind]. rewrite E. reflexivity. Qed.
(** C71, C73 and C74: a queue of requests, each answered (after at most R damaged answers) or not. However the earlier events fell, and with the later ones on time:
    on the line are the requests' frames, in order, and every request gets its result. *)
Theorem C107_queue_on_the_line_partial : forall c h00 sched0 h0 t0 sched h t ps more, cfg_master_ok c -> 2 <= c_timeout c < 4294967296 -> hfw_started c h00 ->
  h_reqs_safe (sched0 ++ sched) -> cr1_undisturbed c h00 (sched0 ++ sched) ->
  h_run c sched0 h00 = Ok (h0, t0) -> h_irq h0 = None -> w_ready (h_fw h0) ->
  h_on_time c h0 sched -> h_run c sched h0 = Ok (h, t) -> h_irq h = None ->
  pending_reqs (m_lib_of t0) = map fst ps ++ more -> Forall (fun p => exch_ok c (fst p) (snd p)) ps ->
  acts_of c sched h0 = concat (map (fun p => exch_sched (snd p)) ps) ->
  m_on_line t = concat (map exch_frames ps) /\
  exists ls rest, Forall2 (fun p l => exch_result (fst p) (snd p) l) ps ls /\ visible (m_lib_of t) = concat (map exch_view (combine ps ls)) ++ rest.
Proof.
  intros c h00 sched0 h0 t0 sched h t ps more Hc HT HS HR CR R0 Q0 Re T R Q Pd Ok Ac.
  assert (HR0 : h_reqs_safe sched0) by (eapply h_safe_prefix; eauto). assert (HR1 : h_reqs_safe sched) by (intros x Hx; apply HR, in_or_app; auto).
  assert (CR0 : cr1_undisturbed c h00 sched0) by (eapply always_prefix; exact CR). assert (CR1 : cr1_undisturbed c h0 sched) by (eapply always_suffix; [exact R0|exact CR]).
  destruct (C104_handlers_partial _ _ _ _ _ HS CR0 R0 Q0) as (ws & t' & _ & R' & L & _ & Sf & _).
  assert (Hi : w_history c ws (h_fw h0) t') by (exists (h_fw h00); split; [apply HS|]; auto).
  destruct (started_side c h00 HS) as (S1 & S2). pose proof (sim c h00 sched0 S1 S2 CR0) as X. rewrite R0 in X. destruct X as (_ & Sd).
  destruct (exact_run c h0 sched Sd Q0 CR1 T h t R) as ([t2 _ R2 L2 O2|] & _); [|congruence]. rewrite Ac in R2.
  assert (WS : w_reqs_safe (concat (map (fun p => exch_sched (snd p)) ps))) by (rewrite <- Ac; now apply acts_reqs).
  rewrite <- L in Pd.
  destruct (C74_queue_on_the_line c ws (h_fw h0) t' ps more Hc HT Hi Re Pd Ok WS) as (l1 & l2 & w' & t1 & ls & E & Pl & R1 & _ & _ & F & Ol & Vi & _).
  rewrite E, w_run_app, R1 in R2. cbn [bind] in R2. destruct (w_run c l2 w') as [[w2 tl]| |] eqn:Rl; try discriminate R2. cbn [bind] in R2. inversion R2; subst.
  rewrite <- L2, <- O2, m_lib_of_app, m_on_line_app, (plain_no_line _ _ Pl _ _ _ Rl), app_nil_r, visible_app, Vi. split; auto. eauto.
Qed.
Print Assumptions C107_queue_on_the_line_partial.

(** *** a case *)
Definition hon_timeb (x : hact) (h : hfw) (t : list witem) : bool := match x, h_irq h with HHw y, Some p => implb (is_hw y) (passed y p) | _, _ => true end.
Lemma hon_time_check c l h : h_checkb c hon_timeb l h [] = true -> h_on_time c h l.
Proof. apply h_check. intros x h1 t E y p -> Hy Q. unfold hon_timeb in E. rewrite Q, Hy in E. exact E. Qed.
(** bytes leave while the handler that wrote them still runs, characters arrive while the handler still stores the one before; SysTick's handler is interrupted *)
Definition o_out (n : nat) : list hact := HHw WShift :: concat (repeat ([HUsart] ++ hsteps 7 ++ [HHw WShift] ++ hsteps 10) n).
Definition o_in (f : list Z) : list hact := [HHw (WRx (hd 0 f))] ++ concat (map (fun b => [HUsart] ++ hsteps 2 ++ [HHw (WRx b)] ++ hsteps 15) (tl f)) ++ [HUsart] ++ hsteps 17.
Definition o_try (f : list Z) : list hact :=
  hmains 16 ++ o_out 8 ++ [HTick; HStep; HStep; HStep] ++ hmains 8 ++ o_in f ++ [HHw WRto; HUsart] ++ hsteps 16 ++ hmains 14 ++ [HHw WTim; HTimer] ++ hsteps 6 ++ hmains 24.
Definition o_twice : list hact := repeat (HReq rh) 2.
Definition o_after (l : list hact) : hfw * list witem := match h_run mcfg l h00 with Ok x => x | _ => (h00, []) end.
(** a damaged answer, the intact one; then nobody answers *)
Definition o_silence : list hact := hmains 16 ++ o_out 8 ++ hmains 8 ++ concat (repeat ([HTick; HStep; HStep; HStep] ++ hmains 9) 3).
Definition o_all : list hact := (o_try broken ++ o_try rh_answer) ++ o_silence.
Definition o_seen (f : list Z) : wtry :=
  mk_wtry (wmains 14) (w_out 8 ++ [WShift; WTick]) (wmains 8) (flat_map (fun b => [WRx b; WUsart]) f ++ [WRto]) (wmains 14 ++ [WTim]) (wmains 24).
Definition o_unheard : wsilent := mk_wsilent (wmains 14) (w_out 8 ++ [WShift]) (wmains 8) (repeat (WTick :: wmains 9) 3).
Definition o_exch : list (api * exch) := [(rh, Answered [(broken, o_seen broken)] rh_answer (o_seen rh_answer)); (rh, Unanswered o_unheard)].
Lemma o_seen_ok f : wtry_ok 4 8 f (o_seen f).
Proof.
  assert (X : w_hardware (v_rx (o_seen f)) = flat_map (fun b => [WRx b; WUsart]) f ++ [WRto]).
  { cbn [o_seen v_rx]. unfold w_hardware. rewrite filter_app. cbn. f_equal. induction f as [|b f IH]; auto. cbn. rewrite IH. reflexivity. }
  assert (Y : w_ticks (v_rx (o_seen f)) = 0%nat).
  { cbn [o_seen v_rx]. rewrite w_ticks_app. replace (w_ticks [WRto]) with 0%nat by reflexivity. clear X. induction f as [|b f IH]; auto. }
  constructor; auto; try (vm_compute; reflexivity); try (vm_compute; lia).
  - apply rounds_more, rounds_out_n.
  - rewrite !w_ticks_app, Y. vm_compute. discriminate.
Qed.
Lemma o_unheard_ok : wsilent_ok 4 8 o_unheard.
Proof.
  constructor; try (vm_compute; reflexivity); try (vm_compute; lia); try (vm_compute; discriminate).
  - apply rounds_more, rounds_out_n.
  - repeat constructor; exists (wmains 9); repeat split; vm_compute; lia.
Qed.
Lemma h_no_calls l : forallb (fun x => match x with HReq _ => false | _ => true end) l = true -> h_reqs_safe l.
Proof. intros H a Ha. rewrite forallb_forall in H. apply H in Ha. discriminate. Qed.
Lemma o_twice_safe l : h_reqs_safe l -> h_reqs_safe (o_twice ++ l).
Proof. intros H a [E|[E|I]]; [inversion E; apply rh_safe..|apply H, I]. Qed.
Example C107_case : let h0 := fst (o_after o_twice) in let t0 := snd (o_after o_twice) in
  hfw_started mcfg h00 /\ h_reqs_safe (o_twice ++ o_all) /\ cr1_undisturbed mcfg h00 (o_twice ++ o_all) /\ h_run mcfg o_twice h00 = Ok (h0, t0) /\ h_irq h0 = None /\ w_ready (h_fw h0) /\
  h_on_time mcfg h0 o_all /\ pending_reqs (m_lib_of t0) = map fst o_exch /\ Forall (fun p => exch_ok mcfg (fst p) (snd p)) o_exch /\
  acts_of mcfg o_all h0 = concat (map (fun p => exch_sched (snd p)) o_exch) /\
  exists h t, h_run mcfg o_all h0 = Ok (h, t) /\ h_irq h = None /\ m_on_line t = concat (repeat [9; 3; 0; 1; 0; 2; 148; 131] 3) /\
    map (fun v => match v with VCb (TimeoutErr _) => 2 | VCb _ => 1 | VSend _ => 0 | VFree => 3 end) (visible (m_lib_of t)) = [0; 0; 1; 1; 3; 0; 2; 3].
Proof.
  cbv zeta. split; [apply h00_started|]. split; [apply o_twice_safe, h_no_calls; vm_compute; reflexivity|]. split; [apply cr1_check; vm_compute; reflexivity|].
  split; [vm_compute; reflexivity|]. split; [vm_compute; reflexivity|]. split; [vm_compute; repeat split; discriminate|]. split; [apply hon_time_check; vm_compute; reflexivity|].
  split; [vm_compute; reflexivity|]. split.
  { constructor; [|constructor; [exact o_unheard_ok|constructor]]; cbn [fst snd exch_ok]. split; [vm_compute; discriminate|].
    split; [constructor; [|constructor]; split; [apply broken_bad|apply o_seen_ok]|]. split; [apply answer_fine|apply o_seen_ok]. }
  split; [vm_compute; reflexivity|]. do 2 eexists. split; [vm_compute; reflexivity|]. vm_compute. auto.
Qed.
