(** C104: the master firmware with the interrupt handlers' statements one by one. *)
From Verif Require Import Props.MasterRun Props.MasterSafe Props.MasterSystem Proofs.MasterWire Proofs.MasterHandlers2.
From Verif Require Import Model.MasterHandlers Spec.MasterHandlers.

(** Whenever no handler is running, what has happened is what the firmware with indivisible handlers (C68-C78) does when some hardware events happen earlier:
    the same state, the same events, callbacks and frames in the library, the same bytes on the line; and that schedule satisfies the conditions of those properties. *)
Theorem C104_handlers_partial : forall c h0 sched h t, hfw_started c h0 -> cr1_undisturbed c h0 sched -> h_run c sched h0 = Ok (h, t) -> h_irq h = None ->
  exists ws t', moved (acts_of c sched h0) ws /\ w_run c ws (h_fw h0) = Ok (h_fw h, t') /\ m_lib_of t' = m_lib_of t /\ m_on_line t' = m_on_line t /\
    (h_reqs_safe sched -> w_reqs_safe ws) /\ (h_send_undisturbed c h0 sched -> m_send_undisturbed c (h_fw h0) ws) /\
    (h_no_early_rx c h0 sched -> no_early_rx c (h_fw h0) ws) /\ (h_polite c h0 sched -> w_polite c (h_fw h0) ws).
Proof.
  intros c h0 sched h t HS CR R Q. destruct (handlers c h0 sched h t HS CR R Q) as (ws & t' & R' & L & O & M & A). exists ws, t'. split; auto. split; auto. split; auto. split; auto.
  split; [intros H; exact (fine_reqs _ _ _ _ _ _ H A R')|]. split; [exact (fine_undisturbed _ _ _ _ A)|]. split; [exact (fine_listens _ _ _ _ A)|exact (fine_polite _ _ _ _ A)].
Qed.
Print Assumptions C104_handlers_partial.
(** Nor does an interrupt get lost: whenever the main program is not inside DRV:96, the UART requests one if and only if it does so with indivisible handlers. *)
Theorem C104_pending : forall c h0 sched h t, hfw_started c h0 -> h_run c sched h0 = Ok (h, t) -> h_cr1 h = None -> h_pending h = w_pending (w_lib (h_fw h)) (w_u (h_fw h)).
Proof.
  intros c h0 sched h t (_ & _ & _ & C0 & I) R C. apply pending_same; auto. eapply rx_on_run; eauto. unfold rx_on. rewrite C0, <- I. split; [intros [E|E]; auto; congruence|auto].
Qed.
Print Assumptions C104_pending.
Lemma run_map_hw c l : Forall (fun x => is_hw x = true) l -> forall h, exists h' t, h_run c (map HHw l) h = Ok (h', t) /\ h_irq h' = h_irq h /\ h_tick h' = h_tick h /\ w_lib (h_fw h') = w_lib (h_fw h) /\ m_lib_of t = [].
Proof.
  induction 1 as [|x l Hx _ IH]; intros h; cbn [map h_run].
  - exists h, []. auto.
  - cbn [h_act]. rewrite Hx, hw_act by auto. cbn [bind].
    destruct (IH (mk_hfw (mk_mfw (w_lib (h_fw h)) (hw1 x (w_u (h_fw h))) (w_sub (h_fw h))) (h_rxne h) (h_irq h) (h_tick h) (h_cr1 h))) as (h' & t & E & A & B & C & D).
    rewrite E. cbn [bind]. exists h'. eexists. split; [reflexivity|]. do 3 (split; auto). rewrite m_lib_of_app, D. destruct x; try discriminate; cbn; auto. destruct (u_tdr (w_u (h_fw h))); reflexivity.
Qed.
(** A tick that begins is not lost: whatever the hardware does meanwhile, its handler's three statements count the response timer down. *)
Theorem C104_tick : forall c h a b d e, h_irq h = None -> h_tick h = None -> Forall (fun x => is_hw x = true) (a ++ b ++ d ++ e) ->
  exists h' t, h_run c (HTick :: map HHw a ++ HStep :: map HHw b ++ HStep :: map HHw d ++ HStep :: map HHw e) h = Ok (h', t) /\ h_irq h' = None /\ h_tick h' = None /\
    mm_timer (mc_s (w_lib (h_fw h'))) = (if mm_timer (mc_s (w_lib (h_fw h))) =? 0 then 0 else mm_timer (mc_s (w_lib (h_fw h))) - 1) /\ m_lib_of t = [MTEv MTick].
Proof.
  intros c h a b d e Q1 Q2 F. apply Forall_app in F as (Fa & F). apply Forall_app in F as (Fb & F). apply Forall_app in F as (Fd & Fe).
  destruct (run_map_hw c a Fa (mk_hfw (h_fw h) (h_rxne h) None (Some K387) (h_cr1 h))) as (h1 & t1 & E1 & I1 & J1 & L1 & O1). cbn [h_irq h_tick h_fw] in *.
  destruct (mm_timer (mc_s (w_lib (h_fw h))) =? 0) eqn:Z.
  - destruct (run_map_hw c b Fb (mk_hfw (mk_mfw (w_lib (h_fw h1)) (w_u (h_fw h1)) (w_sub (h_fw h1))) (h_rxne h1) None None (h_cr1 h1))) as (h2 & t2 & E2 & I2 & J2 & L2 & O2).
    destruct (run_map_hw c d Fd h2) as (h3 & t3 & E3 & I3 & J3 & L3 & O3). destruct (run_map_hw c e Fe h3) as (h4 & t4 & E4 & I4 & J4 & L4 & O4). cbn [h_irq h_tick h_fw w_lib] in *.
    exists h4. eexists. split; [|split; [congruence|split; [congruence|split]]].
    + cbn [h_run]. cbn [h_act]. unfold no_handler. rewrite Q1, Q2. cbn [bind]. rewrite h_run_app, E1. cbn [bind h_run h_act]. rewrite I1, J1. cbn [t_line]. rewrite L1, Z. cbn [negb bind]. rewrite h_run_app, <- L1, E2. cbn [bind h_run h_act].
      rewrite I2, J2. cbn [bind]. rewrite h_run_app, E3. cbn [bind h_run h_act]. rewrite I3, I2, J3, J2. cbn [bind]. rewrite E4. reflexivity.
    + rewrite L4, L3, L2, L1. now apply Z.eqb_eq.
    + rewrite ?m_lib_of_app, ?O1, ?O2, ?O3, ?O4. reflexivity.
  - destruct (run_map_hw c b Fb (mk_hfw (mk_mfw (w_lib (h_fw h1)) (w_u (h_fw h1)) (w_sub (h_fw h1))) (h_rxne h1) None (Some K389) (h_cr1 h1))) as (h2 & t2 & E2 & I2 & J2 & L2 & O2). cbn [h_irq h_tick h_fw w_lib] in *.
    destruct (run_map_hw c d Fd (mk_hfw (mk_mfw (w_lib (h_fw h2)) (w_u (h_fw h2)) (w_sub (h_fw h2))) (h_rxne h2) None (Some (K389s (mm_timer (mc_s (w_lib (h_fw h2)))))) (h_cr1 h2))) as (h3 & t3 & E3 & I3 & J3 & L3 & O3). cbn [h_irq h_tick h_fw w_lib] in *.
    destruct (run_map_hw c e Fe (mk_hfw (mk_mfw (mk_mconf (m_set_timer (mc_s (w_lib (h_fw h3))) (mm_timer (mc_s (w_lib (h_fw h2))) - 1)) (mc_pc (w_lib (h_fw h3)))) (w_u (h_fw h3)) (w_sub (h_fw h3))) (h_rxne h3) None None (h_cr1 h3))) as (h4 & t4 & E4 & I4 & J4 & L4 & O4). cbn [h_irq h_tick h_fw w_lib] in *.
    exists h4. eexists. split; [|split; [congruence|split; [congruence|split]]].
    + cbn [h_run]. cbn [h_act]. unfold no_handler. rewrite Q1, Q2. cbn [bind]. rewrite h_run_app, E1. cbn [bind h_run h_act]. rewrite I1, J1. cbn [t_line]. rewrite L1, Z. cbn [negb bind]. rewrite h_run_app, <- L1, E2. cbn [bind h_run h_act].
      rewrite I2, J2. cbn [t_line bind]. rewrite h_run_app, E3. cbn [bind h_run h_act]. rewrite I3, J3. cbn [t_line bind]. rewrite E4. reflexivity.
    + rewrite L4, L2, L1. reflexivity.
    + rewrite ?m_lib_of_app, ?O1, ?O2, ?O3, ?O4. reflexivity.
Qed.
Print Assumptions C104_tick.
(** No undefined behaviour, at any statement of any handler. *)
Theorem C104_no_ub_partial : forall c h0 sched, cfg_master_ok c -> hfw_started c h0 -> h_reqs_safe sched -> cr1_undisturbed c h0 sched ->
  h_send_undisturbed c h0 sched -> h_no_early_rx c h0 sched -> h_polite c h0 sched -> exists h t, h_run c sched h0 = Ok (h, t).
Proof. intros. now apply no_ub. Qed.
Print Assumptions C104_no_ub_partial.
(** A handler that runs returns after at most 17 statements. *)
Theorem C104_returns_partial : forall c h0 sched h t, cfg_master_ok c -> hfw_started c h0 -> h_reqs_safe sched -> cr1_undisturbed c h0 sched ->
  h_send_undisturbed c h0 sched -> h_no_early_rx c h0 sched -> h_polite c h0 (sched ++ repeat HStep 17) -> h_run c sched h0 = Ok (h, t) ->
  exists n h' t', (n <= 17)%nat /\ h_run c (sched ++ repeat HStep n) h0 = Ok (h', t') /\ h_irq h' = None.
Proof. intros. eapply returns; eauto. Qed.
Print Assumptions C104_returns_partial.
(** C69 and C70: the bytes on the line are those of the frames sent, these are the frames of the accepted requests *)
Theorem C104_bytes_on_the_line_partial : forall c h0 sched h t, cfg_master_ok c -> hfw_started c h0 -> h_reqs_safe sched -> cr1_undisturbed c h0 sched ->
  h_send_undisturbed c h0 sched -> h_run c sched h0 = Ok (h, t) -> h_irq h = None ->
  exists (l : list (api * nat)) rest missing,
    m_on_line t ++ missing = concat (m_sent (m_lib_of t)) /\ (tx_complete (m_lib_of t) = true -> missing = []) /\
    m_sent (m_lib_of t) = flat_map (fun p => repeat (request_frame (fst p)) (snd p)) l /\
    accepted (m_lib_of t) = map fst l ++ rest /\
    Forall (fun p => (1 <= snd p)%nat /\ Z.of_nat (snd p) <= 1 + c_repeat c) l.
Proof.
  intros c h0 sched h t Hc HS HR CR HU R Q. destruct (C104_handlers_partial _ _ _ _ _ HS CR R Q) as (ws & t' & _ & R' & L & O & C1 & C2 & _). specialize (C1 HR). specialize (C2 HU).
  destruct HS as (HS & _). destruct (C69_bytes_on_the_line_partial _ _ _ _ _ Hc HS C1 C2 R') as (m & A & B).
  destruct (C68_library_inside _ _ _ _ _ HS C1 R') as (ls & H). destruct (C20_in_order _ _ _ _ Hc H) as (l & A' & (rest & B') & F).
  rewrite L in *. rewrite O in *. exists l, rest, m. auto.
Qed.
Print Assumptions C104_bytes_on_the_line_partial.
(** While nothing is received, the driver signals at most one completion per transmission. *)
Theorem C104_one_completion_partial : forall c h0 sched h t, hfw_started c h0 -> cr1_undisturbed c h0 sched -> heard_nothing h0 sched -> h_run c sched h0 = Ok (h, t) -> h_irq h = None ->
  (completions (m_lib_of t) <= length (m_sent (m_lib_of t)))%nat.
Proof.
  intros c h0 sched h t HS CR (N1 & N2 & N3) R Q. destruct (handlers c h0 sched h t HS CR R Q) as (ws & t' & R' & L & O & M & A). rewrite <- L.
  destruct HS as ((_ & _ & (T1 & _ & _ & T2) & _) & _). assert (F : Forall (fun x => heard x = false) ws).
  { apply Forall_forall. intros x I. destruct (allwit_in_ws _ _ _ _ _ _ _ A R' I) as (w1 & f1 & y & f2 & h1 & u1 & E & _ & J & _). destruct x; try reflexivity; exfalso.
    - apply act_of_rx in J. subst y. destruct (N3 b) as (N3' & _). apply N3'. rewrite E. apply in_or_app. right. now left.
    - apply act_of_rto in J. subst y. destruct (N3 0) as (_ & N3'). apply N3'. rewrite E. apply in_or_app. right. now left. }
  pose proof (owed_run c ws _ _ _ F (conj N1 N2) R') as X. assert (Z : owed (h_fw h0) = 0%nat) by (unfold owed; rewrite T1, T2; reflexivity). rewrite Z in X. lia.
Qed.
Print Assumptions C104_one_completion_partial.

(** *** concrete schedules *)
Fixpoint h_checkb (c : cfg) (P : hact -> hfw -> list witem -> bool) (l : list hact) (h : hfw) (t : list witem) : bool :=
  match l with
  | [] => true
  | x :: l => P x h t && match h_act c x h with Ok (h1, t1) => h_checkb c P l h1 (t ++ t1) | _ => true end
  end.
Lemma h_check c (P : hact -> hfw -> list witem -> Prop) b : (forall x h t, b x h t = true -> P x h t) -> forall l h, h_checkb c b l h [] = true -> h_always c h l P.
Proof.
  intros H l h E.
  assert (G : forall l h0 t0, h_checkb c b l h0 t0 = true -> forall l1 x l2 h1 t1, l = l1 ++ x :: l2 -> h_run c l1 h0 = Ok (h1, t1) -> P x h1 (t0 ++ t1)).
  { clear - H. induction l as [|y l IH]; intros h0 t0 E l1 x l2 h1 t1 EQ R; [destruct l1; discriminate|]. cbn [h_checkb] in E. apply andb_true_iff in E as [E1 E2].
    destruct l1 as [|z l1]; cbn [app] in EQ; inversion EQ; subst.
    - inversion R; subst. rewrite app_nil_r. apply H, E1.
    - cbn [h_run] in R. destruct (h_act c z h0) as [[h2 t2]| |] eqn:A; try discriminate. cbn [bind] in R. destruct (h_run c l1 h2) as [[h3 t3]| |] eqn:R2; try discriminate. inversion R; subst.
      rewrite app_assoc. eapply IH; eauto. }
  intros l1 x l2 h1 t1 EQ R. exact (G l h [] E l1 x l2 h1 t1 EQ R).
Qed.
Definition cr1b (x : hact) (h : hfw) (t : list witem) : bool := match x, h_cr1 h with HMain, Some (E96s v) => Bool.eqb (u_txeie (w_u (h_fw h))) v | _, _ => true end.
Lemma cr1_check c l h : h_checkb c cr1b l h [] = true -> cr1_undisturbed c h l.
Proof. apply h_check. intros x h1 t E -> v Q. unfold cr1b in E. rewrite Q in E. now apply Bool.eqb_prop. Qed.
Definition h_undisturbedb (x : hact) (h : hfw) (t : list witem) : bool := match x with HUsart => negb (in_send (w_sub (h_fw h))) | _ => true end.
Lemma h_undisturbed_check c l h : h_checkb c h_undisturbedb l h [] = true -> h_send_undisturbed c h l.
Proof. apply h_check. intros x h1 t E ->. cbn in E. destruct (w_sub (h_fw h1)) as [[]|]; auto; discriminate. Qed.
Definition h_listensb (x : hact) (h : hfw) (t : list witem) : bool := match x with HHw (WRx _) => match mm_rx (mc_s (w_lib (h_fw h))) with Some _ => true | None => false end | _ => true end.
Lemma h_listens_check c l h : h_checkb c h_listensb l h [] = true -> h_no_early_rx c h l.
Proof. apply h_check. intros x h1 t E b ->. cbn in E. destruct (mm_rx _); discriminate. Qed.
Definition h_smallb (x : hact) (h : hfw) (t : list witem) : bool := match current (m_lib_of t) with Some a => negb (is_read a) || (api_qty a <=? 126) | None => true end.
Lemma h_small_check c l h : h_checkb c h_smallb (l ++ [HStep]) h [] = true -> h_polite c h l.
Proof.
  intros E l1 l2 h1 t -> R a Cu Rd L. exfalso. assert (A : h_always c h ((l1 ++ l2) ++ [HStep]) (fun x h t => h_smallb x h t = true)) by (apply (h_check c _ h_smallb); auto).
  assert (X : exists x l3, l2 ++ [HStep] = x :: l3) by (destruct l2; cbn; eauto). destruct X as (x & l3 & X). assert (B := A l1 x l3 h1 t ltac:(now rewrite <- X, app_assoc) R). unfold h_smallb in B. rewrite Cu, Rd in B. cbn in B. lia.
Qed.

Definition h00 : hfw := mk_hfw w0 false None None None.
Lemma h00_started : hfw_started mcfg h00.
Proof. split; [apply w0_started|]. do 3 (split; [reflexivity|]). split; [discriminate|]. intros H. now contradiction H. Qed.
Definition hmains (n : nat) : list hact := repeat HMain n.
Definition hsteps (n : nat) : list hact := repeat HStep n.
(** the transmitter empties TDR between two statements of the handler that has just filled it; the next interrupt is pending when the handler returns *)
Definition h_out (n : nat) : list hact := HHw WShift :: concat (repeat ([HUsart] ++ hsteps 5 ++ [HHw WShift] ++ hsteps 12) n).
(** SysTick's handler is interrupted between its load and its store; the next character arrives while the handler stores the one before *)
Fixpoint h_in (f : list Z) : list hact := match f with [] => [] | b :: f => [HUsart; HStep; HStep; HHw (WRx b)] ++ hsteps 15 ++ h_in f end.
Definition h_answer (f : list Z) : list hact :=
  [HHw (WRx (hd 0 f)); HTick; HStep] ++ h_in (tl f) ++ [HUsart] ++ hsteps 2 ++ [HHw WRto] ++ hsteps 30 ++ hmains 16 ++ [HHw WTim; HTimer] ++ hsteps 5 ++ hmains 24.
Definition h_exchange (a : api) (n : nat) (f : list Z) : list hact := [HReq a] ++ hmains 16 ++ h_out n ++ hmains 8 ++ h_answer f.
Example C104_case : h_reqs_safe (h_exchange rh 8 rh_answer) /\ cr1_undisturbed mcfg h00 (h_exchange rh 8 rh_answer) /\ h_send_undisturbed mcfg h00 (h_exchange rh 8 rh_answer) /\
  h_no_early_rx mcfg h00 (h_exchange rh 8 rh_answer) /\ h_polite mcfg h00 (h_exchange rh 8 rh_answer) /\
  exists h t, h_run mcfg (h_exchange rh 8 rh_answer) h00 = Ok (h, t) /\ h_irq h = None /\ callbacks (m_lib_of t) = [HregRead 9 1 0x1234; HregRead 9 2 0xABCD] /\
    m_on_line t = [9; 3; 0; 1; 0; 2; 148; 131].
Proof.
  split; [intros a Ha|]. { revert Ha. unfold h_exchange. intros [E|Ha]; [inversion E; apply rh_safe|]. exfalso. revert Ha. vm_compute. intuition discriminate. }
  split; [apply cr1_check; vm_compute; reflexivity|]. split; [apply h_undisturbed_check; vm_compute; reflexivity|]. split; [apply h_listens_check; vm_compute; reflexivity|].
  split; [apply h_small_check; vm_compute; reflexivity|]. do 2 eexists. split; [vm_compute; reflexivity|]. vm_compute. auto.
Qed.
(** the request, transmitted while the main program is between the load and the store of CR1: the store switches the transmitter's interrupt on again *)
Definition h_race : list hact := [HReq rh] ++ hmains 13 ++ h_out 8 ++ [HMain; HUsart] ++ hsteps 12.
Theorem C104_refuted : exists c h0 sched h t, cfg_master_ok c /\ hfw_started c h0 /\ h_reqs_safe sched /\ heard_nothing h0 sched /\
  h_send_undisturbed c h0 sched /\ h_no_early_rx c h0 sched /\ h_polite c h0 sched /\ h_run c sched h0 = Ok (h, t) /\ h_irq h = None /\
  m_sent (m_lib_of t) = [[9; 3; 0; 1; 0; 2; 148; 131]] /\ m_on_line t = [9; 3; 0; 1; 0; 2; 148; 131] /\ completions (m_lib_of t) = 2%nat.
Proof.
  exists mcfg, h00, h_race. do 2 eexists. split; [apply mcfg_ok|]. split; [apply h00_started|].
  split; [intros a Ha|]. { revert Ha. unfold h_race. intros [E|Ha]; [inversion E; apply rh_safe|]. exfalso. revert Ha. vm_compute. intuition discriminate. }
  split; [split; [reflexivity|]; split; [reflexivity|]; intros b; split; vm_compute; intuition discriminate|].
  split; [apply h_undisturbed_check; vm_compute; reflexivity|]. split; [apply h_listens_check; vm_compute; reflexivity|]. split; [apply h_small_check; vm_compute; reflexivity|].
  split; [vm_compute; reflexivity|]. vm_compute. auto.
Qed.
Print Assumptions C104_refuted.
(** the same with the store before the transmitter's interrupts: one completion *)
Example C104_case_one_completion : let sched := [HReq rh] ++ hmains 14 ++ h_out 8 ++ [HUsart] ++ hsteps 12 in
  cr1_undisturbed mcfg h00 sched /\ heard_nothing h00 sched /\
  exists h t, h_run mcfg sched h00 = Ok (h, t) /\ h_irq h = None /\ m_sent (m_lib_of t) = [[9; 3; 0; 1; 0; 2; 148; 131]] /\ completions (m_lib_of t) = 1%nat.
Proof.
  split; [apply cr1_check; vm_compute; reflexivity|]. split; [split; [reflexivity|]; split; [reflexivity|]; intros b; split; vm_compute; intuition discriminate|].
  do 2 eexists. split; [vm_compute; reflexivity|]. vm_compute. auto.
Qed.
