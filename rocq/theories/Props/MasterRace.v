(** C108: the master firmware with the interrupt handlers' statements one by one, whatever happens between the load and the store of CR1 (DRV:96). *)
From Verif Require Import Props.MasterRun Props.MasterSafe Props.MasterSystem Props.MasterHandlers Proofs.MasterWire Proofs.MasterHandlers2 Proofs.MasterRace Proofs.MasterRaceSafe Proofs.MasterRaceWire Proofs.MasterRaceCount.
From Verif Require Import Model.MasterHandlers Spec.MasterHandlers Spec.MasterRace.

(** Whenever no handler is running, what has happened is what the firmware with indivisible handlers does when some hardware events happen earlier and
    the stores of DRV:96 that were overtaken by a handler change TXEIE. *)
Theorem C108_handlers : forall c h0 sched h t, hfw_started c h0 -> h_run c sched h0 = Ok (h, t) -> h_irq h = None ->
  exists xs t', x_moved (x_acts_of c sched h0) xs /\ x_run c xs (h_fw h0) = Ok (h_fw h, t') /\ m_lib_of t' = m_lib_of t /\ m_on_line t' = m_on_line t.
Proof. intros c h0 sched h t HS R Q. destruct (started_side c h0 HS) as (S1 & S2). now apply race_free. Qed.
Print Assumptions C108_handlers.
(** C68: inside, the library is in one of the histories of C15-C40, whatever the interleaving: everything said about the library applies to the firmware. *)
Theorem C108_library_inside : forall c h0 sched h t, hfw_started c h0 -> h_reqs_safe sched -> h_run c sched h0 = Ok (h, t) -> h_irq h = None ->
  exists ls, m_history c ls (w_lib (h_fw h)) (m_lib_of t).
Proof.
  intros c h0 sched h t HS HR R Q. destruct (C108_handlers _ _ _ _ _ HS R Q) as (xs & t' & M & R' & L & _). rewrite <- L. eapply x_history; [apply HS| |exact R'].
  intros a Ha. apply (x_moved_in _ _ M) in Ha. apply x_in_acts in Ha as (y & h1 & I & J). apply act_of_req in J. subst y. apply HR, I.
Qed.
Print Assumptions C108_library_inside.
(** C20: the frames handed to the driver are those of the accepted requests, in order, each at most R+1 times *)
Theorem C108_requests_in_order : forall c h0 sched h t, cfg_master_ok c -> hfw_started c h0 -> h_reqs_safe sched -> h_run c sched h0 = Ok (h, t) -> h_irq h = None ->
  exists (l : list (api * nat)) rest, m_sent (m_lib_of t) = flat_map (fun p => repeat (request_frame (fst p)) (snd p)) l /\ accepted (m_lib_of t) = map fst l ++ rest /\
    Forall (fun p => (1 <= snd p)%nat /\ Z.of_nat (snd p) <= 1 + c_repeat c) l.
Proof.
  intros c h0 sched h t Hc HS HR R Q. destruct (C108_library_inside _ _ _ _ _ HS HR R Q) as (ls & H). destruct (C20_in_order _ _ _ _ Hc H) as (l & A & (rest & B) & F). eauto 6.
Qed.
Print Assumptions C108_requests_in_order.
(** C69 and C70: the bytes on the line are those of the frames sent, these are the frames of the accepted requests; no assumption on the store of CR1 *)
Theorem C108_bytes_on_the_line_partial : forall c h0 sched h t, cfg_master_ok c -> hfw_started c h0 -> h_reqs_safe sched ->
  h_send_undisturbed c h0 sched -> h_run c sched h0 = Ok (h, t) -> h_irq h = None ->
  exists (l : list (api * nat)) rest missing,
    m_on_line t ++ missing = concat (m_sent (m_lib_of t)) /\ (tx_complete (m_lib_of t) = true -> missing = []) /\
    m_sent (m_lib_of t) = flat_map (fun p => repeat (request_frame (fst p)) (snd p)) l /\
    accepted (m_lib_of t) = map fst l ++ rest /\
    Forall (fun p => (1 <= snd p)%nat /\ Z.of_nat (snd p) <= 1 + c_repeat c) l.
Proof.
  intros c h0 sched h t Hc HS HR HU R Q. destruct (race_bytes c h0 sched h t Hc HS HR HU R Q) as (m & A & B).
  destruct (C108_requests_in_order _ _ _ _ _ Hc HS HR R Q) as (l & rest & A' & B' & F). exists l, rest, m. auto.
Qed.
Print Assumptions C108_bytes_on_the_line_partial.
(** While nothing is received, the driver signals at most one completion per transmission, and one more for every store of an old value. *)
Theorem C108_completions : forall c h0 sched h t, hfw_started c h0 -> heard_nothing h0 sched -> h_run c sched h0 = Ok (h, t) -> h_irq h = None ->
  (completions (m_lib_of t) <= length (m_sent (m_lib_of t)) + races c sched h0)%nat.
Proof.
  intros c h0 sched h t HS (N1 & N2 & N3) R Q. destruct (C108_handlers _ _ _ _ _ HS R Q) as (xs & t' & M & R' & L & _). rewrite <- L.
  assert (F : forall x, In (XAct x) xs -> heard x = false).
  { intros x I. apply (x_moved_in _ _ M) in I. apply x_in_acts in I as (y & h1 & I & J). destruct x; try reflexivity; exfalso.
    - apply act_of_rx in J. subst y. destruct (N3 b) as (N3' & _). auto.
    - apply act_of_rto in J. subst y. destruct (N3 0) as (_ & N3'). auto. }
  pose proof (x_owed_run c xs _ _ _ F (conj N1 N2) R') as X. destruct HS as ((_ & _ & (T1 & _ & _ & T2) & _) & _).
  assert (Z : owed (h_fw h0) = 0%nat) by (unfold owed; rewrite T1, T2; reflexivity). rewrite Z in X.
  unfold races. rewrite <- (x_moved_count (fun x => match x with XCr1 _ => true | XAct _ => false end) _ _ M). change (fun x => match x with XCr1 _ => true | XAct _ => false end) with is_store. lia.
Qed.
Print Assumptions C108_completions.
(** No undefined behaviour, also when stores are overtaken: while the provisos of C71 hold the run never gets stuck. *)
Theorem C108_no_ub_partial : forall c h0 sched, cfg_master_ok c -> hfw_started c h0 -> h_reqs_safe sched ->
  h_send_undisturbed c h0 sched -> h_no_early_rx c h0 sched -> h_polite c h0 sched -> exists h t, h_run c sched h0 = Ok (h, t).
Proof. intros c h0 sched Hc HS HR HU HN HP. destruct (safe_run c h0 Hc HS sched HR HU HN HP) as (h & t & R & _). eauto. Qed.
Print Assumptions C108_no_ub_partial.
(** A handler that runs returns after at most 17 statements. *)
Theorem C108_returns_partial : forall c h0 sched h t, cfg_master_ok c -> hfw_started c h0 -> h_reqs_safe sched ->
  h_send_undisturbed c h0 sched -> h_no_early_rx c h0 sched -> h_polite c h0 (sched ++ repeat HStep 17) -> h_run c sched h0 = Ok (h, t) ->
  exists n h' t', (n <= 17)%nat /\ h_run c (sched ++ repeat HStep n) h0 = Ok (h', t') /\ h_irq h' = None.
Proof. intros. eapply race_returns; eauto. Qed.
Print Assumptions C108_returns_partial.
(** A store gives TXEIE an old value only when a handler has switched the interrupt off between the load, which found it on, and the store. *)
Theorem C108_overtaken : forall c h0 sched h t, hfw_started c h0 -> h_run c sched h0 = Ok (h, t) -> (races c sched h0 <= overtaken c sched h0)%nat.
Proof.
  intros c h0 sched h t (_ & _ & _ & C & _) R. apply stale_run in R. assert (Z : stale h0 = 0%nat) by (unfold stale; now rewrite C). lia.
Qed.
Print Assumptions C108_overtaken.
(** Without such stores the schedule is that of C104. *)
Lemma no_race_acts c l : forall h, races c l h = 0%nat -> x_acts_of c l h = map XAct (acts_of c l h).
Proof.
  induction l as [|a l IH]; intros h H; [reflexivity|]. unfold races in *. cbn [x_acts_of acts_of] in *. rewrite map_app. rewrite filter_app, app_length in H. f_equal.
  - destruct a; try reflexivity. unfold x_act_of, act_of in *. destruct (h_cr1 h) as [[|v]|]; [destruct (no_handler h); reflexivity| |reflexivity]. destruct (no_handler h); [|reflexivity]. destruct (Bool.eqb _ _); [reflexivity|]. cbn in H. lia.
  - destruct (h_act c a h) as [[h1 t1]| |]; [|reflexivity..]. apply IH. lia.
Qed.
Theorem C108_no_race : forall c h0 sched, cr1_undisturbed c h0 sched -> races c sched h0 = 0%nat /\ x_acts_of c sched h0 = map XAct (acts_of c sched h0).
Proof.
  intros c h0 sched CR. assert (E : races c sched h0 = 0%nat); [|split; [exact E|now apply no_race_acts]].
  revert h0 CR. induction sched as [|a l IH]; intros h CR; [reflexivity|]. unfold races in *. cbn [x_acts_of]. rewrite filter_app, app_length. replace (length (filter _ (x_act_of a h))) with 0%nat.
  - destruct (h_act c a h) as [[h1 t1]| |] eqn:E; [|reflexivity..]. apply IH. intros l1 x l2 h2 t2 -> R. apply (CR (a :: l1) x l2 h2 (t1 ++ t2)); [reflexivity|]. cbn [h_run]. rewrite E. cbn [bind]. rewrite R. reflexivity.
  - rewrite x_act_plain; [now induction (act_of a h)|]. intros -> v Ev. left. exact (CR [] HMain l h [] eq_refl eq_refl eq_refl v Ev).
Qed.
Print Assumptions C108_no_race.
(** the schedule of C104_refuted: one store of an old value, two completions *)
Example C108_case : hfw_started mcfg h00 /\ h_reqs_safe h_race /\ heard_nothing h00 h_race /\ races mcfg h_race h00 = 1%nat /\ overtaken mcfg h_race h00 = 1%nat /\
  exists h t, h_run mcfg h_race h00 = Ok (h, t) /\ h_irq h = None /\ completions (m_lib_of t) = 2%nat /\ length (m_sent (m_lib_of t)) = 1%nat.
Proof.
  split; [apply h00_started|]. split; [intros a Ha|]. { revert Ha. unfold h_race. intros [E|Ha]; [inversion E; apply rh_safe|]. exfalso. revert Ha. vm_compute. intuition discriminate. }
  split; [split; [reflexivity|]; split; [reflexivity|]; intros b; split; vm_compute; intuition discriminate|]. split; [vm_compute; reflexivity|]. split; [vm_compute; reflexivity|].
  do 2 eexists. split; [vm_compute; reflexivity|]. vm_compute. auto.
Qed.
(** ... and it meets the provisos of [C108_no_ub_partial], [C108_returns_partial] and [C108_bytes_on_the_line_partial] *)
Example C108_case_provisos : h_send_undisturbed mcfg h00 h_race /\ h_no_early_rx mcfg h00 h_race /\ h_polite mcfg h00 (h_race ++ repeat HStep 17) /\
  exists h t, h_run mcfg h_race h00 = Ok (h, t) /\ h_irq h = None /\ m_on_line t = [9; 3; 0; 1; 0; 2; 148; 131].
Proof.
  split; [apply h_undisturbed_check; vm_compute; reflexivity|]. split; [apply h_listens_check; vm_compute; reflexivity|].
  split; [apply h_small_check; vm_compute; reflexivity|]. do 2 eexists. split; [vm_compute; reflexivity|]. vm_compute. auto.
Qed.
