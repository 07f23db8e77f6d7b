(** A master with nothing to do stays idle; a wait whose timer runs out unnoticed. *)
From Verif Require Export Proofs.MasterLeft.

Lemma pending_none c t s : Minv c t M649 s -> pending_reqs t = [] -> check_data_to_send_availability (mm_txq s) = false.
Proof.
  intros I Pd. destruct I as (free & pend & apis & eps & v & [K B Rq Ac Vi Ep Pa Fi Cn]). rewrite (avail_iff _ _ _ (mb_pend _ _ _ _ _ B)).
  unfold pending_reqs in Pd. rewrite Ac, Fi, skipn_app, map_length, Nat.sub_diag in Pd. apply app_eq_nil in Pd as [_ Pd]. cbn [skipn] in Pd. subst apis.
  unfold fly in Rq. cbn [fly_line app] in Rq. inversion Rq; subst. reflexivity.
Qed.
Definition Qi (V : list vis) (F : nat) (N : nat) (rem : list mev) (t : list mitem) (l : mpc) (s : master) : Prop :=
  l = M649 /\ visible t = V /\ finished t = F /\ pending_reqs t = [] /\ pdu_errors t = N /\ forall a, ~ In (MReq a) rem.
Lemma stay_idle c V F N sched t k : cfg_master_ok c -> reqs_safe sched -> cinv c t (mloc k) (mc_s k) -> Qi V F N (m_events sched) t (mloc k) (mc_s k) ->
  exists k' o, m_run c sched k = Ok (k', o) /\ cinv c (t ++ o) (mloc k') (mc_s k') /\ Qi V F N [] (t ++ o) (mloc k') (mc_s k').
Proof.
  intros Hc HS I H. apply (cphase c (Qi V F N) Hc); auto; [..|rewrite app_nil_r; auto].
  - clear - Hc. intros rem t l s l' s' o I (L & Vi & Fi & Pd & Pe & NR) E. subst l. assert (X := pending_none _ _ _ (ci_inv _ _ _ _ I) Pd). cbn [m_line] in E. rewrite X in E. inversion E; subst. cbn [m_next map]. rewrite app_nil_r.
    assert (BS := mc_st _ _ _ (Minv_ctl _ _ _ _ (ci_inv _ _ _ _ I))). cbn [mst_ok] in BS. unfold m_dispatch. rewrite BS. split; auto 10.
  - clear - Hc. intros e rem t l s s' o I (L & Vi & Fi & Pd & Pe & NR) Hs E. subst l. assert (X := ev_facts _ _ _ _ _ _ _ Hc I Hs E).
    assert (O : o = []). { destruct (cev c t M649 s e s' o Hc (ci_inv _ _ _ _ I) Hs E) as [(_ & _ & Z)|(a & r & -> & _)]; auto. exfalso. apply (NR a). left; auto. }
    subst o. cbn [map]. split; auto. rewrite visible_app, finished_app. cbn [visible finished]. rewrite app_nil_r, Nat.add_0_r. split; auto. split; auto.
    assert (A : accepted (t ++ [MTEv e]) = accepted t) by (rewrite accepted_app; cbn [accepted]; apply app_nil_r).
    assert (P : pdu_errors (t ++ [MTEv e]) = pdu_errors t) by (clear; induction t as [|[|[]] t IH]; cbn [app pdu_errors]; auto; destruct r; auto).
    assert (Ff : finished (t ++ [MTEv e]) = finished t) by (rewrite finished_app; cbn; lia).
    unfold pending_reqs in *. rewrite A, P, Ff. split; auto. split; auto. intros a Ha. apply (NR a). right; auto.
  - clear. intros rem t l s _ (-> & _). apply not813. discriminate.
Qed.

(** the timer runs out while the master is not polled *)
Lemma run_out c a F V : cfg_master_ok c -> forall n t k, cinv c t (mloc k) (mc_s k) -> base a F V t -> waiting_line (mloc k) = true -> mm_t15 (mc_s k) = CLEARED -> mm_timer (mc_s k) = Z.of_nat n ->
  exists k' o, m_run c (repeat (MEv MTick) n) k = Ok (k', o) /\ cinv c (t ++ o) (mloc k') (mc_s k') /\ base a F V (t ++ o) /\ waiting_line (mloc k') = true /\ mm_t15 (mc_s k') = CLEARED /\ mm_timer (mc_s k') = 0.
Proof.
  intros Hc. induction n as [|n IH]; intros t k I B L T15 Tm.
  - exists k, []. rewrite app_nil_r. cbn [repeat m_run]. auto 10.
  - destruct (event_now c Hc _ _ MTick I Logic.I) as (s2 & o2 & E2 & X2 & I2 & L2 & A2). set (k2 := mk_mconf s2 (mc_pc k)) in *.
    destruct (IH (t ++ MTEv MTick :: map MTOut o2) k2) as (k3 & o3 & R3 & I3 & B3 & L3 & T3 & Tm3); auto.
    { apply base_ev; [auto|apply (ef_o _ _ _ _ _ X2)]. } { rewrite L2. auto. } { cbn [mc_s k2]. rewrite (ef_15 _ _ _ _ _ X2). auto. }
    { cbn [mc_s k2]. rewrite (ef_tm _ _ _ _ _ X2), Tm. replace (Z.of_nat (S n) =? 0) with false by lia. lia. }
    exists k3, ((MTEv MTick :: map MTOut o2) ++ o3). rewrite app_assoc. split; [|auto 10]. cbn [repeat m_run]. rewrite A2. cbn [bind]. fold k2. rewrite R3. reflexivity.
Qed.
(** without calls nothing is accepted or refused *)
Lemma no_calls_cons x l : no_calls (x :: l) -> no_calls l.
Proof. intros H a Ha. apply (H a). destruct x; cbn [m_events]; auto. right; auto. Qed.
Lemma no_calls_app l1 l2 : no_calls (l1 ++ l2) -> no_calls l1 /\ no_calls l2.
Proof. intros H. split; intros a Ha; apply (H a); rewrite m_events_app; apply in_or_app; auto. Qed.
Lemma no_calls_safe l : no_calls l -> reqs_safe l.
Proof.
  intros H a Ha. exfalso. apply (H a). clear H. induction l as [|[|e] l IH]; cbn [m_events]; [destruct Ha|..]; destruct Ha as [Ha|Ha]; try discriminate Ha; auto; [inversion Ha; left; auto|right; auto].
Qed.
Lemma calls_none c : forall sched k k' o, no_calls sched -> m_run c sched k = Ok (k', o) -> accepted o = [] /\ pdu_errors o = 0%nat.
Proof.
  induction sched as [|x l IH]; intros k k' o N E; cbn [m_run] in E; [inversion E; auto|].
  destruct (m_act c x k) as [[k1 o1]| |] eqn:A; try discriminate E. cbn [bind] in E. destruct (m_run c l k1) as [[k2 o2]| |] eqn:R; try discriminate E. cbn [bind] in E. inversion E; subst.
  destruct (IH _ _ _ (no_calls_cons _ _ N) R) as [I1 I2]. rewrite accepted_app, pdu_errors_app, I1, I2, app_nil_r. cut (accepted o1 = [] /\ pdu_errors o1 = 0%nat); [intros [-> ->]; auto|].
  destruct x as [|e]; cbn [m_act] in A.
  - destruct (mc_pc k) as [pc|]; [|inversion A; auto]. destruct (m_line c pc (mc_s k)) as [[[l' s'] o']| |] eqn:L; try discriminate A. cbn [bind] in A. inversion A; subst. eapply line_accepted; eauto.
  - destruct (m_event c e (mc_s k)) as [[s' o']| |] eqn:Ev; try discriminate A. cbn [bind] in A. inversion A; subst. cbn [accepted pdu_errors].
    destruct e; cbn [m_event] in Ev; try (inversion Ev; auto; fail).
    + destruct (mm_rx (mc_s k)) as [i|]; [|inversion Ev; auto]. destruct (get_msg (mc_s k) i); try discriminate Ev. cbn [bind] in Ev. destruct (wr _ _ _); try discriminate Ev. cbn [bind] in Ev. destruct (put_msg _ _ _); try discriminate Ev. cbn [bind] in Ev. inversion Ev; auto.
    + exfalso. apply (N a). left; auto.
Qed.
