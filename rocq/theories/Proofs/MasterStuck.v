(** Situations a master never leaves unless a certain event comes; helpers for histories. *)
From Verif Require Export Proofs.MasterTries.

Lemma hist_more c s1 k t s2 k' o : m_history c s1 k t -> reqs_safe s2 -> m_run c s2 k = Ok (k', o) -> m_history c (s1 ++ s2) k' (t ++ o).
Proof.
  intros (s & St & R & E) R2 E2. exists s. split; auto. split; [apply reqs_app; auto|]. rewrite m_run_app, E. cbn [bind]. rewrite E2. reflexivity.
Qed.
Lemma rep_idle c t s : cinv c t M649 s -> mm_rep s = 0.
Proof. intros I. assert (K := mc_rep _ _ _ (Minv_ctl _ _ _ _ (ci_inv _ _ _ _ I))). exact K. Qed.
Lemma idle_loc k : idle k -> mloc k = M649.
Proof. intros [P S0]. unfold mloc, m_dispatch. rewrite P, S0. reflexivity. Qed.
Lemma transmits_loc k : transmits k -> mloc k = M669.
Proof. intros [P S0]. unfold mloc, m_dispatch. rewrite P, S0. reflexivity. Qed.
Lemma awaits_loc k n : awaits k n -> waiting_line (mloc k) = true.
Proof. intros [[[P S0]|[P|P]] _]; unfold mloc, m_dispatch; rewrite P; try rewrite S0; reflexivity. Qed.
Lemma awaits_of k n : waiting_line (mloc k) = true -> mm_t15 (mc_s k) = CLEARED -> mm_timer (mc_s k) = n -> awaits k n.
Proof.
  intros L T N. split; auto. unfold mloc, m_dispatch in L. destruct (mc_pc k) as [[]|]; try discriminate L; auto. left. split; auto. destruct (mm_st (mc_s k)); auto; discriminate L.
Qed.
Lemma base_now t a : current t = Some a -> base a (finished t) (visible t) t.
Proof. intros H. split; auto. Qed.
Lemma visible_of t o V : visible (t ++ o) = visible t ++ V -> visible o = V.
Proof. rewrite visible_app. apply app_inv_head. Qed.
Lemma finished_of t o n : finished (t ++ o) = (finished t + n)%nat -> finished o = n.
Proof. rewrite finished_app. lia. Qed.

Section Stuck.
Context (c : cfg) (Hc : cfg_master_ok c) (a : api) (F : nat) (V : list vis).
(** a reception was handled after its 3.5-character event *)
Definition rx_stuck_line (l : mpc) : bool := match l with M784 | M784b | M788 | M788b | M792 | M792b | M792c => true | _ => false end.
Definition Qrx (rem : list mev) (t : list mitem) (l : mpc) (s : master) : Prop := base a F V t /\ ~ In MT35 rem /\ mm_t35 s = CLEARED /\ rx_stuck_line l = true.
Lemma stuck_rx sched t k : reqs_safe sched -> cinv c t (mloc k) (mc_s k) -> Qrx (m_events sched) t (mloc k) (mc_s k) ->
  exists k' o, m_run c sched k = Ok (k', o) /\ cinv c (t ++ o) (mloc k') (mc_s k') /\ Qrx [] (t ++ o) (mloc k') (mc_s k').
Proof.
  intros HS I H. apply (cphase c Qrx Hc); auto; [..|rewrite app_nil_r; auto].
  - clear - Hc. intros rem t l s l' s' o I (B & N & T & L) E. assert (BS := mc_st _ _ _ (Minv_ctl _ _ _ _ (ci_inv _ _ _ _ I))).
    destruct l; try discriminate L; mline_inv E; cbn [m_next map]; unfold m_dispatch; mprj; cbn [mst_ok] in BS; rewrite ?app_nil_r; rewrite ?BS;
      try (rewrite T in X; discriminate X); try (split; [auto|split; [auto|split; [auto|reflexivity]]]; fail).
    split; [apply (base_line _ _ _ _ [MoNoFrameErr]); auto|]. auto.
  - clear - Hc. intros e rem t l s s' o I (B & N & T & L) Hs E. apply In_cons_not in N as [NE N]. assert (X := ev_facts _ _ _ _ _ _ _ Hc I Hs E).
    split; [apply base_ev; [auto|apply (ef_o _ _ _ _ _ X)]|]. split; auto. split; auto. rewrite (ef_35 _ _ _ _ _ X). destruct e; auto. congruence.
  - clear. intros rem t l s _ (_ & _ & _ & L). apply not813. intros ->. discriminate L.
Qed.
(** the completion of the transmission was overwritten *)
Definition tx_stuck_line (l : mpc) : bool := match l with M407 | M669 => true | _ => false end.
Definition Qtx (rem : list mev) (t : list mitem) (l : mpc) (s : master) : Prop := base a F V t /\ ~ In MTxDone rem /\ mm_tx s = SET /\ tx_stuck_line l = true.
Lemma stuck_tx sched t k : reqs_safe sched -> cinv c t (mloc k) (mc_s k) -> Qtx (m_events sched) t (mloc k) (mc_s k) ->
  exists k' o, m_run c sched k = Ok (k', o) /\ cinv c (t ++ o) (mloc k') (mc_s k') /\ Qtx [] (t ++ o) (mloc k') (mc_s k').
Proof.
  intros HS I H. apply (cphase c Qtx Hc); auto; [..|rewrite app_nil_r; auto].
  - clear - Hc. intros rem t l s l' s' o I (B & N & T & L) E. assert (BS := mc_st _ _ _ (Minv_ctl _ _ _ _ (ci_inv _ _ _ _ I))).
    destruct l; try discriminate L; mline_inv E; cbn [m_next map]; unfold m_dispatch; mprj; cbn [mst_ok] in BS; rewrite ?app_nil_r; rewrite ?BS;
      try (rewrite T in X; discriminate X); try (split; [auto|split; [auto|split; [auto|reflexivity]]]; fail).
  - clear - Hc. intros e rem t l s s' o I (B & N & T & L) Hs E. apply In_cons_not in N as [NE N]. assert (X := ev_facts _ _ _ _ _ _ _ Hc I Hs E).
    split; [apply base_ev; [auto|apply (ef_o _ _ _ _ _ X)]|]. split; auto. split; auto. rewrite (ef_tx _ _ _ _ _ X). destruct e; auto. congruence.
  - clear. intros rem t l s _ (_ & _ & _ & L). apply not813. intros ->. discriminate L.
Qed.
(** the response timer ran past 1 *)
Definition Qz (rem : list mev) (t : list mitem) (l : mpc) (s : master) : Prop := base a F V t /\ ~ In MT15 rem /\ mm_t15 s = CLEARED /\ mm_timer s = 0 /\ waiting_line l = true.
Lemma stuck_wait sched t k : reqs_safe sched -> cinv c t (mloc k) (mc_s k) -> Qz (m_events sched) t (mloc k) (mc_s k) ->
  exists k' o, m_run c sched k = Ok (k', o) /\ cinv c (t ++ o) (mloc k') (mc_s k') /\ Qz [] (t ++ o) (mloc k') (mc_s k').
Proof.
  intros HS I H. apply (cphase c Qz Hc); auto; [..|rewrite app_nil_r; auto].
  - clear - Hc. intros rem t l s l' s' o I (B & N & T & Z0 & L) E. assert (BS := mc_st _ _ _ (Minv_ctl _ _ _ _ (ci_inv _ _ _ _ I))).
    destruct l; try discriminate L; mline_inv E; cbn [m_next map]; unfold m_dispatch; mprj; cbn [mst_ok] in BS; rewrite ?app_nil_r; rewrite ?BS;
      try (rewrite T in X; discriminate X); try (rewrite Z0 in X; discriminate X); split; auto.
  - clear - Hc. intros e rem t l s s' o I (B & N & T & Z0 & L) Hs E. apply In_cons_not in N as [NE N]. assert (X := ev_facts _ _ _ _ _ _ _ Hc I Hs E).
    split; [apply base_ev; [auto|apply (ef_o _ _ _ _ _ X)]|]. split; auto. split; [rewrite (ef_15 _ _ _ _ _ X); destruct e; auto; congruence|].
    split; auto. rewrite (ef_tm _ _ _ _ _ X), Z0. destruct e; auto.
  - clear. intros rem t l s _ (_ & _ & _ & _ & L). apply not813. intros ->. discriminate L.
Qed.
End Stuck.
