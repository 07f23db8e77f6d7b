(** No answer: the timeout, from waiting and from the transmission; whole queues of unanswered requests; leftovers. *)
From Verif Require Export Proofs.MasterForeign.

Section Timeout.
Context (c : cfg) (Hc : cfg_master_ok c) (a : api).
Notation T := (u32 (c_timeout c)).
Lemma wait_report F V n u v t k : reqs_safe (u ++ MEv MTick :: v) -> cinv c t (mloc k) (mc_s k) -> base a F V t -> waiting_line (mloc k) = true -> mm_t15 (mc_s k) = CLEARED -> mm_timer (mc_s k) = n -> 2 <= n ->
  ~ In MT15 (m_events u) -> sched_ticks u = n - 2 -> (forall e, In e (m_events v) -> e <> MTick /\ e <> MT15) -> (9 <= m_steps v)%nat ->
  exists k1 o1, m_run c u k = Ok (k1, o1) /\ base a F V (t ++ o1) /\ awaits k1 2 /\
  exists v1 v2 k2 o2, v = v1 ++ v2 /\ m_run c (MEv MTick :: v1) k1 = Ok (k2, o2) /\ cinv c (t ++ o1 ++ o2) (mloc k2) (mc_s k2) /\ Qt a F V (t ++ o1 ++ o2) (mloc k2) (mc_s k2) /\ mloc k2 = M649 /\ mc_pc k2 = None.
Proof.
  intros HS I B L T15 Tm Hn N15 Tk HE W. apply reqs_app in HS as [HS1 HS2]. apply reqs_cons in HS2. unfold sched_ticks in Tk.
  destruct (cphase c (fun rem t l s => Qw a F V 2 rem t l s /\ waiting_line l = true) Hc) with (sched := u) (rem := @nil mev) (t := t) (k := k) as (k1 & o1 & R1 & I1 & (B1 & _ & T1 & Ti1 & _) & L1); auto.
  - clear - Hc. intros rem t l s l' s' o I [(B & L & T & Ti & N & NT) L2] E. assert (BS := mc_st _ _ _ (Minv_ctl _ _ _ _ (ci_inv _ _ _ _ I))).
    destruct l; try discriminate L2; mline_inv E; cbn [m_next map]; unfold m_dispatch; mprj; cbn [mst_ok] in BS; rewrite ?app_nil_r; rewrite ?BS; try (rewrite T in X; discriminate X); try (split; auto; split; auto; fail).
    exfalso. apply Z.eqb_eq in X. lia.
  - clear - Hc. intros e rem t l s s' o I [(B & L & T & Ti & N & NT) L2] Hs E. split; auto. apply In_cons_not in NT as [NE NT]. assert (X := ev_facts _ _ _ _ _ _ _ Hc I Hs E).
    split; [apply base_ev; [auto|apply (ef_o _ _ _ _ _ X)]|]. split; auto. split; [rewrite (ef_15 _ _ _ _ _ X); destruct e; auto; congruence|]. split; auto.
    rewrite (ef_tm _ _ _ _ _ X). destruct e; cbn [ticks] in Ti; auto. replace (mm_timer s =? 0) with false by lia. lia.
  - clear. intros rem t l s _ [_ L]. apply not813. intros ->. discriminate L.
  - rewrite app_nil_r. split; auto. split; auto. split; [destruct (mloc k); try discriminate L; auto|]. split; auto. split; [lia|]. split; [lia|auto].
  - cbn [ticks] in Ti1. exists k1, o1. split; auto. split; auto. split; [apply awaits_of; auto; lia|].
    destruct (event_now c Hc _ _ MTick I1 Logic.I) as (s2 & o2 & E2 & X2 & I2 & L2 & A2). set (k2 := mk_mconf s2 (mc_pc k1)) in *.
    destruct (timeout_reach c a F V Hc v ((t ++ o1) ++ MTEv MTick :: map MTOut o2) k2) as (v1 & v2 & k3 & o3 & Ev & R3 & I3 & Q3 & L3 & P3); auto.
    { split; [cbn [mc_s k2]; rewrite (ef_15 _ _ _ _ _ X2); auto|]. assert (Y : base a F V ((t ++ o1) ++ MTEv MTick :: map MTOut o2) /\ mm_timer s2 = 1).
      { split; [apply base_ev; [auto|apply (ef_o _ _ _ _ _ X2)]|]. rewrite (ef_tm _ _ _ _ _ X2). replace (mm_timer (mc_s k1) =? 0) with false by lia. lia. }
      rewrite L2. destruct (mloc k1); try discriminate L1; exact Y. }
    { rewrite L2. intros Z. rewrite Z in L1. discriminate L1. }
    exists v1, v2, k3, ((MTEv MTick :: map MTOut o2) ++ o3). assert (TT : t ++ o1 ++ (MTEv MTick :: map MTOut o2) ++ o3 = ((t ++ o1) ++ MTEv MTick :: map MTOut o2) ++ o3) by (rewrite <- ?app_assoc; reflexivity).
    rewrite TT. split; auto. split; auto. cbn [m_run]. rewrite A2. cbn [bind]. fold k2. rewrite R3. reflexivity.
Qed.

(** from the completion of the transmission to waiting, with the full timeout *)
Lemma tx_exact F V x t k : reqs_safe (MEv MTxDone :: x) -> cinv c t (mloc k) (mc_s k) -> base a F V t -> mloc k = M669 \/ mloc k = M407 -> mm_t15 (mc_s k) = CLEARED -> 2 <= T ->
  (forall e, In e (m_events x) -> calm e /\ e <> MTick) -> (7 <= m_steps x)%nat ->
  exists k' o, m_run c (MEv MTxDone :: x) k = Ok (k', o) /\ cinv c (t ++ o) (mloc k') (mc_s k') /\ base a F V (t ++ o) /\ awaits k' T /\ m_received (t ++ o) = [] /\
    mm_crc (mc_s k') = mm_crc (mc_s k) /\ mm_fe (mc_s k') = mm_fe (mc_s k) /\ mm_rep (mc_s k') = mm_rep (mc_s k).
Proof.
  intros HS I B L T15 HT HE W. apply reqs_cons in HS.
  destruct (event_now c Hc _ _ MTxDone I safetx) as (s2 & o2 & E2 & X2 & I2 & L2 & A2). set (k2 := mk_mconf s2 (mc_pc k)) in *.
  destruct (tx_after c a F V (fl (mc_s k)) (tm_exact T) Hc (tm_exact_ok _) ltac:(exact T15) x [] (t ++ MTEv MTxDone :: map MTOut o2) k2) as (k3 & o3 & R3 & I3 & ((H3 & B3 & _ & D3) & Tx3) & L3); auto.
  { rewrite L2, app_nil_r. split; [|exact (ef_tx _ _ _ _ _ X2)]. split; [apply (evf_fl _ _ _ _ _ X2 Logic.I)|]. split; [apply base_ev; [auto|apply (ef_o _ _ _ _ _ X2)]|]. split; [intros e He; apply HE; auto|].
    assert (Y : tm_exact T (m_events x) T) by (split; auto; split; auto; intros Z; apply HE in Z as [_ Z]; congruence). destruct L as [->| ->]; exact Y. }
  unfold fl in H3. inversion H3 as [[G1 G2 G3 G4]].
  assert (D : mm_timer (mc_s k3) = T /\ m_received ((t ++ MTEv MTxDone :: map MTOut o2) ++ o3) = []) by (destruct (mloc k3); try discriminate L3; destruct D3 as [[D3 _] D4]; auto). destruct D as [D1 D2].
  exists k3, ((MTEv MTxDone :: map MTOut o2) ++ o3). assert (TT : t ++ (MTEv MTxDone :: map MTOut o2) ++ o3 = (t ++ MTEv MTxDone :: map MTOut o2) ++ o3) by (rewrite <- ?app_assoc; reflexivity). rewrite TT.
  split. { cbn [m_run]. rewrite A2. cbn [bind]. fold k2. rewrite R3. reflexivity. }
  split; auto. split; auto. split; [apply awaits_of; auto; congruence|]. auto.
Qed.

(** one unanswered request, from idle to idle *)
Lemma silent_phase z F V lo t k : silent_ok T z -> 2 <= T -> (forall e, In e (m_events lo) -> calls_ticks e) -> reqs_safe (lo ++ silent_sched z) ->
  cinv c t (mloc k) (mc_s k) -> mloc k = M649 -> base a F V t -> mm_t15 (mc_s k) = CLEARED ->
  exists s1 s2 k' o r, lo ++ silent_sched z = s1 ++ s2 /\ (forall e, In e (m_events s2) -> only_calls e) /\ m_run c s1 k = Ok (k', o) /\ cinv c (t ++ o) (mloc k') (mc_s k') /\
    mloc k' = M649 /\ mc_pc k' = None /\ mm_t15 (mc_s k') = CLEARED /\ timeout_report_of a r /\ finished (t ++ o) = S F /\ visible (t ++ o) = V ++ [VSend (request_frame a); VCb (TimeoutErr r); VFree].
Proof.
  intros [Z1 Z2 Z3 Z4 Z5 Z6 Z7 Z8] HT Hlo HS I L B T15. unfold silent_sched in HS. rewrite app_assoc in HS. apply reqs_app in HS as [HS1 HS]. change (MEv MTxDone :: z_tx z ++ z_wait z ++ MEv MTick :: z_last z) with ((MEv MTxDone :: z_tx z) ++ z_wait z ++ MEv MTick :: z_last z) in HS. apply reqs_app in HS as [HS2 HS3].
  destruct (send_phase c a F V (fl (mc_s k)) Hc (lo ++ z_send z) t k) as (k1 & o1 & R1 & I1 & (H1 & H1') & L1); auto.
  { intros e He. rewrite m_events_app in He. apply in_app_or in He as [He|He]; [apply Hlo in He|apply Z1 in He]; destruct e; try destruct He; exact Logic.I. }
  { rewrite L. split; auto. } { rewrite m_steps_app. lia. }
  rewrite L1 in H1'. destruct H1' as [B1 _]. unfold fl in H1. inversion H1 as [[G1 G2 G3 G4]].
  destruct (tx_exact F (sent a V) (z_tx z) (t ++ o1) k1) as (k2 & o2 & R2 & I2 & B2 & (W2 & T2 & Tm2) & Rx2 & _); auto; [congruence| |].
  { intros e He. apply Z3 in He. destruct e; try destruct He; split; try exact Logic.I; discriminate. }
  destruct (wait_report F (sent a V) T (z_wait z) (z_last z) ((t ++ o1) ++ o2) k2) as (k3 & o3 & R3 & B3 & _ & v1 & v2 & k4 & o4 & Ev & R4 & I4 & Q4 & L4 & P4); auto.
  { apply awaits_loc with (n := T). split; auto. } { intros X. apply Z5 in X. exact X. } { intros e He. apply Z7 in He. destruct e; try destruct He; split; discriminate. }
  destruct Q4 as [T4 Q4]. rewrite L4 in Q4. destruct Q4 as (r & Tr & Fi & Vi).
  exists ((lo ++ z_send z) ++ (MEv MTxDone :: z_tx z) ++ z_wait z ++ (MEv MTick :: v1)), v2, k4, (o1 ++ o2 ++ o3 ++ o4), r.
  split. { unfold silent_sched. rewrite Ev. rewrite <- ?app_assoc. cbn [app]. rewrite <- ?app_assoc. cbn [app]. rewrite <- ?app_assoc. reflexivity. }
  split. { intros e He. apply Z7. rewrite Ev, m_events_app. apply in_or_app. auto. }
  assert (TT : t ++ o1 ++ o2 ++ o3 ++ o4 = ((t ++ o1) ++ o2) ++ o3 ++ o4) by (rewrite <- ?app_assoc; reflexivity). rewrite TT.
  split. { rewrite m_run_app, R1. cbn [bind]. rewrite m_run_app, R2. cbn [bind]. rewrite m_run_app, R3. cbn [bind]. rewrite R4. reflexivity. }
  split; auto. split; auto. split; auto. split; auto. split; auto. split; auto. rewrite Vi. unfold sent. rewrite <- app_assoc. reflexivity.
Qed.
End Timeout.
(** a queue of unanswered requests *)
Lemma silent_all c : cfg_master_ok c -> 2 <= u32 (c_timeout c) -> forall zs reqs more lo t k, length zs = length reqs -> Forall (silent_ok (u32 (c_timeout c))) zs -> (forall e, In e (m_events lo) -> only_calls e) ->
  reqs_safe (lo ++ concat (map silent_sched zs)) -> cinv c t (mloc k) (mc_s k) -> mloc k = M649 -> mc_pc k = None -> mm_t15 (mc_s k) = CLEARED -> pending_reqs t = reqs ++ more ->
  exists s1 s2 k' o reps, lo ++ concat (map silent_sched zs) = s1 ++ s2 /\ (forall e, In e (m_events s2) -> only_calls e) /\ m_run c s1 k = Ok (k', o) /\ cinv c (t ++ o) (mloc k') (mc_s k') /\ mloc k' = M649 /\ mc_pc k' = None /\
    finished o = length reqs /\ Forall2 timeout_report_of reqs reps /\ visible o = concat (map (fun p => [VSend (request_frame (fst p)); VCb (TimeoutErr (snd p)); VFree]) (combine reqs reps)).
Proof.
  intros Hc HT. induction zs as [|z zs IH]; intros [|a reqs] more lo t k Ln Hz Hlo HS I L P T15 Pd; try discriminate Ln; cbn [map concat] in *.
  - exists [], lo, k, [], []. rewrite !app_nil_r. cbn [m_run app]. repeat (split; auto).
  - inversion Hz as [|? ? Hz1 Hz2]; subst. rewrite app_assoc in HS. apply reqs_app in HS as [HS1 HS2].
    assert (Cu : current t = Some a). { unfold current, pending_reqs in *. cbn [app] in Pd. assert (X := firstn_skipn (finished t) (accepted t)). rewrite Pd in X. rewrite <- X. assert (finished t <= length (accepted t))%nat. { assert (Y := f_equal (@length api) Pd). rewrite skipn_length in Y. cbn in Y. lia. }
      rewrite nth_error_app2; rewrite firstn_length; [|lia]. replace (finished t - Nat.min (finished t) (length (accepted t)))%nat with 0%nat by lia. reflexivity. }
    destruct (silent_phase c Hc a z (finished t) (visible t) lo t k) as (s1 & s2 & k1 & o1 & r & E1 & Se1 & R1 & I1 & L1 & P1 & T1 & Tr & Fi & Vi); auto.
    { intros e He. apply Hlo in He. destruct e; try destruct He; exact Logic.I. } { apply base_now; auto. }
    destruct (IH reqs (more ++ accepted o1) s2 (t ++ o1) k1) as (s3 & s4 & k2 & o2 & reps & E2 & Se2 & R2 & I2 & L2 & P2 & F2 & Rp2 & V2); auto.
    { apply reqs_app. split; auto. rewrite E1 in HS1. apply reqs_app in HS1. tauto. }
    { unfold pending_reqs in *. rewrite Fi, accepted_app. assert (X := firstn_skipn (finished t) (accepted t)). rewrite Pd in X. 
      assert (Lf : length (firstn (finished t) (accepted t)) = finished t). { rewrite firstn_length. assert (Y := f_equal (@length api) Pd). rewrite skipn_length in Y. cbn in Y. lia. }
      set (pre := firstn (finished t) (accepted t)) in *. rewrite <- X. rewrite <- Lf. replace ((pre ++ (a :: reqs) ++ more) ++ accepted o1) with ((pre ++ [a]) ++ reqs ++ more ++ accepted o1) by (rewrite <- ?app_assoc; reflexivity).
      replace (S (length pre)) with (length (pre ++ [a])) by (rewrite app_length; cbn; lia). rewrite skipn_app, skipn_all, Nat.sub_diag. reflexivity. }
    exists (s1 ++ s3), s4, k2, (o1 ++ o2), (r :: reps). split. { rewrite app_assoc, E1, <- app_assoc, E2, app_assoc. reflexivity. }
    split; auto. split. { rewrite m_run_app, R1. cbn [bind]. rewrite R2. reflexivity. }
    rewrite app_assoc. split; auto. split; auto. split; auto. split. { apply (finished_of t o1 1) in Fi || (rewrite finished_app in Fi). rewrite finished_app, F2. cbn [length]. lia. }
    split; [constructor; auto|]. rewrite visible_app, V2. apply visible_of in Vi. rewrite Vi. reflexivity.
Qed.
