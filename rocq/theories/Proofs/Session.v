(** Sessions: one request after the other. *)
From Verif Require Export Proofs.EndToEnd.

(** nothing to do and nothing left over *)
Definition clean (c : cfg) (N : nat) (t : list mitem) (k : mconf) : Prop :=
  cinv c t (mloc k) (mc_s k) /\ mloc k = M649 /\ no_leftovers k /\ pending_reqs t = [] /\ pdu_errors t = N.
Definition Qc (V : list vis) (F : nat) (N : nat) (rem : list mev) (t : list mitem) (l : mpc) (s : master) : Prop :=
  Qi V F N rem t l s /\ (mm_t15 s = CLEARED /\ mm_crc s = CLEARED /\ mm_fe s = CLEARED) /\ forall e, In e rem -> sev e.
Lemma stay_clean c V F N sched t k : cfg_master_ok c -> reqs_safe sched -> cinv c t (mloc k) (mc_s k) -> Qc V F N (m_events sched) t (mloc k) (mc_s k) ->
  exists k' o, m_run c sched k = Ok (k', o) /\ cinv c (t ++ o) (mloc k') (mc_s k') /\ Qc V F N [] (t ++ o) (mloc k') (mc_s k').
Proof.
  intros Hc HS I H. apply (cphase c (Qc V F N) Hc); auto; [..|rewrite app_nil_r; auto].
  - clear - Hc. intros rem t l s l' s' o I ((L & Vi & Fi & Pd & Pe & NR) & Fl & Se) E. subst l. assert (X := pending_none _ _ _ (ci_inv _ _ _ _ I) Pd). cbn [m_line] in E. rewrite X in E. inversion E; subst. cbn [m_next map]. rewrite app_nil_r.
    assert (BS := mc_st _ _ _ (Minv_ctl _ _ _ _ (ci_inv _ _ _ _ I))). cbn [mst_ok] in BS. unfold m_dispatch. rewrite BS. split; [split; auto 10|auto].
  - clear - Hc. intros e rem t l s s' o I ((L & Vi & Fi & Pd & Pe & NR) & (F1 & F2 & F3) & Se) Hs E. subst l. assert (X := ev_facts _ _ _ _ _ _ _ Hc I Hs E).
    assert (O : o = []). { destruct (cev c t M649 s e s' o Hc (ci_inv _ _ _ _ I) Hs E) as [(_ & _ & Z)|(a & r & -> & _)]; auto. exfalso. apply (NR a). left; auto. }
    subst o. cbn [map]. split.
    + split; auto. rewrite visible_app, finished_app. cbn [visible finished]. rewrite app_nil_r, Nat.add_0_r. split; auto. split; auto.
      assert (A : accepted (t ++ [MTEv e]) = accepted t) by (rewrite accepted_app; cbn [accepted]; apply app_nil_r).
      assert (P : pdu_errors (t ++ [MTEv e]) = pdu_errors t) by (rewrite pdu_errors_app; cbn; lia).
      assert (Ff : finished (t ++ [MTEv e]) = finished t) by (rewrite finished_app; cbn; lia).
      unfold pending_reqs in *. rewrite A, P, Ff. split; auto. split; auto. intros a Ha. apply (NR a). right; auto.
    + split; [|intros; apply Se; right; auto]. assert (C := sev_calm _ (Se e (or_introl eq_refl))). assert (Y := evf_fl _ _ _ _ _ X C). unfold fl in Y. inversion Y. split; [congruence|]. split; congruence.
  - clear. intros rem t l s _ ((-> & _) & _). apply not813. discriminate.
Qed.
Lemma accept_now c N t k a : cfg_master_ok c -> clean c N t k -> Z.of_nat N < c_queue c -> api_ok a -> api_valid a = true ->
  exists k1, m_act c (MEv (MReq a)) k = Ok (k1, [MTEv (MReq a); MTOut (MoRet a REQUEST_SEND_TO_QUEUE)]) /\
    let t1 := t ++ [MTEv (MReq a); MTOut (MoRet a REQUEST_SEND_TO_QUEUE)] in
    cinv c t1 (mloc k1) (mc_s k1) /\ mloc k1 = M649 /\ no_leftovers k1 /\ current t1 = Some a /\ accepted t1 = accepted t ++ [a] /\ length (accepted t) = finished t.
Proof.
  intros Hc (I & L & (N1 & N2 & N3) & Pd & Pe) Hq Hok V.
  assert (Hs : req_safe a) by (split; [apply Hok|intros; apply Hok]).
  destruct (event_now c Hc t k (MReq a) I Hs) as (s' & o & E & X & I' & L' & A).
  assert (Z : o = [MoRet a REQUEST_SEND_TO_QUEUE] /\ length (accepted t) = finished t).
  { destruct (ci_inv _ _ _ _ I) as (free & pend & apis & eps & v & [K B Rq Ac Vi Ep Pa Fi Cn]).
    unfold pending_reqs in Pd. rewrite Ac, Fi, skipn_app, map_length, Nat.sub_diag in Pd. apply app_eq_nil in Pd as [_ Pd]. cbn [skipn] in Pd. subst apis.
    inversion Rq as [Y|]; subst. apply eq_sym, app_eq_nil in Y as [Y1 Y2]. rewrite Y1, Y2 in Cn. cbn [length] in Cn.
    destruct (req_event c a free pend (mloc k) (mc_s k) Hc B Hs) as (s2 & r & f' & p' & E2 & Q & _). rewrite E in E2. inversion E2; subst s2 o.
    split. { destruct Q; auto; [subst free; cbn [length] in Cn; lia|congruence]. }
    rewrite Ac, Fi, app_nil_r, map_length. reflexivity. }
  destruct Z as [-> Le]. exists (mk_mconf s' (mc_pc k)). split; [exact A|]. cbv zeta. cbn [map] in I'. split; [exact I'|]. split; [congruence|].
  split. { unfold no_leftovers. cbn [mc_s]. split; [rewrite (ef_15 _ _ _ _ _ X); auto|]. split; [rewrite (ef_crc _ _ _ _ _ X); auto|rewrite (ef_fe _ _ _ _ _ X); auto]. }
  assert (Ac1 : accepted (t ++ [MTEv (MReq a); MTOut (MoRet a REQUEST_SEND_TO_QUEUE)]) = accepted t ++ [a]) by (rewrite accepted_app; reflexivity).
  split; [|split; auto]. unfold current. rewrite Ac1, finished_app, <- Le. cbn [finished]. rewrite Nat.add_0_r, nth_error_app2, Nat.sub_diag by lia. reflexivity.
Qed.
Lemma served_cons c d a l reqs ls d1 d' : (if is_read a then d1 = d /\ read_result c d a l else write_result c d a d1 l) -> served c d1 reqs ls d' -> served c d (a :: reqs) (l :: ls) d'.
Proof. destruct (is_read a) eqn:R; intros H Hs; [destruct H as [-> H]; apply served_read; auto|apply served_write with d1; auto]. Qed.
Lemma session_phase c cs N : cfg_master_ok c -> u32 (c_timeout c) = c_timeout c -> cfg_tables_ok cs -> Z.of_nat N < c_queue c ->
  forall l t k q, clean c N t k -> slave_rests cs q -> regular_session c cs k q l ->
  exists k' o q' o' ls, m_run c (concat (map master_sched l)) k = Ok (k', o) /\ s_run cs (concat (map slave_sched l)) q = Ok (q', o') /\ clean c N (t ++ o) k' /\ slave_rests cs q' /\
    accepted o = map l_api l /\ length ls = length l /\ visible o = session_view (map l_api l) ls /\ served cs (s_data (sc_s q)) (map l_api l) ls (s_data (sc_s q')).
Proof.
  intros Hc HT Hcs Hq. induction l as [|x l IH]; intros t k q Cl Rq Rg; cbn [map concat].
  - exists k, [], q, [], []. cbn [m_run s_run]. rewrite app_nil_r. split; auto. split; auto. split; auto. split; auto. split; auto. split; auto. split; auto. constructor.
  - cbn [regular_session] in Rg. destruct Rg as (Hok & V & Id & Y & Nc & Cd & Ef & Rg). set (a := l_api x) in *.
    destruct (accept_now c N t k a Hc Cl Hq Hok V) as (k1 & A1 & I1 & L1 & NL1 & Cu1 & Ac1 & Le1). specialize (Ef _ _ A1).
    set (o0 := [MTEv (MReq a); MTOut (MoRet a REQUEST_SEND_TO_QUEUE)]) in *. set (t1 := t ++ o0) in *.
    assert (Rd : ready c a (finished t1) (visible t1) 0 t1 k1).
    { split; auto. rewrite L1 in *. destruct NL1 as (T & Cr & Fe). split; [unfold fl; rewrite T, Cr, Fe; f_equal; apply (rep_idle c t1); auto|]. apply base_now; auto. }
    rewrite <- HT in Y. assert (Sf := no_calls_safe _ Nc).
    destruct (both_phase c Hc cs Hcs a Hok V (l_try x) (l_slave x) (l_done x) _ _ t1 k1 q Y Sf Rd L1 Rq (eq_sym Id) Ef Cd) as (s1 & s2 & k2 & o1 & lc & q1 & p1 & q2 & p2 & Es & Se & R1 & (I2 & Id2 & F2 & V2) & NL2 & E1 & _ & _ & E2 & D2 & I3 & Rq2 & Rs).
    assert (Nc' := Nc). rewrite Es in Nc'. apply no_calls_app in Nc' as [Nc1 Nc2]. destruct (calls_none c s1 k1 k2 o1 Nc1 R1) as [Na Np].
    assert (L2 := idle_loc _ Id2). assert (F1 : finished t1 = finished t) by (unfold t1; rewrite finished_app; cbn; lia).
    assert (Pd2 : pending_reqs (t1 ++ o1) = []). { unfold pending_reqs. rewrite accepted_app, Na, app_nil_r, F2, Ac1, F1. rewrite skipn_all2; auto. rewrite app_length. cbn [length]. lia. }
    assert (Pe2 : pdu_errors (t1 ++ o1) = N). { unfold t1. rewrite !pdu_errors_app, Np. destruct Cl as (_ & _ & _ & _ & <-). cbn. lia. }
    destruct (stay_clean c (visible (t1 ++ o1)) (finished (t1 ++ o1)) N s2 (t1 ++ o1) k2 Hc) as (k3 & o2 & R2 & I4 & (L4 & Vi4 & Fi4 & Pd4 & Pe4 & _) & NL4 & _); auto.
    { apply no_calls_safe; auto. } { split; [split; auto 10|split; auto]. }
    destruct (calls_none c s2 k2 k3 o2 Nc2 R2) as [Na2 _].
    assert (Rm : m_run c (master_sched x) k = Ok (k3, o0 ++ o1 ++ o2)).
    { unfold master_sched. cbn [m_run]. fold a. rewrite A1. cbn [bind]. rewrite Es, m_run_app, R1. cbn [bind]. rewrite R2. reflexivity. }
    assert (Rsl : s_run cs (slave_sched x) q = Ok (q2, p1 ++ p2)) by (unfold slave_sched; rewrite SlavePhase.run_app, E1; cbn [bind]; rewrite E2; reflexivity).
    specialize (Rg _ _ _ _ Rm Rsl).
    destruct (IH (t ++ o0 ++ o1 ++ o2) k3 q2) as (k4 & o3 & q3 & p3 & ls & R3 & R4 & Cl3 & Rq3 & Ac3 & Ll & Vi3 & Sv); auto.
    { unfold clean. replace (t ++ o0 ++ o1 ++ o2) with ((t1 ++ o1) ++ o2) by (unfold t1; rewrite <- !app_assoc; reflexivity). auto 10. }
    exists k4, ((o0 ++ o1 ++ o2) ++ o3), q3, ((p1 ++ p2) ++ p3), (lc :: ls).
    split; [rewrite m_run_app, Rm; cbn [bind]; rewrite R3; reflexivity|]. split; [rewrite SlavePhase.run_app, Rsl; cbn [bind]; rewrite R4; reflexivity|].
    split; [rewrite app_assoc; auto|]. split; auto. split; [rewrite !accepted_app, Na, Na2, Ac3; reflexivity|]. split; [cbn [length]; lia|].
    split.
    { rewrite !visible_app, Vi3. change (visible o0) with (@nil vis). cbn [app]. unfold session_view. cbn [combine map concat fst snd]. f_equal.
      assert (X2 : visible o2 = []) by (rewrite visible_app in Vi4; rewrite <- (app_nil_r (visible (t1 ++ o1))) in Vi4; rewrite <- app_assoc in Vi4; cbn [app] in Vi4; apply app_inv_head in Vi4; auto).
      rewrite X2, app_nil_r. rewrite visible_app in V2. unfold sent in V2. rewrite <- app_assoc in V2. apply app_inv_head in V2. exact V2. }
    apply served_cons with (d1 := s_data (sc_s q2)); auto. rewrite D2. exact Rs.
Qed.
