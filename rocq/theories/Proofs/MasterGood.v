(** One good answer; error flags left over; events that come too early. *)
From Verif Require Export Proofs.MasterIdle.

Section Good.
Context (c : cfg) (Hc : cfg_master_ok c) (a : api).
Notation T := (u32 (c_timeout c)).
Lemma good_phase y F V r lo t k : try_timed T y -> good_answer a y -> (forall e, In e (m_events lo) -> sev e) -> reqs_safe (lo ++ try_sched y) -> ready c a F V r t k ->
  exists s1 s2 k' o l, lo ++ try_sched y = s1 ++ s2 /\ (forall e, In e (m_events s2) -> sev e) /\ m_run c s1 k = Ok (k', o) /\ delivered a (y_frame y) = Some l /\
    done c F (sent a V) (t ++ o) k' l /\ no_leftovers k'.
Proof.
  intros Y (A & Cr & Ca & Fe) Hlo HS [I Q].
  destruct (try_phase c Hc a y F V false false false false CLEARED r lo t k) as (s1 & s2 & k' & o & E & Se & R & I' & L' & D & P); auto.
  destruct (mloc k') eqn:L; try discriminate D; cbn [late] in L'.
  - destruct L' as ((l & Rs & _ & Fi & Vi) & Fl & Rp). exists s1, s2, k', o, l. split; auto. split; auto. split; auto. split; [exact Rs|]. split; [|exact Fl].
    unfold done. rewrite L. split; auto. split; [apply idle_of; auto|]. auto.
  - destruct L' as (_ & _ & _ & Z & _). discriminate.
Qed.
(** an intact answer while exactly one of the error flags is set *)
Lemma leftover_phase y F V (FE pre : bool) r lo t k : FE && pre = false -> FE || pre = true -> try_timed T y -> good_answer a y -> (forall e, In e (m_events lo) -> sev e) -> reqs_safe (lo ++ try_sched y) ->
  cinv c t (mloc k) (mc_s k) -> Qs a F V (CLEARED, bl pre, bl FE, r) t (mloc k) (mc_s k) ->
  exists s1 s2 k' o, lo ++ try_sched y = s1 ++ s2 /\ (forall e, In e (m_events s2) -> sev e) /\ m_run c s1 k = Ok (k', o) /\
    (ready c a F (sent a V) (r + 1) (t ++ o) k' /\ mloc k' = M404 /\ mc_pc k' = None /\ r < c_repeat c \/
     c_repeat c <= r /\ exists e, r_err e = (if FE then RESP_FRAME_ERR else RESP_RTU_CRC_ERR) /\ r_id e = api_id a /\ done c F (sent a V) (t ++ o) k' [CommErr e]).
Proof.
  intros X1 X2 Y (A & Cr & Ca & Fe) Hlo HS I Q.
  destruct (try_phase c Hc a y F V FE pre false pre (bl FE) r lo t k) as (s1 & s2 & k' & o & E & Se & R & I' & L' & D & P); auto.
  { destruct FE; cbn; auto. }
  exists s1, s2, k', o. split; auto. split; auto. split; auto.
  destruct (mloc k') eqn:L; try discriminate D; cbn [late] in L'.
  - right. destruct L' as ((l & Rs & Le & Fi & Vi) & Fl & Rp). split; auto. unfold RES in Rs.
    assert (Z : exists e, l = [CommErr e] /\ r_err e = (if FE then RESP_FRAME_ERR else RESP_RTU_CRC_ERR) /\ r_id e = api_id a).
    { destruct FE; [|destruct pre; [|discriminate X2]]; destruct Rs as (e & -> & Re & Rd); exists e; auto. }
    destruct Z as (e & -> & Z1 & Z2). exists e. split; auto. split; auto. unfold done. rewrite L. split; auto. split; [apply idle_of; auto|]. auto.
  - left. destruct L' as (B & (C1 & C2 & C3) & Rp & _ & Le). split; [|split; auto; split; auto; lia]. unfold ready. rewrite L. split; auto. split; [unfold fl; congruence|]. exact B.
Qed.

(** the 3.5-character event arrives before the handling of the reception: it is wiped out *)
Lemma early_t35 F V f r n u v1 v2 t k : hd_error f = Some (api_id a) -> (length f < 256)%nat -> crc_ok f -> complete_answer a f ->
  reqs_safe (u ++ MEv MT15 :: MEv MT35 :: v1 ++ v2) -> cinv c t (mloc k) (mc_s k) -> base a F V t -> waiting_line (mloc k) = true -> mm_t15 (mc_s k) = CLEARED -> mm_crc (mc_s k) = CLEARED -> mm_fe (mc_s k) = CLEARED ->
  mm_rep (mc_s k) = r -> mm_timer (mc_s k) = n -> m_received t = [] -> ~ In MT15 (m_events u) -> ~ In MFrameErr (m_events u) -> rx_bytes (m_events u) = f ->
  2 + Z.of_nat (ticks (m_events u ++ m_events v1)) <= n -> (6 <= m_steps v1)%nat -> (forall e, In e (m_events (v1 ++ v2)) -> bev e) ->
  exists k' o, m_run c (u ++ MEv MT15 :: MEv MT35 :: v1 ++ v2) k = Ok (k', o) /\ cinv c (t ++ o) (mloc k') (mc_s k') /\ base a F V (t ++ o) /\ busy k' = true.
Proof.
  intros Hh Hl Hcrc Hca HS I B L T15 Cr Fe Rp Tm Rx N15 NF Rb Ti W HE.
  apply reqs_app in HS as [HS1 HS]. apply reqs_cons, reqs_cons in HS. apply reqs_app in HS as [HS2 HS3].
  destruct (bytes_phase c Hc a F V f false false r (m_events v1) u t k HS1 I) as (k1 & o1 & R1 & I1 & H1).
  { split; auto. split; auto. split; auto. split; auto. split; auto. split; auto. split; [rewrite Rx; exact Rb|]. split; auto. unfold tm_enough. rewrite Tm. exact Ti. }
  destruct H1 as (B1 & L1 & T1 & C1 & Rp1 & _ & Rx1 & Ti1 & Fe1 & _). cbn [rx_bytes app] in *. rewrite app_nil_r in Rx1.
  destruct (event_now c Hc _ _ MT15 I1 safe15) as (s2 & o2 & E2 & X2 & I2 & L2 & A2). set (k2 := mk_mconf s2 (mc_pc k1)) in *.
  destruct (event_now c Hc _ k2 MT35 I2 safe35) as (s3 & o3 & E3 & X3 & I3 & L3 & A3). set (k3 := mk_mconf s3 (mc_pc k2)) in *.
  set (t3 := ((t ++ o1) ++ MTEv MT15 :: map MTOut o2) ++ MTEv MT35 :: map MTOut o3) in *.
  assert (Co : com a F V f false r t3 s3).
  { split; [apply base_ev; [apply base_ev; [auto|apply (ef_o _ _ _ _ _ X2)]|apply (ef_o _ _ _ _ _ X3)]|].
    split; [rewrite (ef_rep _ _ _ _ _ X3); cbn [mc_s k2]; rewrite (ef_rep _ _ _ _ _ X2); auto|].
    split; [unfold t3; rewrite (evf_rx0 _ _ _ _ _ X3 Logic.I); rewrite (ef_rx _ _ _ _ _ X2); auto|].
    rewrite (ef_fe _ _ _ _ _ X3). cbn [mc_s k2]. rewrite (ef_fe _ _ _ _ _ X2). exact Fe1. }
  assert (T3 : mm_t15 s3 = SET) by (rewrite (ef_15 _ _ _ _ _ X3); cbn [mc_s k2]; rewrite (ef_15 _ _ _ _ _ X2); auto).
  assert (C3 : mm_crc s3 = CLEARED) by (rewrite (ef_crc _ _ _ _ _ X3); cbn [mc_s k2]; rewrite (ef_crc _ _ _ _ _ X2); auto).
  assert (Tm3 : mm_timer s3 = mm_timer (mc_s k1)) by (rewrite (ef_tm _ _ _ _ _ X3); cbn [mc_s k2]; rewrite (ef_tm _ _ _ _ _ X2); auto).
  destruct (handle_phase c Hc a F V f false false false false r Hh Hl Hcrc eq_refl eq_refl (fun _ _ => Hca) v1 [] t3 k3) as (k4 & o4 & R4 & I4 & H4 & Hd4); auto.
  { rewrite L3, L2, app_nil_r. split; [intros; apply HE; rewrite m_events_app; apply in_or_app; auto|]. destruct (mloc k1); try discriminate L1; (split; [auto|]); (split; [auto|]); (split; [auto|]); cbn [mc_s k3]; rewrite Tm3; exact Ti1. }
  assert (M4 : mid a F V f false false false false r CLEARED (t3 ++ o4) (mloc k4) (mc_s k4)) by (destruct H4 as [_ H4]; destruct (mloc k4); auto; discriminate Hd4).
  destruct (cphase c (fun rem t l s => (forall e, In e rem -> bev e) /\ mid a F V f false false false false r CLEARED t l s) Hc) with (sched := v2) (rem := @nil mev) (t := t3 ++ o4) (k := k4) as (k5 & o5 & R5 & I5 & _ & M5); auto.
  - intros rem t0 l s l' s' o I0 [HE0 H0] E. split; auto. destruct (mid_line c a F V f false false false false r Hh Hl Hcrc eq_refl eq_refl (fun _ _ => Hca) CLEARED t0 l s l' s' o) as [D|[D _]]; auto; [right; auto|discriminate D].
  - intros e rem t0 l s s' o I0 [HE0 H0] Hs E. split; [intros; apply HE0; right; auto|]. assert (Be := HE0 e (or_introl eq_refl)). assert (Y := mid_event c Hc a F V f false false false false r _ _ _ _ _ _ _ I0 H0 (bev_calm _ Be) Hs E). destruct e; auto. destruct Be.
  - intros rem t0 l s _ [_ H0]. apply not813. intros ->. apply H0.
  - split; auto. rewrite app_nil_r. intros; apply HE; rewrite m_events_app; apply in_or_app; auto.
  - exists k5, (o1 ++ (MTEv MT15 :: map MTOut o2) ++ (MTEv MT35 :: map MTOut o3) ++ o4 ++ o5).
    assert (TT : t ++ o1 ++ (MTEv MT15 :: map MTOut o2) ++ (MTEv MT35 :: map MTOut o3) ++ o4 ++ o5 = (t3 ++ o4) ++ o5) by (unfold t3; rewrite <- ?app_assoc; reflexivity). rewrite TT.
    split. { rewrite m_run_app, R1. cbn [bind m_run]. rewrite A2. cbn [bind]. fold k2. rewrite A3. cbn [bind]. fold k3. rewrite m_run_app, R4. cbn [bind]. rewrite R5. reflexivity. }
    split; auto. destruct M5 as ((B5 & _) & _ & _ & M5). split; auto. unfold busy. unfold mloc, m_dispatch in M5. destruct (mc_pc k5) as [[]|]; auto; try (destruct M5; fail). destruct (mm_st (mc_s k5)); auto; destruct M5.
Qed.
End Good.

(** the completion interrupt comes before the flag is set (lines 405, 406) *)
Section Lost.
Context (c : cfg) (Hc : cfg_master_ok c) (a : api) (F : nat) (V : list vis).
Definition Ql (rem : list mev) (t : list mitem) (l : mpc) (s : master) : Prop :=
  base a F V t /\ ~ In MTxDone rem /\ match l with M405 | M406 => True | M407 | M669 => mm_tx s = SET | _ => False end.
Lemma lost_tx sched t k : reqs_safe sched -> cinv c t (mloc k) (mc_s k) -> Ql (m_events sched) t (mloc k) (mc_s k) ->
  exists k' o, m_run c sched k = Ok (k', o) /\ cinv c (t ++ o) (mloc k') (mc_s k') /\ Ql [] (t ++ o) (mloc k') (mc_s k').
Proof.
  intros HS I H. apply (cphase c Ql Hc); auto; [..|rewrite app_nil_r; auto].
  - clear - Hc. intros rem t l s l' s' o I (B & N & L) E. assert (BS := mc_st _ _ _ (Minv_ctl _ _ _ _ (ci_inv _ _ _ _ I))).
    destruct l; try (destruct L; fail); mline_inv E; cbn [m_next map]; unfold m_dispatch; mprj; cbn [mst_ok] in BS; rewrite ?app_nil_r; rewrite ?BS;
      try (rewrite L in X; discriminate X); (split; [auto|split; auto]).
  - clear - Hc. intros e rem t l s s' o I (B & N & L) Hs E. apply In_cons_not in N as [NE N]. assert (X := ev_facts _ _ _ _ _ _ _ Hc I Hs E).
    split; [apply base_ev; [auto|apply (ef_o _ _ _ _ _ X)]|]. split; auto. rewrite (ef_tx _ _ _ _ _ X). destruct l; auto; destruct e; auto; congruence.
  - clear. intros rem t l s _ (_ & _ & L). apply not813. intros ->. exact L.
Qed.
End Lost.
