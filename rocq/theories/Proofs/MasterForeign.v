(** Frames from elsewhere (and empty receptions) are discarded. *)
From Verif Require Export Proofs.MasterStuck.

Fixpoint clears (t : list mitem) : nat := match t with [] => 0 | MTOut MoClear :: t => S (clears t) | _ :: t => clears t end.
Lemma clears_app a b : clears (a ++ b) = (clears a + clears b)%nat.
Proof. induction a as [|x a IH]; auto. destruct x as [e|[]]; cbn; rewrite ?IH; auto. Qed.
Lemma clears_ev e o : o = [] \/ (exists b r, o = [MoRet b r]) -> clears (MTEv e :: map MTOut o) = 0%nat.
Proof. intros [->|(b & r & ->)]; reflexivity. Qed.

(** the message in hand is not touched by anything but received bytes *)
Lemma ev_msg c t l s e s' o : cfg_master_ok c -> cinv c t l s -> ev_safe e -> quiet_line e -> m_event c e s = Ok (s', o) -> fly_line l = true ->
  forall i, mm_cur s = Some i -> nth_error (mm_msgs s') i = nth_error (mm_msgs s) i.
Proof.
  intros Hc I Hs Q E L i C. destruct (ci_inv _ _ _ _ I) as (free & pend & apis & eps & v & J). assert (B := iv_buf _ _ _ _ _ _ _ _ _ J).
  destruct (is_req e) eqn:IR.
  - destruct e; try discriminate IR. destruct (req_event c a free pend l s Hc B Hs) as (s2 & r & f' & p' & E2 & Qr & _). rewrite E in E2. inversion E2; subst s2 o.
    eapply req_keeps; eauto. unfold fly. rewrite L, C. left; auto.
  - rewrite (event_char c e free pend l s IR (mc_sub _ _ _ (iv_ctl _ _ _ _ _ _ _ _ _ J)) B) in E. inversion E; subst. destruct e; try destruct Q; try discriminate IR; cbn [ev_state]; mprj; auto.
    destruct (mm_timer s =? 0); cbn [negb]; mprj; auto.
Qed.

Section Foreign.
Context (c : cfg) (Hc : cfg_master_ok c) (a : api) (F : nat) (V : list vis) (n : Z) (Hn : 2 <= n) (cr : flag) (r : Z).
Definition tmr (rem : list mev) (s : master) : Prop := mm_timer s = n + Z.of_nat (ticks rem).
Definition keep (s : master) : Prop := mm_crc s = cr /\ mm_rep s = r.
Lemma tmr_ev e rem t s s' o : evf e t s s' o -> tmr (e :: rem) s -> tmr rem s'.
Proof. unfold tmr. intros X H. rewrite (ef_tm _ _ _ _ _ X). destruct e; cbn [ticks] in H; auto. replace (mm_timer s =? 0) with false by lia. lia. Qed.
Lemma keep_ev e t s s' o : evf e t s s' o -> keep s -> keep s'.
Proof. intros X [H1 H2]. split; [rewrite (ef_crc _ _ _ _ _ X)|rewrite (ef_rep _ _ _ _ _ X)]; auto. Qed.

(** the first byte received is the first byte in the buffer, up to 256 bytes *)
Definition firstb (t : list mitem) (s : master) : Prop := m_received t = [] \/ exists i m, mm_cur s = Some i /\ nth_error (mm_msgs s) i = Some m /\ nth 0 (rr_buf (m_resp m)) 0 = hd 0 (m_received t).
Lemma firstb_ev e t l s s' o : cinv c t l s -> waiting_line l = true -> ev_safe e -> e <> MT15 -> m_event c e s = Ok (s', o) -> (length (m_received (t ++ MTEv e :: map MTOut o)) <= 256)%nat ->
  firstb t s -> firstb (t ++ MTEv e :: map MTOut o) s'.
Proof.
  intros I L Hs N15 E Len Fb. assert (X := ev_facts _ _ _ _ _ _ _ Hc I Hs E). assert (FL : fly_line l = true) by (destruct l; try discriminate L; reflexivity).
  assert (Q : quiet_line e \/ exists b, e = MRx b) by (destruct e; cbn; eauto; congruence). destruct Q as [Q|[b ->]].
  - unfold firstb. assert (Rx : m_received (t ++ MTEv e :: map MTOut o) = m_received t) by (rewrite (ef_rx _ _ _ _ _ X); destruct e; auto; destruct Q). rewrite Rx.
    destruct Fb as [Fb|(i & m & C & N & Fb)]; [left; auto|right]. exists i, m. rewrite (ef_cur _ _ _ _ _ X). split; auto. split; auto. rewrite (ev_msg _ _ _ _ _ _ _ Hc I Hs Q E FL i C). auto.
  - right. rewrite (ef_rx _ _ _ _ _ X). rewrite (ef_rx _ _ _ _ _ X), app_length in Len. cbn [length] in Len.
    destruct (ci_inv _ _ _ _ I) as (free & pend & apis & eps & v & J). assert (B := iv_buf _ _ _ _ _ _ _ _ _ J).
    rewrite (event_char c (MRx b) free pend l s eq_refl (mc_sub _ _ _ (iv_ctl _ _ _ _ _ _ _ _ _ J)) B) in E. inversion E; subst s' o. clear E X.
    destruct (ci_rx _ _ _ _ I) as (i & m & C & N & [X1 _]); [destruct l; try discriminate L; reflexivity|].
    assert (Hm : msg_ok m) by (eapply Forall_forall; [apply (mb_msgs _ _ _ _ _ B)|eapply nth_error_In; eauto]). destruct Hm as [_ (_ & Lb & _)].
    cbn [ev_state]. unfold rx_put. rewrite (mb_rxc _ _ _ _ _ B) by (destruct l; try discriminate L; reflexivity). rewrite C, N. mprj.
    exists i. eexists. split; auto. rewrite upd_nth_error_same by (apply nth_error_Some; congruence). split; [reflexivity|]. cbn [m_resp set_resp rr_buf].
    rewrite Nat.mod_small in X1 by lia. rewrite X1, Nat2Z.id. destruct Fb as [Fb|(i' & m' & C' & N' & Fb)].
    + rewrite Fb. cbn [length app hd]. destruct (rr_buf (m_resp m)); [discriminate Lb|reflexivity].
    + rewrite C in C'. inversion C'; subst i'. rewrite N in N'. inversion N'; subst m'. destruct (m_received t) as [|z zs].
      * cbn [length app hd]. destruct (rr_buf (m_resp m)); [discriminate Lb|reflexivity].
      * cbn [app hd length] in *. rewrite <- Fb. destruct (rr_buf (m_resp m)); reflexivity.
Qed.
(** *** bytes arrive *)
Definition Qb (f : list Z) (later rem : list mev) (t : list mitem) (l : mpc) (s : master) : Prop :=
  base a F V t /\ waiting_line l = true /\ mm_t15 s = CLEARED /\ keep s /\ ~ In MT15 rem /\ m_received t ++ rx_bytes rem = f /\ tmr (rem ++ later) s /\ firstb t s.
Lemma arrive f later : (length f <= 256)%nat -> forall sched t k, reqs_safe sched -> cinv c t (mloc k) (mc_s k) -> Qb f later (m_events sched) t (mloc k) (mc_s k) ->
  exists k' o, m_run c sched k = Ok (k', o) /\ cinv c (t ++ o) (mloc k') (mc_s k') /\ Qb f later [] (t ++ o) (mloc k') (mc_s k').
Proof.
  intros Lf sched t k HS I H. apply (cphase c (Qb f later) Hc); auto; [..|rewrite app_nil_r; auto].
  - clear - Hc Hn. intros rem t l s l' s' o I (B & L & T & K & N & Rx & Ti & Fb) E. assert (BS := mc_st _ _ _ (Minv_ctl _ _ _ _ (ci_inv _ _ _ _ I))).
    destruct l; try discriminate L; mline_inv E; cbn [m_next map]; unfold m_dispatch; mprj; cbn [mst_ok] in BS; rewrite ?app_nil_r; rewrite ?BS.
    + rewrite T in X. discriminate.
    + split; auto. split; auto 10.
    + exfalso. unfold tmr in Ti. apply Z.eqb_eq in X. lia.
    + split; auto. split; auto 10.
  - clear - Hc Hn Lf. intros e rem t l s s' o I (B & L & T & K & N & Rx & Ti & Fb) Hs E. assert (X := ev_facts _ _ _ _ _ _ _ Hc I Hs E). apply In_cons_not in N as [NE N].
    split; [apply base_ev; [auto|apply (ef_o _ _ _ _ _ X)]|]. split; auto. split; [rewrite (ef_15 _ _ _ _ _ X); destruct e; congruence|]. split; [eapply keep_ev; eauto|]. split; auto.
    assert (Rx' : m_received (t ++ MTEv e :: map MTOut o) ++ rx_bytes rem = f). { rewrite (ef_rx _ _ _ _ _ X). destruct e; cbn [rx_bytes] in Rx; auto. rewrite <- app_assoc. exact Rx. }
    split; auto. split; [eapply tmr_ev; eauto|]. eapply firstb_ev; eauto. rewrite <- Rx', app_length in Lf. lia.
  - clear. intros rem t l s _ (_ & L & _). apply not813. intros ->. discriminate L.
Qed.

(** *** the reception is handled and discarded *)
Definition foreign (s : master) : Prop := exists i m, mm_cur s = Some i /\ nth_error (mm_msgs s) i = Some m /\ nth 0 (rr_buf (m_resp m)) 0 <> api_id a.
Definition QF (n0 : nat) (rem : list mev) (t : list mitem) (l : mpc) (s : master) : Prop :=
  base a F V t /\ keep s /\ (forall e, In e rem -> quiet_line e) /\ tmr rem s /\
  match l with
  | M690 | M694 => clears t = n0 /\ mm_t15 s = SET /\ foreign s \/ clears t = S n0 /\ mm_t15 s = CLEARED /\ m_received t = []
  | M746 | M747 _ => clears t = n0 /\ mm_t15 s = SET /\ foreign s
  | M748 _ | M749 _ => clears t = n0 /\ mm_t15 s = CLEARED /\ foreign s
  | M750 st | M756 st => clears t = n0 /\ mm_t15 s = CLEARED /\ st = RET_ERROR_SLAVE_ID
  | M758 => clears t = n0 /\ mm_t15 s = CLEARED
  | _ => False
  end.
Definition goalF (n0 : nat) (t : list mitem) (l : mpc) : bool := waiting_line l && Nat.ltb n0 (clears t).
Definition wf (l : mpc) : nat := match l with M694 => 12 | M690 => 10 | M746 => 9 | M747 _ => 8 | M748 _ => 7 | M749 _ => 6 | M750 _ => 5 | M756 _ => 4 | _ => 3 end.
Lemma QF_line n0 rem t l s l' s' o : cinv c t l s -> QF n0 rem t l s -> m_line c l s = Ok (l', s', o) -> QF n0 rem (t ++ map MTOut o) (m_next l' s') s' /\
  (goalF n0 t l = true -> goalF n0 (t ++ map MTOut o) (m_next l' s') = true) /\
  (goalF n0 t l = false -> goalF n0 (t ++ map MTOut o) (m_next l' s') = true \/ goalF n0 (t ++ map MTOut o) (m_next l' s') = false /\ (m_weight wf (mk_mconf s' l') < wf l)%nat).
Proof.
  intros I (B & K & HE & Ti & H) E. assert (BS := mc_st _ _ _ (Minv_ctl _ _ _ _ (ci_inv _ _ _ _ I))). unfold goalF, m_weight.
  destruct l; try (destruct H; fail).
  - cbn [waiting_line andb]. mline_inv E; cbn [m_next map mc_pc waiting_line andb wf]; rewrite app_nil_r.
    + destruct H as [(H1 & H2 & H3)|(H1 & H2 & H3)]; [|rewrite H2 in X; discriminate X].
      split; [split; [auto|split; [auto|split; [auto|split; auto]]]|]. split; [intros G; apply Nat.ltb_lt in G; lia|]. right. split; auto.
    + destruct H as [(H1 & H2 & H3)|(H1 & H2 & H3)]; [rewrite H2 in X; discriminate X|].
      split; [split; [auto|split; [auto|split; [auto|split; auto]]]|]. split; auto. intros G. apply Nat.ltb_ge in G. lia.
  - cbn [waiting_line andb]. mline_inv E; [exfalso; unfold tmr in Ti; apply Z.eqb_eq in X; lia|]. cbn [m_next map mc_pc mc_s]. unfold m_dispatch. rewrite BS, app_nil_r. cbn [waiting_line andb wf].
    split; [split; [auto|split; [auto|split; [auto|split; auto]]]|]. split; auto.
  - mline_inv E; cbn [m_next map mc_pc waiting_line andb wf]; rewrite app_nil_r. split; [split; [auto|split; [auto|split; [auto|split; auto]]]|]. split; [discriminate|]. right. auto.
  - mline_inv E; cbn [m_next map mc_pc waiting_line andb wf]; rewrite app_nil_r. destruct H as (H1 & H2 & H3). split; [split; [auto|split; [auto|split; [auto|split; auto]]]|]. split; [discriminate|]. right. auto.
  - mline_inv E; cbn [m_next map mc_pc waiting_line andb wf]. destruct H as (H1 & H2 & H3). split; [split; [apply (base_line _ _ _ _ [MoHandle]); auto|split; [auto|split; [auto|split; auto]]]|]. { rewrite clears_app. cbn. rewrite Nat.add_0_r. auto. } split; [discriminate|]. right. split; auto.
  - destruct H as (H1 & H2 & (i & m & C & N & Fo)). destruct (Minv_current _ _ _ _ (ci_inv _ _ _ _ I) eq_refl) as (i' & a' & m' & C' & Cu & N' & Hm & Hr & A & Va).
    assert (a' = a) by (destruct B as (B & _); congruence). subst a'. destruct (ci_chk _ _ _ _ I a Cu) as [-> _]. rewrite C in C'. inversion C'; subst i'. rewrite N in N'. inversion N'; subst m'.
    cbn [m_line] in E. rewrite (proj2 (cur_msg_inv _ _ _) (conj C N)) in E. cbn [bind] in E. rewrite recv_ok in E by apply Hm. replace (api_id a =? nth 0 (rr_buf (m_resp m)) 0) with false in E by (symmetry; apply Z.eqb_neq; auto). cbn [negb bind] in E. inversion E; subst.
    cbn [m_next map mc_pc waiting_line andb wf]. split; [split; [apply (base_line _ _ _ _ [MoCheck _]); auto|split; [auto|split; [auto|split; auto]]]|]. { rewrite clears_app. cbn. rewrite Nat.add_0_r. auto. } split; [discriminate|]. right. split; auto.
  - destruct H as (H1 & H2 & ->). cbn [m_line] in E. inversion E; subst. cbn [m_next map mc_pc waiting_line andb wf]. rewrite app_nil_r. split; [split; [auto|split; [auto|split; [auto|split; auto]]]|]. split; [discriminate|]. right. split; auto.
  - destruct H as (H1 & H2 & ->). cbn [m_line] in E. inversion E; subst. cbn [m_next map mc_pc waiting_line andb wf]. rewrite app_nil_r. split; [split; [auto|split; [auto|split; [auto|split; auto]]]|]. split; [discriminate|]. right. split; auto.
  - destruct H as (H1 & H2). mline_inv E. cbn [m_next map mc_pc mc_s]. unfold m_dispatch. mprj. cbn [mst_ok] in BS. rewrite BS. cbn [waiting_line andb wf].
    assert (Z : clears (t ++ [MTOut MoClear]) = S (clears t)) by (rewrite clears_app; cbn; lia). rewrite Z.
    split; [split; [apply (base_line _ _ _ _ [MoClear]); auto|split; [auto|split; [auto|split; auto]]]|]. { right. split; auto. split; auto. apply received_clear. }
    split; [discriminate|]. intros _. left. apply Nat.ltb_lt. lia.
Qed.
Lemma foreign_ev e t l s s' o : cinv c t l s -> ev_safe e -> quiet_line e -> m_event c e s = Ok (s', o) -> fly_line l = true -> foreign s -> foreign s'.
Proof.
  intros I Hs Q E L (i & m & C & N & Fo). exists i, m. rewrite (ef_cur _ _ _ _ _ (ev_facts _ _ _ _ _ _ _ Hc I Hs E)). split; auto. split; auto. rewrite (ev_msg _ _ _ _ _ _ _ Hc I Hs Q E L i C). auto.
Qed.
Lemma QF_event n0 e rem t l s s' o : cinv c t l s -> QF n0 (e :: rem) t l s -> ev_safe e -> m_event c e s = Ok (s', o) ->
  QF n0 rem (t ++ MTEv e :: map MTOut o) l s' /\ goalF n0 (t ++ MTEv e :: map MTOut o) l = goalF n0 t l.
Proof.
  intros I (B & K & HE & Ti & H) Hs E. assert (X := ev_facts _ _ _ _ _ _ _ Hc I Hs E). assert (Q : quiet_line e) by (apply HE; left; auto).
  assert (Z : clears (t ++ MTEv e :: map MTOut o) = clears t) by (rewrite clears_app, (clears_ev e o (ef_o _ _ _ _ _ X)); lia).
  split; [|unfold goalF; rewrite Z; auto]. split; [apply base_ev; [auto|apply (ef_o _ _ _ _ _ X)]|]. split; [eapply keep_ev; eauto|]. split; [intros; apply HE; right; auto|]. split; [eapply tmr_ev; eauto|].
  assert (T : mm_t15 s' = mm_t15 s) by (rewrite (ef_15 _ _ _ _ _ X); destruct e; auto; destruct Q).
  assert (Rx : m_received (t ++ MTEv e :: map MTOut o) = m_received t) by (rewrite (ef_rx _ _ _ _ _ X); destruct e; auto; destruct Q).
  assert (Fo : fly_line l = true -> foreign s -> foreign s') by (intros; eapply foreign_ev; eauto).
  destruct l; try (destruct H; fail); rewrite Z, T, ?Rx; intuition.
Qed.
Lemma QF_no813 n0 rem t l s : QF n0 rem t l s -> del_ok t l s.
Proof. intros (_ & _ & _ & _ & H). apply not813. intros ->. exact H. Qed.
(** within 13 steps *)
Lemma discard n0 : forall sched rem t k, reqs_safe sched -> cinv c t (mloc k) (mc_s k) -> QF n0 (m_events sched ++ rem) t (mloc k) (mc_s k) -> (13 <= m_steps sched)%nat ->
  exists k' o, m_run c sched k = Ok (k', o) /\ cinv c (t ++ o) (mloc k') (mc_s k') /\ base a F V (t ++ o) /\ keep (mc_s k') /\ tmr rem (mc_s k') /\
    waiting_line (mloc k') = true /\ mm_t15 (mc_s k') = CLEARED /\ m_received (t ++ o) = [].
Proof.
  intros sched rem t k HS I H W.
  assert (Stay : forall sched t k, reqs_safe sched -> cinv c t (mloc k) (mc_s k) -> QF n0 (m_events sched ++ rem) t (mloc k) (mc_s k) -> goalF n0 t (mloc k) = true ->
    exists k' o, m_run c sched k = Ok (k', o) /\ cinv c (t ++ o) (mloc k') (mc_s k') /\ base a F V (t ++ o) /\ keep (mc_s k') /\ tmr rem (mc_s k') /\
    waiting_line (mloc k') = true /\ mm_t15 (mc_s k') = CLEARED /\ m_received (t ++ o) = []).
  { clear - Hc Hn. intros sched t k HS I H G.
    destruct (cphase c (fun rem t l s => QF n0 rem t l s /\ goalF n0 t l = true) Hc) with (sched := sched) (rem := rem) (t := t) (k := k) as (k' & o & R & I' & (B & K & _ & Ti & Q') & G'); auto.
    - intros rem0 t0 l s l' s' o I0 (H0 & L0) E. destruct (QF_line _ _ _ _ _ _ _ _ I0 H0 E) as [H' [D _]]. auto.
    - intros e rem0 t0 l s s' o I0 (H0 & L0) Hs E. destruct (QF_event _ _ _ _ _ _ _ _ I0 H0 Hs E) as [H' D]. rewrite D. auto.
    - intros rem0 t0 l s _ (H0 & _). eapply QF_no813; eauto.
    - exists k', o. unfold goalF in G'. apply andb_true_iff in G' as [G1 G2]. apply Nat.ltb_lt in G2. split; auto. split; auto. split; auto. split; auto. split; auto. split; auto.
      destruct (mloc k'); try discriminate G1; destruct Q' as [(Q1 & _)|(_ & Q1 & Q2)]; try lia; auto. }
  destruct (goalF n0 t (mloc k)) eqn:G; [apply Stay; auto|].
  destruct (creachr c (QF n0) (goalF n0) wf False Hc) with (sched := sched) (rem := rem) (t := t) (k := k) as (s1 & s2 & k1 & o1 & -> & R1 & I1 & H1 & G1 & _); auto.
  - intros rem0 t0 l s l' s' o I0 H0 G0 E. destruct (QF_line _ _ _ _ _ _ _ _ I0 H0 E) as (H' & _ & D). split; auto. destruct (D G0) as [D'|D']; [left; tauto|right; auto].
  - intros e rem0 t0 l s s' o I0 H0 Hs E. apply QF_event with (s := s); auto.
  - intros rem0 t0 l s _ H0. eapply QF_no813; eauto.
  - clear. intros t l H. destruct l; cbn; lia.
  - unfold m_weight. destruct (mc_pc k) as [[]|]; cbn [wf]; try lia. destruct (m_dispatch _); cbn [wf]; lia.
  - destruct (Stay s2 (t ++ o1) k1) as (k2 & o2 & R2 & I2 & H2); auto.
    { intros x Hx. apply HS. apply in_or_app. auto. }
    exists k2, (o1 ++ o2). rewrite m_run_app, R1. cbn [bind]. rewrite R2. cbn [bind]. rewrite app_assoc. auto.
Qed.
Lemma foreign_first t s : firstb t s -> m_received t <> [] -> hd_error (m_received t) <> Some (api_id a) -> foreign s.
Proof.
  intros [Fb|(i & m & C & N & Fb)] N0 Hd; [congruence|]. exists i, m. split; auto. split; auto. rewrite Fb. destruct (m_received t); cbn in *; congruence.
Qed.
End Foreign.

(** any number of frames from elsewhere *)
Lemma strays c a F V cr r : cfg_master_ok c -> forall gs n t k, 2 <= n -> Forall (stray_ok (api_id a)) gs -> reqs_safe (concat (map stray_sched gs)) -> cinv c t (mloc k) (mc_s k) ->
  base a F V t -> keep cr r (mc_s k) -> mm_timer (mc_s k) = n + sched_ticks (concat (map stray_sched gs)) -> waiting_line (mloc k) = true -> mm_t15 (mc_s k) = CLEARED -> m_received t = [] ->
  exists k' o, m_run c (concat (map stray_sched gs)) k = Ok (k', o) /\ cinv c (t ++ o) (mloc k') (mc_s k') /\ base a F V (t ++ o) /\ keep cr r (mc_s k') /\ mm_timer (mc_s k') = n /\
    waiting_line (mloc k') = true /\ mm_t15 (mc_s k') = CLEARED /\ m_received (t ++ o) = [].
Proof.
  intros Hc. induction gs as [|g gs IH]; intros n t k Hn Hg HS I B K Ti L T Rx; cbn [map concat] in *.
  - exists k, []. rewrite app_nil_r. cbn in Ti. rewrite Z.add_0_r in Ti. cbn [m_run]. auto 10.
  - inversion Hg as [|? ? Hg1 Hg2]; subst. apply reqs_app in HS as [HS1 HS2]. unfold sched_ticks in Ti. rewrite m_events_app, ticks_app in Ti.
    set (later := ticks (m_events (concat (map stray_sched gs)))) in *. unfold stray_sched in HS1, Ti. rewrite m_events_app, ticks_app in Ti. cbn [m_events ticks] in Ti.
    apply reqs_app in HS1 as [HSa HSb]. apply reqs_cons in HSb. destruct Hg1 as [G1 G2 G3 G4 G5 G6].
    set (n1 := n + Z.of_nat later). set (f := stray_frame g) in *.
    destruct (arrive c Hc a F V n1 ltac:(lia) cr r f (m_events (g_15 g)) G4 (g_rx g) t k HSa I) as (k1 & o1 & R1 & I1 & (B1 & L1 & T1 & K1 & _ & Rx1 & Ti1 & Fb1)).
    { split; auto. split; auto. split; auto. split; auto. split; auto. split; [rewrite Rx; reflexivity|]. split; [unfold tmr; rewrite ticks_app; unfold n1; lia|left; auto]. }
    cbn [rx_bytes app] in Rx1, Ti1. rewrite app_nil_r in Rx1.
    destruct (event_now c Hc _ _ MT15 I1 safe15) as (s2 & o2 & E2 & X2 & I2 & L2 & A2). set (k2 := mk_mconf s2 (mc_pc k1)) in *.
    destruct (discard c Hc a F V n1 ltac:(lia) cr r (clears ((t ++ o1) ++ MTEv MT15 :: map MTOut o2)) (g_15 g) [] ((t ++ o1) ++ MTEv MT15 :: map MTOut o2) k2) as (k3 & o3 & R3 & I3 & B3 & K3 & Ti3 & L3 & T3 & Rx3); auto.
    { rewrite app_nil_r. split; [apply base_ev; [auto|apply (ef_o _ _ _ _ _ X2)]|]. split; [eapply keep_ev; eauto|]. split; auto. split; [unfold tmr in *; cbn [mc_s k2]; rewrite (ef_tm _ _ _ _ _ X2); auto|].
      assert (Fo : foreign a s2). { destruct (foreign_first a _ _ Fb1) as (i & m & C & N & Fo); try congruence. exists i, m. rewrite (ef_cur _ _ _ _ _ X2). split; auto. split; auto. cbn [m_event] in E2. destruct (mm_sub (mc_s k1)); inversion E2; subst; auto. }
      assert (T2 : mm_t15 s2 = SET) by apply (ef_15 _ _ _ _ _ X2). rewrite L2. destruct (mloc k1); try discriminate L1; left; auto. }
    unfold tmr in Ti3. cbn [ticks] in Ti3.
    destruct (IH n (((t ++ o1) ++ MTEv MT15 :: map MTOut o2) ++ o3) k3) as (k4 & o4 & R4 & Z4); auto. { unfold sched_ticks. fold later. unfold n1 in Ti3. lia. }
    exists k4, (o1 ++ (MTEv MT15 :: map MTOut o2) ++ o3 ++ o4).
    assert (TT : t ++ o1 ++ (MTEv MT15 :: map MTOut o2) ++ o3 ++ o4 = (((t ++ o1) ++ MTEv MT15 :: map MTOut o2) ++ o3) ++ o4) by (rewrite <- ?app_assoc; reflexivity). rewrite TT. split; auto.
    unfold stray_sched at 1. rewrite <- app_assoc. rewrite m_run_app, R1. cbn [bind app m_run]. rewrite A2. cbn [bind]. fold k2. rewrite m_run_app, R3. cbn [bind]. rewrite R4. cbn [bind]. reflexivity.
Qed.
