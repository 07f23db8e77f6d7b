(** One transmission of a request and what comes back: sending, waiting, receiving, deciding. *)
From Verif Require Export Proofs.MasterWait.

(** *** what an event changes, field by field *)
Record evf (e : mev) (t : list mitem) (s s' : master) (o : list mout) : Prop := {
  ef_cur : mm_cur s' = mm_cur s;
  ef_rep : mm_rep s' = mm_rep s;
  ef_crc : mm_crc s' = mm_crc s;
  ef_15 : mm_t15 s' = match e with MT15 => SET | _ => mm_t15 s end;
  ef_35 : mm_t35 s' = match e with MT35 => SET | _ => mm_t35 s end;
  ef_fe : mm_fe s' = match e with MFrameErr => SET | _ => mm_fe s end;
  ef_tx : mm_tx s' = match e with MTxDone => CLEARED | _ => mm_tx s end;
  ef_tm : mm_timer s' = match e with MTick => if mm_timer s =? 0 then 0 else mm_timer s - 1 | _ => mm_timer s end;
  ef_o : o = [] \/ (exists b r, o = [MoRet b r]);
  ef_rx : m_received (t ++ MTEv e :: map MTOut o) = match e with MRx b => m_received t ++ [u8 b] | _ => m_received t end }.
Lemma ev_facts c t l s e s' o : cfg_master_ok c -> cinv c t l s -> ev_safe e -> m_event c e s = Ok (s', o) -> evf e t s s' o.
Proof.
  intros Hc I Hs E. evs I Hs E.
  - assert (R : m_received (t ++ [MTEv e]) = match e with MRx b => m_received t ++ [u8 b] | _ => m_received t end) by (unfold m_received; rewrite fold_left_app; destruct e; reflexivity).
    destruct e; try discriminate IR; try (constructor; cbn [ev_state]; mprj; auto; fail).
    + assert (X := rx_view s b). vinv X. constructor; auto; congruence.
    + constructor; cbn [ev_state] in *; destruct (mm_timer s =? 0) eqn:Z0; cbn [negb]; mprj; auto. lia.
  - vinv Vw. constructor; auto; try congruence. eauto. unfold m_received. rewrite fold_left_app. reflexivity.
Qed.
Definition fl (s : master) := (mm_t15 s, mm_crc s, mm_fe s, mm_rep s).
Lemma evf_fl e t s s' o : evf e t s s' o -> calm e -> fl s' = fl s.
Proof. intros [] H. unfold fl. destruct e; try (destruct H; fail); congruence. Qed.
Lemma evf_rx0 e t s s' o : evf e t s s' o -> calm e -> m_received (t ++ MTEv e :: map MTOut o) = m_received t.
Proof. intros [] H. destruct e; try (destruct H; fail); auto. Qed.
Lemma received_out t o : (forall x, In x o -> x <> MoClear) -> m_received (t ++ map MTOut o) = m_received t.
Proof.
  unfold m_received. rewrite fold_left_app. set (a := fold_left _ t []). clearbody a. clear t. revert a.
  induction o as [|x o IH]; intros acc H; cbn [map fold_left]; auto. assert (H' : forall y, In y o -> y <> MoClear) by (intros y Hy; apply H; right; auto).
  destruct x; try (apply IH; exact H'). exfalso. apply (H MoClear); [left|]; auto.
Qed.
Lemma received_clear t : m_received (t ++ [MTOut MoClear]) = [].
Proof. unfold m_received. rewrite fold_left_app. reflexivity. Qed.

(** *** sending *)
Lemma pending_idle c t s a : Minv c t M649 s -> current t = Some a -> check_data_to_send_availability (mm_txq s) = true.
Proof.
  intros I Cu. destruct I as (free & pend & apis & eps & v & [K B Rq Ac Vi Ep Pa Fi Cn]).
  rewrite (avail_iff _ _ _ (mb_pend _ _ _ _ _ B)). destruct pend as [|j rest]; auto. exfalso. unfold fly in Rq. cbn [fly_line app] in Rq. inversion Rq; subst. unfold current in Cu. rewrite Ac, Fi, app_nil_r in Cu.
  assert (nth_error (map e_api eps) (length eps) <> None) by congruence. apply nth_error_Some in H. rewrite map_length in H. lia.
Qed.
Definition sent (a : api) (V : list vis) : list vis := V ++ [VSend (request_frame a)].
Definition Qs (a : api) (F : nat) (V : list vis) f (t : list mitem) (l : mpc) (s : master) : Prop :=
  fl s = f /\
  match l with
  | M649 | M651 | M404 => base a F V t
  | M405 | M406 => base a F (sent a V) t
  | M407 | M669 => base a F (sent a V) t /\ mm_tx s = SET
  | _ => False
  end.
Lemma sev_calm e : sev e -> calm e. Proof. destruct e; cbn; auto. Qed.
Lemma Qs_event c a F V f e t l s s' o : cfg_master_ok c -> cinv c t l s -> Qs a F V f t l s -> sev e -> ev_safe e -> m_event c e s = Ok (s', o) -> Qs a F V f (t ++ MTEv e :: map MTOut o) l s'.
Proof.
  intros Hc I (H0 & H) Hv Hs E. assert (X := ev_facts _ _ _ _ _ _ _ Hc I Hs E). assert (X' := X). destruct X' as [_ _ _ _ _ _ Tx _ O _].
  split; [rewrite (evf_fl _ _ _ _ _ X) by (apply sev_calm; auto); auto|].
  destruct l; try (destruct H; fail); try (apply base_ev; auto; fail); (destruct H as [H HT]; split; [apply base_ev; auto|destruct e; try (destruct Hv; fail); congruence]).
Qed.
Lemma Qs_line c a F V f t l s l' s' o : cfg_master_ok c -> cinv c t l s -> Qs a F V f t l s -> m_line c l s = Ok (l', s', o) ->
  Qs a F V f (t ++ map MTOut o) (m_next l' s') s' /\ (l = M649 -> l' = Some M651).
Proof.
  intros Hc I (H0 & H) E. assert (K := Minv_ctl _ _ _ _ (ci_inv _ _ _ _ I)). assert (BS := mc_st _ _ _ K). unfold fl in *.
  destruct l; try (destruct H; fail); try (split; [|discriminate]).
  - cbn [m_line] in E. rewrite (pending_idle _ _ _ a (ci_inv _ _ _ _ I)) in E by apply H. inversion E; subst. rewrite app_nil_r. split; auto. split; auto.
  - mline_inv E. rewrite app_nil_r. split; [reflexivity|]. exact H.
  - destruct (Minv_current _ _ _ _ (ci_inv _ _ _ _ I) eq_refl) as (i & a' & m & C & Cu & N & Hm & Hr & A & Va).
    assert (a' = a) by (destruct H as (B & _); congruence). subst a'. cbn [m_line] in E. rewrite (proj2 (cur_msg_inv _ _ _) (conj C N)) in E. cbn [bind] in E.
    rewrite (mc_drv _ _ _ K) in E. inversion E; subst. split; auto. apply base_vis; auto. cbn [map visible]. do 2 f_equal. exact Hr.
  - mline_inv E. rewrite app_nil_r. split; [reflexivity|]. exact H.
  - mline_inv E. rewrite app_nil_r. split; [reflexivity|]. split; auto.
  - mline_inv E. rewrite app_nil_r. cbn [m_next]. unfold m_dispatch. mprj. destruct H. split; [reflexivity|]. split; auto.
  - destruct H as [H HT]. mline_inv E; [rewrite HT in X; discriminate|]. rewrite app_nil_r. cbn [m_next]. unfold m_dispatch. rewrite BS. split; auto.
Qed.
Lemma Qs_no813 a F V f t l s : Qs a F V f t l s -> del_ok t l s.
Proof. intros [_ H]. apply not813. intros ->. exact H. Qed.
Definition goal_sent (t : list mitem) (l : mpc) : bool := match l with M669 => true | _ => false end.
Definition ws (l : mpc) : nat := match l with M649 => 6 | M651 => 5 | M404 => 4 | M405 => 3 | M406 => 2 | _ => 1 end.
(** after 7 steps the request has been handed to the driver *)
Lemma send_phase c a F V f : cfg_master_ok c -> forall sched t k, reqs_safe sched -> (forall e, In e (m_events sched) -> sev e) ->
  cinv c t (mloc k) (mc_s k) -> Qs a F V f t (mloc k) (mc_s k) -> (7 <= m_steps sched)%nat ->
  exists k' o, m_run c sched k = Ok (k', o) /\ cinv c (t ++ o) (mloc k') (mc_s k') /\ Qs a F V f (t ++ o) (mloc k') (mc_s k') /\ mloc k' = M669.
Proof.
  intros Hc sched t k HS HE I H W.
  (* once at M669, the master stays there *)
  assert (Stay : forall sched t k, reqs_safe sched -> (forall e, In e (m_events sched) -> sev e) -> cinv c t (mloc k) (mc_s k) -> Qs a F V f t (mloc k) (mc_s k) -> mloc k = M669 ->
    exists k' o, m_run c sched k = Ok (k', o) /\ cinv c (t ++ o) (mloc k') (mc_s k') /\ Qs a F V f (t ++ o) (mloc k') (mc_s k') /\ mloc k' = M669).
  { clear - Hc. intros sched t k HS HE I H L.
    destruct (cphase c (fun rem t l s => (forall e, In e rem -> sev e) /\ Qs a F V f t l s /\ l = M669) Hc) with (sched := sched) (rem := @nil mev) (t := t) (k := k) as (k' & o & R & I' & _ & Q' & L'); auto.
    - clear - Hc. intros rem t l s l' s' o I (HE & H & ->) E. split; auto. destruct (Qs_line _ _ _ _ _ _ _ _ _ _ _ Hc I H E) as [H' _]. split; auto.
      assert (BS := mc_st _ _ _ (Minv_ctl _ _ _ _ (ci_inv _ _ _ _ I))). destruct H as (_ & _ & HT). mline_inv E; [rewrite HT in X; discriminate|]. cbn [m_next]. unfold m_dispatch. rewrite BS. auto.
    - clear - Hc. intros e rem t l s s' o I (HE & H & ->) Hs E. split; [intros; apply HE; right; auto|]. split; auto. eapply Qs_event; eauto. apply HE. left; auto.
    - clear. intros rem t l s _ (_ & H & _). eapply Qs_no813; eauto.
    - rewrite app_nil_r. auto.
    - exists k', o. auto. }
  destruct (goal_sent t (mloc k)) eqn:G.
  { apply Stay; auto. destruct (mloc k); try discriminate G; auto. }
  destruct (creach c (Qs a F V f) goal_sent ws sev False Hc) with (sched := sched) (t := t) (k := k) as (s1 & s2 & k1 & o1 & -> & R1 & I1 & H1 & G1 & _); auto.
  - clear - Hc. intros t l s l' s' o I H G E. destruct (Qs_line _ _ _ _ _ _ _ _ _ _ _ Hc I H E) as [H' L]. split; auto.
    assert (BS := mc_st _ _ _ (Minv_ctl _ _ _ _ (ci_inv _ _ _ _ I))).
    destruct l; try (destruct H as [_ []]; fail); try discriminate G; mline_inv E; unfold m_weight; cbn [m_next mc_pc ws goal_sent]; auto.
    discriminate (L eq_refl).
  - clear - Hc. intros e t l s s' o I H Hv Hs E. split; auto. eapply Qs_event; eauto.
  - clear. intros t l s _ H. eapply Qs_no813; eauto.
  - clear. intros t l H. destruct l; discriminate H || (cbn; lia).
  - unfold m_weight. destruct (mc_pc k) as [[]|]; cbn [ws]; try lia. destruct (m_dispatch _); cbn [ws]; lia.
  - destruct (Stay s2 (t ++ o1) k1) as (k2 & o2 & R2 & I2 & H2 & L2); auto.
    { intros x Hx. apply HS. apply in_or_app. auto. } { intros e He. apply HE. rewrite m_events_app. apply in_or_app. auto. } { destruct (mloc k1); try discriminate G1; auto. }
    exists k2, (o1 ++ o2). rewrite m_run_app, R1. cbn [bind]. rewrite R2. cbn [bind]. rewrite app_assoc. auto.
Qed.

(** *** from the transmission to waiting *)
Record tm_ok (TM : list mev -> Z -> Prop) : Prop := {
  tm_other : forall e rem x, e <> MTick -> TM (e :: rem) x -> TM rem x;
  tm_tick : forall rem x, TM (MTick :: rem) x -> TM rem x /\ TM rem (x - 1);
  tm_two : forall rem x, TM rem x -> 2 <= x }.
(** enough time left for all the ticks to come *)
Definition tm_enough (rem : list mev) (x : Z) : Prop := 2 + Z.of_nat (ticks rem) <= x.
Lemma tm_enough_ok : tm_ok tm_enough.
Proof.
  unfold tm_enough. constructor.
  - intros e rem x N H. destruct e; cbn [ticks] in H; auto. congruence.
  - intros rem x H. cbn [ticks] in H. lia.
  - intros. lia.
Qed.
(** no tick to come, the timer shows [n] *)
Definition tm_exact (n : Z) (rem : list mev) (x : Z) : Prop := x = n /\ 2 <= n /\ ~ In MTick rem.
Lemma tm_exact_ok n : tm_ok (tm_exact n).
Proof.
  unfold tm_exact. constructor.
  - intros e rem x N (H1 & H2 & H). apply In_cons_not in H. tauto.
  - intros rem x (_ & _ & H). exfalso. apply H. left; auto.
  - intros. lia.
Qed.
Lemma tm_step TM e t s s' o rem : tm_ok TM -> evf e t s s' o -> TM (e :: rem) (mm_timer s) -> TM rem (mm_timer s').
Proof.
  intros HT [] H. rewrite ef_tm0. destruct e; try (eapply (tm_other _ HT); [|exact H]; discriminate).
  apply (tm_tick _ HT) in H as [H1 H2]. apply (tm_two _ HT) in H1 as H3. replace (mm_timer s =? 0) with false by lia. auto.
Qed.
Lemma tm_keep TM e rem x : tm_ok TM -> TM (e :: rem) x -> TM rem x.
Proof. intros HT H. destruct e; try (eapply (tm_other _ HT); [|exact H]; discriminate). apply (tm_tick _ HT) in H. tauto. Qed.

Definition Qx (a : api) (F : nat) (V : list vis) f (TM : list mev -> Z -> Prop) (T : Z) (rem : list mev) (t : list mitem) (l : mpc) (s : master) : Prop :=
  fl s = f /\ base a F V t /\ (forall e, In e rem -> calm e) /\
  match l with
  | M407 | M669 | M671 => TM rem T
  | M672 => TM rem T /\ m_received t = []
  | M673 | M690 | M694 => TM rem (mm_timer s) /\ m_received t = []
  | _ => False
  end.
Lemma Qx_line c a F V f TM rem t l s l' s' o : cfg_master_ok c -> tm_ok TM -> fst (fst (fst f)) = CLEARED -> cinv c t l s -> Qx a F V f TM (u32 (c_timeout c)) rem t l s -> m_line c l s = Ok (l', s', o) ->
  Qx a F V f TM (u32 (c_timeout c)) rem (t ++ map MTOut o) (m_next l' s') s'.
Proof.
  intros Hc HT F0 I (H0 & B & HE & H) E. assert (K := Minv_ctl _ _ _ _ (ci_inv _ _ _ _ I)). assert (BS := mc_st _ _ _ K). assert (T15 : mm_t15 s = CLEARED) by (unfold fl in H0; subst f; exact F0). unfold fl in *.
  destruct l; try (destruct H; fail); mline_inv E; cbn [m_next map]; unfold m_dispatch; mprj; cbn [mst_ok] in BS; rewrite ?app_nil_r; rewrite ?BS;
    try (split; [auto|split; [auto|split; [auto|]]]; auto; fail).
  - split; [auto|split; [apply (base_line _ _ _ _ [MoClear] B); auto|split; [auto|]]]. split; auto. apply received_clear.
  - rewrite T15 in X. discriminate X.
  - exfalso. destruct H as [H _]. apply (tm_two _ HT) in H. apply Z.eqb_eq in X. lia.
Qed.
Lemma Qx_event c a F V f TM T e rem t l s s' o : cfg_master_ok c -> tm_ok TM -> cinv c t l s -> Qx a F V f TM T (e :: rem) t l s -> ev_safe e -> m_event c e s = Ok (s', o) ->
  Qx a F V f TM T rem (t ++ MTEv e :: map MTOut o) l s'.
Proof.
  intros Hc HT I (H0 & B & HE & H) Hs E. assert (X := ev_facts _ _ _ _ _ _ _ Hc I Hs E). assert (C : calm e) by (apply HE; left; auto).
  split; [rewrite (evf_fl _ _ _ _ _ X C); auto|]. split; [apply base_ev; [auto|apply (ef_o _ _ _ _ _ X)]|]. split; [intros; apply HE; right; auto|].
  assert (R := evf_rx0 _ _ _ _ _ X C).
  destruct l; try (destruct H; fail); try (eapply tm_keep; eauto; fail); destruct H as [H H1]; (split; [|congruence]); try (eapply tm_keep; eauto; fail); eapply tm_step; eauto.
Qed.
Lemma Qx_no813 a F V f TM T rem t l s : Qx a F V f TM T rem t l s -> del_ok t l s.
Proof. intros (_ & _ & _ & H). apply not813. intros ->. exact H. Qed.
(** until the completion interrupt *)
Lemma tx_before c a F V f TM : cfg_master_ok c -> tm_ok TM -> fst (fst (fst f)) = CLEARED -> forall sched rem t k, reqs_safe sched -> cinv c t (mloc k) (mc_s k) ->
  Qx a F V f TM (u32 (c_timeout c)) (m_events sched ++ rem) t (mloc k) (mc_s k) ->
  exists k' o, m_run c sched k = Ok (k', o) /\ cinv c (t ++ o) (mloc k') (mc_s k') /\ Qx a F V f TM (u32 (c_timeout c)) rem (t ++ o) (mloc k') (mc_s k').
Proof.
  intros Hc HT F0. apply cphase; auto.
  - intros. eapply Qx_line; eauto.
  - intros. eapply Qx_event; eauto.
  - intros. eapply Qx_no813; eauto.
Qed.
Definition waiting_line (l : mpc) : bool := match l with M690 | M694 => true | _ => false end.
Definition wx (l : mpc) : nat := match l with M407 => 6 | M669 => 4 | M671 => 3 | M672 => 2 | _ => 1 end.
Definition Qx' a F V f TM T rem t l s := Qx a F V f TM T rem t l s /\ mm_tx s = CLEARED.
Lemma Qx'_line c a F V f TM rem t l s l' s' o : cfg_master_ok c -> tm_ok TM -> fst (fst (fst f)) = CLEARED -> cinv c t l s -> Qx' a F V f TM (u32 (c_timeout c)) rem t l s -> m_line c l s = Ok (l', s', o) ->
  Qx' a F V f TM (u32 (c_timeout c)) rem (t ++ map MTOut o) (m_next l' s') s' /\
  if waiting_line l then waiting_line (m_next l' s') = true else waiting_line (m_next l' s') = true \/ waiting_line (m_next l' s') = false /\ (m_weight wx (mk_mconf s' l') < wx l)%nat.
Proof.
  intros Hc HT F0 I [H Tx] E. assert (H' := Qx_line _ _ _ _ _ _ _ _ _ _ _ _ _ Hc HT F0 I H E). assert (BS := mc_st _ _ _ (Minv_ctl _ _ _ _ (ci_inv _ _ _ _ I))).
  assert (Tx' : mm_tx s' = CLEARED). { destruct H as (_ & _ & _ & H). destruct l; try (destruct H; fail); mline_inv E; auto. }
  split; [split; auto|]. destruct H as (H0 & _ & _ & H). assert (T15 : mm_t15 s = CLEARED) by (unfold fl in H0; subst f; exact F0).
  destruct l; try (destruct H; fail); cbn [waiting_line]; mline_inv E; unfold m_weight; cbn [m_next mc_pc mc_s]; unfold m_dispatch; mprj; cbn [mst_ok] in BS; rewrite ?BS; cbn [wx]; auto.
  - rewrite Tx in X. discriminate X.
  - rewrite T15 in X. discriminate X.
  - destruct H as [H _]. apply (tm_two _ HT) in H. apply Z.eqb_eq in X. lia.
Qed.
Lemma Qx'_event c a F V f TM T e rem t l s s' o : cfg_master_ok c -> tm_ok TM -> cinv c t l s -> Qx' a F V f TM T (e :: rem) t l s -> ev_safe e -> m_event c e s = Ok (s', o) ->
  Qx' a F V f TM T rem (t ++ MTEv e :: map MTOut o) l s'.
Proof.
  intros Hc HT I [H Tx] Hs E. split; [eapply Qx_event; eauto|]. rewrite (ef_tx _ _ _ _ _ (ev_facts _ _ _ _ _ _ _ Hc I Hs E)). destruct e; auto.
Qed.
(** after the completion interrupt: within 7 steps *)
Lemma tx_after c a F V f TM : cfg_master_ok c -> tm_ok TM -> fst (fst (fst f)) = CLEARED -> forall sched rem t k, reqs_safe sched -> cinv c t (mloc k) (mc_s k) ->
  Qx' a F V f TM (u32 (c_timeout c)) (m_events sched ++ rem) t (mloc k) (mc_s k) -> (7 <= m_steps sched)%nat ->
  exists k' o, m_run c sched k = Ok (k', o) /\ cinv c (t ++ o) (mloc k') (mc_s k') /\ Qx' a F V f TM (u32 (c_timeout c)) rem (t ++ o) (mloc k') (mc_s k') /\ waiting_line (mloc k') = true.
Proof.
  intros Hc HT F0 sched rem t k HS I H W.
  assert (Stay : forall sched t k, reqs_safe sched -> cinv c t (mloc k) (mc_s k) -> Qx' a F V f TM (u32 (c_timeout c)) (m_events sched ++ rem) t (mloc k) (mc_s k) -> waiting_line (mloc k) = true ->
    exists k' o, m_run c sched k = Ok (k', o) /\ cinv c (t ++ o) (mloc k') (mc_s k') /\ Qx' a F V f TM (u32 (c_timeout c)) rem (t ++ o) (mloc k') (mc_s k') /\ waiting_line (mloc k') = true).
  { clear - Hc HT F0. intros sched t k HS I H L.
    destruct (cphase c (fun rem t l s => Qx' a F V f TM (u32 (c_timeout c)) rem t l s /\ waiting_line l = true) Hc) with (sched := sched) (rem := rem) (t := t) (k := k) as (k' & o & R & I' & Q' & L'); auto.
    - intros rem0 t0 l s l' s' o I0 (H0 & L0) E. destruct (Qx'_line _ _ _ _ _ _ _ _ _ _ _ _ _ Hc HT F0 I0 H0 E) as [H' D]. rewrite L0 in D. auto.
    - intros e rem0 t0 l s s' o I0 (H0 & L0) Hs E. split; auto. eapply Qx'_event; eauto.
    - intros rem0 t0 l s _ ((H0 & _) & _). eapply Qx_no813; eauto.
    - exists k', o. auto. }
  destruct (waiting_line (mloc k)) eqn:G; [apply Stay; auto|].
  destruct (creachr c (Qx' a F V f TM (u32 (c_timeout c))) (fun _ => waiting_line) wx False Hc) with (sched := sched) (rem := rem) (t := t) (k := k) as (s1 & s2 & k1 & o1 & -> & R1 & I1 & H1 & G1 & _); auto.
  - intros rem0 t0 l s l' s' o I0 H0 G0 E. destruct (Qx'_line _ _ _ _ _ _ _ _ _ _ _ _ _ Hc HT F0 I0 H0 E) as [H' D]. rewrite G0 in D. split; auto. destruct D as [D|D]; [left; tauto|right; auto].
  - intros e rem0 t0 l s s' o I0 H0 Hs E. split; auto. eapply Qx'_event; eauto.
  - intros rem0 t0 l s _ (H0 & _). eapply Qx_no813; eauto.
  - clear. intros t l H. destruct l; discriminate H || (cbn; lia).
  - unfold m_weight. destruct (mc_pc k) as [[]|]; cbn [wx]; try lia. destruct (m_dispatch _); cbn [wx]; lia.
  - destruct (Stay s2 (t ++ o1) k1) as (k2 & o2 & R2 & I2 & H2 & L2); auto.
    { intros x Hx. apply HS. apply in_or_app. auto. }
    exists k2, (o1 ++ o2). rewrite m_run_app, R1. cbn [bind]. rewrite R2. cbn [bind]. rewrite app_assoc. auto.
Qed.
