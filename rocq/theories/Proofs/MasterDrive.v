(** Driving a master through phases: predicates kept by lines and expected events, on top of the general invariant. *)
From Verif Require Export Proofs.MasterSafe.

(** *** what an event changes *)
Definition view (s : master) := (mm_st s, mm_timer s, mm_rep s, (mm_t15 s, mm_t35 s, mm_fe s, mm_tx s, mm_crc s), mm_cur s).
Lemma cev c t l s e s' o : cfg_master_ok c -> Minv c t l s -> ev_safe e -> m_event c e s = Ok (s', o) ->
  (is_req e = false /\ s' = ev_state e s /\ o = []) \/ (exists a r, e = MReq a /\ o = [MoRet a r] /\ view s' = view s).
Proof.
  intros Hc I Hs E. destruct I as (free & pend & apis & eps & v & I). assert (B := iv_buf _ _ _ _ _ _ _ _ _ I). destruct (is_req e) eqn:IR.
  - right. destruct e; try discriminate IR. destruct (req_event c a free pend l s Hc B Hs) as (s2 & r & f' & p' & E2 & Q & _). rewrite E in E2. inversion E2; subst s2 o.
    exists a, r. split; auto. split; auto. destruct Q; reflexivity.
  - left. rewrite (event_char c e free pend l s IR (mc_sub _ _ _ (iv_ctl _ _ _ _ _ _ _ _ _ I)) B) in E. inversion E; auto.
Qed.
Lemma rx_view s b : view (ev_state (MRx b) s) = view s.
Proof. cbn [ev_state]. unfold view. rxp; reflexivity. Qed.

(** *** phases *)
Definition del_ok (t : list mitem) (l : mpc) (s : master) : Prop := l = M813 -> forall i a m, mm_cur s = Some i -> current t = Some a -> nth_error (mm_msgs s) i = Some m -> delivered a (rr_buf (m_resp m)) <> None.
Lemma not813 t l s : l <> M813 -> del_ok t l s.
Proof. intros H E. congruence. Qed.
Lemma cphase c (Q : list mev -> list mitem -> mpc -> master -> Prop) : cfg_master_ok c ->
  (forall rem t l s l' s' o, cinv c t l s -> Q rem t l s -> m_line c l s = Ok (l', s', o) -> Q rem (t ++ map MTOut o) (m_next l' s') s') ->
  (forall e rem t l s s' o, cinv c t l s -> Q (e :: rem) t l s -> ev_safe e -> m_event c e s = Ok (s', o) -> Q rem (t ++ MTEv e :: map MTOut o) l s') ->
  (forall rem t l s, cinv c t l s -> Q rem t l s -> del_ok t l s) ->
  forall sched rem t k, reqs_safe sched -> cinv c t (mloc k) (mc_s k) -> Q (m_events sched ++ rem) t (mloc k) (mc_s k) ->
  exists k' o, m_run c sched k = Ok (k', o) /\ cinv c (t ++ o) (mloc k') (mc_s k') /\ Q rem (t ++ o) (mloc k') (mc_s k').
Proof.
  intros Hc Hl He Hd sched. induction sched as [|a sched IH]; intros rem t k HS I H; cbn [m_run m_events app] in *.
  - do 2 eexists. split; [reflexivity|]. rewrite app_nil_r. auto.
  - assert (HS' : reqs_safe sched) by (intros b Hb; apply HS; right; auto).
    destruct a as [|e]; cbn [m_act m_events app] in *.
    + destruct (mc_pc k) as [l|] eqn:P.
      * unfold mloc in I, H. rewrite P in I, H. destruct (m_line_total c t l (mc_s k) (ci_inv _ _ _ _ I) (Hd _ _ _ _ I H)) as (l' & s' & o & E).
        rewrite E. cbn [bind]. destruct (IH rem (t ++ map MTOut o) (mk_mconf s' l')) as (k2 & o2 & E2 & I2 & H2); auto.
        { exact (cinv_line _ _ _ _ _ _ _ Hc I E). } { exact (Hl _ _ _ _ _ _ _ I H E). }
        rewrite E2. cbn [bind]. do 2 eexists. split; [reflexivity|]. rewrite app_assoc. auto.
      * cbn [bind]. destruct (IH rem t (mk_mconf (mc_s k) (Some (m_dispatch (mc_s k))))) as (k2 & o2 & E2 & I2 & H2); auto.
        { unfold mloc in I. rewrite P in I. exact I. } { unfold mloc in H. rewrite P in H. exact H. }
        rewrite E2. cbn [bind app]. do 2 eexists. split; [reflexivity|]. auto.
    + assert (SF : ev_safe e) by (destruct e; cbn; auto; apply HS; left; auto).
      destruct (m_event_total c t _ _ e Hc (ci_inv _ _ _ _ I) SF) as (s' & o & E). rewrite E. cbn [bind].
      assert (I' := cinv_event _ _ _ _ _ _ _ Hc SF I E). assert (H' := He _ _ _ _ _ _ _ I H SF E). assert (St := m_event_st _ _ _ _ _ E).
      assert (L : mloc (mk_mconf s' (mc_pc k)) = mloc k) by (unfold mloc, m_dispatch; cbn [mc_pc mc_s]; rewrite St; reflexivity).
      destruct (IH rem (t ++ MTEv e :: map MTOut o) (mk_mconf s' (mc_pc k)) HS') as (k2 & o2 & E2 & I2 & H2); [rewrite L; exact I'|rewrite L; exact H'|].
      rewrite E2. cbn [bind]. do 2 eexists. split; [reflexivity|]. rewrite app_assoc. auto.
Qed.

(** Reaching a goal: a weight per line decreases with every line; if [pn], the goal is met between two polls. *)
Lemma creachr c (Q : list mev -> list mitem -> mpc -> master -> Prop) (goal : list mitem -> mpc -> bool) (w : mpc -> nat) (pn : Prop) : cfg_master_ok c ->
  (forall rem t l s l' s' o, cinv c t l s -> Q rem t l s -> goal t l = false -> m_line c l s = Ok (l', s', o) -> Q rem (t ++ map MTOut o) (m_next l' s') s' /\
     ((goal (t ++ map MTOut o) (m_next l' s') = true /\ (pn -> l' = None)) \/ goal (t ++ map MTOut o) (m_next l' s') = false /\ (m_weight w (mk_mconf s' l') < w l)%nat)) ->
  (forall e rem t l s s' o, cinv c t l s -> Q (e :: rem) t l s -> ev_safe e -> m_event c e s = Ok (s', o) -> Q rem (t ++ MTEv e :: map MTOut o) l s' /\ goal (t ++ MTEv e :: map MTOut o) l = goal t l) ->
  (forall rem t l s, cinv c t l s -> Q rem t l s -> del_ok t l s) ->
  (forall t l, goal t l = false -> w l <> 0)%nat ->
  forall sched rem t k, reqs_safe sched -> cinv c t (mloc k) (mc_s k) -> Q (m_events sched ++ rem) t (mloc k) (mc_s k) ->
  goal t (mloc k) = false -> (m_weight w k <= m_steps sched)%nat ->
  exists s1 s2 k' o, sched = s1 ++ s2 /\ m_run c s1 k = Ok (k', o) /\ cinv c (t ++ o) (mloc k') (mc_s k') /\ Q (m_events s2 ++ rem) (t ++ o) (mloc k') (mc_s k') /\
    goal (t ++ o) (mloc k') = true /\ (pn -> mc_pc k' = None).
Proof.
  intros Hc Hl He Hd Hw sched. induction sched as [|a sched IH]; intros rem t k HS I H G W.
  - exfalso. cbn in W. unfold m_weight, mloc in *. destruct (mc_pc k); [apply Hw in G; lia|lia].
  - assert (HS' : reqs_safe sched) by (intros b Hb; apply HS; right; auto).
    destruct a as [|e]; cbn [m_events m_steps app] in *.
    + destruct (mc_pc k) as [l|] eqn:P.
      * unfold mloc in I, H, G. rewrite P in I, H, G. destruct (m_line_total c t l (mc_s k) (ci_inv _ _ _ _ I) (Hd _ _ _ _ I H)) as (l' & s' & o & E).
        assert (I' := cinv_line _ _ _ _ _ _ _ Hc I E). destruct (Hl _ _ _ _ _ _ _ I H G E) as (H' & D).
        assert (A : m_act c MStep k = Ok (mk_mconf s' l', map MTOut o)) by (cbn [m_act]; rewrite P, E; reflexivity).
        destruct D as [(G' & Pn)|(G' & W')].
        -- exists [MStep], sched, (mk_mconf s' l'), (map MTOut o). split; auto. cbn [m_run]. rewrite A. cbn [bind]. rewrite app_nil_r. auto.
        -- destruct (IH rem (t ++ map MTOut o) (mk_mconf s' l')) as (s1 & s2 & k2 & o2 & -> & R2 & I2 & H2 & G2 & P2); auto.
           { unfold m_weight at 1 in W. rewrite P in W. lia. }
           exists (MStep :: s1), s2, k2, (map MTOut o ++ o2). split; auto. cbn [m_run]. rewrite A. cbn [bind]. rewrite R2. cbn [bind]. rewrite app_assoc. auto.
      * assert (A : m_act c MStep k = Ok (mk_mconf (mc_s k) (Some (m_dispatch (mc_s k))), [])) by (cbn [m_act]; rewrite P; reflexivity).
        unfold mloc in I, H, G. rewrite P in I, H, G.
        destruct (IH rem t (mk_mconf (mc_s k) (Some (m_dispatch (mc_s k))))) as (s1 & s2 & k2 & o2 & -> & R2 & I2 & H2 & G2 & P2); auto.
        { unfold m_weight in *. rewrite P in W. cbn [mc_pc mc_s]. lia. }
        exists (MStep :: s1), s2, k2, o2. split; auto. cbn [m_run]. rewrite A. cbn [bind]. rewrite R2. cbn [bind app]. auto.
    + assert (SF : ev_safe e) by (destruct e; cbn; auto; apply HS; left; auto).
      destruct (m_event_total c t _ _ e Hc (ci_inv _ _ _ _ I) SF) as (s' & o & E).
      assert (I' := cinv_event _ _ _ _ _ _ _ Hc SF I E). destruct (He _ _ _ _ _ _ _ I H SF E) as [H' GE]. assert (St := m_event_st _ _ _ _ _ E).
      assert (L : mloc (mk_mconf s' (mc_pc k)) = mloc k) by (unfold mloc, m_dispatch; cbn [mc_pc mc_s]; rewrite St; reflexivity).
      assert (A : m_act c (MEv e) k = Ok (mk_mconf s' (mc_pc k), MTEv e :: map MTOut o)) by (cbn [m_act]; rewrite E; reflexivity).
      destruct (IH rem (t ++ MTEv e :: map MTOut o) (mk_mconf s' (mc_pc k)) HS') as (s1 & s2 & k2 & o2 & -> & R2 & I2 & H2 & G2 & P2).
      { rewrite L; exact I'. } { rewrite L; exact H'. } { rewrite L, GE; exact G. }
      { unfold m_weight, m_dispatch in *. cbn [mc_pc mc_s]. rewrite St. exact W. }
      exists (MEv e :: s1), s2, k2, ((MTEv e :: map MTOut o) ++ o2). split; auto. cbn [m_run]. rewrite A. cbn [bind]. rewrite R2. cbn [bind]. rewrite app_assoc. auto.
Qed.
Lemma creach c (Q : list mitem -> mpc -> master -> Prop) (goal : list mitem -> mpc -> bool) (w : mpc -> nat) (ev : mev -> Prop) (pn : Prop) : cfg_master_ok c ->
  (forall t l s l' s' o, cinv c t l s -> Q t l s -> goal t l = false -> m_line c l s = Ok (l', s', o) -> Q (t ++ map MTOut o) (m_next l' s') s' /\
     ((goal (t ++ map MTOut o) (m_next l' s') = true /\ (pn -> l' = None)) \/ goal (t ++ map MTOut o) (m_next l' s') = false /\ (m_weight w (mk_mconf s' l') < w l)%nat)) ->
  (forall e t l s s' o, cinv c t l s -> Q t l s -> ev e -> ev_safe e -> m_event c e s = Ok (s', o) -> Q (t ++ MTEv e :: map MTOut o) l s' /\ goal (t ++ MTEv e :: map MTOut o) l = goal t l) ->
  (forall t l s, cinv c t l s -> Q t l s -> del_ok t l s) ->
  (forall t l, goal t l = false -> w l <> 0)%nat ->
  forall sched t k, reqs_safe sched -> (forall e, In e (m_events sched) -> ev e) -> cinv c t (mloc k) (mc_s k) -> Q t (mloc k) (mc_s k) ->
  goal t (mloc k) = false -> (m_weight w k <= m_steps sched)%nat ->
  exists s1 s2 k' o, sched = s1 ++ s2 /\ m_run c s1 k = Ok (k', o) /\ cinv c (t ++ o) (mloc k') (mc_s k') /\ Q (t ++ o) (mloc k') (mc_s k') /\
    goal (t ++ o) (mloc k') = true /\ (pn -> mc_pc k' = None).
Proof.
  intros Hc Hl He Hd Hw sched t k HS HE I H G W.
  destruct (creachr c (fun rem t l s => (forall e, In e rem -> ev e) /\ Q t l s) goal w pn Hc) with (sched := sched) (rem := @nil mev) (t := t) (k := k) as (s1 & s2 & k' & o & -> & R & I' & (_ & H') & G' & P'); auto.
  - intros rem t0 l s l' s' o I0 (HE0 & H0) G0 E. destruct (Hl _ _ _ _ _ _ I0 H0 G0 E). auto.
  - intros e rem t0 l s s' o I0 (HE0 & H0) Hs E. destruct (He _ _ _ _ _ _ I0 H0 (HE0 _ (or_introl eq_refl)) Hs E). split; auto. split; auto. intros. apply HE0. right; auto.
  - intros rem t0 l s I0 (_ & H0). eauto.
  - rewrite app_nil_r. auto.
  - exists s1, s2, k', o. auto 10.
Qed.

(** *** the request in hand and what has been visible so far *)
Definition base (a : api) (F : nat) (V : list vis) (t : list mitem) : Prop := current t = Some a /\ finished t = F /\ visible t = V.
Lemma base_ev a F V t e o : base a F V t -> o = [] \/ (exists b r, o = [MoRet b r]) -> base a F V (t ++ MTEv e :: map MTOut o).
Proof.
  intros (H1 & H2 & H3) Ho. assert (X : finished (MTEv e :: map MTOut o) = 0%nat /\ visible (MTEv e :: map MTOut o) = []) by (destruct Ho as [->|(b & r & ->)]; auto).
  destruct X as [X1 X2]. split; [apply current_app; auto|]. rewrite finished_app, visible_app, X1, X2, app_nil_r. split; auto. lia.
Qed.
Lemma base_line a F V t o : base a F V t -> finished (map MTOut o) = 0%nat -> visible (map MTOut o) = [] -> base a F V (t ++ map MTOut o).
Proof. intros (H1 & H2 & H3) X1 X2. split; [apply current_app; auto|]. rewrite finished_app, visible_app, X1, X2, app_nil_r. split; auto. lia. Qed.
Lemma base_vis a F V t o v : base a F V t -> finished (map MTOut o) = 0%nat -> visible (map MTOut o) = v -> base a F (V ++ v) (t ++ map MTOut o).
Proof. intros (H1 & H2 & H3) X1 X2. split; [apply current_app; auto|]. rewrite finished_app, visible_app, X1, X2, H3. split; auto. lia. Qed.
