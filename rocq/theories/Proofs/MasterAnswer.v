(** Receiving one answer: from waiting to the decision, and the decision. *)
From Verif Require Export Proofs.MasterAttempt.

Lemma complete_delivered a f b : complete_answer a f -> api_valid a = true -> firstn (length f) b = f ->
  delivered a b = delivered a f /\ exists l, delivered a f = Some l.
Proof.
  intros C V P. assert (G : forall k, (k < length f)%nat -> byte_at b k = byte_at f k) by (intros; apply prefix_nth; auto).
  destruct C as [[C1 C2]|(C1 & C2 & C3)].
  - unfold delivered. rewrite !G by lia. replace (128 <=? byte_at f 1) with true by lia. split; eauto.
  - assert (Fc : api_fc a < 128) by (destruct a; cbn; lia).
    assert (FcM : (api_fc a =? 1) || (api_fc a =? 2) || (api_fc a =? 3) || (api_fc a =? 4) = is_read a) by (destruct a; reflexivity).
    unfold delivered. rewrite !(G 0%nat), !(G 1%nat) by lia. rewrite C1. replace (128 <=? api_fc a) with false by lia. rewrite FcM.
    destruct (is_read a) eqn:R.
    + specialize (C3 eq_refl). assert (Q := read_limit a R V).
      replace (((api_fc a =? 3) || (api_fc a =? 4)) && (126 <? api_qty a)) with false by (symmetry; apply Bool.andb_false_iff; destruct (3 <=? api_fc a) eqn:X; [right|left]; lia).
      split; [|eauto]. f_equal.
      destruct a; cbn in R; try discriminate; cbn [normal_callbacks api_fc api_qty api_adr] in *; cbn [Z.leb Z.compare Pos.compare Pos.compare_cont] in *;
      unfold bit_callbacks, reg_callbacks; apply map_ext_in; intros k Hk; apply in_seq in Hk; f_equal;
      try (rewrite G by lia; reflexivity); unfold word_at; rewrite !G by lia; reflexivity.
    + split; [|eauto]. f_equal. destruct a; cbn in R; try discriminate; reflexivity.
Qed.

Ltac mt := split; [solve [auto]|split; [solve [auto]|split; [solve [auto]|cbn [m_next]; auto]]].
Ltac sp := hnf; repeat match goal with |- _ /\ _ => split end; auto.
Ltac rtt := split; [reflexivity|unfold m_weight; cbn; lia].
Lemma hd_facts (g : list Z) x : hd_error g = Some x -> (0 < length g)%nat /\ byte_at g 0 = x.
Proof. destruct g; [discriminate|]. cbn. intros H. inversion H. split; auto. lia. Qed.
Definition safe15 : ev_safe MT15 := Logic.I.
Definition safe35 : ev_safe MT35 := Logic.I.
Definition safetx : ev_safe MTxDone := Logic.I.
Section Answer.
Context (c : cfg) (Hc : cfg_master_ok c) (a : api) (F : nat) (V : list vis) (f : list Z) (FE pre wrong bad : bool) (r : Z).
(* [pre]: the CRC error flag before; [wrong]: the CRC of [f] is wrong; [FE], [bad]: the frame error and CRC error flags in the end *)
Context (Hhd : hd_error f = Some (api_id a)) (Hlen : (length f < 256)%nat) (Hcrc : if wrong then ~ crc_ok f else crc_ok f) (Hbad : bad = wrong || pre) (Hx : FE && bad = false)
        (Hans : FE = false -> bad = false -> complete_answer a f).

(** *** while the bytes arrive ([later]: the events after this phase) *)
Definition Qu (later : list mev) (ru : list mev) (t : list mitem) (l : mpc) (s : master) : Prop :=
  base a F V t /\ waiting_line l = true /\ mm_t15 s = CLEARED /\ mm_crc s = bl pre /\ mm_rep s = r /\
  ~ In MT15 ru /\ m_received t ++ rx_bytes ru = f /\ tm_enough (ru ++ later) (mm_timer s) /\
  if FE then mm_fe s = SET \/ In MFrameErr ru else mm_fe s = CLEARED /\ ~ In MFrameErr ru.
Lemma bytes_phase later : forall sched t k, reqs_safe sched -> cinv c t (mloc k) (mc_s k) ->
  Qu later (m_events sched) t (mloc k) (mc_s k) ->
  exists k' o, m_run c sched k = Ok (k', o) /\ cinv c (t ++ o) (mloc k') (mc_s k') /\ Qu later [] (t ++ o) (mloc k') (mc_s k').
Proof.
  intros sched t k HS I H. apply (cphase c (Qu later) Hc); auto; [..|rewrite app_nil_r; auto].
  - clear - Hc. intros rem t l s l' s' o I (B & L & T & Cr & Rp & N & Rx & Ti & Fe) E. assert (BS := mc_st _ _ _ (Minv_ctl _ _ _ _ (ci_inv _ _ _ _ I))).
    destruct l; try discriminate L; mline_inv E; cbn [m_next map]; unfold m_dispatch; mprj; cbn [mst_ok] in BS; rewrite ?app_nil_r; rewrite ?BS.
    + rewrite T in X. discriminate.
    + exact (conj B (conj eq_refl (conj T (conj Cr (conj Rp (conj N (conj Rx (conj Ti Fe)))))))).
    + exfalso. apply (tm_two _ tm_enough_ok) in Ti. apply Z.eqb_eq in X. lia.
    + exact (conj B (conj eq_refl (conj T (conj Cr (conj Rp (conj N (conj Rx (conj Ti Fe)))))))).
  - clear - Hc. intros e rem t l s s' o I (B & L & T & Cr & Rp & N & Rx & Ti & Fe) Hs E. assert (X := ev_facts _ _ _ _ _ _ _ Hc I Hs E). apply In_cons_not in N as [NE N].
    assert (Ti' := tm_step _ _ _ _ _ _ _ tm_enough_ok X Ti). destruct X as [_ X2 X3 X4 _ X6 _ _ X9 X10].
    split; [apply base_ev; auto|]. split; auto. split; [rewrite X4; destruct e; congruence|]. split; [congruence|]. split; [congruence|]. split; auto.
    split. { rewrite X10. destruct e; cbn [rx_bytes] in Rx; auto. rewrite <- app_assoc. exact Rx. }
    split; auto. rewrite X6. destruct FE.
    + destruct Fe as [Fe|[Fe|Fe]]; [left; destruct e; auto|subst e; auto|auto].
    + destruct Fe as [Fe N2]. apply In_cons_not in N2 as [N3 N2]. split; auto. destruct e; auto. congruence.
  - clear. intros rem t l s _ (_ & L & _). apply not813. intros ->. discriminate L.
Qed.

(** *** after the 1.5-character event, up to the handling *)
Definition com (t : list mitem) (s : master) : Prop := base a F V t /\ mm_rep s = r /\ m_received t = f /\ mm_fe s = bl FE.
Definition st0 : Z := if wrong then RET_ERROR_CRC else RET_OK.
Definition mid (x : flag) (t : list mitem) (l : mpc) (s : master) : Prop :=
  com t s /\ mm_t15 s = CLEARED /\ mm_t35 s = x /\
  match l with
  | M749 _ => mm_crc s = bl pre
  | M750 st => mm_crc s = bl pre /\ st = st0
  | M752 | M753 => mm_crc s = bl pre /\ wrong = true
  | M754 => mm_crc s = bl bad /\ wrong = true
  | M756 st => mm_crc s = bl pre /\ wrong = false /\ st = st0
  | M762 | M763 => mm_crc s = bl pre /\ wrong = false
  | M784 | M788 | M792 => mm_crc s = bl bad
  | M784b => mm_crc s = bl bad /\ FE = true
  | M788b => mm_crc s = bl bad /\ bad = true
  | M792b => mm_crc s = bl bad /\ FE = false
  | M792c => mm_crc s = bl bad /\ FE = false /\ bad = false
  | _ => False
  end.
Definition dec (t : list mitem) (l : mpc) (s : master) : Prop :=
  com t s /\ mm_t15 s = CLEARED /\ mm_crc s = bl bad /\
  match l with M813 => FE = false /\ bad = false | M833 => bad = true | M868 => FE = true | _ => False end.
Lemma com_out t s s' o : com t s -> finished (map MTOut o) = 0%nat -> visible (map MTOut o) = [] -> (forall x, In x o -> x <> MoClear) ->
  mm_rep s' = mm_rep s -> mm_fe s' = mm_fe s -> com (t ++ map MTOut o) s'.
Proof. intros (B & R1 & R2 & R3) O1 O2 O3 E1 E2. split; [apply base_line; auto|]. split; [congruence|]. split; [rewrite received_out; auto|congruence]. Qed.
Lemma recv_st0 t s i m : cinv c t (M749 (api_id a)) s -> m_received t = f -> mm_cur s = Some i -> nth_error (mm_msgs s) i = Some m -> modbus_RTU_recv (m_resp m) (api_id a) = Ok st0.
Proof.
  intros I Rx C N. destruct (ci_rx _ _ _ _ I eq_refl) as (i' & m' & C' & N' & X). rewrite C in C'. inversion C'; subst i'. rewrite N in N'. inversion N'; subst m'.
  destruct (Minv_current _ _ _ _ (ci_inv _ _ _ _ I) eq_refl) as (j & a' & m2 & Cj & _ & Nj & [_ Hm] & _). rewrite C in Cj. inversion Cj; subst j. rewrite N in Nj. inversion Nj; subst m2.
  rewrite Rx in X. destruct X as [_ X]. rewrite buffered_short in X by auto. unfold st0. destruct wrong.
  - apply recv_crc_error; auto; rewrite X; auto.
  - apply recv_accept_iff; auto. rewrite X. split; auto.
Qed.
Lemma mid_line x t l s l' s' o : m_soc x -> cinv c t l s -> mid x t l s -> m_line c l s = Ok (l', s', o) ->
  mid x (t ++ map MTOut o) (m_next l' s') s' \/ x = SET /\ dec (t ++ map MTOut o) (m_next l' s') s'.
Proof.
  intros Sx I (C0 & T15 & T35 & H) E. assert (BS := mc_st _ _ _ (Minv_ctl _ _ _ _ (ci_inv _ _ _ _ I))). assert (Fe : mm_fe s = bl FE) by apply C0.
  assert (CO : forall s', mm_rep s' = mm_rep s -> mm_fe s' = mm_fe s -> com (t ++ map MTOut []) s') by (intros; apply (com_out t s); auto; intros ? []).
  destruct l; try (destruct H; fail).
  - (* 749 *) left. destruct (Minv_current _ _ _ _ (ci_inv _ _ _ _ I) eq_refl) as (i & a' & m & C & Cu & N & Hm & Hr & A & Va).
    assert (a' = a) by (destruct C0 as ((B & _) & _); congruence). subst a'. destruct (ci_chk _ _ _ _ I a Cu) as [-> _].
    cbn [m_line] in E. rewrite (proj2 (cur_msg_inv _ _ _) (conj C N)) in E. cbn [bind] in E. rewrite (recv_st0 t s i m) in E by (auto; apply C0). cbn [bind] in E. inversion E; subst.
    split; [apply (com_out t s'); auto; intros y [<-|[]]; discriminate|]. split; [auto|]. split; [auto|]. cbn [m_next]. auto.
  - destruct H as [H ->]. left. unfold st0 in E. cbn [m_line] in E. destruct wrong eqn:Eb; mline_inv E; try discriminate; mt. unfold st0. rewrite Eb. auto.
  - left. destruct H. mline_inv E. mt.
  - left. destruct H as [H Eb]. mline_inv E. mt. mprj. rewrite Hbad, Eb. auto.
  - left. destruct H as [H Eb]. mline_inv E. cbn [m_next]. unfold m_dispatch. mprj. mt.
  - left. destruct H as (H & Eb & ->). unfold st0 in E. rewrite Eb in E. inversion E; subst. mt.
  - left. destruct H. mline_inv E. mt.
  - left. destruct H as [H Eb]. mline_inv E. cbn [m_next]. unfold m_dispatch. mprj. mt. rewrite Hbad, Eb. auto.
  - left. cbn [m_line] in E. rewrite Fe in E. destruct FE eqn:Ef; cbn [bl is_set] in E; inversion E; subst; mt.
  - destruct H as [H Ef]. cbn [m_line] in E. destruct Sx as [Sx|Sx]; rewrite Sx in *; rewrite T35 in E; cbn [is_set] in E; inversion E; subst; [right|left; mt]. split; auto. mt.
  - left. cbn [m_line] in E. rewrite H in E. destruct bad eqn:Ef; cbn [bl is_set] in E; inversion E; subst; mt; rewrite Ef; auto.
  - destruct H as [H Ef]. cbn [m_line] in E. destruct Sx as [Sx|Sx]; rewrite Sx in *; rewrite T35 in E; cbn [is_set] in E; inversion E; subst; [right|left; mt]. split; auto. mt.
  - left. cbn [m_line] in E. rewrite Fe in E. destruct FE eqn:Ef; cbn [bl is_clr] in E; inversion E; subst; cbn [m_next]; unfold m_dispatch; [rewrite BS|]; [mt|].
    split; [apply (com_out t s'); auto; intros y [<-|[]]; discriminate|]. split; [auto|]. split; [auto|]. auto.
  - left. destruct H as [H Ef]. cbn [m_line] in E. rewrite H in E. destruct bad eqn:Eb; cbn [bl is_clr] in E; inversion E; subst; cbn [m_next]; unfold m_dispatch; [rewrite BS|]; mt; rewrite Eb; auto.
  - destruct H as (H & Ef & Eb). cbn [m_line] in E. destruct Sx as [Sx|Sx]; rewrite Sx in *; rewrite T35 in E; cbn [is_set] in E; inversion E; subst; [right|left]; cbn [m_next]; unfold m_dispatch; [|rewrite BS]; [split; auto|]; mt.
Qed.

Lemma com_event e t l s s' o : cinv c t l s -> com t s -> calm e -> ev_safe e -> m_event c e s = Ok (s', o) -> com (t ++ MTEv e :: map MTOut o) s'.
Proof.
  intros I (B & R1 & R2 & R3) Ca Hs E. assert (X := ev_facts _ _ _ _ _ _ _ Hc I Hs E). assert (Y := evf_rx0 _ _ _ _ _ X Ca). destruct X as [_ X2 X3 X4 _ X6 _ _ X9 _].
  split; [apply base_ev; auto|]. split; [congruence|]. split; [congruence|]. rewrite X6. destruct e; auto. destruct Ca.
Qed.
Lemma mid_event x e t l s s' o : cinv c t l s -> mid x t l s -> calm e -> ev_safe e -> m_event c e s = Ok (s', o) ->
  mid (match e with MT35 => SET | _ => x end) (t ++ MTEv e :: map MTOut o) l s'.
Proof.
  intros I (C0 & T15 & T35 & H) Ca Hs E. assert (X := ev_facts _ _ _ _ _ _ _ Hc I Hs E). destruct X as [_ X2 X3 X4 X5 _ _ _ _ _].
  split; [eapply com_event; eauto|]. split; [rewrite X4; destruct e; auto; destruct Ca|]. split; [rewrite X5; destruct e; auto|]. rewrite X3. exact H.
Qed.

Lemma bev_calm e : bev e -> calm e. Proof. destruct e; cbn; auto. Qed.
Definition QB (rem : list mev) (t : list mitem) (l : mpc) (s : master) : Prop :=
  (forall e, In e rem -> bev e) /\
  match l with
  | M690 | M694 => com t s /\ mm_t15 s = SET /\ mm_crc s = bl pre /\ tm_enough rem (mm_timer s)
  | M746 | M747 _ => com t s /\ mm_t15 s = SET /\ mm_crc s = bl pre
  | M748 _ => com t s /\ mm_t15 s = CLEARED /\ mm_crc s = bl pre
  | _ => mid CLEARED t l s
  end.
Definition handled (l : mpc) : bool := match l with M690 | M694 | M746 | M747 _ | M748 _ => false | _ => true end.
Definition wb (l : mpc) : nat := match l with M694 => 6 | M690 => 4 | M746 => 3 | M747 _ => 2 | _ => 1 end.
Lemma QB_line rem t l s l' s' o : cinv c t l s -> QB rem t l s -> m_line c l s = Ok (l', s', o) -> QB rem (t ++ map MTOut o) (m_next l' s') s' /\
  if handled l then handled (m_next l' s') = true else handled (m_next l' s') = true \/ handled (m_next l' s') = false /\ (m_weight wb (mk_mconf s' l') < wb l)%nat.
Proof.
  intros I (HE & H) E. assert (BS := mc_st _ _ _ (Minv_ctl _ _ _ _ (ci_inv _ _ _ _ I))).
  assert (M : handled l = true -> QB rem (t ++ map MTOut o) (m_next l' s') s' /\ handled (m_next l' s') = true).
  { intros Hd. assert (H' : mid CLEARED t l s) by (destruct l; auto; discriminate Hd). destruct (mid_line CLEARED t l s l' s' o) as [D|[D _]]; auto; [right; auto| |discriminate D].
    assert (L : handled (m_next l' s') = true) by (destruct D as (_ & _ & _ & D); destruct (m_next l' s'); auto; destruct D). split; auto. split; auto.
    destruct (m_next l' s'); auto; discriminate L. }
  destruct l; try (apply M; reflexivity); clear M; cbn [handled].
  - destruct H as (C0 & T & Cr & Ti). mline_inv E; [|rewrite T in X; discriminate X]. cbn [m_next map]. rewrite app_nil_r. split; [split; auto|]. right. split; auto.
  - destruct H as (C0 & T & Cr & Ti). mline_inv E; [apply (tm_two _ tm_enough_ok) in Ti; apply Z.eqb_eq in X; lia|]. unfold m_weight. cbn [m_next map mc_pc mc_s]. unfold m_dispatch. rewrite BS, app_nil_r. split; [split; auto|]. right. split; auto.
  - destruct H as (C0 & T & Cr). mline_inv E. cbn [m_next map]. rewrite app_nil_r. split; [split; auto|]. right. split; auto.
  - destruct H as (C0 & T & Cr). mline_inv E. cbn [m_next map]. rewrite app_nil_r. split; [split; auto|]. right. split; auto.
  - destruct H as (C0 & T & Cr). mline_inv E. cbn [m_next map]. split; auto. split; auto. split; [apply (com_out t s _ [MoHandle]); auto; intros y [<-|[]]; discriminate|]. auto.
Qed.
Lemma QB_event e rem t l s s' o : cinv c t l s -> QB (e :: rem) t l s -> ev_safe e -> m_event c e s = Ok (s', o) -> QB rem (t ++ MTEv e :: map MTOut o) l s'.
Proof.
  intros I (HE & H) Hs E. split; [intros; apply HE; right; auto|]. assert (Be : bev e) by (apply HE; left; auto). assert (Ca := bev_calm _ Be).
  assert (M : mid CLEARED t l s -> mid CLEARED (t ++ MTEv e :: map MTOut o) l s'). { intros H'. assert (Y := mid_event _ _ _ _ _ _ _ I H' Ca Hs E). destruct e; auto. destruct Be. }
  assert (X := ev_facts _ _ _ _ _ _ _ Hc I Hs E). assert (Co : com t s -> com (t ++ MTEv e :: map MTOut o) s') by (intros; eapply com_event; eauto).
  assert (Ti : tm_enough (e :: rem) (mm_timer s) -> tm_enough rem (mm_timer s')) by (intros; eapply tm_step; eauto using tm_enough_ok).
  destruct X as [_ X2 X3 X4 X5 _ _ _ _ _]. assert (X4' : mm_t15 s' = mm_t15 s) by (rewrite X4; destruct e; auto; destruct Be).
  destruct l; auto; rewrite X3, X4'; tauto.
Qed.
Lemma QB_no813 rem t l s : QB rem t l s -> del_ok t l s.
Proof. intros (_ & H). apply not813. intros ->. apply H. Qed.
(** within 6 steps the master handles the reception *)
Lemma handle_phase : forall sched rem t k, reqs_safe sched -> cinv c t (mloc k) (mc_s k) -> QB (m_events sched ++ rem) t (mloc k) (mc_s k) -> (6 <= m_steps sched)%nat ->
  exists k' o, m_run c sched k = Ok (k', o) /\ cinv c (t ++ o) (mloc k') (mc_s k') /\ QB rem (t ++ o) (mloc k') (mc_s k') /\ handled (mloc k') = true.
Proof.
  intros sched rem t k HS I H W.
  assert (Stay : forall sched t k, reqs_safe sched -> cinv c t (mloc k) (mc_s k) -> QB (m_events sched ++ rem) t (mloc k) (mc_s k) -> handled (mloc k) = true ->
    exists k' o, m_run c sched k = Ok (k', o) /\ cinv c (t ++ o) (mloc k') (mc_s k') /\ QB rem (t ++ o) (mloc k') (mc_s k') /\ handled (mloc k') = true).
  { clear sched t k HS I H W. intros sched t k HS I H L.
    destruct (cphase c (fun rem t l s => QB rem t l s /\ handled l = true) Hc) with (sched := sched) (rem := rem) (t := t) (k := k) as (k' & o & R & I' & Q' & L'); auto.
    - intros rem0 t0 l s l' s' o I0 (H0 & L0) E. destruct (QB_line _ _ _ _ _ _ _ I0 H0 E) as [H' D]. rewrite L0 in D. auto.
    - intros e rem0 t0 l s s' o I0 (H0 & L0) Hs E. split; auto. eapply QB_event; eauto.
    - intros rem0 t0 l s _ (H0 & _). eapply QB_no813; eauto.
    - exists k', o. auto. }
  destruct (handled (mloc k)) eqn:G; [apply Stay; auto|].
  destruct (creachr c QB (fun _ => handled) wb False Hc) with (sched := sched) (rem := rem) (t := t) (k := k) as (s1 & s2 & k1 & o1 & -> & R1 & I1 & H1 & G1 & _); auto.
  - intros rem0 t0 l s l' s' o I0 H0 G0 E. destruct (QB_line _ _ _ _ _ _ _ I0 H0 E) as [H' D]. rewrite G0 in D. split; auto. destruct D as [D|D]; [left; tauto|right; auto].
  - intros e rem0 t0 l s s' o I0 H0 Hs E. split; auto. eapply QB_event; eauto.
  - intros rem0 t0 l s _ H0. eapply QB_no813; eauto.
  - intros t0 l H0. destruct l; discriminate H0 || (cbn; lia).
  - unfold m_weight. unfold mloc in G. destruct (mc_pc k) as [l|]; [destruct l; cbn [wb]; lia|]. destruct (m_dispatch (mc_s k)) eqn:D; cbn [wb] in *; try lia; unfold m_dispatch in D; destruct (mm_st (mc_s k)); discriminate.
  - destruct (Stay s2 (t ++ o1) k1) as (k2 & o2 & R2 & I2 & H2 & L2); auto.
    { intros x Hx0. apply HS. apply in_or_app. auto. }
    exists k2, (o1 ++ o2). rewrite m_run_app, R1. cbn [bind]. rewrite R2. cbn [bind]. rewrite app_assoc. auto.
Qed.

(** *** the decision *)
Definition RES (cbs : list cb) : Prop :=
  if FE then exists e, cbs = [CommErr e] /\ r_err e = RESP_FRAME_ERR /\ r_id e = api_id a
  else if bad then exists e, cbs = [CommErr e] /\ r_err e = RESP_RTU_CRC_ERR /\ r_id e = api_id a
  else delivered a f = Some cbs.
Definition flags (s : master) : Prop := mm_t15 s = CLEARED /\ mm_crc s = bl bad /\ mm_fe s = bl FE.
Definition clean (s : master) : Prop := mm_t15 s = CLEARED /\ mm_crc s = CLEARED /\ mm_fe s = CLEARED.
Definition over (t : list mitem) : Prop := exists cbs, RES cbs /\ (FE || bad = true -> c_repeat c <= r) /\ finished t = S F /\ visible t = V ++ map VCb cbs ++ [VFree].
Definition late (t : list mitem) (l : mpc) (s : master) : Prop :=
  match l with
  | M813 | M833 | M868 => dec t l s
  | M834 => base a F V t /\ flags s /\ m_received t = f /\ mm_rep s = r + 1 /\ bad = true
  | M836 | M837 => base a F V t /\ flags s /\ mm_rep s = r + 1 /\ bad = true /\ r + 1 <= c_repeat c
  | M844 => base a F V t /\ flags s /\ m_received t = f /\ mm_rep s = r + 1 /\ bad = true /\ c_repeat c <= r
  | M869 => base a F V t /\ flags s /\ m_received t = f /\ mm_rep s = r + 1 /\ FE = true
  | M871 | M872 => base a F V t /\ flags s /\ mm_rep s = r + 1 /\ FE = true /\ r + 1 <= c_repeat c
  | M879 => base a F V t /\ flags s /\ m_received t = f /\ mm_rep s = r + 1 /\ FE = true /\ c_repeat c <= r
  | M838 | M873 | M404 => base a F V t /\ clean s /\ mm_rep s = r + 1 /\ FE || bad = true /\ r + 1 <= c_repeat c
  | M900 => exists cbs, RES cbs /\ (FE || bad = true -> c_repeat c <= r) /\ base a F (V ++ map VCb cbs) t /\ flags s
  | M901 => exists cbs, RES cbs /\ (FE || bad = true -> c_repeat c <= r) /\ base a F (V ++ map VCb cbs) t /\ flags s /\ mm_rep s = 0
  | M902 | M649 => over t /\ flags s /\ mm_rep s = 0
  | _ => False
  end.
Definition QW (t : list mitem) (l : mpc) (s : master) : Prop := mid SET t l s \/ late t l s.
Definition decided (t : list mitem) (l : mpc) : bool := match l with M649 | M404 => true | _ => false end.
Definition wd (l : mpc) : nat :=
  match l with
  | M749 _ => 18 | M750 _ => 17 | M752 => 15 | M753 => 14 | M754 => 13 | M756 _ => 15 | M762 => 14 | M763 => 13
  | M784 => 11 | M784b => 7 | M788 => if FE then 14 else 10 | M788b => 7
  | M792 => if FE then 13 else if bad then 14 else 9 | M792b => if bad then 13 else 8 | M792c => 5
  | M813 | M844 | M879 => 4 | M833 | M868 => 6 | M834 | M869 => 5 | M836 | M871 => 3 | M837 | M872 => 2
  | M900 => 3 | M901 => 2 | _ => 1
  end.
Lemma resp_buf t l s i m : cinv c t l s -> rx_known l = true -> m_received t = f -> mm_cur s = Some i -> nth_error (mm_msgs s) i = Some m -> firstn (length f) (rr_buf (m_resp m)) = f /\ rr_ok (m_resp m).
Proof.
  intros I K Rx C N. destruct (ci_rx _ _ _ _ I K) as (i' & m' & C' & N' & X). rewrite C in C'. inversion C'; subst i'. rewrite N in N'. inversion N'; subst m'.
  destruct (ci_inv _ _ _ _ I) as (free & pend & apis & eps & v & J). assert (MM := mb_msgs _ _ _ _ _ (iv_buf _ _ _ _ _ _ _ _ _ J)). rewrite Forall_forall in MM.
  destruct (MM m (nth_error_In _ _ N)) as [_ Hm]. split; auto. rewrite Rx in X. apply rxb_prefix; auto.
Qed.
Lemma mid_weight x t l s l' s' o : m_soc x -> cinv c t l s -> mid x t l s -> m_line c l s = Ok (l', s', o) -> x = SET -> (m_weight wd (mk_mconf s' l') < wd l)%nat.
Proof.
  intros Sx I (C0 & T15 & T35 & H) E Es. assert (BS := mc_st _ _ _ (Minv_ctl _ _ _ _ (ci_inv _ _ _ _ I))). assert (Fe : mm_fe s = bl FE) by apply C0. subst x.
  destruct l; try (destruct H; fail); mline_inv E; unfold m_weight; cbn [mc_pc mc_s]; unfold m_dispatch; mprj; cbn [mst_ok] in BS; rewrite ?BS; cbn [wd];
   rewrite ?T35 in *; rewrite ?Fe in *; repeat match goal with H : _ /\ _ |- _ => destruct H end; try discriminate; try lia;
   try (rewrite ?H in *; destruct FE eqn:Ef; destruct bad eqn:Eb; cbn in *; try discriminate; try lia; fail).
  all: rewrite Es in X; discriminate X.
Qed.

Lemma fe_bad : FE = true -> bad = true -> False.
Proof. intros E1 E2. rewrite E1, E2 in Hx. discriminate. Qed.
Lemma late_line t l s l' s' o : cinv c t l s -> late t l s -> decided t l = false -> m_line c l s = Ok (l', s', o) -> late (t ++ map MTOut o) (m_next l' s') s' /\
  (decided t (m_next l' s') = true /\ l' = None \/ decided t (m_next l' s') = false /\ (m_weight wd (mk_mconf s' l') < wd l)%nat).
Proof.
  intros I H G E. assert (NB := fe_bad). assert (K := Minv_ctl _ _ _ _ (ci_inv _ _ _ _ I)). assert (BS := mc_st _ _ _ K). destruct Hc as [_ HR]. assert (RO := mc_rep _ _ _ K).
  destruct l; try (destruct H; fail); try discriminate G; cbn [late rep_ok] in *.
  - (* 813 *) destruct H as ((B & Rp & Rx & Fe) & T & Cr & Ef & Eb). destruct (Minv_current _ _ _ _ (ci_inv _ _ _ _ I) eq_refl) as (i & a' & m & C & Cu & N & Hm & Hr & A & Va).
    assert (a' = a) by (destruct B as (B & _); congruence). subst a'. destruct (resp_buf _ _ _ _ _ I eq_refl Rx C N) as [Pf Rr].
    destruct (complete_delivered a f _ (Hans Ef Eb) Va Pf) as [D1 (cbs & D2)].
    cbn [m_line] in E. rewrite (proj2 (cur_msg_inv _ _ _) (conj C N)) in E. cbn [bind] in E.
    assert (RC := read_resp_char m a Hm Hr A Va). rewrite D1, D2 in RC. destruct RC as [st RC]. rewrite RC in E. cbn [bind] in E. inversion E; subst l' s' o. clear E.
    cbn [m_next]. split; [|right; rtt].
    exists cbs. split. { unfold RES. rewrite Ef, Eb. auto. } split. { rewrite Ef, Eb. discriminate. } split; [|split; auto].
    apply base_vis; auto; [apply finished_cbs|apply visible_cbs].
  - (* 833 *) destruct H as ((B & Rp & Rx & Fe) & T & Cr & Eb). mline_inv E. cbn [m_next map]. rewrite app_nil_r. split; [|right; rtt].
    split; auto. split; [split; auto|]. split; auto. split; auto. mprj. rewrite Rp in *. unfold u8. rewrite Z.mod_small by lia. auto.
  - destruct H as (B & Fl & Rx & Rp & Eb). mline_inv E; cbn [m_next map]; rewrite app_nil_r; (split; [|right; rtt]).
    + sp. apply Z.leb_le in X. lia.
    + sp. apply Z.leb_gt in X. lia.
  - destruct H as (B & Fl & Rp & Eb & Le). mline_inv E; cbn [m_next map]; rewrite app_nil_r; (split; [|right; rtt]). sp.
  - destruct H as (B & Fl & Rp & Eb & Le). mline_inv E; cbn [m_next map]; (split; [|right; rtt]). split; [apply (base_line _ _ _ _ [MoRetry _]); auto|].
    destruct Fl as (T & Cr & Fe). split; [split; auto; split; auto; mprj|]. { destruct FE eqn:Ef; auto. exfalso. apply NB; auto. } split; auto. split; auto. rewrite Eb. destruct FE; auto.
  - destruct H as (B & Fl & Rp & Eb & Le). mline_inv E; cbn [m_next map]; unfold m_dispatch; mprj; cbn [mst_ok] in BS; rewrite BS; (split; [|left; split; auto]). split; [apply (base_line _ _ _ _ [MoClear]); auto|]. auto.
  - (* 844 *) destruct H as (B & Fl & Rx & Rp & Eb & Le). destruct (Minv_current _ _ _ _ (ci_inv _ _ _ _ I) eq_refl) as (i & a' & m & C & Cu & N & Hm & Hr & A & Va).
    destruct (resp_buf _ _ _ _ _ I eq_refl Rx C N) as [Pf Rr].
    cbn [m_line] in E. rewrite (proj2 (cur_msg_inv _ _ _) (conj C N)) in E. cbn [bind] in E. rewrite comm_report_char in E by auto. cbn [bind] in E. inversion E; subst l' s' o. clear E.
    cbn [m_next]. split; [|right; rtt]. refine (ex_intro _ [CommErr _] _). split; [|split; [|split; [apply (base_vis _ _ _ _ [MoCb _]); [auto|reflexivity|reflexivity]|auto]]]; auto.
    unfold RES. destruct FE eqn:Ef; [exfalso; apply NB; auto|]. rewrite Eb. eexists. split; [reflexivity|]. cbn [r_err r_id]. split; auto.
    destruct (hd_facts _ _ Hhd). rewrite (prefix_nth f); auto.
  - (* 868 *) destruct H as ((B & Rp & Rx & Fe) & T & Cr & Eb). mline_inv E. cbn [m_next map]. rewrite app_nil_r. split; [|right; rtt].
    split; auto. split; [split; auto|]. split; auto. split; auto. mprj. rewrite Rp in *. unfold u8. rewrite Z.mod_small by lia. auto.
  - destruct H as (B & Fl & Rx & Rp & Eb). mline_inv E; cbn [m_next map]; rewrite app_nil_r; (split; [|right; rtt]).
    + sp. apply Z.leb_le in X. lia.
    + sp. apply Z.leb_gt in X. lia.
  - destruct H as (B & Fl & Rp & Eb & Le). mline_inv E; cbn [m_next map]; rewrite app_nil_r; (split; [|right; rtt]). sp.
  - destruct H as (B & Fl & Rp & Eb & Le). mline_inv E; cbn [m_next map]; (split; [|right; rtt]). split; [apply (base_line _ _ _ _ [MoRetry _]); auto|].
    destruct Fl as (T & Cr & Fe). split; [split; auto; split; auto; mprj|]. { destruct bad eqn:Ef; auto. exfalso. apply NB; auto. } split; auto. split; auto. rewrite Eb. auto.
  - destruct H as (B & Fl & Rp & Eb & Le). mline_inv E; cbn [m_next map]; unfold m_dispatch; mprj; cbn [mst_ok] in BS; rewrite BS; (split; [|left; split; auto]). split; [apply (base_line _ _ _ _ [MoClear]); auto|]. auto.
  - (* 879 *) destruct H as (B & Fl & Rx & Rp & Eb & Le). destruct (Minv_current _ _ _ _ (ci_inv _ _ _ _ I) eq_refl) as (i & a' & m & C & Cu & N & Hm & Hr & A & Va).
    destruct (resp_buf _ _ _ _ _ I eq_refl Rx C N) as [Pf Rr].
    cbn [m_line] in E. rewrite (proj2 (cur_msg_inv _ _ _) (conj C N)) in E. cbn [bind] in E. rewrite comm_report_char in E by auto. cbn [bind] in E. inversion E; subst l' s' o. clear E.
    cbn [m_next]. split; [|right; rtt]. refine (ex_intro _ [CommErr _] _). split; [|split; [|split; [apply (base_vis _ _ _ _ [MoCb _]); [auto|reflexivity|reflexivity]|auto]]]; auto.
    unfold RES. rewrite Eb. eexists. split; [reflexivity|]. cbn [r_err r_id]. split; auto.
    destruct (hd_facts _ _ Hhd). rewrite (prefix_nth f); auto.
  - destruct H as (cbs & Rs & Le & B & Fl). mline_inv E. cbn [m_next map]. rewrite app_nil_r. split; [|right; rtt]. exists cbs. auto 10.
  - destruct H as (cbs & Rs & Le & B & Fl & Rp). mline_inv E. cbn [m_next map]. split; [|right; rtt]. split; [|split; auto]. exists cbs. split; auto. split; auto.
    destruct B as (B1 & B2 & B3). rewrite finished_app, visible_app, B2, B3, <- app_assoc. cbn. split; auto. lia.
  - destruct H as (Ov & Fl & Rp). mline_inv E. cbn [m_next map]. unfold m_dispatch. mprj. rewrite app_nil_r. split; [|left; split; auto]. sp.
Qed.

Lemma late_event e t l s s' o : cinv c t l s -> late t l s -> sev e -> ev_safe e -> m_event c e s = Ok (s', o) -> late (t ++ MTEv e :: map MTOut o) l s'.
Proof.
  intros I H Se Hs E. assert (Ca := sev_calm _ Se). assert (X := ev_facts _ _ _ _ _ _ _ Hc I Hs E). assert (Rx := evf_rx0 _ _ _ _ _ X Ca). assert (Fl := evf_fl _ _ _ _ _ X Ca). unfold fl in Fl. inversion Fl as [[F1 F2 F3 F4]].
  assert (O := ef_o _ _ _ _ _ X). assert (B : forall V, base a F V t -> base a F V (t ++ MTEv e :: map MTOut o)) by (intros; apply base_ev; auto).
  assert (Y : finished (MTEv e :: map MTOut o) = 0%nat /\ visible (MTEv e :: map MTOut o) = []) by (destruct O as [->|(b & r0 & ->)]; auto). destruct Y as [Y1 Y2].
  assert (Fg : flags s -> flags s') by (unfold flags; rewrite F1, F2, F3; auto). assert (Cl : clean s -> clean s') by (unfold clean; rewrite F1, F2, F3; auto).
  assert (Co : com t s -> com (t ++ MTEv e :: map MTOut o) s') by (intros; eapply com_event; eauto).
  assert (Dc : dec t l s -> dec (t ++ MTEv e :: map MTOut o) l s') by (intros (D1 & D2 & D3 & D4); split; auto; split; [congruence|]; split; [congruence|auto]).
  assert (Ov : over t -> over (t ++ MTEv e :: map MTOut o)) by (intros (cbs & D); exists cbs; rewrite finished_app, visible_app, Y1, Y2, app_nil_r, Nat.add_0_r; auto).
  destruct l; try (destruct H; fail); cbn [late] in *; auto; rewrite ?Rx, ?F4; repeat match goal with H : _ /\ _ |- _ => destruct H end; sp.
  - destruct H as (cbs & D1 & D2 & D3 & D4). exists cbs. auto.
  - destruct H as (cbs & D1 & D2 & D3 & D4 & D5). exists cbs. auto 10.
Qed.
Lemma decide_phase : forall sched t k, reqs_safe sched -> (forall e, In e (m_events sched) -> sev e) -> cinv c t (mloc k) (mc_s k) -> mid SET t (mloc k) (mc_s k) -> (19 <= m_steps sched)%nat ->
  exists s1 s2 k' o, sched = s1 ++ s2 /\ m_run c s1 k = Ok (k', o) /\ cinv c (t ++ o) (mloc k') (mc_s k') /\ late (t ++ o) (mloc k') (mc_s k') /\ decided (t ++ o) (mloc k') = true /\ mc_pc k' = None.
Proof.
  intros sched t k HS HE I H W.
  destruct (creach c QW decided wd sev True Hc) with (sched := sched) (t := t) (k := k) as (s1 & s2 & k1 & o1 & E1 & R1 & I1 & H1 & G1 & P1); auto.
  - intros t0 l s l' s' o I0 H0 G0 E. destruct H0 as [H0|H0].
    + assert (M := mid_weight SET t0 l s l' s' o (or_introl eq_refl) I0 H0 E eq_refl). destruct (mid_line SET t0 l s l' s' o (or_introl eq_refl) I0 H0 E) as [D|[_ D]].
      * split; [left; auto|]. right. split; auto. destruct D as (_ & _ & _ & D). destruct (m_next l' s'); auto; destruct D.
      * assert (D' := D). destruct D' as (_ & _ & _ & D'). split; [right; destruct (m_next l' s'); auto; destruct D'|]. right. split; auto. destruct (m_next l' s'); auto; destruct D'.
    + destruct (late_line _ _ _ _ _ _ I0 H0 G0 E) as [D1 D2]. split; [right; auto|]. destruct D2 as [[D2 D3]|[D2 D3]]; [left|right]; auto.
  - intros e t0 l s s' o I0 H0 Se Hs E. split; [|destruct l; auto]. destruct H0 as [H0|H0]; [left|right; eapply late_event; eauto].
    assert (Y := mid_event _ _ _ _ _ _ _ I0 H0 (sev_calm _ Se) Hs E). destruct e; auto.
  - intros t0 l s I0 [H0|H0].
    + apply not813. intros ->. apply H0.
    + intros -> i a' m C Cu N. cbn [late] in H0. destruct H0 as ((B & Rp & Rx & Fe) & T & Cr & Ef & Eb). assert (a' = a) by (destruct B as (B & _); congruence). subst a'.
      destruct (Minv_current _ _ _ _ (ci_inv _ _ _ _ I0) eq_refl) as (i' & a' & m' & C' & Cu' & N' & Hm & Hr & A & Va). rewrite Cu in Cu'. inversion Cu'; subst a'.
      destruct (resp_buf _ _ _ _ _ I0 eq_refl Rx C N) as [Pf Rr]. destruct (complete_delivered a f _ (Hans Ef Eb) Va Pf) as [-> (cbs & ->)]. discriminate.
  - intros t0 l G0. destruct l; try discriminate G0; cbn; destruct FE, bad; lia.
  - left. auto.
  - destruct H as (_ & _ & _ & H). destruct (mloc k); auto; destruct H.
  - destruct H as (_ & _ & _ & H). unfold mloc in H. unfold m_weight. destruct (mc_pc k) as [l|]; [destruct l; try (destruct H; fail)|unfold m_dispatch in *; destruct (mm_st (mc_s k)); try (destruct H; fail)]; cbn [wd]; destruct FE, bad; lia.
  - exists s1, s2, k1, o1. split; auto. split; auto. split; auto. split; auto. destruct H1 as [H1|H1]; auto. exfalso. destruct H1 as (_ & _ & _ & H1). destruct (mloc k1); try discriminate G1; destruct H1.
Qed.

(** the whole answer *)
Lemma answer_phase u v w t k : reqs_safe (u ++ MEv MT15 :: v ++ MEv MT35 :: w) -> cinv c t (mloc k) (mc_s k) ->
  base a F V t -> waiting_line (mloc k) = true -> mm_t15 (mc_s k) = CLEARED -> mm_crc (mc_s k) = bl pre -> mm_rep (mc_s k) = r -> m_received t = [] ->
  ~ In MT15 (m_events u) -> rx_bytes (m_events u) = f -> (if FE then mm_fe (mc_s k) = SET \/ In MFrameErr (m_events u) else mm_fe (mc_s k) = CLEARED /\ ~ In MFrameErr (m_events u)) ->
  tm_enough (m_events u ++ m_events v) (mm_timer (mc_s k)) ->
  (forall e, In e (m_events v) -> bev e) -> (6 <= m_steps v)%nat ->
  (forall e, In e (m_events w) -> sev e) -> (19 <= m_steps w)%nat ->
  exists w1 w2 k' o, w = w1 ++ w2 /\ m_run c (u ++ MEv MT15 :: v ++ MEv MT35 :: w1) k = Ok (k', o) /\ cinv c (t ++ o) (mloc k') (mc_s k') /\
    late (t ++ o) (mloc k') (mc_s k') /\ decided (t ++ o) (mloc k') = true /\ mc_pc k' = None.
Proof.
  intros HS I B L T15 Cr Rp Rx N15 Rb Ffe Ti Hv Wv Hw Ww.
  assert (HSu : reqs_safe u) by (intros x X; apply HS, in_or_app; auto).
  assert (HSv : reqs_safe v) by (intros x X; apply HS, in_or_app; right; right; apply in_or_app; auto).
  assert (HSw : reqs_safe w) by (intros x X; apply HS, in_or_app; right; right; apply in_or_app; right; right; auto).
  destruct (bytes_phase (m_events v) u t k HSu I) as (k1 & o1 & R1 & I1 & H1).
  { split; auto. split; auto. split; auto. split; auto. split; auto. split; auto. split; [rewrite Rx; exact Rb|]. split; auto. }
  destruct H1 as (B1 & L1 & T1 & C1 & Rp1 & _ & Rx1 & Ti1 & Fe1). cbn [rx_bytes app In] in *. rewrite app_nil_r in Rx1.
  assert (Fe1' : mm_fe (mc_s k1) = bl FE) by (destruct FE; cbn; tauto).
  (* the 1.5-character event *)
  destruct (m_event_total c _ _ _ MT15 Hc (ci_inv _ _ _ _ I1) safe15) as (s2 & o2 & E2).
  assert (X2 := ev_facts _ _ _ _ _ _ _ Hc I1 safe15 E2). assert (I2 := cinv_event _ _ _ _ _ _ _ Hc safe15 I1 E2). assert (St2 := m_event_st _ _ _ _ _ E2).
  set (k2 := mk_mconf s2 (mc_pc k1)). assert (L2 : mloc k2 = mloc k1) by (unfold k2, mloc, m_dispatch; cbn [mc_pc mc_s]; rewrite St2; reflexivity).
  set (t2 := (t ++ o1) ++ MTEv MT15 :: map MTOut o2) in *.
  destruct (handle_phase v [] t2 k2) as (k3 & o3 & R3 & I3 & H3 & Hd3); auto.
  { rewrite L2. exact I2. }
  { rewrite L2, app_nil_r. split; auto. destruct X2 as [_ X2 X3 X4 X5 X6 _ X8 X9 X10]. cbn [mc_s k2].
    assert (com t2 s2) by (split; [apply base_ev; auto|]; split; [congruence|]; split; [exact (eq_trans X10 Rx1)|congruence]).
    destruct (mloc k1); try discriminate L1; (split; [auto|]); (split; [auto|]); (split; [congruence|]); rewrite X8; exact Ti1. }
  assert (M3 : mid CLEARED (t2 ++ o3) (mloc k3) (mc_s k3)) by (destruct H3 as [_ H3]; destruct (mloc k3); auto; discriminate Hd3).
  (* the 3.5-character event *)
  destruct (m_event_total c _ _ _ MT35 Hc (ci_inv _ _ _ _ I3) safe35) as (s4 & o4 & E4).
  assert (M4 := mid_event _ _ _ _ _ _ _ I3 M3 (Logic.I : calm MT35) safe35 E4). assert (I4 := cinv_event _ _ _ _ _ _ _ Hc safe35 I3 E4). assert (St4 := m_event_st _ _ _ _ _ E4).
  set (k4 := mk_mconf s4 (mc_pc k3)). assert (L4 : mloc k4 = mloc k3) by (unfold k4, mloc, m_dispatch; cbn [mc_pc mc_s]; rewrite St4; reflexivity).
  set (t4 := (t2 ++ o3) ++ MTEv MT35 :: map MTOut o4) in *. rewrite <- L4 in I4, M4.
  destruct (decide_phase w t4 k4 HSw Hw I4 M4 Ww) as (w1 & w2 & k5 & o5 & -> & R5 & I5 & H5 & G5 & P5).
  exists w1, w2, k5, (o1 ++ (MTEv MT15 :: map MTOut o2) ++ o3 ++ (MTEv MT35 :: map MTOut o4) ++ o5). split; auto.
  assert (TT : t ++ o1 ++ (MTEv MT15 :: map MTOut o2) ++ o3 ++ (MTEv MT35 :: map MTOut o4) ++ o5 = t4 ++ o5) by (unfold t4, t2; rewrite <- ?app_assoc; reflexivity).
  rewrite TT. split; [|auto].
  rewrite m_run_app, R1. cbn [bind m_run m_act]. rewrite E2. cbn [bind]. fold k2. rewrite m_run_app, R3. cbn [bind m_run m_act]. rewrite E4. cbn [bind]. fold k4. rewrite R5. cbn [bind]. reflexivity.
Qed.
End Answer.
