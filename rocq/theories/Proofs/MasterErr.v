(** What the error reports and response callbacks contain. *)
From Verif Require Export Proofs.MasterHist2.

Definition bad_check (t : list mitem) : Prop := exists t0 g t3, t = t0 ++ MTOut (MoCheck g) :: t3 /\ ~ crc_ok g.
Lemma bad_check_app t o : bad_check t -> bad_check (t ++ o).
Proof. intros (t0 & g & t3 & -> & H). exists t0, g, (t3 ++ o). rewrite <- app_assoc. auto. Qed.
Definition hd_ok (a : api) (t : list mitem) : Prop := forall g, m_checked t = Some g -> g = [] \/ hd_error g = Some (api_id a).
Definition err_inv (a : api) (l : mpc) (t : list mitem) : Prop :=
  match l with
  | M750 st => (st = RET_ERROR_SLAVE_ID \/ hd_ok a t) /\ (st = RET_ERROR_CRC -> bad_check t)
  | M756 st => st = RET_ERROR_SLAVE_ID \/ hd_ok a t
  | M752 | M753 | M833 | M834 | M836 | M837 | M844 => hd_ok a t /\ bad_check t
  | M754 | M762 | M763 | M784 | M784b | M788 | M788b | M792 | M792b | M792c | M813 => hd_ok a t
  | M868 | M869 | M871 | M872 | M879 => hd_ok a t /\ m_frame_err_pending t = true
  | _ => True
  end.
Record einv (c : cfg) (t : list mitem) (l : mpc) (s : master) : Prop := {
  ei_c : cinv c t l s;
  ei_crc : mm_crc s = SET -> bad_check t;
  ei_fe : match l with M784b => m_frame_err_pending t = true | M788b => bad_check t | _ => True end;
  ei_err : forall a, current t = Some a -> err_inv a l t }.

Lemma recv_cases2 r id st : rr_ok r -> modbus_RTU_recv r id = Ok st ->
  (st = RET_ERROR_SLAVE_ID \/ rx_frame r = [] \/ hd_error (rx_frame r) = Some id) /\ (st = RET_ERROR_CRC -> ~ crc_ok (rx_frame r)).
Proof.
  intros R E. destruct (recv_cases r id st R E) as [[-> H]|[->| ->]].
  - split; [right; right; apply H|discriminate].
  - split; [left; auto|discriminate].
  - assert (X := E). rewrite recv_ok in X by auto. destruct (negb (id =? nth 0 (rr_buf r) 0)) eqn:N; [discriminate X|].
    destruct (Z.eq_dec (rr_len r) 0) as [Z0|Z0].
    + assert (Em : rx_frame r = []) by (unfold rx_frame; rewrite Z0; reflexivity). rewrite Em. split; auto. intros _ (b & Hb). destruct b; discriminate.
    + assert (Hh := rx_frame_hd r R Z0). assert (nth 0 (rr_buf r) 0 = id) by (destruct (id =? nth 0 (rr_buf r) 0) eqn:Q; [lia|discriminate]).
      split; [right; right; congruence|]. intros _ K. assert (RA := proj2 (recv_accept_iff r id R)). rewrite RA in E; [discriminate|]. split; auto. congruence.
Qed.
Lemma einv_line c t l s l' s' o : cfg_master_ok c -> einv c t l s -> m_line c l s = Ok (l', s', o) -> einv c (t ++ map MTOut o) (m_next l' s') s'.
Proof.
  intros Hc [I Cr Fe Er] E. assert (K := Minv_ctl _ _ _ _ (ci_inv _ _ _ _ I)). assert (BS := mc_st _ _ _ K).
  split; [eapply cinv_line; eauto|..].
  - destruct l; try (mline_inv E; mprj; intros X0; try discriminate X0; apply bad_check_app; auto; fail).
    mline_inv E. intros _. apply bad_check_app. destruct (Minv_current _ _ _ _ (ci_inv _ _ _ _ I) eq_refl) as (i & a & m & C & Cu & _). apply (Er a Cu).
  - destruct l; mline_inv E; cbn [m_next]; unfold m_dispatch; mprj; cbn [mst_ok] in BS; rewrite ?BS; auto.
    + cbn [map]. rewrite app_nil_r. apply is_set_true in X. assert (Y := ci_fe _ _ _ _ I). rewrite X in Y. destruct (m_frame_err_pending t); auto. discriminate.
    + cbn [map]. rewrite app_nil_r. apply is_set_true in X. auto.
  - intros a Ha. destruct (fly_line l) eqn:F.
    + destruct (Minv_current _ _ _ _ (ci_inv _ _ _ _ I) F) as (i & b & m & C & Cu & N & Hm & H & A & V).
      destruct (match l with M901 => true | _ => false end) eqn:X.
      { destruct l; try discriminate X. mline_inv E. exact Logic.I. }
      assert (FN : finished (map MTOut o) = 0%nat) by (destruct l; try discriminate X; mline_inv E; cbn; rewrite ?finished_cbs; auto).
      rewrite (current_app _ _ _ Cu FN) in Ha. inversion Ha; subst b. specialize (Er a Cu). assert (Ch := ci_chk _ _ _ _ I a Cu).
      destruct l; try discriminate F; try discriminate X; mline_inv E; cbn [m_next]; unfold m_dispatch; mprj; cbn [mst_ok] in BS; rewrite ?BS; cbn [err_inv map chk_inv] in *; rewrite ?app_nil_r; auto; try tauto.
      * destruct Ch as [-> _]. assert (m0 = m) by congruence. subst m0. destruct (recv_cases2 _ _ _ (proj2 Hm) Y0) as [R1 R2]. split.
        { destruct R1 as [R1|R1]; auto. right. intros g Hg. unfold m_checked in Hg. rewrite fold_left_app in Hg. cbn [fold_left] in Hg. inversion Hg; subst g. exact R1. }
        { intros X0. exists t, (rx_frame (m_resp m)), []. split; auto. }
      * destruct Er as [[Er|Er] E2]; apply Z.eqb_eq in X0; rewrite <- X0 in *; [discriminate|auto].
      * destruct Er as [Er|Er]; auto. subst st. discriminate.
      * unfold hd_ok in *. folds. exact Er.
    + destruct l; try discriminate F; mline_inv E; cbn [m_next]; unfold m_dispatch; mprj; try exact Logic.I;
      cbn in BS; rewrite ?BS; exact Logic.I.
Qed.
Lemma einv_event c t l s e s' o : cfg_master_ok c -> ev_safe e -> einv c t l s -> m_event c e s = Ok (s', o) -> einv c (t ++ MTEv e :: map MTOut o) l s'.
Proof.
  intros Hc Hs [I Cr Fe Er] E. assert (I' := cinv_event _ _ _ _ _ _ _ Hc Hs I E).
  assert (X : mm_crc s' = mm_crc s /\ m_checked (t ++ MTEv e :: map MTOut o) = m_checked t /\ (m_frame_err_pending t = true -> m_frame_err_pending (t ++ MTEv e :: map MTOut o) = true) /\ finished (MTEv e :: map MTOut o) = 0%nat).
  { destruct (ci_inv _ _ _ _ I) as (free & pend & apis & eps & v & M). assert (B := iv_buf _ _ _ _ _ _ _ _ _ M). destruct (is_req e) eqn:IR.
    - destruct e; try discriminate IR. destruct (req_event c a free pend l s Hc B Hs) as (s2 & r & free' & pend' & E2 & Q & B').
      rewrite E in E2; inversion E2; subst s2 o. destruct (req_flags _ _ _ _ _ _ _ _ _ _ Q) as (Q1 & Q2 & Q3 & Q4 & Q5). split; auto. folds. split; auto.
    - rewrite (event_char c e free pend l s IR (mc_sub _ _ _ (iv_ctl _ _ _ _ _ _ _ _ _ M)) B) in E; inversion E; subst s' o. split; [apply ev_crc|]. destruct e; try discriminate IR; folds; auto. }
  destruct X as (X1 & X2 & X3 & X4). split; auto.
  - rewrite X1. intros. apply bad_check_app. auto.
  - destruct l; auto using bad_check_app.
  - intros a Ha. destruct (fly_line l) eqn:F; [|destruct l; try discriminate F; exact Logic.I].
    destruct (Minv_current _ _ _ _ (ci_inv _ _ _ _ I) F) as (i & b & m & C & Cu & _). rewrite (current_app _ _ _ Cu X4) in Ha. inversion Ha; subst b. specialize (Er a Cu).
    assert (HO : hd_ok a t -> hd_ok a (t ++ MTEv e :: map MTOut o)) by (unfold hd_ok; rewrite X2; auto).
    assert (BO : bad_check t -> bad_check (t ++ MTEv e :: map MTOut o)) by apply bad_check_app.
    destruct l; cbn [err_inv] in *; tauto.
Qed.
Lemma history_einv c sched k t : cfg_master_ok c -> m_history c sched k t -> einv c t (mloc k) (mc_s k).
Proof.
  intros Hc (s & (s0 & Hm & E0) & HS & E). refine (m_abs_inv c (einv c) _ _ sched [] _ _ _ HS _ E).
  - intros. eapply einv_line; eauto.
  - intros. eapply einv_event; eauto.
  - assert (I := cinv_start _ _ _ Hc Hm E0). destruct (init_char c s0 Hc Hm) as (s2 & E2 & St); rewrite E0 in E2; inversion E2; subst s2; destruct St as (R1 & R2 & Ms & St & Dr & Su & Re & Ti & Rx & F1 & F2 & F3 & F4 & F5).
    split; auto; unfold mloc, m_dispatch; cbn [mc_s mc_pc]; rewrite ?St, ?F5; auto; try discriminate.
Qed.
Lemma history_ehist c sched k t (Q : list mitem -> mitem -> Prop) : cfg_master_ok c -> m_history c sched k t ->
  (forall t l s l' s' o, einv c t l s -> m_line c l s = Ok (l', s', o) -> forall o1 x o2, o = o1 ++ x :: o2 -> Q (t ++ map MTOut o1) (MTOut x)) ->
  (forall t l s e, einv c t l s -> Q t (MTEv e)) ->
  (forall t l s a r, einv c t l s -> Q (t ++ [MTEv (MReq a)]) (MTOut (MoRet a r))) -> hist Q t.
Proof.
  intros Hc H H1 H2 H3. assert (HH := history_einv c [] ). destruct H as (s & (s0 & Hm & E0) & HS & E). destruct (hist_run c (einv c) Q) with (sched := sched) (t := @nil mitem) (k := mk_mconf s None) (k' := k) (o := t) as [A _]; auto.
  - intros. eapply einv_line; eauto.
  - intros. eapply einv_event; eauto.
  - apply (HH (mk_mconf s None) [] Hc). exists s. split; [exists s0; auto|]. split; [intros a []|reflexivity].
  - intros t1 x t2 X. destruct t1; discriminate.
Qed.
(** the receive buffer holds the bytes received *)
Lemma rxb_prefix l r : rr_ok r -> rxb l r -> (length l < 256)%nat -> firstn (length l) (rr_buf r) = l.
Proof. intros R [A B] H. rewrite (buffered_short l H) in B. unfold rx_frame in B. rewrite A, Nat2Z.id, Nat.mod_small in B by auto. exact B. Qed.
Lemma prefix_nth (l b : list Z) k : firstn (length l) b = l -> (k < length l)%nat -> byte_at b k = byte_at l k.
Proof. intros H L. unfold byte_at. rewrite <- H, nth_firstn; auto. Qed.

Definition cb_fact (t1 : list mitem) (x : mitem) : Prop :=
  forall y, x = MTOut (MoCb y) -> exists a g b, current t1 = Some a /\
    ((length (m_received t1) < 256)%nat -> firstn (length (m_received t1)) b = m_received t1) /\
    match y with
    | TimeoutErr r => r = mk_err (api_id a) (byte_at b 1) (api_adr a) (api_field a) RESP_TIMEOUT_ERR
    | CommErr r => m_checked t1 = Some g /\ (exists e, r = mk_err (byte_at b 0) (Z.land (byte_at b 1) 0x7F) 0 0 e /\
         (e = RESP_RTU_CRC_ERR /\ bad_check t1 \/ e = RESP_FRAME_ERR /\ m_frame_err_pending t1 = true)) /\
         ((length (m_received t1) < 256)%nat -> g <> [] -> byte_at b 0 = api_id a)
    | _ => m_checked t1 = Some g /\ exists l, delivered a b = Some l /\ In y l /\ ((length (m_received t1) < 256)%nat -> firstn (length g) (m_received t1) = g)
    end.
Lemma comm_report_char m e : rr_ok (m_resp m) -> comm_report m e = Ok (mk_err (byte_at (rr_buf (m_resp m)) 0) (Z.land (byte_at (rr_buf (m_resp m)) 1) 0x7F) 0 0 e).
Proof.
  intros (P & L & B & _). unfold comm_report, MODBUS_SLAVE_ADR_IDX, MODBUS_FUNCTION_CODE_IDX. rewrite !rd_ok by (auto; rewrite L; lia). cbn [bind]. reflexivity.
Qed.
Lemma response_not_error a b l y : delivered a b = Some l -> In y l -> is_response y.
Proof.
  unfold delivered. intros D H.
  assert (E : forall e, In y (exception_callbacks e) -> is_response y).
  { intros e. unfold exception_callbacks. destruct (x_fc e) as [|p|p]; cbn; try contradiction. do 5 (try destruct p as [p|p|]); cbn; try contradiction; intros [<-|[]]; exact Logic.I. }
  assert (Nn : forall fc id adr q, In y (normal_callbacks fc id adr q b) -> is_response y).
  { intros fc id adr q. unfold normal_callbacks. destruct fc as [|p|p]; cbn; try contradiction. do 5 (try destruct p as [p|p|]); cbn [In]; try contradiction; try (intros [<-|[]]; exact Logic.I);
    unfold bit_callbacks, reg_callbacks; intros X; apply in_map_iff in X as (? & <- & _); exact Logic.I. }
  destruct (128 <=? byte_at b 1); [inversion D; subst; eauto|].
  destruct (is_read a).
  - destruct (_ || _); [|inversion D; subst; destruct H]. destruct (_ && _); [discriminate|]. inversion D; subst. eauto.
  - inversion D; subst. destruct (_ || _); eauto. destruct H as [<-|[]]. exact Logic.I.
Qed.
Lemma hist_cb_fact c sched k t : cfg_master_ok c -> m_history c sched k t -> hist cb_fact t.
Proof.
  intros Hc H. eapply history_ehist; eauto; try (intros; intros y; discriminate). clear sched k t H.
  intros t l s l' s' o I E o1 x o2 Eo y Ex. inversion Ex; subst x. clear Ex.
  assert (F : cb_line l = true) by (destruct l; try reflexivity; revert Eo; mline_inv E; intros Eo; try (destruct o1; discriminate); apply one in Eo as [_ Eo]; discriminate).
  assert (Fl : fly_line l = true) by (destruct l; try discriminate F; auto).
  assert (CI := ei_c _ _ _ _ I).
  destruct (Minv_current _ _ _ _ (ci_inv _ _ _ _ CI) Fl) as (i & a & m & C & Cu & N & Hm & H & A & V).
  assert (RK : rx_known l = true) by (destruct l; try discriminate F; auto).
  destruct (ci_rx _ _ _ _ CI RK) as (i2 & m2 & C2 & N2 & RX). assert (i2 = i) by congruence. subst i2. assert (m2 = m) by congruence. subst m2.
  assert (CM : cur_msg s = Ok (i, m)) by (apply cur_msg_inv; auto).
  assert (PB : (length (m_received t) < 256)%nat -> firstn (length (m_received t)) (rr_buf (m_resp m)) = m_received t) by (apply rxb_prefix; auto; apply Hm).
  assert (Er := ei_err _ _ _ _ I a Cu).
  assert (PR : was_checked l = true -> exists g, m_checked t = Some g /\ ((length (m_received t) < 256)%nat -> firstn (length g) (m_received t) = g /\ (g <> [] -> m_received t <> []))).
  { intros W. destruct (ci_pref _ _ _ _ CI W) as (g & r & z & P1 & P2 & P3). exists g. split; auto. intros Hl. rewrite P3 in Hl. rewrite app_length in Hl.
    change (m_buffered r) with (buffered r) in P2. rewrite buffered_short in P2 by lia. subst g. rewrite P3. split; [apply firstn_app_exact; auto|]. intros X Y. destruct r; [congruence|discriminate]. }
  assert (HB : forall g, m_checked t = Some g -> hd_ok a t -> firstn (length g) (m_received t) = g -> (length (m_received t) < 256)%nat -> g <> [] -> byte_at (rr_buf (m_resp m)) 0 = api_id a).
  { intros g G1 G2 G3 G4 G5. destruct (G2 g G1) as [|G6]; [congruence|]. destruct g as [|g0 g]; [congruence|]. inversion G6; subst g0.
    assert (L : (0 < length (m_received t))%nat). { destruct (m_received t); [discriminate G3|cbn; lia]. }
    rewrite (prefix_nth _ _ 0 (PB G4) L). destruct (m_received t); [cbn in L; lia|]. cbn in G3. inversion G3. reflexivity. }
  destruct l; try discriminate F; cbn [m_line] in E; rewrite CM in E; cbn [bind] in E.
  - rewrite (timeout_report_char m a) in E by auto. cbn [bind] in E. revert Eo. inversion E; subst. intros Eo. apply one in Eo as [-> Eo]. inversion Eo; subst y. cbn [map]. rewrite app_nil_r.
    exists a, [], (rr_buf (m_resp m)). auto.
  - assert (R := read_resp_char m a Hm H A V). destruct (delivered a (rr_buf (m_resp m))) as [l|] eqn:D; [|rewrite R in E; discriminate].
    destruct R as (st & R). rewrite R in E. cbn [bind] in E. revert Eo. inversion E; subst. intros Eo.
    destruct (part_cbs _ _ _ _ Eo) as (y' & Ey & Iy & l1 & ->). inversion Ey; subst y'. destruct (cbs_folds t l1) as (_ & _ & C3 & _ & _ & C6).
    destruct (PR eq_refl) as (g & G1 & G2). exists a, g, (rr_buf (m_resp m)). rewrite C6. split; [apply current_app; auto; apply finished_cbs|]. split; auto.
    assert (Y := response_not_error _ _ _ _ D Iy).
    assert (Z : m_checked (t ++ map MTOut (map MoCb l1)) = Some g /\ exists l0, delivered a (rr_buf (m_resp m)) = Some l0 /\ In y l0 /\ ((length (m_received t) < 256)%nat -> firstn (length g) (m_received t) = g)).
    { rewrite C3. split; auto. exists l. split; auto. split; auto. intros L. apply G2. auto. }
    destruct y; try exact Z; destruct Y.
  - rewrite comm_report_char in E by apply Hm. cbn [bind] in E. revert Eo. inversion E; subst. intros Eo. apply one in Eo as [-> Eo]. inversion Eo; subst y. cbn [map]. rewrite app_nil_r.
    destruct (PR eq_refl) as (g & G1 & G2). exists a, g, (rr_buf (m_resp m)). cbn [err_inv] in Er. destruct Er as [Er1 Er2]. split; auto. split; auto. split; auto. split; [eexists; split; [reflexivity|]; auto|].
    intros L Ng. apply (HB g); auto. apply G2; auto.
  - rewrite comm_report_char in E by apply Hm. cbn [bind] in E. revert Eo. inversion E; subst. intros Eo. apply one in Eo as [-> Eo]. inversion Eo; subst y. cbn [map]. rewrite app_nil_r.
    destruct (PR eq_refl) as (g & G1 & G2). exists a, g, (rr_buf (m_resp m)). cbn [err_inv] in Er. destruct Er as [Er1 Er2]. split; auto. split; auto. split; auto. split; [eexists; split; [reflexivity|]; auto|].
    intros L Ng. apply (HB g); auto. apply G2; auto.
Qed.
