(** Properties of every point of a master's history. *)
From Verif Require Export Proofs.MasterTrace Proofs.SlaveRx.

(** *** initialisation *)
Lemma push_all_ok N n : forall i q l, rep N q l -> Z.of_nat (length l + n) <= N -> exists q', push_all_loop N n i q = Ok q' /\ rep N q' (l ++ seq i n).
Proof.
  induction n as [|n IH]; intros i q l R H; cbn [push_all_loop seq].
  - rewrite app_nil_r. eauto.
  - destruct (push_room N q l i R ltac:(lia)) as (q1 & P & R1 & _). rewrite P. cbn [bind].
    destruct (IH (S i) q1 (l ++ [i]) R1) as (q2 & P2 & R2). { rewrite app_length. cbn [length]. lia. }
    exists q2. split; auto. now rewrite <- app_assoc in R2.
Qed.
Definition start_of (c : cfg) (s s' : master) : Prop :=
  rep (c_queue c) (mm_free s') (seq 0 (Z.to_nat (c_queue c))) /\ rep (c_queue c) (mm_txq s') [] /\
  mm_msgs s' = map (fun m => mk_msg (mk_rr true (rr_buf (m_req m)) (rr_len (m_req m))) (mk_rr true (rr_buf (m_resp m)) (rr_len (m_resp m)))) (mm_msgs s) /\
  mm_st s' = M_IDLE /\ mm_drv s' = true /\ mm_sub s' = true /\ mm_rep s' = 0 /\ mm_timer s' = 0 /\ mm_rx s' = mm_rx s /\
  mm_t15 s' = CLEARED /\ mm_t35 s' = CLEARED /\ mm_fe s' = CLEARED /\ mm_tx s' = CLEARED /\ mm_crc s' = CLEARED.
Lemma init_char c s : cfg_master_ok c -> master_memory_ok c s -> exists s', modbus_master_init c RTU s = Ok s' /\ start_of c s s'.
Proof.
  intros [HN HR] (L & F & LF & LT & RX). unfold modbus_master_init, register_msg_req_resp_data_buffers. mprj.
  destruct (push_all_ok (c_queue c) (Z.to_nat (c_queue c)) 0 (modbus_queue_init (mm_free s)) []) as (q & P & R); [apply rep_init; auto|cbn; lia|].
  rewrite P. cbn [bind]. eexists. split; [reflexivity|]. unfold start_of. mprj. cbn [app] in R. repeat (split; [first [reflexivity|assumption|apply rep_init; assumption]|]). reflexivity.
Qed.
Lemma start_minv c s s' : cfg_master_ok c -> master_memory_ok c s -> start_of c s s' ->
  minv c (seq 0 (Z.to_nat (c_queue c))) [] [] [] [] [] M649 s'.
Proof.
  intros Hc (L & F & LF & LT & RX) (R1 & R2 & Ms & St & Dr & Su & Re & Ti & Rx & F1 & F2 & F3 & F4 & F5). split; auto.
  - split; cbn; auto; try (right; assumption). 
  - split; cbn; auto; try discriminate.
    + rewrite Ms, map_length. auto.
    + rewrite Ms. apply Forall_map. eapply Forall_impl; [|exact F]. intros m [(A1 & A2 & A3) (B1 & B2 & B3)]. split; (split; [reflexivity|]); auto.
    + rewrite Forall_forall. intros i Hi. apply in_seq in Hi. lia.
    + apply seq_NoDup.
    + intros i H. rewrite Rx in H. auto.
  - cbn. constructor.
  - reflexivity.
  - cbn. rewrite seq_length. lia.
Qed.
Lemma init_minv c s s' : cfg_master_ok c -> master_memory_ok c s -> modbus_master_init c RTU s = Ok s' ->
  Minv c [] (mloc (mk_mconf s' None)) s'.
Proof.
  intros Hc Hm E. destruct (init_char c s Hc Hm) as (s2 & E2 & St). rewrite E in E2. inversion E2; subst s2.
  assert (X := start_minv _ _ _ Hc Hm St). unfold mloc. cbn [mc_pc mc_s]. unfold m_dispatch. destruct St as (_ & _ & _ & -> & _). unfold Minv. eauto 10.
Qed.

(** *** every item of the history *)
Definition hist (Q : list mitem -> mitem -> Prop) (t : list mitem) : Prop := forall t1 x t2, t = t1 ++ x :: t2 -> Q t1 x.
Lemma hist_app Q t o : hist Q t -> (forall o1 x o2, o = o1 ++ x :: o2 -> Q (t ++ o1) x) -> hist Q (t ++ o).
Proof.
  intros G H t1 x t2 E. destruct (Nat.leb (length t) (length t1)) eqn:L.
  - apply Nat.leb_le in L. assert (X : exists o1, t1 = t ++ o1 /\ o = o1 ++ x :: t2).
    { exists (skipn (length t) t1). assert (A := f_equal (firstn (length t)) E). rewrite firstn_app, firstn_all, Nat.sub_diag in A. cbn [firstn] in A. rewrite app_nil_r in A.
      assert (A1 : firstn (length t) t1 = t). { rewrite firstn_app in A. replace (length t - length t1)%nat with 0%nat in A by lia. cbn [firstn] in A. rewrite app_nil_r in A. auto. }
      assert (A2 : t1 = t ++ skipn (length t) t1) by (rewrite <- A1 at 1; symmetry; apply firstn_skipn). split; auto.
      rewrite A2 in E. rewrite <- app_assoc in E. apply app_inv_head in E. exact E. }
    destruct X as (o1 & -> & ->). apply (H o1 x t2). reflexivity.
  - apply Nat.leb_gt in L. assert (X : exists u, t = t1 ++ x :: u).
    { assert (A := f_equal (firstn (length t)) E). rewrite firstn_app, firstn_all, Nat.sub_diag in A. cbn [firstn] in A. rewrite app_nil_r in A.
      rewrite firstn_app, firstn_all2 in A by lia. destruct (length t - length t1)%nat eqn:D; [lia|]. cbn [firstn] in A. eauto. }
    destruct X as (u & ->). eapply G; eauto.
Qed.
Lemma hist_run c (I : list mitem -> mpc -> master -> Prop) (Q : list mitem -> mitem -> Prop) :
  (forall t l s l' s' o, I t l s -> m_line c l s = Ok (l', s', o) -> I (t ++ map MTOut o) (m_next l' s') s') ->
  (forall t l s e s' o, I t l s -> ev_safe e -> m_event c e s = Ok (s', o) -> I (t ++ MTEv e :: map MTOut o) l s') ->
  (forall t l s l' s' o, I t l s -> m_line c l s = Ok (l', s', o) -> forall o1 x o2, o = o1 ++ x :: o2 -> Q (t ++ map MTOut o1) (MTOut x)) ->
  (forall t l s e, I t l s -> Q t (MTEv e)) ->
  (forall t l s a r, I t l s -> Q (t ++ [MTEv (MReq a)]) (MTOut (MoRet a r))) ->
  forall sched t k k' o, reqs_safe sched -> I t (mloc k) (mc_s k) -> hist Q t -> m_run c sched k = Ok (k', o) -> hist Q (t ++ o) /\ I (t ++ o) (mloc k') (mc_s k').
Proof.
  intros Hl He Ql Qe Qr sched t k k' o HS H Hh E.
  assert (X := m_abs_inv c (fun t l s => I t l s /\ hist Q t)).
  destruct (X) with (sched := sched) (t := t) (k := k) (k' := k') (o := o) as [X1 X2]; auto.
  - clear - Hl Ql. intros t l s l' s' o [H Hh] E. split; [eapply Hl; eauto|]. apply hist_app; auto. intros o1 x o2 E2.
    destruct (map_eq_app _ _ _ _ E2) as (a1 & b1 & -> & <- & E3). destruct b1 as [|y b1]; [discriminate|]. cbn [map] in E3. inversion E3; subst. eapply Ql; eauto.
  - clear - He Qe Qr. intros t l s e s' o [H Hh] SF E. split; [eapply He; eauto|]. apply hist_app; auto. intros o1 x o2 E2.
    destruct o1 as [|y o1]; cbn [app] in E2; inversion E2; subst.
    + rewrite app_nil_r. eapply Qe; eauto.
    + destruct e; cbn [m_event] in E; try (inversion E; subst; destruct o1; discriminate).
      * destruct (mm_rx s); [|inversion E; subst; destruct o1; discriminate]. destruct (get_msg _ _) as [m| |]; try discriminate. cbn [bind] in E.
        destruct (wr _ _ _); try discriminate. cbn [bind] in E. destruct (put_msg _ _ _) as [?| |]; try discriminate. inversion E; subst; destruct o1; discriminate.
      * destruct (modbus_master_request c a s) as [[r s2]| |]; try discriminate. cbn [bind] in E. inversion E; subst. cbn [map] in *.
        destruct o1 as [|? [|]]; cbn [app] in *; inversion H2; subst. eapply Qr; eauto.
Qed.

(** *** what the program knows *)
Lemma minv_current c free pend apis eps v t l s : minv c free pend apis eps v t l s -> fly_line l = true ->
  exists i a, mm_cur s = Some i /\ current t = Some a /\ hd_error apis = Some a /\ is_msg s i a.
Proof.
  intros [K B Rq Ac Vi Ep Pa Fi Cn] F. unfold part in Pa. rewrite F in Pa. destruct Pa as (a & rest & k & cbs & -> & _).
  destruct (fly_cur _ _ _ _ _ F Rq (mb_cur _ _ _ _ _ B F)) as (i & C & M). exists i, a. repeat split; auto.
  unfold current. rewrite Ac, Fi. rewrite nth_error_app2 by (rewrite map_length; lia). rewrite map_length, Nat.sub_diag. reflexivity.
Qed.
Lemma Minv_current c t l s : Minv c t l s -> fly_line l = true -> exists i a m, mm_cur s = Some i /\ current t = Some a /\
  nth_error (mm_msgs s) i = Some m /\ msg_ok m /\ has_req m a /\ api_ok a /\ api_valid a = true.
Proof.
  intros (free & pend & apis & eps & v & I) F. destruct (minv_current _ _ _ _ _ _ _ _ _ I F) as (i & a & C & Cu & _ & m & N & H & A & V).
  exists i, a, m. split; auto. split; auto. split; auto. split; auto. eapply Forall_forall; [apply (mb_msgs _ _ _ _ _ (iv_buf _ _ _ _ _ _ _ _ _ I))|eapply nth_error_In; eauto].
Qed.
Lemma current_app t o a : current t = Some a -> finished o = 0%nat -> current (t ++ o) = Some a.
Proof.
  unfold current. rewrite accepted_app, finished_app. intros H ->. rewrite Nat.add_0_r. rewrite nth_error_app1; auto. apply nth_error_Some. congruence.
Qed.

Definition tx_inv (l : mpc) (s : master) (t : list mitem) : Prop :=
  match l with
  | M649 | M651 | M404 | M405 | M406 | M836 | M837 | M838 | M871 | M872 | M873 | M900 | M901 | M902 => True
  | M407 | M669 => mm_tx s = CLEARED -> tx_complete t = true
  | _ => tx_complete t = true
  end.
Definition t35i (s : master) (t : list mitem) : Prop := mm_t35 s = SET -> m_t35_after t = true.
Definition chk_inv (a : api) (l : mpc) (s : master) (t : list mitem) : Prop :=
  match l with
  | M747 id | M748 id => id = api_id a
  | M749 id => id = api_id a /\ t35i s t
  | M750 st => (exists g, m_checked t = Some g /\ (st = RET_OK /\ intact (api_id a) g \/ st = RET_ERROR_SLAVE_ID \/ st = RET_ERROR_CRC)) /\ t35i s t
  | M756 st => (exists g, m_checked t = Some g /\ (st = RET_OK /\ intact (api_id a) g \/ st = RET_ERROR_SLAVE_ID)) /\ t35i s t
  | M752 | M753 => (exists g, m_checked t = Some g) /\ t35i s t
  | M754 => (exists g, m_checked t = Some g) /\ t35i s t /\ mm_crc s = SET
  | M762 | M763 => (exists g, m_checked t = Some g /\ intact (api_id a) g) /\ t35i s t
  | M784 | M784b | M788 | M788b | M792 => (exists g, m_checked t = Some g /\ (mm_crc s = CLEARED -> intact (api_id a) g)) /\ t35i s t
  | M792b => (exists g, m_checked t = Some g /\ (mm_crc s = CLEARED -> intact (api_id a) g)) /\ t35i s t /\ m_started_clean t = true
  | M792c => (exists g, m_checked t = Some g /\ intact (api_id a) g) /\ t35i s t /\ m_started_clean t = true
  | M813 => (exists g, m_checked t = Some g /\ intact (api_id a) g) /\ m_t35_after t = true /\ m_started_clean t = true
  | _ => True
  end.
Definition rx_known (l : mpc) : bool :=
  match l with M672 | M673 | M690 | M694 | M718 | M746 | M747 _ | M748 _ | M749 _ | M750 _ | M752 | M753 | M754 | M756 _ | M758 | M762 | M763
  | M784 | M784b | M788 | M788b | M792 | M792b | M792c | M813 | M833 | M834 | M836 | M837 | M844 | M868 | M869 | M871 | M872 | M879 => true | _ => false end.
(** lines between a frame check and the decision *)
Definition was_checked (l : mpc) : bool :=
  match l with M750 _ | M752 | M753 | M754 | M756 _ | M762 | M763
  | M784 | M784b | M788 | M788b | M792 | M792b | M792c | M813 | M833 | M834 | M844 | M868 | M869 | M879 => true | _ => false end.
Definition pref_inv (l : mpc) (t : list mitem) : Prop :=
  was_checked l = true -> exists g r x, m_checked t = Some g /\ g = m_buffered r /\ m_received t = r ++ x.
Definition rx_inv (l : mpc) (s : master) (t : list mitem) : Prop :=
  rx_known l = true -> exists i m, mm_cur s = Some i /\ nth_error (mm_msgs s) i = Some m /\ rxb (m_received t) (m_resp m).
Record cinv (c : cfg) (t : list mitem) (l : mpc) (s : master) : Prop := {
  ci_inv : Minv c t l s;
  ci_tx : tx_inv l s t;
  ci_fe : mm_fe s = bl (m_frame_err_pending t);
  ci_chk : forall a, current t = Some a -> chk_inv a l s t;
  ci_rx : rx_inv l s t;
  ci_pref : pref_inv l t }.

Lemma started_fst t : forall p q, fst (fold_left (fun acc x => match x with
    | MTEv MFrameErr => (true, snd acc)
    | MTOut (MoRetry RESP_FRAME_ERR) => (false, snd acc)
    | MTOut (MoCheck _) | MTOut (MoSend _) => (fst acc, false)
    | MTOut MoNoFrameErr => (fst acc, negb (fst acc))
    | _ => acc end) t (p, q)) = fold_left (fun acc x => match x with
    | MTEv MFrameErr => true
    | MTOut (MoRetry RESP_FRAME_ERR) => false
    | _ => acc end) t p.
Proof.
  induction t as [|x t IH]; intros p q; [reflexivity|]. cbn [fold_left].
  destruct x as [[]|[]]; cbn [fst snd]; try apply IH. destruct e; apply IH.
Qed.
Ltac folds := unfold tx_complete, m_t35_after, m_checked, m_started_clean, m_frame_err_pending, m_received in *; rewrite ?fold_left_app in *; cbn [map fold_left snd fst app] in *.
Lemma cbs_folds t l : tx_complete (t ++ map MTOut (map MoCb l)) = tx_complete t /\ m_t35_after (t ++ map MTOut (map MoCb l)) = m_t35_after t /\
  m_checked (t ++ map MTOut (map MoCb l)) = m_checked t /\ m_started_clean (t ++ map MTOut (map MoCb l)) = m_started_clean t /\
  m_frame_err_pending (t ++ map MTOut (map MoCb l)) = m_frame_err_pending t /\ m_received (t ++ map MTOut (map MoCb l)) = m_received t.
Proof.
  revert t. induction l as [|x l IH]; intros t; cbn [map].
  - rewrite !app_nil_r. auto 10.
  - replace (t ++ MTOut (MoCb x) :: map MTOut (map MoCb l)) with ((t ++ [MTOut (MoCb x)]) ++ map MTOut (map MoCb l)) by (rewrite <- app_assoc; reflexivity).
    destruct (IH (t ++ [MTOut (MoCb x)])) as (A1 & A2 & A3 & A4 & A5 & A6). rewrite A1, A2, A3, A4, A5, A6. folds. auto 10.
Qed.

Lemma Minv_line c t l s l' s' o : cfg_master_ok c -> Minv c t l s -> m_line c l s = Ok (l', s', o) -> Minv c (t ++ map MTOut o) (m_next l' s') s'.
Proof. intros Hc (free & pend & apis & eps & v & I) E. destruct (minv_line _ _ _ _ _ _ _ _ _ _ _ _ Hc I E) as (? & ? & ? & I'). unfold Minv. eauto 10. Qed.
Lemma Minv_event c t l s e s' o : cfg_master_ok c -> ev_safe e -> Minv c t l s -> m_event c e s = Ok (s', o) -> Minv c (t ++ MTEv e :: map MTOut o) l s'.
Proof. intros Hc X (free & pend & apis & eps & v & I) E. destruct (minv_event _ _ _ _ _ _ _ _ _ _ _ _ Hc X I E) as (? & ? & ? & I'). unfold Minv. eauto 10. Qed.
Lemma Minv_ctl c t l s : Minv c t l s -> mctl c l s.
Proof. intros (free & pend & apis & eps & v & I). apply I. Qed.

Ltac dflag := repeat match goal with
  | H : is_clr ?f = true |- _ => let X := fresh in destruct f eqn:X; try discriminate H; clear H
  | H : is_set ?f = true |- _ => let X := fresh in destruct f eqn:X; try discriminate H; clear H
  | H : is_clr ?f = false |- _ => let X := fresh in destruct f eqn:X; try discriminate H; clear H
  | H : is_set ?f = false |- _ => let X := fresh in destruct f eqn:X; try discriminate H; clear H
  end.
Lemma is_clr_true f : is_clr f = true <-> f = CLEARED.
Proof. destruct f; cbn; split; congruence. Qed.
Lemma is_set_true f : is_set f = true <-> f = SET.
Proof. destruct f; cbn; split; congruence. Qed.
Lemma line_tx c t l s l' s' o : mctl c l s -> tx_inv l s t -> m_line c l s = Ok (l', s', o) -> tx_inv (m_next l' s') s' (t ++ map MTOut o).
Proof.
  intros K T E. assert (BS := mc_st _ _ _ K).
  destruct l; mline_inv E; cbn [m_next]; unfold m_dispatch; mprj; cbn [mst_ok] in BS; rewrite ?BS; cbn [tx_inv map] in *; rewrite ?app_nil_r; auto; mprj;
    try discriminate; try (apply is_clr_true in X; auto; fail); try (folds; auto; fail).
Qed.
Lemma line_fe c t l s l' s' o : mm_fe s = bl (m_frame_err_pending t) -> m_line c l s = Ok (l', s', o) -> mm_fe s' = bl (m_frame_err_pending (t ++ map MTOut o)).
Proof.
  intros T E. destruct l; try (mline_inv E; mprj; cbn [map]; rewrite ?app_nil_r; auto; try (folds; auto; fail); fail).
  mline_inv E. mprj. destruct (cbs_folds t l) as (_ & _ & _ & _ & -> & _). auto.
Qed.
Lemma recv_cases r id st : rr_ok r -> modbus_RTU_recv r id = Ok st -> st = RET_OK /\ intact id (rx_frame r) \/ st = RET_ERROR_SLAVE_ID \/ st = RET_ERROR_CRC.
Proof.
  intros R E. assert (A := recv_accept_iff r id R). rewrite recv_ok in E, A by auto.
  destruct (negb (id =? _)); [inversion E; auto|]. destruct (negb _); [inversion E; auto|]. left. inversion E. split; auto. apply A. reflexivity.
Qed.
Lemma line_chk c t l s l' s' o i a m : mctl c l s -> m_line c l s = Ok (l', s', o) -> mm_cur s = Some i -> nth_error (mm_msgs s) i = Some m -> msg_ok m -> has_req m a -> api_ok a -> api_valid a = true ->
  mm_fe s = bl (m_frame_err_pending t) -> chk_inv a l s t -> chk_inv a (m_next l' s') s' (t ++ map MTOut o).
Proof.
  intros K E C N Hm H A V Fe T. assert (BS := mc_st _ _ _ K). assert (FE := mc_fe _ _ _ K). assert (CR := mc_crc _ _ _ K).
  assert (CM : cur_msg s = Ok (i, m)) by (apply cur_msg_inv; auto).
  destruct (has_req_fields m a (proj1 Hm) H A V) as (F0 & _).
  destruct l.
  14:{ (* M746 *) cbn [m_line] in E. rewrite CM in E. cbn [bind] in E. destruct Hm as [(P & L & B & _) _]. rewrite rd_ok in E by (auto; unfold MODBUS_SLAVE_ADR_IDX; lia). cbn [bind] in E. inversion E; subst. exact F0. }
  16:{ (* M749 *) cbn [m_line] in E. rewrite CM in E. cbn [bind] in E. destruct T as [-> T].
    destruct (modbus_RTU_recv (m_resp m) (api_id a)) as [st| |] eqn:R; try discriminate. cbn [bind] in E. inversion E; subst. cbn [m_next chk_inv map].
    split; [|unfold t35i in *; folds; auto]. exists (rx_frame (m_resp m)). split; [folds; reflexivity|]. apply recv_cases; auto. apply Hm. }
  all: mline_inv E; cbn [m_next]; unfold m_dispatch; mprj; cbn [mst_ok] in BS; rewrite ?BS; cbn [chk_inv map] in *; rewrite ?app_nil_r; auto; mprj; unfold t35i in *; mprj.
  - folds. split; auto. discriminate.
  - apply Z.eqb_eq in X. destruct T as ((g & T1 & T2) & T3). split; eauto.
  - destruct T as ((g & T1 & T2) & T3). split; auto. exists g. split; auto. destruct T2 as [T2|[T2|T2]]; auto. subst st. discriminate.
  - tauto.
  - destruct T as ((g & T1) & T2 & T3). split; auto. exists g. split; auto. congruence.
  - destruct T as ((g & T1 & T2) & T3). split; auto. exists g. split; auto. destruct T2 as [T2|T2]; [tauto|]. subst st. discriminate.
  - destruct T as ((g & T1 & T2) & T3). split; auto. exists g. split; auto.
  - destruct T as (T1 & T3). split; [folds; auto|]. split; [folds; auto|]. unfold m_started_clean. rewrite fold_left_app. cbn [fold_left snd]. rewrite started_fst.
    fold (m_frame_err_pending t). apply is_clr_true in X. rewrite X in Fe. destruct (m_frame_err_pending t); [discriminate|reflexivity].
  - apply is_clr_true in X. destruct T as ((g & T1 & T2) & T3). split; auto. exists g. split; auto.
  - tauto.
  - apply is_set_true in X. tauto.
  - destruct T as ((g & T1 & T2) & T3 & _). split; auto. exists g. split; auto.
Qed.

Lemma rxb_put t r b : rr_ok r -> rxb t r -> rxb (t ++ [u8 b]) (mk_rr true (upd (rr_buf r) (Z.to_nat (rr_len r)) (u8 b)) (u8 (rr_len r + 1))).
Proof.
  intros R X. destruct (rxb_rx t r b R X) as (r' & E & X'). destruct R as (P & L & B & Hl). rewrite wr_ok in E by (auto; unfold byte in Hl; lia). inversion E; subst r'. exact X'.
Qed.
Lemma line_rx c t l s l' s' o : mctl c l s -> m_line c l s = Ok (l', s', o) -> rx_inv l s t -> rx_inv (m_next l' s') s' (t ++ map MTOut o).
Proof.
  intros K E T. assert (BS := mc_st _ _ _ K). unfold rx_inv in *.
  destruct l; mline_inv E; cbn [m_next]; unfold m_dispatch; mprj; cbn [mst_ok] in BS; rewrite ?BS; cbn [rx_known map] in *; rewrite ?app_nil_r; auto; mprj; try discriminate;
  try (folds; auto; fail); intros _; 
  match goal with H : mm_cur s = Some ?i, N : nth_error _ ?i = Some ?m |- _ => exists i, (set_resp m (set_len (m_resp m) 0)); split; [exact H|]; rewrite upd_nth_error_same by (apply nth_error_Some; congruence); split; [reflexivity|] end;
  folds; apply rxb_nil; reflexivity.
Qed.
Lemma line_pref c t l s l' s' o : mctl c l s -> m_line c l s = Ok (l', s', o) -> rx_inv l s t -> pref_inv l t -> pref_inv (m_next l' s') (t ++ map MTOut o).
Proof.
  intros K E R P. assert (BS := mc_st _ _ _ K). unfold pref_inv in *.
  destruct l; try (mline_inv E; cbn [m_next]; unfold m_dispatch; mprj; cbn [mst_ok] in BS; rewrite ?BS; cbn [was_checked map] in *; rewrite ?app_nil_r; auto; try discriminate; folds; auto; fail).
  destruct (R eq_refl) as (i & m & C & N & [R1 R2]). mline_inv E. cbn [m_next map]. intros _.
  assert (X : m0 = m) by congruence. subst m0. exists (rx_frame (m_resp m)), (m_received t), []. rewrite app_nil_r. folds. auto.
Qed.
Lemma cinv_line c t l s l' s' o : cfg_master_ok c -> cinv c t l s -> m_line c l s = Ok (l', s', o) -> cinv c (t ++ map MTOut o) (m_next l' s') s'.
Proof.
  intros Hc [I Tx Fe Ch Rx Pr] E. assert (K := Minv_ctl _ _ _ _ I). assert (I' := Minv_line _ _ _ _ _ _ _ Hc I E). split; auto.
  - eapply line_tx; eauto.
  - eapply line_fe; eauto.
  - intros a Ha. destruct (fly_line l) eqn:F.
    + destruct (Minv_current _ _ _ _ I F) as (i & b & m & C & Cu & N & Hm & H & A & V).
      destruct (match l with M901 => true | _ => false end) eqn:X.
      { destruct l; try discriminate X. mline_inv E. exact Logic.I. }
      assert (FN : finished (map MTOut o) = 0%nat) by (destruct l; try discriminate X; mline_inv E; cbn; rewrite ?finished_cbs; auto).
      rewrite (current_app _ _ _ Cu FN) in Ha. inversion Ha; subst b. eapply line_chk; eauto.
    + destruct l; try discriminate F; mline_inv E; cbn [m_next]; unfold m_dispatch; mprj; try exact Logic.I;
      assert (BS := mc_st _ _ _ K); cbn in BS; rewrite ?BS; exact Logic.I.
  - eapply line_rx; eauto.
  - eapply line_pref; eauto.
Qed.

(** events *)
Lemma req_flags c a free pend l s s' r free' pend' : req_result c a free pend l s s' r free' pend' ->
  mm_tx s' = mm_tx s /\ mm_t35 s' = mm_t35 s /\ mm_fe s' = mm_fe s /\ mm_crc s' = mm_crc s /\ mm_cur s' = mm_cur s.
Proof. intros []; auto 10. Qed.
Lemma ev_cur e s : mm_cur (ev_state e s) = mm_cur s.
Proof. destruct e; cbn [ev_state]; auto; [rxp; auto|destruct (negb _); auto]. Qed.
Lemma ev_crc e s : mm_crc (ev_state e s) = mm_crc s.
Proof. destruct e; cbn [ev_state]; auto; [rxp; auto|destruct (negb _); auto]. Qed.
Lemma chk_same a l s s' t t' : chk_inv a l s t -> (mm_t35 s' = SET -> mm_t35 s = SET \/ m_t35_after t' = true) -> mm_crc s' = mm_crc s -> (m_t35_after t = true -> m_t35_after t' = true) -> m_checked t' = m_checked t ->
  m_started_clean t' = m_started_clean t -> chk_inv a l s' t'.
Proof.
  intros H E1 E2 E3 E4 E5. destruct l; cbn [chk_inv] in *; unfold t35i in *; rewrite ?E2, ?E4, ?E5; auto; intuition.
Qed.
Lemma cinv_event c t l s e s' o : cfg_master_ok c -> ev_safe e -> cinv c t l s -> m_event c e s = Ok (s', o) -> cinv c (t ++ MTEv e :: map MTOut o) l s'.
Proof.
  intros Hc Hs [I Tx Fe Ch Rx Pr] E. assert (K := Minv_ctl _ _ _ _ I). assert (I' := Minv_event _ _ _ _ _ _ _ Hc Hs I E). split; auto; clear I'.
  all: destruct I as (free & pend & apis & eps & v & I); assert (B := iv_buf _ _ _ _ _ _ _ _ _ I).
  all: assert (MI : Minv c t l s) by (unfold Minv; eauto 10).
  all: destruct (is_req e) eqn:IR; 
   [destruct e; try discriminate IR; destruct (req_event c a free pend l s Hc B Hs) as (s2 & r & free' & pend' & E2 & Q & B');
    rewrite E in E2; inversion E2; subst s2 o; clear E2; destruct (req_flags _ _ _ _ _ _ _ _ _ _ Q) as (Q1 & Q2 & Q3 & Q4 & Q5)
   |rewrite (event_char c e free pend l s IR (mc_sub _ _ _ K) B) in E; inversion E; subst s' o; clear E].
  - destruct l; cbn [tx_inv] in *; rewrite ?Q1; folds; auto.
  - destruct l; cbn [tx_inv] in *; auto; destruct e; try discriminate IR; folds; auto; cbn [ev_state]; intros X; apply Tx; revert X; 
     try (unfold rx_put; destruct (mm_rx s); auto; destruct (nth_error _ _); auto); destruct (negb _); auto.
  - rewrite Q3. folds. exact Fe.
  - destruct e; try discriminate IR; folds; cbn [ev_state]; auto; [rxp; auto|destruct (negb _); auto].
  - intros b Hb. destruct (fly_line l) eqn:F; [|destruct l; try discriminate F; exact Logic.I].
    destruct (Minv_current _ _ _ _ MI F) as (i & a0 & m & C & Cu & N & Hm & H & A & V).
    rewrite (current_app _ _ _ Cu) in Hb by (cbn; destruct r; auto). inversion Hb; subst b. eapply chk_same; [apply Ch; eauto|..]; auto; try (rewrite Q2; auto; fail); folds; auto.
  - intros b Hb. destruct (fly_line l) eqn:F; [|destruct l; try discriminate F; exact Logic.I].
    destruct (Minv_current _ _ _ _ MI F) as (i & a0 & m & C & Cu & N & Hm & H & A & V).
    rewrite (current_app _ _ _ Cu) in Hb by (destruct e; auto). inversion Hb; subst b. eapply chk_same; [apply Ch; eauto|..]; auto using ev_crc.
    + destruct e; try discriminate IR; cbn [ev_state]; auto; [|rxp; auto|destruct (negb _); auto]. right. folds. reflexivity.
    + destruct e; try discriminate IR; folds; auto.
    + destruct e; try discriminate IR; folds; auto.
    + destruct e; try discriminate IR; folds; auto.
  - unfold rx_inv in *. intros X. destruct (Rx X) as (i & m & C & N & R). exists i, m. rewrite Q5. split; auto. split; [|folds; exact R].
    rewrite (req_keeps _ _ _ _ _ _ _ _ _ _ Q B); auto. apply in_or_app. left. unfold fly. assert (fly_line l = true) by (destruct l; try discriminate X; auto). rewrite H, C. left; auto.
  - unfold rx_inv in *. intros X. destruct (Rx X) as (i & m & C & N & R). rewrite ev_cur.
    destruct (match e with MRx _ => true | _ => false end) eqn:IX.
    + destruct e; try discriminate IX. cbn [ev_state]. unfold rx_put. rewrite (mb_rxc _ _ _ _ _ B) by (destruct l; try discriminate X; auto). rewrite C, N. mprj.
      eexists i, _. split; auto. rewrite upd_nth_error_same by (apply nth_error_Some; congruence). split; [reflexivity|]. cbn [m_resp set_resp]. folds. apply rxb_put; auto.
      assert (Hm : msg_ok m) by (eapply Forall_forall; [apply (mb_msgs _ _ _ _ _ B)|eapply nth_error_In; eauto]). apply Hm.
    + exists i, m. split; auto. split; [|destruct e; try discriminate IR; try discriminate IX; folds; exact R].
      destruct e; try discriminate IX; cbn [ev_state]; auto. destruct (negb _); auto.
  - intros X. destruct (Pr X) as (g & r0 & x & P1 & P2 & P3). exists g, r0, x. folds. auto.
  - intros X. destruct (Pr X) as (g & r0 & x & P1 & P2 & P3). destruct e; try discriminate IR; try (exists g, r0, x; folds; auto; fail).
    exists g, r0, (x ++ [u8 b]). folds. rewrite P3, app_assoc. auto.
Qed.
Lemma cinv_start c s s' : cfg_master_ok c -> master_memory_ok c s -> modbus_master_init c RTU s = Ok s' -> cinv c [] (mloc (mk_mconf s' None)) s'.
Proof.
  intros Hc Hm E. split; [eapply init_minv; eauto|..];
  destruct (init_char c s Hc Hm) as (s2 & E2 & St); rewrite E in E2; inversion E2; subst s2; destruct St as (R1 & R2 & Ms & St & Dr & Su & Re & Ti & Rx & F1 & F2 & F3 & F4 & F5);
  unfold mloc, m_dispatch; cbn [mc_s mc_pc]; rewrite ?St.
  - exact Logic.I.
  - rewrite F3. reflexivity.
  - intros a Ha. exact Logic.I.
  - intros X. discriminate.
  - intros X. discriminate.
Qed.
