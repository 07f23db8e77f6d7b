(** The history of a master is a sequence of complete request handlings, in the order of acceptance. *)
From Verif Require Export Proofs.MasterInv.

(** *** induction over schedules *)
Lemma m_event_st c e s s' o : m_event c e s = Ok (s', o) -> mm_st s' = mm_st s.
Proof.
  destruct e; cbn [m_event]; intros E; try (inversion E; destruct (mm_sub s); reflexivity).
  - destruct (mm_rx s) as [i|]; [|inversion E; auto]. destruct (get_msg s i) as [m| |]; try discriminate. cbn [bind] in E.
    destruct (wr _ _ _) as [r| |]; try discriminate. cbn [bind] in E.
    destruct (put_msg _ _ _) as [s1| |] eqn:P; try discriminate. apply put_msg_inv in P as [-> _]. inversion E. reflexivity.
  - inversion E. destruct (negb _); reflexivity.
  - unfold modbus_master_request, generate_request in E.
    destruct (modbus_queue_pop _ _) as [[[i|] q]| |]; try discriminate; cbn [bind] in E; [|inversion E; reflexivity].
    destruct (get_msg _ i) as [m| |]; try discriminate. cbn [bind] in E.
    destruct (generate_request_PDU_data _ _) as [[st m']| |]; try discriminate. cbn [bind] in E.
    destruct (put_msg _ _ _) as [s1| |] eqn:P; try discriminate. apply put_msg_inv in P as [-> _]. cbn [bind] in E.
    destruct (st <? 0). { inversion E. reflexivity. }
    destruct (modbus_RTU_send _ _) as [[st2 r]| |]; try discriminate. cbn [bind] in E.
    destruct (put_msg _ _ _) as [s2| |] eqn:P; try discriminate. apply put_msg_inv in P as [-> _]. cbn [bind] in E.
    destruct (_ =? _). { inversion E. reflexivity. }
    destruct (modbus_queue_push _ _ _) as [[q2 ?]| |]; try discriminate. cbn [bind] in E. inversion E. reflexivity.
Qed.

Lemma m_run_inv c (I : list mitem -> mconf -> Prop) :
  forall sched, (forall t k a k' o, In a sched -> I t k -> m_act c a k = Ok (k', o) -> I (t ++ o) k') ->
  forall t k k' o, I t k -> m_run c sched k = Ok (k', o) -> I (t ++ o) k'.
Proof.
  induction sched as [|a sched IH]; intros Hs t k k' o H E; cbn [m_run] in E.
  - inversion E; subst. now rewrite app_nil_r.
  - destruct (m_act c a k) as [[k1 o1]| |] eqn:E1; try discriminate. cbn [bind] in E.
    destruct (m_run c sched k1) as [[k2 o2]| |] eqn:E2; try discriminate. cbn [bind] in E. inversion E; subst.
    rewrite app_assoc. refine (IH _ _ k1 _ _ _ E2).
    + intros. eapply Hs; eauto. now right.
    + eapply Hs; eauto. now left.
Qed.
Definition ev_safe (e : mev) : Prop := match e with MReq a => req_safe a | _ => True end.
Lemma m_abs_inv c (I : list mitem -> mpc -> master -> Prop) :
  (forall t l s l' s' o, I t l s -> m_line c l s = Ok (l', s', o) -> I (t ++ map MTOut o) (m_next l' s') s') ->
  (forall t l s e s' o, I t l s -> ev_safe e -> m_event c e s = Ok (s', o) -> I (t ++ MTEv e :: map MTOut o) l s') ->
  forall sched t k k' o, reqs_safe sched -> I t (mloc k) (mc_s k) -> m_run c sched k = Ok (k', o) -> I (t ++ o) (mloc k') (mc_s k').
Proof.
  intros Hl He sched t k k' o HS H E. refine (m_run_inv c (fun t k => I t (mloc k) (mc_s k)) sched _ t k k' o H E).
  clear - Hl He HS. intros t k a k' o Ha H E. destruct a as [|e]; cbn [m_act] in E.
  - destruct (mc_pc k) as [l|] eqn:P.
    + destruct (m_line c l (mc_s k)) as [[[l' s'] o']| |] eqn:EL; try discriminate. cbn [bind] in E. inversion E; subst.
      unfold mloc in H. rewrite P in H. exact (Hl _ _ _ _ _ _ H EL).
    + inversion E; subst. rewrite app_nil_r. unfold mloc in *. rewrite P in H. exact H.
  - destruct (m_event c e (mc_s k)) as [[s' o']| |] eqn:EE; try discriminate. cbn [bind] in E. inversion E; subst.
    assert (X := m_event_st _ _ _ _ _ EE). assert (SF : ev_safe e) by (destruct e; cbn; auto).
    specialize (He _ _ _ _ _ _ H SF EE). unfold mloc in *. cbn [mc_s mc_pc]. destruct (mc_pc k); auto.
    unfold m_dispatch in *. rewrite X. exact He.
Qed.

(** *** homomorphisms *)
Lemma accepted_app a b : accepted (a ++ b) = accepted a ++ accepted b.
Proof. induction a as [|x a IH]; [reflexivity|]. destruct x as [?|[]]; cbn [accepted app]; try destruct r; rewrite ?IH; reflexivity. Qed.
Lemma visible_app a b : visible (a ++ b) = visible a ++ visible b.
Proof. induction a as [|x a IH]; [reflexivity|]. destruct x as [?|[]]; cbn [visible app]; rewrite ?IH; reflexivity. Qed.
Lemma pdu_errors_app a b : pdu_errors (a ++ b) = (pdu_errors a + pdu_errors b)%nat.
Proof. induction a as [|x a IH]; [reflexivity|]. destruct x as [?|[]]; cbn [pdu_errors app]; try destruct r; rewrite ?IH; reflexivity. Qed.
Lemma finished_app a b : finished (a ++ b) = (finished a + finished b)%nat.
Proof. induction a as [|x a IH]; [reflexivity|]. destruct x as [?|[]]; cbn [finished app]; rewrite ?IH; reflexivity. Qed.
Lemma m_sent_app a b : m_sent (a ++ b) = m_sent a ++ m_sent b.
Proof. induction a as [|x a IH]; [reflexivity|]. destruct x as [?|[]]; cbn [m_sent app]; rewrite ?IH; reflexivity. Qed.
Lemma callbacks_app a b : callbacks (a ++ b) = callbacks a ++ callbacks b.
Proof. induction a as [|x a IH]; [reflexivity|]. destruct x as [?|[]]; cbn [callbacks app]; rewrite ?IH; reflexivity. Qed.
Lemma accepted_cbs l : accepted (map MTOut (map MoCb l)) = [].
Proof. induction l; auto. Qed.
Lemma visible_cbs l : visible (map MTOut (map MoCb l)) = map VCb l.
Proof. induction l; cbn; congruence. Qed.
Lemma pdu_errors_cbs l : pdu_errors (map MTOut (map MoCb l)) = 0%nat.
Proof. induction l; auto. Qed.
Lemma finished_cbs l : finished (map MTOut (map MoCb l)) = 0%nat.
Proof. induction l; auto. Qed.

(** *** the requests in the buffers *)
Definition is_msg (s : master) (i : nat) (a : api) : Prop :=
  exists m, nth_error (mm_msgs s) i = Some m /\ has_req m a /\ api_ok a /\ api_valid a = true.
Definition same_reqs (s s' : master) : Prop :=
  forall i m, nth_error (mm_msgs s) i = Some m -> exists m', nth_error (mm_msgs s') i = Some m' /\ m_req m' = m_req m.
Lemma same_reqs_is s s' i a : same_reqs s s' -> is_msg s i a -> is_msg s' i a.
Proof. intros H (m & N & A & B). destruct (H i m N) as (m' & N' & E). exists m'. unfold has_req in *. rewrite E. auto. Qed.
Lemma same_reqs_all s s' l as_ : same_reqs s s' -> Forall2 (is_msg s) l as_ -> Forall2 (is_msg s') l as_.
Proof. intros H F. induction F; constructor; auto. eapply same_reqs_is; eauto. Qed.
Lemma same_reqs_refl s s' : mm_msgs s' = mm_msgs s -> same_reqs s s'.
Proof. intros E i m N. rewrite E. eauto. Qed.
Lemma same_reqs_resp s l i m r : l = upd (mm_msgs s) i (set_resp m r) -> nth_error (mm_msgs s) i = Some m -> same_reqs s (m_set_msgs s l).
Proof.
  intros -> N j m' N'. mprj. destruct (Nat.eq_dec i j) as [->|D].
  - rewrite upd_nth_error_same by (apply nth_error_Some; congruence). eexists. split; [reflexivity|]. cbn. congruence.
  - rewrite upd_nth_error_other by auto. eauto.
Qed.
Lemma line_reqs c l s l' s' o : m_line c l s = Ok (l', s', o) -> same_reqs s s'.
Proof.
  intros E. destruct l; mline_inv E; try (apply same_reqs_refl; reflexivity); try (eapply same_reqs_resp; eauto).
Qed.
Lemma ev_reqs e s : same_reqs s (ev_state e s).
Proof.
  destruct e; cbn [ev_state]; try (apply same_reqs_refl; reflexivity).
  - unfold rx_put. destruct (mm_rx s) as [i|]; [|apply same_reqs_refl; reflexivity]. destruct (nth_error (mm_msgs s) i) as [m|] eqn:N; [|apply same_reqs_refl; reflexivity].
    eapply same_reqs_resp; eauto.
  - destruct (negb _); apply same_reqs_refl; reflexivity.
Qed.

(** *** the invariant *)
Definition k_ok (c : cfg) (l : mpc) (r : Z) (k : nat) : Prop :=
  match l with
  | M404 | M834 | M869 | M836 | M837 | M838 | M844 | M871 | M872 | M873 | M879 => Z.of_nat k = r
  | M900 | M901 => (1 <= k)%nat /\ Z.of_nat k <= 1 + c_repeat c
  | _ => Z.of_nat k = r + 1
  end.
Definition ended (l : mpc) : bool := match l with M900 | M901 => true | _ => false end.
Definition part (c : cfg) (l : mpc) (r : Z) (apis : list api) (v : list vis) : Prop :=
  if fly_line l
  then exists a rest k cbs, apis = a :: rest /\ v = sends a k ++ map VCb cbs /\ k_ok c l r k /\ (if ended l then outcome_of a cbs else cbs = [])
  else v = [].
Record minv (c : cfg) (free pend : list nat) (apis : list api) (eps : list episode) (v : list vis) (t : list mitem) (l : mpc) (s : master) : Prop := {
  iv_ctl : mctl c l s;
  iv_buf : mbuf c free pend l s;
  iv_req : Forall2 (is_msg s) (fly l s ++ pend) apis;
  iv_acc : accepted t = map e_api eps ++ apis;
  iv_vis : visible t = concat (map episode_trace eps) ++ v;
  iv_eps : Forall (episode_ok c) eps;
  iv_part : part c l (mm_rep s) apis v;
  iv_fin : finished t = length eps;
  iv_cnt : (length (fly l s) + length pend + length free + pdu_errors t)%nat = Z.to_nat (c_queue c) }.

Lemma comm_report_inv m e r : comm_report m e = Ok r -> r_err r = e.
Proof. unfold comm_report. destruct (rd _ _); try discriminate. cbn [bind]. destruct (rd _ _); try discriminate. cbn [bind]. intros H. inversion H. reflexivity. Qed.
Lemma timeout_report_char m a : msg_ok m -> has_req m a -> api_ok a -> api_valid a = true ->
  timeout_report m = Ok (mk_err (api_id a) (byte_at (rr_buf (m_resp m)) 1) (api_adr a) (api_field a) RESP_TIMEOUT_ERR).
Proof.
  intros [M1 M2] H A V. destruct (has_req_fields m a M1 H A V) as (F0 & F1 & F2 & F3).
  destruct M1 as (P & L & B & _). destruct M2 as (P' & L' & B' & _). unfold timeout_report, MODBUS_SLAVE_ADR_IDX, MODBUS_REQUEST_ADR_IDX, MODBUS_REQUEST_QTY_IDX, MODBUS_FUNCTION_CODE_IDX.
  rewrite rd_ok by (auto; rewrite L; lia). cbn [bind]. rewrite !read_u16_ok by (auto; rewrite ?L; lia). cbn [bind]. rewrite rd_ok by (auto; rewrite L'; lia). cbn [bind].
  unfold byte_at, word_at in *. cbn [Z.to_nat Pos.to_nat Pos.iter_op Nat.add] in *. rewrite <- F0, <- F2, <- F3. reflexivity.
Qed.

Definition eff (l : mpc) : bool := match l with M651 | M404 | M718 | M813 | M844 | M879 | M901 => true | _ => false end.
(** lines without visible effect *)
Lemma quiet_line c l s l' s' o : eff l = false -> m_line c l s = Ok (l', s', o) ->
  accepted (map MTOut o) = [] /\ visible (map MTOut o) = [] /\ finished (map MTOut o) = 0%nat /\ pdu_errors (map MTOut o) = 0%nat /\ mm_cur s' = mm_cur s.
Proof. intros F E. destruct l; try discriminate F; mline_inv E; repeat split; reflexivity. Qed.
Lemma quiet_next c l s l' s' o : eff l = false -> mctl c l s -> m_line c l s = Ok (l', s', o) ->
  fly_line (m_next l' s') = fly_line l /\ ended (m_next l' s') = ended l.
Proof.
  intros F K E. assert (BS := mc_st _ _ _ K). destruct l; try discriminate F; mline_inv E; cbn [m_next]; unfold m_dispatch; mprj; cbn [mst_ok] in BS; rewrite ?BS; auto.
Qed.
Lemma quiet_k c l s l' s' o k : cfg_master_ok c -> eff l = false -> fly_line l = true -> mctl c l s -> m_line c l s = Ok (l', s', o) ->
  k_ok c l (mm_rep s) k -> k_ok c (m_next l' s') (mm_rep s') k.
Proof.
  intros [_ HR] F Fl K E Hk. assert (BS := mc_st _ _ _ K). assert (BR := mc_rep _ _ _ K).
  destruct l; try discriminate F; try discriminate Fl; mline_inv E; cbn [m_next]; unfold m_dispatch; mprj; cbn [mst_ok rep_ok] in BS, BR; rewrite ?BS; cbn [k_ok] in *; auto;
  unfold u8; rewrite Z.mod_small by lia; lia.
Qed.

(** the four lines that make callbacks *)
Definition cb_line (l : mpc) : bool := match l with M718 | M813 | M844 | M879 => true | _ => false end.
Lemma fly_cur l s a rest ids : fly_line l = true -> Forall2 (is_msg s) (fly l s ++ ids) (a :: rest) -> mm_cur s <> None ->
  exists i, mm_cur s = Some i /\ is_msg s i a.
Proof.
  intros F H C. unfold fly in H. rewrite F in H. destruct (mm_cur s) as [i|]; [|congruence]. inversion H; subst. eauto.
Qed.
Lemma cb_line_out c l s l' s' o free pend i a : cb_line l = true -> mbuf c free pend l s -> mm_cur s = Some i -> is_msg s i a ->
  m_line c l s = Ok (l', s', o) -> exists cbs, o = map MoCb cbs /\ l' = Some M900 /\ s' = s /\ outcome_of a cbs.
Proof.
  intros F B C (m & N & H & A & V) E.
  assert (Hm : msg_ok m) by (eapply Forall_forall; [apply (mb_msgs _ _ _ _ _ B)|eapply nth_error_In; eauto]).
  destruct l; try discriminate F; cbn [m_line] in E; rewrite (proj2 (cur_msg_inv s i m) (conj C N)) in E; cbn [bind] in E.
  - rewrite (timeout_report_char m a) in E by auto. cbn [bind] in E. inversion E; subst.
    exists [TimeoutErr (mk_err (api_id a) (byte_at (rr_buf (m_resp m)) 1) (api_adr a) (api_field a) RESP_TIMEOUT_ERR)]. repeat split; auto. left. eexists. split; [reflexivity|]. repeat split.
  - assert (R := read_resp_char m a Hm H A V). destruct (delivered a (rr_buf (m_resp m))) as [l|] eqn:D.
    + destruct R as (st & R). rewrite R in E. cbn [bind] in E. inversion E; subst. exists l. repeat split; auto. right. right. eauto.
    + rewrite R in E. discriminate.
  - destruct (comm_report m RESP_RTU_CRC_ERR) as [r| |] eqn:R; try discriminate. cbn [bind] in E. inversion E; subst.
    exists [CommErr r]. repeat split; auto. right. left. exists r. split; auto. left. apply comm_report_inv in R. exact R.
  - destruct (comm_report m RESP_FRAME_ERR) as [r| |] eqn:R; try discriminate. cbn [bind] in E. inversion E; subst.
    exists [CommErr r]. repeat split; auto. right. left. exists r. split; auto. right. apply comm_report_inv in R. exact R.
Qed.

Lemma minv_line c free pend apis eps v t l s l' s' o : cfg_master_ok c -> minv c free pend apis eps v t l s -> m_line c l s = Ok (l', s', o) ->
  exists apis' eps' v', minv c (free_after l s free) (pend_after l pend) apis' eps' v' (t ++ map MTOut o) (m_next l' s') s'.
Proof.
  intros Hc [K B Rq Ac Vi Ep Pa Fi Cn] E.
  assert (K' := mctl_line _ _ _ _ _ _ Hc K E). assert (B' := mbuf_line _ _ _ _ _ _ _ _ Hc K B E).
  assert (SR := line_reqs _ _ _ _ _ _ E).
  destruct (cb_line l) eqn:CL; [|destruct (eff l) eqn:F].
  - assert (Fl : fly_line l = true) by (destruct l; try discriminate CL; auto).
    unfold part in Pa. rewrite Fl in Pa. assert (En : ended l = false) by (destruct l; try discriminate CL; auto). rewrite En in Pa.
    destruct Pa as (a & rest & k & cbs & -> & -> & Hk & ->).
    destruct (fly_cur _ _ _ _ _ Fl Rq) as (i & C & Im). { apply (mb_cur _ _ _ _ _ B Fl). }
    destruct (cb_line_out _ _ _ _ _ _ _ _ _ _ CL B C Im E) as (cbs & -> & -> & -> & Out). cbn [m_next] in *.
    assert (X : free_after l s free = free /\ pend_after l pend = pend) by (destruct l; try discriminate CL; auto). destruct X as [X1 X2]; rewrite X1, X2 in *; clear X1 X2.
    assert (X : fly M900 s = fly l s) by (unfold fly; rewrite Fl; reflexivity).
    exists (a :: rest), eps, (sends a k ++ map VCb cbs). split; auto.
    + rewrite X. auto.
    + rewrite accepted_app, accepted_cbs, app_nil_r. auto.
    + rewrite visible_app, visible_cbs, Vi. cbn [map]. rewrite app_nil_r, app_assoc. reflexivity.
    + unfold part. cbn [fly_line ended]. exists a, rest, k, cbs. repeat (split; auto); assert (BR := mc_rep _ _ _ K); destruct Hc; destruct l; try discriminate CL; cbn [rep_ok k_ok] in *; lia.
    + rewrite finished_app, finished_cbs. lia.
    + rewrite pdu_errors_app, pdu_errors_cbs, X. lia.
  - destruct l; try discriminate F; try discriminate CL; clear F CL.
    + (* M651 *) destruct pend as [|i pend]; [destruct (mb_651 _ _ _ _ _ B eq_refl eq_refl)|]. cbn [m_line] in E.
      destruct (pop_cons _ _ _ _ (mb_pend _ _ _ _ _ B)) as (q & P & R). rewrite P in E. cbn [bind] in E. inversion E; subst. cbn [m_next free_after pend_after tl map] in *.
      unfold fly in *; cbn [fly_line app] in *. inversion Rq as [|? a ? apis' R1 R2]; subst.
      exists (a :: apis'), eps, []. rewrite app_nil_r. unfold part in Pa. cbn [fly_line] in Pa. subst v. split; auto.
      * unfold part. cbn [fly_line ended]. exists a, apis', 0%nat, []. mprj. repeat split; auto. assert (X := mc_rep _ _ _ K). cbn in X. cbn. lia.
    + (* M404 *) mline_inv E. cbn [m_next free_after pend_after map] in *. unfold part in Pa. cbn [fly_line ended] in Pa.
      destruct Pa as (a & rest & k & cbs & -> & -> & Hk & ->). exists (a :: rest), eps, (sends a (S k)).
      assert (FX : fly M404 s' = [n]) by (unfold fly; cbn [fly_line]; rewrite H; reflexivity).
      assert (Fr : firstn (Z.to_nat (rr_len (m_req m))) (rr_buf (m_req m)) = request_frame a).
      { rewrite FX in Rq. inversion Rq as [|? ? ? ? R1 R2]; subst. destruct R1 as (m' & N & R1 & _). rewrite N in H0. inversion H0; subst. exact R1. }
      rewrite Fr. split; auto.
      * rewrite accepted_app. cbn [accepted]. now rewrite app_nil_r.
      * rewrite visible_app, Vi, <- app_assoc. f_equal. cbn [visible map]. rewrite app_nil_r. unfold sends. cbn [repeat]. now rewrite repeat_cons.
      * unfold part. cbn [fly_line ended]. exists a, rest, (S k), []. cbn [k_ok map] in *. rewrite app_nil_r. repeat split; auto. lia.
      * rewrite finished_app. cbn. lia.
      * rewrite pdu_errors_app. unfold fly in *. cbn [fly_line] in *. cbn [pdu_errors]. lia.
    + (* M901 *) unfold part in Pa. cbn [fly_line ended k_ok] in Pa. destruct Pa as (a & rest & k & cbs & -> & -> & Hk & Out).
      destruct (fly_cur M901 _ _ _ _ eq_refl Rq) as (i & C & Im). { apply (mb_cur _ _ _ _ _ B eq_refl). }
      mline_inv E. cbn [m_next free_after pend_after map] in *.
      unfold fly in *; cbn [fly_line app] in *. rewrite C in *. cbn [app] in *. inversion Rq; subst.
      exists rest, (eps ++ [mk_episode a k cbs]), []. split; auto.
      * rewrite accepted_app, Ac. cbn [accepted]. rewrite app_nil_r, map_app, <- app_assoc. reflexivity.
      * rewrite visible_app, Vi, map_app, concat_app. cbn [map concat visible episode_trace e_api e_sends e_cbs]. rewrite !app_nil_r, <- !app_assoc. reflexivity.
      * apply Forall_app. split; auto. constructor; auto. destruct Hk. split; auto.
      * unfold part. reflexivity.
      * rewrite finished_app, app_length. cbn. lia.
      * rewrite pdu_errors_app, app_length. unfold fly. cbn [fly_line length pdu_errors] in *. lia.
  - destruct (quiet_line _ _ _ _ _ _ F E) as (Q1 & Q2 & Q3 & Q4 & Q5). destruct (quiet_next _ _ _ _ _ _ F K E) as (Q6 & Q7).
    assert (X : free_after l s free = free /\ pend_after l pend = pend) by (destruct l; try discriminate F; auto). destruct X as [X1 X2]; rewrite X1, X2 in *; clear X1 X2.
    assert (X : fly (m_next l' s') s' = fly l s) by (unfold fly; rewrite Q5, Q6; reflexivity).
    exists apis, eps, v. split; auto.
    + rewrite X. eapply same_reqs_all; eauto.
    + rewrite accepted_app, Q1, app_nil_r. auto.
    + rewrite visible_app, Q2, app_nil_r. auto.
    + unfold part in *. rewrite Q6, Q7. destruct (fly_line l) eqn:Fl; auto. destruct Pa as (a & rest & k & cbs & P1 & P2 & P3 & P4).
      exists a, rest, k, cbs. repeat (split; auto). eapply quiet_k; eauto.
    + rewrite finished_app, Q3. lia.
    + rewrite pdu_errors_app, Q4, X. lia.
Qed.

(** a request call *)
Lemma mline_app_req a r t : accepted (t ++ [MTEv (MReq a); MTOut (MoRet a r)]) = accepted t ++ (if match r with REQUEST_SEND_TO_QUEUE => true | _ => false end then [a] else []) /\
  visible (t ++ [MTEv (MReq a); MTOut (MoRet a r)]) = visible t /\ finished (t ++ [MTEv (MReq a); MTOut (MoRet a r)]) = finished t /\
  pdu_errors (t ++ [MTEv (MReq a); MTOut (MoRet a r)]) = (pdu_errors t + if match r with LIB_PDU_REQ_ERROR => true | _ => false end then 1 else 0)%nat.
Proof. rewrite accepted_app, visible_app, finished_app, pdu_errors_app. destruct r; cbn; rewrite ?app_nil_r; repeat split; lia. Qed.
Lemma req_keeps c a free pend l s s' r free' pend' : req_result c a free pend l s s' r free' pend' -> mbuf c free pend l s ->
  forall i, In i (fly l s ++ pend) -> nth_error (mm_msgs s') i = nth_error (mm_msgs s) i.
Proof.
  intros Q B i Hi. assert (ND := mb_nd _ _ _ _ _ B). destruct Q as [Q|j free' q Q|j free' q q2 m m' Q V N R M F]; mprj; auto.
  subst free. apply upd_nth_error_other. intros ->. rewrite app_assoc in ND. apply NoDup_remove_2 in ND. apply ND. apply in_or_app. auto.
Qed.
Lemma keeps_all s s' l as_ : (forall i, In i l -> nth_error (mm_msgs s') i = nth_error (mm_msgs s) i) -> Forall2 (is_msg s) l as_ -> Forall2 (is_msg s') l as_.
Proof.
  intros H F. induction F; constructor.
  - destruct H0 as (m & N & X). exists m. rewrite H by (left; auto). auto.
  - apply IHF. intros. apply H. right; auto.
Qed.
Lemma req_fly c a free pend l s s' r free' pend' : req_result c a free pend l s s' r free' pend' -> fly l s' = fly l s /\ mm_rep s' = mm_rep s.
Proof. intros []; auto. Qed.
Lemma minv_event c free pend apis eps v t l s e s' o : cfg_master_ok c -> ev_safe e -> minv c free pend apis eps v t l s -> m_event c e s = Ok (s', o) ->
  exists free' pend' apis', minv c free' pend' apis' eps v (t ++ MTEv e :: map MTOut o) l s'.
Proof.
  intros Hc Hs [K B Rq Ac Vi Ep Pa Fi Cn] E. destruct (is_req e) eqn:IR.
  - destruct e; try discriminate IR. cbn [ev_safe] in Hs. destruct (req_event c a free pend l s Hc B Hs) as (s2 & r & free' & pend' & E2 & Q & B').
    rewrite E in E2. inversion E2; subst s2 o. clear E2. cbn [map].
    assert (K' := req_ctl _ _ _ _ _ _ _ _ _ _ Q K). destruct (req_fly _ _ _ _ _ _ _ _ _ _ Q) as [Fl Rp].
    assert (KA := keeps_all _ _ _ _ (req_keeps _ _ _ _ _ _ _ _ _ _ Q B) Rq). rewrite <- Fl in KA.
    destruct (mline_app_req a r t) as (M1 & M2 & M3 & M4).
    assert (PA : forall x, part c l (mm_rep s') (apis ++ x) v).
    { intros x. unfold part in *. rewrite Rp. destruct (fly_line l); auto. destruct Pa as (b & rest & k & cbs & -> & P). exists b, (rest ++ x), k, cbs. split; auto. }
    destruct Q as [Q|j free' q Q V|j free' q q2 m m' Q V N R M F].
    + exists free, pend, apis. split; auto; try congruence.
      * rewrite M1, app_nil_r. auto.
      * rewrite M4. lia.
    + exists free', pend, apis. split; auto; try congruence.
      * rewrite M1, app_nil_r. auto.
      * rewrite M4, Fl. subst free. cbn [length] in Cn. lia.
    + exists free', (pend ++ [j]), (apis ++ [a]). split; auto; try congruence.
      * rewrite app_assoc. apply Forall2_app; auto. constructor; [|constructor].
        exists m'. mprj. rewrite upd_nth_error_same by (apply nth_error_Some; congruence). repeat (split; auto); apply req_safe_ok; auto.
      * rewrite M1, Ac, app_assoc. reflexivity.
      * rewrite M4, Fl, app_length. subst free. cbn [length] in *. lia.
  - rewrite (event_char c e free pend l s IR (mc_sub _ _ _ K) B) in E. inversion E; subst s' o. cbn [map].
    exists free, pend, apis. assert (X : fly l (ev_state e s) = fly l s /\ mm_rep (ev_state e s) = mm_rep s).
    { unfold fly. destruct e; cbn [ev_state]; auto; [rxp; auto|destruct (negb _); auto]. }
    destruct X as [X1 X2]. split; auto.
    + apply mctl_ev; auto.
    + apply mbuf_ev; auto.
    + rewrite X1. eapply same_reqs_all; [|eauto]. apply ev_reqs.
    + rewrite accepted_app. destruct e; cbn; rewrite app_nil_r; auto.
    + rewrite visible_app. destruct e; cbn; rewrite app_nil_r; auto.
    + rewrite X2. auto.
    + rewrite finished_app. destruct e; cbn; lia.
    + rewrite pdu_errors_app, X1. destruct e; cbn; lia.
Qed.
Definition Minv (c : cfg) (t : list mitem) (l : mpc) (s : master) : Prop := exists free pend apis eps v, minv c free pend apis eps v t l s.
Lemma Minv_run c sched t k k' o : cfg_master_ok c -> reqs_safe sched -> Minv c t (mloc k) (mc_s k) -> m_run c sched k = Ok (k', o) ->
  Minv c (t ++ o) (mloc k') (mc_s k').
Proof.
  intros Hc HS H E. refine (m_abs_inv c (Minv c) _ _ sched t k k' o HS H E).
  - clear - Hc. intros t l s l' s' o (free & pend & apis & eps & v & I) E. destruct (minv_line _ _ _ _ _ _ _ _ _ _ _ _ Hc I E) as (? & ? & ? & I'). unfold Minv. eauto 10.
  - clear - Hc. intros t l s e s' o (free & pend & apis & eps & v & I) X E. destruct (minv_event _ _ _ _ _ _ _ _ _ _ _ _ Hc X I E) as (? & ? & ? & I'). unfold Minv. eauto 10.
Qed.
