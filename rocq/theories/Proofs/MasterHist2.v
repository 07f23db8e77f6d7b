(** What the invariants say about the histories of an initialised master. *)
From Verif Require Export Proofs.MasterHist.

Lemma history_cinv c sched k t : cfg_master_ok c -> m_history c sched k t -> cinv c t (mloc k) (mc_s k).
Proof.
  intros Hc (s & (s0 & Hm & E0) & HS & E). refine (m_abs_inv c (cinv c) _ _ sched [] _ _ _ HS _ E).
  - intros. eapply cinv_line; eauto.
  - intros. eapply cinv_event; eauto.
  - eapply cinv_start; eauto.
Qed.
Lemma history_hist c sched k t (Q : list mitem -> mitem -> Prop) : cfg_master_ok c -> m_history c sched k t ->
  (forall t l s l' s' o, cinv c t l s -> m_line c l s = Ok (l', s', o) -> forall o1 x o2, o = o1 ++ x :: o2 -> Q (t ++ map MTOut o1) (MTOut x)) ->
  (forall t l s e, cinv c t l s -> Q t (MTEv e)) ->
  (forall t l s a r, cinv c t l s -> Q (t ++ [MTEv (MReq a)]) (MTOut (MoRet a r))) -> hist Q t.
Proof.
  intros Hc (s & (s0 & Hm & E0) & HS & E) H1 H2 H3. destruct (hist_run c (cinv c) Q) with (sched := sched) (t := @nil mitem) (k := mk_mconf s None) (k' := k) (o := t) as [A _]; auto.
  - intros. eapply cinv_line; eauto.
  - intros. eapply cinv_event; eauto.
  - eapply cinv_start; eauto.
  - intros t1 x t2 X. destruct t1; discriminate.
Qed.
Lemma one {A} (x y : A) o1 o2 : [x] = o1 ++ y :: o2 -> o1 = [] /\ y = x.
Proof. destruct o1 as [|? [|]]; cbn; intros H; inversion H; auto. Qed.

(** sent frames *)
Lemma hist_send c sched k t : cfg_master_ok c -> m_history c sched k t -> hist (fun t1 x => forall f, x = MTOut (MoSend f) -> exists a, current t1 = Some a /\ f = request_frame a) t.
Proof.
  intros Hc H. eapply history_hist; eauto; try discriminate. clear.
  intros t l s l' s' o I E o1 x o2 Eo f Ex. inversion Ex; subst x. 
  destruct l; try (revert Eo; mline_inv E; intros Eo; try (destruct o1; discriminate); apply one in Eo as [_ Eo]; discriminate).
  - cbn [m_line] in E. destruct (Minv_current _ _ _ _ (ci_inv _ _ _ _ I) eq_refl) as (i & a & m & C & Cu & N & Hm & H & A & V).
    rewrite (proj2 (cur_msg_inv _ _ _) (conj C N)) in E. cbn [bind] in E. rewrite (mc_drv _ _ _ (Minv_ctl _ _ _ _ (ci_inv _ _ _ _ I))) in E. revert Eo; inversion E; subst; intros Eo. apply one in Eo as [-> Eo]. inversion Eo; subst.
    exists a. cbn [map]. rewrite app_nil_r. auto.
  - revert Eo; mline_inv E; intros Eo. exfalso. clear - Eo. revert o1 Eo. induction l; intros [|? o1]; cbn; intros H; inversion H. eauto.
Qed.
(** frames handed to the check *)
Lemma hist_check c sched k t : cfg_master_ok c -> m_history c sched k t -> hist (fun t1 x => forall g, x = MTOut (MoCheck g) -> g = m_buffered (m_received t1)) t.
Proof.
  intros Hc H. eapply history_hist; eauto; try discriminate. clear.
  intros t l s l' s' o I E o1 x o2 Eo f Ex. inversion Ex; subst x. 
  destruct l; try (revert Eo; mline_inv E; intros Eo; try (destruct o1; discriminate); apply one in Eo as [_ Eo]; discriminate).
  - destruct (ci_rx _ _ _ _ I eq_refl) as (i & m & C & N & [R1 R2]). revert Eo; mline_inv E; intros Eo. apply one in Eo as [-> Eo]. inversion Eo; subst. cbn [map]. rewrite app_nil_r.
    assert (X : m0 = m) by congruence. subst m0. exact R2.
  - revert Eo; mline_inv E; intros Eo. exfalso. clear - Eo. revert o1 Eo. induction l; intros [|? o1]; cbn; intros H; inversion H. eauto.
Qed.
Lemma part_cbs l o1 x o2 : map MoCb l = o1 ++ x :: o2 -> exists y, x = MoCb y /\ In y l /\ exists l1, o1 = map MoCb l1.
Proof.
  intros H. destruct (map_eq_app _ _ _ _ H) as (a1 & b1 & -> & <- & E3). destruct b1 as [|y b1]; [discriminate|]. cbn [map] in E3. inversion E3; subst. exists y. split; auto. split; eauto. apply in_or_app. right. left. auto.
Qed.
(** callbacks *)
Lemma hist_cb c sched k t : cfg_master_ok c -> m_history c sched k t -> hist (fun t1 x => forall y, x = MTOut (MoCb y) ->
  exists a, current t1 = Some a /\ tx_complete t1 = true /\
    (is_response y -> (exists g, m_checked t1 = Some g /\ intact (api_id a) g) /\ m_t35_after t1 = true /\ m_started_clean t1 = true)) t.
Proof.
  intros Hc H. eapply history_hist; eauto; try discriminate. clear.
  intros t l s l' s' o I E o1 x o2 Eo y Ex. inversion Ex; subst x. clear Ex.
  assert (F : cb_line l = true) by (destruct l; try reflexivity; revert Eo; mline_inv E; intros Eo; try (destruct o1; discriminate); apply one in Eo as [_ Eo]; discriminate).
  assert (Fl : fly_line l = true) by (destruct l; try discriminate F; auto).
  destruct (Minv_current _ _ _ _ (ci_inv _ _ _ _ I) Fl) as (i & a & m & C & Cu & N & Hm & H & A & V).
  assert (X : exists l1, o1 = map MoCb l1 /\ (is_response y -> l = M813)).
  { destruct (ci_inv _ _ _ _ I) as (free & pend & apis & eps & v & I'). 
    destruct l; try discriminate F; revert Eo; mline_inv E; intros Eo; try (apply one in Eo as [-> Eo]; inversion Eo; subst; exists []; split; [reflexivity|]; cbn [is_response]; contradiction).
    destruct (part_cbs _ _ _ _ Eo) as (y' & Ey & _ & l1 & ->). exists l1. split; auto. }
  destruct X as (l1 & -> & X). destruct (cbs_folds t l1) as (C1 & C2 & C3 & C4 & C5 & C6). exists a. rewrite C1, C2, C3, C4.
  split. { apply current_app; auto. apply finished_cbs. }
  assert (Tx := ci_tx _ _ _ _ I). assert (Ch := ci_chk _ _ _ _ I a Cu). split.
  - destruct l; try discriminate F; exact Tx.
  - intros R. rewrite (X R) in Ch. exact Ch.
Qed.

(** transmissions in order *)
Lemma sent_visible t : m_sent t = flat_map (fun x => match x with VSend f => [f] | _ => [] end) (visible t).
Proof. induction t as [|x t IH]; [reflexivity|]. destruct x as [?|[]]; cbn; rewrite ?IH; auto. Qed.
Lemma sent_sends a k : flat_map (fun x => match x with VSend f => [f] | _ => [] end) (sends a k) = repeat (request_frame a) k.
Proof. unfold sends. induction k as [|k IH]; [reflexivity|]. cbn [repeat flat_map app]. now rewrite IH. Qed.
Lemma sent_vcbs l : flat_map (fun x => match x with VSend f => [f] | _ => [] end) (map VCb l) = [].
Proof. induction l; auto. Qed.
Lemma sent_eps eps : flat_map (fun x => match x with VSend f => [f] | _ => [] end) (concat (map episode_trace eps)) =
  flat_map (fun p => repeat (request_frame (fst p)) (snd p)) (map (fun e => (e_api e, e_sends e)) eps).
Proof.
  induction eps as [|e eps IH]; [reflexivity|]. cbn [map concat flat_map fst snd]. rewrite flat_map_app, IH. f_equal.
  unfold episode_trace. rewrite !flat_map_app, sent_sends, sent_vcbs. cbn. now rewrite app_nil_r.
Qed.
Definition sends_of (k_ : nat) (a : api) : list (api * nat) := match k_ with O => [] | _ => [(a, k_)] end.
Lemma part_k c l r apis v : cfg_master_ok c -> rep_ok c l r -> part c l r apis v -> 
  v = [] \/ exists a rest k cbs, apis = a :: rest /\ (1 <= k)%nat /\ Z.of_nat k <= 1 + c_repeat c /\ v = sends a k ++ map VCb cbs /\ (cbs = [] \/ outcome_of a cbs).
Proof.
  intros [_ HR] R P. unfold part in P. destruct (fly_line l) eqn:F; auto. destruct P as (a & rest & k & cbs & -> & -> & Hk & Hc).
  destruct (Nat.eq_dec k 0) as [->|D].
  - left. destruct (ended l) eqn:E; [destruct l; try discriminate E; cbn in Hk; lia|]. subst cbs. reflexivity.
  - right. exists a, rest, k, cbs. split; auto. split; [lia|]. split; [destruct l; try discriminate F; cbn [rep_ok k_ok] in *; lia|]. split; auto. destruct (ended l); auto.
Qed.
Lemma history_episodes c sched k t : cfg_master_ok c -> m_history c sched k t ->
  exists eps v rest, visible t = concat (map episode_trace eps) ++ v /\ Forall (episode_ok c) eps /\ accepted t = map e_api eps ++ rest /\ finished t = length eps /\
    (v = [] \/ exists a rest' k cbs, rest = a :: rest' /\ (1 <= k)%nat /\ Z.of_nat k <= 1 + c_repeat c /\ v = sends a k ++ map VCb cbs /\ (cbs = [] \/ outcome_of a cbs)).
Proof.
  intros Hc H. destruct (ci_inv _ _ _ _ (history_cinv _ _ _ _ Hc H)) as (free & pend & apis & eps & v & [K B Rq Ac Vi Ep Pa Fi Cn]).
  exists eps, v, apis. repeat (split; auto). eapply part_k; eauto. apply (mc_rep _ _ _ K).
Qed.
Lemma fly_in_flight k : fly (mloc k) (mc_s k) = in_flight k.
Proof. unfold fly, in_flight, busy, mloc, m_dispatch. destruct (mc_pc k) as [[]|]; try reflexivity. destruct (mm_st (mc_s k)); reflexivity. Qed.
Lemma line_accepted c l s l' s' o : m_line c l s = Ok (l', s', o) -> accepted (map MTOut o) = [] /\ pdu_errors (map MTOut o) = 0%nat.
Proof. intros E. destruct l; mline_inv E; auto. split; [apply accepted_cbs|apply pdu_errors_cbs]. Qed.
(** once every buffer is lost nothing is accepted any more *)
Lemma starved c sched t k k' o : cfg_master_ok c -> reqs_safe sched -> cinv c t (mloc k) (mc_s k) -> pdu_errors t = Z.to_nat (c_queue c) ->
  m_run c sched k = Ok (k', o) -> accepted o = [].
Proof.
  intros Hc HS I P E.
  assert (X : cinv c (t ++ o) (mloc k') (mc_s k') /\ (Z.to_nat (c_queue c) <= pdu_errors (t ++ o))%nat /\ accepted (t ++ o) = accepted t).
  { refine (m_abs_inv c (fun u l s => cinv c u l s /\ (Z.to_nat (c_queue c) <= pdu_errors u)%nat /\ accepted u = accepted t) _ _ sched t k k' o HS _ E).
    - intros u l s l' s' o' (J & L & A) EL. split; [eapply cinv_line; eauto|]. destruct (line_accepted _ _ _ _ _ _ EL) as [A1 A2]. rewrite pdu_errors_app, accepted_app, A1, A2, app_nil_r. split; auto. lia.
    - intros u l s e s' o' (J & L & A) SF EE. split; [eapply cinv_event; eauto|]. 
      destruct (ci_inv _ _ _ _ J) as (free & pend & apis & eps & v & M). assert (Cn := iv_cnt _ _ _ _ _ _ _ _ _ M). assert (B := iv_buf _ _ _ _ _ _ _ _ _ M).
      destruct free as [|? free]; [|cbn in Cn; lia]. destruct (is_req e) eqn:IR.
      + destruct e; try discriminate IR. destruct (req_event c a [] pend _ _ Hc B SF) as (s2 & r & f' & p' & E2 & Q & _). rewrite EE in E2. inversion E2; subst s2 o'.
        destruct (mline_app_req a r u) as (M1 & _ & _ & M4). cbn [map]. rewrite M1, M4. destruct Q; try discriminate. rewrite app_nil_r. split; auto. lia.
      + rewrite (event_char c e [] pend l s IR) in EE; [|apply (mc_sub _ _ _ (Minv_ctl _ _ _ _ (ci_inv _ _ _ _ J)))|exact B]. inversion EE; subst. cbn [map].
        rewrite pdu_errors_app, accepted_app. destruct e; try discriminate IR; cbn; rewrite app_nil_r; split; auto; lia.
    - split; auto. split; auto. lia. }
  destruct X as (_ & _ & X). rewrite accepted_app in X. rewrite <- (app_nil_r (accepted t)) in X at 2. apply app_inv_head in X. exact X.
Qed.
