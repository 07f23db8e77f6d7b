(** C104: the conclusions. *)
From Verif Require Export Proofs.MasterHandlers.
From Verif Require Import Proofs.MasterInv Proofs.MasterWire Proofs.MasterListen.

(** *** conditions on a schedule hold of the schedule with indivisible handlers *)
Lemma act_of_usart y h : In WUsart (act_of y h) -> y = HUsart.
Proof.
  destruct y; cbn [act_of]; repeat match goal with |- context [match ?x with _ => _ end] => destruct x eqn:? end; cbn [In]; intros H; try tauto; try (destruct H as [H|[]]; try discriminate H; auto).
  subst x. discriminate.
Qed.
Lemma act_of_rx y h b : In (WRx b) (act_of y h) -> y = HHw (WRx b).
Proof.
  destruct y; cbn [act_of]; repeat match goal with |- context [match ?x with _ => _ end] => destruct x eqn:? end; cbn [In]; intros H; try tauto; try (destruct H as [H|[]]; try discriminate H; auto).
  now subst x.
Qed.
Lemma act_of_req y h a : In (WReq a) (act_of y h) -> y = HReq a.
Proof.
  destruct y; cbn [act_of]; repeat match goal with |- context [match ?x with _ => _ end] => destruct x eqn:? end; cbn [In]; intros H; try tauto; try (destruct H as [H|[]]; try discriminate H; auto).
  - now inversion H.
  - subst x. discriminate.
Qed.
Lemma act_of_rto y h : In WRto (act_of y h) -> y = HHw WRto.
Proof.
  destruct y; cbn [act_of]; repeat match goal with |- context [match ?x with _ => _ end] => destruct x eqn:? end; cbn [In]; intros H; try tauto; try (destruct H as [H|[]]; try discriminate H; auto).
  now subst x.
Qed.
Section Cond.
Context (c : cfg) (h0 : hfw) (fs : list hact) (ws : list wact) (A : allwit c h0 fs ws).
Lemma fine_undisturbed : h_send_undisturbed c h0 fs -> m_send_undisturbed c (h_fw h0) ws.
Proof.
  intros H l1 x l2 w1 t1 E R Q. destruct (A _ _ _ _ _ E R) as ((f1 & y & f2 & h1 & u1 & X1 & X2 & X3 & (X4 & _)) & _). subst x. pose proof (act_of_usart _ _ X3). subst y.
  rewrite <- X4. exact (H f1 HUsart f2 h1 u1 X1 X2 eq_refl).
Qed.
Lemma fine_listens : h_no_early_rx c h0 fs -> no_early_rx c (h_fw h0) ws.
Proof.
  intros H l1 x l2 w1 t1 E R b Q. destruct (A _ _ _ _ _ E R) as ((f1 & y & f2 & h1 & u1 & X1 & X2 & X3 & (_ & X5)) & _). subst x. pose proof (act_of_rx _ _ _ X3). subst y.
  rewrite <- X5. exact (H f1 _ f2 h1 u1 X1 X2 b eq_refl).
Qed.
Lemma fine_polite : h_polite c h0 fs -> w_polite c (h_fw h0) ws.
Proof.
  intros H l1 x l2 w1 t1 E R. destruct (A _ _ _ _ _ E R) as (_ & (f1 & f2 & h1 & u1 & X1 & X2 & X3)). rewrite <- X3. exact (H f1 f2 h1 u1 X1 X2).
Qed.
End Cond.
Section Cond2.
Context (c : cfg) (h0 : hfw) (fs : list hact).
Lemma allwit_in_ws ws w t x : allwit c h0 fs ws -> w_run c ws (h_fw h0) = Ok (w, t) -> In x ws -> exists w1, wit c h0 fs x w1.
Proof.
  intros A R I. apply in_split in I as (l1 & l2 & ->). assert (R' := R). rewrite w_run_app in R'. destruct (w_run c l1 (h_fw h0)) as [[w1 t1]| |] eqn:R1; try discriminate R'.
  exists w1. exact (proj1 (A l1 x l2 w1 t1 eq_refl R1)).
Qed.
Lemma wit_req a w : wit c h0 fs (WReq a) w -> In (HReq a) fs.
Proof. intros (f1 & y & f2 & h1 & u1 & -> & _ & I & _). apply act_of_req in I as ->. apply in_or_app. right. now left. Qed.
Lemma fine_reqs ws w t : h_reqs_safe fs -> allwit c h0 fs ws -> w_run c ws (h_fw h0) = Ok (w, t) -> w_reqs_safe ws.
Proof. intros H A R a I. destruct (allwit_in_ws ws w t (WReq a) A R I) as (w1 & W). apply H. eapply wit_req; eauto. Qed.
Lemma fine_reqs_next l0 x w t : h_reqs_safe fs -> allwit c h0 fs (l0 ++ [x]) -> w_run c l0 (h_fw h0) = Ok (w, t) -> w_reqs_safe (l0 ++ [x]).
Proof.
  intros H A R a I. apply in_app_or in I as [I|[I|[]]].
  - refine (fine_reqs l0 w t H _ R a I). intros l1 y l2 w1 t1 -> E. apply (A l1 y (l2 ++ [x])); auto. now rewrite <- app_assoc.
  - subst x. apply H. eapply wit_req. exact (proj1 (A l0 _ [] w t eq_refl R)).
Qed.
Lemma started_side : hfw_started c h0 -> side h0 /\ h_irq h0 = None.
Proof. intros (_ & A & B & C & (D & _)). split; auto. split; [|now rewrite B]. intros [E|E]; [auto|congruence]. Qed.
(** the run with indivisible handlers *)
Lemma handlers h t : hfw_started c h0 -> cr1_undisturbed c h0 fs -> h_run c fs h0 = Ok (h, t) -> h_irq h = None ->
  exists ws t', w_run c ws (h_fw h0) = Ok (h_fw h, t') /\ m_lib_of t' = m_lib_of t /\ m_on_line t' = m_on_line t /\ moved (acts_of c fs h0) ws /\ allwit c h0 fs ws.
Proof.
  intros HS CR R Q. destruct (started_side HS) as (S1 & S2). pose proof (sim c h0 fs S1 S2 CR) as X. rewrite R in X. destruct X as (I & _).
  destruct I as [ws t' _ R' L O M A|]; [|congruence]. exists ws, t'. auto.
Qed.
Lemma no_ub : cfg_master_ok c -> hfw_started c h0 -> cr1_undisturbed c h0 fs -> h_reqs_safe fs -> h_send_undisturbed c h0 fs -> h_no_early_rx c h0 fs -> h_polite c h0 fs ->
  exists h t, h_run c fs h0 = Ok (h, t).
Proof.
  intros Hc HS CR HR HU HN HP. destruct (started_side HS) as (S1 & S2). pose proof (sim c h0 fs S1 S2 CR) as X.
  assert (F : forall r, fails c h0 fs r -> exists w t, r = Ok (w, t)).
  { intros r (l0 & x & w1 & t1 & R & E & A). destruct (w_run_total c (h_fw h0) Hc (proj1 HS) (l0 ++ [x])) as (w2 & t2 & R2).
    - eapply fine_reqs_next; eauto.
    - eapply fine_undisturbed; eauto.
    - eapply fine_listens; eauto.
    - exact (fine_polite _ _ _ _ A HP).
    - rewrite w_run_app, R in R2. cbn [bind w_run] in R2. rewrite E in R2. destruct r as [[w t]| |]; [eauto|discriminate R2..]. }
  destruct (h_run c fs h0) as [[h t]| |]; [eauto|destruct (F _ X) as (? & ? & ?); discriminate..].
Qed.
End Cond2.
Lemma always_prefix c h a b (P : hact -> hfw -> list witem -> Prop) : h_always c h (a ++ b) P -> h_always c h a P.
Proof. intros H l1 x l2 h1 t1 -> E. apply (H l1 x (l2 ++ b)); auto. now rewrite <- app_assoc. Qed.
Lemma polite_prefix c h a b : h_polite c h (a ++ b) -> h_polite c h a.
Proof. intros H l1 l2 h1 t -> E. apply (H l1 (l2 ++ b) h1 t); auto. now rewrite app_assoc. Qed.
Lemma h_safe_prefix a b : h_reqs_safe (a ++ b) -> h_reqs_safe a.
Proof. intros H x I. apply H, in_or_app. auto. Qed.
Lemma always_steps c h a n (P : hact -> hfw -> list witem -> Prop) : (forall h1 t1, P HStep h1 t1) -> h_always c h a P -> h_always c h (a ++ repeat HStep n) P.
Proof.
  intros T H. induction n as [|n IH]; [now rewrite app_nil_r|]. replace (repeat HStep (S n)) with (repeat HStep n ++ [HStep]) by (rewrite <- repeat_cons; reflexivity).
  rewrite app_assoc. set (l := a ++ repeat HStep n) in *. intros l1 x l2 h1 t1 E R. destruct l2 as [|y l2] using rev_ind.
  - apply app_inj_tail in E as (-> & <-). auto.
  - clear IHl2. rewrite app_comm_cons, app_assoc in E. apply app_inj_tail in E as (E & _). eapply IH; eauto.
Qed.
(** a handler that has been started returns *)
Lemma returns c h0 fs h t : cfg_master_ok c -> hfw_started c h0 -> cr1_undisturbed c h0 fs -> h_reqs_safe fs -> h_send_undisturbed c h0 fs -> h_no_early_rx c h0 fs ->
  h_polite c h0 (fs ++ repeat HStep 17) -> h_run c fs h0 = Ok (h, t) ->
  exists n h' t', (n <= 17)%nat /\ h_run c (fs ++ repeat HStep n) h0 = Ok (h', t') /\ h_irq h' = None.
Proof.
  intros Hc HS CR HR HU HN HP R.
  assert (G : forall m n h t, (rk (h_irq h) <= m)%nat -> (n + m <= 17)%nat -> h_run c (fs ++ repeat HStep n) h0 = Ok (h, t) ->
     exists n h' t', (n <= 17)%nat /\ h_run c (fs ++ repeat HStep n) h0 = Ok (h', t') /\ h_irq h' = None).
  { induction m as [|m IH]; intros n h1 t1 K L E.
    - exists n, h1, t1. split; [lia|]. split; auto. destruct (h_irq h1) as [p|]; auto. exfalso. destruct p; cbn in K; lia.
    - destruct (h_irq h1) as [p|] eqn:Q.
      2:{ exists n, h1, t1. split; [lia|]. auto. }
      destruct (no_ub c h0 (fs ++ repeat HStep (S n))) as (h2 & t2 & E2); auto.
      + apply always_steps; auto. discriminate.
      + intros a I. apply in_app_or in I as [I|I]; auto. apply repeat_spec in I. discriminate.
      + apply always_steps; auto. discriminate.
      + apply always_steps; auto. discriminate.
      + replace 17%nat with (S n + (16 - n))%nat in HP by lia. rewrite repeat_app, app_assoc in HP. exact (polite_prefix _ _ _ _ HP).
      + apply (IH (S n) h2 t2); auto; [|lia]. replace (repeat HStep (S n)) with (repeat HStep n ++ [HStep]) in E2 by (rewrite <- repeat_cons; reflexivity).
        rewrite app_assoc, (h_run_snoc _ _ _ _ _ _ E) in E2. cbn [h_act] in E2. rewrite Q in E2. destruct (h_line c p (w_lib (h_fw h1)) (w_u (h_fw h1))) as [[[[p' k'] u'] t']| |] eqn:El; try discriminate E2.
        cbn [bind] in E2. inversion E2; subst. cbn [h_irq]. apply line_rank in El. lia. }
  apply (G 17%nat 0%nat h t); auto using rk_max. cbn [repeat]. now rewrite app_nil_r.
Qed.

(** *** at most one completion per transmission *)
Lemma completions_app a b : completions (a ++ b) = (completions a + completions b)%nat.
Proof. induction a as [|[[]|] a IH]; cbn; auto. Qed.
Lemma completions_outs o : completions (map MTOut o) = 0%nat.
Proof. induction o; cbn; auto. Qed.
Definition may_send (p : option wpc) : nat := match p with Some (W83 _ _ | W84 _ _ | W85 _ | W86) => 1%nat | _ => 0%nat end.
Definition txe (b : bool) : nat := if b then 1%nat else 0%nat.
Definition owed (w : mfw) : nat := (txe (u_txeie (w_u w)) + may_send (w_sub w))%nat.
Lemma event_outs c e k k' t : w_event c e k = Ok (k', t) -> m_sent (m_lib_of t) = [] /\ completions (m_lib_of t) = (match e with MTxDone => 1 | _ => 0 end)%nat.
Proof.
  unfold w_event. intros E. bnd E. inversion E; subst. rewrite m_lib_of_lib. cbn [m_act] in Y. bnd Y. inversion Y; subst. destruct (ev_out _ _ _ _ _ Y0) as [->|(a & r & -> & ->)]; [destruct e|]; auto.
Qed.
Lemma line_outs c l s l' s' o : m_line c l s = Ok (l', s', o) -> l = M404 \/ m_sent (map MTOut o) = [].
Proof. intros E. destruct l; auto; right; mline_inv E; auto. clear; induction l; auto. Qed.

Definition hears_nothing (w : mfw) : Prop := u_rdr (w_u w) = None /\ u_rtof (w_u w) = false.
Definition heard (x : wact) : bool := match x with WRx _ | WRto => true | _ => false end.
Lemma owed_act c x w w' t : heard x = false -> hears_nothing w -> w_act c x w = Ok (w', t) -> hears_nothing w' /\ (completions (m_lib_of t) + owed w' <= owed w + length (m_sent (m_lib_of t)))%nat.
Proof.
  unfold owed. intros Hx (N1 & N2). destruct x; try discriminate Hx; cbn [w_act]; intros E.
  - destruct (w_sub w) as [p|] eqn:Q.
    + destruct p; cbn [w_send_line bind] in E; try (bnd E; bnd Y; bnd Y; inversion Y; subst); inversion E; subst; (split; [split; cbn; auto|]); cbn; destruct (u_txeie (w_u w)); cbn; lia.
    + bnd E. bnd E. inversion E; subst. split; [split; auto|]. rewrite m_lib_of_lib. cbn [w_u w_sub]. cbn [m_act] in Y. destruct (mc_pc (w_lib w)) as [p|] eqn:P.
      * bnd Y. inversion Y; subst. rewrite completions_outs. destruct (line_outs _ _ _ _ _ _ Y1) as [->|S0].
        -- unfold w_call_send in Y0. bnd Y0. inversion Y0; subst. mline_inv Y1. cbn. destruct (_ && _); cbn; lia.
        -- rewrite S0. destruct p; inversion Y0; subst; cbn [may_send length]; try lia. exfalso. mline_inv Y1. discriminate S0.
      * inversion Y; inversion Y0; subst. cbn. lia.
  - unfold w_pending in E. rewrite N1, N2 in E. cbn [orb] in E. rewrite orb_false_r in E. unfold w_usart, w_usart_rx, w_usart_tx, w_usart_rto in E. rewrite N1 in E. cbn [bind] in E.
    destruct (u_tdr (w_u w)) eqn:T; [inversion E; subst; split; [split; auto|cbn; lia]|]. destruct (u_txeie (w_u w)) eqn:X; [|inversion E; subst; split; [split; auto|cbn; try rewrite X; cbn; lia]].
    destruct (u_cur (w_u w) <? u_last (w_u w)).
    + bnd E. bnd Y. bnd Y. inversion Y; subst. cbn [u_cur u_last u_det u_tdr u_rdr u_txeie u_rtof u_cen u_uif] in *. bnd Y0. inversion Y0; subst. rewrite N2 in Y1. inversion Y1; subst. inversion E; subst. split; [split; auto|]. cbn. try rewrite X. cbn. lia.
    + destruct (mm_sub _); [|discriminate]. bnd E. bnd Y. bnd Y. inversion Y; subst. bnd Y0. inversion Y0; subst. cbn [u_rtof] in Y1. rewrite N2 in Y1. inversion Y1; subst. inversion E; subst. destruct (event_outs _ _ _ _ _ Y2) as (S1 & S2).
      split; [split; auto|]. cbn [app]. rewrite !app_nil_r, S1, S2. cbn. lia.
  - bnd E. inversion E; subst. cbn [w_u w_sub]. unfold w_timer in Y. destruct (u_uif (w_u w)); [|inversion Y; subst; split; [split; auto|cbn; lia]]. destruct (mm_sub _); [|discriminate]. bnd Y. inversion Y; subst. destruct (event_outs _ _ _ _ _ Y0) as (-> & ->). split; [split; auto|]. cbn. lia.
  - bnd E. inversion E; subst. destruct (event_outs _ _ _ _ _ Y) as (-> & ->). split; [split; auto|]. cbn. lia.
  - bnd E. inversion E; subst. destruct (event_outs _ _ _ _ _ Y) as (-> & ->). split; [split; auto|]. cbn. lia.
  - destruct (u_tdr (w_u w)); inversion E; subst; (split; [split; auto|]); cbn; lia.
  - destruct (u_cen (w_u w)); inversion E; subst; (split; [split; auto|]); cbn; lia.
Qed.
Lemma owed_run c l : forall w w' t, Forall (fun x => heard x = false) l -> hears_nothing w -> w_run c l w = Ok (w', t) -> (completions (m_lib_of t) + owed w' <= owed w + length (m_sent (m_lib_of t)))%nat.
Proof.
  induction l as [|x l IH]; intros w w' t F N E; cbn [w_run] in E; [inversion E; subst; cbn; lia|]. bnd E. bnd E. inversion E; subst. inversion F; subst.
  destruct (owed_act _ _ _ _ _ H1 N Y) as (N' & L). specialize (IH _ _ _ H2 N' Y0). rewrite m_lib_of_app, completions_app, m_sent_app, app_length. lia.
Qed.
(** *** the interrupt for received characters is enabled as soon as there is a buffer *)
Lemma line_rx_same c l s l' s' o : m_line c l s = Ok (l', s', o) -> l <> M405 -> mm_rx s' = mm_rx s.
Proof. intros E H. destruct l; try congruence; mline_inv E; mprj; auto. Qed.
Definition rx_on (h : hfw) : Prop := h_rxne h = true \/ h_cr1 h <> None <-> mm_rx (mc_s (w_lib (h_fw h))) <> None.
Lemma main_rx_same c w w' t : w_act c WMain w = Ok (w', t) -> at405 w = false -> mm_rx (mc_s (w_lib w')) = mm_rx (mc_s (w_lib w)).
Proof.
  cbn [w_act]. intros E D. unfold at405 in D. destruct (w_sub w) as [p|]; [bnd E; inversion E; subst; auto|].
  bnd E. bnd E. inversion E; subst. cbn [w_lib]. cbn [m_act] in Y. destruct (mc_pc (w_lib w)) as [q|]; [|inversion Y; subst; auto]. bnd Y. inversion Y; subst. cbn [mc_s]. eapply line_rx_same; eauto. intros ->. discriminate.
Qed.
Lemma rx_on_act c a h h' t : rx_on h -> h_act c a h = Ok (h', t) -> rx_on h'.
Proof.
  unfold rx_on. intros I E. destruct a as [|r| | | | |x]; cbn [h_act] in E.
  - destruct (no_handler h); [|inversion E; subst; auto]. destruct (h_cr1 h) as [[|v]|] eqn:C.
    + inversion E; subst. cbn. rewrite <- I. split; intros _; right; discriminate.
    + inversion E; subst. cbn. rewrite <- I. split; [intros _; right; discriminate|auto].
    + bnd E. inversion E; subst. cbn [h_fw h_rxne h_cr1]. destruct (at405 (h_fw h)) eqn:A.
      * split; [intros _; eapply main_rx; eauto|intros _; right; discriminate].
      * rewrite (main_rx_same _ _ _ _ Y A). exact I.
  - destruct (no_handler h); [|inversion E; subst; auto]. bnd E. inversion E; subst. cbn [h_fw h_rxne h_cr1]. cbn [w_act] in Y. unfold w_event in Y. destruct (m_act c (MEv (MReq r)) (w_lib (h_fw h))) as [[k1 o1]| |] eqn:Y0; try discriminate Y. cbn [bind] in Y. inversion Y; subst. cbn [w_lib].
    cbn [m_act] in Y0. destruct (m_event c (MReq r) (mc_s (w_lib (h_fw h)))) as [[s1 o2]| |] eqn:Y2; try discriminate Y0. cbn [bind] in Y0. inversion Y0; subst. cbn [mc_s]. destruct (ev_fields _ _ _ _ _ Y2) as (_ & -> & _). exact I.
  - destruct (h_irq h); [|destruct (h_pending h)]; inversion E; subst; auto.
  - destruct (h_irq h); [|destruct (u_uif _)]; inversion E; subst; auto.
  - destruct (no_handler h); inversion E; subst; auto.
  - destruct (h_irq h) as [p|].
    + bnd E. destruct p0 as [p' k']. inversion E; subst. cbn [h_fw h_rxne h_cr1 w_lib]. destruct (line_keeps _ _ _ _ _ _ _ _ Y) as (_ & -> & _). exact I.
    + destruct (h_tick h) as [p|]; [|inversion E; subst; auto]. destruct (t_line p (w_lib (h_fw h))) as [[p' k'] t'] eqn:T. inversion E; subst. cbn [h_fw h_rxne h_cr1 w_lib].
      replace (mm_rx (mc_s k')) with (mm_rx (mc_s (w_lib (h_fw h)))); auto. destruct p; cbn [t_line] in T; [destruct (negb _)|..]; inversion T; subst; auto.
  - destruct (is_hw x) eqn:X; [|inversion E; subst; auto]. rewrite hw_act in E by auto. cbn [bind] in E. inversion E; subst. exact I.
Qed.
Lemma rx_on_run c l : forall h h' t, rx_on h -> h_run c l h = Ok (h', t) -> rx_on h'.
Proof. induction l as [|a l IH]; intros h h' t I E; cbn [h_run] in E; [inversion E; subst; auto|]. bnd E. bnd E. inversion E; subst. refine (IH _ _ _ _ Y0). eapply rx_on_act; eauto. Qed.
Lemma pending_same h : rx_on h -> h_cr1 h = None -> h_pending h = w_pending (w_lib (h_fw h)) (w_u (h_fw h)).
Proof.
  unfold rx_on, h_pending, w_pending. intros I C. rewrite C in I. replace (h_rxne h) with (match mm_rx (mc_s (w_lib (h_fw h))) with Some _ => true | None => false end).
  - destruct (u_rdr _), (mm_rx _); reflexivity.
  - destruct (mm_rx _), (h_rxne h); auto.
    + destruct I as [_ I]. destruct I as [I|I]; congruence.
    + destruct I as [I _]. exfalso. apply I; auto.
Qed.
