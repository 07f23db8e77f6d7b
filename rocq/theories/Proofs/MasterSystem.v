(** The master firmware: projection to the library. *)
From Verif Require Export Proofs.MasterSafe Model.MasterSystem Spec.MasterSystem.

Lemma m_lib_of_app a b : m_lib_of (a ++ b) = m_lib_of a ++ m_lib_of b.
Proof. apply flat_map_app. Qed.
Lemma m_on_line_app a b : m_on_line (a ++ b) = m_on_line a ++ m_on_line b.
Proof. apply flat_map_app. Qed.
Lemma m_lib_of_lib t : m_lib_of (map WLib t) = t.
Proof. unfold m_lib_of. induction t; cbn; congruence. Qed.
Lemma m_on_line_lib t : m_on_line (map WLib t) = [].
Proof. unfold m_on_line. induction t; cbn; auto. Qed.
Ltac bnd E := match type of E with
  | bind ?x _ = _ => let Y := fresh "Y" in
      match type of x with
      | outcome (_ * _ * _) => destruct x as [[[? ?] ?]| |] eqn:Y
      | outcome (_ * _) => destruct x as [[? ?]| |] eqn:Y
      | _ => destruct x as [?| |] eqn:Y
      end; try discriminate E; cbn [bind] in E
  end.

(** *** every step of the system is a piece of a schedule of the library *)
Definition req_in (a : api) (l : list wact) : Prop := In (WReq a) l.
Definition piece (c : cfg) (l : list wact) (k k' : mconf) (t : list witem) : Prop :=
  exists sched, m_run c sched k = Ok (k', m_lib_of t) /\ (forall a, In (MEv (MReq a)) sched -> In (WReq a) l).
Lemma piece_refl c l k : piece c l k k [].
Proof. exists []. split; [reflexivity|]. intros a []. Qed.
Lemma piece_trans c l k1 k2 k3 t1 t2 : piece c l k1 k2 t1 -> piece c l k2 k3 t2 -> piece c l k1 k3 (t1 ++ t2).
Proof.
  intros (a & A & HA) (b & B & HB). exists (a ++ b). rewrite m_run_app, A. cbn [bind]. rewrite B. cbn [bind]. rewrite m_lib_of_app. split; auto.
  intros x Hx. apply in_app_or in Hx as [Hx|Hx]; auto.
Qed.
Lemma piece_weaken c l l' k k' t : (forall a, In (WReq a) l -> In (WReq a) l') -> piece c l k k' t -> piece c l' k k' t.
Proof. intros H (a & A & HA). exists a. split; auto. Qed.
Lemma piece_event c e l k k' t : w_event c e k = Ok (k', t) -> (forall a, e = MReq a -> In (WReq a) l) -> piece c l k k' t.
Proof.
  unfold w_event. intros E H. bnd E. inversion E; subst. exists [MEv e]. cbn [m_run]. rewrite Y. cbn [bind]. rewrite m_lib_of_lib, app_nil_r. split; auto.
  intros a [Ha|[]]. inversion Ha; subst. auto.
Qed.
Lemma piece_rx c l k u k' u' t : w_usart_rx c k u = Ok (k', u', t) -> piece c l k k' t.
Proof.
  unfold w_usart_rx. intros E. destruct (u_rdr u) as [b|]; [|inversion E; subst; apply piece_refl].
  destruct (mm_rx (mc_s k)); [|discriminate]. bnd E. destruct (u_det u).
  - destruct (mm_sub (mc_s k)); [|discriminate]. bnd E. inversion E; subst. eapply piece_trans; eapply piece_event; eauto; discriminate.
  - inversion E; subst. eapply piece_event; eauto; discriminate.
Qed.
Lemma piece_tx c l k u k' u' t : w_usart_tx c k u = Ok (k', u', t) -> piece c l k k' t.
Proof.
  unfold w_usart_tx. intros E. destruct (u_tdr u) as [b|]; [inversion E; subst; apply piece_refl|].
  destruct (u_cur u <? u_last u).
  - bnd E. inversion E; subst. apply piece_refl.
  - destruct (mm_sub (mc_s k)); [|discriminate]. bnd E. inversion E; subst. eapply piece_event; eauto; discriminate.
Qed.
Lemma piece_rto c l k u k' u' t : w_usart_rto c k u = Ok (k', u', t) -> piece c l k k' t.
Proof.
  unfold w_usart_rto. intros E. destruct (u_rtof u); [|inversion E; subst; apply piece_refl].
  destruct (mm_sub (mc_s k)); [|inversion E; subst; apply piece_refl]. bnd E. inversion E; subst. eapply piece_event; eauto; discriminate.
Qed.
Lemma act_piece c a w w' t : w_act c a w = Ok (w', t) -> piece c [a] (w_lib w) (w_lib w') t.
Proof.
  intros E. destruct a; cbn [w_act] in E.
  - destruct (w_sub w) as [p|].
    + bnd E. inversion E; subst. apply piece_refl.
    + bnd E. bnd E. inversion E; subst. exists [MStep]. cbn [m_run w_lib]. rewrite Y. cbn [bind]. rewrite m_lib_of_lib, app_nil_r. split; auto. intros b [Hb|[]]. discriminate.
  - destruct (w_pending _ _); [|inversion E; subst; apply piece_refl]. bnd E. inversion E; subst. cbn [w_lib]. clear E.
    unfold w_usart in Y. bnd Y. bnd Y. bnd Y. inversion Y; subst. eapply piece_trans; [eapply piece_rx; eauto|]. eapply piece_trans; [eapply piece_tx; eauto|]. eapply piece_rto; eauto.
  - bnd E. inversion E; subst. cbn [w_lib]. clear E. unfold w_timer in Y. destruct (u_uif (w_u w)); [|inversion Y; subst; apply piece_refl].
    destruct (mm_sub _); [|discriminate]. bnd Y. inversion Y; subst. eapply piece_event; eauto; discriminate.
  - bnd E. inversion E; subst. eapply piece_event; eauto; discriminate.
  - bnd E. inversion E; subst. eapply piece_event; eauto. intros b Hb. inversion Hb. now left.
  - inversion E; subst. apply piece_refl.
  - destruct (u_tdr (w_u w)); inversion E; subst; [|apply piece_refl]. exists []. split; [reflexivity|]. intros x [].
  - inversion E; subst. apply piece_refl.
  - destruct (u_cen (w_u w)); inversion E; subst; apply piece_refl.
Qed.
Lemma run_piece c l : forall w w' t, w_run c l w = Ok (w', t) -> piece c l (w_lib w) (w_lib w') t.
Proof.
  induction l as [|a l IH]; intros w w' t E; cbn [w_run] in E.
  - inversion E; subst. apply piece_refl.
  - bnd E. bnd E. inversion E; subst. eapply piece_trans; [eapply piece_weaken; [|eapply act_piece; eauto]|eapply piece_weaken; [|eapply IH; eauto]].
    + intros b [Hb|[]]. now left.
    + intros b Hb. now right.
Qed.
Lemma w_run_app c a : forall b w, w_run c (a ++ b) w = let* '(w1, t1) := w_run c a w in let* '(w2, t2) := w_run c b w1 in Ok (w2, t1 ++ t2).
Proof.
  induction a as [|x a IH]; intros b w; cbn [app w_run].
  - cbn [bind]. destruct (w_run c b w) as [[? ?]| |]; reflexivity.
  - destruct (w_act c x w) as [[w1 t1]| |]; cbn [bind]; auto. rewrite IH. destruct (w_run c a w1) as [[w2 t2]| |]; cbn [bind]; auto.
    destruct (w_run c b w2) as [[w3 t3]| |]; cbn [bind]; auto. now rewrite app_assoc.
Qed.
(** the library's history *)
Lemma mfw_history c w l w' t : mfw_started c w -> w_reqs_safe l -> w_run c l w = Ok (w', t) -> exists sched, m_history c sched (w_lib w') (m_lib_of t).
Proof.
  intros (St & P & _) HR E. destruct (run_piece _ _ _ _ _ E) as (sched & R & HS). exists sched, (mc_s (w_lib w)). split; auto. split; [intros a Ha; apply HR, HS, Ha|].
  destruct (w_lib w) as [s p]. cbn [mc_s mc_pc] in *. now subst p.
Qed.
Lemma mfw_cinv c w l w' t : cfg_master_ok c -> mfw_started c w -> w_reqs_safe l -> w_run c l w = Ok (w', t) -> cinv c (m_lib_of t) (mloc (w_lib w')) (mc_s (w_lib w')).
Proof. intros Hc HW HR E. destruct (mfw_history _ _ _ _ _ HW HR E) as (sched & H). eapply history_cinv; eauto. Qed.
