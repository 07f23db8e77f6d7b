(** The master firmware between transmissions: the transmitter is idle, and what the interrupts mean for the library depends on the UART only. *)
From Verif Require Export Proofs.MasterWire.

Definition listen (u : uart) (x : wact) : uart * list mact :=
  match x with
  | WMain => (u, [MStep])
  | WUsart =>
      if (match u_rdr u with Some _ => true | None => false end) || u_txeie u || u_rtof u
      then (mk_uart (u_cur u) (u_last u) (u_rtof u || u_det u) None None false false (match u_rdr u with Some _ => true | None => u_cen u end) (u_uif u),
            (match u_rdr u with Some b => MEv (MRx b) :: (if u_det u then [MEv MFrameErr] else []) | None => [] end) ++ MEv MTxDone :: (if u_rtof u then [MEv MT15] else []))
      else (u, [])
  | WTimer => if u_uif u then (mk_uart (u_cur u) (u_last u) false (u_tdr u) (u_rdr u) (u_txeie u) (u_rtof u) (u_cen u) false, [MEv MT35]) else (u, [])
  | WTick => (u, [MEv MTick])
  | WReq a => (u, [MEv (MReq a)])
  | WRx b => (mk_uart (u_cur u) (u_last u) (u_det u) (u_tdr u) (Some (u8 b)) (u_txeie u) (u_rtof u) (u_cen u) (u_uif u), [])
  | WShift => (u, [])
  | WRto => (mk_uart (u_cur u) (u_last u) (u_det u) (u_tdr u) (u_rdr u) (u_txeie u) true (u_cen u) (u_uif u), [])
  | WTim => if u_cen u then (mk_uart (u_cur u) (u_last u) (u_det u) (u_tdr u) (u_rdr u) (u_txeie u) (u_rtof u) false true, []) else (u, [])
  end.
Fixpoint listens (u : uart) (l : list wact) : uart * list mact :=
  match l with
  | [] => (u, [])
  | x :: l => let (u1, s1) := listen u x in let (u2, s2) := listens u1 l in (u2, s1 ++ s2)
  end.
Lemma listens_app l1 : forall l2 u, listens u (l1 ++ l2) = let (u1, s1) := listens u l1 in let (u2, s2) := listens u1 l2 in (u2, s1 ++ s2).
Proof.
  induction l1 as [|x l1 IH]; intros l2 u; cbn [app listens]; [destruct (listens u l2); reflexivity|].
  destruct (listen u x) as [u1 s1]. rewrite IH. destruct (listens u1 l1) as [u2 s2]. destruct (listens u2 l2) as [u3 s3]. now rewrite app_assoc.
Qed.
Lemma listen_quiet u x u' s : quiet u -> listen u x = (u', s) -> quiet u'.
Proof.
  unfold quiet. intros [Q1 Q2] E. destruct x; cbn [listen] in E; try (inversion E; subst; cbn; auto; fail).
  - destruct (_ || _); inversion E; subst; cbn; auto.
  - destruct (u_uif u); inversion E; subst; cbn; auto.
  - destruct (u_cen u); inversion E; subst; cbn; auto.
Qed.
Lemma sent_404 c k k' o : mc_pc k = Some M404 -> m_act c MStep k = Ok (k', o) -> m_sent o <> [].
Proof. intros P E. cbn [m_act] in E. rewrite P in E. bnd E. inversion E; subst. clear E. mline_inv Y. discriminate. Qed.
Lemma sub_404 k : mc_pc k <> Some M404 -> match mc_pc k with Some M404 => w_call_send k | _ => Ok None end = Ok None.
Proof. destruct (mc_pc k) as [[]|]; congruence. Qed.
Lemma pc404_dec k : mc_pc k = Some M404 \/ mc_pc k <> Some M404.
Proof. destruct (mc_pc k) as [[]|]; auto; right; discriminate. Qed.
Lemma ev_keeps c e k k' o : m_act c (MEv e) k = Ok (k', o) -> mm_rx (mc_s k') = mm_rx (mc_s k) /\ mm_sub (mc_s k') = mm_sub (mc_s k).
Proof. cbn [m_act]. intros E. bnd E. inversion E; subst. destruct (ev_fields _ _ _ _ _ Y) as (_ & A & B & _). auto. Qed.
Lemma run1 c x k k' o : m_run c [x] k = Ok (k', o) -> m_act c x k = Ok (k', o).
Proof. cbn [m_run]. intros E. bnd E. cbn [bind] in E. rewrite app_nil_r in E. exact E. Qed.
Lemma run_cons c x s k k' o : m_run c (x :: s) k = Ok (k', o) -> exists k1 o1 o2, m_act c x k = Ok (k1, o1) /\ m_run c s k1 = Ok (k', o2) /\ o = o1 ++ o2.
Proof. cbn [m_run]. intros E. bnd E. bnd E. inversion E; subst. eauto 10. Qed.
Lemma run_split c a b k k' o : m_run c (a ++ b) k = Ok (k', o) -> exists k1 o1 o2, m_run c a k = Ok (k1, o1) /\ m_run c b k1 = Ok (k', o2) /\ o = o1 ++ o2.
Proof. rewrite m_run_app. intros E. bnd E. bnd E. inversion E; subst. eauto 10. Qed.
Lemma w_ev c e k k' o : m_act c (MEv e) k = Ok (k', o) -> w_event c e k = Ok (k', map WLib o).
Proof. unfold w_event. intros ->. reflexivity. Qed.
Definition can_listen (k : mconf) : Prop := mm_rx (mc_s k) <> None /\ mm_sub (mc_s k) = true.
Lemma listen_ev c e k k' o : can_listen k -> m_act c (MEv e) k = Ok (k', o) -> can_listen k'.
Proof. intros [A B] E. destruct (ev_keeps _ _ _ _ _ E) as [C D]. split; congruence. Qed.
Lemma listen_step c k k' o : can_listen k -> m_act c MStep k = Ok (k', o) -> can_listen k'.
Proof.
  intros [A B] E. cbn [m_act] in E. destruct (mc_pc k) as [l|]; [|inversion E; subst; split; auto]. bnd E. inversion E; subst. cbn [mc_s]. split; [eapply line_rx; eauto|].
  assert (X : mm_sub m = mm_sub (mc_s k)) by (clear - Y; destruct l; mline_inv Y; mprj; auto). cbn [mc_s] in *. congruence.
Qed.
Lemma listen_rx c k u k1 o1 : can_listen k -> m_run c (match u_rdr u with Some b => MEv (MRx b) :: (if u_det u then [MEv MFrameErr] else []) | None => [] end) k = Ok (k1, o1) ->
  w_usart_rx c k u = Ok (k1, mk_uart (u_cur u) (u_last u) (u_det u) (u_tdr u) None (u_txeie u) (u_rtof u) (match u_rdr u with Some _ => true | None => u_cen u end) (u_uif u), map WLib o1) /\ can_listen k1.
Proof.
  intros [A B] E. unfold w_usart_rx. destruct (u_rdr u) as [b|] eqn:R.
  - destruct (mm_rx (mc_s k)) eqn:Q; [|congruence]. apply run_cons in E as (k2 & o2 & o3 & E1 & E2 & ->). rewrite (w_ev _ _ _ _ _ E1). cbn [bind].
    assert (C : can_listen k2) by (eapply listen_ev; [split; [rewrite Q; discriminate|exact B]|exact E1]). destruct (u_det u).
    + apply run1 in E2. rewrite B, (w_ev _ _ _ _ _ E2). cbn [bind]. rewrite map_app. split; auto. eapply listen_ev; eauto.
    + cbn [m_run] in E2. inversion E2; subst. rewrite app_nil_r. auto.
  - inversion E; subst. split; [|split; auto]. destruct u; cbn in *; subst; reflexivity.
Qed.
Lemma listen_act c u x u' s k k' o : quiet u -> can_listen k -> listen u x = (u', s) -> m_run c s k = Ok (k', o) -> m_sent o = [] ->
  exists t', w_act c x (mk_mfw k u None) = Ok (mk_mfw k' u' None, t') /\ m_lib_of t' = o /\ m_on_line t' = [] /\ can_listen k'.
Proof.
  intros [Q1 Q2] CL E R NS. assert (CL' := CL). destruct CL as [A B]. destruct x; cbn [listen w_act w_lib w_u w_sub] in *.
  - inversion E; subst. apply run1 in R. destruct (pc404_dec k) as [P|P]; [destruct (sent_404 _ _ _ _ P R NS)|]. rewrite R, (sub_404 _ P). cbn [bind]. eexists. split; [reflexivity|].
    rewrite m_lib_of_lib, m_on_line_lib. split; auto. split; auto. eapply listen_step; eauto.
  - unfold w_pending. rewrite Q1. destruct (mm_rx (mc_s k)) eqn:MR; [|congruence].
    replace (match u_rdr u with Some _ => true | None => false end) with (match u_rdr u with Some _ => true | None => false end) in * by reflexivity.
    destruct (_ || _) eqn:P.
    + inversion E; subst u' s. clear E. apply run_split in R as (k1 & o1 & o2 & R1 & R2 & ->). destruct (listen_rx c k u k1 o1 CL' R1) as [X1 C1].
      apply run_cons in R2 as (k2 & o3 & o4 & R2 & R3 & ->). unfold w_usart. rewrite X1. cbn [bind]. unfold w_usart_tx. cbn [u_tdr u_cur u_last]. rewrite Q1. replace (u_cur u <? u_last u) with false by lia.
      destruct C1 as [C1 C2]. rewrite C2, (w_ev _ _ _ _ _ R2). cbn [bind]. assert (C3 := listen_ev _ _ _ _ _ (conj C1 C2) R2). unfold w_usart_rto. cbn [u_rtof u_cur u_last u_det u_tdr u_rdr u_txeie u_cen u_uif].
      destruct (u_rtof u) eqn:RT.
      * apply run1 in R3. destruct C3 as [C3 C4]. rewrite C4, (w_ev _ _ _ _ _ R3). cbn [bind orb]. rewrite ?Q1, <- !map_app. eexists. split; [reflexivity|]. rewrite m_lib_of_lib, m_on_line_lib. split; auto. split; auto. exact (listen_ev _ _ _ _ _ (conj C3 C4) R3).
      * cbn [m_run] in R3. inversion R3; subst. cbn [bind orb]. rewrite ?Q1, !app_nil_r, <- map_app. eexists. split; [reflexivity|]. rewrite m_lib_of_lib, m_on_line_lib. auto.
    + inversion E; subst. cbn [m_run] in R. inversion R; subst. eexists. split; [reflexivity|]. auto.
  - unfold w_timer. destruct (u_uif u); inversion E; subst.
    + apply run1 in R. rewrite B, (w_ev _ _ _ _ _ R). cbn [bind]. eexists. split; [reflexivity|]. rewrite m_lib_of_lib, m_on_line_lib. split; auto. split; auto. eapply listen_ev; eauto.
    + cbn [m_run] in R. inversion R; subst. cbn [bind]. eexists. split; [reflexivity|]. auto.
  - inversion E; subst. apply run1 in R. rewrite (w_ev _ _ _ _ _ R). cbn [bind]. eexists. split; [reflexivity|]. rewrite m_lib_of_lib, m_on_line_lib. split; auto. split; auto. eapply listen_ev; eauto.
  - inversion E; subst. apply run1 in R. rewrite (w_ev _ _ _ _ _ R). cbn [bind]. eexists. split; [reflexivity|]. rewrite m_lib_of_lib, m_on_line_lib. split; auto. split; auto. eapply listen_ev; eauto.
  - inversion E; subst. cbn [m_run] in R. inversion R; subst. eexists. split; [reflexivity|]. auto.
  - inversion E; subst. cbn [m_run] in R. inversion R; subst. rewrite Q1. eexists. split; [reflexivity|]. auto.
  - inversion E; subst. cbn [m_run] in R. inversion R; subst. eexists. split; [reflexivity|]. auto.
  - destruct (u_cen u); inversion E; subst; cbn [m_run] in R; inversion R; subst; eexists; (split; [reflexivity|]); auto.
Qed.
Lemma listen_run c l : forall u u' s k k' o, quiet u -> can_listen k -> listens u l = (u', s) -> m_run c s k = Ok (k', o) -> m_sent o = [] ->
  exists t', w_run c l (mk_mfw k u None) = Ok (mk_mfw k' u' None, t') /\ m_lib_of t' = o /\ m_on_line t' = [] /\ can_listen k' /\ quiet u'.
Proof.
  induction l as [|x l IH]; intros u u' s k k' o Q C E R NS; cbn [listens] in E.
  - inversion E; subst. cbn [m_run] in R. inversion R; subst. exists []. auto.
  - destruct (listen u x) as [u1 s1] eqn:E1. destruct (listens u1 l) as [u2 s2] eqn:E2. inversion E; subst. apply run_split in R as (k1 & o1 & o2 & R1 & R2 & ->).
    rewrite m_sent_app in NS. apply app_eq_nil in NS as [N1 N2].
    destruct (listen_act c u x u1 s1 k k1 o1 Q C E1 R1 N1) as (t1 & A1 & L1 & O1 & C1). assert (Q1 := listen_quiet _ _ _ _ Q E1).
    destruct (IH u1 u' s2 k1 k' o2 Q1 C1 E2 R2 N2) as (t2 & A2 & L2 & O2 & C2 & Q2). exists (t1 ++ t2). cbn [w_run]. rewrite A1. cbn [bind]. rewrite A2. cbn [bind].
    split; auto. rewrite m_lib_of_app, m_on_line_app, L1, L2, O1, O2. auto.
Qed.
