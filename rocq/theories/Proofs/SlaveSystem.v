(** The slave firmware: projection to the library, memory safety, bytes on the line. *)
From Verif Require Export Proofs.SlaveTraffic Model.SlaveSystem Spec.SlaveSystem.

Lemma lib_of_app a b : lib_of (a ++ b) = lib_of a ++ lib_of b.
Proof. apply flat_map_app. Qed.
Lemma on_line_app a b : on_line (a ++ b) = on_line a ++ on_line b.
Proof. apply flat_map_app. Qed.
Lemma lib_of_lib t : lib_of (map YLib t) = t.
Proof. unfold lib_of. induction t; cbn; congruence. Qed.
Lemma on_line_lib t : on_line (map YLib t) = [].
Proof. unfold on_line. induction t; cbn; auto. Qed.

(** *** every step of the system is a piece of a schedule of the library *)
Definition piece (c : cfg) (k k' : sconf) (t : list yitem) : Prop := exists sched, s_run c sched k = Ok (k', lib_of t).
Lemma piece_refl c k : piece c k k [].
Proof. exists []. reflexivity. Qed.
Lemma piece_trans c k1 k2 k3 t1 t2 : piece c k1 k2 t1 -> piece c k2 k3 t2 -> piece c k1 k3 (t1 ++ t2).
Proof. intros [a A] [b B]. exists (a ++ b). rewrite run_app, A. cbn [bind]. rewrite B. cbn [bind]. now rewrite lib_of_app. Qed.
Lemma piece_event c e k k' : y_event e k = Ok k' -> piece c k k' [YLib (TEv e)].
Proof.
  unfold y_event. intros E. exists [SEv e]. cbn [s_run s_act lib_of flat_map app]. destruct (s_event e (sc_s k)) as [s| |]; try discriminate.
  cbn [bind] in *. inversion E; subst. reflexivity.
Qed.
Ltac bnd E := match type of E with
  | bind ?x _ = _ => let Y := fresh "Y" in
      match type of x with
      | outcome (_ * _ * _) => destruct x as [[[? ?] ?]| |] eqn:Y
      | outcome (_ * _) => destruct x as [[? ?]| |] eqn:Y
      | _ => destruct x as [?| |] eqn:Y
      end; try discriminate E; cbn [bind] in E
  end.
Lemma piece_rx c k u k' u' t : y_usart_rx k u = Ok (k', u', t) -> piece c k k' t.
Proof.
  unfold y_usart_rx. intros E. destruct (u_rdr u) as [b|]; [|inversion E; subst; apply piece_refl].
  destruct (s_rx (sc_s k)); [|discriminate]. bnd E. destruct (u_det u).
  - destruct (s_sub (sc_s k)); [|discriminate]. bnd E. inversion E; subst. apply (piece_trans c k a k' [YLib (TEv (SRx b))]); apply piece_event; auto.
  - inversion E; subst. apply piece_event; auto.
Qed.
Lemma piece_tx c k u k' u' t : y_usart_tx k u = Ok (k', u', t) -> piece c k k' t.
Proof.
  unfold y_usart_tx. intros E. destruct (u_tdr u) as [b|]; [inversion E; subst; apply piece_refl|].
  destruct (u_cur u <? u_last u).
  - bnd E. inversion E; subst. apply piece_refl.
  - destruct (s_sub (sc_s k)); [|discriminate]. bnd E. inversion E; subst. apply piece_event; auto.
Qed.
Lemma piece_rto c k u k' u' t : y_usart_rto k u = Ok (k', u', t) -> piece c k k' t.
Proof.
  unfold y_usart_rto. intros E. destruct (u_rtof u); [|inversion E; subst; apply piece_refl].
  destruct (s_sub (sc_s k)); [|inversion E; subst; apply piece_refl]. bnd E. inversion E; subst. apply piece_event; auto.
Qed.
Lemma act_piece c a y y' t : y_act c a y = Ok (y', t) -> piece c (y_lib y) (y_lib y') t.
Proof.
  intros E. destruct a; cbn [y_act] in E.
  - destruct (y_sub y) as [p|].
    + bnd E. inversion E; subst. apply piece_refl.
    + bnd E. inversion E; subst. exists [SStep]. cbn [s_run y_lib]. rewrite Y. cbn [bind]. now rewrite lib_of_lib, app_nil_r.
  - destruct (usart_pending _ _); [|inversion E; subst; apply piece_refl]. bnd E. inversion E; subst. cbn [y_lib]. clear E.
    unfold y_usart in Y. bnd Y. bnd Y. bnd Y. inversion Y; subst. eapply piece_trans; [eapply piece_rx; eauto|]. eapply piece_trans; [eapply piece_tx; eauto|]. eapply piece_rto; eauto.
  - bnd E. inversion E; subst. cbn [y_lib]. clear E. unfold y_timer in Y. destruct (u_uif (y_u y)); [|inversion Y; subst; apply piece_refl].
    destruct (s_sub _); [|discriminate]. bnd Y. inversion Y; subst. apply piece_event; auto.
  - bnd E. inversion E; subst. apply piece_event; auto.
  - inversion E; subst. apply piece_refl.
  - destruct (u_tdr (y_u y)); inversion E; subst; exists []; reflexivity.
  - inversion E; subst. apply piece_refl.
  - destruct (u_cen (y_u y)); inversion E; subst; apply piece_refl.
Qed.
Lemma run_piece c l : forall y y' t, y_run c l y = Ok (y', t) -> piece c (y_lib y) (y_lib y') t.
Proof.
  induction l as [|a l IH]; intros y y' t E; cbn [y_run] in E.
  - inversion E; subst. apply piece_refl.
  - bnd E. bnd E. inversion E; subst. eapply piece_trans; [eapply act_piece; eauto|]. eapply IH; eauto.
Qed.

(** *** memory safety *)
Definition uart_ok (u : uart) : Prop := 0 <= u_cur u /\ u_last u <= 254.
Definition sub_ok (p : option dpc) : Prop := match p with Some (D85 n) | Some (D86 n) => n <= 255 | _ => True end.
Definition sys_ok (c : cfg) (y : sys) : Prop := slave_ready c (sc_s (y_lib y)) /\ uart_ok (y_u y) /\ sub_ok (y_sub y).
Lemma y_event_ok c e k : slave_ready c (sc_s k) -> exists k', y_event e k = Ok k' /\ slave_ready c (sc_s k').
Proof. intros R. unfold y_event. destruct (event_ready c e _ R) as (s' & E & R' & _). rewrite E. cbn [bind]. eexists. split; [reflexivity|]. auto. Qed.
Lemma rd_ready c k i : slave_ready c (sc_s k) -> 0 <= i <= 255 -> exists b, rd (m_resp (s_msg (sc_s k))) i = Ok b /\ b = nth (Z.to_nat i) (rr_buf (m_resp (s_msg (sc_s k)))) 0.
Proof.
  intros (_ & _ & _ & _ & _ & [_ (P & L & _)] & _) H. unfold rd. rewrite P. rewrite (aget_ok _ _ 0) by lia. eauto.
Qed.
Lemma usart_ok c k u : slave_ready c (sc_s k) -> uart_ok u -> exists k' u' t, y_usart k u = Ok (k', u', t) /\ slave_ready c (sc_s k') /\ uart_ok u'.
Proof.
  intros R U. unfold y_usart.
  assert (A : exists k1 u1 t1, y_usart_rx k u = Ok (k1, u1, t1) /\ slave_ready c (sc_s k1) /\ uart_ok u1).
  { unfold y_usart_rx. destruct (u_rdr u) as [b|]; [|eauto 10]. assert (HR := R). destruct HR as (_ & _ & HS & HR & _). rewrite HR, HS.
    destruct (y_event_ok c (SRx b) k R) as (k1 & E1 & R1). rewrite E1. cbn [bind]. destruct (u_det u).
    - destruct (y_event_ok c SFrameErr k1 R1) as (k2 & E2 & R2). rewrite E2. cbn [bind]. do 3 eexists. split; [reflexivity|]. auto.
    - do 3 eexists. split; [reflexivity|]. auto. }
  destruct A as (k1 & u1 & t1 & E1 & R1 & U1). rewrite E1. cbn [bind].
  assert (B : exists k2 u2 t2, y_usart_tx k1 u1 = Ok (k2, u2, t2) /\ slave_ready c (sc_s k2) /\ uart_ok u2).
  { unfold y_usart_tx. destruct (u_tdr u1) as [b|]; [eauto 10|]. destruct (u_cur u1 <? u_last u1) eqn:Q.
    - unfold uart_ok in U1. destruct (rd_ready c k1 (u_cur u1 + 1) R1 ltac:(lia)) as (b & E & _). rewrite E. cbn [bind]. do 3 eexists. split; [reflexivity|]. split; auto.
      unfold uart_ok. cbn [u_cur u_last]. lia.
    - assert (HS : s_sub (sc_s k1) = true) by apply R1. rewrite HS. destruct (y_event_ok c STxDone k1 R1) as (k2 & E2 & R2). rewrite E2. cbn [bind]. do 3 eexists. split; [reflexivity|]. auto. }
  destruct B as (k2 & u2 & t2 & E2 & R2 & U2). rewrite E2. cbn [bind].
  unfold y_usart_rto. destruct (u_rtof u2).
  - assert (HS : s_sub (sc_s k2) = true) by apply R2. rewrite HS. destruct (y_event_ok c ST15 k2 R2) as (k3 & E3 & R3). rewrite E3. cbn [bind]. do 3 eexists. split; [reflexivity|]. auto.
  - cbn [bind]. do 3 eexists. split; [reflexivity|]. auto.
Qed.
Lemma act_ok c a y : cfg_tables_ok c -> sys_ok c y -> exists y' t, y_act c a y = Ok (y', t) /\ sys_ok c y'.
Proof.
  intros Hc (R & U & P). destruct a; cbn [y_act].
  - destruct (y_sub y) as [[n|n| |]|] eqn:Q; cbn [send_line].
    + cbn [bind]. do 2 eexists. split; [reflexivity|]. unfold sys_ok, uart_ok in *. cbn [y_lib y_u y_sub u_cur u_last sub_ok] in *. repeat split; auto; try apply R; lia.
    + cbn [bind]. do 2 eexists. split; [reflexivity|]. unfold sys_ok, uart_ok in *. cbn [y_lib y_u y_sub u_cur u_last sub_ok] in *. repeat split; auto; try apply R; lia.
    + destruct (rd_ready c (y_lib y) 0 R ltac:(lia)) as (b & E & _). rewrite E. cbn [bind]. do 2 eexists. split; [reflexivity|]. unfold sys_ok, uart_ok in *. cbn. auto.
    + cbn [bind]. do 2 eexists. split; [reflexivity|]. unfold sys_ok, uart_ok in *. cbn. auto.
    + destruct (act_ready c SStep (y_lib y) Hc R) as (k' & o & E & R' & _). rewrite E. cbn [bind]. do 2 eexists. split; [reflexivity|]. split; auto. split; auto.
      cbn [y_sub]. destruct (sc_pc (y_lib y)) as [[]|]; cbn; auto. unfold call_send.
      destruct (rr_ptr _ && _); cbn; auto. destruct R as (_ & _ & _ & _ & _ & [_ (_ & _ & _ & X)] & _). unfold byte in X. lia.
  - destruct (usart_pending _ _); [|do 2 eexists; split; [reflexivity|]; split; auto].
    destruct (usart_ok c _ _ R U) as (k' & u' & t & E & R' & U'). rewrite E. cbn [bind]. do 2 eexists. split; [reflexivity|]. split; auto.
  - unfold y_timer. assert (HS : s_sub (sc_s (y_lib y)) = true) by apply R. rewrite HS. destruct (u_uif (y_u y)).
    + destruct (y_event_ok c ST35 _ R) as (k1 & E1 & R1). rewrite E1. cbn [bind]. do 2 eexists. split; [reflexivity|]. split; auto.
    + cbn [bind]. do 2 eexists. split; [reflexivity|]. split; auto.
  - destruct (y_event_ok c (SApp bits regs) _ R) as (k1 & E1 & R1). rewrite E1. cbn [bind]. do 2 eexists. split; [reflexivity|]. split; auto.
  - do 2 eexists. split; [reflexivity|]. split; auto.
  - destruct (u_tdr (y_u y)); do 2 eexists; (split; [reflexivity|]; split; auto).
  - do 2 eexists. split; [reflexivity|]. split; auto.
  - destruct (u_cen (y_u y)); do 2 eexists; (split; [reflexivity|]; split; auto).
Qed.
Lemma run_ok c l : cfg_tables_ok c -> forall y, sys_ok c y -> exists y' t, y_run c l y = Ok (y', t) /\ sys_ok c y'.
Proof.
  intros Hc. induction l as [|a l IH]; intros y H; cbn [y_run].
  - eauto.
  - destruct (act_ok c a y Hc H) as (y1 & t1 & E1 & H1). rewrite E1. cbn [bind]. destruct (IH y1 H1) as (y2 & t2 & E2 & H2). rewrite E2. cbn [bind]. eauto.
Qed.
Lemma started_ok c y : sys_started c y -> sys_ok c y.
Proof. intros ((R & _) & _ & U & P). split; auto. rewrite U, P. split; cbn; auto. unfold uart_ok. cbn. lia. Qed.
