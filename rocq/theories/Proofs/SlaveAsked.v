(** The slave firmware: nothing is transmitted unasked; a lost completion is made good by the next byte. *)
From Verif Require Export Proofs.SlaveAnswer.

Lemma delivered_app a b : delivered (a ++ b) = delivered a ++ delivered b.
Proof. unfold delivered. apply flat_map_app. Qed.
Lemma arrived_app a b : arrived (a ++ b) = arrived a ++ arrived b.
Proof. unfold arrived. apply flat_map_app. Qed.
Lemma thinned_refl {A} (l : list A) : thinned l l.
Proof. induction l; constructor; auto. Qed.
Lemma thinned_app {A} (a b a' b' : list A) : thinned a b -> thinned a' b' -> thinned (a ++ a') (b ++ b').
Proof. intros H K. induction H; cbn [app]; try constructor; auto. Qed.
Lemma thinned_left {A} (b : list A) : thinned [] b.
Proof. induction b; constructor; auto. Qed.
Lemma thinned_shorter {A} (a a' b : list A) : thinned (a ++ a') b -> thinned a b.
Proof.
  intros H. remember (a ++ a') as l eqn:E. revert a E. induction H as [|x l b H IH|x l b H IH]; intros a E.
  - symmetry in E. apply app_eq_nil in E as [-> _]. constructor.
  - destruct a as [|y a]; [apply thinned_left|]. cbn [app] in E. inversion E; subst. constructor. auto.
  - constructor. auto.
Qed.

Definition one (b : bool) : nat := if b then 1 else 0.
Definition asked (ar : list Z) (t : list yitem) (y : sys) : Prop :=
  let u := y_u y in
  thinned (delivered (lib_of t) ++ opt (u_rdr u)) ar /\ (forall b, u_rdr u = Some b -> u8 b = b) /\
  (count is_t35 (lib_of t) + one (u_uif u) + one (u_cen u) <= length (delivered (lib_of t)))%nat.
Lemma count_app {A} p (a b : list A) : count p (a ++ b) = (count p a + count p b)%nat.
Proof. unfold count. now rewrite filter_app, app_length. Qed.
Lemma line_asks c k k' o : s_act c SStep k = Ok (k', o) -> delivered o = [] /\ count is_t35 o = 0%nat.
Proof.
  cbn [s_act]. destruct (sc_pc k) as [l|]; intros H.
  - destruct (s_line c l (sc_s k)) as [[[l' s'] o']| |] eqn:E; try discriminate. cbn [bind] in H. inversion H; subst. clear. induction o' as [|x o IH]; auto.
  - inversion H; subst. auto.
Qed.
Lemma u8_u8 b : u8 (u8 b) = u8 b.
Proof. unfold u8. apply Z.mod_mod. lia. Qed.
Lemma asked_step ar ar' t y t' y' :
  asked ar t y -> delivered (lib_of t') ++ opt (u_rdr (y_u y')) = [] \/ delivered (lib_of t') ++ opt (u_rdr (y_u y')) = opt (u_rdr (y_u y)) \/ (delivered (lib_of t') = [] /\ exists b, u_rdr (y_u y') = Some b /\ ar' = [b]) ->
  (forall b, u_rdr (y_u y') = Some b -> u8 b = b) ->
  (count is_t35 (lib_of t') + one (u_uif (y_u y')) + one (u_cen (y_u y')) <= length (delivered (lib_of t')) + one (u_uif (y_u y)) + one (u_cen (y_u y)))%nat ->
  asked (ar ++ ar') (t ++ t') y'.
Proof.
  intros (A1 & A2 & A3) H V C. unfold asked. rewrite lib_of_app, delivered_app, count_app, app_length. split; [|split; auto; lia]. rewrite <- app_assoc.
  destruct H as [H|[H|(H1 & b & H2 & ->)]].
  - rewrite H, app_nil_r. apply thinned_shorter in A1. rewrite <- (app_nil_r (delivered _)). apply thinned_app; auto. apply thinned_left.
  - rewrite H. rewrite <- (app_nil_r (_ ++ opt _)). apply thinned_app; auto. apply thinned_left.
  - rewrite H1, H2. cbn [app opt]. apply thinned_shorter in A1. apply thinned_app; auto. apply thinned_refl.
Qed.
Lemma usart_rx_asks k u k' u' t : y_usart_rx k u = Ok (k', u', t) -> (forall b, u_rdr u = Some b -> u8 b = b) ->
  delivered (lib_of t) = opt (u_rdr u) /\ u_rdr u' = None /\ count is_t35 (lib_of t) = 0%nat /\ u_uif u' = u_uif u /\ (one (u_cen u') <= length (delivered (lib_of t)) + one (u_cen u))%nat.
Proof.
  unfold y_usart_rx. destruct (u_rdr u) as [b|] eqn:R; intros H V.
  - specialize (V b eq_refl). destruct (s_rx _); try discriminate. destruct (y_event (SRx b) k) as [k1| |]; try discriminate. cbn [bind] in H.
    destruct (u_det u); [destruct (s_sub _); try discriminate; destruct (y_event SFrameErr k1); try discriminate; cbn [bind] in H|];
    inversion H; subst; cbn; rewrite V; repeat split; auto; lia.
  - inversion H; subst. cbn. auto 10.
Qed.
Lemma usart_tx_asks k u k' u' t : y_usart_tx k u = Ok (k', u', t) -> delivered (lib_of t) = [] /\ count is_t35 (lib_of t) = 0%nat /\ u_rdr u' = u_rdr u /\ u_uif u' = u_uif u /\ u_cen u' = u_cen u.
Proof.
  unfold y_usart_tx. destruct (u_tdr u); intros H; [inversion H; subst; cbn; auto|]. destruct (_ <? _).
  - destruct (rd _ _); try discriminate. cbn [bind] in H. inversion H; subst; cbn; auto.
  - destruct (s_sub _); try discriminate. destruct (y_event _ _); try discriminate. cbn [bind] in H. inversion H; subst; cbn; auto.
Qed.
Lemma usart_rto_asks k u k' u' t : y_usart_rto k u = Ok (k', u', t) -> delivered (lib_of t) = [] /\ count is_t35 (lib_of t) = 0%nat /\ u_rdr u' = u_rdr u /\ u_uif u' = u_uif u /\ u_cen u' = u_cen u.
Proof.
  unfold y_usart_rto. destruct (u_rtof u); intros H; [|inversion H; subst; cbn; auto]. destruct (s_sub _).
  - destruct (y_event _ _); try discriminate. cbn [bind] in H. inversion H; subst; cbn; auto.
  - inversion H; subst; cbn; auto.
Qed.
Lemma asked_act c a ar t y y' t' : asked ar t y -> y_act c a y = Ok (y', t') -> asked (ar ++ arrived [a]) (t ++ t') y'.
Proof.
  intros A E. assert (A2 : forall b, u_rdr (y_u y) = Some b -> u8 b = b) by apply A. revert E. destruct a; cbn [y_act arrived flat_map app]; intros E.
  - destruct (y_sub y) as [p|].
    + destruct p; cbn [send_line] in E; try destruct (rd _ _); try discriminate; cbn [bind] in E; inversion E; subst; apply (asked_step _ _ _ y); cbn; auto; lia.
    + destruct (s_act c SStep (y_lib y)) as [[k o]| |] eqn:E1; try discriminate. cbn [bind] in E. inversion E; subst. destruct (line_asks _ _ _ _ E1) as [X1 X2].
      apply (asked_step _ _ _ y); cbn [y_u]; rewrite ?lib_of_lib, ?X1, ?X2; auto; try (cbn; lia).
  - destruct (usart_pending _ _).
    + destruct (y_usart _ _) as [[[k u] o]| |] eqn:E1; try discriminate. cbn [bind] in E. inversion E; subst. unfold y_usart in E1.
      destruct (y_usart_rx _ _) as [[[k1 u1] o1]| |] eqn:F1; try discriminate. cbn [bind] in E1.
      destruct (y_usart_tx _ _) as [[[k2 u2] o2]| |] eqn:F2; try discriminate. cbn [bind] in E1.
      destruct (y_usart_rto _ _) as [[[k3 u3] o3]| |] eqn:F3; try discriminate. cbn [bind] in E1. inversion E1; subst.
      destruct (usart_rx_asks _ _ _ _ _ F1 A2) as (X1 & X2 & X3 & X4 & X5). destruct (usart_tx_asks _ _ _ _ _ F2) as (Y1 & Y2 & Y3 & Y4 & Y5). destruct (usart_rto_asks _ _ _ _ _ F3) as (Z1 & Z2 & Z3 & Z4 & Z5).
      assert (DD : delivered (lib_of (o1 ++ o2 ++ o3)) = delivered (lib_of o1)) by (rewrite !lib_of_app, !delivered_app, Y1, Z1, !app_nil_r; auto).
      apply (asked_step _ _ _ y); auto; cbn [y_u].
      * right. left. rewrite DD, X1, Z3, Y3, X2. apply app_nil_r.
      * intros b. rewrite Z3, Y3, X2. discriminate.
      * rewrite DD, !lib_of_app, !count_app, X3, Y2, Z2, Z4, Y4, X4, Z5, Y5. cbn [Nat.add]. lia.
    + inversion E; subst. apply (asked_step _ _ _ y'); cbn; auto.
  - unfold y_timer in E. destruct (u_uif (y_u y)) eqn:U.
    + destruct (s_sub _); try discriminate. destruct (y_event _ _); try discriminate. cbn [bind] in E. inversion E; subst. apply (asked_step _ _ _ y); cbn; auto. rewrite U. cbn. lia.
    + cbn [bind] in E. inversion E; subst. apply (asked_step _ _ _ y); cbn; auto.
  - destruct (y_event _ _); try discriminate. cbn [bind] in E. inversion E; subst. apply (asked_step _ _ _ y); cbn; auto.
  - inversion E; subst. apply (asked_step _ _ _ y); cbn [y_u u_rdr lib_of flat_map delivered].
    + auto.
    + right. right. split; auto. eexists. split; eauto.
    + intros b' Hb. inversion Hb; subst. apply u8_u8.
    + cbn. lia.
  - destruct (u_tdr (y_u y)); inversion E; subst; (apply (asked_step _ _ _ y) || apply (asked_step _ _ _ y')); cbn; auto.
  - inversion E; subst. apply (asked_step _ _ _ y); cbn; auto.
  - destruct (u_cen (y_u y)) eqn:U; inversion E; subst; [|apply (asked_step _ _ _ y'); cbn; auto]. apply (asked_step _ _ _ y); cbn; auto. rewrite U. cbn. lia.
Qed.
Lemma asked_run c l : forall ar t y y' t', asked ar t y -> y_run c l y = Ok (y', t') -> asked (ar ++ arrived l) (t ++ t') y'.
Proof.
  induction l as [|a l IH]; intros ar t y y' t' A E; cbn [y_run] in E.
  - inversion E; subst. cbn [arrived flat_map]. now rewrite !app_nil_r.
  - destruct (y_act c a y) as [[y1 t1]| |] eqn:E1; try discriminate. cbn [bind] in E. destruct (y_run c l y1) as [[y2 t2]| |] eqn:E2; try discriminate. cbn [bind] in E. inversion E; subst.
    change (a :: l) with ([a] ++ l). rewrite arrived_app, !app_assoc. eapply IH; [|exact E2]. eapply asked_act; eauto.
Qed.
Lemma asked_start y : y_u y = uart_init -> asked [] [] y.
Proof. intros U. unfold asked. rewrite U. cbn. split; [constructor|]. split; [discriminate|lia]. Qed.

(** idle polling *)
Lemma rests_main c y : sys_rests c y -> exists y' t, y_act c AMain y = Ok (y', t) /\ sys_rests c y' /\ on_line t = [] /\ sent (lib_of t) = [] /\ sc_s (y_lib y') = sc_s (y_lib y).
Proof.
  intros (I & P & Su & U). assert (I' := I). destruct I' as (R & St & T15 & _). cbn [y_act]. rewrite Su. destruct P as [P|P]; cbn [s_act]; rewrite P.
  - unfold s_dispatch. rewrite St. cbn [bind]. do 2 eexists. split; [reflexivity|]. split; [|auto]. split; auto.
  - cbn [s_line]. rewrite T15. cbn [is_set bind]. do 2 eexists. split; [reflexivity|]. split; [|auto]. split; auto.
Qed.
Lemma rests_mains c n : forall y, sys_rests c y -> exists y' t, y_run c (repeat AMain n) y = Ok (y', t) /\ sys_rests c y' /\ on_line t = [] /\ sent (lib_of t) = [] /\ sc_s (y_lib y') = sc_s (y_lib y).
Proof.
  induction n as [|n IH]; intros y K; cbn [repeat y_run].
  - do 2 eexists. split; [reflexivity|]. auto.
  - destruct (rests_main c y K) as (y1 & t1 & E1 & K1 & O1 & S1 & Q1). rewrite E1. cbn [bind]. destruct (IH y1 K1) as (y2 & t2 & E2 & K2 & O2 & S2 & Q2). rewrite E2. cbn [bind].
    do 2 eexists. split; [reflexivity|]. split; auto. rewrite on_line_app, lib_of_app, sent_app, O1, O2, S1, S2, Q2. auto.
Qed.
(** a stuck slave receives a byte *)
Lemma stuck_byte c y b n : sys_stuck c y -> (5 <= n)%nat ->
  exists y' t, y_run c ([HRx b; AUsart] ++ repeat AMain n) y = Ok (y', t) /\ sys_rests c y' /\ on_line t = [] /\ sent (lib_of t) = [] /\
    s_data (sc_s (y_lib y')) = s_data (sc_s (y_lib y)) /\ s_id (sc_s (y_lib y')) = s_id (sc_s (y_lib y)).
Proof.
  intros K Hn.
  replace n with (5 + (n - 5))%nat by lia. rewrite repeat_app, app_assoc, y_run_app.
  assert (X : exists y1 t1, y_run c ([HRx b; AUsart] ++ repeat AMain 5) y = Ok (y1, t1) /\ sys_rests c y1 /\ on_line t1 = [] /\ sent (lib_of t1) = [] /\
    s_data (sc_s (y_lib y1)) = s_data (sc_s (y_lib y)) /\ s_id (sc_s (y_lib y1)) = s_id (sc_s (y_lib y))).
  { clear Hn. destruct K as (R & St & Tx & P & Su & F1 & F2 & F3 & U1 & U2 & U3 & U4 & U5 & U6 & U7 & U8 & U9).
    destruct (event_ready c (SRx (u8 b)) _ R) as (s1 & E1 & K1 & I1).
    assert (G : s_st s1 = s_st (sc_s (y_lib y)) /\ s_tx s1 = s_tx (sc_s (y_lib y)) /\ s_t15 s1 = s_t15 (sc_s (y_lib y)) /\ s_t35 s1 = s_t35 (sc_s (y_lib y)) /\ s_fe s1 = s_fe (sc_s (y_lib y)) /\ s_data s1 = s_data (sc_s (y_lib y)) /\ s_id s1 = s_id (sc_s (y_lib y))).
    { clear - E1. ev_inv E1; prj; auto 10. }
    destruct G as (G1 & G2 & G3 & G4 & G5 & G6 & G7).
    destruct y as [[s pc] [cur last det tdr rdr txeie rtof cen uif] sub]. cbn [y_lib y_u y_sub sc_s sc_pc u_cur u_last u_det u_tdr u_rdr u_txeie u_rtof u_cen u_uif] in *. subst pc sub det tdr rdr txeie rtof uif.
    destruct R as (R1 & R2 & R3 & R4 & R5 & R6 & R7). rewrite St in G1. rewrite F1 in G3. rewrite F2 in G4. rewrite F3 in G5. clear Tx St F1 F2 F3 G2.
    destruct s1 as [i1 st1 dr1 mp1 ms1 t15 t35 fe1 tx1 da1 su1 rx1]. prj. subst st1 t15 t35 fe1. destruct K1 as (J1 & J2 & J3 & J4 & J5 & J6 & J7). prj. subst dr1 mp1 su1 rx1.
    cbn [app repeat y_run y_act y_lib y_u y_sub bind]. unfold usart_pending. cbn [u_rdr sc_s]. rewrite R4. cbn [orb]. unfold y_usart, y_usart_rx. cbn [u_rdr sc_s sc_pc]. rewrite R4. unfold y_event at 1. cbn [sc_s sc_pc].
    rewrite E1. cbn [bind u_det]. unfold y_usart_tx. cbn [u_tdr u_cur u_last sc_s sc_pc]. replace (cur <? last) with false by (symmetry; apply Z.ltb_ge; lia). cbn [sc_s s_sub].
    unfold y_event at 1. cbn [s_event sc_s sc_pc s_sub bind]. cbn. do 2 eexists. split; [reflexivity|]. unfold sys_rests, slave_idle, slave_ready. cbn. cbn in J6. destruct J6 as [W1 W2].
    clear - J5 W1 W2 J7 G6 G7 U1 U2 U3. assert (M : msg_ok (set_req (set_resp ms1 (set_len (m_resp ms1) 0)) (set_len (m_req ms1) 0))).
    { destruct W1 as (A1 & A2 & A3 & A4), W2 as (B1 & B2 & B3 & B4). unfold msg_ok, rr_ok. cbn. unfold byte. auto 20 with zarith. }
    auto 40. }
  destruct X as (y1 & t1 & E1 & K1 & O1 & S1 & D1 & I1). rewrite E1. cbn [bind].
  destruct (rests_mains c (n - 5) y1 K1) as (y2 & t2 & E2 & K2 & O2 & S2 & Q2). rewrite E2. cbn [bind]. do 2 eexists. split; [reflexivity|].
  rewrite on_line_app, lib_of_app, sent_app, O1, O2, S1, S2, Q2. auto 10.
Qed.

(** gaps inside a frame *)
Lemma gap_app a b : in_gap (a ++ b) = fold_left (fun acc x => match x with TEv ST15 => true | TEv ST35 => false | _ => acc end) b (in_gap a).
Proof. unfold in_gap. apply fold_left_app. Qed.
Definition signalled (t : list sitem) : Prop :=
  forall t1 b t2, t = t1 ++ TEv (SRx b) :: t2 -> (in_gap t1 = true <-> exists t3, t2 = TEv SFrameErr :: t3).
Definition no_rx (t : list sitem) : bool := forallb (fun x => match x with TEv (SRx _) | TEv SFrameErr => false | _ => true end) t.
Lemma signalled_calm t t' : signalled t -> no_rx t' = true -> signalled (t ++ t').
Proof.
  intros H N t1 b t2 E. 
  assert (X : exists t4, t = t1 ++ TEv (SRx b) :: t4 /\ t2 = t4 ++ t').
  { clear H. revert t1 E N. induction t as [|x t IH]; intros t1 E N; cbn [app] in E.
    - exfalso. subst t'. unfold no_rx in N. rewrite forallb_app in N. apply andb_prop in N as [_ N]. discriminate.
    - destruct t1 as [|y t1]; cbn [app] in E; inversion E; subst.
      + exists t. auto.
      + destruct (IH t1 H1 N) as (t4 & -> & ->). exists t4. auto. }
  destruct X as (t4 & -> & ->). rewrite (H t1 b t4 eq_refl). split; intros (t3 & Q).
  - subst t4. cbn. eauto.
  - destruct t4 as [|z t4]; cbn [app] in Q.
    + subst t'. cbn in N. discriminate.
    + inversion Q; subst. eauto.
Qed.
Lemma signalled_byte t b (g : bool) : signalled t -> in_gap t = g -> signalled (t ++ TEv (SRx b) :: if g then [TEv SFrameErr] else []).
Proof.
  intros H G t1 b' t2 E.
  assert (X : (exists t4, t = t1 ++ TEv (SRx b') :: t4 /\ t2 = t4 ++ TEv (SRx b) :: if g then [TEv SFrameErr] else []) \/ (t1 = t /\ t2 = if g then [TEv SFrameErr] else [])).
  { clear H G. revert t1 E. induction t as [|x t IH]; intros t1 E; cbn [app] in E.
    - destruct t1 as [|y t1]; cbn [app] in E; inversion E; subst; auto.
      exfalso. destruct g; destruct t1 as [|? [|? ?]]; discriminate.
    - destruct t1 as [|y t1]; cbn [app] in E; inversion E; subst.
      + left. exists t. auto.
      + destruct (IH t1 H1) as [(t4 & -> & ->)|[-> ->]]; [left; exists t4; auto|right; auto]. }
  destruct X as [(t4 & -> & ->)|[-> ->]].
  - rewrite (H t1 b' t4 eq_refl). split; intros (t3 & Q).
    + subst t4. cbn. eauto.
    + destruct t4 as [|z t4]; cbn [app] in Q; inversion Q; subst. eauto.
  - rewrite G. destruct g; split; intros Q; eauto; try discriminate. destruct Q; discriminate.
Qed.
Definition gapped (t : list yitem) (y : sys) : Prop :=
  s_sub (sc_s (y_lib y)) = true /\ u_det (y_u y) = in_gap (lib_of t) /\ signalled (lib_of t).
Lemma gapped_calm t t' y y' : gapped t y -> s_sub (sc_s (y_lib y')) = true -> no_rx (lib_of t') = true ->
  u_det (y_u y') = fold_left (fun acc x => match x with TEv ST15 => true | TEv ST35 => false | _ => acc end) (lib_of t') (u_det (y_u y)) -> gapped (t ++ t') y'.
Proof.
  intros (G1 & G2 & G3) S1 N D. split; auto. rewrite lib_of_app, gap_app, <- G2. split; auto. apply signalled_calm; auto.
Qed.
Lemma event_sub e k k' : y_event e k = Ok k' -> s_sub (sc_s k') = s_sub (sc_s k).
Proof.
  unfold y_event. intros E. destruct (s_event e (sc_s k)) as [s'| |] eqn:Q; try discriminate. cbn [bind] in E. inversion E; subst. cbn [sc_s]. destruct e; ev_inv Q; prj; auto.
Qed.
Lemma act_sub c k k' o : s_act c SStep k = Ok (k', o) -> s_sub (sc_s k') = s_sub (sc_s k) /\ no_rx o = true /\ forall g, fold_left (fun acc x => match x with TEv ST15 => true | TEv ST35 => false | _ => acc end) o g = g.
Proof.
  cbn [s_act]. destruct (sc_pc k) as [l|]; intros H.
  - destruct (s_line c l (sc_s k)) as [[[l' s'] o']| |] eqn:E; try discriminate. cbn [bind] in H. inversion H; subst. cbn [sc_s]. split.
    + clear H. destruct l; line_inv E; prj; auto.
    + clear. split; [|intros g]; induction o' as [|x o IH]; auto.
  - inversion H; subst. auto.
Qed.
Lemma gapped_act c a t y y' t' : gapped t y -> y_act c a y = Ok (y', t') -> gapped (t ++ t') y'.
Proof.
  intros G E. assert (SB : s_sub (sc_s (y_lib y)) = true) by apply G. revert E. destruct a; cbn [y_act]; intros E.
  - destruct (y_sub y) as [p|].
    + destruct p; cbn [send_line] in E; try destruct (rd _ _); try discriminate; cbn [bind] in E; inversion E; subst; apply (gapped_calm _ _ y); auto.
    + destruct (s_act c SStep (y_lib y)) as [[k o]| |] eqn:E1; try discriminate. cbn [bind] in E. inversion E; subst. destruct (act_sub _ _ _ _ E1) as (X1 & X2 & X3).
      apply (gapped_calm _ _ y); cbn [y_u y_lib]; rewrite ?lib_of_lib, ?X1, ?X3; auto.
  - destruct (usart_pending _ _).
    + destruct (y_usart _ _) as [[[k u] o]| |] eqn:E1; try discriminate. cbn [bind] in E. inversion E; subst. unfold y_usart in E1.
      destruct (y_usart_rx _ _) as [[[k1 u1] o1]| |] eqn:F1; try discriminate. cbn [bind] in E1.
      destruct (y_usart_tx _ _) as [[[k2 u2] o2]| |] eqn:F2; try discriminate. cbn [bind] in E1.
      destruct (y_usart_rto _ _) as [[[k3 u3] o3]| |] eqn:F3; try discriminate. cbn [bind] in E1. inversion E1; subst.
      assert (A1 : gapped (t ++ o1) (mk_sys k1 u1 (y_sub y))).
      { unfold y_usart_rx in F1. destruct (u_rdr (y_u y)) as [b|]; [|inversion F1; subst; apply (gapped_calm _ _ y); auto].
        destruct (s_rx _); try discriminate. destruct (y_event (SRx b) (y_lib y)) as [ka| |] eqn:Ea; try discriminate. cbn [bind] in F1. assert (Qa := event_sub _ _ _ Ea).
        destruct G as (_ & G2 & G3). destruct (u_det (y_u y)) eqn:D.
        - rewrite SB in F1. destruct (y_event SFrameErr ka) as [kb| |] eqn:Eb; try discriminate. cbn [bind] in F1. inversion F1; subst. assert (Qb := event_sub _ _ _ Eb).
          split; [cbn [y_lib]; congruence|]. rewrite lib_of_app, gap_app. cbn [y_u u_det lib_of flat_map app fold_left]. split; auto.
          exact (signalled_byte _ b true G3 (eq_sym G2)).
        - inversion F1; subst. split; [cbn [y_lib]; congruence|]. rewrite lib_of_app, gap_app. cbn [y_u u_det lib_of flat_map app fold_left]. split; auto.
          exact (signalled_byte _ b false G3 (eq_sym G2)). }
      assert (A2 : gapped ((t ++ o1) ++ o2) (mk_sys k2 u2 (y_sub y))).
      { assert (SB1 : s_sub (sc_s k1) = true) by apply A1. unfold y_usart_tx in F2. destruct (u_tdr u1); [inversion F2; subst; apply (gapped_calm _ _ (mk_sys k2 u2 (y_sub y))); auto|]. destruct (_ <? _).
        - destruct (rd _ _); try discriminate. cbn [bind] in F2. inversion F2; subst. apply (gapped_calm _ _ _ _ A1); auto.
        - rewrite SB1 in F2. destruct (y_event _ _) as [ka| |] eqn:Ea; try discriminate. cbn [bind] in F2. inversion F2; subst. apply event_sub in Ea. apply (gapped_calm _ _ _ _ A1); auto. cbn [y_lib]. congruence. }
      rewrite !app_assoc. assert (SB2 : s_sub (sc_s k2) = true) by apply A2. unfold y_usart_rto in F3. destruct (u_rtof u2).
      * rewrite SB2 in F3. destruct (y_event _ _) as [ka| |] eqn:Ea; try discriminate. cbn [bind] in F3. inversion F3; subst. apply event_sub in Ea. apply (gapped_calm _ _ _ _ A2); auto. cbn [y_lib]. congruence.
      * inversion F3; subst. apply (gapped_calm _ _ _ _ A2); auto.
    + inversion E; subst. apply (gapped_calm _ _ y'); auto.
  - unfold y_timer in E. destruct (u_uif (y_u y)) eqn:U.
    + rewrite SB in E. destruct (y_event _ _) eqn:Ea; try discriminate. cbn [bind] in E. inversion E; subst. apply event_sub in Ea. apply (gapped_calm _ _ y); auto. cbn [y_lib]. congruence.
    + cbn [bind] in E. inversion E; subst. apply (gapped_calm _ _ y); auto.
  - destruct (y_event _ _) eqn:Ea; try discriminate. cbn [bind] in E. inversion E; subst. apply event_sub in Ea. apply (gapped_calm _ _ y); auto. cbn [y_lib]. congruence.
  - inversion E; subst. apply (gapped_calm _ _ y); auto.
  - destruct (u_tdr (y_u y)); inversion E; subst; (apply (gapped_calm _ _ y) || apply (gapped_calm _ _ y')); auto.
  - inversion E; subst. apply (gapped_calm _ _ y); auto.
  - destruct (u_cen (y_u y)) eqn:U; inversion E; subst; (apply (gapped_calm _ _ y) || apply (gapped_calm _ _ y')); auto.
Qed.
Lemma gapped_run c l : forall t y y' t', gapped t y -> y_run c l y = Ok (y', t') -> gapped (t ++ t') y'.
Proof.
  induction l as [|a l IH]; intros t y y' t' A E; cbn [y_run] in E.
  - inversion E; subst. now rewrite !app_nil_r.
  - destruct (y_act c a y) as [[y1 t1]| |] eqn:E1; try discriminate. cbn [bind] in E. destruct (y_run c l y1) as [[y2 t2]| |] eqn:E2; try discriminate. cbn [bind] in E. inversion E; subst.
    rewrite !app_assoc. eapply IH; [|exact E2]. eapply gapped_act; eauto.
Qed.
