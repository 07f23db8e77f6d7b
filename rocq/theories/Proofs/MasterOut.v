(** The master firmware: a request is put on the line. *)
From Verif Require Export Proofs.MasterListen Proofs.MasterTries.
Import Verif.Proofs.MasterWire.

Lemma w_mains_app a b : w_mains (a ++ b) = (w_mains a + w_mains b)%nat.
Proof. unfold w_mains. now rewrite filter_app, app_length. Qed.
Lemma w_shifts_app a b : w_shifts (a ++ b) = (w_shifts a + w_shifts b)%nat.
Proof. unfold w_shifts. now rewrite filter_app, app_length. Qed.
Lemma w_ticks_app a b : w_ticks (a ++ b) = (w_ticks a + w_ticks b)%nat.
Proof. unfold w_ticks. now rewrite filter_app, app_length. Qed.
Definition rx_idle (u : uart) : Prop := u_rdr u = None /\ u_rtof u = false /\ u_det u = false /\ u_uif u = false /\ u_cen u = false.
Definition unsent (l : mpc) : bool := match l with M649 | M651 | M404 => true | _ => false end.
(** send has already cleared the frame-end flag, stopped the timer *)
Definition det_off (sub : option wpc) (l : mpc) : bool := match sub with Some W90 | Some W91 => true | Some _ => false | None => negb (unsent l) end.
Definition cen_off (sub : option wpc) (l : mpc) : bool := match sub with Some W91 => true | Some _ => false | None => negb (unsent l) end.
Definition rx_ready (w : mfw) : Prop :=
  u_rdr (w_u w) = None /\ u_rtof (w_u w) = false /\ u_uif (w_u w) = false /\ (det_off (w_sub w) (mloc (w_lib w)) = true -> u_det (w_u w) = false) /\ (cen_off (w_sub w) (mloc (w_lib w)) = true -> u_cen (w_u w) = false).
Definition left_lines (p : wpc) : nat := match p with W83 _ _ => 7 | W84 _ _ => 6 | W85 _ => 5 | W86 => 4 | W89 => 3 | W90 => 2 | W91 => 1 end.
Definition pot (w : mfw) : nat :=
  m_weight ws (w_lib w) + match w_sub w with Some p => left_lines p | None => if unsent (mloc (w_lib w)) then 7 else 0 end.
Definition out_goal (w : mfw) : Prop := mloc (w_lib w) = M669 /\ w_sub w = None.
Definition to_load (u : uart) : Z := u_last u - u_cur u.

Section out.
Context (c : cfg) (Hc : cfg_master_ok c) (a : api) (F : nat) (V : list vis) (fl0 : flag * flag * flag * Z).
Definition vbytes (v : list vis) : list Z := concat (flat_map (fun x => match x with VSend f => [f] | _ => [] end) v).
Definition stage (t : list witem) (w : mfw) : Prop :=
  match w_sub w with
  | Some (W83 _ _) | Some (W84 _ _) | Some (W85 _) => True
  | Some W86 => sending t (w_lib w) (w_u w)
  | Some _ => sending t (w_lib w) (w_u w) /\ u_txeie (w_u w) = true
  | None => unsent (mloc (w_lib w)) = true /\ quiet (w_u w) /\ u_txeie (w_u w) = false \/
            unsent (mloc (w_lib w)) = false /\ sending t (w_lib w) (w_u w) /\ u_txeie (w_u w) = true
  end.
Record P1 (h : nat) (t : list witem) (w : mfw) : Prop := {
  p_inv : cinv c (m_lib_of t) (mloc (w_lib w)) (mc_s (w_lib w));
  p_q : Qs a F V fl0 (m_lib_of t) (mloc (w_lib w)) (mc_s (w_lib w));
  p_w : wire t w;
  p_h : (length (m_on_line t) <= length (vbytes V) + h)%nat;
  p_rx : rx_ready w;
  p_s : stage t w }.
Lemma p_given h t w : P1 h t w -> rx_given w.
Proof. intros P H. destruct (p_rx _ _ _ P) as (X & _). congruence. Qed.
Lemma p_total h t w x : P1 h t w -> (forall q, x = WReq q -> req_safe q) -> (x = WUsart -> in_send (w_sub w) = false) -> exists w' t', w_act c x w = Ok (w', t').
Proof.
  intros P HR HU. assert (X := Qs_no813 _ _ _ _ _ _ _ (p_q _ _ _ P)). assert (G := p_given _ _ _ P).
  apply (act_total0 c w t x Hc); [apply P|exact X|apply P|exact G|exact HR|exact HU].
Qed.
Lemma p_wire h t w x w' t' : P1 h t w -> (forall q, x = WReq q -> req_safe q) -> (x = WUsart -> in_send (w_sub w) = false) -> w_act c x w = Ok (w', t') -> wire (t ++ t') w'.
Proof. intros P HR HU E. eapply wire_act; eauto; apply P. Qed.
Lemma sending_lib t k u k' o : sending t k u -> finished o = 0%nat -> mm_cur (mc_s k') = mm_cur (mc_s k) -> m_sent o = [] -> sending (t ++ map WLib o) k' u.
Proof.
  intros (i & b & off & R & C1 & C2 & C3 & C4) Fi Cu Se. exists i, b, off. rewrite m_lib1, m_line1. split; [eapply cur_keep; eauto|]. split; auto. split; auto. split; auto.
  rewrite m_sent_app, Se, app_nil_r. auto.
Qed.
(** library events *)
Lemma P1_event h t k u sub e k' o : P1 h t (mk_mfw k u sub) -> sev e -> ev_safe e -> m_act c (MEv e) k = Ok (k', o) -> P1 h (t ++ map WLib o) (mk_mfw k' u sub) /\ mloc k' = mloc k /\ mc_pc k' = mc_pc k /\ can_listen k' = can_listen k.
Proof.
  intros [I Q W H RX ST] He Hs E. cbn [w_lib w_u w_sub] in *. assert (WE := w_ev _ _ _ _ _ E).
  destruct (w_event_inv _ _ _ _ _ WE) as (s' & p & Ev & -> & Eo & L). assert (o = MTEv e :: map MTOut p) by (rewrite <- (m_lib_of_lib o), Eo, m_lib_of_lib; auto). subst o. clear Eo.
  assert (NT : e <> MTxDone) by (intros ->; exact He).
  destruct (ev_fields _ _ _ _ _ Ev) as (F1 & F2 & F3 & F4). assert (W' := wire_event _ _ _ _ _ _ _ _ W WE NT).
  split; [|split; [exact L|split; [reflexivity|]]]; [|unfold can_listen; cbn [mc_s]; rewrite F2, F3; reflexivity].
  assert (SX := ev_same _ _ _ _ _ (m_lib_of t) Ev NT). destruct SX as [S1 S2 S3]. assert (S4 : m_sent (MTEv e :: map MTOut p) = []).
  { rewrite m_sent_app in S1. rewrite <- (app_nil_r (m_sent (m_lib_of t))) in S1 at 2. apply app_inv_head in S1. auto. }
  constructor; cbn [w_lib w_u w_sub]; rewrite ?m_lib1, ?m_line1; auto.
  - rewrite L. eapply cinv_event; eauto.
  - rewrite L. eapply Qs_event; eauto.
  - unfold rx_ready in *. cbn [w_lib w_u w_sub] in *. rewrite L. exact RX.
  - unfold stage in *. cbn [w_lib w_u w_sub] in *. rewrite L. destruct sub as [[]|]; auto; try (destruct ST as [ST1 ST2]; split; auto); try (eapply sending_lib; eauto; fail).
    destruct ST as [ST|(ST1 & ST2 & ST3)]; [left; auto|right]. split; auto. split; auto. eapply sending_lib; eauto.
Qed.
Lemma quiet_not_sending t k u : quiet u -> sending t k u -> u_tdr u = None /\ u_last u = u_cur u.
Proof. intros [A B] (i & b & off & R & C1 & C2 & C3 & _). split; auto. lia. Qed.
(** the base: what has been sent *)
Lemma sent_now h t w : P1 h t w -> unsent (mloc (w_lib w)) = false -> concat (m_sent (m_lib_of t)) = vbytes V ++ request_frame a.
Proof.
  intros P U. assert (Q := p_q _ _ _ P). destruct Q as [_ Q]. assert (B : MasterDrive.base a F (MasterAttempt.sent a V) (m_lib_of t)) by (destruct (mloc (w_lib w)); try discriminate U; first [exact Q | exact (proj1 Q) | destruct Q]).
  destruct B as (_ & _ & B). rewrite sent_visible, B. unfold MasterAttempt.sent, vbytes. rewrite flat_map_app, concat_app. cbn. now rewrite app_nil_r.
Qed.
Lemma sending_a h t k u sub : P1 h t (mk_mfw k u sub) -> unsent (mloc k) = false -> sending t k u ->
  exists i off, mm_cur (mc_s k) = Some i /\ u_cur u = 256 * Z.of_nat i + off /\ u_last u = 256 * Z.of_nat i + flen a - 1 /\ 0 <= off < flen a /\ m_on_line t ++ opt (u_tdr u) ++ skipn (Z.to_nat (off + 1)) (request_frame a) = vbytes V ++ request_frame a.
Proof.
  intros P U (i & b & off & [R1 R2] & C1 & C2 & C3 & C4). assert (Q := p_q _ _ _ P). destruct Q as [_ Q]. cbn [w_lib] in Q.
  assert (B : current (m_lib_of t) = Some a) by (destruct (mloc k); try discriminate U; try destruct Q as [Q _]; try apply Q; destruct Q).
  assert (b = a) by congruence. subst b. exists i, off. rewrite (sent_now _ _ _ P U) in C4. auto.
Qed.
Lemma ws_mloc k : m_weight ws k = match mc_pc k with Some l => ws l | None => S (ws (mloc k)) end.
Proof. unfold m_weight, mloc. destruct (mc_pc k); auto. Qed.
Lemma P1_main h t w : P1 h t w -> exists w' t', w_act c WMain w = Ok (w', t') /\ P1 h (t ++ t') w' /\ (out_goal w' \/ ~ out_goal w /\ (pot w' < pot w)%nat).
Proof.
  intros P. destruct (p_total h t w WMain P) as (w' & t' & E); try discriminate. exists w', t'. split; auto.
  assert (W' := p_wire h t w WMain w' t' P ltac:(discriminate) ltac:(discriminate) E).
  destruct w as [k u sub]. assert (PP := P). destruct P as [I Q W H RX ST]. unfold stage in ST. cbn [w_lib w_u w_sub] in *. cbn [w_act w_lib w_u w_sub] in E. destruct sub as [p|].
  - bnd E. inversion E; subst. clear E. rewrite app_nil_r in *. assert (NG : ~ out_goal (mk_mfw k u (Some p))) by (intros [_ X]; discriminate X).
    assert (LK : mc_pc k = Some M405).
    { unfold wire in W. cbn [w_lib w_u w_sub] in W. destruct p as [?|?|?| | | |]; destruct W as (X & _); try exact X; apply X; discriminate. }
    assert (LM : mloc k = M405) by (unfold mloc; now rewrite LK).
    assert (RX' := RX). destruct RX as (X1 & X2 & X3 & X4 & X5).
    destruct p as [i n|i n|i| | | |]; cbn [w_send_line] in Y; try (inversion Y; subst; split; [constructor; cbn [w_lib w_u w_sub]; auto; try (unfold rx_ready, det_off, cen_off in *; cbn in *; intuition (try discriminate; auto); fail); try (unfold stage; cbn [w_sub w_u w_lib]; auto; fail)|right; split; auto; unfold pot; cbn [w_lib w_sub left_lines]; lia]).
    + bnd Y. bnd Y. inversion Y; subst. split; [|right; split; auto; unfold pot; cbn [w_lib w_sub left_lines]; lia]. constructor; cbn [w_lib w_u w_sub]; auto. unfold stage. cbn [w_sub w_u w_lib].
      unfold wire in W'. cbn [w_lib w_u w_sub] in W'. destruct W' as (_ & [[[Z _] _]|(Z & _)] & _); [discriminate|exact Z].
    + inversion Y; subst. split; [constructor; cbn [w_lib w_u w_sub]; auto; [unfold rx_ready, det_off, cen_off in *; cbn in *; intuition (try discriminate; auto)|]|].
      * destruct ST as [ST1 ST2]. unfold stage. cbn [w_sub w_u w_lib]. right. rewrite LM. split; auto.
      * right. split; auto. unfold pot. cbn [w_lib w_sub left_lines]. rewrite LM. cbn [unsent]. lia.
  - destruct (m_act c MStep k) as [[k' o1]| |] eqn:Y; try discriminate E. cbn [bind] in E. destruct (mc_pc k) as [l|] eqn:PC.
    + cbn [m_act] in Y. rewrite PC in Y. destruct (m_line c l (mc_s k)) as [[[o0 m0] l1]| |] eqn:Y1; try discriminate Y. cbn [bind] in Y. inversion Y; subst. clear Y.
      destruct (match l with M404 => w_call_send k | _ => Ok None end) as [o| |] eqn:Y0; try discriminate E. cbn [bind] in E. inversion E; subst. clear E. cbn [w_lib w_u w_sub] in *.
      assert (LK : mloc k = l) by (unfold mloc; now rewrite PC). rewrite LK in *.
      assert (LK' : mloc (mk_mconf m0 o0) = m_next o0 m0) by (unfold mloc; cbn; destruct o0; auto).
      destruct (Qs_line c a F V fl0 _ _ _ _ _ _ Hc I Q Y1) as [Q' QL].
      assert (I' : cinv c (m_lib_of t ++ map MTOut l1) (m_next o0 m0) m0) by (eapply cinv_line; eauto).
      assert (BS := mc_st _ _ _ (Minv_ctl _ _ _ _ (ci_inv _ _ _ _ I))). cbn [mst_ok] in BS.
      destruct (pc404_dec k) as [P4|P4].
      * assert (EL : l = M404) by congruence. clear LK. subst l. assert (LK : mloc k = M404) by (unfold mloc; now rewrite PC). cbn [unsent] in ST. destruct ST as [(_ & ST1 & ST2)|(ST1 & _)]; [|discriminate].
        assert (LL := Y1). mline_inv LL. cbn [m_next] in *.
        assert (RP : exists i0 n0, o = Some (W83 i0 n0)).
        { unfold w_call_send in Y0. bnd Y0. inversion Y0; subst. destruct (_ && _) eqn:RP; [eauto|].
          exfalso. destruct (Minv_current _ _ _ _ (ci_inv _ _ _ _ I) eq_refl) as (i' & a' & mm & C' & Cu' & N' & Hm & Hr & _).
          assert (CM : cur_msg (mc_s k) = Ok (i', mm)) by (apply cur_msg_inv; auto). rewrite CM in Y. inversion Y; subst.
          assert (Pos := request_frame_pos a'). destruct (has_req_byte _ a' 0 Hm Hr ltac:(lia)) as (_ & Z1 & Z2). destruct Hm as [(Z3 & _) _]. rewrite Z3 in RP. cbn [andb] in RP. rewrite <- Z1 in RP. lia. }
        split. { destruct RP as (i0 & n0 & ->). constructor; cbn [w_lib w_u w_sub]; rewrite ?m_lib1, ?m_line1; rewrite ?LK'; auto; [|exact Logic.I].
          destruct RX as (X1 & X2 & X3 & _). unfold rx_ready. cbn. repeat split; auto; discriminate. }
        right. split; [intros [XX _]; cbn [w_lib] in XX; rewrite LK in XX; discriminate|]. unfold pot. cbn [w_lib w_sub]. rewrite !ws_mloc. cbn [mc_pc]. rewrite PC, LK. cbn [unsent ws].
        unfold w_call_send in Y0. bnd Y0. inversion Y0; subst. destruct (_ && _); cbn [left_lines]; lia.
      * assert (o = None) by (destruct l; try (inversion Y0; auto; fail); congruence). subst o. clear Y0.
        assert (FS : finished (map MTOut l1) = 0%nat /\ m_sent (map MTOut l1) = [] /\ (unsent l = false -> mm_cur m0 = mm_cur (mc_s k)) /\ unsent (m_next o0 m0) = unsent l /\
                     (m_next o0 m0 = M669 \/ l <> M669 /\ (m_weight ws (mk_mconf m0 o0) < ws l)%nat)).
        { destruct Q as [_ Q]. clear - Q QL Y1 P4 PC BS LK.
          destruct l; try (destruct Q; fail); try congruence; mline_inv Y1; cbn [m_next]; unfold m_dispatch; mprj; rewrite ?BS; cbn [unsent]; unfold m_weight; cbn [mc_pc ws map finished]; repeat split; auto; try (right; split; [discriminate|lia]); try discriminate.
          - discriminate (QL eq_refl).
          - destruct Q as [_ Q]. rewrite Q in X. discriminate X. }
        destruct FS as (FS1 & FS2 & FS3 & FS4 & FS5).
        split. { constructor; cbn [w_lib w_u w_sub]; rewrite ?m_lib1, ?m_line1; rewrite ?LK'; auto.
          { unfold rx_ready in *. cbn [w_lib w_u w_sub] in *. rewrite LK in RX. rewrite LK'. unfold det_off, cen_off in *. rewrite FS4. exact RX. }
          unfold stage. cbn [w_sub w_u w_lib]. rewrite LK', FS4. destruct ST as [ST|(ST1 & ST2 & ST3)]; [left; auto|right]. split; auto. split; auto. eapply sending_lib; eauto. }
        destruct FS5 as [FS5|[FS5 FS6]]; [left; split; auto; cbn [w_lib]; rewrite LK'; auto|right].
        split; [intros [X _]; cbn [w_lib] in X; congruence|]. unfold pot. cbn [w_lib w_sub]. rewrite LK', LK, FS4. rewrite (ws_mloc k), PC. lia.
    + cbn [m_act] in Y. rewrite PC in Y. inversion Y; subst. clear Y. cbn [bind] in E. inversion E; subst. clear E.
      assert (LK : mloc (mk_mconf (mc_s k) (Some (m_dispatch (mc_s k)))) = mloc k) by (unfold mloc; cbn; now rewrite PC).
      cbn [map] in *. rewrite app_nil_r in *. split. { constructor; cbn [w_lib w_u w_sub mc_s]; rewrite ?LK; auto; [unfold rx_ready in *; cbn [w_lib w_u w_sub] in *; rewrite LK; exact RX|]. unfold stage. cbn [w_sub w_u w_lib]. rewrite LK. exact ST. }
      destruct (mloc k) eqn:LL; try (destruct Q as [_ []]; fail); try (left; split; [cbn [w_lib]; rewrite LK; reflexivity|reflexivity]; fail);
        right; (split; [intros [X _]; cbn [w_lib] in X; congruence|]); unfold pot; cbn [w_lib w_sub]; rewrite LK, LL, !ws_mloc; cbn [mc_pc]; rewrite PC, LL; unfold mloc in LL; rewrite PC in LL; rewrite LL; cbn; lia.
Qed.

Lemma out_idle h t w : P1 h t w -> out_goal w -> rx_idle (w_u w).
Proof. intros P [G1 G2]. destruct (p_rx _ _ _ P) as (X1 & X2 & X3 & X4 & X5). rewrite G1, G2 in X4, X5. cbn in X4, X5. unfold rx_idle. repeat split; auto. Qed.
Definition Fin (w : mfw) : Prop := u_tdr (w_u w) = None /\ u_txeie (w_u w) = true /\ u_last (w_u w) <= u_cur (w_u w).
Lemma sending_shift t k u b d r x f ce ui : u_tdr u = Some b -> sending t k u -> sending (t ++ [WLine b]) k (mk_uart (u_cur u) (u_last u) d None r x f ce ui).
Proof.
  intros E (i & q & off & R & C1 & C2 & C3 & C4). exists i, q, off. rewrite m_lib_of_app, m_on_line_app. change (m_lib_of [WLine b]) with (@nil mitem); change (m_on_line [WLine b]) with [b]. cbn [u_cur u_last u_tdr opt]. rewrite app_nil_r. cbn [app].
  split; auto. split; auto. split; auto. split; auto. rewrite <- C4, E. cbn [opt]. now rewrite <- app_assoc.
Qed.
Lemma P1_shift h t w : P1 h t w -> exists w' t', w_act c WShift w = Ok (w', t') /\ P1 (S h) (t ++ t') w' /\ u_tdr (w_u w') = None /\ w_lib w' = w_lib w /\ w_sub w' = w_sub w /\ to_load (w_u w') = to_load (w_u w).
Proof.
  intros P. destruct w as [k u sub]. assert (E : exists w' t', w_act c WShift (mk_mfw k u sub) = Ok (w', t')) by (apply (p_total h t); auto; discriminate). destruct E as (w' & t' & E). exists w', t'. split; auto.
  assert (W' := p_wire h t _ WShift w' t' P ltac:(discriminate) ltac:(discriminate) E). destruct P as [I Q W H RX ST]. cbn [w_act w_lib w_u w_sub] in *. destruct (u_tdr u) as [b|] eqn:TD; inversion E; subst; clear E.
  - split; [|cbn; auto]. constructor; cbn [w_lib w_u w_sub]; rewrite ?m_lib_of_app, ?m_on_line_app, ?app_length; change (m_lib_of [WLine b]) with (@nil mitem); change (m_on_line [WLine b]) with [b]; cbn [length]; rewrite ?app_nil_r; auto; [lia|].
    unfold stage in *. cbn [w_sub w_u w_lib] in *. destruct sub as [[]|]; auto; try (eapply sending_shift; eauto; fail); try (destruct ST as [ST1 ST2]; split; [eapply sending_shift; eauto|auto]; fail).
    destruct ST as [(_ & (ST1 & _) & _)|(ST1 & ST2 & ST3)]; [congruence|right]. split; auto. split; auto. eapply sending_shift; eauto.
  - cbn. split; auto. rewrite app_nil_r in *. constructor; cbn [w_lib w_u w_sub]; auto. lia.
Qed.
Lemma P1_load h t w : P1 h t w -> Fin w \/ exists w' t', w_act c WUsart w = Ok (w', t') /\ P1 h (t ++ t') w' /\ w_lib w' = w_lib w /\ w_sub w' = w_sub w /\ to_load (w_u w') <= to_load (w_u w) /\
  (u_tdr (w_u w) = None -> u_txeie (w_u w) = true -> to_load (w_u w') < to_load (w_u w)).
Proof.
  intros P. destruct (w_pending (w_lib w) (w_u w)) eqn:PE.
  - destruct (p_rx _ _ _ P) as (X1 & X2 & X3 & X4 & X5). unfold w_pending in PE. rewrite X1, X2, orb_false_r in PE. cbn [orb] in PE. destruct (u_tdr (w_u w)) eqn:TD; [discriminate|].
    destruct (Z.lt_decidable (u_cur (w_u w)) (u_last (w_u w))) as [L|L]; [right|left; split; auto; split; auto; lia].
    assert (NS : in_send (w_sub w) = false). { destruct (in_send (w_sub w)) eqn:NS; auto. assert (W := p_w _ _ _ P). unfold wire in W. destruct (w_sub w) as [[]|]; try discriminate NS; destruct W as (_ & _ & W & _); congruence. }
    assert (E : exists w' t', w_act c WUsart w = Ok (w', t')) by (apply (p_total h t); auto; discriminate). destruct E as (w' & t' & E). exists w', t'. split; auto.
    assert (W' := p_wire h t _ WUsart w' t' P ltac:(discriminate) ltac:(auto) E). cbn [w_act] in E. assert (PX : w_pending (w_lib w) (w_u w) = true) by (unfold w_pending; rewrite X1, TD, PE; auto).
    rewrite PX in E. unfold w_usart, w_usart_rx in E. rewrite X1 in E. cbn [bind] in E. unfold w_usart_tx in E. rewrite TD in E. replace (u_cur (w_u w) <? u_last (w_u w)) with true in E by lia.
    destruct (req_byte (w_lib w) (u_cur (w_u w) + 1)) as [b| |] eqn:RB; try discriminate E. cbn [bind] in E. unfold w_usart_rto in E. cbn [u_rtof] in E. rewrite X2 in E. cbn [bind app] in E. inversion E; subst w' t'. clear E.
    cbn [w_lib w_sub w_u]. split; [|unfold to_load; cbn [u_last u_cur]; repeat split; auto; lia]. rewrite app_nil_r in *. destruct P as [I Q W H RX ST]. constructor; cbn [w_lib w_u w_sub]; auto; [unfold rx_ready in *; cbn in *; auto|].
    unfold wire in W'. unfold stage in *. cbn [w_sub w_u w_lib] in *.
    assert (SN : w_sub w <> None \/ unsent (mloc (w_lib w)) = false).
    { destruct (w_sub w) as [[]|]; try (left; discriminate). right. destruct ST as [(ST1 & (_ & ST2) & _)|(ST1 & _)]; auto. lia. }
    destruct (w_sub w) as [[]|]; try discriminate NS; destruct W' as (_ & [[[Z _] _]|(Z & _)] & _); try discriminate; auto.
    destruct SN as [SN|SN]; [congruence|]. right. auto.
  - right. exists w, []. cbn [w_act]. rewrite PE, app_nil_r. split; auto. split; auto. split; auto. split; auto. split; [lia|]. intros TD TX. unfold w_pending in PE. rewrite TD, TX in PE. rewrite !orb_true_r in PE. discriminate.
Qed.
Lemma P1_plain h t w x : P1 h t w -> w_plain x = true -> x <> WMain -> (forall q, x = WReq q -> req_safe q) -> exists w' t', w_act c x w = Ok (w', t') /\ P1 h (t ++ t') w' /\ mloc (w_lib w') = mloc (w_lib w) /\ mc_pc (w_lib w') = mc_pc (w_lib w) /\ w_sub w' = w_sub w /\ w_u w' = w_u w.
Proof.
  intros P Hx NM HR. destruct (p_total h t w x P HR) as (w' & t' & E); [intros ->; discriminate|]. exists w', t'. split; auto. destruct w as [k u sub]. destruct x; try discriminate Hx; try congruence; cbn [w_act w_lib w_u w_sub] in E.
  - unfold w_event in E. destruct (m_act c (MEv MTick) k) as [[k' o]| |] eqn:Y; try discriminate E. cbn [bind] in E. inversion E; subst. destruct (P1_event h t k u sub MTick k' o P Logic.I Logic.I Y) as (A1 & A2 & A3 & _). cbn [w_lib w_sub w_u]. auto.
  - unfold w_event in E. destruct (m_act c (MEv (MReq a0)) k) as [[k' o]| |] eqn:Y; try discriminate E. cbn [bind] in E. inversion E; subst. destruct (P1_event h t k u sub (MReq a0) k' o P Logic.I (HR _ eq_refl) Y) as (A1 & A2 & A3 & _). cbn [w_lib w_sub w_u]. auto.
Qed.
Lemma weight_pos k : (1 <= m_weight ws k)%nat.
Proof. rewrite ws_mloc. destruct (mc_pc k); [|lia]. destruct m; cbn; lia. Qed.
Lemma weight_7 k : (m_weight ws k <= 7)%nat.
Proof. rewrite ws_mloc. destruct (mc_pc k) as [[]|]; cbn; try lia. destruct (mloc k); cbn; lia. Qed.
Lemma pot_14 w : w_sub w = None -> (pot w <= 14)%nat.
Proof. intros E. unfold pot. rewrite E. assert (X := weight_7 (w_lib w)). destruct (unsent _); lia. Qed.
Lemma pot_same w w' : mloc (w_lib w') = mloc (w_lib w) -> mc_pc (w_lib w') = mc_pc (w_lib w) -> w_sub w' = w_sub w -> pot w' = pot w.
Proof. intros A B C. unfold pot. now rewrite !ws_mloc, A, B, C. Qed.
Lemma goal_same w w' : mloc (w_lib w') = mloc (w_lib w) -> w_sub w' = w_sub w -> out_goal w -> out_goal w'.
Proof. intros A B [C D]. split; congruence. Qed.
Lemma fin_line h t w : P1 h t w -> Fin w -> w_sub w = None /\ unsent (mloc (w_lib w)) = false \/ w_sub w <> None.
Proof. intros P (F1 & F2 & F3). destruct (w_sub w) eqn:Sb; [right; discriminate|left]. split; auto. assert (X := p_s _ _ _ P). unfold stage in X. rewrite Sb in X. destruct X as [(_ & _ & X)|(X & _)]; congruence. Qed.
Lemma fin_sent h t w : P1 h t w -> Fin w -> m_on_line t = vbytes V ++ request_frame a.
Proof.
  intros P (F1 & F2 & F3). destruct w as [k u sub]. cbn [w_u] in *. assert (ST := p_s _ _ _ P). unfold stage in ST. cbn [w_sub w_lib w_u] in ST.
  assert (W := p_w _ _ _ P). unfold wire in W. cbn [w_lib w_u w_sub] in W.
  assert (X : unsent (mloc k) = false /\ sending t k u).
  { destruct sub as [[]|].
    1-3: destruct W as (_ & _ & W & _); congruence.
    5: { destruct ST as [(_ & _ & X)|(X1 & X2 & _)]; [congruence|auto]. }
    all: destruct W as (W & _); specialize (W ltac:(discriminate)); unfold calls in W; (split; [unfold mloc; rewrite W; reflexivity|]); try exact ST; try exact (proj1 ST). }
  destruct X as [U SN]. destruct (sending_a _ _ _ _ _ P U SN) as (i & off & C & C1 & C2 & C3 & C4). rewrite <- C4, F1. cbn [opt app]. rewrite skipn_all2; [now rewrite app_nil_r|]. unfold flen in *. lia.
Qed.
Lemma fin_h h t w : P1 h t w -> Fin w -> (length (request_frame a) <= h)%nat.
Proof. intros P F'. assert (X := fin_sent _ _ _ P F'). assert (Y := p_h _ _ _ P). rewrite X, app_length in Y. lia. Qed.
Lemma safe_cons x l : w_reqs_safe (x :: l) -> (forall q, x = WReq q -> req_safe q) /\ w_reqs_safe l.
Proof. intros H. split; [intros q ->; apply H; now left|intros q Hq; apply H; now right]. Qed.
(** the main program hands the request to the driver *)
Lemma send_run l : forall h t w, P1 h t w -> w_reqs_safe l -> forallb w_tx_only l = true -> (h + w_shifts l < length (request_frame a))%nat ->
  exists w' t', w_run c l w = Ok (w', t') /\ P1 (h + w_shifts l) (t ++ t') w' /\ (out_goal w' \/ (~ out_goal w /\ (pot w' + w_mains l <= pot w)%nat)).
Proof.
  induction l as [|x l IH]; intros h t w P HS Hl Hh.
  - exists w, []. rewrite app_nil_r. cbn. rewrite Nat.add_0_r. split; auto. split; auto. destruct (w_sub w) eqn:Sb; [right; split; [intros [_ X]; congruence|lia]|]. destruct (mloc (w_lib w)) eqn:L; try (left; split; auto; fail); right; (split; [intros [X _]; congruence|lia]).
  - cbn [forallb] in Hl. apply andb_prop in Hl as [Hx Hl]. apply safe_cons in HS as [HR HS].
    assert (X : exists h' w' t', w_act c x w = Ok (w', t') /\ P1 h' (t ++ t') w' /\ (h' = h + w_shifts [x])%nat /\ (out_goal w' \/ (~ out_goal w /\ (pot w' + w_mains [x] <= pot w)%nat))).
    { destruct x; try discriminate Hx.
      - destruct (P1_main _ _ _ P) as (w' & t' & E & P' & G). exists h, w', t'. split; auto. split; auto. split; [cbn; lia|]. destruct G as [G|[G1 G2]]; auto. right. split; auto. cbn. lia.
      - destruct (P1_load _ _ _ P) as [F1|(w' & t' & E & P' & L & B & _)]. { apply (fin_h _ _ _ P) in F1. lia. } exists h, w', t'. split; auto. split; auto. split; [cbn; lia|].
        destruct (pot_same w w'); try congruence. destruct (w_sub w) eqn:Sb; [right; split; [intros [_ X]; congruence|cbn; lia]|]. destruct (mloc (w_lib w)) eqn:ML; try (left; split; congruence); right; (split; [intros [X _]; congruence|cbn; lia]).
      - destruct (P1_plain _ _ _ WTick P) as (w' & t' & E & P' & L & Pc & B & _); auto; try discriminate. exists h, w', t'. split; auto. split; auto. split; [cbn; lia|].
        assert (PS := pot_same w w' L Pc B). destruct (w_sub w) eqn:Sb; [right; split; [intros [_ X]; congruence|cbn; lia]|]. destruct (mloc (w_lib w)) eqn:ML; try (left; split; congruence); right; (split; [intros [X _]; congruence|cbn; lia]).
      - destruct (P1_plain _ _ _ (WReq a0) P) as (w' & t' & E & P' & L & Pc & B & _); auto; try discriminate. exists h, w', t'. split; auto. split; auto. split; [cbn; lia|].
        assert (PS := pot_same w w' L Pc B). destruct (w_sub w) eqn:Sb; [right; split; [intros [_ X]; congruence|cbn; lia]|]. destruct (mloc (w_lib w)) eqn:ML; try (left; split; congruence); right; (split; [intros [X _]; congruence|cbn; lia]).
      - destruct (P1_shift _ _ _ P) as (w' & t' & E & P' & _ & L & B & _). exists (S h), w', t'. split; auto. split; auto. split; [cbn; lia|].
        destruct (pot_same w w'); try congruence. destruct (w_sub w) eqn:Sb; [right; split; [intros [_ X]; congruence|cbn; lia]|]. destruct (mloc (w_lib w)) eqn:ML; try (left; split; congruence); right; (split; [intros [X _]; congruence|cbn; lia]). }
    destruct X as (h' & w1 & t1 & E & P' & Eh & G). change (x :: l) with ([x] ++ l) in *. rewrite w_shifts_app in *. rewrite w_mains_app.
    destruct (IH h' (t ++ t1) w1 P' HS Hl ltac:(lia)) as (w' & t' & R & P2 & G2). exists w', (t1 ++ t'). cbn [w_run app]. rewrite E. cbn [bind]. rewrite R. cbn [bind]. split; auto. rewrite app_assoc. replace (h + (w_shifts [x] + w_shifts l))%nat with (h' + w_shifts l)%nat by lia. split; auto.
    destruct G2 as [G2|[G2 G3]]; auto. destruct G as [G|[G4 G5]]; [contradiction|]. right. split; auto. lia.
Qed.
(** the bytes leave *)
Definition fin_split (l : list wact) (t : list witem) (w : mfw) : Prop :=
  exists A B h' w' t', l = A ++ WUsart :: B /\ w_run c A w = Ok (w', t') /\ P1 h' (t ++ t') w' /\ out_goal w' /\ Fin w'.
Definition run_to (l : list wact) (t : list witem) (w : mfw) (R : mfw -> Prop) : Prop :=
  exists h' w' t', w_run c l w = Ok (w', t') /\ P1 h' (t ++ t') w' /\ out_goal w' /\ R w'.
Lemma goal_txeie h t w : P1 h t w -> out_goal w -> u_txeie (w_u w) = true /\ 0 <= to_load (w_u w).
Proof.
  intros P [G1 G2]. assert (ST := p_s _ _ _ P). unfold stage in ST. rewrite G1, G2 in ST. destruct ST as [(X & _)|(_ & X1 & X2)]; [discriminate|]. split; auto.
  destruct X1 as (i & q & off & R & C1 & C2 & C3 & C4). unfold to_load. lia.
Qed.
Lemma out_act x h t w : P1 h t w -> out_goal w -> w_tx_only x = true -> (forall q, x = WReq q -> req_safe q) ->
  x = WUsart /\ Fin w \/ exists h' w' t', w_act c x w = Ok (w', t') /\ P1 h' (t ++ t') w' /\ out_goal w' /\ to_load (w_u w') <= to_load (w_u w) /\ (u_tdr (w_u w) = None -> u_tdr (w_u w') = None \/ to_load (w_u w') < to_load (w_u w)) /\
    (x = WShift -> u_tdr (w_u w') = None) /\ (x = WUsart -> u_tdr (w_u w) = None -> to_load (w_u w') < to_load (w_u w)).
Proof.
  intros P G Hx HR. destruct (goal_txeie _ _ _ P G) as [TX _]. destruct x; try discriminate Hx.
  - right. destruct (P1_main _ _ _ P) as (w' & t' & E & P' & G'). destruct G' as [G'|[G1 G2]]; [|contradiction]. exists h, w', t'. split; auto. split; auto. split; auto.
    assert (U : w_u w' = w_u w). { destruct G as [_ G]. cbn [w_act] in E. rewrite G in E. destruct (m_act c MStep (w_lib w)) as [[? ?]| |]; try discriminate E. cbn [bind] in E. destruct (match mc_pc (w_lib w) with Some M404 => _ | _ => _ end); try discriminate E. cbn [bind] in E. inversion E; auto. }
    rewrite U. split; [lia|]. split; auto. split; discriminate.
  - destruct (P1_load _ _ _ P) as [F1|(w' & t' & E & P' & L & B & T1 & T2)]; [left; auto|right]. exists h, w', t'. split; auto. split; auto. split; [apply (goal_same w w'); [congruence|congruence|exact G]|]. split; auto. split; auto. split; [discriminate|auto].
  - right. destruct (P1_plain _ _ _ WTick P) as (w' & t' & E & P' & L & Pc & B & U); auto; try discriminate. exists h, w', t'. split; auto. split; auto. split; [apply (goal_same w w'); [congruence|congruence|exact G]|]. rewrite U. split; [lia|]. split; auto. split; discriminate.
  - right. destruct (P1_plain _ _ _ (WReq a0) P) as (w' & t' & E & P' & L & Pc & B & U); auto; try discriminate. exists h, w', t'. split; auto. split; auto. split; [apply (goal_same w w'); [congruence|congruence|exact G]|]. rewrite U. split; [lia|]. split; auto. split; discriminate.
  - right. destruct (P1_shift _ _ _ P) as (w' & t' & E & P' & T1 & L & B & T2). exists (S h), w', t'. split; auto. split; auto. split; [apply (goal_same w w'); [congruence|congruence|exact G]|]. split; [lia|]. split; auto. split; auto. discriminate.
Qed.
Lemma out_run (J : mfw -> Prop) l : (forall x h t w h' w' t', In x l -> P1 h t w -> out_goal w -> J w -> w_act c x w = Ok (w', t') -> P1 h' (t ++ t') w' -> out_goal w' -> to_load (w_u w') <= to_load (w_u w) -> (u_tdr (w_u w) = None -> u_tdr (w_u w') = None \/ to_load (w_u w') < to_load (w_u w)) -> J w') ->
  forall h t w, P1 h t w -> out_goal w -> J w -> w_reqs_safe l -> forallb w_tx_only l = true -> fin_split l t w \/ run_to l t w J.
Proof.
  induction l as [|x l IH]; intros HJ h t w P G Jw HS Hl.
  - right. exists h, w, []. rewrite app_nil_r. auto.
  - cbn [forallb] in Hl. apply andb_prop in Hl as [Hx Hl]. apply safe_cons in HS as [HR HS].
    destruct (out_act x h t w P G Hx HR) as [[-> F1]|(h1 & w1 & t1 & E & P' & G' & T1 & T2 & _)].
    + left. exists [], l, h, w, []. rewrite app_nil_r. auto.
    + assert (J1 : J w1) by (eapply (HJ x h t w h1 w1 t1); eauto; left; reflexivity).
      destruct (IH ltac:(intros y hy ty wy hy' wy' ty' Hy; apply HJ; right; exact Hy) h1 (t ++ t1) w1 P' G' J1 HS Hl) as [(A & B & h' & w' & t' & -> & R & P2 & G2 & F2)|(h' & w' & t' & R & P2 & G2 & J2)].
      * left. exists (x :: A), B, h', w', (t1 ++ t'). cbn [w_run]. rewrite E. cbn [bind]. rewrite R. cbn [bind]. rewrite app_assoc. auto.
      * right. exists h', w', (t1 ++ t'). cbn [w_run]. rewrite E. cbn [bind]. rewrite R. cbn [bind]. rewrite app_assoc. auto.
Qed.
Lemma fin_split_app a1 l t w h w1 t1 : w_run c a1 w = Ok (w1, t1) -> P1 h (t ++ t1) w1 -> fin_split l (t ++ t1) w1 -> fin_split (a1 ++ l) t w.
Proof.
  intros R _ (A & B & h' & w' & t' & -> & R' & P2 & G2 & F2). exists (a1 ++ A), B, h', w', (t1 ++ t'). rewrite <- app_assoc. split; auto. rewrite w_run_app, R. cbn [bind]. rewrite R'. cbn [bind]. rewrite app_assoc. auto.
Qed.
Lemma fin_split_l a1 l t w : fin_split a1 t w -> fin_split (a1 ++ l) t w.
Proof. intros (A & B & h' & w' & t' & -> & R). exists A, (B ++ l), h', w', t'. rewrite <- app_assoc. split; auto. Qed.
Lemma rounds_out n l : w_rounds n l -> forall h t w, P1 h t w -> out_goal w -> w_reqs_safe l -> forallb w_tx_only l = true -> to_load (w_u w) + 1 <= Z.of_nat n -> fin_split l t w.
Proof.
  induction 1 as [l|n a1 b1 l Hr IH]; intros h t w P G HS Hl Hn.
  - destruct (goal_txeie _ _ _ P G). lia.
  - rewrite forallb_app in Hl. apply andb_prop in Hl as [Ha Hl]. cbn [forallb] in Hl. apply andb_prop in Hl as [_ Hl]. rewrite forallb_app in Hl. apply andb_prop in Hl as [Hb Hl]. cbn [forallb] in Hl. apply andb_prop in Hl as [_ Hl].
    assert (HS1 : w_reqs_safe a1) by (intros q Hq; apply HS; apply in_or_app; auto).
    assert (HS2 : w_reqs_safe b1) by (intros q Hq; apply HS; apply in_or_app; right; right; apply in_or_app; auto).
    assert (HS3 : w_reqs_safe l) by (intros q Hq; apply HS; apply in_or_app; right; right; apply in_or_app; right; right; auto).
    assert (K1 : to_load (w_u w) <= to_load (w_u w)) by lia.
    destruct (out_run (fun w' => to_load (w_u w') <= to_load (w_u w)) a1 ltac:(clear; intros x h t w0 h' w' t' _ _ _ X _ _ _ Y _; exact (Z.le_trans _ _ _ Y X)) h t w P G K1 HS1 Ha) as [X|(h1 & w1 & t1 & R1 & P1' & G1 & L1)]; [apply fin_split_l; exact X|].
    eapply fin_split_app; eauto. destruct (out_act WShift h1 _ w1 P1' G1 eq_refl ltac:(discriminate)) as [[X _]|(h2 & w2 & t2 & E2 & P2 & G2 & T1 & _ & T2 & _)]; [discriminate|]. specialize (T2 eq_refl).
    change (WShift :: b1 ++ WUsart :: l) with ([WShift] ++ b1 ++ WUsart :: l). assert (R2 : w_run c [WShift] w1 = Ok (w2, t2)) by (cbn [w_run]; rewrite E2; cbn [bind]; now rewrite app_nil_r).
    eapply fin_split_app; eauto.
    assert (K2 : to_load (w_u w2) <= to_load (w_u w2) /\ (u_tdr (w_u w2) = None \/ to_load (w_u w2) < to_load (w_u w2))) by (split; [lia|auto]).
    destruct (out_run (fun w' => to_load (w_u w') <= to_load (w_u w2) /\ (u_tdr (w_u w') = None \/ to_load (w_u w') < to_load (w_u w2))) b1 ltac:(clear; intros x h t w0 h' w' t' _ _ _ [X1 X2] _ _ _ Y Z; split; [lia|]; destruct X2 as [X2|X2]; [destruct (Z X2) as [Z1|Z1]; [auto|right; lia]|right; lia]) h2 _ w2 P2 G2 K2 HS2 Hb) as [X|(h3 & w3 & t3 & R3 & P3 & G3 & L3 & L4)]; [apply fin_split_l; exact X|].
    eapply fin_split_app; eauto. destruct (out_act WUsart h3 _ w3 P3 G3 eq_refl ltac:(discriminate)) as [[_ F3]|(h4 & w4 & t4 & E4 & P4 & G4 & T3 & _ & _ & T4)].
    + exists [], l, h3, w3, []. rewrite app_nil_r. auto.
    + change (WUsart :: l) with ([WUsart] ++ l). assert (R4 : w_run c [WUsart] w3 = Ok (w4, t4)) by (cbn [w_run]; rewrite E4; cbn [bind]; now rewrite app_nil_r).
      eapply fin_split_app; eauto. eapply IH; eauto. destruct L4 as [L4|L4]; [specialize (T4 eq_refl L4)|]; lia.
Qed.
Lemma loaded h t w : P1 h t w -> out_goal w -> to_load (w_u w) + 1 <= Z.of_nat (length (request_frame a)).
Proof.
  intros P [G1 G2]. assert (ST := p_s _ _ _ P). unfold stage in ST. rewrite G1, G2 in ST. destruct ST as [(X & _)|(_ & X1 & X2)]; [discriminate|].
  destruct w as [k u sub]. cbn [w_lib w_u w_sub] in *. assert (U : unsent (mloc k) = false) by (rewrite G1; reflexivity). destruct (sending_a _ _ _ _ _ P U X1) as (i & off & C & C1 & C2 & C3 & C4). unfold to_load, flen in *. lia.
Qed.
(** the request is on the line *)
Lemma out_phase l1 l2 t w : P1 0 t w -> w_sub w = None -> w_reqs_safe (l1 ++ l2) -> forallb w_tx_only l1 = true -> forallb w_tx_only l2 = true -> (14 <= w_mains l1)%nat -> (w_shifts l1 < length (request_frame a))%nat ->
  w_rounds (length (request_frame a)) l2 ->
  exists A B h' w' t', l2 = A ++ WUsart :: B /\ w_run c (l1 ++ A) w = Ok (w', t') /\ P1 h' (t ++ t') w' /\ out_goal w' /\ Fin w'.
Proof.
  intros P Sb HS H1 H2 M1 S1 R2. assert (HS1 : w_reqs_safe l1) by (intros q Hq; apply HS; apply in_or_app; auto). assert (HS2 : w_reqs_safe l2) by (intros q Hq; apply HS; apply in_or_app; auto).
  destruct (send_run l1 0 t w P HS1 H1 ltac:(lia)) as (w1 & t1 & R & P' & G). cbn [Nat.add] in P'.
  assert (G' : out_goal w1). { destruct G as [G|[_ G]]; auto. assert (X := pot_14 w Sb). unfold pot in G at 1. assert (Y := weight_pos (w_lib w1)). lia. }
  destruct (rounds_out _ _ R2 _ _ _ P' G' HS2 H2 (loaded _ _ _ P' G')) as (A & B & h' & w' & t' & -> & R' & P2 & G2 & F2).
  exists A, B, h', w', (t1 ++ t'). split; auto. rewrite w_run_app, R. cbn [bind]. rewrite R'. cbn [bind]. rewrite app_assoc. auto.
Qed.
End out.
