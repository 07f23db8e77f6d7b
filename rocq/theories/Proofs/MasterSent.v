(** The master firmware: the request's bytes have left when the transmitting part of an exchange is over. *)
From Verif Require Export Proofs.MasterLines.
Import Verif.Proofs.MasterWire.

Lemma w_run_split c l1 l2 w w' t : w_run c (l1 ++ l2) w = Ok (w', t) -> exists w1 t1 t2, w_run c l1 w = Ok (w1, t1) /\ w_run c l2 w1 = Ok (w', t2) /\ t = t1 ++ t2.
Proof.
  rewrite w_run_app. destruct (w_run c l1 w) as [[w1 t1]| |]; cbn [bind]; try discriminate. destruct (w_run c l2 w1) as [[w2 t2]| |] eqn:E; cbn [bind]; try discriminate. intros H; inversion H; subst. exists w1, t1, t2. auto.
Qed.
Section Sent.
Context (c : cfg) (Hc : cfg_master_ok c) (a : api).
Notation T := (u32 (c_timeout c)).
Notation len := (length (request_frame a)).
Lemma line_sent sd out wt F V r0 lo t w : forallb w_tx_only sd = true -> (14 <= w_mains sd)%nat -> (w_shifts sd < len)%nat -> forallb w_tx_only out = true -> w_rounds len out ->
  forallb w_plain wt = true -> (7 <= w_mains wt)%nat -> 2 + Z.of_nat (w_ticks (out ++ wt)) <= T ->
  forallb w_plain lo = true -> w_reqs_safe (lo ++ sd ++ out ++ wt) -> wready c a F V r0 t w ->
  exists w1 t1, w_run c (lo ++ sd ++ out) w = Ok (w1, t1) /\ m_on_line t1 = request_frame a.
Proof.
  intros O1 O2 O3 O4 O5 O6 O7 O8 Hlo HS ((I & Q) & U & D). assert (P := rests_P1 c a _ _ _ _ _ I Q U D).
  rewrite app_assoc in HS |- *. set (t0 := map WLib t ++ map WLine (concat (m_sent t))) in *.
  assert (L1 : m_lib_of t0 = t). { unfold t0. rewrite m_lib_of_app, m_lib_of_lib. assert (X : forall l, m_lib_of (map WLine l) = []) by (induction l; auto). now rewrite X, app_nil_r. }
  assert (L2 : m_on_line t0 = concat (m_sent t)). { unfold t0. rewrite m_on_line_app, m_on_line_lib. cbn [app]. apply on_line_lines. }
  assert (Vb : vbytes V = concat (m_sent t)). { unfold vbytes. rewrite sent_visible. do 2 f_equal. destruct Q as [_ Q]; destruct (mloc (w_lib w)); try discriminate U; symmetry; apply Q. }
  assert (HSa : w_reqs_safe ((lo ++ sd) ++ out)). { intros q Hq. apply HS. apply in_app_or in Hq as [Hq|Hq]; apply in_or_app; auto. right. apply in_or_app; auto. }
  assert (Plo : w_shifts lo = 0%nat). { clear - Hlo. induction lo as [|y l IH]; auto. cbn [forallb] in Hlo. apply andb_prop in Hlo as [Hx Hl]. change (y :: l) with ([y] ++ l). rewrite w_shifts_app, (IH Hl). destruct y; try discriminate Hx; reflexivity. }
  destruct (out_phase c Hc a F V _ (lo ++ sd) out t0 w P) as (A & B & h' & w1 & t1 & Eo & R1 & P' & G & Fi); auto.
  { apply D. } { rewrite forallb_app, (plain_tx _ Hlo), O1. auto. } { rewrite w_mains_app. lia. } { rewrite w_shifts_app. lia. }
  assert (FS := fin_sent _ _ _ _ _ _ _ _ P' Fi). rewrite m_on_line_app, L2, Vb in FS. apply app_inv_head in FS.
  assert (CL := goal_listen _ _ _ _ _ _ _ _ P' G). destruct (out_idle _ _ _ _ _ _ _ _ P' G) as (X1 & X2 & X3 & X4 & X5). destruct Fi as (Fi1 & Fi2 & Fi3). destruct G as [G1 G2].
  assert (Pi := p_inv _ _ _ _ _ _ _ _ P'). assert (Pq := p_q _ _ _ _ _ _ _ _ P'). rewrite m_lib_of_app, L1 in Pi, Pq.
  assert (Ew : w1 = mk_mfw (w_lib w1) (w_u w1) None) by (rewrite <- G2; destruct w1; reflexivity).
  set (u1 := w_u w1) in *. set (k1 := w_lib w1) in *. set (ta := t ++ m_lib_of t1) in *.
  set (u2 := mk_uart (u_cur u1) (u_last u1) false None None false false false false).
  assert (Ru2 : resting u2) by (repeat split).
  assert (Ls1 : listen u1 WUsart = (u2, [MEv MTxDone])). { cbn [listen]. rewrite X1, Fi2, X2, X3, X4, X5. reflexivity. }
  assert (HB : forallb w_tx_only (B ++ wt) = true). { rewrite forallb_app. rewrite Eo, forallb_app in O4. apply andb_prop in O4 as [_ O4]. cbn [forallb] in O4. apply andb_prop in O4 as [_ O4]. rewrite O4, (plain_tx _ O6). auto. }
  assert (PE : forall l e, In e (m_events (proj l)) -> bev e /\ sev e /\ calm e). { intros l e He. destruct (proj_events _ _ He) as [->|(q & -> & _)]; repeat split. }
  assert (S1 : w_reqs_safe (B ++ wt)). { rewrite Eo in HS. intros q Hq; apply HS; repeat (rewrite in_app_iff in * || cbn [In] in * ); tauto. }
  rewrite Eo, !w_ticks_app in O8. change (WUsart :: B) with ([WUsart] ++ B) in O8. rewrite w_ticks_app in O8.
  destruct (event_now c Hc _ _ MTxDone Pi safetx) as (s2 & o2 & E2 & Y2 & I2 & M2 & A2). set (k2 := mk_mconf s2 (mc_pc k1)) in *.
  destruct (tx_after c a F (MasterAttempt.sent a V) (CLEARED, CLEARED, CLEARED, r0) (tm_upto T) Hc (tm_upto_ok _) eq_refl (proj (B ++ wt)) []) with (t := ta ++ MTEv MTxDone :: map MTOut o2) (k := k2) as (k3 & o3 & R3 & I3 & ((H3 & B3 & _ & D3) & Tx3) & L3); auto.
  { apply proj_safe. exact S1. }
  { rewrite M2, G1, app_nil_r. destruct Pq as [H1 H1']. rewrite G1 in H1'. split; [|exact (ef_tx _ _ _ _ _ Y2)]. split; [cbn [mc_s k2]; rewrite (evf_fl _ _ _ _ _ Y2) by exact Logic.I; auto|].
    split; [apply base_ev; [apply H1'|apply (ef_o _ _ _ _ _ Y2)]|]. split; [intros e He; apply (PE _ _ He)|]. unfold tm_upto. rewrite proj_ticks, w_ticks_app. lia. }
  { rewrite proj_steps, w_mains_app. lia. }
  set (o := (MTEv MTxDone :: map MTOut o2) ++ o3). set (lib := MEv MTxDone :: proj (B ++ wt)).
  assert (R : m_run c lib k1 = Ok (k3, o)). { unfold lib, o. cbn [m_run]. rewrite A2. cbn [bind]. fold k2. rewrite R3. reflexivity. }
  assert (TT : ta ++ o = (ta ++ MTEv MTxDone :: map MTOut o2) ++ o3) by (unfold o; rewrite <- ?app_assoc; reflexivity).
  assert (NS : m_sent o = []).
  { assert (X : m_sent (ta ++ o) = flat_map (fun x => match x with VSend f => [f] | _ => [] end) (MasterAttempt.sent a V)).
    { rewrite TT, sent_visible. f_equal. apply B3. }
    assert (Y : m_sent ta = flat_map (fun x => match x with VSend f => [f] | _ => [] end) (MasterAttempt.sent a V)).
    { destruct Pq as [_ Pq]. rewrite G1 in Pq. rewrite sent_visible. f_equal. apply Pq. }
    rewrite m_sent_app, Y in X. rewrite <- (app_nil_r (flat_map _ _)) in X at 2. apply app_inv_head in X. exact X. }
  set (lw := WUsart :: B ++ wt).
  assert (LS : listens u1 lw = (u2, lib)). { unfold lw, lib. cbn [listens]. rewrite Ls1, (listen_tx _ _ Ru2 HB). reflexivity. }
  destruct (listen_run c lw u1 u2 _ k1 k3 o (conj Fi1 Fi3) CL LS R NS) as (t2 & R2 & M1 & M3 & _ & Qu).
  change lw with ((WUsart :: B) ++ wt) in R2. apply w_run_split in R2 as (w2 & ta2 & tb2 & Ra & Rb & ->). rewrite m_on_line_app in M3. apply app_eq_nil in M3 as [M3 _].
  exists w2, (t1 ++ ta2). rewrite Eo, app_assoc. split; [|rewrite m_on_line_app, M3, app_nil_r; exact FS].
  rewrite w_run_app, R1. cbn [bind]. rewrite Ew. fold u1 k1. rewrite Ra. reflexivity.
Qed.
End Sent.
