(** C108: the bytes on the line, whatever happens between the load and the store of CR1. *)
From Verif Require Export Proofs.MasterRaceSafe.
From Verif Require Import Proofs.MasterInv Proofs.MasterHist Proofs.MasterTrace Proofs.MasterWire.

(** between the load and the store of CR1 the main program has left the library's line 405, and the value loaded can only be too high *)
Definition cr1_at (h : hfw) : Prop :=
  (h_cr1 h <> None -> w_sub (h_fw h) = None /\ mc_pc (w_lib (h_fw h)) = Some M406) /\ (h_cr1 h = Some (E96s false) -> u_txeie (w_u (h_fw h)) = false).
Lemma wire_txeie t w : wire t w -> w_sub w = None -> mc_pc (w_lib w) = Some M406 -> wire t (with_txeie true w).
Proof.
  destruct w as [k u sub]. unfold wire. cbn [w_sub w_lib w_u with_txeie]. intros W -> P. assert (O : out_loc (mloc k) (mc_s k)) by (unfold mloc; rewrite P; exact Logic.I).
  destruct W as (A & B & C). split; [exact A|]. split; [|intros _; exact O].
  destruct B as [(Q & X)|(X & _ & T & _)]; [left; split; auto|right]. split; [exact X|]. split; [exact O|]. split; [exact T|]. right. reflexivity.
Qed.
Lemma wire_ext t t' w : m_lib_of t' = m_lib_of t -> m_on_line t' = m_on_line t -> wire t w -> wire t' w.
Proof. intros L O. unfold wire, sending. rewrite L, O. exact (fun H => H). Qed.
Lemma line_keeps c p k u p' k' u' t : h_line c p k u = Ok (p', k', u', t) -> mc_pc k' = mc_pc k /\ (u_txeie u = false -> u_txeie u' = false).
Proof.
  intros E. assert (V : forall e k1 t1, w_event c e k = Ok (k1, t1) -> mc_pc k1 = mc_pc k) by (intros e k1 t1 V; apply w_event_inv in V as (s & o & _ & -> & _); reflexivity).
  destruct p; cbn [h_line] in E; repeat first [bnd E|match type of E with context [match ?x with _ => _ end] => destruct x end|match type of E with context [if ?b then _ else _] => destruct b end];
    try discriminate E; inversion E; subst; cbn; split; eauto.
Qed.
Lemma hw_keeps c x w w' t : is_hw x = true -> w_act c x w = Ok (w', t) -> w_sub w' = w_sub w /\ mc_pc (w_lib w') = mc_pc (w_lib w) /\ u_txeie (w_u w') = u_txeie (w_u w).
Proof.
  intros H E. destruct x; try discriminate H; cbn [w_act] in E; repeat match type of E with context [match ?x with _ => _ end] => destruct x end; inversion E; subst; auto.
Qed.
Lemma cr1_act c a h h' t : cr1_at h -> h_act c a h = Ok (h', t) -> cr1_at h'.
Proof.
  intros (A & B) E. destruct a; cbn [h_act] in E.
  - destruct (no_handler h); [|inversion E; subst; split; auto]. destruct (h_cr1 h) as [[|v]|] eqn:Q.
    + inversion E; subst. split; cbn; [intros _; apply A; congruence|]. intros X. now inversion X.
    + inversion E; subst. split; cbn; [congruence|discriminate].
    + bnd E. inversion E; subst. split; cbn [h_cr1 h_fw].
      * unfold at405. destruct (w_sub (h_fw h)) eqn:S1; [congruence|]. destruct (mc_pc (w_lib (h_fw h))) as [[]|] eqn:S2; try congruence. intros _.
        cbn [w_act] in Y. rewrite S1, S2 in Y. bnd Y. inversion Y; subst. cbn [w_sub w_lib]. split; [reflexivity|]. cbn [m_act] in Y0. rewrite S2 in Y0. bnd Y0. inversion Y0; subst. clear Y0. cbn [mc_pc]. cbn [m_line] in Y1. destruct (cur_msg _) as [[i m1]| |]; try discriminate Y1. cbn [bind] in Y1. destruct (mm_drv _); [|discriminate Y1]. inversion Y1; subst. reflexivity.
      * destruct (at405 _); discriminate.
  - destruct (no_handler h); [|inversion E; subst; split; auto]. bnd E. inversion E; subst. cbn [w_act] in Y. bnd Y. inversion Y; subst. apply w_event_inv in Y0 as (s & o & _ & -> & _). split; auto.
  - inversion E; subst. destruct (h_irq h); [split; auto|]. destruct (h_pending h); split; auto.
  - inversion E; subst. destruct (h_irq h); [split; auto|]. destruct (u_uif _); split; auto.
  - inversion E; subst. destruct (no_handler h); split; auto.
  - destruct (h_irq h) as [p|].
    + destruct (h_line c p _ _) as [[[[p' k'] u'] t']| |] eqn:Y; try discriminate E. cbn [bind] in E. inversion E; subst. apply line_keeps in Y as (Y1 & Y2). split; cbn; [rewrite Y1; exact A|intros X; apply Y2, B, X].
    + destruct (h_tick h) as [p|]; [|inversion E; subst; split; auto]. destruct (t_line p (w_lib (h_fw h))) as [[p' k'] t'] eqn:T. inversion E; subst. assert (P : mc_pc k' = mc_pc (w_lib (h_fw h))).
      { destruct p; cbn [t_line] in T; [destruct (negb _)| |]; inversion T; subst; reflexivity. }
      split; cbn; [rewrite P; exact A|exact B].
  - destruct (is_hw x) eqn:Hx; [|inversion E; subst; split; auto]. bnd E. inversion E; subst. destruct (hw_keeps _ _ _ _ _ Hx Y) as (Y1 & Y2 & Y3). split; cbn; rewrite ?Y1, ?Y2, ?Y3; auto.
Qed.

(** *** segments *)
Section Seg.
Context (c : cfg) (w0 : mfw) (Hc : cfg_master_ok c) (HW : mfw_started c w0).
Context (xs : list xact) (w1 : mfw) (ta : list witem) (HR : forall a, In (XAct (WReq a)) xs -> req_safe a) (RX : x_run c xs w0 = Ok (w1, ta)).
Lemma seg_wire l : wire ta w1 -> forall w t, w_reqs_safe l -> m_send_undisturbed c w1 l -> w_run c l w1 = Ok (w, t) -> wire (ta ++ t) w.
Proof.
  intros F. induction l as [|x l IH] using rev_ind; intros w t HL HU R; [inversion R; subst; now rewrite app_nil_r|]. destruct (w_snoc _ _ _ _ _ _ R) as (w2 & t1 & t2 & R2 & A & ->).
  assert (HL' := safe_app _ _ HL). rewrite app_assoc. eapply wire_act; [exact Hc| |apply (IH w2 t1); auto; eapply always_app; exact HU| | |exact A].
  - rewrite m_lib_of_app. apply ci_inv. exact (seg_cinv c w0 Hc HW xs w1 ta HR RX l w2 t1 HL' R2).
  - intros q ->. apply HL, in_or_app. right. now left.
  - intros E. eapply undisturbed_at; eauto.
Qed.
End Seg.
Section Wire.
Context (c : cfg) (h0 : hfw).
Inductive rwire (h : hfw) (t : list witem) : Prop :=
| mk_rwire xs h1 ta fs tb : x_run c xs (h_fw h0) = Ok (h_fw h1, ta) -> (forall a, In (XAct (WReq a)) xs -> req_safe a) -> wire ta (h_fw h1) ->
    h_run c fs h1 = Ok (h, tb) -> inv c h1 fs h tb -> side h -> cr1_at h -> m_lib_of t = m_lib_of ta ++ m_lib_of tb -> m_on_line t = m_on_line ta ++ m_on_line tb ->
    h_reqs_safe fs -> h_send_undisturbed c h1 fs -> rwire h t.
Lemma wire_race : cfg_master_ok c -> hfw_started c h0 -> forall l h t, h_reqs_safe l -> h_send_undisturbed c h0 l -> h_run c l h0 = Ok (h, t) -> rwire h t.
Proof.
  intros Hc HS. assert (HW := proj1 HS). destruct (started_side c h0 HS) as (S0 & Q0). induction l as [|a l IH] using rev_ind; intros h' t' HR HU R0.
  - injection R0 as <- <-. apply (mk_rwire h0 [] [] h0 [] [] []); auto; try (intros ? ?; contradiction); try (intros l1 x l2 h2 t2 E; destruct l1; discriminate E).
    + now apply wire_start with c.
    + eapply inv_free with (ws := []) (t' := []); auto; [constructor|]. intros l1 x l2 w1 t1 E. destruct l1; discriminate.
    + destruct HS as (_ & _ & _ & HS & _). unfold cr1_at. rewrite HS. split; [congruence|discriminate].
  - rewrite h_run_app in R0. destruct (h_run c l h0) as [[h t]| |] eqn:R; try discriminate R0. cbn [bind h_run] in R0.
    destruct (h_act c a h) as [[h2 t2]| |] eqn:St; try discriminate R0. cbn [bind] in R0. injection R0 as <- <-. rewrite app_nil_r.
    destruct (IH h t) as [xs h1 ta fs tb Rx HRx Wa Fi In Si Cr Li Ln HRf HUf]; [eapply h_safe_prefix; eauto|eapply always_prefix; exact HU|reflexivity|].
    assert (Cr' := cr1_act _ _ _ _ _ Cr St).
    assert (HRa : h_reqs_safe (fs ++ [a])) by (intros q I; apply in_app_or in I as [I|[I|[]]]; [auto|apply HR, in_or_app; right; now left]).
    assert (HUa : h_send_undisturbed c h1 (fs ++ [a])) by (eapply always_snoc; [exact Fi|exact HUf|exact (HU l a [] h t eq_refl R)]).
    assert (D : (a = HMain -> forall v, h_cr1 h = Some (E96s v) -> u_txeie (w_u (h_fw h)) = v) \/ a = HMain /\ no_handler h = false \/
      a = HMain /\ no_handler h = true /\ exists v, h_cr1 h = Some (E96s v) /\ u_txeie (w_u (h_fw h)) <> v).
    { destruct a; try (left; discriminate). destruct (no_handler h); [|auto]. destruct (h_cr1 h) as [[|v]|]; try (left; intros _ v'; discriminate). destruct (Bool.bool_dec (u_txeie (w_u (h_fw h))) v) as [E|E]; [left; intros _ v' X; inversion X; subst; auto|].
      right. right. eauto 6. }
    destruct D as [D|[(-> & D)|(-> & NH & v & C1 & D)]].
    + pose proof (sim_step c h1 fs h tb a Fi In Si D) as X. rewrite St in X. destruct X as (X1 & X2). apply (mk_rwire h2 (t ++ t2) xs h1 ta (fs ++ [a]) (tb ++ t2)); auto.
      * rewrite (h_run_snoc _ _ _ _ _ _ Fi), St. reflexivity.
      * rewrite !m_lib_of_app, Li, app_assoc. reflexivity.
      * rewrite !m_on_line_app, Ln, app_assoc. reflexivity.
    + cbn [h_act] in St. rewrite D in St. injection St as <- <-. apply (mk_rwire h (t ++ []) xs h1 ta fs tb); auto; now rewrite app_nil_r.
    + assert (Q : h_irq h = None /\ h_tick h = None) by (unfold no_handler in NH; destruct (h_irq h), (h_tick h); try discriminate; auto). destruct Q as (Q1 & Q2).
      cbn [h_act] in St. rewrite NH, C1 in St. injection St as <- <-. destruct In as [ws t' _ Rw Lw Ow Mw A|]; [|congruence].
      set (h' := mk_hfw _ true None None None) in *. assert (F : h_fw h' = with_txeie v (h_fw h)) by reflexivity.
      assert (HL : w_reqs_safe ws) by exact (fine_reqs c h1 fs ws _ _ HRf A Rw).
      assert (HX : forall q, In (XAct (WReq q)) (xs ++ map XAct ws ++ [XCr1 v]) -> req_safe q).
      { intros q I. apply in_app_or in I as [I|I]; [auto|]. apply in_app_or in I as [I|[I|[]]]; [|discriminate]. apply in_map_iff in I as (y & E & I). inversion E; subst. now apply HL. }
      destruct Cr as (Cr1 & Cr2). assert (V : v = true) by (destruct v; auto; exfalso; apply D; now apply Cr2). destruct Cr1 as (P1 & P2); [congruence|].
      apply (mk_rwire h' (t ++ []) (xs ++ map XAct ws ++ [XCr1 v]) h' (ta ++ t') [] []); auto; try (intros ? ?; contradiction); try (intros l1 x l2 h2 t2 E; destruct l1; discriminate E).
      * rewrite x_run_app, Rx. cbn [bind]. rewrite x_run_app, x_run_acts, Rw. cbn [bind x_run]. rewrite app_nil_r, F. reflexivity.
      * rewrite F, V. apply wire_txeie; auto. eapply (seg_wire c (h_fw h0) Hc HW xs); eauto. exact (fine_undisturbed c h1 fs ws A HUf).
      * eapply inv_free with (ws := []) (t' := []); auto; [constructor|]. intros l1 x l2 w1 u1 E. destruct l1; discriminate.
      * destruct Si as (Si & _). split; cbn [h_rxne h_cr1 h_tick h_fw h' w_lib]; auto. intros _. apply Si. right. congruence.
      * rewrite app_nil_r, m_lib_of_app, Lw, Li. cbn. now rewrite app_nil_r.
      * rewrite app_nil_r, m_on_line_app, Ow, Ln. cbn. now rewrite app_nil_r.
Qed.
Lemma race_bytes l h t : cfg_master_ok c -> hfw_started c h0 -> h_reqs_safe l -> h_send_undisturbed c h0 l -> h_run c l h0 = Ok (h, t) -> h_irq h = None ->
  exists r, m_on_line t ++ r = concat (m_sent (m_lib_of t)) /\ (tx_complete (m_lib_of t) = true -> r = []).
Proof.
  intros Hc HS HR HU R Q. destruct (wire_race Hc HS l h t HR HU R) as [xs h1 ta fs tb Rx HRx Wa Fi In Si Cr Li Ln HRf HUf]. destruct In as [ws t' _ Rw Lw Ow Mw A|]; [|congruence].
  apply wire_out with (h_fw h). apply wire_ext with (ta ++ t'); [rewrite m_lib_of_app; congruence|rewrite m_on_line_app; congruence|].
  eapply (seg_wire c (h_fw h0) Hc (proj1 HS) xs); eauto; [exact (fine_reqs c h1 fs ws _ _ HRf A Rw)|exact (fine_undisturbed c h1 fs ws A HUf)].
Qed.
End Wire.
