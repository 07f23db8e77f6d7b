(** Sequences of transmissions of a request. *)
From Verif Require Export Proofs.MasterAnswer.

Lemma tm_enough_app a b x : tm_enough (a ++ b) x <-> 2 + Z.of_nat (ticks a) + Z.of_nat (ticks b) <= x.
Proof.
  unfold tm_enough. assert (E : ticks (a ++ b) = (ticks a + ticks b)%nat) by (induction a as [|e a IH]; auto; destruct e; cbn; rewrite IH; auto). rewrite E. lia.
Qed.
Lemma ticks_app a b : ticks (a ++ b) = (ticks a + ticks b)%nat.
Proof. induction a as [|e a IH]; auto; destruct e; cbn; rewrite IH; auto. Qed.
Lemma m_steps_app a b : m_steps (a ++ b) = (m_steps a + m_steps b)%nat.
Proof. induction a as [|[|e] a IH]; auto; cbn; rewrite IH; auto. Qed.
Lemma reqs_app a b : reqs_safe (a ++ b) <-> reqs_safe a /\ reqs_safe b.
Proof. unfold reqs_safe. split; [intros H; split; intros x X; apply H, in_or_app; auto|]. intros [H1 H2] x X. apply in_app_or in X as [X|X]; auto. Qed.
Lemma reqs_cons x b : reqs_safe (x :: b) -> reqs_safe b.
Proof. intros H y Y. apply H. right; auto. Qed.

(** enough time left for all the ticks to come and [n] more *)
Definition tm_more (n : nat) (rem : list mev) (x : Z) : Prop := 2 + Z.of_nat n + Z.of_nat (ticks rem) <= x.
Lemma tm_more_ok n : tm_ok (tm_more n).
Proof.
  unfold tm_more. constructor.
  - intros e rem x N H. destruct e; cbn [ticks] in H; auto. congruence.
  - intros rem x H. cbn [ticks] in H. lia.
  - intros. lia.
Qed.
Section Tries.
Context (c : cfg) (Hc : cfg_master_ok c) (a : api).
Notation T := (u32 (c_timeout c)).

Lemma event_now t k e : cinv c t (mloc k) (mc_s k) -> ev_safe e -> exists s' o, m_event c e (mc_s k) = Ok (s', o) /\ evf e t (mc_s k) s' o /\
  cinv c (t ++ MTEv e :: map MTOut o) (mloc (mk_mconf s' (mc_pc k))) s' /\ mloc (mk_mconf s' (mc_pc k)) = mloc k /\
  m_act c (MEv e) k = Ok (mk_mconf s' (mc_pc k), MTEv e :: map MTOut o).
Proof.
  intros I Hs. destruct (m_event_total c _ _ _ e Hc (ci_inv _ _ _ _ I) Hs) as (s' & o & E). exists s', o. split; auto. split; [eapply ev_facts; eauto|].
  assert (St := m_event_st _ _ _ _ _ E). assert (L : mloc (mk_mconf s' (mc_pc k)) = mloc k) by (unfold mloc, m_dispatch; cbn [mc_pc mc_s]; rewrite St; reflexivity).
  split; [rewrite L; eapply cinv_event; eauto|]. split; auto. cbn [m_act]. rewrite E. reflexivity.
Qed.

(** one transmission and its answer *)
Lemma try_phase (y : try) (F : nat) (V : list vis) (FE pre wrong bad : bool) (fe0 : flag) (r : Z) (lo : list mact) (t : list mitem) (k : mconf) :
  try_timed T y -> addressed a y -> (if wrong then ~ crc_ok (y_frame y) else crc_ok (y_frame y)) -> bad = wrong || pre -> FE && bad = false ->
  (FE = false -> bad = false -> complete_answer a (y_frame y)) ->
  (if FE then fe0 = SET \/ In MFrameErr (m_events (y_rx y)) else fe0 = CLEARED /\ ~ In MFrameErr (m_events (y_rx y))) ->
  (forall e, In e (m_events lo) -> sev e) -> reqs_safe (lo ++ try_sched y) ->
  cinv c t (mloc k) (mc_s k) -> Qs a F V (CLEARED, bl pre, fe0, r) t (mloc k) (mc_s k) ->
  exists s1 s2 k' o, lo ++ try_sched y = s1 ++ s2 /\ (forall e, In e (m_events s2) -> sev e) /\ m_run c s1 k = Ok (k', o) /\ cinv c (t ++ o) (mloc k') (mc_s k') /\
    late c a F (sent a V) (y_frame y) FE bad r (t ++ o) (mloc k') (mc_s k') /\ decided (t ++ o) (mloc k') = true /\ mc_pc k' = None.
Proof.
  intros Y [Hh Hl] Hcrc Hb Hx Hans Hfe Hlo HS I H. destruct Y as [Y1 Y2 Y3 Y4 [Z1 Z2 Z3 Z4 Z5 Z6]].
  unfold try_sched, answer_sched in HS. rewrite app_assoc in HS. apply reqs_app in HS as [HS1 HS]. apply reqs_cons in HS. apply reqs_app in HS as [HS2 HS3].
  destruct (send_phase c a F V (CLEARED, bl pre, fe0, r) Hc (lo ++ y_send y) t k) as (k1 & o1 & R1 & I1 & H1 & L1); auto.
  { intros e He. rewrite m_events_app in He. apply in_app_or in He as [He|He]; auto. } { rewrite m_steps_app. lia. }
  destruct (event_now _ _ MTxDone I1 safetx) as (s2 & o2 & E2 & X2 & I2 & L2 & A2). set (k2 := mk_mconf s2 (mc_pc k1)) in *.
  destruct (tx_after c a F (sent a V) (CLEARED, bl pre, fe0, r) (tm_more (ticks (m_events (y_rx y) ++ m_events (y_15 y)))) Hc (tm_more_ok _) eq_refl (y_tx y) []) with (t := (t ++ o1) ++ MTEv MTxDone :: map MTOut o2) (k := k2) as (k3 & o3 & R3 & I3 & ((H3 & B3 & _ & D3) & Tx3) & L3); auto.
  { rewrite L2, L1, app_nil_r. destruct H1 as [H1 H1']. rewrite L1 in H1'. split; [|exact (ef_tx _ _ _ _ _ X2)]. split; [cbn [mc_s k2]; rewrite (evf_fl _ _ _ _ _ X2) by exact Logic.I; auto|].
    split; [apply base_ev; [apply H1'|apply (ef_o _ _ _ _ _ X2)]|]. split; auto. unfold tm_more. lia. }
  set (t3 := ((t ++ o1) ++ MTEv MTxDone :: map MTOut o2) ++ o3) in *. unfold fl in H3. inversion H3 as [[G1 G2 G3 G4]].
  assert (D3' : tm_enough (m_events (y_rx y) ++ m_events (y_15 y)) (mm_timer (mc_s k3)) /\ m_received t3 = []).
  { destruct (mloc k3); try discriminate L3; unfold tm_more, tm_enough in *; cbn [ticks] in D3; destruct D3 as [D3 D4]; (split; [lia|auto]). }
  destruct D3' as [Ti3 Rx3].
  destruct (answer_phase c Hc a F (sent a V) (y_frame y) FE pre wrong bad r Hh Hl Hcrc Hb Hx Hans (y_rx y) (y_15 y) (y_35 y) t3 k3) as (w1 & w2 & k4 & o4 & Ew & R4 & I4 & H4 & Dc & P4); auto.
  { rewrite G3. exact Hfe. }
  exists ((lo ++ y_send y) ++ MEv MTxDone :: y_tx y ++ (y_rx y ++ MEv MT15 :: y_15 y ++ MEv MT35 :: w1)), w2, k4, (o1 ++ (MTEv MTxDone :: map MTOut o2) ++ o3 ++ o4).
  split. { unfold try_sched, answer_sched. rewrite Ew. rewrite <- ?app_assoc. cbn [app]. do 3 f_equal. rewrite <- ?app_assoc. cbn [app]. do 3 f_equal. rewrite <- ?app_assoc. reflexivity. }
  split. { intros e He. apply Z4. rewrite Ew, m_events_app. apply in_or_app. auto. }
  assert (TT : t ++ o1 ++ (MTEv MTxDone :: map MTOut o2) ++ o3 ++ o4 = t3 ++ o4) by (unfold t3; rewrite <- ?app_assoc; reflexivity). rewrite TT.
  split; [|split; [exact I4|split; [first [exact H4|rewrite G4; exact H4|rewrite <- G4; exact H4]|split; [exact Dc|exact P4]]]]. rewrite m_run_app, R1. cbn [bind m_run]. rewrite A2. cbn [bind]. fold k2. rewrite m_run_app, R3. cbn [bind]. rewrite R4. cbn [bind]. reflexivity.
Qed.

Definition ready (F : nat) (V : list vis) (r : Z) (t : list mitem) (k : mconf) : Prop :=
  cinv c t (mloc k) (mc_s k) /\ Qs a F V (CLEARED, CLEARED, CLEARED, r) t (mloc k) (mc_s k).
Definition bad_try (y : try) : Prop := try_timed T y /\ (crc_bad a y \/ frame_bad a y).
Definition kind_of (y : try) (e : resp_err) : Prop := crc_bad a y /\ e = RESP_RTU_CRC_ERR \/ frame_bad a y /\ e = RESP_FRAME_ERR.
Definition done (F : nat) (V : list vis) (t : list mitem) (k : mconf) (l : list cb) : Prop :=
  cinv c t (mloc k) (mc_s k) /\ idle k /\ finished t = S F /\ visible t = V ++ map VCb l ++ [VFree].
Lemma idle_of k : mloc k = M649 -> mc_pc k = None -> idle k.
Proof. unfold mloc, idle. intros L P. rewrite P in L. split; auto. unfold m_dispatch in L. destruct (mm_st (mc_s k)); try discriminate; auto. Qed.

Lemma bad_phase y F V r lo t k : bad_try y -> (forall e, In e (m_events lo) -> sev e) -> reqs_safe (lo ++ try_sched y) -> ready F V r t k ->
  exists s1 s2 k' o, lo ++ try_sched y = s1 ++ s2 /\ (forall e, In e (m_events s2) -> sev e) /\ m_run c s1 k = Ok (k', o) /\
    (ready F (sent a V) (r + 1) (t ++ o) k' /\ r < c_repeat c \/
     c_repeat c <= r /\ exists e, kind_of y (r_err e) /\ r_id e = api_id a /\ done F (sent a V) (t ++ o) k' [CommErr e]).
Proof.
  intros [Y B] Hlo HS [I H].
  assert (X : exists FE bad, FE || bad = true /\ (FE = true -> kind_of y RESP_FRAME_ERR) /\ (FE = false -> kind_of y RESP_RTU_CRC_ERR) /\ exists s1 s2 k' o, lo ++ try_sched y = s1 ++ s2 /\ (forall e, In e (m_events s2) -> sev e) /\ m_run c s1 k = Ok (k', o) /\ cinv c (t ++ o) (mloc k') (mc_s k') /\
    late c a F (sent a V) (y_frame y) FE bad r (t ++ o) (mloc k') (mc_s k') /\ decided (t ++ o) (mloc k') = true /\ mc_pc k' = None).
  { destruct B as [(A & Cr & Fe)|(A & Cr & Fe)].
    - exists false, true. split; auto. split; [discriminate|]. split; [left; split; auto; split; auto|]. apply (try_phase y F V false false true true CLEARED r lo t k); auto; discriminate.
    - exists true, false. split; auto. split; [right; split; auto; split; auto|]. split; [discriminate|]. apply (try_phase y F V true false false false CLEARED r lo t k); auto; discriminate. }
  destruct X as (FE & bad & Ob & K1 & K2 & s1 & s2 & k' & o & E1 & E2 & E3 & E4 & E5 & E6 & E7). exists s1, s2, k', o. split; auto. split; auto. split; auto.
  destruct (mloc k') eqn:L; try discriminate E6; cbn [late] in E5.
  - right. destruct E5 as ((cbs & Rs & Le & Fi & Vi) & _). split; auto. unfold RES in Rs.
    assert (Z : exists e, cbs = [CommErr e] /\ kind_of y (r_err e) /\ r_id e = api_id a).
    { destruct FE; [|destruct bad; [|discriminate Ob]]; destruct Rs as (e & -> & Re & Rd); exists e; rewrite Re; auto. }
    destruct Z as (e & -> & Z1 & Z2). exists e. split; auto. split; auto. unfold done. rewrite L. split; auto. split; auto. apply idle_of; auto.
  - left. destruct E5 as (B5 & (C1 & C2 & C3) & Rp & _ & Le). split; [|lia]. unfold ready. rewrite L. split; auto. split; [unfold fl; congruence|]. exact B5.
Qed.
Lemma sent_sends V n : sent a V ++ sends a n = V ++ sends a (S n).
Proof. unfold sent, sends. rewrite <- app_assoc. reflexivity. Qed.
Lemma tries_phase ys : Forall bad_try ys -> forall F V r lo t k, r + Z.of_nat (length ys) <= c_repeat c -> (forall e, In e (m_events lo) -> sev e) -> reqs_safe (lo ++ concat (map try_sched ys)) -> ready F V r t k ->
  exists s1 s2 k' o, lo ++ concat (map try_sched ys) = s1 ++ s2 /\ (forall e, In e (m_events s2) -> sev e) /\ m_run c s1 k = Ok (k', o) /\
    ready F (V ++ sends a (length ys)) (r + Z.of_nat (length ys)) (t ++ o) k'.
Proof.
  induction 1 as [|y ys Hy _ IH]; intros F V r lo t k Le Hlo HS Rd; cbn [map concat length] in *.
  - exists [], lo, k, []. cbn [m_run]. rewrite ?app_nil_r. split; auto. split; auto. split; auto. unfold sends. cbn [repeat]. rewrite ?app_nil_r. replace (r + Z.of_nat 0) with r by lia. auto.
  - rewrite app_assoc in HS. apply reqs_app in HS as [HS1 HS2].
    destruct (bad_phase y F V r lo t k Hy Hlo HS1 Rd) as (s1 & s2 & k1 & o1 & E1 & Se1 & R1 & [[Rd1 _]|[Bad _]]); [|lia].
    destruct (IH F (sent a V) (r + 1) s2 (t ++ o1) k1) as (s3 & s4 & k2 & o2 & E2 & Se2 & R2 & Rd2); auto; [lia| |].
    { apply reqs_app. split; auto. rewrite E1 in HS1. apply reqs_app in HS1. tauto. }
    exists (s1 ++ s3), s4, k2, (o1 ++ o2). split. { rewrite app_assoc, E1, <- app_assoc, E2, app_assoc. reflexivity. }
    split; auto. split. { rewrite m_run_app, R1. cbn [bind]. rewrite R2. reflexivity. }
    rewrite sent_sends, <- app_assoc in Rd2. replace (r + Z.of_nat (S (length ys))) with (r + 1 + Z.of_nat (length ys)) by lia. exact Rd2.
Qed.

Lemma sends_snoc n l : sends a n ++ VSend (request_frame a) :: l = sends a (S n) ++ l.
Proof. unfold sends. induction n as [|n IH]; [reflexivity|]. cbn [repeat app] in *. f_equal. exact IH. Qed.
(** k bad answers, then a good one *)
Lemma retried_delivered ys y F V t k : Forall bad_try ys -> Z.of_nat (length ys) <= c_repeat c -> try_timed T y -> good_answer a y ->
  reqs_safe (concat (map try_sched ys) ++ try_sched y) -> ready F V 0 t k ->
  exists s1 s2 k' o l, concat (map try_sched ys) ++ try_sched y = s1 ++ s2 /\ m_run c s1 k = Ok (k', o) /\ delivered a (y_frame y) = Some l /\
    done F (V ++ sends a (S (length ys))) (t ++ o) k' l /\ no_leftovers k' /\ mm_rep (mc_s k') = 0 /\ (forall e, In e (m_events s2) -> sev e).
Proof.
  intros Hys Le Y (A & Cr & Ca & Fe) HS Rd. apply reqs_app in HS as [HS1 HS2].
  destruct (tries_phase ys Hys F V 0 [] t k) as (s1 & s2 & k1 & o1 & E1 & Se1 & R1 & I1 & Q1); auto; [intros e []|].
  destruct (try_phase y F (V ++ sends a (length ys)) false false false false CLEARED (0 + Z.of_nat (length ys)) s2 (t ++ o1) k1) as (s3 & s4 & k2 & o2 & E2 & Se2 & R2 & I2 & L2 & D2 & P2); auto.
  { apply reqs_app. split; auto. cbn [app] in E1. rewrite E1 in HS1. apply reqs_app in HS1. tauto. }
  cbn [app] in E1. destruct (mloc k2) eqn:L; try discriminate D2; cbn [late] in L2.
  - destruct L2 as ((l & Rs & _ & Fi & Vi) & Fl & Rp). exists (s1 ++ s3), s4, k2, (o1 ++ o2), l. split. { rewrite E1, <- app_assoc, E2, app_assoc. reflexivity. }
    split. { rewrite m_run_app, R1. cbn [bind]. rewrite R2. reflexivity. }
    split; [exact Rs|]. split; [|split; [exact Fl|auto]]. unfold done. rewrite L, app_assoc. split; auto. split; [apply idle_of; auto|]. split; auto. rewrite Vi. unfold sent. rewrite <- !app_assoc. f_equal. cbn [app]. rewrite sends_snoc. reflexivity.
  - destruct L2 as (_ & _ & _ & Z & _). discriminate.
Qed.
(** R+1 bad answers *)
Lemma retried_failed ys y F V t k : Forall bad_try (ys ++ [y]) -> Z.of_nat (length ys) = c_repeat c ->
  reqs_safe (concat (map try_sched (ys ++ [y]))) -> ready F V 0 t k ->
  exists s1 s2 k' o e, concat (map try_sched (ys ++ [y])) = s1 ++ s2 /\ m_run c s1 k = Ok (k', o) /\ kind_of y (r_err e) /\ r_id e = api_id a /\
    done F (V ++ sends a (S (length ys))) (t ++ o) k' [CommErr e].
Proof.
  intros Hys Le HS Rd. rewrite map_app, concat_app in *. cbn [map concat] in *. rewrite app_nil_r in *. apply Forall_app in Hys as [Hys Hy]. inversion Hy as [|? ? Hy' _]; subst. apply reqs_app in HS as [HS1 HS2].
  destruct (tries_phase ys Hys F V 0 [] t k) as (s1 & s2 & k1 & o1 & E1 & Se1 & R1 & Rd1); auto; [lia|intros e []|].
  cbn [app] in E1. destruct (bad_phase y F (V ++ sends a (length ys)) (0 + Z.of_nat (length ys)) s2 (t ++ o1) k1) as (s3 & s4 & k2 & o2 & E2 & Se2 & R2 & [[_ Bad]|[_ (e & Ke & Ie & I2 & J2 & F2 & V2)]]); auto.
  { apply reqs_app. split; auto. rewrite E1 in HS1. apply reqs_app in HS1. tauto. }
  { lia. }
  exists (s1 ++ s3), s4, k2, (o1 ++ o2), e. split. { rewrite E1, <- app_assoc, E2, app_assoc. reflexivity. }
  split. { rewrite m_run_app, R1. cbn [bind]. rewrite R2. reflexivity. }
  split; auto. split; auto. unfold done. rewrite app_assoc. split; auto. split; auto. split; auto. rewrite V2. unfold sent. rewrite <- !app_assoc. f_equal. cbn [app]. rewrite sends_snoc. reflexivity.
Qed.
End Tries.
