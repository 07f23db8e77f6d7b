From Verif Require Export Proofs.SlaveBad Spec.SlaveTraffic.

Lemma idle_start c s : slave_idle c s -> idle_clean c (mk_sconf s None).
Proof.
  intros (R & A1 & A2 & A3 & A4 & A5 & A6). unfold idle_clean, loc. cbn [sc_s sc_pc]. unfold s_dispatch. rewrite A1. fin.
  destruct R as (R1 & R2 & R3 & R4 & _). constructor; auto; try discriminate; try (right; auto; fail).
Qed.
Lemma fresh_idle c s : slave_fresh c s -> slave_idle c s.
Proof. intros (R & A1 & A2 & A3 & A4 & A5 & A6). unfold slave_idle. fin. Qed.

Lemma server_stale c d f buf : bytes f -> bytes buf -> frame_complete f -> server c d (f ++ skipn (length f) buf) = server c d f.
Proof.
  intros Hf Bb Cf. symmetry. replace f with (firstn (length f) (f ++ skipn (length f) buf)) at 1 by (apply firstn_app_exact; auto).
  apply server_frame.
  - apply Forall_app. split; auto. apply Forall_skipn. auto.
  - rewrite app_length. lia.
  - rewrite firstn_app_exact; auto.
Qed.
Lemma traffic_run c sched out d' id : cfg_tables_ok c -> forall d, traffic c id d sched out d' ->
  forall k t, idle_clean c k -> s_id (sc_s k) = id -> s_data (sc_s k) = d ->
  exists k' o, s_run c sched k = Ok (k', o) /\ sent (t ++ o) = sent t ++ out /\ s_data (sc_s k') = d' /\ s_id (sc_s k') = id /\ idle_clean c k'.
Proof.
  intros Hc d H. induction H as [d|d xs sched rest out d' (pre & n & -> & Hn & He) Hx Hb H IH|d f sched done rest out d' (pre & n & -> & Hn & He) (pre2 & n2 & -> & Hn2 & He2) Hf Lf If Cf H IH]; intros k t K I D.
  - exists k, []. cbn [s_run]. rewrite app_nil_r. rewrite app_nil_r. fin.
  - destruct (bad_from_idle c k xs pre n t Hc K Hx) as (k1 & o1 & E1 & K1 & I1 & D1 & S1); auto. { now rewrite I. }
    destruct (IH k1 (t ++ o1) K1) as (k2 & o2 & E2 & S2 & D2 & I2 & K2); try congruence.
    exists k2, (o1 ++ o2). rewrite run_app, E1. cbn [bind]. rewrite E2. cbn [bind]. fin. rewrite app_assoc, S2, S1. reflexivity.
  - destruct (good_from_idle c k f pre n t Hc K Hf Lf) as (k1 & o1 & E1 & S1 & D1 & I1 & R1 & B1 & L1 & F1 & F2 & F3 & F4); auto. { now rewrite I. }
    rewrite I, D in *.
    assert (SF : server c d (f ++ skipn (length f) (rr_buf (m_req (s_msg (sc_s k))))) = server c d f) by (apply server_stale; auto; apply K).
    rewrite SF in *.
    destruct (transmit_run c Hc (snd (server c d f)) id (sent (t ++ o1)) pre2 n2 k1 (t ++ o1)) as (k2 & o2 & E2 & K2 & I2 & D2 & S2); auto.
    { unfold T. rewrite L1. fin. }
    destruct (IH k2 ((t ++ o1) ++ o2) K2 I2 D2) as (k3 & o3 & E3 & S3 & D3 & I3 & K3).
    exists k3, (o1 ++ o2 ++ o3). rewrite run_app, E1. cbn [bind]. rewrite run_app, E2. cbn [bind]. rewrite E3. cbn [bind]. fin.
    rewrite !app_assoc, S3, S2, S1, <- app_assoc. reflexivity.
Qed.

(** the response flag is set again after completion was signalled: nothing is ever transmitted again unless completion
    is signalled once more *)
Definition stuck_tx (c : cfg) (k : sconf) : Prop :=
  slave_ready c (sc_s k) /\ base (loc k) (sc_s k) /\ (loc k = L199 \/ loc k = L200 \/ loc k = L216) /\ s_tx (sc_s k) = SET.
Lemma stuck_run c k sched t : cfg_tables_ok c -> stuck_tx c k -> ~ In STxDone (events sched) ->
  exists k' o, s_run c sched k = Ok (k', o) /\ stuck_tx c k' /\ sent (t ++ o) = sent t.
Proof.
  intros Hc H N.
  destruct (phase c (fun rem t' l s => slave_ready c s /\ base l s /\ (l = L199 \/ l = L200 \/ l = L216) /\ s_tx s = SET /\ sent t' = sent t /\ ~ In STxDone rem))
    with (sched := sched) (t := t) (k := k) (rem := @nil sev) as (k' & o & E & R & B & L & X & Y & _).
  - intros rem t' l s (R & B & L & X & Y & Z). destruct (line_ready c l s Hc R) as (l' & s' & o & E & R' & I').
    exists l', s', o. split; auto. assert (B' := base_line _ _ _ _ _ _ B E). assert (BS := b_st _ _ B).
    destruct L as [->|[->| ->]]; cbn [s_line] in E; rewrite ?X in E; cbn [is_clr] in E; inversion E; subst; nxt BS B'; fin.
  - intros e rem t' l s (R & B & L & X & Y & Z). destruct (event_ready c e s R) as (s' & E & R' & I'). exists s'. split; auto.
    assert (B' := base_event _ _ _ _ B E). rewrite sent_app. cbn [sent]. rewrite app_nil_r.
    assert (X' : s_tx s' = SET). { destruct e; ev_inv E; auto; exfalso; apply Z; left; auto. }
    fin. intros Q; apply Z; right; auto.
  - rewrite app_nil_r. destruct H as (R & B & L & X). fin.
  - exists k', o. split; auto. unfold stuck_tx. fin.
Qed.

(** rank of a line: an upper bound of the number of lines until the function returns *)
Definition rank (l : spc) : nat :=
  match l with
  | L164 => 6 | L167 => 5 | L168 => 4 | L169 _ => 3 | L171 => 2 | L173 => 1
  | L186 => 10 | L186b => 9 | L193 => 8 | L193b => 7 | L195 => 6 | L196 => 5 | L197 => 4 | L198 => 3 | L199 => 2 | L200 => 1
  | L188 => 4 | L189 => 3 | L190 => 2 | L191 => 1
  | L216 => 4 | L218 => 3 | L219 => 2 | L220 => 1
  | L232 => 7 | L233 => 6 | L234 => 5 | L235 => 4 | L236 => 3 | L237 => 2 | L238 => 1
  end.
Lemma rank_line c l s l' s' o : s_line c l s = Ok (Some l', s', o) -> (rank l' < rank l)%nat.
Proof. intros E. destruct l; line_inv E; cbn; lia. Qed.
Lemma rank_pos l : (1 <= rank l <= 10)%nat.
Proof. destruct l; cbn; lia. Qed.
Lemma lines_return c fuel : cfg_tables_ok c -> forall l s, slave_ready c s -> (rank l <= fuel)%nat ->
  exists s' o, s_lines fuel c l s = Ok (s', o) /\ slave_ready c s'.
Proof.
  intros Hc. induction fuel as [|fuel IH]; intros l s R H.
  - assert (X := rank_pos l). lia.
  - cbn [s_lines]. destruct (line_ready c l s Hc R) as (l' & s' & o & E & R' & _). rewrite E. cbn [bind]. destruct l' as [l'|].
    + apply rank_line in E. destruct (IH l' s' R' ltac:(lia)) as (s2 & o2 & E2 & R2). rewrite E2. cbn [bind]. eauto.
    + eauto.
Qed.
(** within [rank] further lines, whatever interrupts come between, the function has returned *)
Lemma returns c sched : forall k l k' t, sc_pc k = Some l -> (rank l <= steps sched)%nat -> s_run c sched k = Ok (k', t) ->
  exists s1 s2 k1 t1, sched = s1 ++ s2 /\ s_run c s1 k = Ok (k1, t1) /\ sc_pc k1 = None /\ (steps s1 <= rank l)%nat.
Proof.
  induction sched as [|a sched IH]; intros k l k' t P H E.
  - cbn in H. assert (X := rank_pos l). lia.
  - cbn [s_run] in E. destruct (s_act c a k) as [[k1 t1]| |] eqn:A; try discriminate. cbn [bind] in E.
    destruct (s_run c sched k1) as [[k2 t2]| |] eqn:A2; try discriminate.
    destruct a as [|e].
    + assert (A' := A). cbn [s_act] in A. rewrite P in A. destruct (s_line c l (sc_s k)) as [[[l' s'] o]| |] eqn:E1; try discriminate. cbn [bind] in A. inversion A; subst k1 t1.
      destruct l' as [l'|].
      * assert (X := rank_line _ _ _ _ _ _ E1). destruct (IH (mk_sconf s' (Some l')) l' k2 t2 eq_refl) as (s1 & s2 & k3 & t3 & -> & R1 & R2 & R3); auto.
        { cbn [steps] in H. lia. }
        exists (SStep :: s1), s2, k3, (map TOut o ++ t3). split; [reflexivity|]. cbn [s_run]. rewrite A'. cbn [bind]. rewrite R1. cbn [bind steps]. repeat split; auto. lia.
      * exists [SStep], sched, (mk_sconf s' None), (map TOut o ++ []). split; [reflexivity|]. cbn [s_run]. rewrite A'. cbn [bind steps]. repeat split; auto. apply rank_pos.
    + assert (A' := A). cbn [s_act] in A. destruct (s_event e (sc_s k)) as [s'| |]; try discriminate. cbn [bind] in A. inversion A; subst k1 t1.
      destruct (IH (mk_sconf s' (sc_pc k)) l k2 t2 P) as (s1 & s2 & k3 & t3 & -> & R1 & R2 & R3); auto.
      exists (SEv e :: s1), s2, k3, ([TEv e] ++ t3). split; [reflexivity|]. cbn [s_run]. rewrite A'. cbn [bind]. rewrite R1. cbn [bind steps]. repeat split; auto.
Qed.
