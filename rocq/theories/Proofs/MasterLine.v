(** The master firmware: sequences of exchanges on the line. *)
From Verif Require Export Proofs.MasterExch Proofs.MasterTimeout.
Import Verif.Proofs.MasterWire.

(** *** runs without receptions leave the error flags alone *)
Definition no_recv (l : mpc) : bool :=
  match l with M649 | M651 | M404 | M405 | M406 | M407 | M669 | M671 | M672 | M673 | M690 | M694 | M718 | M900 | M901 | M902 => true | _ => false end.
Definition Nr (l : mpc) (s : master) : Prop := no_recv l = true /\ mm_t15 s = CLEARED /\ mm_crc s = CLEARED /\ mm_fe s = CLEARED.
Lemma Nr_line c l s l' s' o : mctl c l s -> Nr l s -> m_line c l s = Ok (l', s', o) -> Nr (m_next l' s') s'.
Proof.
  intros K (N & T1 & C & Fe) E. assert (BS := mc_st _ _ _ K). unfold Nr.
  destruct l; try discriminate N; mline_inv E; cbn [m_next mst_ok] in *; unfold m_dispatch; mprj; try rewrite BS; repeat split; auto; try (rewrite T1 in X; discriminate X); try (destruct BS as [-> | ->]; reflexivity).
Qed.
Lemma Nr_run c sched : cfg_master_ok c -> reqs_safe sched -> (forall e, In e (m_events sched) -> calm e) -> forall t k k' o, cinv c t (mloc k) (mc_s k) -> Nr (mloc k) (mc_s k) -> m_run c sched k = Ok (k', o) -> Nr (mloc k') (mc_s k').
Proof.
  intros Hc HS HE t k k' o I N E.
  refine (proj2 (m_run_inv c (fun t k => cinv c t (mloc k) (mc_s k) /\ Nr (mloc k) (mc_s k)) sched _ t k k' o (conj I N) E)).
  clear - Hc HS HE. intros t k a k' o Ha [I N] E. destruct a as [|e]; cbn [m_act] in E.
  - destruct (mc_pc k) as [l|] eqn:P.
    + assert (L : mloc k = l) by (unfold mloc; now rewrite P). rewrite L in *.
      destruct (m_line c l (mc_s k)) as [[[l' s'] o']| |] eqn:EL; try discriminate E. cbn [bind] in E. inversion E; subst k' o.
      assert (L' : mloc (mk_mconf s' l') = m_next l' s') by (unfold mloc; cbn; destruct l'; auto). rewrite L'. cbn [mc_s]. split; [eapply cinv_line; eauto|]. eapply Nr_line; eauto. apply (Minv_ctl _ _ _ _ (ci_inv _ _ _ _ I)).
    + inversion E; subst. rewrite app_nil_r. assert (L : mloc (mk_mconf (mc_s k) (Some (m_dispatch (mc_s k)))) = mloc k) by (unfold mloc; cbn; now rewrite P). rewrite L. auto.
  - destruct (m_event c e (mc_s k)) as [[s' o']| |] eqn:EE; try discriminate E. cbn [bind] in E. inversion E; subst k' o.
    assert (SF : ev_safe e) by (destruct e; cbn; auto). assert (X := ev_facts _ _ _ _ _ _ _ Hc I SF EE).
    assert (L : mloc (mk_mconf s' (mc_pc k)) = mloc k). { unfold mloc. cbn [mc_pc mc_s]. destruct (mc_pc k); auto. unfold m_dispatch. now rewrite (m_event_st _ _ _ _ _ EE). }
    rewrite L. cbn [mc_s]. split; [eapply cinv_event; eauto|]. destruct N as (N1 & N2 & N3 & N4).
    assert (Ce : calm e). { apply HE. clear - Ha. induction sched as [|x l IH]; [destruct Ha|]. destruct Ha as [->|Ha]; [left; auto|]. destruct x; cbn [m_events]; [|right]; auto. }
    assert (Fl := evf_fl _ _ _ _ _ X Ce). unfold MasterAttempt.fl in Fl. inversion Fl. unfold Nr. repeat split; congruence.
Qed.

(** enough time left for the ticks to come, and no more than [m] *)
Definition tm_upto (m : Z) (rem : list mev) (x : Z) : Prop := 2 + Z.of_nat (ticks rem) <= x <= m.
Lemma tm_upto_ok m : tm_ok (tm_upto m).
Proof.
  unfold tm_upto. constructor.
  - intros e rem x N H. destruct e; cbn [ticks] in H; auto. congruence.
  - intros rem x H. cbn [ticks] in H. lia.
  - intros. lia.
Qed.
Section Line.
Context (c : cfg) (Hc : cfg_master_ok c) (a : api).
Notation T := (u32 (c_timeout c)).
Notation len := (length (request_frame a)).
Definition wready (F : nat) (V : list vis) (r : Z) (t : list mitem) (w : mfw) : Prop :=
  ready c a F V r t (w_lib w) /\ unsent (mloc (w_lib w)) = true /\ driver_ready w.
Definition bad_one (p : list Z * wtry) : Prop := bad_frame a (fst p) /\ wtry_ok T len (fst p) (snd p).
Lemma line_bad f v F V r lo t w : bad_one (f, v) -> forallb w_plain lo = true -> w_reqs_safe (lo ++ wtry_sched v) -> wready F V r t w ->
  exists l1 l2 w' t', lo ++ wtry_sched v = l1 ++ l2 /\ forallb w_plain l2 = true /\ w_run c l1 w = Ok (w', t') /\ m_on_line t' = request_frame a /\ driver_rests w' /\
    (wready F (MasterAttempt.sent a V) (r + 1) (t ++ m_lib_of t') w' /\ r < c_repeat c \/
     c_repeat c <= r /\ exists e, r_err e = RESP_RTU_CRC_ERR /\ r_id e = api_id a /\ done c F (MasterAttempt.sent a V) (t ++ m_lib_of t') (w_lib w') [CommErr e]).
Proof.
  intros [((B1 & B2 & B3) & B4) Ok] Hlo HS ((I & Q) & U & D).
  destruct (line_try c Hc a v f F V true r lo t w Ok B1 B2 B3 B4 Hlo HS I Q U D) as (l1 & l2 & w' & t' & E & P & R & O & D' & I' & La & De & Pc).
  exists l1, l2, w', t'. do 5 (split; auto). destruct (mloc (w_lib w')) eqn:L; try discriminate De; cbn [late] in La.
  - right. destruct La as ((cbs & Rs & Le & Fi & Vi) & _). split; [apply Le; reflexivity|]. destruct Rs as (e & -> & Re & Rd). exists e. split; auto. split; auto. unfold done. rewrite L. split; auto. split; auto. apply idle_of; auto.
  - left. destruct La as (B5 & (C1 & C2 & C3) & Rp & _ & Le). split; [|lia]. split; [|rewrite L; split; auto; apply rests_ready, D']. unfold ready. rewrite L. split; auto. split; [unfold MasterAttempt.fl; congruence|]. exact B5.
Qed.
Definition tries_sched (ys : list (list Z * wtry)) : list wact := concat (map (fun p => wtry_sched (snd p)) ys).
Definition frames_out (n : nat) : list Z := concat (repeat (request_frame a) n).
Lemma wsafe_app x y : w_reqs_safe (x ++ y) <-> w_reqs_safe x /\ w_reqs_safe y.
Proof. unfold w_reqs_safe. split; [intros H; split; intros q Hq; apply H, in_or_app; auto|]. intros [H1 H2] q Hq. apply in_app_or in Hq as [Hq|Hq]; auto. Qed.
Lemma line_tries ys : Forall bad_one ys -> forall F V r lo t w, r + Z.of_nat (length ys) <= c_repeat c -> forallb w_plain lo = true -> w_reqs_safe (lo ++ tries_sched ys) -> wready F V r t w ->
  exists l1 l2 w' t', lo ++ tries_sched ys = l1 ++ l2 /\ forallb w_plain l2 = true /\ w_run c l1 w = Ok (w', t') /\ m_on_line t' = frames_out (length ys) /\
    wready F (V ++ sends a (length ys)) (r + Z.of_nat (length ys)) (t ++ m_lib_of t') w'.
Proof.
  unfold tries_sched. induction 1 as [|[f v] ys Hy _ IH]; intros F V r lo t w Le Hlo HS Rd; cbn [map concat length snd] in *.
  - exists [], lo, w, []. cbn [w_run]. rewrite ?app_nil_r. split; auto. split; auto. split; auto. split; auto. unfold sends. cbn [repeat m_lib_of flat_map]. rewrite ?app_nil_r. replace (r + Z.of_nat 0) with r by lia. auto.
  - rewrite app_assoc in HS. apply wsafe_app in HS as [HS1 HS2].
    destruct (line_bad f v F V r lo t w Hy Hlo HS1 Rd) as (l1 & l2 & w1 & t1 & E1 & P1 & R1 & O1 & D1 & [[Rd1 _]|[Bad _]]); [|lia].
    destruct (IH F (MasterAttempt.sent a V) (r + 1) l2 (t ++ m_lib_of t1) w1) as (l3 & l4 & w2 & t2 & E2 & P2 & R2 & O2 & Rd2); auto; [lia| |].
    { apply wsafe_app. split; auto. rewrite E1 in HS1. apply wsafe_app in HS1. tauto. }
    exists (l1 ++ l3), l4, w2, (t1 ++ t2). split. { rewrite app_assoc, E1, <- app_assoc, E2, app_assoc. reflexivity. }
    split; auto. split. { rewrite w_run_app, R1. cbn [bind]. rewrite R2. reflexivity. }
    split. { rewrite m_on_line_app, O1, O2. reflexivity. }
    rewrite m_lib_of_app, app_assoc. rewrite MasterTries.sent_sends in Rd2. replace (r + Z.of_nat (S (length ys))) with (r + 1 + Z.of_nat (length ys)) by lia. exact Rd2.
Qed.
Lemma frames_snoc n : frames_out n ++ request_frame a = frames_out (S n).
Proof. unfold frames_out. replace (S n) with (n + 1)%nat by lia. rewrite repeat_app, concat_app. cbn. now rewrite app_nil_r. Qed.
(** the end of an exchange: the firmware rests, [n] transmissions on the line, callbacks [l] *)
Definition wdone (F : nat) (V : list vis) (n : nat) (l : list cb) (t : list mitem) (w : mfw) (t' : list witem) : Prop :=
  done c F (V ++ sends a n) (t ++ m_lib_of t') (w_lib w) l /\ m_on_line t' = frames_out n /\ driver_rests w.
Lemma line_good ys f v F V lo t w : Forall bad_one ys -> Z.of_nat (length ys) <= c_repeat c -> good_frame a f -> wtry_ok T len f v ->
  forallb w_plain lo = true -> w_reqs_safe (lo ++ tries_sched ys ++ wtry_sched v) -> wready F V 0 t w ->
  exists l1 l2 w' t' l, lo ++ tries_sched ys ++ wtry_sched v = l1 ++ l2 /\ forallb w_plain l2 = true /\ w_run c l1 w = Ok (w', t') /\ wdone F V (S (length ys)) l t w' t' /\ delivered a f = Some l /\ no_leftovers (w_lib w').
Proof.
  intros Hys Le ((B1 & B2 & B3) & B4) Ok Hlo HS Rd. rewrite app_assoc in HS |- *. apply wsafe_app in HS as [HS1 HS2].
  destruct (line_tries ys Hys F V 0 lo t w) as (l1 & l2 & w1 & t1 & E1 & P1 & R1 & O1 & (I1 & Q1) & U1 & D1); auto.
  destruct (line_try c Hc a v f F (V ++ sends a (length ys)) false (0 + Z.of_nat (length ys)) l2 (t ++ m_lib_of t1) w1 Ok B1 B2 B3 B4 P1) as (l3 & l4 & w2 & t2 & E2 & P2 & R2 & O2 & D2 & I2 & La & De & Pc); auto.
  { apply wsafe_app. split; auto. rewrite E1 in HS1. apply wsafe_app in HS1. tauto. }
  destruct (mloc (w_lib w2)) eqn:L; try discriminate De; cbn [late] in La.
  - destruct La as ((l & Rs & _ & Fi & Vi) & Fl & Rp). exists (l1 ++ l3), l4, w2, (t1 ++ t2), l. split. { rewrite E1, <- app_assoc, E2, app_assoc. reflexivity. }
    split; auto. split. { rewrite w_run_app, R1. cbn [bind]. rewrite R2. reflexivity. }
    split; [|split; [exact Rs|exact Fl]]. split; [|split; auto; rewrite m_on_line_app, O1, O2; apply frames_snoc].
    unfold done. rewrite L, m_lib_of_app, app_assoc. split; auto. split; [apply idle_of; auto|]. split; auto. rewrite Vi. unfold MasterAttempt.sent. rewrite <- !app_assoc. f_equal. cbn [app]. rewrite sends_snoc. reflexivity.
  - destruct La as (_ & _ & _ & Z & _). discriminate.
Qed.
Lemma line_failed ys y F V lo t w : Forall bad_one (ys ++ [y]) -> Z.of_nat (length ys) = c_repeat c ->
  forallb w_plain lo = true -> w_reqs_safe (lo ++ tries_sched (ys ++ [y])) -> wready F V 0 t w ->
  exists l1 l2 w' t' e, lo ++ tries_sched (ys ++ [y]) = l1 ++ l2 /\ forallb w_plain l2 = true /\ w_run c l1 w = Ok (w', t') /\ wdone F V (S (length ys)) [CommErr e] t w' t' /\ r_err e = RESP_RTU_CRC_ERR /\ r_id e = api_id a.
Proof.
  intros Hys Le Hlo HS Rd. destruct y as [f v]. assert (X : tries_sched (ys ++ [(f, v)]) = tries_sched ys ++ wtry_sched v) by (unfold tries_sched; rewrite map_app, concat_app; cbn; now rewrite app_nil_r). rewrite X in *.
  apply Forall_app in Hys as [Hys Hy]. inversion Hy as [|? ? Hy' _]; subst. rewrite app_assoc in HS |- *. apply wsafe_app in HS as [HS1 HS2].
  destruct (line_tries ys Hys F V 0 lo t w) as (l1 & l2 & w1 & t1 & E1 & P1 & R1 & O1 & Rd1); auto; [lia|].
  destruct (line_bad f v F (V ++ sends a (length ys)) (0 + Z.of_nat (length ys)) l2 (t ++ m_lib_of t1) w1 Hy' P1) as (l3 & l4 & w2 & t2 & E2 & P2 & R2 & O2 & D2 & [[_ Bad]|[_ (e & Re & Ie & I2 & J2 & F2 & V2)]]); auto.
  { apply wsafe_app. split; auto. rewrite E1 in HS1. apply wsafe_app in HS1. tauto. }
  { lia. }
  exists (l1 ++ l3), l4, w2, (t1 ++ t2), e. split. { rewrite E1, <- app_assoc, E2, app_assoc. reflexivity. }
  split; auto. split. { rewrite w_run_app, R1. cbn [bind]. rewrite R2. reflexivity. }
  split; auto. split; [|split; auto; rewrite m_on_line_app, O1, O2; apply frames_snoc]. unfold done. rewrite m_lib_of_app, app_assoc. split; auto. split; auto. split; auto. rewrite V2. unfold MasterAttempt.sent. rewrite <- !app_assoc. f_equal. cbn [app]. rewrite sends_snoc. reflexivity.
Qed.

(** nobody answers *)
Lemma ticks_nth bs n : Forall w_tick bs -> (S n <= length bs)%nat -> exists b1 b b2, concat bs = concat b1 ++ (WTick :: b) ++ concat b2 /\ length b1 = n /\ Forall w_tick b1 /\ forallb w_plain b = true /\ w_ticks b = 0%nat /\ (9 <= w_mains b)%nat /\ Forall w_tick b2.
Proof.
  revert n. induction bs as [|x bs IH]; intros n Hb Ln; cbn [length] in Ln; [lia|]. inversion Hb as [|? ? (b & -> & P & Tk & M) Hb']; subst. destruct n as [|n].
  - exists [], b, bs. cbn [concat app]. repeat (split; auto).
  - destruct (IH n Hb' ltac:(lia)) as (b1 & b' & b2 & E & L & F1 & X). exists ((WTick :: b) :: b1), b', b2. cbn [concat length]. rewrite E, <- app_assoc. split; auto. split; auto. split; auto. constructor; auto. exists b. auto.
Qed.
Lemma ticks_count bs : Forall w_tick bs -> w_ticks (concat bs) = length bs /\ forallb w_plain (concat bs) = true.
Proof.
  induction 1 as [|x bs (b & -> & P & Tk & M) _ [IH1 IH2]]; [auto|]. cbn [concat length]. rewrite w_ticks_app, forallb_app, IH1, IH2. cbn [forallb w_plain]. change (WTick :: b) with ([WTick] ++ b). rewrite w_ticks_app, Tk, P. auto.
Qed.
Lemma line_silent x F V r0 lo t w : wsilent_ok T len x -> forallb w_plain lo = true -> w_reqs_safe (lo ++ wsilent_sched x) -> wready F V r0 t w ->
  exists l1 l2 w' t' r, lo ++ wsilent_sched x = l1 ++ l2 /\ forallb w_plain l2 = true /\ w_run c l1 w = Ok (w', t') /\ wdone F V 1 [TimeoutErr r] t w' t' /\ timeout_report_of a r /\ no_leftovers (w_lib w').
Proof.
  intros Ok Hlo HS ((I & Q) & U & D). assert (P := rests_P1 c a _ _ _ _ _ I Q U D). destruct Ok as [O1 O2 O3 O4 O5 O6 O7 O8 O9 O10].
  unfold wsilent_sched in *. rewrite app_assoc in HS |- *. set (t0 := map WLib t ++ map WLine (concat (m_sent t))) in *.
  assert (L1 : m_lib_of t0 = t). { unfold t0. rewrite m_lib_of_app, m_lib_of_lib. assert (X : forall l, m_lib_of (map WLine l) = []) by (induction l; auto). now rewrite X, app_nil_r. }
  assert (L2 : m_on_line t0 = concat (m_sent t)). { unfold t0. rewrite m_on_line_app, m_on_line_lib. cbn [app]. apply on_line_lines. }
  assert (Vb : vbytes V = concat (m_sent t)). { unfold vbytes. rewrite sent_visible. do 2 f_equal. destruct Q as [_ Q]; destruct (mloc (w_lib w)); try discriminate U; symmetry; apply Q. }
  assert (HSa : w_reqs_safe ((lo ++ x_send x) ++ x_out x)). { intros q Hq. apply HS. apply in_app_or in Hq as [Hq|Hq]; apply in_or_app; auto. right. apply in_or_app; auto. }
  assert (Plo : w_shifts lo = 0%nat). { clear - Hlo. induction lo as [|y l IH]; auto. cbn [forallb] in Hlo. apply andb_prop in Hlo as [Hx Hl]. change (y :: l) with ([y] ++ l). rewrite w_shifts_app, (IH Hl). destruct y; try discriminate Hx; reflexivity. }
  destruct (out_phase c Hc a F V _ (lo ++ x_send x) (x_out x) t0 w P) as (A & B & h' & w1 & t1 & Eo & R1 & P' & G & Fi); auto.
  { apply D. } { rewrite forallb_app, (plain_tx _ Hlo), O1. auto. } { rewrite w_mains_app. lia. } { rewrite w_shifts_app. lia. }
  assert (FS := fin_sent _ _ _ _ _ _ _ _ P' Fi). rewrite m_on_line_app, L2, Vb in FS. apply app_inv_head in FS.
  assert (CL := goal_listen _ _ _ _ _ _ _ _ P' G). destruct (out_idle _ _ _ _ _ _ _ _ P' G) as (X1 & X2 & X3 & X4 & X5). destruct Fi as (Fi1 & Fi2 & Fi3). destruct G as [G1 G2].
  assert (Pi := p_inv _ _ _ _ _ _ _ _ P'). assert (Pq := p_q _ _ _ _ _ _ _ _ P'). rewrite m_lib_of_app, L1 in Pi, Pq.
  assert (Ew : w1 = mk_mfw (w_lib w1) (w_u w1) None) by (rewrite <- G2; destruct w1; reflexivity).
  set (u1 := w_u w1) in *. set (k1 := w_lib w1) in *. set (ta := t ++ m_lib_of t1) in *.
  set (u2 := mk_uart (u_cur u1) (u_last u1) false None None false false false false).
  assert (Ru2 : resting u2) by (repeat split).
  assert (Ls1 : listen u1 WUsart = (u2, [MEv MTxDone])). { cbn [listen]. rewrite X1, Fi2, X2, X3, X4, X5. reflexivity. }
  assert (HB : forallb w_tx_only (B ++ x_wait x) = true). { rewrite forallb_app. rewrite Eo, forallb_app in O4. apply andb_prop in O4 as [_ O4]. cbn [forallb] in O4. apply andb_prop in O4 as [_ O4]. rewrite O4, (plain_tx _ O6). auto. }
  assert (PE : forall l e, In e (m_events (proj l)) -> bev e /\ sev e /\ calm e). { intros l e He. destruct (proj_events _ _ He) as [->|(q & -> & _)]; repeat split. }
  assert (HSv : w_reqs_safe (B ++ x_wait x) /\ w_reqs_safe (concat (x_ticks x))). { rewrite Eo in HS. split; intros q Hq; apply HS; repeat (rewrite in_app_iff in * || cbn [In] in * ); tauto. } destruct HSv as [S1 S2].
  rewrite Eo, !w_ticks_app in O8. change (WUsart :: B) with ([WUsart] ++ B) in O8. rewrite w_ticks_app in O8.
  destruct (event_now c Hc _ _ MTxDone Pi safetx) as (s2 & o2 & E2 & Y2 & I2 & M2 & A2). set (k2 := mk_mconf s2 (mc_pc k1)) in *.
  destruct (tx_after c a F (MasterAttempt.sent a V) (CLEARED, CLEARED, CLEARED, r0) (tm_upto T) Hc (tm_upto_ok _) eq_refl (proj (B ++ x_wait x)) []) with (t := ta ++ MTEv MTxDone :: map MTOut o2) (k := k2) as (k3 & o3 & R3 & I3 & ((H3 & B3 & _ & D3) & Tx3) & L3); auto.
  { apply proj_safe. exact S1. }
  { rewrite M2, G1, app_nil_r. destruct Pq as [H1 H1']. rewrite G1 in H1'. split; [|exact (ef_tx _ _ _ _ _ Y2)]. split; [cbn [mc_s k2]; rewrite (evf_fl _ _ _ _ _ Y2) by exact Logic.I; auto|].
    split; [apply base_ev; [apply H1'|apply (ef_o _ _ _ _ _ Y2)]|]. split; [intros e He; apply (PE _ _ He)|]. unfold tm_upto. rewrite proj_ticks, w_ticks_app. lia. }
  { rewrite proj_steps, w_mains_app. lia. }
  assert (N3 : mm_t15 (mc_s k3) = CLEARED) by (unfold MasterAttempt.fl in H3; inversion H3; auto).
  assert (D3' : 2 <= mm_timer (mc_s k3) <= T). { destruct (mloc k3); try discriminate L3; unfold tm_upto in D3; cbn [ticks] in D3; lia. }
  set (n := mm_timer (mc_s k3)) in *. set (t3 := (ta ++ MTEv MTxDone :: map MTOut o2) ++ o3) in *.
  destruct (ticks_nth (x_ticks x) (Z.to_nat (n - 2)) O9) as (b1 & b & b2 & Eb & Lb & Hb1 & Pb & Tb & Mb & Hb2); [lia|].
  destruct (ticks_count _ Hb1) as [C1 C2]. destruct (ticks_count _ Hb2) as [C3 C4].
  destruct (wait_report c Hc a F (MasterAttempt.sent a V) n (proj (concat b1)) (proj b) t3 k3) as (k4 & o4 & R4 & B4 & Aw4 & va & vb & k5 & o5 & Ev & R5 & I5 & Q5 & L5 & P5); auto.
  { assert (Z := proj_safe _ S2). rewrite Eb, !proj_app in Z. intros q Hq. apply Z. repeat rewrite in_app_iff in *. change (proj (WTick :: b)) with (MEv MTick :: proj b). cbn [In] in *. tauto. }
  { lia. } { intros X. destruct (PE _ _ X) as (_ & X' & _). exact X'. } { unfold sched_ticks. rewrite proj_ticks, C1. lia. }
  { intros e He. destruct (proj_events _ _ He) as [->|(q & -> & _)]; [|split; discriminate]. exfalso. clear - He Tb. rewrite <- proj_ticks in Tb. induction (m_events (proj b)) as [|y l IH]; [destruct He|]. destruct He as [->|He]; [discriminate Tb|]. destruct y; cbn [ticks] in Tb; auto. discriminate. }
  { rewrite proj_steps. auto. }
  destruct Q5 as [T5 Q5]. rewrite L5 in Q5. destruct Q5 as (r & Tr & F5 & V5).
  destruct (proj_split _ Pb _ _ Ev) as (la & lb & Eb' & Ea & Eb2). assert (PL : forallb w_plain la = true /\ forallb w_plain lb = true) by (rewrite Eb', forallb_app in Pb; apply andb_prop; exact Pb). destruct PL as [PL1 PL2].
  set (o := (MTEv MTxDone :: map MTOut o2) ++ o3 ++ o4 ++ o5).
  assert (TT : ta ++ o = t3 ++ o4 ++ o5) by (unfold o, t3; rewrite <- ?app_assoc; reflexivity).
  set (lib := MEv MTxDone :: proj (B ++ x_wait x) ++ proj (concat b1) ++ MEv MTick :: va).
  assert (R : m_run c lib k1 = Ok (k5, o)). { unfold lib, o. cbn [m_run]. rewrite A2. cbn [bind]. fold k2. rewrite m_run_app, R3. cbn [bind]. rewrite m_run_app, R4. cbn [bind]. rewrite R5. reflexivity. }
  assert (NS : m_sent o = []).
  { assert (X : m_sent (ta ++ o) = flat_map (fun x => match x with VSend f => [f] | _ => [] end) (MasterAttempt.sent a V)).
    { rewrite TT, sent_visible, V5, flat_map_app. cbn. now rewrite app_nil_r. }
    assert (Y : m_sent ta = flat_map (fun x => match x with VSend f => [f] | _ => [] end) (MasterAttempt.sent a V)).
    { destruct Pq as [_ Pq]. rewrite G1 in Pq. rewrite sent_visible. f_equal. apply Pq. }
    rewrite m_sent_app, Y in X. rewrite <- (app_nil_r (flat_map _ _)) in X at 2. apply app_inv_head in X. exact X. }
  set (lw := WUsart :: (B ++ x_wait x) ++ concat b1 ++ WTick :: la).
  assert (LS : listens u1 lw = (u2, lib)).
  { unfold lw, lib. cbn [listens]. rewrite Ls1, listens_app, (listen_tx _ _ Ru2 HB), listens_app, (listen_plain _ _ C2). cbn [listens listen]. rewrite (listen_plain _ _ PL1), Ea. cbn [app]. reflexivity. }
  destruct (listen_run c lw u1 u2 _ k1 k5 o (conj Fi1 Fi3) CL LS R NS) as (t2 & R2 & M1 & M3 & _ & Qu).
  exists (((lo ++ x_send x) ++ A) ++ lw), (lb ++ concat b2), (mk_mfw k5 u2 None), (t1 ++ t2), r.
  split. { unfold lw. rewrite Eo, Eb, Eb'. repeat (rewrite <- !app_assoc; cbn [app]). reflexivity. }
  split. { rewrite forallb_app, PL2, C4. reflexivity. }
  split. { rewrite w_run_app, R1. cbn [bind]. rewrite Ew. fold u1 k1. rewrite R2. reflexivity. }
  split. { split; [|split].
    - unfold done. cbn [w_lib]. rewrite m_lib_of_app, M1, app_assoc. fold ta. rewrite TT. split; auto. split; [apply idle_of; auto|]. split; auto.
    - rewrite m_on_line_app, M3, FS, app_nil_r. unfold frames_out. cbn. now rewrite app_nil_r.
    - unfold driver_rests. cbn. destruct Qu as [_ Qu]. repeat split; auto. }
  split; auto. cbn [w_lib].
  assert (N : Nr (mloc k5) (mc_s k5)).
  { refine (Nr_run c lib Hc _ _ ta k1 k5 o Pi _ R).
    - assert (Z1 := proj_safe _ S1). assert (Z2 := proj_safe _ S2). rewrite Eb, Eb', !proj_app in Z2. unfold lib. intros q Hq. unfold reqs_safe in *. change (proj (WTick :: la ++ lb)) with (MEv MTick :: proj (la ++ lb)) in Z2. rewrite proj_app, Ea in Z2.
      cbn [In] in Hq. destruct Hq as [Hq|Hq]; [discriminate|]. apply in_app_or in Hq as [Hq|Hq]; auto. apply Z2. apply in_app_or in Hq as [Hq|[Hq|Hq]]; [|discriminate|]; apply in_or_app; auto. right. right. apply in_or_app. left. apply in_or_app. auto.
    - unfold lib. intros e He. cbn [m_events] in He. destruct He as [<-|He]; [exact Logic.I|]. rewrite !m_events_app in He. cbn [m_events] in He. apply in_app_or in He as [He|He]; [apply (PE _ _ He)|]. apply in_app_or in He as [He|[<-|He]]; [apply (PE _ _ He)|exact Logic.I|]. rewrite <- Ea in He. apply (PE _ _ He).
    - destruct Pq as [Hf _]. unfold MasterAttempt.fl in Hf. inversion Hf. unfold Nr. rewrite G1. repeat split; congruence. }
  destruct N as (_ & N1 & N2 & N4). split; auto.
Qed.
End Line.
