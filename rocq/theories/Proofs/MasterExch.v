(** The master firmware: a request on the line and its answer. *)
From Verif Require Export Proofs.MasterOut.
Import Verif.Proofs.MasterWire.

Lemma on_line_lines l : m_on_line (map WLine l) = l.
Proof. induction l as [|x l IH]; [reflexivity|]. cbn [map]. change (m_on_line (WLine x :: map WLine l)) with (x :: m_on_line (map WLine l)). now rewrite IH. Qed.
(** what plain actions mean for the library *)
Definition proj1w (x : wact) : list mact := match x with WMain => [MStep] | WTick => [MEv MTick] | WReq q => [MEv (MReq q)] | _ => [] end.
Definition proj (l : list wact) : list mact := flat_map proj1w l.
Lemma proj_app a b : proj (a ++ b) = proj a ++ proj b.
Proof. apply flat_map_app. Qed.
Lemma proj_steps l : m_steps (proj l) = w_mains l.
Proof. induction l as [|x l IH]; [reflexivity|]. change (proj (x :: l)) with (proj1w x ++ proj l). change (x :: l) with ([x] ++ l). rewrite w_mains_app, <- IH, m_steps_app. destruct x; reflexivity. Qed.
Lemma proj_ticks l : ticks (m_events (proj l)) = w_ticks l.
Proof. induction l as [|x l IH]; [reflexivity|]. change (proj (x :: l)) with (proj1w x ++ proj l). change (x :: l) with ([x] ++ l). rewrite w_ticks_app, <- IH, m_events_app, ticks_app. destruct x; reflexivity. Qed.
Lemma proj_events l e : In e (m_events (proj l)) -> e = MTick \/ exists q, e = MReq q /\ In (WReq q) l.
Proof.
  induction l as [|x l IH]; [intros []|]. change (proj (x :: l)) with (proj1w x ++ proj l). rewrite m_events_app. intros H. apply in_app_or in H as [H|H]; [|destruct (IH H) as [X|(q & X & Y)]; [auto|right; exists q; split; auto; now right]].
  destruct x; cbn in H; try contradiction; destruct H as [H|[]]; subst; auto. right. exists a. split; auto. now left.
Qed.
Lemma proj_safe l : w_reqs_safe l -> reqs_safe (proj l).
Proof.
  intros H q Hq. unfold proj in Hq. apply in_flat_map in Hq as (x & Hx & Hq). apply H. destruct x; cbn in Hq; try contradiction; destruct Hq as [Hq|[]]; inversion Hq; subst; auto.
Qed.
Lemma plain_tx l : forallb w_plain l = true -> forallb w_tx_only l = true.
Proof. rewrite !forallb_forall. intros H x Hx. specialize (H x Hx). destruct x; try discriminate; auto. Qed.
Lemma proj_split l : forallb w_plain l = true -> forall a b, proj l = a ++ b -> exists la lb, l = la ++ lb /\ proj la = a /\ proj lb = b.
Proof.
  induction l as [|x l IH]; intros Hl a b E.
  - symmetry in E. apply app_eq_nil in E as [-> ->]. exists [], []. auto.
  - cbn [forallb] in Hl. apply andb_prop in Hl as [Hx Hl]. destruct a as [|y a].
    + exists [], (x :: l). auto.
    + change (proj (x :: l)) with (proj1w x ++ proj l) in E. assert (X : proj1w x = [y] /\ proj l = a ++ b) by (destruct x; try discriminate Hx; cbn [proj1w app] in *; inversion E; auto). destruct X as [X1 X2].
      destruct (IH Hl a b X2) as (la & lb & -> & <- & <-). exists (x :: la), lb. split; auto. split; auto. change (proj (x :: la)) with (proj1w x ++ proj la). now rewrite X1.
Qed.

(** *** listening *)
Definition resting (u : uart) : Prop := u_rdr u = None /\ u_txeie u = false /\ u_rtof u = false.
Lemma listen_tx u l : resting u -> forallb w_tx_only l = true -> listens u l = (u, proj l).
Proof.
  intros (R1 & R2 & R3) Hl. induction l as [|x l IH]; [reflexivity|]. cbn [forallb] in Hl. apply andb_prop in Hl as [Hx Hl]. cbn [listens].
  assert (X : listen u x = (u, proj1w x)) by (destruct x; try discriminate Hx; try reflexivity; cbn [listen]; rewrite R1, R2, R3; reflexivity). rewrite X, (IH Hl). reflexivity.
Qed.
Lemma listen_plain u l : forallb w_plain l = true -> listens u l = (u, proj l).
Proof.
  intros Hl. induction l as [|x l IH]; [reflexivity|]. cbn [forallb] in Hl. apply andb_prop in Hl as [Hx Hl]. cbn [listens]. destruct x; try discriminate Hx; cbn [listen]; rewrite (IH Hl); reflexivity.
Qed.
Lemma hardware_split l x r : w_hardware l = x :: r -> exists a b, l = a ++ x :: b /\ forallb w_plain a = true /\ w_hardware b = r.
Proof.
  induction l as [|y l IH]; [discriminate|]. unfold w_hardware in *. cbn [filter]. destruct (w_plain y) eqn:P; cbn [negb].
  - intros H. destruct (IH H) as (a & b & -> & A & B). exists (y :: a), b. cbn [forallb]. rewrite P. auto.
  - intros H. inversion H; subst. exists [], l. auto.
Qed.
Lemma hardware_nil l : w_hardware l = [] -> forallb w_plain l = true.
Proof. induction l as [|y l IH]; auto. unfold w_hardware in *. cbn [filter forallb]. destruct (w_plain y); cbn [negb]; auto. discriminate. Qed.
(** the library's events while [f] is received *)
Record heard (l : list wact) (f : list Z) (s : list mact) : Prop := {
  he_bytes : rx_bytes (m_events s) = f; he_15 : ~ In MT15 (m_events s); he_fe : ~ In MFrameErr (m_events s); he_ticks : ticks (m_events s) = w_ticks l; he_safe : w_reqs_safe l -> reqs_safe s }.
Lemma no_events (P : mev -> Prop) l : (forall e, P e -> e <> MTick /\ forall q, e <> MReq q) -> forall e, P e -> ~ In e (m_events (proj l)).
Proof. intros H e He X. destruct (H e He) as [A B]. destruct (proj_events _ _ X) as [C|(q & C & _)]; [exact (A C)|exact (B q C)]. Qed.
Lemma heard_plain l f s x : heard l f s -> forallb w_plain x = true -> heard (x ++ l) f (proj x ++ s).
Proof.
  intros [A B C D E] _. constructor.
  - rewrite m_events_app. assert (X : rx_bytes (m_events (proj x)) = []). { clear. induction x as [|y x IH]; [reflexivity|]. change (proj (y :: x)) with (proj1w y ++ proj x). rewrite m_events_app. destruct y; auto. }
    assert (Y : forall p q, rx_bytes (p ++ q) = rx_bytes p ++ rx_bytes q) by (clear; induction p as [|[] p IH]; intros q; cbn; auto; now rewrite IH). now rewrite Y, X.
  - rewrite m_events_app. intros H. apply in_app_or in H as [H|H]; auto. destruct (proj_events _ _ H) as [Z|(q & Z & _)]; discriminate.
  - rewrite m_events_app. intros H. apply in_app_or in H as [H|H]; auto. destruct (proj_events _ _ H) as [Z|(q & Z & _)]; discriminate.
  - rewrite m_events_app, ticks_app, proj_ticks, w_ticks_app. lia.
  - intros H. apply reqs_app. split; [apply proj_safe; intros q Hq; apply H; apply in_or_app; auto|]. apply E. intros q Hq. apply H. apply in_or_app; auto.
Qed.
Lemma proj_rx_bytes x : rx_bytes (m_events (proj x)) = [].
Proof. induction x as [|y x IH]; [reflexivity|]. change (proj (y :: x)) with (proj1w y ++ proj x). rewrite m_events_app. destruct y; auto. Qed.
Lemma rx_app p q : rx_bytes (p ++ q) = rx_bytes p ++ rx_bytes q.
Proof. induction p as [|[] p IH]; cbn; auto; now rewrite IH. Qed.
Definition bytes_in (f : list Z) : list wact := flat_map (fun b => [WRx b; WUsart]) f.
Lemma listen_frame f : forall l u, bytes f -> resting u -> u_det u = false -> w_hardware l = bytes_in f ++ [WRto] ->
  exists s, listens u l = (mk_uart (u_cur u) (u_last u) false (match f with [] => u_tdr u | _ => None end) None false true (match f with [] => u_cen u | _ => true end) (u_uif u), s) /\ heard l f s.
Proof.
  induction f as [|b f IH]; intros l u Hb (R1 & R2 & R3) Hd H; cbn [bytes_in flat_map app] in H.
  - destruct (hardware_split _ _ _ H) as (x & y & -> & Hx & Hy). apply hardware_nil in Hy. rewrite listens_app, (listen_plain _ _ Hx). cbn [listens listen]. rewrite (listen_plain _ _ Hy). cbn [app].
    eexists. rewrite Hd, R1, R2. split; [reflexivity|]. apply heard_plain; auto. constructor; rewrite ?app_nil_r.
    + apply proj_rx_bytes.
    + intros X. destruct (proj_events _ _ X) as [Z|(q & Z & _)]; discriminate.
    + intros X. destruct (proj_events _ _ X) as [Z|(q & Z & _)]; discriminate.
    + rewrite proj_ticks. change (WRto :: y) with ([WRto] ++ y). rewrite w_ticks_app. reflexivity.
    + intros X. apply proj_safe. intros q Hq. apply X. now right.
  - inversion Hb as [|? ? B1 B2]; subst. destruct (hardware_split _ _ _ H) as (x & y & -> & Hx & Hy). destruct (hardware_split _ _ _ Hy) as (x1 & z & -> & Hx1 & Hz).
    set (u1 := mk_uart (u_cur u) (u_last u) false None None false false true (u_uif u)).
    destruct (IH z u1 B2 ltac:(repeat split) eq_refl Hz) as (s & Es & [A1 A2 A3 A4 A5]).
    exists (proj x ++ proj x1 ++ MEv (MRx (u8 b)) :: MEv MTxDone :: s). split.
    + rewrite listens_app, (listen_plain _ _ Hx). cbn [listens listen]. rewrite listens_app, (listen_plain _ _ Hx1). cbn [listens listen u_rdr u_txeie u_rtof u_cur u_last u_det u_tdr u_cen u_uif]. rewrite R2, R3, Hd. cbn [orb app].
      fold u1. rewrite Es. cbn [app]. unfold u1. cbn [u_cur u_last u_uif u_tdr u_cen]. destruct f; reflexivity.
    + apply heard_plain; auto. change (WRx b :: x1 ++ WUsart :: z) with ([WRx b] ++ x1 ++ [WUsart] ++ z). constructor.
      * rewrite m_events_app, rx_app, proj_rx_bytes. cbn [app m_events rx_bytes]. rewrite A1. f_equal. unfold u8, byte in *. rewrite !Z.mod_small; auto; rewrite ?Z.mod_small; auto.
      * rewrite m_events_app. cbn [m_events]. intros X. apply in_app_or in X as [X|[X|[X|X]]]; try discriminate; auto. destruct (proj_events _ _ X) as [Z|(q & Z & _)]; discriminate.
      * rewrite m_events_app. cbn [m_events]. intros X. apply in_app_or in X as [X|[X|[X|X]]]; try discriminate; auto. destruct (proj_events _ _ X) as [Z|(q & Z & _)]; discriminate.
      * rewrite m_events_app, ticks_app, proj_ticks, !w_ticks_app. cbn [m_events ticks]. rewrite A4. reflexivity.
      * intros X. apply reqs_app. split; [apply proj_safe; intros q Hq; apply X; apply in_or_app; right; apply in_or_app; auto|].
        intros q [Hq|[Hq|Hq]]; try discriminate. apply A5; auto. intros q' Hq'. apply X. apply in_or_app; right; apply in_or_app; right; apply in_or_app; auto.
Qed.
Lemma listen_timer l u : resting u -> u_cen u = true -> w_hardware l = [WTim] -> listens u l = (mk_uart (u_cur u) (u_last u) (u_det u) (u_tdr u) (u_rdr u) (u_txeie u) (u_rtof u) false true, proj l).
Proof.
  intros (R1 & R2 & R3) C H. destruct (hardware_split _ _ _ H) as (x & y & -> & Hx & Hy). apply hardware_nil in Hy. rewrite listens_app, (listen_plain _ _ Hx). cbn [listens listen]. rewrite C, (listen_plain _ _ Hy). cbn [app].
  rewrite proj_app. reflexivity.
Qed.

Section Exch.
Context (c : cfg) (Hc : cfg_master_ok c) (a : api).
Notation T := (u32 (c_timeout c)).
(** from the completion of the transmission on *)
Lemma half_phase (y : try) (F : nat) (V : list vis) (FE pre wrong bad : bool) (fe0 : flag) (r : Z) (t : list mitem) (k : mconf) :
  (forall e, In e (m_events (y_tx y)) -> calm e) -> (7 <= m_steps (y_tx y))%nat -> answer_timed (T - Z.of_nat (ticks (m_events (y_tx y)))) y ->
  addressed a y -> (if wrong then ~ crc_ok (y_frame y) else crc_ok (y_frame y)) -> bad = wrong || pre -> FE && bad = false ->
  (FE = false -> bad = false -> complete_answer a (y_frame y)) ->
  (if FE then fe0 = SET \/ In MFrameErr (m_events (y_rx y)) else fe0 = CLEARED /\ ~ In MFrameErr (m_events (y_rx y))) ->
  reqs_safe (MEv MTxDone :: y_tx y ++ answer_sched y) ->
  cinv c t (mloc k) (mc_s k) -> Qs a F V (CLEARED, bl pre, fe0, r) t (mloc k) (mc_s k) -> mloc k = M669 ->
  exists w1 w2 k' o, y_35 y = w1 ++ w2 /\ m_run c (MEv MTxDone :: y_tx y ++ y_rx y ++ MEv MT15 :: y_15 y ++ MEv MT35 :: w1) k = Ok (k', o) /\ cinv c (t ++ o) (mloc k') (mc_s k') /\
    late c a F (MasterAttempt.sent a V) (y_frame y) FE bad r (t ++ o) (mloc k') (mc_s k') /\ decided (t ++ o) (mloc k') = true /\ mc_pc k' = None.
Proof.
  intros Y3 Y4 [Z1 Z2 Z3 Z4 Z5 Z6] [Hh Hl] Hcrc Hb Hx Hans Hfe HS I1 H1 L1.
  apply reqs_cons in HS. apply reqs_app in HS as [HS2 HS3].
  destruct (event_now c Hc _ _ MTxDone I1 safetx) as (s2 & o2 & E2 & X2 & I2 & L2 & A2). set (k2 := mk_mconf s2 (mc_pc k)) in *.
  destruct (tx_after c a F (MasterAttempt.sent a V) (CLEARED, bl pre, fe0, r) (tm_more (ticks (m_events (y_rx y) ++ m_events (y_15 y)))) Hc (tm_more_ok _) eq_refl (y_tx y) []) with (t := t ++ MTEv MTxDone :: map MTOut o2) (k := k2) as (k3 & o3 & R3 & I3 & ((H3 & B3 & _ & D3) & Tx3) & L3); auto.
  { rewrite L2, L1, app_nil_r. destruct H1 as [H1 H1']. rewrite L1 in H1'. split; [|exact (ef_tx _ _ _ _ _ X2)]. split; [cbn [mc_s k2]; rewrite (evf_fl _ _ _ _ _ X2) by exact Logic.I; auto|].
    split; [apply base_ev; [apply H1'|apply (ef_o _ _ _ _ _ X2)]|]. split; auto. unfold tm_more. lia. }
  set (t3 := (t ++ MTEv MTxDone :: map MTOut o2) ++ o3) in *. unfold fl in H3. inversion H3 as [[G1 G2 G3 G4]].
  assert (D3' : tm_enough (m_events (y_rx y) ++ m_events (y_15 y)) (mm_timer (mc_s k3)) /\ m_received t3 = []).
  { destruct (mloc k3); try discriminate L3; unfold tm_more, tm_enough in *; cbn [ticks] in D3; destruct D3 as [D3 D4]; (split; [lia|auto]). }
  destruct D3' as [Ti3 Rx3].
  destruct (answer_phase c Hc a F (MasterAttempt.sent a V) (y_frame y) FE pre wrong bad r Hh Hl Hcrc Hb Hx Hans (y_rx y) (y_15 y) (y_35 y) t3 k3) as (w1 & w2 & k4 & o4 & Ew & R4 & I4 & H4 & Dc & P4); auto.
  { rewrite G3. exact Hfe. }
  exists w1, w2, k4, ((MTEv MTxDone :: map MTOut o2) ++ o3 ++ o4). split; auto.
  assert (TT : t ++ (MTEv MTxDone :: map MTOut o2) ++ o3 ++ o4 = t3 ++ o4) by (unfold t3; rewrite <- ?app_assoc; reflexivity). rewrite TT.
  split; [|split; [exact I4|split; [first [exact H4|rewrite G4; exact H4|rewrite <- G4; exact H4]|split; [exact Dc|exact P4]]]]. cbn [m_run]. rewrite A2. cbn [bind]. fold k2. rewrite m_run_app, R3. cbn [bind]. rewrite R4. cbn [bind]. reflexivity.
Qed.

Lemma late_sent F V f FE bad r t k : late c a F V f FE bad r t (mloc k) (mc_s k) -> decided t (mloc k) = true -> m_sent t = flat_map (fun x => match x with VSend f => [f] | _ => [] end) V.
Proof.
  intros L D. rewrite sent_visible. destruct (mloc k); try discriminate D; cbn [late] in L.
  - destruct L as ((l & _ & _ & _ & ->) & _). rewrite !flat_map_app, sent_vcbs. cbn. now rewrite app_nil_r.
  - destruct L as ((_ & _ & ->) & _). reflexivity.
Qed.
Lemma rests_ready w : driver_rests w -> driver_ready w.
Proof. unfold driver_rests, driver_ready. tauto. Qed.
Lemma rests_P1 F V fl0 t w : cinv c t (mloc (w_lib w)) (mc_s (w_lib w)) -> Qs a F V fl0 t (mloc (w_lib w)) (mc_s (w_lib w)) -> unsent (mloc (w_lib w)) = true -> driver_ready w ->
  P1 c a F V fl0 0 (map WLib t ++ map WLine (concat (m_sent t))) w.
Proof.
  intros I Q U (D1 & D2 & D3 & D4 & D6 & D7 & D9).
  assert (L1 : m_lib_of (map WLib t ++ map WLine (concat (m_sent t))) = t).
  { rewrite m_lib_of_app, m_lib_of_lib. assert (X : forall l, m_lib_of (map WLine l) = []) by (induction l; auto). now rewrite X, app_nil_r. }
  assert (L2 : m_on_line (map WLib t ++ map WLine (concat (m_sent t))) = concat (m_sent t)).
  { rewrite m_on_line_app, m_on_line_lib. cbn [app]. apply on_line_lines. }
  assert (B : visible t = V) by (destruct Q as [_ Q]; destruct (mloc (w_lib w)); try discriminate U; apply Q).
  constructor; rewrite ?L1, ?L2; auto.
  - unfold wire. rewrite D1, L1, L2. split; [congruence|]. split; [left; split; [split|]; auto|]. congruence.
  - rewrite sent_visible, B. unfold vbytes. lia.
  - unfold rx_ready. rewrite D1. cbn [det_off cen_off]. rewrite U. repeat split; auto; discriminate.
  - unfold stage. rewrite D1. left. split; auto. split; [split|]; auto.
Qed.
Lemma goal_listen F V fl0 h t w : P1 c a F V fl0 h t w -> out_goal w -> can_listen (w_lib w).
Proof.
  intros P [G1 G2]. assert (I := ci_inv _ _ _ _ (p_inv _ _ _ _ _ _ _ _ P)). rewrite G1 in I. destruct (Minv_current _ _ _ _ I eq_refl) as (i & b & m & C & _).
  split; [|apply (mc_sub _ _ _ (Minv_ctl _ _ _ _ I))]. destruct I as (free & pend & apis & eps & v & I). assert (X := mb_rxc _ _ _ _ _ (iv_buf _ _ _ _ _ _ _ _ _ I) eq_refl). congruence.
Qed.

(** one transmission of the request and its answer [f] *)
Lemma line_try (v : wtry) (f : list Z) (F : nat) (V : list vis) (wrong : bool) (r : Z) (lo : list wact) (t : list mitem) (w : mfw) :
  wtry_ok T (length (request_frame a)) f v -> bytes f -> hd_error f = Some (api_id a) -> (length f < 256)%nat -> (if wrong then ~ crc_ok f else crc_ok f /\ complete_answer a f) ->
  forallb w_plain lo = true -> w_reqs_safe (lo ++ wtry_sched v) -> cinv c t (mloc (w_lib w)) (mc_s (w_lib w)) -> Qs a F V (CLEARED, CLEARED, CLEARED, r) t (mloc (w_lib w)) (mc_s (w_lib w)) ->
  unsent (mloc (w_lib w)) = true -> driver_ready w ->
  exists l1 l2 w' t', lo ++ wtry_sched v = l1 ++ l2 /\ forallb w_plain l2 = true /\ w_run c l1 w = Ok (w', t') /\ m_on_line t' = request_frame a /\ driver_rests w' /\
    cinv c (t ++ m_lib_of t') (mloc (w_lib w')) (mc_s (w_lib w')) /\ late c a F (MasterAttempt.sent a V) f false wrong r (t ++ m_lib_of t') (mloc (w_lib w')) (mc_s (w_lib w')) /\
    decided (t ++ m_lib_of t') (mloc (w_lib w')) = true /\ mc_pc (w_lib w') = None.
Proof.
  intros Ok Hb Hh Hl Hcrc Hlo HS I Q U D. assert (P := rests_P1 _ _ _ _ _ I Q U D). destruct Ok as [O1 O2 O3 O4 O5 O6 O7 O8 O9 O10 O11 O12 O13].
  unfold wtry_sched in *. rewrite app_assoc in HS |- *. set (t0 := map WLib t ++ map WLine (concat (m_sent t))) in *.
  assert (L1 : m_lib_of t0 = t). { unfold t0. rewrite m_lib_of_app, m_lib_of_lib. assert (X : forall l, m_lib_of (map WLine l) = []) by (induction l; auto). now rewrite X, app_nil_r. }
  assert (L2 : m_on_line t0 = concat (m_sent t)). { unfold t0. rewrite m_on_line_app, m_on_line_lib. cbn [app]. apply on_line_lines. }
  assert (Vb : vbytes V = concat (m_sent t)). { unfold vbytes. rewrite sent_visible. do 2 f_equal. destruct Q as [_ Q]; destruct (mloc (w_lib w)); try discriminate U; symmetry; apply Q. }
  assert (HSa : w_reqs_safe ((lo ++ v_send v) ++ v_out v)). { intros q Hq. apply HS. apply in_app_or in Hq as [Hq|Hq]; apply in_or_app; auto. right. apply in_or_app; auto. }
  assert (Plo : w_shifts lo = 0%nat). { clear - Hlo. induction lo as [|x l IH]; auto. cbn [forallb] in Hlo. apply andb_prop in Hlo as [Hx Hl]. change (x :: l) with ([x] ++ l). rewrite w_shifts_app, (IH Hl). destruct x; try discriminate Hx; reflexivity. }
  destruct (out_phase c Hc a F V _ (lo ++ v_send v) (v_out v) t0 w P) as (A & B & h' & w1 & t1 & Eo & R1 & P' & G & Fi); auto.
  { apply D. } { rewrite forallb_app, (plain_tx _ Hlo), O1. auto. } { rewrite w_mains_app. lia. } { rewrite w_shifts_app. lia. }
  assert (FS := fin_sent _ _ _ _ _ _ _ _ P' Fi). rewrite m_on_line_app, L2, Vb in FS. apply app_inv_head in FS.
  assert (CL := goal_listen _ _ _ _ _ _ P' G). destruct (out_idle _ _ _ _ _ _ _ _ P' G) as (X1 & X2 & X3 & X4 & X5). destruct Fi as (Fi1 & Fi2 & Fi3). destruct G as [G1 G2].
  assert (Pi := p_inv _ _ _ _ _ _ _ _ P'). assert (Pq := p_q _ _ _ _ _ _ _ _ P'). rewrite m_lib_of_app, L1 in Pi, Pq.
  assert (Ew : w1 = mk_mfw (w_lib w1) (w_u w1) None) by (rewrite <- G2; destruct w1; reflexivity).
  set (u1 := w_u w1) in *. set (k1 := w_lib w1) in *.
  set (u2 := mk_uart (u_cur u1) (u_last u1) false None None false false false false).
  assert (Ru2 : resting u2) by (repeat split).
  assert (Ls1 : listen u1 WUsart = (u2, [MEv MTxDone])). { cbn [listen]. rewrite X1, Fi2, X2, X3, X4, X5. reflexivity. }
  assert (HB : forallb w_tx_only (B ++ v_wait v) = true). { rewrite forallb_app. rewrite Eo, forallb_app in O4. apply andb_prop in O4 as [_ O4]. cbn [forallb] in O4. apply andb_prop in O4 as [_ O4]. rewrite O4, (plain_tx _ O6). auto. }
  destruct (listen_frame f (v_rx v) u2 Hb Ru2 eq_refl O8) as (s3 & Ls3 & [H1 H2 H3 H4 H5]). set (u3 := mk_uart (u_cur u2) _ _ _ _ _ _ _ _) in Ls3.
  assert (NE : f <> []) by (intros ->; discriminate Hh). 
  set (u4 := mk_uart (u_cur u1) (u_last u1) true None None false false true false).
  assert (Ls4 : listen u3 WUsart = (u4, [MEv MTxDone; MEv MT15])). { unfold u3. cbn. destruct f; [congruence|]. reflexivity. }
  assert (Ls5 := listen_timer (v_15 v) u4 ltac:(repeat split) eq_refl O9). set (u5 := mk_uart (u_cur u4) _ _ _ _ _ _ _ _) in Ls5.
  set (u6 := mk_uart (u_cur u1) (u_last u1) false None None false false false false).
  assert (Ls6 : listen u5 WTimer = (u6, [MEv MT35])) by reflexivity.
  set (y := mk_try [] (proj (B ++ v_wait v)) (s3 ++ [MEv MTxDone]) (proj (v_15 v)) (proj (v_35 v))).
  assert (Yf : y_frame y = f). { unfold y_frame. cbn [y_rx y]. rewrite m_events_app, rx_app, H1. cbn. apply app_nil_r. }
  assert (HSv : w_reqs_safe (B ++ v_wait v) /\ w_reqs_safe (v_rx v) /\ w_reqs_safe (v_15 v) /\ w_reqs_safe (v_35 v)).
  { rewrite Eo in HS. split; [|split; [|split]]; intros q Hq; apply HS; repeat (rewrite in_app_iff in * || cbn [In] in * ); tauto. }
  destruct HSv as (S1 & S2 & S3 & S4).
  assert (PE : forall l e, In e (m_events (proj l)) -> bev e /\ sev e /\ calm e). { intros l e He. destruct (proj_events _ _ He) as [->|(q & -> & _)]; repeat split. }
  rewrite Eo, !w_ticks_app in O13. change (WUsart :: B) with ([WUsart] ++ B) in O13. rewrite w_ticks_app in O13.
  destruct (half_phase y F V false false wrong wrong CLEARED r (t ++ m_lib_of t1) k1) as (wa & wb & k' & o & E35 & R & I' & La & De & Pc).
  { intros e He. apply (PE _ _ He). } { cbn [y_tx y]. rewrite proj_steps, w_mains_app. lia. }
  { constructor; cbn [y_tx y_rx y_15 y_35 y].
    - rewrite m_events_app. intros X. apply in_app_or in X as [X|[X|[]]]; [auto|discriminate].
    - intros e He. apply (PE _ _ He).
    - rewrite proj_steps. lia.
    - intros e He. apply (PE _ _ He).
    - rewrite proj_steps. lia.
    - rewrite !ticks_app, m_events_app, ticks_app, H4, !proj_ticks, w_ticks_app. cbn [m_events ticks]. lia. }
  { split; rewrite Yf; auto. } { rewrite Yf. destruct wrong; [auto|apply Hcrc]. } { now rewrite orb_false_r. } { reflexivity. } { intros _ ->. rewrite Yf. apply Hcrc. }
  { split; auto. cbn [y_rx y]. rewrite m_events_app. intros X. apply in_app_or in X as [X|[X|[]]]; [auto|discriminate]. }
  { unfold answer_sched. cbn [y_tx y_rx y_15 y_35 y]. intros q Hq. repeat (rewrite in_app_iff in Hq || cbn [In] in Hq). assert (Z1 := proj_safe _ S1). assert (Z2 := H5 S2). assert (Z3 := proj_safe _ S3). assert (Z4 := proj_safe _ S4).
    unfold reqs_safe in *. decompose [or] Hq; try discriminate; try contradiction; auto. }
  { exact Pi. } { exact Pq. } { exact G1. }
  cbn [y_tx y_rx y_15 y_35 y] in R, E35. destruct (proj_split _ O11 _ _ E35) as (la & lb & E35' & Ea & Eb). rewrite Yf in La.
  assert (NS : m_sent o = []).
  { assert (X := late_sent _ _ _ _ _ _ _ _ La De). assert (Y : m_sent (t ++ m_lib_of t1) = flat_map (fun x => match x with VSend f => [f] | _ => [] end) (MasterAttempt.sent a V)).
    { destruct Pq as [_ Pq]. fold k1 in G1. rewrite G1 in Pq. rewrite sent_visible. f_equal. apply Pq. }
    rewrite m_sent_app, Y in X. rewrite <- (app_nil_r (flat_map _ _)) in X at 2. apply app_inv_head in X. exact X. }
  assert (PL : forallb w_plain la = true /\ forallb w_plain lb = true) by (rewrite E35', forallb_app in O11; apply andb_prop; exact O11). destruct PL as [PL1 PL2].
  set (lw := WUsart :: (B ++ v_wait v) ++ v_rx v ++ WUsart :: v_15 v ++ WTimer :: la).
  assert (LS : listens u1 lw = (u6, MEv MTxDone :: proj (B ++ v_wait v) ++ (s3 ++ [MEv MTxDone]) ++ MEv MT15 :: proj (v_15 v) ++ MEv MT35 :: wa)).
  { unfold lw. cbn [listens]. rewrite Ls1, listens_app, (listen_tx _ _ Ru2 HB), listens_app, Ls3. cbn [listens]. rewrite Ls4, listens_app, Ls5. cbn [listens]. rewrite Ls6, (listen_plain _ _ PL1), Ea.
    cbn [app]. rewrite <- !app_assoc. cbn [app]. reflexivity. }
  destruct (listen_run c lw u1 u6 _ k1 k' o (conj Fi1 Fi3) CL LS R NS) as (t2 & R2 & M1 & M2 & _ & Qu).
  exists (((lo ++ v_send v) ++ A) ++ lw), lb, (mk_mfw k' u6 None), (t1 ++ t2).
  split. { unfold lw. rewrite Eo, E35'. repeat (rewrite <- !app_assoc; cbn [app]). reflexivity. }
  split; auto. split. { rewrite w_run_app, R1. cbn [bind]. rewrite Ew. fold u1 k1. rewrite R2. reflexivity. }
  rewrite m_on_line_app, m_lib_of_app, M1, M2, FS, app_nil_r. split; auto.
  split. { unfold driver_rests. cbn. destruct Qu as [_ Qu]. repeat split; auto. }
  cbn [w_lib]. rewrite app_assoc. auto.
Qed.
End Exch.
