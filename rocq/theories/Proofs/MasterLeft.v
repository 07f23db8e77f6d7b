(** Leftovers: error flags after a communication error, pending 1.5-character events, completion interrupts. *)
From Verif Require Export Proofs.MasterTimeout.

(** *** the error flags after a report *)
Definition crc_line (l : mpc) : bool := match l with M788b | M833 | M834 | M836 | M837 | M844 => true | _ => false end.
Definition fe_line (l : mpc) : bool := match l with M784b | M868 | M869 | M871 | M872 | M879 => true | _ => false end.
Record linv (c : cfg) (t : list mitem) (l : mpc) (s : master) : Prop := {
  li_c : cinv c t l s;
  li_crc : crc_line l = true \/ crc_error_reported t = true -> mm_crc s = SET;
  li_fe : fe_line l = true \/ frame_error_reported t = true -> mm_fe s = SET }.
Lemma rep_ev t e o : o = [] \/ (exists b r, o = [MoRet b r]) ->
  crc_error_reported (t ++ MTEv e :: map MTOut o) = crc_error_reported t /\ frame_error_reported (t ++ MTEv e :: map MTOut o) = frame_error_reported t.
Proof. unfold crc_error_reported, frame_error_reported. rewrite !fold_left_app. intros [->|(b & r & ->)]; auto. Qed.
Lemma rep_cbs l : forall t, (forall x, In x l -> is_response x) -> crc_error_reported (t ++ map MTOut (map MoCb l)) = crc_error_reported t /\ frame_error_reported (t ++ map MTOut (map MoCb l)) = frame_error_reported t.
Proof.
  unfold crc_error_reported, frame_error_reported. intros t. rewrite !fold_left_app. generalize (fold_left (fun acc x => match x with MTOut (MoCb (CommErr r)) => match r_err r with RESP_RTU_CRC_ERR => true | _ => acc end | MTOut (MoRetry RESP_RTU_CRC_ERR) => false | _ => acc end) t false).
  generalize (fold_left (fun acc x => match x with MTOut (MoCb (CommErr r)) => match r_err r with RESP_FRAME_ERR => true | _ => acc end | MTOut (MoRetry RESP_FRAME_ERR) => false | _ => acc end) t false).
  clear t. induction l as [|x l IH]; intros p q H; auto. cbn [map fold_left]. assert (H' : forall y, In y l -> is_response y) by (intros; apply H; right; auto). specialize (H x (or_introl eq_refl)).
  destruct x; try destruct H; apply IH; auto.
Qed.
Lemma delivered_resp a b l : delivered a b = Some l -> forall x, In x l -> is_response x.
Proof.
  unfold delivered. intros E x Hx.
  repeat match type of E with context [if ?b then _ else _] => destruct b end; inversion E; subst; clear E; try (destruct Hx; fail).
  all: unfold normal_callbacks, exception_callbacks, bit_callbacks, reg_callbacks in Hx.
  all: try (repeat match type of Hx with context [if ?b then _ else _] => destruct b end; repeat match type of Hx with In _ (match ?z with _ => _ end) => destruct z end; try (apply in_map_iff in Hx as (? & <- & _)); try (destruct Hx as [<-|[]]); try destruct Hx; exact Logic.I).
Qed.
Lemma rep_out t o : (forall x, In x o -> match x with MoCb _ | MoRetry _ => False | _ => True end) ->
  crc_error_reported (t ++ map MTOut o) = crc_error_reported t /\ frame_error_reported (t ++ map MTOut o) = frame_error_reported t.
Proof.
  unfold crc_error_reported, frame_error_reported. rewrite !fold_left_app. generalize (fold_left (fun acc x => match x with MTOut (MoCb (CommErr r)) => match r_err r with RESP_RTU_CRC_ERR => true | _ => acc end | MTOut (MoRetry RESP_RTU_CRC_ERR) => false | _ => acc end) t false).
  generalize (fold_left (fun acc x => match x with MTOut (MoCb (CommErr r)) => match r_err r with RESP_FRAME_ERR => true | _ => acc end | MTOut (MoRetry RESP_FRAME_ERR) => false | _ => acc end) t false).
  clear t. induction o as [|x o IH]; intros p q H; auto. cbn [map fold_left]. assert (H' : forall y, In y o -> match y with MoCb _ | MoRetry _ => False | _ => True end) by (intros; apply H; right; auto). specialize (H x (or_introl eq_refl)).
  destruct x; try destruct H; apply IH; auto.
Qed.
Lemma rep_one t x : crc_error_reported (t ++ [x]) = match x with
    | MTOut (MoCb (CommErr r)) => match r_err r with RESP_RTU_CRC_ERR => true | _ => crc_error_reported t end
    | MTOut (MoRetry RESP_RTU_CRC_ERR) => false
    | _ => crc_error_reported t end /\
  frame_error_reported (t ++ [x]) = match x with
    | MTOut (MoCb (CommErr r)) => match r_err r with RESP_FRAME_ERR => true | _ => frame_error_reported t end
    | MTOut (MoRetry RESP_FRAME_ERR) => false
    | _ => frame_error_reported t end.
Proof. unfold crc_error_reported, frame_error_reported. rewrite !fold_left_app. auto. Qed.
Lemma comm_report_err m e r : comm_report m e = Ok r -> r_err r = e.
Proof. unfold comm_report. destruct (rd (m_resp m) MODBUS_SLAVE_ADR_IDX); try discriminate. cbn [bind]. destruct (rd (m_resp m) MODBUS_FUNCTION_CODE_IDX); try discriminate. cbn [bind]. intros E. inversion E. reflexivity. Qed.
Lemma timeout_not_comm m r : timeout_report m = Ok r -> r_err r = RESP_TIMEOUT_ERR.
Proof.
  unfold timeout_report. destruct (rd (m_req m) MODBUS_SLAVE_ADR_IDX); try discriminate. cbn [bind]. destruct (read_u16_from_buf (m_req m) MODBUS_REQUEST_ADR_IDX); try discriminate. cbn [bind].
  destruct (read_u16_from_buf (m_req m) MODBUS_REQUEST_QTY_IDX); try discriminate. cbn [bind]. destruct (rd (m_resp m) MODBUS_FUNCTION_CODE_IDX); try discriminate. cbn [bind]. intros E. inversion E. reflexivity.
Qed.
Lemma linv_line c t l s l' s' o : cfg_master_ok c -> linv c t l s -> m_line c l s = Ok (l', s', o) -> linv c (t ++ map MTOut o) (m_next l' s') s'.
Proof.
  intros Hc [I H1 H2] E. assert (I' := cinv_line _ _ _ _ _ _ _ Hc I E). assert (BS := mc_st _ _ _ (Minv_ctl _ _ _ _ (ci_inv _ _ _ _ I))). 
  assert (X : (crc_line (m_next l' s') = true \/ crc_error_reported (t ++ map MTOut o) = true -> mm_crc s' = SET) /\ (fe_line (m_next l' s') = true \/ frame_error_reported (t ++ map MTOut o) = true -> mm_fe s' = SET)); [|destruct X; constructor; auto].
  clear I'.
  destruct l; cbn [crc_line fe_line] in *;
  (* the response *)
  try match type of E with m_line _ M813 _ = _ =>
    destruct (Minv_current _ _ _ _ (ci_inv _ _ _ _ I) eq_refl) as (i & a' & m & C & Cu & N & Hm & Hr & A & Va);
    cbn [m_line] in E; rewrite (proj2 (cur_msg_inv _ _ _) (conj C N)) in E; cbn [bind] in E;
    assert (RC := read_resp_char m a' Hm Hr A Va); destruct (delivered a' (rr_buf (m_resp m))) as [cbs|] eqn:D; [|rewrite RC in E; discriminate]; destruct RC as [st RC]; rewrite RC in E; cbn [bind] in E; inversion E; subst l' s' o; clear E;
    cbn [m_next crc_line fe_line]; destruct (rep_cbs cbs t (delivered_resp _ _ _ D)) as [-> ->]; auto end;
  mline_inv E; cbn [m_next]; unfold m_dispatch; mprj; cbn [mst_ok] in BS; rewrite ?BS; cbn [crc_line fe_line];
  try (destruct (rep_out t []) as [-> ->]; [intros ? []|]);
  try (match goal with |- context [crc_error_reported (t ++ map MTOut [?x])] => destruct (rep_one t (MTOut x)) as [Z1 Z2]; cbn [map]; rewrite Z1, Z2; clear Z1 Z2 end);
  cbn [crc_line fe_line] in *.
  all: repeat match goal with Y : comm_report _ _ = Ok _ |- _ => apply comm_report_err in Y; rewrite Y in * | Y : timeout_report _ = Ok _ |- _ => apply timeout_not_comm in Y; rewrite Y in * end.
  all: try (split; intros [Z|Z]; try discriminate Z; auto; fail).
  all: try (apply is_set_true in X; split; intros [Z|Z]; try discriminate Z; auto; fail).
Qed.
Lemma linv_event c t l s e s' o : cfg_master_ok c -> ev_safe e -> linv c t l s -> m_event c e s = Ok (s', o) -> linv c (t ++ MTEv e :: map MTOut o) l s'.
Proof.
  intros Hc Hs [I H1 H2] E. assert (X := ev_facts _ _ _ _ _ _ _ Hc I Hs E). destruct (rep_ev t e o (ef_o _ _ _ _ _ X)) as [Z1 Z2].
  constructor; [eapply cinv_event; eauto|rewrite Z1, (ef_crc _ _ _ _ _ X); auto|]. rewrite Z2, (ef_fe _ _ _ _ _ X). destruct e; auto.
Qed.
Lemma history_linv c sched k t : cfg_master_ok c -> m_history c sched k t -> linv c t (mloc k) (mc_s k).
Proof.
  intros Hc (s & (s0 & Hm & E0) & HS & E). refine (m_abs_inv c (linv c) _ _ sched [] _ _ _ HS _ E).
  - intros. eapply linv_line; eauto.
  - intros. eapply linv_event; eauto.
  - assert (I := cinv_start _ _ _ Hc Hm E0). constructor; auto; (destruct (init_char c s0 Hc Hm) as (s2 & E2 & St); rewrite E0 in E2; inversion E2; subst s2; destruct St as (_ & _ & _ & St & _);
    unfold mloc, m_dispatch; cbn [mc_pc mc_s]; rewrite St; intros [Z|Z]; discriminate Z).
Qed.

(** *** the completion interrupt brings the master to waiting, whatever else happens *)
Definition tx_lines (l : mpc) : bool := match l with M407 | M669 | M671 | M672 | M673 | M690 => true | _ => false end.
Definition goal_wait (t : list mitem) (l : mpc) : bool := match l with M690 => true | _ => false end.
Definition wc (l : mpc) : nat := match l with M407 => 6 | M669 => 4 | M671 => 3 | M672 => 2 | _ => 1 end.
Lemma to_waiting c a F V : cfg_master_ok c -> forall sched t k, reqs_safe sched -> cinv c t (mloc k) (mc_s k) -> base a F V t -> mm_tx (mc_s k) = CLEARED ->
  (mloc k = M407 \/ mloc k = M669) -> (7 <= m_steps sched)%nat ->
  exists s1 s2 k' o, sched = s1 ++ s2 /\ m_run c s1 k = Ok (k', o) /\ cinv c (t ++ o) (mloc k') (mc_s k') /\ base a F V (t ++ o) /\ mloc k' = M690 /\ mc_pc k' = None.
Proof.
  intros Hc sched t k HS I B Tx L W.
  destruct (creach c (fun t l s => base a F V t /\ mm_tx s = CLEARED /\ tx_lines l = true) goal_wait wc (fun _ => True) True Hc) with (sched := sched) (t := t) (k := k) as (s1 & s2 & k1 & o1 & E1 & R1 & I1 & (B1 & _) & G1 & P1); auto.
  - clear - Hc. intros t l s l' s' o I (B & Tx & L) G E. assert (BS := mc_st _ _ _ (Minv_ctl _ _ _ _ (ci_inv _ _ _ _ I))).
    destruct l; try discriminate L; try discriminate G; mline_inv E; unfold m_weight; cbn [m_next map mc_pc mc_s]; unfold m_dispatch; mprj; cbn [mst_ok] in BS; rewrite ?app_nil_r; rewrite ?BS; cbn [goal_wait wc tx_lines];
      try (rewrite Tx in X; discriminate X); try (split; [auto|right; split; auto; fail]); try (split; [auto|left; auto; fail]).
    split; auto. apply (base_line _ _ _ _ [MoClear]); auto.
  - clear - Hc. intros e t l s s' o I (B & Tx & L) _ Hs E. assert (X := ev_facts _ _ _ _ _ _ _ Hc I Hs E). split; [|destruct l; reflexivity].
    split; [apply base_ev; [auto|apply (ef_o _ _ _ _ _ X)]|]. split; auto. rewrite (ef_tx _ _ _ _ _ X). destruct e; auto.
  - clear. intros t l s _ (_ & _ & L). apply not813. intros ->. discriminate L.
  - clear. intros t l H. destruct l; cbn; lia.
  - destruct L as [->| ->]; auto.
  - destruct L as [->| ->]; auto.
  - unfold m_weight. destruct (mc_pc k) as [[]|]; cbn [wc]; try lia. destruct (m_dispatch _); cbn [wc]; lia.
  - exists s1, s2, k1, o1. split; auto. split; auto. split; auto. split; auto. split; auto. destruct (mloc k1); try discriminate G1; auto.
Qed.

(** *** a 1.5-character event left over: an empty reception *)
Section Stale.
Context (c : cfg) (Hc : cfg_master_ok c) (a : api) (F : nat) (V : list vis) (cr : flag) (r : Z).
Notation T := (u32 (c_timeout c)).
Definition Qe (rem : list mev) (t : list mitem) (l : mpc) (s : master) : Prop :=
  base a F V t /\ keep cr r s /\ (forall e, In e rem -> quiet_line e /\ e <> MTick) /\ mm_t15 s = SET /\ foreign a s /\ mm_tx s = CLEARED /\
  match l with
  | M407 | M669 | M671 | M672 => True
  | M673 | M690 => mm_timer s = T
  | _ => False
  end.
Lemma stale_tx : forall sched rem t k, reqs_safe sched -> cinv c t (mloc k) (mc_s k) -> Qe (m_events sched ++ rem) t (mloc k) (mc_s k) -> mloc k <> M690 -> (7 <= m_steps sched)%nat ->
  exists s1 s2 k' o, sched = s1 ++ s2 /\ m_run c s1 k = Ok (k', o) /\ cinv c (t ++ o) (mloc k') (mc_s k') /\ Qe (m_events s2 ++ rem) (t ++ o) (mloc k') (mc_s k') /\ mloc k' = M690.
Proof.
  intros sched rem t k HS I H L W.
  destruct (creachr c Qe goal_wait wc False Hc) with (sched := sched) (rem := rem) (t := t) (k := k) as (s1 & s2 & k1 & o1 & E1 & R1 & I1 & H1 & G1 & P1); auto.
  - clear - Hc. intros rem t l s l' s' o I (B & K & HE & T5 & Fo & Tx & H) G E. assert (BS := mc_st _ _ _ (Minv_ctl _ _ _ _ (ci_inv _ _ _ _ I))). destruct Fo as (i & m & C & N & Fo).
    assert (Fo' : foreign a s) by (exists i, m; auto).
    destruct l; try (destruct H; fail); try discriminate G; mline_inv E; unfold m_weight; cbn [m_next map mc_pc mc_s]; unfold m_dispatch; mprj; cbn [mst_ok] in BS; rewrite ?app_nil_r; rewrite ?BS; cbn [goal_wait wc];
      try (rewrite Tx in X; discriminate X); try (split; [split; [auto|split; [auto|split; [auto|split; [auto|split; auto]]]]|right; split; auto; fail]).
    + apply (base_line _ _ _ _ [MoClear]); auto.
    + match goal with H1 : mm_cur s = Some ?j, H2 : nth_error _ ?j = Some ?mm |- _ => rewrite C in H1; inversion H1; subst j; rewrite N in H2; inversion H2; subst mm end.
      exists i. eexists. split; [exact C|]. mprj. rewrite upd_nth_error_same by (apply nth_error_Some; congruence). split; [reflexivity|]. exact Fo.
    + split; [|left; split; auto; intros []]. split; [auto|split; [auto|split; [auto|split; [auto|split; auto]]]].
  - clear - Hc. intros e rem t l s s' o I (B & K & HE & T5 & Fo & Tx & H) Hs E. assert (X := ev_facts _ _ _ _ _ _ _ Hc I Hs E). split; [|destruct l; reflexivity]. destruct (HE e (or_introl eq_refl)) as [Q NT].
    split; [apply base_ev; [auto|apply (ef_o _ _ _ _ _ X)]|]. split; [eapply keep_ev; eauto|]. split; [intros; apply HE; right; auto|]. split; [rewrite (ef_15 _ _ _ _ _ X); destruct e; auto|].
    split; [eapply foreign_ev; eauto; destruct l; try (destruct H; fail); reflexivity|]. split; [rewrite (ef_tx _ _ _ _ _ X); destruct e; auto|]. rewrite (ef_tm _ _ _ _ _ X). destruct e; auto. congruence.
  - clear. intros rem t l s _ (_ & _ & _ & _ & _ & _ & L). apply not813. intros ->. exact L.
  - clear. intros t l H. destruct l; cbn; lia.
  - destruct (mloc k); auto; congruence.
  - unfold m_weight. destruct (mc_pc k) as [[]|]; cbn [wc]; try lia. destruct (m_dispatch _); cbn [wc]; lia.
  - exists s1, s2, k1, o1. split; auto. split; auto. split; auto. split; auto. destruct (mloc k1); try discriminate G1; auto.
Qed.
Lemma stale_discarded x y t k : reqs_safe (MEv MTxDone :: x ++ y) -> cinv c t (mloc k) (mc_s k) -> base a F V t -> keep cr r (mc_s k) -> mloc k = M407 \/ mloc k = M669 -> mm_t15 (mc_s k) = SET -> foreign a (mc_s k) -> 2 <= T ->
  (forall e, In e (m_events (x ++ y)) -> quiet_line e /\ e <> MTick) -> (7 <= m_steps x)%nat -> (13 <= m_steps y)%nat ->
  exists k' o, m_run c (MEv MTxDone :: x ++ y) k = Ok (k', o) /\ cinv c (t ++ o) (mloc k') (mc_s k') /\ base a F V (t ++ o) /\ keep cr r (mc_s k') /\ awaits k' T /\ m_received (t ++ o) = [].
Proof.
  intros HS I B K L T15 Fo HT HE Wx Wy. apply reqs_cons in HS. apply reqs_app in HS as [HS1 HS2].
  assert (NT : ticks (m_events (x ++ y)) = 0%nat). { clear - HE. induction (m_events (x ++ y)) as [|e l IH]; auto. destruct (HE e (or_introl eq_refl)) as [_ N]. destruct e; try congruence; apply IH; intros; apply HE; right; auto. }
  destruct (event_now c Hc _ _ MTxDone I safetx) as (s2 & o2 & E2 & X2 & I2 & L2 & A2). set (k2 := mk_mconf s2 (mc_pc k)) in *.
  destruct (stale_tx x (m_events y) (t ++ MTEv MTxDone :: map MTOut o2) k2) as (x1 & x2 & k3 & o3 & Ex & R3 & I3 & (B3 & K3 & HE3 & T3 & Fo3 & Tx3 & Tm3) & L3); auto.
  { rewrite L2, <- m_events_app. split; [apply base_ev; [auto|apply (ef_o _ _ _ _ _ X2)]|]. split; [eapply keep_ev; eauto|]. split; auto. split; [cbn [mc_s k2]; rewrite (ef_15 _ _ _ _ _ X2); auto|].
    split; [apply (foreign_ev c Hc a MTxDone t (mloc k) (mc_s k) s2 o2); auto; [exact Logic.I|exact Logic.I|destruct L as [->| ->]; reflexivity]|]. split; [apply (ef_tx _ _ _ _ _ X2)|]. destruct L as [->| ->]; exact Logic.I. }
  { rewrite L2. destruct L as [->| ->]; discriminate. }
  rewrite L3 in Tm3. rewrite Ex in HS1, NT. apply reqs_app in HS1 as [HS1 HS1']. rewrite !m_events_app, !ticks_app in NT.
  destruct (discard c Hc a F V T HT cr r (clears ((t ++ MTEv MTxDone :: map MTOut o2) ++ o3)) (x2 ++ y) [] ((t ++ MTEv MTxDone :: map MTOut o2) ++ o3) k3) as (k4 & o4 & R4 & I4 & B4 & K4 & Ti4 & L4 & T4 & Rx4); auto.
  { apply reqs_app; auto. }
  { rewrite app_nil_r, m_events_app. split; auto. split; auto. split; [intros e He; apply HE3; auto|]. split; [unfold tmr; rewrite ticks_app; replace (ticks (m_events x2) + ticks (m_events y))%nat with 0%nat by lia; rewrite Tm3; lia|].
    rewrite L3. left. auto. }
  { rewrite m_steps_app. lia. }
  exists k4, ((MTEv MTxDone :: map MTOut o2) ++ o3 ++ o4). assert (TT : t ++ (MTEv MTxDone :: map MTOut o2) ++ o3 ++ o4 = ((t ++ MTEv MTxDone :: map MTOut o2) ++ o3) ++ o4) by (rewrite <- ?app_assoc; reflexivity). rewrite TT.
  split. { rewrite Ex, <- app_assoc. cbn [m_run]. rewrite A2. cbn [bind]. fold k2. rewrite m_run_app, R3. cbn [bind]. rewrite R4. reflexivity. }
  split; auto. split; auto. split; auto. split; auto. apply awaits_of; auto. unfold tmr in Ti4. cbn [ticks] in Ti4. lia.
Qed.
End Stale.
(** a schedule with enough steps splits *)
Lemma steps_split (sched : list mact) : forall n p, (n + p <= m_steps sched)%nat -> exists a b, sched = a ++ b /\ (n <= m_steps a)%nat /\ (p <= m_steps b)%nat.
Proof.
  induction sched as [|x l IH]; intros n p H.
  - exists [], []. cbn in *. repeat split; lia.
  - destruct x as [|e]; cbn [m_steps] in H.
    + destruct n as [|n]; [exists [], (MStep :: l); cbn; repeat split; lia|]. destruct (IH n p ltac:(lia)) as (a & b & -> & A & B). exists (MStep :: a), b. cbn. repeat split; lia.
    + destruct (IH n p H) as (a & b & -> & A & B). exists (MEv e :: a), b. cbn. repeat split; lia.
Qed.
