(** C48, C49: a master and a slave over an error-free line. *)
From Verif Require Import Props.Frames Props.SlavePdu Props.SlaveRun Props.MasterRun Props.MasterTime Props.MasterRetry.
From Verif Require Import Proofs.Session.

(** *** C48 *)
(** The request being handled is a read: it is transmitted once, the slave answers once and changes nothing, and the master makes, for
    each address in order, the callback with the current value of the variable registered there; or exactly one exception callback
    (code 2: the range leaves the table; code 4: an address without variable); then the buffer is released and the master is idle. *)
Theorem C48_read_end_to_end : forall c cs sched k t a q y ss, cfg_master_ok c -> 2 <= c_timeout c < 4294967296 -> cfg_tables_ok cs ->
  m_history c sched k t -> current t = Some a -> is_read a = true -> idle k -> no_leftovers k -> slave_rests cs q -> s_id (sc_s q) = api_id a ->
  try_timed (c_timeout c) y -> reqs_safe (try_sched y) -> error_free c k y cs q ss ->
  exists s1 s2 k' o l q' o' f, try_sched y = s1 ++ s2 /\ m_run c s1 k = Ok (k', o) /\ s_run cs ss q = Ok (q', o') /\
    visible o = VSend (request_frame a) :: map VCb l ++ [VFree] /\ read_result cs (s_data (sc_s q)) a l /\
    SlaveTrace.sent o' = [f] /\ s_data (sc_s q') = s_data (sc_s q) /\ idle k' /\ no_leftovers k'.
Proof.
  intros c cs sched k t a q y ss Hc HT Hcs H Cu Re Id NL Rq Iq Y HS Ef. assert (I := history_cinv _ _ _ _ Hc H). assert (L := idle_loc _ Id).
  assert (I0 := I). rewrite L in I0. destruct (current_ok c t (mc_s k) a (ci_inv _ _ _ _ I0) Cu) as [Hok V].
  rewrite <- (timeout_u32 c) in Y by auto.
  destruct (both_phase c Hc cs Hcs a Hok V y ss (SEv STxDone :: repeat SStep 8) _ _ t k q Y HS (ready_idle c t k a I Id Cu NL) L Rq Iq Ef) as (s1 & s2 & k' & o & l & q1 & o1 & q2 & o2 & E & _ & R1 & (_ & Id' & _ & Vi) & NL' & R2 & D1 & S1 & _ & _ & _ & _ & Rs).
  { exists [SEv STxDone], 8%nat. split; auto. }
  rewrite Re in Rs. destruct Rs as [Rd Rs]. exists s1, s2, k', o, l, q1, o1. eexists. split; auto. split; auto. split; auto.
  split. { unfold sent in Vi. rewrite <- app_assoc in Vi. exact (visible_rest _ _ _ Vi). }
  split; auto. split; [exact S1|]. split; [congruence|auto].
Qed.
Print Assumptions C48_read_end_to_end.

(** *** C49 *)
(** A write: transmitted once, answered once, one callback.  What the slave's variables hold afterwards is as [write_result] says.
    Missing, and false (below): nothing is written when the answer is exception 4; the items before the first address without
    variable are. *)
Theorem C49_write_end_to_end_partial : forall c cs sched k t a q y ss, cfg_master_ok c -> 2 <= c_timeout c < 4294967296 -> cfg_tables_ok cs ->
  m_history c sched k t -> current t = Some a -> is_read a = false -> idle k -> no_leftovers k -> slave_rests cs q -> s_id (sc_s q) = api_id a ->
  try_timed (c_timeout c) y -> reqs_safe (try_sched y) -> error_free c k y cs q ss ->
  exists s1 s2 k' o x q' o' f, try_sched y = s1 ++ s2 /\ m_run c s1 k = Ok (k', o) /\ s_run cs ss q = Ok (q', o') /\
    visible o = [VSend (request_frame a); VCb x; VFree] /\ write_result cs (s_data (sc_s q)) a (s_data (sc_s q')) [x] /\
    SlaveTrace.sent o' = [f] /\ idle k' /\ no_leftovers k'.
Proof.
  intros c cs sched k t a q y ss Hc HT Hcs H Cu Re Id NL Rq Iq Y HS Ef. assert (I := history_cinv _ _ _ _ Hc H). assert (L := idle_loc _ Id).
  assert (I0 := I). rewrite L in I0. destruct (current_ok c t (mc_s k) a (ci_inv _ _ _ _ I0) Cu) as [Hok V].
  rewrite <- (timeout_u32 c) in Y by auto.
  destruct (both_phase c Hc cs Hcs a Hok V y ss (SEv STxDone :: repeat SStep 8) _ _ t k q Y HS (ready_idle c t k a I Id Cu NL) L Rq Iq Ef) as (s1 & s2 & k' & o & l & q1 & o1 & q2 & o2 & E & _ & R1 & (_ & Id' & _ & Vi) & NL' & R2 & D1 & S1 & _ & _ & _ & _ & Rs).
  { exists [SEv STxDone], 8%nat. split; auto. }
  rewrite Re in Rs. rewrite <- D1 in Rs. assert (X : exists x, l = [x]) by (inversion Rs; eauto). destruct X as [x ->].
  exists s1, s2, k', o, x, q1, o1. eexists. split; auto. split; auto. split; auto.
  split. { unfold sent in Vi. rewrite <- app_assoc in Vi. exact (visible_rest _ _ _ Vi). }
  split; auto. split; [exact S1|auto].
Qed.
Print Assumptions C49_write_end_to_end_partial.
(** The full statement holds when the range leaves the table, when every addressed item has a variable, or when a single item is
    written. *)
Lemma nth_error_same {A} : forall l l' : list A, (forall n, nth_error l n = nth_error l' n) -> l = l'.
Proof.
  induction l as [|x l IH]; destruct l' as [|x' l']; intros H; auto; try (specialize (H 0%nat); discriminate H).
  assert (X := H 0%nat). inversion X. f_equal. apply IH. intros n. exact (H (S n)).
Qed.
Lemma written_none {A} tab (cells cells' : list A) k : written tab cells cells' k [] -> cells' = cells.
Proof. intros (L & W & _). apply nth_error_same. intros n. apply W. intros i Hi. cbn in Hi. lia. Qed.
Lemma full_unless_gap c d a d' l : write_result c d a d' l ->
  ~ range_ok c a \/ (forall k, (k < Z.to_nat (api_qty a))%nat -> item_registered d a k) \/ api_qty a = 1 -> write_result_full c d a d' l.
Proof.
  intros H D. destruct H as [d' R G W|R|n d' R Ln G Gn W].
  - constructor 1; auto.
  - constructor 2; auto.
  - destruct D as [D|[D|D]]; [contradiction|exfalso; apply Gn, D; auto|]. rewrite D in Ln. assert (n = 0%nat) by (cbn in Ln; lia). subst n.
    assert (d' = d). { destruct a; cbn [values_written firstn] in W; try (destruct W; fail); destruct W as (cells & -> & W); apply written_none in W; subst; destruct d; reflexivity. }
    subst d'. apply (full_unregistered _ _ _ 0); auto. rewrite D. cbn. lia.
Qed.
Theorem C49_full_unless_gap_partial : forall c cs sched k t a q y ss, cfg_master_ok c -> 2 <= c_timeout c < 4294967296 -> cfg_tables_ok cs ->
  m_history c sched k t -> current t = Some a -> is_read a = false -> idle k -> no_leftovers k -> slave_rests cs q -> s_id (sc_s q) = api_id a ->
  try_timed (c_timeout c) y -> reqs_safe (try_sched y) -> error_free c k y cs q ss ->
  ~ range_ok cs a \/ (forall i, (i < Z.to_nat (api_qty a))%nat -> item_registered (s_data (sc_s q)) a i) \/ api_qty a = 1 ->
  exists s1 s2 k' o x q' o', try_sched y = s1 ++ s2 /\ m_run c s1 k = Ok (k', o) /\ s_run cs ss q = Ok (q', o') /\
    visible o = [VSend (request_frame a); VCb x; VFree] /\ write_result_full cs (s_data (sc_s q)) a (s_data (sc_s q')) [x] /\ idle k'.
Proof.
  intros c cs sched k t a q y ss Hc HT Hcs H Cu Re Id NL Rq Iq Y HS Ef D.
  destruct (C49_write_end_to_end_partial c cs sched k t a q y ss Hc HT Hcs H Cu Re Id NL Rq Iq Y HS Ef) as (s1 & s2 & k' & o & x & q' & o' & f & E & R1 & R2 & Vi & W & _ & Id' & _).
  exists s1, s2, k', o, x, q', o'. split; auto. split; auto. split; auto. split; auto. split; auto. apply full_unless_gap; auto.
Qed.
Print Assumptions C49_full_unless_gap_partial.

(** *** sessions *)
(** One request after the other, for any number and mixture of requests: each is transmitted exactly once, its callbacks are those of
    a memory that is read and written in the order of the calls, and at the end both ends are at rest and hold that memory's data. *)
Theorem C61_session : forall c cs sched k t q l, cfg_master_ok c -> 2 <= c_timeout c < 4294967296 -> cfg_tables_ok cs ->
  m_history c sched k t -> pending_reqs t = [] -> Z.of_nat (pdu_errors t) < c_queue c -> idle k -> no_leftovers k -> slave_rests cs q ->
  regular_session c cs k q l ->
  exists k' o q' o' ls, m_run c (concat (map master_sched l)) k = Ok (k', o) /\ s_run cs (concat (map slave_sched l)) q = Ok (q', o') /\
    accepted o = map l_api l /\ length ls = length l /\ visible o = session_view (map l_api l) ls /\
    served cs (s_data (sc_s q)) (map l_api l) ls (s_data (sc_s q')) /\ no_leftovers k' /\ slave_rests cs q'.
Proof.
  intros c cs sched k t q l Hc HT Hcs H Pd Pe Id NL Rq Rg. assert (I := history_cinv _ _ _ _ Hc H). assert (L := idle_loc _ Id).
  destruct (session_phase c cs (pdu_errors t) Hc (timeout_u32 c HT) Hcs Pe l t k q) as (k' & o & q' & o' & ls & R1 & R2 & (_ & _ & NL' & _) & Rq' & Ac & Le & Vi & Sv); auto.
  { split; auto. }
  exists k', o, q', o', ls. split; auto 10.
Qed.
Print Assumptions C61_session.

(** *** concrete cases *)
Definition line_of (f : list Z) : list sact := feed f ++ SEv ST15 :: polls 3 ++ SEv ST35 :: polls 16.
Definition q0 : sconf := mk_sconf sample_slave None.
Lemma q0_rests : slave_rests sample_cfg q0.
Proof. split; [apply SlaveTraffic.fresh_idle, sample_fresh|left; reflexivity]. Qed.
Definition done0 : list sact := SEv STxDone :: polls 8.
Lemma done0_ok : SlaveTraffic.completion done0.
Proof. exists [SEv STxDone], 8%nat. split; auto. Qed.
(** request [a] is in the queue of a fresh master; the slave's answer [f] arrives *)
Definition asked_of (a : api) : mconf * list mitem := run_of (ask a).
Lemma asked_of_history a : req_safe a -> m_run mcfg (ask a) (mk_mconf m0 None) = Ok (asked_of a) -> m_history mcfg (ask a) (fst (asked_of a)) (snd (asked_of a)).
Proof. intros H E. exists m0. split; [apply m0_started|]. split; [apply ask_safe; auto|]. rewrite E. destruct (asked_of a); reflexivity. Qed.
Ltac concrete_line :=
  constructor;
  [intros k1 o1 E; vm_compute in E; inversion E; subst; exact (sample_reception _ 16 (le_n 16))
  |intros sk so E; vm_compute in E; inversion E; subst; vm_compute; reflexivity
  |vm_compute; intuition discriminate].
Lemma timed_try f : (forall b, In b f -> 0 <= b) -> (1 <= length f)%nat -> try_timed (c_timeout mcfg) (sample_try f false).
Proof.
  intros _ H. assert (N : forall g, ~ In MT15 (m_events (mfeed g)) /\ ticks (m_events (mfeed g)) = 0%nat) by (induction g as [|x g [IH1 IH2]]; split; cbn [mfeed map m_events ticks]; auto; intros [X|X]; [discriminate X|auto]).
  assert (X : ~ In MT15 (m_events (y_rx (sample_try f false))) /\ ticks (m_events (y_rx (sample_try f false))) = 1%nat).
  { cbn [y_rx sample_try]. unfold arrives. rewrite app_nil_r. rewrite m_events_app. cbn [m_events]. rewrite ticks_app. cbn [ticks]. destruct (N (firstn 1 f)) as [A1 A2]. destruct (N (skipn 1 f)) as [B1 B2]. rewrite A2, B2. split; auto.
    intros Y. apply in_app_or in Y as [Y|[Y|Y]]; try discriminate Y; auto. }
  destruct X as [X1 X2]. constructor; cbn [y_send y_tx]; try (intros e []); try (vm_compute; lia).
  constructor; cbn [y_15 y_35]; auto; try (intros e []); try (vm_compute; lia). rewrite ticks_app, X2. vm_compute. discriminate.
Qed.
Lemma try_safe f : reqs_safe (try_sched (sample_try f false)).
Proof.
  assert (M : forall n, reqs_safe (msteps n)) by (intros n a H; apply repeat_spec in H; discriminate H).
  assert (F : forall g, reqs_safe (mfeed g)) by (intros g a H; apply in_map_iff in H as (b & X & _); discriminate X).
  unfold try_sched, answer_sched, sample_try, arrives. cbn [y_send y_tx y_rx y_15 y_35]. rewrite app_nil_r.
  assert (X : forall x l, (forall a, x <> MEv (MReq a)) -> reqs_safe l -> reqs_safe (x :: l)) by (intros x l Hx Hl a [H|H]; [exfalso; exact (Hx a H)|auto]).
  repeat first [apply M|apply F|apply reqs_safe_app|apply X; [discriminate|]].
Qed.
Example C48_case : exists y ss, m_history mcfg (ask rh) (fst (asked_of rh)) (snd (asked_of rh)) /\ current (snd (asked_of rh)) = Some rh /\ is_read rh = true /\
  idle (fst (asked_of rh)) /\ no_leftovers (fst (asked_of rh)) /\ slave_rests sample_cfg q0 /\ s_id (sc_s q0) = api_id rh /\
  try_timed (c_timeout mcfg) y /\ reqs_safe (try_sched y) /\ error_free mcfg (fst (asked_of rh)) y sample_cfg q0 ss /\
  read_result sample_cfg sample_data rh [HregRead 9 1 0x1234; HregRead 9 2 0xABCD].
Proof.
  exists (sample_try rh_answer false), (line_of (request_frame rh)).
  split; [apply asked_of_history; [apply rh_safe|vm_compute; reflexivity]|]. split; [reflexivity|]. split; [reflexivity|]. split; [split; reflexivity|]. split; [repeat split|].
  split; [apply q0_rests|]. split; [reflexivity|]. split; [apply sample_timed; auto|]. split; [apply try_safe|]. split; [concrete_line|].
  constructor 1; [unfold range_ok; cbn; lia|reflexivity].
Qed.
(** writing registers 2 and 3; 3 has no variable *)
Definition gap : api := WriteMultipleReg 2 2 9 (Some [7; 8]).
Lemma gap_safe : req_safe gap.
Proof. split; [unfold api_typed, gap, byte, word; cbn; repeat split; try lia; repeat constructor; lia|]. intros _. exists [7; 8]. split; auto. cbn. lia. Qed.
Definition gap_answer : list Z := rtu_frame 9 [144; 4].
(** C49 is false: the master gets the exception, yet register 2 has been written. *)
Theorem C49_refuted : exists c cs sched k t a q y ss, cfg_master_ok c /\ 2 <= c_timeout c < 4294967296 /\ cfg_tables_ok cs /\
  m_history c sched k t /\ current t = Some a /\ is_read a = false /\ idle k /\ no_leftovers k /\ slave_rests cs q /\ s_id (sc_s q) = api_id a /\
  try_timed (c_timeout c) y /\ reqs_safe (try_sched y) /\ error_free c k y cs q ss /\
  exists k' o q' o', m_run c (try_sched y) k = Ok (k', o) /\ s_run cs ss q = Ok (q', o') /\ callbacks o = [exception_cb a 4] /\ s_data (sc_s q') <> s_data (sc_s q) /\
    ~ write_result_full cs (s_data (sc_s q)) a (s_data (sc_s q')) (callbacks o).
Proof.
  exists mcfg, sample_cfg, (ask gap), (fst (asked_of gap)), (snd (asked_of gap)), gap, q0, (sample_try gap_answer false), (line_of (request_frame gap)).
  split; [apply mcfg_ok|]. split; [cbn; lia|]. split; [apply sample_cfg_ok|]. split; [apply asked_of_history; [apply gap_safe|vm_compute; reflexivity]|].
  split; [reflexivity|]. split; [reflexivity|]. split; [split; reflexivity|]. split; [repeat split|]. split; [apply q0_rests|]. split; [reflexivity|].
  split; [apply timed_try; [|vm_compute; lia]; intros b Hb; vm_compute in Hb; intuition lia|]. split; [apply try_safe|]. split; [concrete_line|].
  do 4 eexists. split; [vm_compute; reflexivity|]. split; [vm_compute; reflexivity|]. split; [vm_compute; reflexivity|].
  split; [vm_compute; discriminate|]. intros X. inversion X; subst; vm_compute in *; congruence.
Qed.
Print Assumptions C49_refuted.
(** a session: register 1 is written, registers 1 and 2 are read *)
Definition w1 : api := WriteSingleReg 1 9 77.
Definition session2 : list call :=
  [mk_call w1 (sample_try (rtu_frame 9 [6; 0; 1; 0; 77]) false) (line_of (request_frame w1)) done0;
   mk_call rh (sample_try (rtu_frame 9 [3; 4; 0; 77; 0xAB; 0xCD]) false) (line_of (request_frame rh)) done0].
Lemma w1_safe : req_safe w1.
Proof. split; [unfold api_typed, w1, byte, word; cbn; repeat split; lia|intros; exact Logic.I]. Qed.
Lemma safe_ok a : api_valid a = true -> req_safe a -> api_ok a.
Proof. intros V [A B]. split; auto. Qed.
Lemma try_no_calls f : no_calls (try_sched (sample_try f false)).
Proof.
  assert (M : forall n, no_calls (msteps n)) by (intros n a; unfold msteps; induction n; cbn [repeat m_events]; auto).
  assert (F : forall g, no_calls (mfeed g)) by (intros g a; induction g; cbn [mfeed map m_events]; auto; intros [H|H]; [discriminate H|auto]).
  assert (A : forall l1 l2, no_calls l1 -> no_calls l2 -> no_calls (l1 ++ l2)) by (intros l1 l2 H1 H2 a H; rewrite m_events_app in H; apply in_app_or in H as [H|H]; [exact (H1 a H)|exact (H2 a H)]).
  assert (X : forall x l, (forall a, x <> MEv (MReq a)) -> no_calls l -> no_calls (x :: l)) by (intros [|e] l Hx Hl a H; cbn [m_events] in H; [exact (Hl a H)|destruct H as [H|H]; [apply (Hx a); congruence|exact (Hl a H)]]).
  unfold try_sched, answer_sched, sample_try, arrives. cbn [y_send y_tx y_rx y_15 y_35]. rewrite app_nil_r.
  repeat first [apply M|apply F|apply A|apply X; [discriminate|]].
Qed.
Example C48_C49_session_case : regular_session mcfg sample_cfg (mk_mconf m0 None) q0 session2 /\ m_history mcfg [] (mk_mconf m0 None) [] /\
  served sample_cfg sample_data [w1; rh] [[HregWrite 9 1 1]; [HregRead 9 1 77; HregRead 9 2 0xABCD]] (set_regs sample_data [77; 0xABCD]).
Proof.
  split.
  - unfold session2. cbn [regular_session]. cbn [l_api l_try l_slave l_done].
    split; [apply safe_ok; [reflexivity|apply w1_safe]|]. split; [reflexivity|]. split; [reflexivity|].
    split; [apply timed_try; [|vm_compute; lia]; intros b Hb; vm_compute in Hb; intuition lia|]. split; [apply try_no_calls|]. split; [apply done0_ok|].
    split; [intros k1 o1 E; vm_compute in E; inversion E; subst; clear E; concrete_line|]. intros k2 o2 q2 o3 E1 E2. vm_compute in E1, E2. inversion E1; subst. inversion E2; subst. clear E1 E2.
    split; [apply safe_ok; [reflexivity|apply rh_safe]|]. split; [reflexivity|]. split; [reflexivity|].
    split; [apply timed_try; [|vm_compute; lia]; intros b Hb; vm_compute in Hb; intuition lia|]. split; [apply try_no_calls|]. split; [apply done0_ok|].
    split; [intros k1 o1 E; vm_compute in E; inversion E; subst; clear E; concrete_line|auto].
  - split; [exists m0; split; [apply m0_started|]; split; [intros a []|reflexivity]|].
    apply served_write with (d1 := set_regs sample_data [77; 0xABCD]); [reflexivity| |].
    + constructor 1; [unfold range_ok; cbn; lia|intros [|k] Hk; [reflexivity|change (Z.to_nat (api_qty w1)) with 1%nat in Hk; lia]|]. exists [77; 0xABCD]. split; [reflexivity|]. split; [reflexivity|]. split.
      * intros x Hx. destruct x as [|x]; [exfalso; apply (Hx 0%nat); [vm_compute; lia|reflexivity]|reflexivity].
      * intros x i v Hv Hx _. destruct i as [|[|i]]; cbn in Hv; try discriminate. inversion Hv; subst. cbn in Hx. inversion Hx; subst. reflexivity.
    + apply served_read; [reflexivity| |constructor]. constructor 1; [unfold range_ok; cbn; lia|reflexivity].
Qed.
