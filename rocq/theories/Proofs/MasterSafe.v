(** Masters that are not initialised, or initialised in a mode other than RTU; absence of undefined behaviour. *)
From Verif Require Export Proofs.MasterPhase.

(** *** before initialisation *)
Lemma zero_rep c : cfg_master_ok c -> rep (c_queue c) (queue_zero (A := nat) (c_queue c)) [].
Proof. intros [HN HR]. apply (rep_init (c_queue c) (queue_zero (c_queue c))); auto. cbn. apply repeat_length. Qed.
(** *** mode other than RTU *)
Definition dead_msg (m : msg) : Prop := rr_ptr (m_req m) = false /\ rr_ptr (m_resp m) = false.
Record dead (c : cfg) (free : list nat) (s : master) : Prop := {
  dd_free : rep (c_queue c) (mm_free s) free;
  dd_lt : Forall (fun i => (i < length (mm_msgs s))%nat) free;
  dd_txq : rep (c_queue c) (mm_txq s) [];
  dd_msgs : Forall dead_msg (mm_msgs s);
  dd_st : mm_st s = M_IDLE }.
Lemma dead_pdu m p : dead_msg m -> exists st, generate_request_PDU_data m p = Ok (st, m) /\ st < 0.
Proof.
  intros [A B]. unfold generate_request_PDU_data.
  assert (K : check_null_ptr_correctness m = RET_NULL_PTR_ERROR) by (unfold check_null_ptr_correctness; rewrite A; reflexivity).
  assert (G : forall l, (forall f, In f (map snd l) -> f m p = Ok (RET_NULL_PTR_ERROR, m)) -> forall st, st < 0 -> exists st', gen_pdu_loop l m p st = Ok (st', m) /\ st' < 0).
  { induction l as [|[x f] l IH]; intros Hl st Hst; cbn [gen_pdu_loop]; eauto. destruct (x =? p_fc p).
    - rewrite (Hl f) by (left; reflexivity). cbn [bind]. apply IH; [intros; apply Hl; right; auto|reflexivity].
    - apply IH; auto. intros; apply Hl; right; auto. }
  apply G; [|reflexivity]. cbn [master_functions_mapper map snd In]. intros f Hf.
  repeat (destruct Hf as [<-|Hf]; [unfold modbus_master_read_coils_req, modbus_master_read_discrete_inputs_req, modbus_master_read_holding_reg_req, modbus_master_read_input_reg_req, read_req, modbus_master_write_single_coil_req, modbus_master_write_single_reg_req, modbus_master_write_multiple_coils_req, modbus_master_write_multiple_reg_req; rewrite K; reflexivity|]). destruct Hf.
Qed.
Lemma dead_request c a free s : dead c free s -> exists s' r free', modbus_master_request c a s = Ok (r, s') /\ r <> REQUEST_SEND_TO_QUEUE /\ dead c free' s' /\ mm_rx s' = mm_rx s.
Proof.
  intros [A1 A2 A3 A4 A5]. destruct free as [|i free].
  - rewrite req_none by auto. do 3 eexists. split; [reflexivity|]. split; [discriminate|]. split; [|reflexivity]. split; eauto.
  - unfold modbus_master_request, generate_request. destruct (pop_cons _ _ _ _ A1) as (q & E & R'). rewrite E. cbn [bind].
    inversion A2 as [|? ? L F]; subst. destruct (nth_error (mm_msgs s) i) as [m|] eqn:N; [|apply nth_error_None in N; lia].
    assert (G : get_msg (m_set_free s q) i = Ok m) by (apply get_msg_some; exact N). rewrite G. cbn [bind].
    assert (Dm : dead_msg m) by (eapply Forall_forall; [exact A4|eapply nth_error_In; eauto]).
    destruct (dead_pdu m (api_param a) Dm) as (st & P & Hst). rewrite P. cbn [bind]. rewrite put_msg_ok by exact L. cbn [bind].
    assert (X : st <? 0 = true) by lia. rewrite X. do 3 eexists. split; [reflexivity|]. split; [discriminate|]. split; [|reflexivity].
    rewrite (set_msgs_same (m_set_free s q) i m N). split; mprj; [exact R'|exact F|exact A3|exact A4|exact A5].
Qed.
Definition dead_init (c : cfg) (s s' : master) : Prop := dead c (seq 0 (Z.to_nat (c_queue c))) s' /\ mm_rx s' = mm_rx s.
Lemma init_dead c s : cfg_master_ok c -> master_memory_ok c s -> exists s', modbus_master_init c UNKNOWN_MODE s = Ok s' /\ dead_init c s s'.
Proof.
  intros [HN HR] (L & F & LF & LT & RX). unfold modbus_master_init, register_msg_req_resp_data_buffers. mprj.
  destruct (push_all_ok (c_queue c) (Z.to_nat (c_queue c)) 0 (modbus_queue_init (mm_free s)) []) as (q & P & R); [apply rep_init; auto|cbn; lia|].
  rewrite P. cbn [bind]. eexists. split; [reflexivity|]. split; mprj; auto. split; mprj; auto.
  - apply Forall_forall. intros i Hi. apply in_seq in Hi. rewrite map_length. lia.
  - apply rep_init; auto.
  - apply Forall_forall. intros m Hm. apply in_map_iff in Hm as (m0 & <- & _). split; reflexivity.
Qed.
Definition quiet (x : mitem) : Prop := match x with MTEv _ => True | MTOut (MoRet _ r) => r <> REQUEST_SEND_TO_QUEUE | _ => False end.
Lemma quiet_facts t : Forall quiet t -> accepted t = [] /\ m_sent t = [] /\ callbacks t = [].
Proof.
  induction t as [|x t IH]; intros H; [auto|]. inversion H as [|? ? Q Qs]; subst. destruct (IH Qs) as (A & B & D).
  destruct x as [?|[]]; cbn [quiet] in Q; try contradiction; cbn [accepted m_sent callbacks]; auto. destruct r; auto; congruence.
Qed.
Lemma dead_run c sched s : forall free, dead c free s -> mm_rx s = None \/ (forall b, ~ In (MRx b) (m_events sched)) ->
  exists k t, m_run c sched (mk_mconf s None) = Ok (k, t) /\ Forall quiet t.
Proof.
  intros free D H.
  destruct (m_phase c (fun rem t l s => l = M649 /\ Forall quiet t /\ (exists free, dead c free s) /\ (mm_rx s = None \/ (forall b, ~ In (MRx b) rem))))
    with (sched := sched) (t := @nil mitem) (k := mk_mconf s None) (rem := @nil mev) as (k & o & E & _ & Q & _).
  - intros rem t l s1 (-> & Q & (fr & D1) & R). cbn [m_line]. rewrite (avail_iff _ _ _ (dd_txq _ _ _ D1)). do 3 eexists. split; [reflexivity|].
    cbn [m_next map]. unfold m_dispatch. rewrite (dd_st _ _ _ D1), app_nil_r. split; auto. split; auto. split; eauto.
  - intros e rem t l s1 (-> & Q & (fr & D1) & R).
    assert (R' : mm_rx s1 = None \/ (forall b, ~ In (MRx b) rem)) by (destruct R as [R|R]; auto; right; intros b Hb; apply (R b); right; auto).
    assert (QE : Forall quiet (t ++ [MTEv e])) by (apply Forall_app; split; auto; repeat constructor).
    destruct e; cbn [m_event].
    1-4: destruct (mm_sub s1); do 2 eexists; (split; [reflexivity|]); cbn [map]; repeat (split; auto); destruct D1; exists fr; split; auto.
    + destruct R as [R|R]; [|exfalso; apply (R b); left; auto]. rewrite R. do 2 eexists. split; [reflexivity|]. cbn [map]. rewrite R. split; auto. split; auto. split; eauto.
    + destruct (negb _); do 2 eexists; (split; [reflexivity|]); cbn [map]; repeat (split; auto); eauto; destruct D1; exists fr; split; auto.
    + destruct (dead_request c a fr s1 D1) as (s' & r & fr' & E & Nr & D' & X). rewrite E. cbn [bind]. do 2 eexists. split; [reflexivity|]. cbn [map]. rewrite X.
      split; auto. split; [|split; eauto]. apply Forall_app. split; auto. constructor; [exact Logic.I|]. constructor; [exact Nr|constructor].
  - rewrite app_nil_r. unfold mloc, m_dispatch. cbn [mc_pc mc_s]. rewrite (dd_st _ _ _ D). split; auto. split; [constructor|]. split; eauto.
  - cbn [app] in Q. eauto.
Qed.

(** *** no line diverges *)
Definition nd {A : Type} (x : outcome A) : Prop := x <> Diverge.
Lemma nd_bind {A B : Type} (x : outcome A) (f : A -> outcome B) : nd x -> (forall a, nd (f a)) -> nd (bind x f).
Proof. destruct x; intros H F; cbn; auto; [discriminate|destruct (H eq_refl)]. Qed.
Lemma nd_ok {A : Type} (a : A) : nd (Ok a). Proof. discriminate. Qed.
Lemma nd_ub {A : Type} : nd (@UB A). Proof. discriminate. Qed.
Lemma nd_aget {A : Type} (l : list A) i : nd (aget l i).
Proof. unfold aget. destruct (_ <? 0); [discriminate|]. destruct (nth_error _ _); discriminate. Qed.
Lemma nd_aset {A : Type} (l : list A) i v : nd (aset l i v).
Proof. unfold aset. destruct (_ || _); discriminate. Qed.
Lemma nd_rd r i : nd (rd r i).
Proof. unfold rd. destruct (rr_ptr r); [apply nd_aget|discriminate]. Qed.
Lemma nd_u16 r i : nd (read_u16_from_buf r i).
Proof. unfold read_u16_from_buf. apply nd_bind; [apply nd_rd|]. intros x. apply nd_bind; [apply nd_rd|]. discriminate. Qed.
Lemma nd_crc n : forall b p x, nd (crc_loop n b p x).
Proof. induction n as [|n IH]; intros; cbn [crc_loop]; [discriminate|]. apply nd_bind; [apply nd_aget|]. intros. apply nd_bind; [apply nd_aget|]. intros. apply IH. Qed.
Lemma nd_bits n : forall mk r a b i, nd (update_bits_loop n mk r a b i).
Proof. induction n as [|n IH]; intros; cbn [update_bits_loop]; [discriminate|]. apply nd_bind; [apply nd_rd|]. intros. apply nd_bind; [apply IH|]. discriminate. Qed.
Lemma nd_regs n : forall mk r a b i, nd (update_regs_loop n mk r a b i).
Proof. induction n as [|n IH]; intros; cbn [update_regs_loop]; [discriminate|]. apply nd_bind; [apply nd_u16|]. intros. apply nd_bind; [apply IH|]. discriminate. Qed.
Ltac nds := repeat match goal with
  | |- nd (bind _ _) => apply nd_bind; [|intros ?]
  | |- nd (Ok _) => apply nd_ok
  | |- nd UB => apply nd_ub
  | |- nd (aget _ _) => apply nd_aget
  | |- nd (aset _ _ _) => apply nd_aset
  | |- nd (rd _ _) => apply nd_rd
  | |- nd (read_u16_from_buf _ _) => apply nd_u16
  | |- nd (update_bits_loop _ _ _ _ _ _) => apply nd_bits
  | |- nd (update_regs_loop _ _ _ _ _ _) => apply nd_regs
  | |- nd (calculate_CRC _ _) => apply nd_crc
  | |- nd (let '(_, _) := ?x in _) => destruct x
  | |- nd (if ?b then _ else _) => destruct b
  end.
Lemma nd_line c l s : nd (m_line c l s).
Proof.
  assert (CM : nd (cur_msg s)) by (unfold cur_msg, get_msg; destruct (mm_cur s); nds).
  assert (SL : nd (set_cur_resp_len s 0)) by (unfold set_cur_resp_len, put_msg; nds; auto).
  destruct l; cbn [m_line]; try (nds; auto; fail).
  - unfold modbus_queue_pop. nds.
  - nds; auto. unfold timeout_report. nds.
  - unfold modbus_RTU_recv. nds; auto.
  - apply nd_bind; auto. intros [i m]. unfold modbus_master_read_slave_resp, modbus_response_contain_exception_code, process_modbus_exception_code, process_modbus_response. nds.
    unfold modbus_master_function_mapper. cbn [find_resp_handler]. repeat match goal with |- nd (match (if ?b then _ else _) with _ => _ end) => destruct b end;
      try (unfold update_master_data_from_modbus_msg, report_write_operation_confirmation; nds; fail).
  - nds; auto. unfold comm_report. nds.
  - nds; auto. unfold comm_report. nds.
  - unfold modbus_queue_push. nds.
Qed.
Lemma nd_poll c s : update_modbus_master_manager c s <> Diverge.
Proof.
  unfold update_modbus_master_manager. assert (X := m_rank_pos (m_dispatch s)). destruct (m_lines_end c 16 (m_dispatch s) s ltac:(lia)) as [A|(l & s1 & A)]; auto.
  destruct (nd_line c l s1 A).
Qed.

(** *** absence of undefined behaviour *)
(** the bytes last checked as intact answer to a request for more than 126 items have its function code, or report an exception;
    fewer than 256 bytes were received *)
Definition polite (t : list mitem) : Prop := forall a, current t = Some a -> is_read a = true -> 126 < api_qty a ->
  (length (m_received t) < 256)%nat /\ (forall g, m_checked t = Some g -> intact (api_id a) g -> byte_at g 1 = api_fc a \/ 128 <= byte_at g 1).
Lemma crc_ok_len g : crc_ok g -> (2 <= length g)%nat.
Proof. intros (b & ->). rewrite app_length. cbn. lia. Qed.
Lemma polite_delivered c t s i a m : cinv c t M813 s -> polite t -> mm_cur s = Some i -> current t = Some a -> nth_error (mm_msgs s) i = Some m -> delivered a (rr_buf (m_resp m)) <> None.
Proof.
  intros I P C Cu N. destruct (is_read a) eqn:R; [|unfold delivered; destruct (128 <=? _); rewrite ?R; discriminate].
  destruct (Z_le_gt_dec (api_qty a) 126) as [L|L].
  { unfold delivered. destruct (128 <=? _); [discriminate|]. rewrite R. destruct (_ || _); [|discriminate]. replace (126 <? api_qty a) with false by lia. rewrite andb_false_r. discriminate. }
  destruct (P a Cu R ltac:(lia)) as (L256 & Pg). destruct (ci_rx _ _ _ _ I eq_refl) as (i' & m' & C' & N' & Rx).
  assert (i' = i) by congruence. subst i'. assert (m' = m) by congruence. subst m'.
  destruct (ci_chk _ _ _ _ I a Cu) as ((g & G & Ig) & _). destruct (ci_pref _ _ _ _ I eq_refl) as (g' & r & x & G' & Eg & Ex).
  assert (X : g = r) by (transitivity g'; [congruence|]; rewrite Eg; apply buffered_short; rewrite Ex, app_length in L256; lia). clear g' G' Eg. subst r.
  assert (Lg := crc_ok_len _ (proj1 Ig)).
  assert (Hm : msg_ok m).
  { destruct (ci_inv _ _ _ _ I) as (free & pend & apis & eps & v & J). eapply Forall_forall; [apply (mb_msgs _ _ _ _ _ (iv_buf _ _ _ _ _ _ _ _ _ J))|eapply nth_error_In; eauto]. }
  assert (Pb := rxb_prefix _ _ (proj2 Hm) Rx L256).
  assert (B1 : byte_at (rr_buf (m_resp m)) 1 = byte_at g 1).
  { rewrite (prefix_nth (m_received t)); auto; [|rewrite Ex, app_length; lia]. rewrite Ex. unfold byte_at. apply app_nth1. lia. }
  destruct (Minv_current _ _ _ _ (ci_inv _ _ _ _ I) eq_refl) as (? & a' & ? & _ & Cu' & _ & _ & _ & _ & V). assert (a' = a) by congruence. subst a'.
  unfold delivered. rewrite B1, R. destruct (Pg g G Ig) as [F|F].
  - destruct (128 <=? byte_at g 1) eqn:Q; [discriminate|]. rewrite F. destruct a; try discriminate R; cbn in V, L |- *; try discriminate; lia.
  - replace (128 <=? byte_at g 1) with true by lia. discriminate.
Qed.
Lemma run_total c s : cfg_master_ok c -> started c s -> forall sched, reqs_safe sched ->
  (forall s1 s2 k t, sched = s1 ++ s2 -> m_run c s1 (mk_mconf s None) = Ok (k, t) -> polite t) -> exists k t, m_run c sched (mk_mconf s None) = Ok (k, t).
Proof.
  intros Hc St. induction sched as [|x sched IH] using rev_ind; intros HS HP; [cbn; eauto|].
  assert (HS' : reqs_safe sched) by (intros a Ha; apply HS, in_or_app; auto).
  destruct IH as (k & t & E); auto.
  { intros s1 s2 k t -> E. apply (HP s1 (s2 ++ [x]) k t); auto. now rewrite app_assoc. }
  rewrite m_run_app, E. cbn [bind].
  assert (P : polite t) by (apply (HP sched [x] k t); auto).
  assert (I : cinv c t (mloc k) (mc_s k)) by (apply (history_cinv c sched); auto; exists s; auto).
  assert (X : exists k' o, m_act c x k = Ok (k', o)).
  { destruct x as [|e]; cbn [m_act].
    - unfold mloc in I. destruct (mc_pc k) as [l|]; [|eauto]. destruct (m_line_total c t l (mc_s k) (ci_inv _ _ _ _ I)) as (l' & s' & o & E').
      { intros -> i a m C Cu N. eapply polite_delivered; eauto. }
      rewrite E'. cbn [bind]. eauto.
    - destruct (m_event_total c t _ _ e Hc (ci_inv _ _ _ _ I)) as (s' & o & E').
      { destruct e; cbn; auto. apply HS. apply in_or_app. right. left. auto. }
      rewrite E'. cbn [bind]. eauto. }
  destruct X as (k' & o & X). cbn [m_run]. rewrite X. cbn [bind]. eauto.
Qed.

(** *** polls that start in idle with a request pending transmit it *)
Lemma idle_poll c t s a : cfg_master_ok c -> Minv c t M649 s -> current t = Some a -> mm_st s = M_IDLE -> exists s', update_modbus_master_manager c s = Ok (s', [MoSend (request_frame a)]).
Proof.
  intros Hc I Cu St. unfold update_modbus_master_manager, m_dispatch. rewrite St. assert (I0 := I).
  destruct I0 as (free & pend & apis & eps & v & [K B Rq Ac Vi Ep Pa Fi Cn]).
  assert (Hp : exists j rest, pend = j :: rest).
  { destruct pend as [|j rest]; eauto. exfalso. unfold fly in Rq. cbn [fly_line app] in Rq. inversion Rq; subst. unfold current in Cu. rewrite Ac, Fi, app_nil_r in Cu.
    assert (nth_error (map e_api eps) (length eps) <> None) by congruence. apply nth_error_Some in H. rewrite map_length in H. lia. }
  destruct Hp as (j & rest & ->). destruct (pop_cons _ _ _ _ (mb_pend _ _ _ _ _ B)) as (q & P & _).
  assert (E1 : m_line c M649 s = Ok (Some M651, s, [])) by (cbn [m_line]; rewrite (avail_iff _ _ _ (mb_pend _ _ _ _ _ B)); reflexivity).
  assert (E2 : m_line c M651 s = Ok (Some M404, m_set_cur (m_set_txq s q) (Some j), [])) by (cbn [m_line]; rewrite P; reflexivity).
  assert (I1 := Minv_line _ _ _ _ _ _ _ Hc I E1). cbn [map m_next] in I1. rewrite app_nil_r in I1.
  assert (I2 := Minv_line _ _ _ _ _ _ _ Hc I1 E2). cbn [map m_next] in I2. rewrite app_nil_r in I2.
  destruct (Minv_current _ _ _ _ I2 eq_refl) as (i & a' & m & C & Cu' & N & Hm & H & A & V). assert (a' = a) by congruence. subst a'.
  assert (CM : cur_msg (m_set_cur (m_set_txq s q) (Some j)) = Ok (i, m)) by (apply cur_msg_inv; auto).
  assert (CM2 : forall x, cur_msg (m_set_rx (m_set_cur (m_set_txq s q) (Some j)) x) = Ok (i, m)) by (intros; apply cur_msg_inv; auto).
  assert (D : mm_drv (m_set_cur (m_set_txq s q) (Some j)) = true) by apply (mc_drv _ _ _ K).
  set (s2 := m_set_cur (m_set_txq s q) (Some j)) in *.
  assert (E3 : m_line c M404 s2 = Ok (Some M405, s2, [MoSend (request_frame a)])) by (cbn [m_line]; rewrite CM; cbn [bind]; rewrite D; do 2 f_equal; f_equal; f_equal; exact H).
  assert (E4 : m_line c M405 s2 = Ok (Some M406, m_set_rx s2 (Some i), [])) by (cbn [m_line]; rewrite CM; cbn [bind]; rewrite D; reflexivity).
  cbn [m_lines]. rewrite E1. cbn [bind]. rewrite E2. cbn [bind]. rewrite E3. cbn [bind]. rewrite E4. cbn [bind m_line app]. eauto.
Qed.
