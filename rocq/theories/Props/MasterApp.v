(** C76-C78: the example master application (main loop, periodic requests, callbacks, SysTick) on top of the master firmware. *)
From Verif Require Import Props.MasterRun Props.MasterSafe Props.MasterSystem Proofs.MasterWire Proofs.MasterOut Proofs.MasterApp.

(** * C76: the application is one of the uses of the firmware the other theorems speak of, and has no undefined behaviour under the same conditions *)
Theorem C76_application_starts : forall c, cfg_master_ok c -> exists a, master_app c = Ok a /\ master_firmware c = Ok (a_fw a).
Proof.
  intros c Hc. assert (M := static_master_ok c Hc). destruct (init_char c _ Hc M) as (s & E & Ch). unfold master_app, master_firmware. rewrite E. cbn [bind]. eexists. split; reflexivity.
Qed.
Print Assumptions C76_application_starts.
Theorem C76_application_is_firmware : forall c sched a t, cfg_master_ok c -> app_history c sched a t -> exists ws, w_history c ws (a_fw a) t.
Proof.
  intros c sched a t Hc (a0 & H0 & R). destruct (app_start _ _ Hc H0) as (St & _). destruct (i_fw _ _ _ _ _ (ainv_run _ _ Hc H0 _ _ _ R)) as (ws & W1 & W2 & _).
  exists ws, (a_fw a0). auto.
Qed.
Print Assumptions C76_application_is_firmware.
Theorem C76_application_no_ub_partial : forall c a0 sched, cfg_master_ok c -> master_app c = Ok a0 -> a_send_undisturbed c a0 sched -> a_no_early_rx c a0 sched ->
  exists a t, a_run c sched a0 = Ok (a, t).
Proof. intros. eapply app_total; eauto. Qed.
Print Assumptions C76_application_no_ub_partial.
(** what is missing: a character on the line before the first request, as in C68 *)
Definition xcfg : cfg := mk_cfg 5 1000 3 1 1 1 1.
Lemma xcfg_ok : cfg_master_ok xcfg.
Proof. unfold cfg_master_ok. cbn. lia. Qed.
Definition a0 : mapp := match master_app xcfg with Ok a => a | _ => mk_mapp w0 0 vars_init A55 end.
Lemma a0_ok : master_app xcfg = Ok a0.
Proof. vm_compute. reflexivity. Qed.
(** to check [a_always] on concrete schedules *)
Fixpoint a_alwaysb (c : cfg) (P : aact -> mfw -> bool) (l : list aact) (a : mapp) : bool :=
  match l with
  | [] => true
  | x :: l => P x (a_fw a) && match a_act c x a with Ok (a1, _) => a_alwaysb c P l a1 | _ => true end
  end.
Lemma a_alwaysb_ok c (P : aact -> mfw -> Prop) b : (forall x w, b x w = true -> P x w) -> forall l a, a_alwaysb c b l a = true -> a_always c a l P.
Proof.
  intros H. induction l as [|y l IH]; intros a E l1 x l2 a1 t1 EQ R; [destruct l1; discriminate|]. cbn [a_alwaysb] in E. apply andb_true_iff in E as [E1 E2].
  destruct l1 as [|z l1]; cbn [app] in EQ; inversion EQ; subst.
  - inversion R; subst. apply H, E1.
  - cbn [a_run] in R. destruct (a_act c z a) as [[a2 t2]| |]; try discriminate. cbn [bind] in R. destruct (a_run c l1 a2) as [[a3 t3]| |] eqn:R2; try discriminate. inversion R; subst. eapply IH; eauto.
Qed.
Definition a_undisturbedb (x : aact) (w : mfw) : bool := match x with AaHw WUsart => negb (in_send (w_sub w)) | _ => true end.
Definition a_listensb (x : aact) (w : mfw) : bool := match x with AaHw (WRx _) => match mm_rx (mc_s (w_lib w)) with Some _ => true | None => false end | _ => true end.
Lemma a_undisturbed_check c l a : a_alwaysb c a_undisturbedb l a = true -> a_send_undisturbed c a l.
Proof. apply a_alwaysb_ok. intros x w E ->. cbn in E. destruct (w_sub w) as [[]|]; auto; discriminate. Qed.
Lemma a_listens_check c l a : a_alwaysb c a_listensb l a = true -> a_no_early_rx c a l.
Proof. apply a_alwaysb_ok. intros x w E b ->. cbn in E. destruct (mm_rx _); discriminate. Qed.
Theorem C76_refuted : exists c a0 sched, cfg_master_ok c /\ master_app c = Ok a0 /\ a_send_undisturbed c a0 sched /\ a_run c sched a0 = UB.
Proof.
  exists xcfg, a0, [AaHw (WRx 0); AaHw WRto; AaHw WUsart]. split; [apply xcfg_ok|]. split; [apply a0_ok|]. split; [apply a_undisturbed_check; vm_compute; reflexivity|vm_compute; reflexivity].
Qed.
Print Assumptions C76_refuted.

(** * C77: what the application asks for *)
(** the [n]-th call: in turn read coil 1, read holding register 1, write the last coil value reported to coil 0, the last register value reported to register 0, of slave 1 *)
Theorem C77_what_is_asked : forall c sched a t1 q r t2, cfg_master_ok c -> app_history c sched a (t1 ++ WLib (MTOut (MoRet q r)) :: t2) ->
  q = app_request (length (app_calls t1)) (callbacks (m_lib_of t1)) /\ (r = REQUEST_SEND_TO_QUEUE \/ r = FREE_QUEUE_EMPTY_ERROR).
Proof. intros c sched a t1 q r t2 Hc (a0 & H0 & R). exact (i_good _ _ _ _ _ (ainv_run _ _ Hc H0 _ _ _ R) t1 q r t2 eq_refl). Qed.
Print Assumptions C77_what_is_asked.
(** at most one round of four requests per 300 ms, over the whole history and over every part of it *)
Theorem C77_rate : forall c sched a t, cfg_master_ok c -> app_history c sched a t -> Z.of_nat (length (app_calls t)) <= 4 * (Z.of_nat (app_ticks sched) / 300).
Proof.
  intros c sched a t Hc (a0 & H0 & R). destruct (i_len _ _ _ _ _ (ainv_run _ _ Hc H0 _ _ _ R)) as (k & L1 & L2). assert (T := i_tm _ _ _ _ _ (ainv_run _ _ Hc H0 _ _ _ R)).
  assert (D : 300 * (Z.of_nat (app_ticks sched) / 300) <= Z.of_nat (app_ticks sched)) by (apply Z.mul_div_le; lia). assert (I := proj1 (idx_4 (a_pc a))). rewrite L1.
  destruct (resting_pc (a_pc a)) eqn:Rp.
  - assert (idx (a_pc a) = 0%nat) by (destruct (a_pc a); cbn in *; auto; discriminate). assert (Z.of_nat k <= Z.of_nat (app_ticks sched) / 300) by (apply Z.div_le_lower_bound; lia). lia.
  - assert (Z.of_nat k + 1 <= Z.of_nat (app_ticks sched) / 300) by (apply Z.div_le_lower_bound; lia). lia.
Qed.
Print Assumptions C77_rate.
Theorem C77_rate_between : forall c sched1 sched2 a1 a2 t1 t2, cfg_master_ok c -> app_history c sched1 a1 t1 -> a_run c sched2 a1 = Ok (a2, t2) ->
  Z.of_nat (length (app_calls t2)) <= 4 * (Z.of_nat (app_ticks sched2) / 300 + 1).
Proof.
  intros c sched1 sched2 a1 a2 t1 t2 Hc (a0 & H0 & R) R2. assert (T := i_tm _ _ _ _ _ (ainv_run _ _ Hc H0 _ _ _ R)). destruct (rate _ _ _ _ _ R2 T) as (k & K1 & K2 & K3).
  set (d := Z.of_nat (app_ticks sched2)) in *. assert (D : 300 * (d / 300) <= d) by (apply Z.mul_div_le; lia). assert (I := proj1 (idx_4 (a_pc a2))). unfold credit in K2. destruct (resting_pc (a_pc a2)) eqn:Rp.
  - apply idx_rest in Rp. assert (Z.of_nat k - 1 <= d / 300) by (apply Z.div_le_lower_bound; destruct (resting_pc (a_pc a1)); lia). lia.
  - assert (Z.of_nat k <= d / 300) by (apply Z.div_le_lower_bound; destruct (resting_pc (a_pc a1)); lia). lia.
Qed.
Print Assumptions C77_rate_between.
(** no buffer of the queue is ever lost; a request is refused exactly when every buffer holds a request not yet finished *)
Theorem C77_no_buffer_lost : forall c sched a t, cfg_master_ok c -> app_history c sched a t ->
  (length (in_flight (w_lib (a_fw a))) + length (waiting c (mc_s (w_lib (a_fw a)))) + length (free_bufs c (mc_s (w_lib (a_fw a)))))%nat = Z.to_nat (c_queue c).
Proof.
  intros c sched a t Hc (a0 & H0 & R). assert (I := ainv_run _ _ Hc H0 _ _ _ R). destruct (i_fw _ _ _ _ _ I) as (ws & W1 & W2 & _). destruct (app_start _ _ Hc H0) as (St & _).
  destruct (C68_library_inside _ _ _ _ _ St W2 W1) as (ls & Hl). destruct (C19_buffers _ _ _ _ Hc Hl) as (_ & _ & L). rewrite (no_pdu_errors _ (i_good _ _ _ _ _ I)) in L. lia.
Qed.
Print Assumptions C77_no_buffer_lost.
Theorem C77_refused_only_when_full : forall c sched a t x a' t' q r, cfg_master_ok c -> app_history c sched a t -> a_act c x a = Ok (a', t') -> app_calls t' = [(q, r)] ->
  (r = FREE_QUEUE_EMPTY_ERROR <-> (length (in_flight (w_lib (a_fw a))) + length (waiting c (mc_s (w_lib (a_fw a)))))%nat = Z.to_nat (c_queue c)).
Proof.
  intros c sched a t x a' t' q r Hc Ha E Ec. assert (NB := C77_no_buffer_lost _ _ _ _ Hc Ha). destruct Ha as (a0 & H0 & R). assert (I := ainv_run _ _ Hc H0 _ _ _ R).
  destruct (i_fw _ _ _ _ _ I) as (ws & W1 & W2 & _). destruct (app_start _ _ Hc H0) as (St & _). destruct (C68_library_inside _ _ _ _ _ St W2 W1) as (ls & Hl).
  destruct (a_step_inv _ _ _ _ _ E) as (P & _). destruct (w_emits _ _ _ _ _ P) as [_ Nc].
  assert (Rq : exists q', proj x a = [WReq q']). { destruct x as [| |y]; cbn [proj] in *; [destruct (a_pc a); eauto; rewrite Nc in Ec; try discriminate Ec; intros q0; cbn; intuition discriminate| |]; (rewrite Nc in Ec; [discriminate Ec|]); intros q0; [cbn; intuition discriminate|destruct y; cbn; intuition discriminate]. }
  destruct Rq as (q' & Ep). rewrite Ep in P. destruct (w_req_inv _ _ _ _ _ P) as (r' & s' & -> & Er). cbn in Ec. inversion Ec; subst q' r'.
  destruct (i_fw _ _ _ _ _ (ainv_step _ _ _ _ _ _ _ _ Hc H0 R I E)) as (ws2 & V1 & V2 & _).
  assert (Gq : q = app_request (length (app_calls t)) (callbacks (m_lib_of t))).
  { assert (G := i_good _ _ _ _ _ (ainv_step _ _ _ _ _ _ _ _ Hc H0 R I E)). destruct (G (t ++ [WLib (MTEv (MReq q))]) q r []) as [G1 _]; [rewrite <- app_assoc; reflexivity|].
    rewrite app_calls_app, m_lib_of_app, callbacks_app in G1. cbn [app_calls flat_map app m_lib_of callbacks] in G1. rewrite !app_nil_r in G1. exact G1. }
  assert (Iw := i_word _ _ _ _ _ I). rewrite (i_hreg _ _ _ _ _ I) in Iw. destruct (app_req_safe (length (app_calls t)) (callbacks (m_lib_of t)) Iw) as [Sf Vl]. rewrite <- Gq in Sf, Vl.
  destruct (C08_accepted_exactly c ls (w_lib (a_fw a)) _ q Hc Hl Sf) as (r2 & s2 & E2 & _ & F1 & F2 & _). rewrite Er in E2. inversion E2; subst r2 s2.
  destruct (free_bufs c (mc_s (w_lib (a_fw a)))) as [|i fb] eqn:Fb.
  - destruct (F1 eq_refl) as [-> _]. cbn [length] in NB. split; intros; auto. lia.
  - destruct (F2 ltac:(discriminate) Vl) as [-> _]. cbn [length] in NB. split; [discriminate|lia].
Qed.
Print Assumptions C77_refused_only_when_full.

(** * C78: the application keeps asking *)
(** Whatever happened before: five lines of the main program finish a round that has begun, 300 ticks run the interval down, 25 more lines make the next four calls. *)
Theorem C78_keeps_asking : forall c sched a t l1 l2 l3 a' t', cfg_master_ok c -> app_history c sched a t -> a_run c (l1 ++ l2 ++ l3) a = Ok (a', t') ->
  (5 <= app_mains l1)%nat -> (300 <= app_ticks l2)%nat -> (25 <= app_mains l3)%nat -> (4 <= length (app_calls t'))%nat.
Proof.
  intros c sched a t l1 l2 l3 a' t' Hc (a0 & H0 & R) R2 M1 T2 M3. assert (T := i_tm _ _ _ _ _ (ainv_run _ _ Hc H0 _ _ _ R)).
  apply a_run_split in R2 as (a1 & t1 & t23 & R1 & R23 & ->). apply a_run_split in R23 as (a2 & t2 & t3 & R2 & R3 & ->).
  assert (G : (to_go (a_pc a) <= app_mains l1)%nat) by (destruct (a_pc a); cbn; lia).
  destruct (round_over _ _ _ _ _ R1 G) as (l4 & l5 & a4 & t4 & t5 & -> & R4 & R5 & -> & Rp). destruct (rate _ _ _ _ _ R4 T) as (_ & _ & _ & T4).
  assert (R52 : a_run c (l5 ++ l2) a4 = Ok (a2, t5 ++ t2)) by (apply a_run_split; eauto 7).
  assert (TA : app_ticks (l5 ++ l2) = (app_ticks l5 + app_ticks l2)%nat) by (unfold app_ticks; rewrite filter_app, app_length; reflexivity).
  rewrite !calls_len. destruct (adv _ _ _ _ _ R52 ltac:(lia)) as [A|[A1 A2]]; rewrite ?calls_len, (idx_rest _ Rp) in *; [lia|].
  assert (F := finish _ _ _ _ _ R3 ltac:(lia)). assert (P := ppot_25 a2). specialize (F ltac:(lia)). lia.
Qed.
Print Assumptions C78_keeps_asking.

(** *** a concrete history: the first round; the slave answers the two read requests; the second round repeats the values read; the fourth call of the
    second round is refused, since the two write requests of the first round and three of the second occupy the five buffers *)
Definition amains (n : nat) : list aact := repeat AaMain n.
Definition aticks (n : nat) : list aact := repeat AaTick n.
Definition hw (l : list wact) : list aact := map AaHw l.
Definition answered_by (f : list Z) : list aact :=
  amains 40 ++ hw (w_out 8) ++ amains 24 ++ hw (flat_map (fun b => [WRx b; WUsart]) f ++ [WRto; WUsart]) ++ amains 40 ++ hw [WTim; WTimer] ++ amains 40.
Definition two_rounds : list aact :=
  aticks 300 ++ amains 40 ++ answered_by (rtu_frame 1 [1; 1; 1]) ++ answered_by (rtu_frame 1 [3; 2; 18; 52]) ++ aticks 300 ++ amains 60.
Definition app_result (l : list aact) : mapp * list witem := match a_run xcfg l a0 with Ok x => x | _ => (a0, []) end.
Theorem C76_case : app_history xcfg two_rounds (fst (app_result two_rounds)) (snd (app_result two_rounds)) /\
  a_send_undisturbed xcfg a0 two_rounds /\ a_no_early_rx xcfg a0 two_rounds /\
  callbacks (m_lib_of (snd (app_result two_rounds))) = [CoilRead 1 1 true; HregRead 1 1 4660] /\
  app_calls (snd (app_result two_rounds)) =
    [(ReadCoils 1 1 1, REQUEST_SEND_TO_QUEUE); (ReadHoldingReg 1 1 1, REQUEST_SEND_TO_QUEUE); (WriteSingleCoil 0 1 false, REQUEST_SEND_TO_QUEUE); (WriteSingleReg 0 1 0, REQUEST_SEND_TO_QUEUE);
     (ReadCoils 1 1 1, REQUEST_SEND_TO_QUEUE); (ReadHoldingReg 1 1 1, REQUEST_SEND_TO_QUEUE); (WriteSingleCoil 0 1 true, REQUEST_SEND_TO_QUEUE); (WriteSingleReg 0 1 4660, FREE_QUEUE_EMPTY_ERROR)].
Proof.
  assert (E : exists x, a_run xcfg two_rounds a0 = Ok x /\ callbacks (m_lib_of (snd x)) = [CoilRead 1 1 true; HregRead 1 1 4660] /\ app_calls (snd x) =
    [(ReadCoils 1 1 1, REQUEST_SEND_TO_QUEUE); (ReadHoldingReg 1 1 1, REQUEST_SEND_TO_QUEUE); (WriteSingleCoil 0 1 false, REQUEST_SEND_TO_QUEUE); (WriteSingleReg 0 1 0, REQUEST_SEND_TO_QUEUE);
     (ReadCoils 1 1 1, REQUEST_SEND_TO_QUEUE); (ReadHoldingReg 1 1 1, REQUEST_SEND_TO_QUEUE); (WriteSingleCoil 0 1 true, REQUEST_SEND_TO_QUEUE); (WriteSingleReg 0 1 4660, FREE_QUEUE_EMPTY_ERROR)]).
  { eexists. split; [|split]; [vm_compute; reflexivity|vm_compute; reflexivity|vm_compute; reflexivity]. }
  destruct E as (x & E & C1 & C2). unfold app_result. rewrite E. split; [exists a0; split; [apply a0_ok|rewrite E; destruct x; reflexivity]|].
  split; [apply a_undisturbed_check; vm_compute; reflexivity|]. split; [apply a_listens_check; vm_compute; reflexivity|]. split; assumption.
Qed.
