(** C68-C70: the master firmware = library + STM32 example driver + UART and timer + SysTick, under every schedule of main program
    lines, interrupts, hardware events and request calls; what is seen on the line. *)
From Verif Require Import Props.MasterRun Props.MasterSafe Proofs.MasterWire.

Definition master_firmware (c : cfg) : outcome mfw :=
  let* s := modbus_master_init c RTU (master_static c) in Ok (mk_mfw (mk_mconf s None) uart_init None).
Theorem master_firmware_started : forall c, cfg_master_ok c -> exists w, master_firmware c = Ok w /\ mfw_started c w /\ mm_rx (mc_s (w_lib w)) = None.
Proof.
  intros c Hc. unfold master_firmware. assert (M := static_master_ok c Hc). destruct (init_char c _ Hc M) as (s & E & Ch). rewrite E. cbn [bind].
  eexists. split; [reflexivity|]. split; [|cbn; apply Ch]. split; [exists (master_static c); auto|]. unfold tx_idle. cbn. split; [reflexivity|]. split; [repeat split; lia|]. intros H; destruct (H eq_refl).
Qed.
Print Assumptions master_firmware_started.

(** to check [always_at] on concrete schedules *)
Fixpoint alwaysb (c : cfg) (P : wact -> mfw -> list witem -> bool) (l : list wact) (w : mfw) (t : list witem) : bool :=
  match l with
  | [] => true
  | x :: l => P x w t && match w_act c x w with Ok (w1, t1) => alwaysb c P l w1 (t ++ t1) | _ => true end
  end.
Lemma alwaysb_ok c (P : wact -> mfw -> list witem -> Prop) b : (forall x w t, b x w t = true -> P x w t) -> forall l w, alwaysb c b l w [] = true -> always_at c w l P.
Proof.
  intros H l w E.
  assert (G : forall l w0 t0, alwaysb c b l w0 t0 = true -> forall l1 x l2 w1 t1, l = l1 ++ x :: l2 -> w_run c l1 w0 = Ok (w1, t1) -> P x w1 (t0 ++ t1)).
  { clear - H. induction l as [|y l IH]; intros w0 t0 E l1 x l2 w1 t1 EQ R; [destruct l1; discriminate|]. cbn [alwaysb] in E. apply andb_true_iff in E as [E1 E2].
    destruct l1 as [|z l1]; cbn [app] in EQ; inversion EQ; subst.
    - inversion R; subst. rewrite app_nil_r. apply H, E1.
    - cbn [w_run] in R. destruct (w_act c z w0) as [[w2 t2]| |] eqn:A; try discriminate. cbn [bind] in R. destruct (w_run c l1 w2) as [[w3 t3]| |] eqn:R2; try discriminate. inversion R; subst.
      rewrite app_assoc. eapply IH; eauto. }
  intros l1 x l2 w1 t1 EQ R. exact (G l w [] E l1 x l2 w1 t1 EQ R).
Qed.
Definition undisturbedb (x : wact) (w : mfw) (t : list witem) : bool :=
  match x with WUsart => negb (in_send (w_sub w)) | _ => true end.
Definition listensb (x : wact) (w : mfw) (t : list witem) : bool := match x with WRx _ => match mm_rx (mc_s (w_lib w)) with Some _ => true | None => false end | _ => true end.
Lemma undisturbed_check c l w : alwaysb c undisturbedb l w [] = true -> m_send_undisturbed c w l.
Proof. apply alwaysb_ok. intros x w1 t E ->. cbn in E. destruct (w_sub w1) as [[]|]; auto; discriminate. Qed.
Lemma listens_check c l w : alwaysb c listensb l w [] = true -> no_early_rx c w l.
Proof. apply alwaysb_ok. intros x w1 t E b ->. cbn in E. destruct (mm_rx _); discriminate. Qed.
Definition w0 : mfw := mk_mfw (mk_mconf m0 None) uart_init None.
Lemma w0_started : mfw_started mcfg w0.
Proof. split; [apply m0_started|]. unfold tx_idle. cbn. split; [reflexivity|]. split; [repeat split; lia|]. intros H; destruct (H eq_refl). Qed.
Definition wmains (n : nat) : list wact := repeat WMain n.
Definition w_in (f : list Z) : list wact := flat_map (fun b => [WRx b; WUsart]) f ++ [WRto; WUsart] ++ wmains 16 ++ [WTim; WTimer] ++ wmains 24.
Definition w_out (n : nat) : list wact := concat (repeat [WShift; WUsart] n).
(** request, its 8 bytes leave, the answer arrives *)
Definition exchange (a : api) (n : nat) (f : list Z) : list wact := [WReq a] ++ wmains 14 ++ w_out n ++ wmains 8 ++ w_in f.

(** *** C68: no undefined behaviour, and every firmware history is a history of the library *)
Theorem C68_master_firmware_no_ub_partial : forall c w sched, cfg_master_ok c -> mfw_started c w -> w_reqs_safe sched ->
  m_send_undisturbed c w sched -> no_early_rx c w sched -> w_polite c w sched -> exists w' t, w_run c sched w = Ok (w', t).
Proof. intros c w sched Hc HW HR HU HN HP. apply w_run_total; auto. Qed.
Print Assumptions C68_master_firmware_no_ub_partial.
(** the library's part of what happens is one of the histories the theorems about the library quantify over *)
Theorem C68_library_inside : forall c w sched w' t, mfw_started c w -> w_reqs_safe sched -> w_run c sched w = Ok (w', t) ->
  exists lib_sched, m_history c lib_sched (w_lib w') (m_lib_of t).
Proof. intros. eapply mfw_history; eauto. Qed.
Print Assumptions C68_library_inside.
Definition no_big (l : list wact) : bool := forallb (fun x => match x with WReq a => negb (is_read a) || (api_qty a <=? 126) | _ => true end) l.
Lemma small_polite c w l : no_big l = true -> w_polite c w l.
Proof.
  intros H l1 x l2 w1 t1 E R a Cu Rd L. exfalso.
  destruct (run_piece _ _ _ _ _ R) as (sched & ES & HS).
  assert (Q : In (MEv (MReq a)) sched).
  { assert (X : In a (accepted (m_lib_of t1))) by (unfold current in Cu; eapply nth_error_In; eauto). clear - ES X. revert ES X. generalize (w_lib w), (w_lib w1), (m_lib_of t1). induction sched as [|y sched IH]; intros k k' t E Ha; cbn [m_run] in E; [inversion E; subst; destruct Ha|].
    destruct (m_act c y k) as [[k1 t2]| |] eqn:A; try discriminate. cbn [bind] in E. destruct (m_run c sched k1) as [[k2 t3]| |] eqn:R; try discriminate. cbn [bind] in E. inversion E; subst.
    rewrite accepted_app in Ha. apply in_app_or in Ha as [Ha|Ha]; [left|right; eauto]. destruct y as [|e]; cbn [m_act] in A.
    - destruct (mc_pc k); [|inversion A; subst; destruct Ha]. destruct (m_line c m (mc_s k)) as [[[l' s'] o]| |] eqn:El; try discriminate. cbn [bind] in A. inversion A; subst.
      rewrite (proj1 (line_accepted _ _ _ _ _ _ El)) in Ha. destruct Ha.
    - destruct (m_event c e (mc_s k)) as [[s1 o]| |] eqn:Ee; try discriminate. cbn [bind] in A. inversion A; subst. cbn [accepted] in Ha.
      destruct (ev_out _ _ _ _ _ Ee) as [->|(b & r & -> & ->)]; [destruct Ha|]. cbn [map accepted] in Ha. destruct r; cbn [In] in Ha; try contradiction; destruct Ha as [<-|[]]; auto. }
  specialize (HS a Q). unfold no_big in H. rewrite forallb_forall in H. specialize (H (WReq a) ltac:(rewrite E; apply in_or_app; auto)). cbn in H. rewrite Rd in H. cbn in H. lia.
Qed.
Example C68_case : w_reqs_safe (exchange rh 8 rh_answer) /\ m_send_undisturbed mcfg w0 (exchange rh 8 rh_answer) /\ no_early_rx mcfg w0 (exchange rh 8 rh_answer) /\
  w_polite mcfg w0 (exchange rh 8 rh_answer) /\
  exists w t, w_run mcfg (exchange rh 8 rh_answer) w0 = Ok (w, t) /\ callbacks (m_lib_of t) = [HregRead 9 1 0x1234; HregRead 9 2 0xABCD].
Proof.
  split; [intros a Ha|]. { unfold exchange in Ha. apply in_app_or in Ha as [[Ha|[]]|Ha]; [inversion Ha; apply rh_safe|]. exfalso. revert Ha. vm_compute. intuition discriminate. }
  split; [apply undisturbed_check; vm_compute; reflexivity|]. split; [apply listens_check; vm_compute; reflexivity|]. split; [apply small_polite; vm_compute; reflexivity|].
  do 2 eexists. split; vm_compute; reflexivity.
Qed.
(** A character that arrives before the first request: the receiver time-out's interrupt reaches the handler, which dereferences NULL. *)
Theorem C68_refuted : exists c w sched, cfg_master_ok c /\ master_firmware c = Ok w /\ w_reqs_safe sched /\ m_send_undisturbed c w sched /\ w_polite c w sched /\ w_run c sched w = UB.
Proof.
  exists mcfg, w0, [WRx 0; WRto; WUsart]. split; [apply mcfg_ok|]. split; [reflexivity|]. split; [intros a; cbn; intuition discriminate|].
  split; [apply undisturbed_check; vm_compute; reflexivity|]. split; [apply small_polite; reflexivity|reflexivity].
Qed.
Print Assumptions C68_refuted.
(** The same character without a time-out: the first interrupt of the first transmission does it. *)
Theorem C68_refuted_first_request : exists sched, w_reqs_safe sched /\ m_send_undisturbed mcfg w0 sched /\ In (WReq rh) sched /\ ~ In WRto sched /\ w_run mcfg sched w0 = UB.
Proof.
  exists ([WRx 0; WReq rh] ++ wmains 8 ++ [WShift; WUsart]). split; [intros a; cbn; intros H; decompose [or] H; try discriminate; try contradiction; inversion H1; subst; apply rh_safe|].
  split; [apply undisturbed_check; vm_compute; reflexivity|]. split; [cbn; auto|]. split; [cbn; intuition discriminate|vm_compute; reflexivity].
Qed.
Print Assumptions C68_refuted_first_request.

(** *** C69: the bytes on the line *)
Theorem C69_bytes_on_the_line_partial : forall c w sched w' t, cfg_master_ok c -> mfw_started c w -> w_reqs_safe sched ->
  m_send_undisturbed c w sched -> w_run c sched w = Ok (w', t) ->
  exists missing, m_on_line t ++ missing = concat (m_sent (m_lib_of t)) /\ (tx_complete (m_lib_of t) = true -> missing = []).
Proof. intros c w sched w' t Hc HW HR HU E. eapply wire_out, wire_run; eauto. Qed.
Print Assumptions C69_bytes_on_the_line_partial.
Example C69_case : exists w t, w_run mcfg (exchange rh 8 rh_answer) w0 = Ok (w, t) /\ m_on_line t = [9; 3; 0; 1; 0; 2; 148; 131].
Proof. do 2 eexists. split; vm_compute; reflexivity. Qed.
(** A character received while the main program is between lines 84 and 85 of the driver: the second byte of the request is lost. *)
Theorem C69_refuted : exists c w sched w' t, cfg_master_ok c /\ mfw_started c w /\ w_reqs_safe sched /\ w_run c sched w = Ok (w', t) /\
  tx_complete (m_lib_of t) = true /\ m_sent (m_lib_of t) = [[9; 3; 0; 1; 0; 2; 148; 131]; [9; 3; 0; 1; 0; 2; 148; 131]] /\
  m_on_line t = [9; 3; 0; 1; 0; 2; 148; 131; 9; 0; 1; 0; 2; 148; 131].
Proof.
  exists mcfg, w0, (exchange rh 8 rh_answer ++ [WReq rh] ++ wmains 6 ++ [WRx 0; WUsart] ++ wmains 9 ++ w_out 8). do 2 eexists.
  split; [apply mcfg_ok|]. split; [apply w0_started|]. split.
  - intros a Ha. apply in_app_or in Ha as [Ha|Ha]; [|apply in_app_or in Ha as [[Ha|[]]|Ha]; [inversion Ha; apply rh_safe|exfalso; revert Ha; vm_compute; intuition discriminate]].
    unfold exchange in Ha. apply in_app_or in Ha as [[Ha|[]]|Ha]; [inversion Ha; apply rh_safe|]. exfalso. revert Ha. vm_compute. intuition discriminate.
  - split; [vm_compute; reflexivity|]. vm_compute. auto.
Qed.
Print Assumptions C69_refuted.

(** *** C70: nothing but requests *)
(** What the UART puts on the line is (the beginning of) the frames of the accepted requests, in order of acceptance, each 1 .. 1 + R times. *)
Theorem C70_only_requests_partial : forall c w sched w' t, cfg_master_ok c -> mfw_started c w -> w_reqs_safe sched ->
  m_send_undisturbed c w sched -> w_run c sched w = Ok (w', t) ->
  exists (l : list (api * nat)) rest missing,
    m_on_line t ++ missing = concat (flat_map (fun p => repeat (request_frame (fst p)) (snd p)) l) /\
    accepted (m_lib_of t) = map fst l ++ rest /\
    Forall (fun p => (1 <= snd p)%nat /\ Z.of_nat (snd p) <= 1 + c_repeat c) l.
Proof.
  intros c w sched w' t Hc HW HR HU E. destruct (C68_library_inside _ _ _ _ _ HW HR E) as (ls & H). destruct (C20_in_order _ _ _ _ Hc H) as (l & A & (rest & B) & F).
  destruct (C69_bytes_on_the_line_partial _ _ _ _ _ Hc HW HR HU E) as (r & X & _). exists l, rest, r. rewrite X, A. auto.
Qed.
Print Assumptions C70_only_requests_partial.
