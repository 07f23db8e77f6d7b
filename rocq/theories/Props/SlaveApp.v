(** C79, C80: the example slave application (registration of variables, main loop, LED) on top of the slave firmware. *)
From Verif Require Import Props.Frames Props.SlavePdu Props.SlaveRun Props.SlaveSystem Proofs.SlaveAsked Proofs.SlaveApp.

(** * C79 *)
(** no undefined behaviour under any schedule, interrupts during the registration included *)
Theorem C79_application_no_ub : forall c sched, example_cfg_ok c -> exists b t, slave_app_history c sched b t.
Proof. intros c sched Hc. destruct (binv_run c sched Hc) as (b & t & R & _). eauto. Qed.
Print Assumptions C79_application_no_ub.
(** after 82 lines of the main program the registration is over *)
Theorem C79_soon_running : forall c sched b t, example_cfg_ok c -> slave_app_history c sched b t -> (82 <= b_mains sched)%nat -> running b = true.
Proof.
  intros c sched b t Hc H M.
  assert (G : forall l b t, b_run c l (slave_app c) = Ok (b, t) -> match b_pc b with B50 todo => (length todo + b_mains l = 81)%nat | _ => True end).
  { clear. induction l as [|x l IH] using rev_ind; intros b t R; [inversion R; reflexivity|]. apply b_run_snoc in R as (b1 & t1 & t2 & R & A & ->). specialize (IH _ _ R). rewrite b_mains_app.
    destruct x as [|y]; cbn [b_act] in A.
    - destruct (b_pc b1) as [[|[[tb adr] p] todo]| |].
      + inversion A; subst. cbn. auto.
      + bnd A. inversion A; subst. cbn [b_pc]. cbn in *. lia.
      + bnd A. inversion A; subst. cbn. destruct (s_between_polls s); exact I.
      + bnd A. inversion A; subst. exact I.
    - assert (P : b_pc b = b_pc b1) by (destruct y; try bnd A; inversion A; reflexivity). rewrite P. destruct (b_pc b1); auto. cbn. lia. }
  specialize (G _ _ _ H). unfold running. destruct (b_pc b); auto. lia.
Qed.
Print Assumptions C79_soon_running.
(** every history of the running application is a history of the firmware started with the intended memory map: all theorems about the slave firmware apply *)
Theorem C79_application_is_firmware : forall c sched b t, example_cfg_ok c -> slave_app_history c sched b t -> running b = true ->
  sys_started c (example_firmware c) /\ y_run c (b_sched c sched (slave_app c)) (example_firmware c) = Ok (b_fw b, t).
Proof.
  intros c sched b t Hc H Hr. split; [apply example_started; auto|]. destruct (binv_run c sched Hc) as (b1 & t1 & R & I). unfold slave_app_history in H. rewrite H in R. inversion R; subst.
  unfold binv, running in *. destruct (b_pc b1); try discriminate; exact I.
Qed.
Print Assumptions C79_application_is_firmware.
(** The variables' values when the slave starts to serve. *)
Theorem C79_power_on : forall c, v_bits (s_data (sc_s (y_lib (example_firmware c)))) = map coil_value (seq 0 20) ++ map din_value (seq 0 20) ++ [false] /\
  v_regs (s_data (sc_s (y_lib (example_firmware c)))) = map hreg_value (seq 0 20) ++ map inreg_value (seq 0 20).
Proof. intros c. split; reflexivity. Qed.
Print Assumptions C79_power_on.
(** no two addresses share a variable *)
Theorem C79_no_aliases :
  (forall a a' p, example_coil a = Some p -> example_coil a' = Some p -> a = a') /\ (forall a a' p, example_coil a = Some p -> example_other 20 a' = Some p -> False) /\
  (forall base a a' p, example_other base a = Some p -> example_other base a' = Some p -> a = a') /\ (forall a a' p, example_other 0 a = Some p -> example_other 20 a' = Some p -> False).
Proof.
  unfold example_coil, example_other.
  repeat split; intros *; repeat match goal with |- context [if ?x then _ else _] => let E := fresh "E" in destruct x eqn:E end; try apply Nat.ltb_lt in E; try apply Nat.ltb_lt in E0; try apply Nat.eqb_eq in E0; try apply Nat.eqb_eq in E1; try apply Nat.ltb_lt in E1; try apply Nat.eqb_eq in E2; intros X Y; inversion X; inversion Y; try lia.
Qed.
Print Assumptions C79_no_aliases.
(** traffic on the line: as for the firmware (C64), whatever the main loop does in between *)
Theorem C79_traffic : forall c sched b t l out d', example_cfg_ok c -> slave_app_history c sched b t -> running b = true -> sys_rests c (b_fw b) ->
  wire_traffic c 1 (b_data b) (b_sched c l b) out d' ->
  exists b' t', b_run c l b = Ok (b', t') /\ on_line t' = out /\ b_data b' = d' /\ running b' = true /\ sys_rests c (b_fw b').
Proof.
  intros c sched b t l out d' Hc H Hr Rs W. assert (Ht := tables_ok c Hc).
  destruct (binv_run c (sched ++ l) Hc) as (b' & t' & R & _). apply b_run_split in R as (b1 & t1 & t2 & R1 & R2 & _). unfold slave_app_history in H. rewrite H in R1. inversion R1; subst b1 t1.
  destruct (b_run_running _ _ _ _ _ Hr R2) as [Hr' Y].
  assert (Id : s_id (sc_s (y_lib (b_fw b))) = 1).
  { destruct (C79_application_is_firmware c sched b t Hc H Hr) as [St Yf]. destruct (run_piece _ _ _ _ _ Yf) as (ls & L). destruct (run_ready c ls Ht _ (proj1 (example_ok c Hc))) as (k' & o' & L' & _ & X). rewrite L in L'. inversion L'; subst. rewrite X. reflexivity. }
  destruct (C64_traffic_on_the_line c 1 (b_data b) _ out d' (b_fw b) Ht W Rs Id eq_refl) as (y' & t'' & E & O & D & Rs'). rewrite Y in E. inversion E; subst. exists b', t''. auto.
Qed.
Print Assumptions C79_traffic.

(** * C80: the LED *)
(** at every moment the LED shows what LED_status (coil 21) was at most 16 lines of the main program ago *)
Theorem C80_LED_is_recent : forall c sched b t, example_cfg_ok c -> slave_app_history c sched b t -> running b = true ->
  exists l1 l2 b1 t1, sched = l1 ++ l2 /\ slave_app_history c l1 b1 t1 /\ b_led b = LED_status (b_data b1) /\ (b_mains l2 <= 16)%nat.
Proof.
  intros c sched b t Hc H Hr. destruct (recent_run c sched Hc) as (b' & t' & R & (l1 & l2 & b1 & t1 & E & R1 & L & M) & _). unfold slave_app_history in *. rewrite H in R. inversion R; subst.
  exists l1, l2, b1, t1. assert (P := b_pot_pos _ Hr). repeat split; auto. lia.
Qed.
Print Assumptions C80_LED_is_recent.
Theorem C80_LED_follows : forall c sched b t l b' t' v, example_cfg_ok c -> slave_app_history c sched b t -> running b = true -> b_run c l b = Ok (b', t') ->
  (forall l1 l2 b1 t1, l = l1 ++ l2 -> b_run c l1 b = Ok (b1, t1) -> LED_status (b_data b1) = v) -> (17 <= b_mains l)%nat -> b_led b' = v.
Proof.
  intros c sched b t l b' t' v Hc H Hr R Hv M. destruct (b_run_running _ _ _ _ _ Hr R) as [Hr' _]. unfold slave_app_history in H.
  assert (H' : slave_app_history c (sched ++ l) b' (t ++ t')) by (apply b_run_split; eauto 6).
  destruct (C80_LED_is_recent _ _ _ _ Hc H' Hr') as (l1 & l2 & b1 & t1 & E & H1 & -> & M2). unfold slave_app_history in H1.
  assert (X : exists l3, l1 = sched ++ l3 /\ l = l3 ++ l2).
  { clear - E M M2. revert l1 E. induction sched as [|x sched IH]; intros l1 E; cbn in E; [exists l1; auto|]. destruct l1 as [|y l1]; cbn in E.
    - exfalso. subst l2. change (x :: sched ++ l) with ([x] ++ sched ++ l) in M2. rewrite !b_mains_app in M2. lia.
    - inversion E; subst. destruct (IH _ H1) as (l3 & -> & ->). exists l3. auto. }
  destruct X as (l3 & -> & ->). apply b_run_split in H1 as (b2 & t2 & t3 & R2 & R3 & ->). rewrite H in R2. inversion R2; subst. eapply Hv; eauto.
Qed.
Print Assumptions C80_LED_follows.

(** a write request for coil 21 that arrives at the resting application: it is echoed, the LED is switched, nothing else changes; in between the main loop,
    update_LED included, goes on *)
Theorem C80_switch : forall c sched b t v l lf la n, example_cfg_ok c -> slave_app_history c sched b t -> running b = true -> sys_rests c (b_fw b) ->
  b_sched c l b = lf ++ la -> wire_frame (switch_LED v) lf -> wire_answer 8 la -> (17 <= n)%nat ->
  exists b' t', b_run c (l ++ repeat BaMain n) b = Ok (b', t') /\ on_line t' = switch_LED v /\ b_led b' = v /\ b_data b' = with_LED (b_data b) v /\ sys_rests c (b_fw b').
Proof.
  intros c sched b t v l lf la n Hc H Hr Rs Sp Wf Wa Hn. assert (Sm := history_map c sched b t Hc H Hr). assert (Sv := switch_server c (b_data b) v Hc Sm).
  assert (Step : forall m, exists b' t', b_run c (l ++ repeat BaMain m) b = Ok (b', t') /\ on_line t' = switch_LED v /\ b_data b' = with_LED (b_data b) v /\ running b' = true /\ sys_rests c (b_fw b')).
  { intros m. assert (T : exists b1 t1, b_run c l b = Ok (b1, t1)).
    { destruct (binv_run c (sched ++ l) Hc) as (b1 & t1 & R & _). apply b_run_split in R as (b2 & t2 & t3 & R1 & R2 & _). unfold slave_app_history in H. rewrite H in R1. inversion R1; subst. eauto. }
    destruct T as (b1 & t1 & R1). destruct (b_sched_mains c m b1) as (k & K).
    assert (W : wire_traffic c 1 (b_data b) (b_sched c (l ++ repeat BaMain m) b) (switch_LED v) (with_LED (b_data b) v)).
    { rewrite (b_sched_app _ _ _ _ _ _ R1), K, Sp, <- app_assoc. rewrite <- (app_nil_r (la ++ _)). assert (X : switch_LED v = rtu_frame 1 (fst (server c (b_data b) (switch_LED v))) ++ []) by (rewrite Sv, app_nil_r; reflexivity).
      rewrite X at 1. apply wire_answered; auto.
      - apply rtu_frame_bytes; [unfold byte; lia|]. destruct v; repeat (constructor; [unfold byte; lia|]); constructor.
      - unfold switch_LED. rewrite rtu_frame_len. cbn. lia.
      - apply rtu_frame_intact.
      - split; [unfold switch_LED; rewrite rtu_frame_len; cbn; lia|]. intros Q. exfalso. assert (E : byte_at (switch_LED v) 1 = 5) by reflexivity. rewrite E in Q. lia.
      - rewrite Sv. unfold fst. rewrite rtu_frame_len. cbn [length Nat.add]. apply wire_answer_more; auto.
      - rewrite Sv. constructor. }
    destruct (C79_traffic c sched b t _ _ _ Hc H Hr Rs W) as (b' & t' & R & O & D & Rn & Rs'). exists b', t'. auto. }
  destruct (Step n) as (b' & t' & R & O & D & Rn & Rs'). exists b', t'. split; auto. split; auto. split; auto.
  assert (R0 := R). apply b_run_split in R0 as (b1 & t1 & t2 & R1 & R2 & Et). assert (H1 : slave_app_history c (sched ++ l) b1 (t ++ t1)) by (apply b_run_split; eauto 6).
  destruct (b_run_running _ _ _ _ _ Hr R1) as [Hr1 _]. eapply C80_LED_follows; [exact Hc|exact H1|exact Hr1|exact R2| |rewrite b_mains_repeat; exact Hn].
  intros q1 q2 b2 t3 Q Rq. assert (Q1 : exists m, q1 = repeat BaMain m) by (exists (length q1); apply Forall_eq_repeat; apply Forall_forall; intros x Hx; assert (In x (repeat BaMain n)) by (rewrite Q; apply in_or_app; auto); symmetry; eapply repeat_spec; eauto).
  destruct Q1 as (m & ->). destruct (Step m) as (b3 & t4 & R3 & _ & D3 & _). apply b_run_split in R3 as (b4 & t5 & t6 & R4 & R5 & _). rewrite R1 in R4. inversion R4; subst b4 t5. rewrite Rq in R5. inversion R5; subst. rewrite D3.
  apply LED_with. destruct Sm as (_ & _ & _ & _ & L & _). rewrite L. cbn. lia.
Qed.
Print Assumptions C80_switch.

(** * concrete cases *)
Definition bcfg : cfg := mk_cfg 5 1000 3 100 100 100 100.
Lemma bcfg_ok : example_cfg_ok bcfg.
Proof. unfold example_cfg_ok. cbn. lia. Qed.
(** power-on: 81 registrations, the main loop is entered *)
Definition b_up : list bact := repeat BaMain 82.
Lemma b_up_run c : example_cfg_ok c -> exists b, slave_app_history c b_up b [] /\ running b = true /\ b_fw b = example_firmware c.
Proof.
  intros Hc. destruct (C79_application_no_ub c b_up Hc) as (b & t & H). assert (Hr := C79_soon_running c b_up b t Hc H ltac:(vm_compute; lia)).
  destruct (C79_application_is_firmware c b_up b t Hc H Hr) as [_ Y].
  assert (Sc : forall l done b t, b_pc b = B50 l -> b_run c (repeat BaMain (S (length l))) b = Ok (done, t) -> b_sched c (repeat BaMain (S (length l))) b = []).
  { clear. intros l. induction l as [|[[tb adr] p] l IH]; intros done b t P R.
    - cbn [length repeat b_sched]. rewrite P. cbn [app]. destruct (b_act c BaMain b) as [[? ?]| |]; reflexivity.
    - cbn [length repeat b_sched b_run] in *. rewrite P. cbn [app]. bnd R. bnd R. assert (Q : b_pc s = B50 l) by (cbn [b_act] in Y; rewrite P in Y; bnd Y; inversion Y; reflexivity). eapply IH; eauto. }
  change b_up with (repeat BaMain (S (length registrations))) in Y, H. rewrite (Sc registrations b (slave_app c) t eq_refl H) in Y. cbn [y_run] in Y. inversion Y; subst. exists b. change b_up with (repeat BaMain (S (length registrations))). auto.
Qed.
Definition b_line_in (f : list Z) : list bact := flat_map (fun x => [BaHw (HRx x); BaMain; BaHw AUsart; BaMain; BaMain]) f ++ [BaHw HRto; BaHw AUsart; BaHw HTim; BaHw ATimer].
Definition b_answer_out (n : nat) : list bact := repeat BaMain 24 ++ concat (repeat [BaHw HShift; BaHw AUsart] n) ++ repeat BaMain 12.
(** C79: noise during the registration, later a request for holding registers 0 and 1 *)
Example C79_case : exists b t, slave_app_history bcfg (repeat BaMain 40 ++ [BaHw (HRx 7); BaHw AUsart] ++ repeat BaMain 60 ++ [BaHw HRto; BaHw AUsart; BaHw HTim; BaHw ATimer] ++ repeat BaMain 30
    ++ b_line_in (rtu_frame 1 [3; 0; 0; 0; 2]) ++ b_answer_out 9) b t /\ running b = true /\ on_line t = rtu_frame 1 [3; 4; 7; 209; 7; 210].
Proof. do 2 eexists. split; [vm_compute; reflexivity|]. vm_compute. auto. Qed.
(** C80: the LED is switched on *)
Example C80_case : exists b lf la, slave_app_history bcfg b_up b [] /\ running b = true /\ sys_rests bcfg (b_fw b) /\ b_led b = false /\
  b_sched bcfg (b_line_in (switch_LED true) ++ b_answer_out 8) b = lf ++ la /\ wire_frame (switch_LED true) lf /\ wire_answer 8 la.
Proof.
  destruct (b_up_run bcfg bcfg_ok) as (b & H & Hr & F). set (b0 := match b_run bcfg b_up (slave_app bcfg) with Ok (b, _) => b | _ => slave_app bcfg end).
  assert (Eb : b = b0) by (unfold b0; unfold slave_app_history in H; rewrite H; reflexivity).
  set (b1 := match b_run bcfg (b_line_in (switch_LED true)) b0 with Ok (b, _) => b | _ => slave_app bcfg end).
  set (lf := b_sched bcfg (b_line_in (switch_LED true)) b0). set (la := b_sched bcfg (b_answer_out 8) b1).
  exists b, lf, la. split; auto. split; auto. split; [rewrite F; apply started_rests, example_started, bcfg_ok|]. rewrite Eb. split; [vm_compute; reflexivity|]. split; [vm_compute; reflexivity|]. split.
  - exists (firstn (length lf - 3) lf), [], [HTim]. split; [vm_compute; reflexivity|]. split; [vm_compute; reflexivity|]. split; [reflexivity|]. split; [cbn; intuition discriminate|]. reflexivity.
  - set (k := (length la - 25)%nat). exists (firstn k la), (firstn 16 (skipn k la)), 9%nat. split; [vm_compute; reflexivity|]. split; [vm_compute; reflexivity|]. split; [vm_compute; reflexivity|]. split; [vm_compute; lia|]. split; [vm_compute; lia|]. split; [|lia].
    assert (X : firstn 16 (skipn k la) = Verif.Props.SlaveSystem.line_out 8) by (vm_compute; reflexivity). rewrite X. apply Verif.Props.SlaveSystem.rounds_plain.
Qed.
