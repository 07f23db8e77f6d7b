(** C100, C101: the slave's initialisation, interrupts and characters at any point. *)
From Verif Require Import Proofs.SlaveInit Props.Frames Props.SlavePdu Props.SlaveRun Props.SlaveSystem.

(** *** C100: initialisation at power-on *)
Lemma static_data c bits regs : cfg_tables_ok c -> Forall word regs -> data_ok c (s_data (slave_static c bits regs)).
Proof. intros Hc Hr. assert (H := firmware_started c bits regs 1 Hc Hr ltac:(unfold byte; lia)). destruct H as ((R & _) & _). apply R. Qed.
(** if the line is silent until it returns, the result is a started firmware, as C62-C67 (and C79) assume, whatever interrupts the NVIC offers and the application does to its variables *)
Theorem C100_silent_line : forall c bits regs id sched, cfg_tables_ok c -> Forall word regs -> byte id -> silent sched = true -> (20 <= mains sched)%nat ->
  exists x t, i_run id sched (power_on c bits regs) = Ok (x, t) /\ i_pc x = None /\ sys_started c (running_fw x) /\ s_id (i_lib x) = id /\ on_line t = [] /\
    (no_app sched = true -> running_fw x = firmware c bits regs id).
Proof.
  intros c bits regs id sched Hc Hr Hi Q M. assert (D := static_data c bits regs Hc Hr).
  destruct (silent_run c id sched (power_on c bits regs) (s_data (slave_static c bits regs)) ltac:(repeat split) D Q) as (d' & t & E & D' & N & O).
  change (with_data (s_data (slave_static c bits regs)) (power_on c bits regs)) with (power_on c bits regs) in E.
  rewrite lines_20 in E by reflexivity. rewrite Nat.min_r in E by lia. eexists. exists t. split; [exact E|]. split; [reflexivity|].
  assert (B := stage_ready c bits regs id 20 d' Hi D' ltac:(lia)). destruct B as (R & _).
  split; [|split; [reflexivity|split; [exact O|]]].
  - split; [|split; [reflexivity|split; reflexivity]]. split; [exact R|]. repeat split.
  - intros A. rewrite (N A). reflexivity.
Qed.
Print Assumptions C100_silent_line.
(** characters from the moment all callbacks are subscribed on do no harm *)
Theorem C100_late_characters_partial : forall c bits regs id sched, cfg_tables_ok c -> Forall word regs -> byte id -> careful id sched (power_on c bits regs) ->
  exists x t, i_run id sched (power_on c bits regs) = Ok (x, t) /\ ((20 <= mains sched)%nat -> i_pc x = None) /\
    (i_pc x = None -> forall later, exists y t', y_run c later (running_fw x) = Ok (y, t')).
Proof.
  intros c bits regs id sched Hc Hr Hi C. assert (D := static_data c bits regs Hc Hr). rewrite (power_on_stage c bits regs id) in *.
  destruct (careful_run c bits regs id sched Hi 0 _ D C) as (x & t & E & N & B). exists x, t. split; [exact E|]. split.
  - intros M. apply num_none. rewrite N. lia.
  - intros P later. destruct (run_ok c later Hc (running_fw x) (running_ok c x (B P))) as (y & t' & E' & _). eauto.
Qed.
Print Assumptions C100_late_characters_partial.
(** but a single character that arrives between the UART's enabling and the first subscription ends in a call of a NULL pointer, in every configuration *)
Theorem C100_refuted_one_character : forall c bits regs id v,
  i_run id (repeat AMain 6 ++ [HRx v] ++ repeat AMain 4 ++ [AUsart]) (power_on c bits regs) = UB /\ (* it arrives before reception is enabled *)
  i_run id (repeat AMain 10 ++ [HRx v; AUsart]) (power_on c bits regs) = UB. (* or just after *)
Proof. intros. split; reflexivity. Qed.
Print Assumptions C100_refuted_one_character.
(** and if the pause after it is detected before reception is enabled, the handler stores the character through a NULL pointer *)
Theorem C100_refuted_pause : forall c bits regs id v, i_run id (repeat AMain 7 ++ [HRx v; HRto; AUsart]) (power_on c bits regs) = UB.
Proof. intros. reflexivity. Qed.
Print Assumptions C100_refuted_pause.
Example C100_case : exists x t, i_run 9 (repeat AMain 14 ++ [HRx 7; AUsart; HRto; AUsart] ++ repeat AMain 6) (power_on sample_cfg [true; false; true] [1; 2; 3]) = Ok (x, t) /\ i_pc x = None /\ lib_of t <> [] /\
  careful 9 (repeat AMain 14 ++ [HRx 7; AUsart; HRto; AUsart] ++ repeat AMain 6) (power_on sample_cfg [true; false; true] [1; 2; 3]).
Proof.
  do 2 eexists. split; [vm_compute; reflexivity|]. split; [reflexivity|]. split; [discriminate|].
  cbn [repeat app careful]. repeat (split; [intros; first [discriminate|reflexivity]|intros x1 t1 E1; vm_compute in E1; injection E1 as <- <-]). exact I.
Qed.

(** *** C101: initialisation of a running slave *)
(** no undefined behaviour, during the call and after it, from every history and with every schedule *)
Theorem C101_no_ub : forall c y0 sched0 y t0 id sched, cfg_tables_ok c -> sys_started c y0 -> y_run c sched0 y0 = Ok (y, t0) -> outside y -> byte id ->
  exists x t, i_run id sched (call_again y) = Ok (x, t) /\ ((20 <= mains sched)%nat -> i_pc x = None) /\
    (i_pc x = None -> forall later, exists y' t', y_run c later (running_fw x) = Ok (y', t')).
Proof.
  intros c y0 sched0 y t0 id sched Hc H0 E0 O Hi. destruct (run_ok c sched0 Hc y0 (started_ok c y0 H0)) as (y1 & t1 & E1 & (R & U & _)). rewrite E0 in E1. injection E1 as <- <-.
  destruct (run_b c id sched Hi (call_again y)) as (x & t & E & B & N). { split; [exact R|]. split; [exact U|reflexivity]. }
  exists x, t. split; [exact E|]. split. { intros M. apply num_none. rewrite N. lia. }
  intros P later. destruct (run_ok c later Hc (running_fw x) (running_ok c x B)) as (y' & t' & E' & _). eauto.
Qed.
Print Assumptions C101_no_ub.
(** a slave at rest goes on with the new ID and the same data *)
Theorem C101_at_rest : forall c y id sched, cfg_tables_ok c -> sys_rests c y -> outside y -> u_cen (y_u y) = false -> byte id -> silent sched = true -> no_app sched = true -> (20 <= mains sched)%nat ->
  exists x t, i_run id sched (call_again y) = Ok (x, t) /\ i_pc x = None /\ sys_rests c (running_fw x) /\ s_id (i_lib x) = id /\ s_data (i_lib x) = s_data (sc_s (y_lib y)) /\ on_line t = [].
Proof.
  intros c y id sched Hc (K & P & Su & U1 & U2 & U3 & U4 & U5 & U6 & U7 & U8 & U9) O Ce Hi Q A M.
  assert (Dk : data_ok c (s_data (sc_s (y_lib y)))) by apply K.
  destruct (silent_run c id sched (call_again y) (s_data (sc_s (y_lib y))) ltac:(repeat split; auto) Dk Q) as (d' & t & E & D' & N & On). rewrite (N A) in E.
  replace (with_data (s_data (sc_s (y_lib y))) (call_again y)) with (call_again y) in E by (unfold with_data, call_again; cbn [i_lib i_u i_ue i_nu i_nt i_subs i_pc]; destruct (sc_s (y_lib y)); reflexivity).
  rewrite lines_20 in E by reflexivity. rewrite Nat.min_r in E by lia.
  exists (with_data (s_data (sc_s (y_lib y))) (lines 20 id (call_again y))), t. split; [exact E|]. split; [reflexivity|].
  split; [|split; [reflexivity|split; [reflexivity|exact On]]].
  destruct K as (R & _ & _ & _ & _ & _ & L). destruct R as (H1 & H2 & H3 & H4 & H5 & [(Pq & Lq & Bq & Leq) (Pr & Lr & Br & Ler)] & H8).
  unfold sys_rests. cbn [running_fw y_lib y_u y_sub sc_s sc_pc with_data i_lib i_u lines call_again i_line i_set i_pc i_subs i_ue i_nu i_nt].
  split; [|cbn; auto 20].
  split; [|cbn; auto 20].
  split; [reflexivity|]. split; [reflexivity|]. split; [reflexivity|]. split; [reflexivity|]. split; [exact Hi|]. split; [|exact H8].
  split; [split; [reflexivity|split; [exact Lq|split; [exact Bq|exact Leq]]]|split; [reflexivity|split; [exact Lr|split; [exact Br|exact Ler]]]].
Qed.
Print Assumptions C101_at_rest.
Theorem C101_then_traffic : forall c y id sched later out d', cfg_tables_ok c -> sys_rests c y -> outside y -> u_cen (y_u y) = false -> byte id -> silent sched = true -> no_app sched = true -> (20 <= mains sched)%nat ->
  wire_traffic c id (s_data (sc_s (y_lib y))) later out d' ->
  exists x t y' t', i_run id sched (call_again y) = Ok (x, t) /\ y_run c later (running_fw x) = Ok (y', t') /\ on_line t' = out /\ s_data (sc_s (y_lib y')) = d' /\ sys_rests c y'.
Proof.
  intros c y id sched later out d' Hc K O Ce Hi Q A M T. destruct (C101_at_rest c y id sched Hc K O Ce Hi Q A M) as (x & t & E & _ & K' & I & D & _).
  destruct (C64_traffic_on_the_line c id _ later out d' (running_fw x) Hc T K' I D) as (y' & t' & E' & R). exists x, t, y', t'. auto.
Qed.
Print Assumptions C101_then_traffic.
(** but bytes already received stay: a request that follows is not answered, although the line was silent during the call and the slave polled *)
Theorem C101_refuted_leftover : exists y t0 x t y' t', y_run sample_cfg [HRx 1; AUsart] y0 = Ok (y, t0) /\ outside y /\
  i_run 9 (repeat AMain 20) (call_again y) = Ok (x, t) /\ i_pc x = None /\
  y_run sample_cfg (line_in sample_frame ++ repeat AMain 40) (running_fw x) = Ok (y', t') /\ on_line t' = [] /\ sent (lib_of t') = [].
Proof.
  do 6 eexists. split; [vm_compute; reflexivity|]. split; [split; reflexivity|]. split; [vm_compute; reflexivity|]. split; [reflexivity|]. split; [vm_compute; reflexivity|]. split; reflexivity.
Qed.
Print Assumptions C101_refuted_leftover.
Example C101_case : sys_rests sample_cfg y0 /\ outside y0 /\ u_cen (y_u y0) = false /\ silent (AUsart :: ATimer :: HTim :: repeat AMain 20) = true /\ s_id (sc_s (y_lib y0)) <> 17.
Proof. split; [apply started_rests, y0_started|]. split; [split; reflexivity|]. split; [reflexivity|]. split; [reflexivity|]. discriminate. Qed.
