(** C62-C66: the slave firmware = library + STM32 example driver + UART and timer, under every schedule of main program
    lines, interrupts and hardware events; what is seen on the line. *)
From Verif Require Import Props.Frames Props.SlavePdu Props.SlaveRun Proofs.SlaveAsked.

Definition firmware (c : cfg) (bits : list bool) (regs : list Z) (id : Z) : sys :=
  mk_sys (mk_sconf (modbus_slave_init RTU id (slave_static c bits regs)) None) uart_init None.
Theorem firmware_started : forall c bits regs id, cfg_tables_ok c -> Forall word regs -> byte id -> sys_started c (firmware c bits regs id).
Proof. intros. split; [apply slave_init_is_fresh; auto|]. cbn. auto. Qed.
Print Assumptions firmware_started.
Lemma started_rests c y : sys_started c y -> sys_rests c y.
Proof. intros (F & P & U & Su). unfold sys_rests. rewrite U. split; [apply fresh_idle; auto|]. cbn. repeat split; auto; lia. Qed.

(** concrete firmware and line activity for the examples *)
Definition y0 : sys := mk_sys (mk_sconf sample_slave None) uart_init None.
Lemma y0_started : sys_started sample_cfg y0.
Proof. split; [apply sample_fresh|]. cbn. auto. Qed.
Definition line_in (f : list Z) : list yact := flat_map (fun b => [HRx b; AUsart]) f ++ [HRto; AUsart; HTim; ATimer].
Definition line_out (n : nat) : list yact := concat (repeat [HShift; AUsart] n).

(** *** C62: no undefined behaviour, and every firmware history is a history of the library *)
Theorem C62_firmware_no_ub : forall c bits regs id sched, cfg_tables_ok c -> Forall word regs -> byte id ->
  exists y t, y_run c sched (firmware c bits regs id) = Ok (y, t).
Proof.
  intros c bits regs id sched Hc Hr Hi. destruct (run_ok c sched Hc (firmware c bits regs id)) as (y & t & E & _).
  - apply started_ok, firmware_started; auto.
  - eauto.
Qed.
Print Assumptions C62_firmware_no_ub.
(** the library's part of what happens is one of the histories the theorems about the library (C38-C60) quantify over *)
Theorem C62_library_inside : forall c sched y y' t, y_run c sched y = Ok (y', t) ->
  exists lib_sched, s_run c lib_sched (y_lib y) = Ok (y_lib y', lib_of t).
Proof. intros c sched y y' t E. exact (run_piece c sched y y' t E). Qed.
Print Assumptions C62_library_inside.
Example C62_case : exists y t, y_run sample_cfg (line_in sample_frame ++ repeat AMain 20 ++ line_out 9) y0 = Ok (y, t) /\
  length (sent (lib_of t)) = 1%nat /\ In (TEv STxDone) (lib_of t).
Proof. do 2 eexists. split; [vm_compute; reflexivity|]. split; [reflexivity|]. cbn. auto 60. Qed.

(** *** C63: the bytes on the line *)
(** as long as the UART's interrupt does not hit the main program inside the driver's send function before the first byte is written *)
Theorem C63_bytes_on_the_line_partial : forall c y sched y' t, cfg_tables_ok c -> sys_started c y ->
  y_run c sched y = Ok (y', t) -> send_undisturbed c sched y ->
  exists missing, on_line t ++ missing = concat (sent (lib_of t)) /\ (transmitting (lib_of t) = false -> missing = []).
Proof.
  intros c y sched y' t Hc S0 E U. assert (W := winv_run c sched Hc y y' [] t (winv_start c y S0) U E). cbn [app] in W. eapply wire_out. apply W.
Qed.
Print Assumptions C63_bytes_on_the_line_partial.
(** nothing missing once the transmission is complete; while it is going on a frame may be on its way (none but the last one) *)
Example C63_case : exists y t, y_run sample_cfg (line_in sample_frame ++ repeat AMain 20 ++ line_out 4) y0 = Ok (y, t) /\
  send_undisturbed sample_cfg (line_in sample_frame ++ repeat AMain 20 ++ line_out 4) y0 /\
  on_line t = [9; 3; 4; 18] /\ concat (sent (lib_of t)) = [9; 3; 4; 18; 52; 171; 205; 137; 224].
Proof.
  do 2 eexists. split; [vm_compute; reflexivity|]. split; [|split; vm_compute; reflexivity].
  repeat (split; [vm_compute; discriminate || (intros; exact Logic.I)|]; intros ? ? E; vm_compute in E; inversion E; subst; clear E); exact Logic.I.
Qed.
(** Without the proviso it is false: a byte is received while the main program is between lines 86 and 87 of the driver; the handler finds the transmit
    register empty and fetches the second byte of the response, which is then overwritten by the first. *)
Theorem C63_refuted : exists c y sched y' t, cfg_tables_ok c /\ sys_started c y /\ y_run c sched y = Ok (y', t) /\
  transmitting (lib_of t) = false /\ sent (lib_of t) = [[9; 3; 4; 18; 52; 171; 205; 137; 224]] /\ on_line t = [9; 4; 18; 52; 171; 205; 137; 224].
Proof.
  exists sample_cfg, y0, (line_in sample_frame ++ repeat AMain 15 ++ [HRx 1; AUsart] ++ repeat AMain 5 ++ line_out 9 ++ repeat AMain 8).
  do 2 eexists. split; [apply sample_cfg_ok|]. split; [apply y0_started|]. split; [vm_compute; reflexivity|]. vm_compute. auto.
Qed.
Print Assumptions C63_refuted.

(** *** C64: traffic on the line *)
Theorem C64_traffic_on_the_line : forall c id d sched out d' y, cfg_tables_ok c -> wire_traffic c id d sched out d' ->
  sys_rests c y -> s_id (sc_s (y_lib y)) = id -> s_data (sc_s (y_lib y)) = d ->
  exists y' t, y_run c sched y = Ok (y', t) /\ on_line t = out /\ s_data (sc_s (y_lib y')) = d' /\ sys_rests c y'.
Proof.
  intros c id d sched out d' y Hc H K I D. destruct (wire_traffic_run c sched out d' id Hc d H y K I D) as (y' & t & E & O & K' & D' & _). exists y', t. auto.
Qed.
Print Assumptions C64_traffic_on_the_line.
Theorem C64_from_power_on : forall c bits regs id sched out d', cfg_tables_ok c -> Forall word regs -> byte id ->
  wire_traffic c id (s_data (slave_static c bits regs)) sched out d' ->
  exists y' t, y_run c sched (firmware c bits regs id) = Ok (y', t) /\ on_line t = out /\ s_data (sc_s (y_lib y')) = d'.
Proof.
  intros c bits regs id sched out d' Hc Hr Hi H.
  destruct (C64_traffic_on_the_line c id _ sched out d' (firmware c bits regs id) Hc H) as (y' & t & E & O & D & _); eauto.
  apply started_rests, firmware_started; auto.
Qed.
Print Assumptions C64_from_power_on.
(** a write, a frame for another slave, and a read that sees what was written *)
Lemma wire_frame_plain f : wire_frame f (line_in f).
Proof.
  exists (flat_map (fun b => [HRx b; AUsart]) f ++ [HRto]), [], [HTim]. split; [unfold line_in; now rewrite <- app_assoc|]. split.
  - unfold no_main. rewrite filter_app. f_equal. induction f as [|b f IH]; cbn; auto. now rewrite IH.
  - split; auto. split; [cbn; intuition discriminate|]. reflexivity.
Qed.
Lemma rounds_plain n : rounds n (line_out n).
Proof. induction n as [|n IH]; [constructor|]. unfold line_out. cbn [repeat concat app]. exact (rounds_S n [] [] _ IH). Qed.
Definition answer_out (n : nat) : list yact := repeat AMain 20 ++ line_out n ++ repeat AMain 8.
Lemma wire_answer_plain n : (0 < n)%nat -> wire_answer n (answer_out n).
Proof.
  intros H. exists (repeat AMain 20), (line_out n), 8%nat. split; auto. split; auto. split; [|split; [cbn; lia|]; split; [cbn; lia|]; split; [apply rounds_plain|lia]].
  unfold line_out. induction n as [|n IH]; auto. destruct n as [|n]; auto. cbn [repeat concat app forallb tx_only andb]. apply IH. lia.
Qed.
Definition wr_frame : list Z := rtu_frame 9 [6; 0; 1; 0; 77].
Definition d1 : sdata := snd (server sample_cfg sample_data wr_frame).
Example C64_case : exists d', wire_traffic sample_cfg 9 sample_data
    ((line_in wr_frame ++ answer_out 8) ++ (line_in [8; 3; 7] ++ repeat AMain 16) ++ (line_in sample_frame ++ answer_out 9))
    ([9; 6; 0; 1; 0; 77; 25; 119] ++ [9; 3; 4; 0; 77; 171; 205; 93; 65]) d'.
Proof.
  assert (A1 : rtu_frame 9 (fst (server sample_cfg sample_data wr_frame)) = [9; 6; 0; 1; 0; 77; 25; 119]) by (vm_compute; reflexivity).
  assert (A2 : rtu_frame 9 (fst (server sample_cfg d1 sample_frame)) = [9; 3; 4; 0; 77; 171; 205; 93; 65]) by (vm_compute; reflexivity).
  eexists. rewrite <- (app_assoc (line_in wr_frame)), <- A1. apply wire_answered.
  - apply wire_frame_plain.
  - apply bytes_dec; vm_compute; reflexivity.
  - vm_compute; lia.
  - split; [exists (9 :: [6; 0; 1; 0; 77]); reflexivity|reflexivity].
  - split; [vm_compute; lia|]. intros H. exfalso. assert (E : byte_at wr_frame 1 = 6) by (vm_compute; reflexivity). rewrite E in H. lia.
  - rewrite A1. apply wire_answer_plain. cbn. lia.
  - rewrite <- (app_assoc (line_in [8; 3; 7])). eapply wire_dropped.
    + apply wire_frame_plain.
    + split; [reflexivity|vm_compute; lia].
    + discriminate.
    + apply bytes_dec; vm_compute; reflexivity.
    + intros [_ E]. vm_compute in E. discriminate.
    + rewrite <- (app_nil_r [9; 3; 4; 0; 77; 171; 205; 93; 65]), <- (app_nil_r (line_in sample_frame ++ _)), <- app_assoc, <- A2. apply wire_answered.
      * apply wire_frame_plain.
      * apply sample_frame_ok.
      * apply sample_frame_ok.
      * apply sample_frame_ok.
      * apply sample_frame_ok.
      * rewrite A2. apply wire_answer_plain. cbn. lia.
      * constructor.
Qed.
(** It matters that the receiver time-out handler is not entered again once the main program has gone on: the time-out flag is cleared only by the
    timer's handler.  If it is, the time-out is seen twice and the next, perfect request is not answered. *)
Theorem C64_repeated_timeout_refuted : exists c y sched y1 t1 y2 t2, cfg_tables_ok c /\ sys_started c y /\
  y_run c sched y = Ok (y1, t1) /\ on_line t1 = [9; 3; 4; 18; 52; 171; 205; 137; 224] /\ sc_pc (y_lib y1) = None /\ y_sub y1 = None /\
  y_run c (line_in sample_frame ++ repeat AMain 40) y1 = Ok (y2, t2) /\ on_line t2 = [] /\ sent (lib_of t2) = [].
Proof.
  exists sample_cfg, y0, (flat_map (fun b => [HRx b; AUsart]) sample_frame ++ [HRto; AUsart] ++ repeat AMain 6 ++ [AUsart; HTim; ATimer] ++ answer_out 9 ++ repeat AMain 12).
  do 4 eexists. split; [apply sample_cfg_ok|]. split; [apply y0_started|]. split; [vm_compute; reflexivity|]. split; [reflexivity|]. split; [reflexivity|]. split; [reflexivity|].
  split; [vm_compute; reflexivity|]. split; reflexivity.
Qed.
Print Assumptions C64_repeated_timeout_refuted.

(** *** C65: the next byte makes good a lost completion *)
(** C44: completion signalled between lines 197 and 198 of the library leaves it waiting.  With the example driver the
    next byte that is received signals completion once more: the slave is idle and answers traffic again. *)
Theorem C65_next_byte_recovers : forall c y b n, sys_stuck c y -> (5 <= n)%nat ->
  exists y' t, y_run c ([HRx b; AUsart] ++ repeat AMain n) y = Ok (y', t) /\ sys_rests c y' /\ on_line t = [] /\ sent (lib_of t) = [] /\
    s_data (sc_s (y_lib y')) = s_data (sc_s (y_lib y)).
Proof. intros c y b n K Hn. destruct (stuck_byte c y b n K Hn) as (y' & t & E & R & O & S1 & D & _). exists y', t. auto. Qed.
Print Assumptions C65_next_byte_recovers.
Theorem C65_then_traffic : forall c y b n sched out d', cfg_tables_ok c -> sys_stuck c y -> (5 <= n)%nat ->
  wire_traffic c (s_id (sc_s (y_lib y))) (s_data (sc_s (y_lib y))) sched out d' ->
  exists y' t, y_run c ([HRx b; AUsart] ++ repeat AMain n ++ sched) y = Ok (y', t) /\ on_line t = out /\ s_data (sc_s (y_lib y')) = d'.
Proof.
  intros c y b n sched out d' Hc K Hn H. destruct (stuck_byte c y b n K Hn) as (y1 & t1 & E1 & R & O & S1 & D & I).
  destruct (C64_traffic_on_the_line c _ _ sched out d' y1 Hc H R I D) as (y2 & t2 & E2 & O2 & D2 & _).
  exists y2, (t1 ++ t2). rewrite app_assoc, y_run_app, E1. cbn [bind]. rewrite E2. cbn [bind]. split; auto. rewrite on_line_app, O, O2. auto.
Qed.
Print Assumptions C65_then_traffic.
(** The firmware does get there: the whole response leaves the UART between lines 197 and 198. *)
Example C65_case : exists y t, y_run sample_cfg (line_in sample_frame ++ repeat AMain 17 ++ line_out 9 ++ repeat AMain 3) y0 = Ok (y, t) /\ sys_stuck sample_cfg y.
Proof.
  do 2 eexists. split; [vm_compute; reflexivity|]. split; [|vm_compute; intuition discriminate].
  destruct sample_fresh as [(_ & _ & _ & _ & I & _) _]. unfold slave_ready. cbn [y_lib sc_s s_drv s_mptr s_sub s_rx s_id s_msg s_data].
  do 4 (split; [reflexivity|]). split; [exact I|]. split; [|apply sample_data_ok].
  unfold msg_ok, rr_ok. cbn [m_req m_resp rr_ptr rr_buf rr_len].
  repeat match goal with |- _ /\ _ => split end; try reflexivity; try (apply bytes_dec; reflexivity); unfold byte; lia.
Qed.

(** *** C66: never unasked *)
(** Under every schedule: the library is given bytes that arrived on the line, in their order (characters may be lost, none is made up);
    there are not more answers than bytes received; each answer belongs to an intact frame with the slave's ID. *)
Theorem C66_never_unasked : forall c y sched y' t, cfg_tables_ok c -> sys_started c y -> y_run c sched y = Ok (y', t) ->
  thinned (delivered (lib_of t)) (arrived sched) /\
  (length (sent (lib_of t)) <= length (delivered (lib_of t)))%nat /\
  (forall t1 f t2, lib_of t = t1 ++ TOut (SoSend f) :: t2 -> exists g, checked t1 = Some g /\ intact (s_id (sc_s (y_lib y))) g).
Proof.
  intros c y sched y' t Hc ((R & F1 & F2 & F3 & F4 & F5 & F6) & P & U & Su) E.
  destruct (asked_run c sched [] [] y y' t (asked_start y U) E) as (A1 & _ & A3). cbn [app] in A1, A3. split; [apply thinned_shorter in A1; auto|].
  destruct (run_piece c sched y y' t E) as (ls & EL). destruct y as [[s pc] u su]. cbn [y_lib sc_s sc_pc] in *. subst pc.
  assert (I := sinv_run c (s_id s) ls Hc [] (mk_sconf s None) _ _ (sinv_start c s R F1 F2 F3 F4 F5) EL). cbn [app] in I. split.
  - destruct (i_cnt _ _ _ _ _ I) as (_ & N2 & _). replace (length (sent (lib_of t))) with (count is_send (lib_of t)); [lia|].
    unfold count. clear. induction (lib_of t) as [|[[]|[]] l IH]; cbn; auto.
  - intros t1 f t2 Q. destruct (i_good _ _ _ _ _ I t1 (SoSend f) t2 Q) as [(G & _) _]; eauto.
Qed.
Print Assumptions C66_never_unasked.
Example C66_case : exists y t, y_run sample_cfg (line_in sample_frame ++ answer_out 9 ++ line_in sample_frame ++ answer_out 9) y0 = Ok (y, t) /\ length (sent (lib_of t)) = 2%nat.
Proof. do 2 eexists. split; [vm_compute; reflexivity|]. reflexivity. Qed.

(** *** C67: gaps inside a frame are noticed *)
(** Under every schedule: a byte given to the library after a 1.5-character pause and before the next 3.5-character pause is followed at once by a
    frame error, every other byte is not. *)
Theorem C67_gap_is_a_frame_error : forall c y sched y' t t1 b t2, cfg_tables_ok c -> sys_started c y -> y_run c sched y = Ok (y', t) ->
  lib_of t = t1 ++ TEv (SRx b) :: t2 -> (in_gap t1 = true <-> exists t3, t2 = TEv SFrameErr :: t3).
Proof.
  intros c y sched y' t t1 b t2 Hc (F & P & U & Su) E Q.
  assert (G0 : gapped [] y). { split; [apply F|]. rewrite U. split; auto. intros ? ? ? X. destruct t0; discriminate. }
  destruct (gapped_run c sched [] y y' t G0 E) as (_ & _ & G). cbn [app] in G. apply (G t1 b t2 Q).
Qed.
Print Assumptions C67_gap_is_a_frame_error.
Example C67_case : exists y t, y_run sample_cfg [HRx 9; AUsart; HRto; AUsart; HRx 3; AUsart] y0 = Ok (y, t) /\
  lib_of t = [TEv (SRx 9); TEv STxDone; TEv STxDone; TEv ST15; TEv (SRx 3); TEv SFrameErr; TEv STxDone; TEv ST15].
Proof. do 2 eexists. split; vm_compute; reflexivity. Qed.
