(** C94: the slave serves regular traffic while the application changes its variables at any moment. *)
From Verif Require Import Model.SlaveIrqRun Spec.SlaveIrqRun Spec.EndToEnd Proofs.SlaveIrqNone Proofs.SlaveIrqRun Props.SlavePdu Props.SlaveRun Props.SlaveIrqData.
From Verif Require Import Proofs.SlaveTraffic Spec.SlaveTrace Spec.SlaveTraffic.
Import ListNotations.
Local Open Scope Z_scope.

(** no schedule of lines, driver events and application writes leads to undefined behaviour *)
Theorem C94_no_ub : forall c s l, cfg_tables_ok c -> slave_ready c s -> words_written l -> exists k t, i_run c l (mk_sconf s None) = Ok (k, t).
Proof. intros c s l Hc R W. destruct (i_run_ready c l Hc W (mk_sconf s None) R) as (k & t & E & _). eauto. Qed.
Print Assumptions C94_no_ub.
(** A request is received and answered once, while the application writes variables before, between and during all lines.  The request is
    interpreted in one line [IStep app]: what is sent and stored is what [server_i] says (C93) for the variables as the application left them at
    that line; the application's writes before, in and after that line all take effect, in order *)
Theorem C94_answered : forall c q f sched dn, cfg_tables_ok c -> slave_rests c q -> bytes f -> (length f < 256)%nat -> intact (s_id (sc_s q)) f -> frame_complete f ->
  reception_of two_polls (map SRx f) (strip sched) -> completion (strip dn) -> words_written (sched ++ dn) ->
  exists l1 app l2 k1 t1 k2 k3 t3 k4 t4, sched = l1 ++ IStep app :: l2 /\
    let d1 := aw_run (s_data (sc_s q)) (writes l1) in
    i_run c l1 q = Ok (k1, t1) /\ i_act c (IStep app) k1 = Ok (k2, [TOut SoExec]) /\ i_run c l2 k2 = Ok (k3, t3) /\ i_run c dn k3 = Ok (k4, t4) /\
    sent (t1 ++ t3) = [rtu_frame (s_id (sc_s q)) (fst (server_i app c d1 f))] /\ sent t4 = [] /\
    s_data (sc_s k1) = d1 /\ s_data (sc_s k2) = snd (server_i app c d1 f) /\ s_data (sc_s k3) = aw_run (snd (server_i app c d1 f)) (writes l2) /\
    s_data (sc_s k4) = aw_run (s_data (sc_s k3)) (writes dn) /\ s_id (sc_s k4) = s_id (sc_s q) /\ slave_rests c k4.
Proof.
  intros c q f sched dn Hc K Hf Lf If Cf Rc Cp W. destruct (exchange_i c q f sched dn Hc K Hf Lf If Cf Rc Cp W) as (l1 & app & l2 & k1 & t1 & k2 & k3 & t3 & k4 & t4 & H).
  cbn zeta in H. decompose [and] H. exists l1, app, l2, k1, t1, k2, k3, t3, k4, t4. cbn zeta. repeat (split; [assumption|]). assumption.
Qed.
Print Assumptions C94_answered.
(** everything else on the line has no effect; the application's writes all take effect *)
Theorem C94_dropped : forall c q xs sched, cfg_tables_ok c -> slave_rests c q -> reception_of two_polls xs (strip sched) -> forallb is_reception xs = true ->
  has_frame_err xs = true \/ ~ intact (s_id (sc_s q)) (buffered (rx_bytes xs)) -> words_written sched ->
  exists k t, i_run c sched q = Ok (k, t) /\ sent t = [] /\ s_data (sc_s k) = aw_run (s_data (sc_s q)) (writes sched) /\ s_id (sc_s k) = s_id (sc_s q) /\ slave_rests c k.
Proof. exact dropped_i. Qed.
Print Assumptions C94_dropped.
(** with an application that writes nothing this is the slave of all other properties *)
Theorem C94_no_application : forall c l k, (forall a, In a l -> a = IStep (fun _ => []) \/ exists e, a = IEv e) -> i_run c l k = s_run c (strip l) k.
Proof.
  intros c. induction l as [|a l IH]; intros k H; [reflexivity|]. assert (H' : forall a, In a l -> a = IStep (fun _ => []) \/ exists e, a = IEv e) by (intros; apply H; right; assumption).
  destruct (H a (or_introl eq_refl)) as [->|(e & ->)].
  - change (strip (IStep (fun _ => []) :: l)) with (SStep :: strip l). cbn [i_run s_run]. change (IStep (fun _ => [])) with (IStep none).
    assert (A : i_act c (IStep none) k = s_act c SStep k). { unfold i_act, s_act. destruct (sc_pc k) as [p|]; [|reflexivity]. destruct p; try reflexivity. unfold i_line, s_line. rewrite parse_none. reflexivity. }
    rewrite A. destruct (s_act c SStep k) as [[k1 o1]| |]; cbn [bind]; [|reflexivity..]. rewrite IH by exact H'. reflexivity.
  - change (strip (IEv e :: l)) with (SEv e :: strip l). cbn [i_run s_run i_act]. destruct (s_act c (SEv e) k) as [[k1 o1]| |]; cbn [bind]; [|reflexivity..]. rewrite IH by exact H'. reflexivity.
Qed.
Print Assumptions C94_no_application.

(** registers 1, 2 (variables 0, 1) are read; the application writes variable 1 during the reception, variables 0, 1 and a bit between the two
    accesses, and variable 0 while the answer is transmitted: the answer has the value of variable 0 from before and of variable 1 from between *)
Definition sample_isched : list iact :=
  map (fun x => IEv (SRx x)) sample_frame ++ IApp (WReg 1 5) :: IEv ST15 :: IEv ST35 :: repeat (IStep sample_app) 20.
Definition sample_idone : list iact := IApp (WReg 0 11) :: IEv STxDone :: repeat (IStep sample_app) 8.
Lemma sample_written : words_written (sample_isched ++ sample_idone).
Proof.
  split.
  - intros x v H. assert (A : forall l, (forall a, In a l -> match a with IApp (WReg _ v) => word v | _ => True end) -> In (IApp (WReg x v)) l -> word v) by (intros l K I; exact (K _ I)).
    apply (A _) in H; [exact H|]. apply Forall_forall. vm_compute. repeat constructor; discriminate.
  - intros app H. assert (E : forall l, (forall a, In a l -> match a with IStep ap => ap = sample_app | _ => True end) -> In (IStep app) l -> app = sample_app) by (intros l K I; exact (K _ I)).
    apply (E _) in H; [subst; apply sample_app_words|]. apply Forall_forall. unfold sample_isched, sample_idone. rewrite !Forall_app. repeat split.
    + apply Forall_map, Forall_forall. intros; exact I.
    + repeat constructor.
    + repeat constructor.
Qed.
Example C94_case :
  slave_rests sample_cfg (mk_sconf sample_slave None) /\ reception_of two_polls (map SRx sample_frame) (strip sample_isched) /\ completion (strip sample_idone) /\
  words_written (sample_isched ++ sample_idone) /\
  exists k t, i_run sample_cfg (sample_isched ++ sample_idone) (mk_sconf sample_slave None) = Ok (k, t) /\ sent t = [rtu_frame 9 [3; 4; 0x12; 0x34; 0; 8]] /\
    v_regs (s_data (sc_s k)) = [11; 8].
Proof.
  split; [split; [apply fresh_idle, sample_fresh|left; reflexivity]|]. split.
  { exists (feed sample_frame ++ [SEv ST15; SEv ST35]), 20%nat. split; [vm_compute; reflexivity|]. split; [auto with arith|].
    exists (map SRx sample_frame ++ [ST15]). split; vm_compute; reflexivity. }
  split; [exists [SEv STxDone], 8%nat; vm_compute; auto 10|]. split; [apply sample_written|].
  do 2 eexists. split; [vm_compute; reflexivity|]. split; vm_compute; reflexivity.
Qed.
(** a disturbed reception (a character after the pause) with application writes: nothing is sent *)
Example C94_case_dropped :
  exists k t, i_run sample_cfg (IEv (SRx 9) :: IApp (WReg 0 3) :: IEv SFrameErr :: IEv ST15 :: IEv ST35 :: repeat (IStep sample_app) 20) (mk_sconf sample_slave None) = Ok (k, t) /\ sent t = [] /\
    v_regs (s_data (sc_s k)) = [3; 0xABCD].
Proof. do 2 eexists. split; [vm_compute; reflexivity|]. split; vm_compute; reflexivity. Qed.
