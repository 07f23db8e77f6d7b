(** C75: a master firmware and any number of slave firmwares on one bus. *)
From Verif Require Import Props.Frames Props.SlavePdu.
From Verif Require Props.SlaveSystem.
From Verif Require Import Props.MasterRun Props.MasterTime Props.MasterRetry Props.MasterSystem Props.MasterLine.
From Verif Require Import Proofs.MasterWire Proofs.Bus Model.Uart Model.SlaveSystem.

(** *** C75 *)
(** Requests one after the other to slaves with different IDs; every slave hears every frame on the line.  The line carries each request's frame exactly once
    and, from the slaves, exactly its answer (nothing if no slave has the ID).  Every request is served by the memory of the slave that has
    the ID, all other memories stay what they are; the application is told the outcome; all firmwares are at rest in the end. *)
Theorem C75_bus_session : forall c sched w t ps more ns, cfg_master_ok c -> 2 <= c_timeout c < 4294967296 -> w_history c sched w t -> w_ready w ->
  pending_reqs (m_lib_of t) = map fst ps ++ more -> w_reqs_safe (concat (map (fun p => exch_sched (b_exch (snd p))) ps)) ->
  Forall node_rests ns -> NoDup (map n_id ns) -> bus_session c w [] ns ps ->
  exists la lb w' t' ls ns', concat (map (fun p => exch_sched (b_exch (snd p))) ps) = la ++ lb /\ forallb w_plain lb = true /\ w_run c la w = Ok (w', t') /\ w_ready w' /\ (ps <> [] -> w_rests w') /\
    bus_runs ns (map (fun p => b_slaves (snd p)) ps) ns' (map (fun p => bus_answer (snd p)) ps) /\ Forall node_rests ns' /\
    bus_served (map mem_of ns) (map fst ps) ls (map mem_of ns') /\ m_on_line t' = concat (map (fun p => request_frame (fst p)) ps) /\
    visible (m_lib_of t') = session_view (map fst ps) ls.
Proof.
  intros c sched w t ps more ns Hc HT H W Pd HS Rs Nd Bs. assert (I := w_history_cinv _ _ _ _ Hc H).
  destruct (bus_all c w Hc HT ps more [] [] w [] (m_lib_of t) ns) as (la & lb & w' & t' & ls & ns' & E & P & R & W' & W2 & _ & Br & Rs' & Sv & O & V & _); auto.
  exists la, lb, w', t', ls, ns'. auto 14.
Qed.
Print Assumptions C75_bus_session.

(** a memory of the bus keeps its ID and configuration, and its data unless a write request has its ID *)
Theorem C75_others_untouched : forall ms reqs ls ms', bus_served ms reqs ls ms' -> length ms' = length ms /\
  forall k id c d, nth_error ms k = Some (id, c, d) -> exists d', nth_error ms' k = Some (id, c, d') /\ ((forall a, In a reqs -> is_read a = true \/ api_id a <> id) -> d' = d).
Proof.
  induction 1 as [ms|ms1 c d ms2 a l reqs ls ms' Re Rr H IH|ms1 c d ms2 a d1 l reqs ls ms' Re Wr H IH|ms a r reqs ls ms' Ni Tr H IH].
  - split; auto. intros k id c d E. exists d. auto.
  - destruct IH as [L IH]. split; auto. intros k id c' d' E. destruct (IH k id c' d' E) as (d2 & E2 & X). exists d2. split; auto. intros Ha. apply X. intros b Hb. apply Ha. right. auto.
  - destruct IH as [L IH]. split. { rewrite L, !app_length. reflexivity. } intros k id c' d' E.
    assert (C : nth_error (ms1 ++ (api_id a, c, d1) :: ms2) k = Some (id, c', d') \/ id = api_id a /\ c' = c /\ nth_error (ms1 ++ (api_id a, c, d1) :: ms2) k = Some (id, c', d1)).
    { destruct (Nat.lt_trichotomy k (length ms1)) as [C|[C|C]].
      - left. rewrite nth_error_app1 in E |- * by auto. auto.
      - right. subst k. rewrite nth_error_app2, Nat.sub_diag in E |- * by lia. cbn in *. inversion E. auto.
      - left. rewrite nth_error_app2 in E |- * by lia. destruct (k - length ms1)%nat eqn:K; [lia|]. exact E. }
    destruct C as [C|(-> & -> & C)].
    + destruct (IH k id c' d' C) as (d2 & E2 & X). exists d2. split; auto. intros Ha. apply X. intros b Hb. apply Ha. right. auto.
    + destruct (IH k _ _ _ C) as (d2 & E2 & X). exists d2. split; auto. intros Ha. exfalso. destruct (Ha a (or_introl eq_refl)); congruence.
  - destruct IH as [L IH]. split; auto. intros k id c' d' E. destruct (IH k id c' d' E) as (d2 & E2 & X). exists d2. split; auto. intros Ha. apply X. intros b Hb. apply Ha. right. auto.
Qed.
Print Assumptions C75_others_untouched.

(** *** a case: slaves 9 and 8; register 1 of slave 9 is written, registers 1 and 2 of slave 8 are read, slave 7 does not exist *)
Definition slave8 : slave := mk_slave 8 S_IDLE true true (sample_msg []) CLEARED CLEARED CLEARED CLEARED sample_data true true.
Lemma slave8_fresh : slave_fresh sample_cfg slave8.
Proof.
  split; [|cbn; auto 10]. unfold slave_ready. cbn [s_drv s_mptr s_sub s_rx s_id s_msg s_data slave8].
  repeat match goal with |- _ /\ _ => split end; auto; try (apply sample_msg_ok; [cbn; lia|reflexivity]); try apply sample_data_ok. unfold byte; lia.
Qed.
Definition nodes : list node := [mk_node sample_cfg SlaveSystem.y0; mk_node sample_cfg (mk_sys (mk_sconf slave8 None) uart_init None)].
Lemma nodes_rest : Forall node_rests nodes.
Proof.
  constructor; [|constructor; [|constructor]]; (split; [apply sample_cfg_ok|]); cbn [n_cfg n_sys]; apply SlaveSystem.started_rests; [apply SlaveSystem.y0_started|].
  split; [apply slave8_fresh|]. cbn. auto.
Qed.
Definition write9 : api := WriteSingleReg 1 9 77.
Definition read8 : api := ReadHoldingReg 1 2 8.
Definition read7 : api := ReadHoldingReg 1 2 7.
Definition ans9 : list Z := rtu_frame 9 [6; 0; 1; 0; 77].
Definition ans8 : list Z := rtu_frame 8 [3; 4; 0x12; 0x34; 0xAB; 0xCD].
(** a slave hears the frame and polls; hears it and answers with [n] bytes *)
Definition heard (g : list Z) : list yact := SlaveSystem.line_in g ++ repeat AMain 16.
Definition answering (n : nat) (g : list Z) : list yact := SlaveSystem.line_in g ++ SlaveSystem.answer_out n.
Definition calls : list (api * bcall) :=
  [(write9, mk_bcall (Answered [] ans9 (line_try_of ans9)) [answering 8 (request_frame write9); heard (request_frame write9) ++ heard ans9]);
   (read8, mk_bcall (Answered [] ans8 (line_try_of ans8)) [heard (request_frame read8) ++ heard ans8; answering 9 (request_frame read8)]);
   (read7, mk_bcall (Unanswered line_silence) [heard (request_frame read7); heard (request_frame read7)])].
Definition bus_reqs : list wact := start_reqs [write9; read8; read7].
Lemma heard_ok g : overhears g (heard g).
Proof. exists (SlaveSystem.line_in g), (repeat AMain 16). split; [reflexivity|]. split; [apply SlaveSystem.wire_frame_plain|]. split; vm_compute; [reflexivity|lia]. Qed.
Lemma asked_ok n g k : (0 < k)%nat -> length (rtu_frame (n_id n) (fst (server (n_cfg n) (n_data n) g))) = k -> is_asked n g (answering k g).
Proof.
  intros K L. exists (SlaveSystem.line_in g), (SlaveSystem.answer_out k). split; [reflexivity|]. split; [apply SlaveSystem.wire_frame_plain|].
  rewrite L. apply SlaveSystem.wire_answer_plain. auto.
Qed.
Lemma bus_reqs_safe : w_reqs_safe bus_reqs.
Proof.
  intros a Ha. unfold bus_reqs, start_reqs in Ha. apply in_map_iff in Ha as (b & E & Hb). inversion E; subst.
  cbn in Hb. destruct Hb as [<-|[<-|[<-|[]]]]; (split; [|intros; exact I]); unfold api_typed, byte, word; cbn; repeat split; lia.
Qed.
Ltac one_run E := vm_compute in E; inversion E; subst; clear E.
(** the bytes on the line, computed *)
Ltac on_the_line := match goal with |- context [m_on_line ?t] => let r := eval vm_compute in (m_on_line t) in replace (m_on_line t) with r by (vm_compute; reflexivity) end.
Lemma req9 : request_frame write9 = [9; 6; 0; 1; 0; 77; 25; 119]. Proof. vm_compute. reflexivity. Qed.
Lemma req8 : request_frame read8 = [8; 3; 0; 1; 0; 2; 149; 82]. Proof. vm_compute. reflexivity. Qed.
Lemma req7 : request_frame read7 = [7; 3; 0; 1; 0; 2; 149; 173]. Proof. vm_compute. reflexivity. Qed.
Ltac run_nodes R := let X := fresh in let Y := fresh in
  inversion R as [|? ? ? ? ? ? ? ? X Y]; subst; clear R; destruct X as [? X]; vm_compute in X; inversion X; subst; clear X;
  inversion Y as [|? ? ? ? ? ? ? ? X R]; subst; clear Y; destruct X as [? X]; vm_compute in X; inversion X; subst; clear X; inversion R; subst; clear R.
Ltac asked_here := match goal with |- context [if ?b then _ else _] => replace b with true by (vm_compute; congruence) end; split;
  [apply asked_ok; [lia|vm_compute; congruence]|let R := fresh in intros n' t [_ R]; vm_compute in R; inversion R; vm_compute; congruence].
Ltac overheard_here := match goal with |- context [if ?b then _ else _] => replace b with false by (vm_compute; congruence) end; do 2 eexists; split; [reflexivity|]; split; apply heard_ok.
Lemma case_session : bus_session mcfg (fst (after bus_reqs)) [] nodes calls.
Proof.
  unfold calls. cbn [bus_session]. split.
  { unfold bus_call. cbn [b_exch b_slaves]. split; [apply line_try_ok|]. split; [left; reflexivity|].
    intros w1 t1 w2 t2 E1 E2. one_run E1. one_run E2. on_the_line. rewrite req9.
    constructor; [|constructor; [|constructor]]; unfold node_hears; [asked_here|overheard_here]. }
  intros ns1 out1 R1. run_nodes R1. destruct n' as [c1 y1], n'0 as [c2 y2]. cbn [n_cfg n_sys] in *. subst. split.
  { unfold bus_call. cbn [b_exch b_slaves]. split; [apply line_try_ok|]. split; [right; left; reflexivity|].
    intros w1 t1 w2 t2 E1 E2. one_run E1. one_run E2. on_the_line. rewrite req8.
    constructor; [|constructor; [|constructor]]; unfold node_hears; [overheard_here|asked_here]. }
  intros ns2 out2 R2. run_nodes R2. destruct n' as [c1 y1], n'0 as [c2 y2]. cbn [n_cfg n_sys] in *. subst. split; [|auto].
  unfold bus_call. cbn [b_exch b_slaves]. split; [apply line_silence_ok|]. split; [vm_compute; intuition discriminate|].
  intros w1 t1 w2 t2 E1 E2. one_run E1. one_run E2. on_the_line. rewrite req7. constructor; [|constructor; [|constructor]]; apply heard_ok.
Qed.
Example C75_case : let w := fst (after bus_reqs) in let t := snd (after bus_reqs) in
  w_history mcfg bus_reqs w t /\ w_rests w /\ pending_reqs (m_lib_of t) = map fst calls /\ w_reqs_safe (concat (map (fun p => exch_sched (b_exch (snd p))) calls)) /\
  Forall node_rests nodes /\ NoDup (map n_id nodes) /\ bus_session mcfg w [] nodes calls.
Proof.
  split; [|split; [|split; [|split; [|split; [|split]]]]].
  - exists w0. split; [apply w0_started|]. split; [apply bus_reqs_safe|]. vm_compute. reflexivity.
  - vm_compute. repeat split; discriminate.
  - vm_compute. reflexivity.
  - apply no_calls_safe. vm_compute. reflexivity.
  - apply nodes_rest.
  - apply NoDup_cons; [vm_compute; intuition discriminate|]. apply NoDup_cons; [intros []|apply NoDup_nil].
  - apply case_session.
Qed.
