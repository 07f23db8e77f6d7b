(** C86: a master firmware and any number of slave firmwares on a noisy bus. *)
From Verif Require Import Props.Frames Props.SlavePdu.
From Verif Require Props.SlaveSystem.
From Verif Require Import Props.MasterRun Props.MasterTime Props.MasterRetry Props.MasterSystem Props.MasterLine Props.Bus.
From Verif Require Import Proofs.MasterWire Proofs.Bus Proofs.Noise Model.Uart Model.SlaveSystem.

(** *** C86 *)
(** Requests one after the other; any transmission may reach the addressed slave or not, and may be answered at the master by the slave's answer, by something damaged or by
    nothing.  The master repeats a request whose answer is damaged, at most as often as configured.  The application is told a result only if the
    request has been executed, and memory and result are those of executing it exactly once, however often it was transmitted; if it is told
    an error, the memory is as if the request had been executed exactly once or not at all.  No other memory changes. *)
Theorem C86_noisy_session : forall c sched w t ps more ns, cfg_master_ok c -> 2 <= c_timeout c < 4294967296 -> w_history c sched w t -> w_ready w ->
  pending_reqs (m_lib_of t) = map fst ps ++ more -> w_reqs_safe (concat (map (fun p => nsched (snd p)) ps)) ->
  Forall node_rests ns -> NoDup (map n_id ns) -> noisy_session c w [] ns ps ->
  exists la lb w' t' ls ns' outs, concat (map (fun p => nsched (snd p)) ps) = la ++ lb /\ forallb w_plain lb = true /\ w_run c la w = Ok (w', t') /\
    bus_runs ns (concat (map (fun p => nslaves (snd p)) ps)) ns' outs /\ Forall node_rests ns' /\
    (ps <> [] -> forallb (fun p => negb (gave_up (snd p))) ps = true -> w_rests w') /\
    Forall2 (fun p l => told (fst p) (k_end (snd p)) l) ps ls /\ noisy_served (map mem_of ns) (map (fun p => (fst p, gets_there (snd p))) ps) ls (map mem_of ns') /\
    m_on_line t' = concat (map (fun p => concat (repeat (request_frame (fst p)) (transmissions (snd p)))) ps) /\
    visible (m_lib_of t') = concat (map noisy_view (combine ps ls)).
Proof.
  intros c sched w t ps more ns Hc HT H W Pd HS Rs Nd Bs. assert (I := w_history_cinv _ _ _ _ Hc H).
  destruct (noisy_all c w Hc HT ps more [] [] w [] (m_lib_of t) ns) as (la & lb & w' & t' & ls & ns' & outs & E & P & R & Id & D & D2 & Nl & Br & Rs' & To & Sv & O & V & _); auto.
  exists la, lb, w', t', ls, ns', outs. do 5 (split; auto). split; [|auto]. intros Ne G. split; auto.
Qed.
Print Assumptions C86_noisy_session.

(** The number of times the slave executes the request does not matter: executing it again changes nothing and has the same answer. *)
Theorem C86_repeatable : forall c d g, let r := server c d g in server c (snd r) g = r.
Proof. intros. apply server_again. Qed.
Print Assumptions C86_repeatable.

(** What the application is told is the truth: a memory's final value in terms of the reports alone.  If every write request for slave [id] has been confirmed (no error told), then
    reads in between have delivered, and the memory is, what the sequence of these requests makes of it. *)
Theorem C86_reports_true : forall ms reqs ls ms', noisy_served ms reqs ls ms' -> Forall2 (fun p l => ~ error_told (fst p) l) reqs ls -> bus_served ms (map fst reqs) ls ms'.
Proof.
  induction 1 as [ms|ms1 c d ms2 a d1 l reqs ls ms' Ex H IH|ms1 c d ms2 a x d1 l reqs ls ms' Er X H IH|ms a l reqs ls ms' Ni Er H IH]; intros F; inversion F as [|? ? ? ? F1 F2]; subst; cbn [map fst] in *.
  - constructor.
  - unfold executed in Ex. destruct (is_read a) eqn:E; [destruct Ex as [-> Ex]; apply bus_read; auto|eapply bus_write; eauto].
  - contradiction.
  - contradiction.
Qed.
Print Assumptions C86_reports_true.

(** *** a case: slaves 9 and 8.  Register 1 of slave 9 is written, the answer to the first transmission is damaged; slave 8 answers a read request but nothing
    arrives; a second write request reaches slave 9 damaged, then intact, and both answers are damaged. *)
Definition write9b : api := WriteSingleReg 1 9 78.
Definition damaged9 : list Z := [9; 6; 0; 1; 0; 79; 25; 119].
Definition req9_damaged : list Z := [9; 6; 0; 1; 0; 79; 89; 118].
Definition noisy_calls : list (api * ncall) :=
  [(write9, mk_ncall [(damaged9, line_try_of damaged9, [(true, answering 8 (request_frame write9)); (false, heard (request_frame write9) ++ heard damaged9)])]
      (Heard ans9 (line_try_of ans9) [(true, heard damaged9 ++ answering 8 (request_frame write9)); (false, heard (request_frame write9) ++ heard ans9)]));
   (read8, mk_ncall [] (Nothing line_silence [(false, heard (request_frame read8)); (true, answering 9 (request_frame read8))]));
   (write9b, mk_ncall [(damaged9, line_try_of damaged9, [(false, heard req9_damaged); (false, [])]); (damaged9, line_try_of damaged9, [(true, answering 8 (request_frame write9b)); (false, heard (request_frame write9b))])] GaveUp)].
Definition noisy_reqs : list wact := start_reqs [write9; read8; write9b].
Lemma noisy_reqs_safe : w_reqs_safe noisy_reqs.
Proof.
  intros a Ha. unfold noisy_reqs, start_reqs in Ha. apply in_map_iff in Ha as (b & E & Hb). inversion E; subst.
  cbn in Hb. destruct Hb as [<-|[<-|[<-|[]]]]; (split; [|intros; exact I]); unfold api_typed, byte, word; cbn; repeat split; lia.
Qed.
Lemma req9b : request_frame write9b = [9; 6; 0; 1; 0; 78; 89; 118]. Proof. vm_compute. reflexivity. Qed.
Lemma damaged9_bad a : api_id a = 9 -> bad_frame a damaged9.
Proof.
  intros Ea. split; [split; [apply bytes_dec; vm_compute; reflexivity|split; [rewrite Ea; reflexivity|vm_compute; lia]]|].
  intros H. apply crc_ok_iff in H; [|apply bytes_dec; vm_compute; reflexivity]. vm_compute in H. discriminate.
Qed.
(** a frame that is not intact for slave [id] *)
Lemma heard_garbled id g rest : g <> [] -> forallb (fun b => (0 <=? b) && (b <? 256)) g = true -> (length g < 256)%nat -> hd_error g <> Some id \/ crc16 g <> 0 -> garbled id rest -> garbled id (heard g ++ rest).
Proof.
  intros Ne B L H Re. destruct (heard_ok g) as (l1 & l2 & -> & F & W). rewrite <- app_assoc. apply garbled_more with (h := g); auto; [apply bytes_dec; auto|].
  unfold SlaveTrace.buffered. rewrite Nat.div_small by auto. rewrite Nat.mul_0_r. cbn [skipn]. intros [C X]. destruct H as [H|H]; [auto|]. apply H. apply crc_ok_iff; auto. apply bytes_dec; auto.
Qed.
Lemma heard_last id g : g <> [] -> forallb (fun b => (0 <=? b) && (b <? 256)) g = true -> (length g < 256)%nat -> hd_error g <> Some id \/ crc16 g <> 0 -> garbled id (heard g).
Proof. intros. rewrite <- (app_nil_r (heard g)). apply heard_garbled; auto. constructor. Qed.
Ltac foreign := vm_compute; (discriminate || reflexivity || lia || (left; discriminate) || (right; discriminate)).
Ltac garbage := cbn [fst snd]; unfold node_takes; cbn [fst snd]; repeat (apply heard_garbled; [foreign|foreign|foreign|foreign|]); first [apply heard_last; foreign | constructor].
Ltac taken := unfold node_takes; cbn [fst snd]; split; [reflexivity|];
  first [ (exists []; eexists; exists []; split; [cbn [app]; rewrite app_nil_r; reflexivity|]; split; [constructor|]; split; [apply asked_ok; [lia|vm_compute; congruence]|constructor])
        | (eexists; eexists; exists []; split; [rewrite app_nil_r; reflexivity|]; split; [garbage|]; split; [apply asked_ok; [lia|vm_compute; congruence]|constructor]) ].
Ltac bus_now req := let E1 := fresh in let E2 := fresh in intros ? ? ? ? E1 E2; one_run E1; one_run E2; on_the_line; try rewrite req; constructor; [|constructor; [|constructor]].
Ltac next_nodes := match goal with |- forall ns' out, bus_run _ _ ns' out -> _ => let R := fresh "BR" in intros ? ? R; run_nodes R; match goal with n1 : node, n2 : node |- _ => destruct n1 as [? ?], n2 as [? ?] end; cbn [n_cfg n_sys] in *; subst end.
Ltac next_call := match goal with |- forall ns' outs, bus_runs _ _ ns' outs -> _ => let R := fresh "BR" in intros ? ? R; cbn [nslaves hearings k_bad k_end map app] in R;
  repeat (let X := fresh "BX" in let Y := fresh "BY" in inversion R as [|? ? ? ? ? ? ? X Y]; subst; clear R; rename Y into R; run_nodes X; match goal with n1 : node, n2 : node |- _ => destruct n1 as [? ?], n2 as [? ?] end; cbn [n_cfg n_sys map snd] in *; subst); inversion R; subst; clear R end.
Lemma noisy_case : noisy_session mcfg (fst (after noisy_reqs)) [] nodes noisy_calls.
Proof.
  unfold noisy_calls. cbn [noisy_session]. split.
  { cbn [noisy_call k_bad k_end]. split; [apply damaged9_bad; reflexivity|]. split; [apply line_try_ok|]. split. { bus_now req9; [taken|garbage]. }
    next_nodes. split; [apply line_try_ok|]. split. { bus_now req9; [taken|garbage]. } split; [reflexivity|]. next_nodes. vm_compute. reflexivity. }
  split; [vm_compute; discriminate|]. split; [discriminate|]. next_call. split.
  { cbn [noisy_call k_bad k_end]. split; [apply line_silence_ok|]. bus_now req8; [garbage|taken]. }
  split; [vm_compute; discriminate|]. split; [discriminate|]. next_call. split.
  { cbn [noisy_call k_bad k_end]. split; [apply damaged9_bad; reflexivity|]. split; [apply line_try_ok|]. split. { bus_now req9b; [garbage|garbage]. }
    next_nodes. split; [apply damaged9_bad; reflexivity|]. split; [apply line_try_ok|]. split. { bus_now req9b; [taken|garbage]. } intros; exact I. }
  split; [reflexivity|]. split; [reflexivity|]. intros; exact I.
Qed.
Example C86_case : let w := fst (after noisy_reqs) in let t := snd (after noisy_reqs) in
  w_history mcfg noisy_reqs w t /\ w_ready w /\ pending_reqs (m_lib_of t) = map fst noisy_calls /\ w_reqs_safe (concat (map (fun p => nsched (snd p)) noisy_calls)) /\
  Forall node_rests nodes /\ NoDup (map n_id nodes) /\ noisy_session mcfg w [] nodes noisy_calls.
Proof.
  split; [|split; [|split; [|split; [|split; [|split]]]]].
  - exists w0. split; [apply w0_started|]. split; [apply noisy_reqs_safe|]. vm_compute. reflexivity.
  - vm_compute. repeat split; discriminate.
  - vm_compute. reflexivity.
  - apply no_calls_safe. vm_compute. reflexivity.
  - apply nodes_rest.
  - apply NoDup_cons; [vm_compute; intuition discriminate|]. apply NoDup_cons; [intros []|apply NoDup_nil].
  - apply noisy_case.
Qed.
