(** C91: requests made from an interrupt handler while the manager is working on the queues. *)
From Verif Require Import Model.Base Model.Types Model.Iface Model.Common Model.Queue Model.QueueSteps Model.Master Model.MasterFine.
From Verif Require Import Spec.Frame Spec.Fifo Spec.QueueRun Spec.QueueIrq Spec.MasterTrace Spec.MasterFine Proofs.QueueP Proofs.QueueIrq Proofs.MasterFine Props.MasterRun.
Import ListNotations.
Open Scope Z_scope.

(** *** C91 *)
(** [rep N q l]: the queue q of capacity N holds the messages l (oldest first).
    A push executed access by access, interrupted by whole pops anywhere except between load and store of the counter, and between its
    two updates only by as many pops as there are messages: queue and results are those of the same operations one after the other. *)
Theorem C91_push_interrupted : forall (A : Type) N (q : queue A) l x acts pc q' out, rep N q l -> Z.of_nat (length l) < N -> Forall (fun o => o = Pop) (irqs acts) ->
  push_run N x acts P52 q = Ok (pc, q', out) -> (exists d, pc = PDone d) -> push_undisturbed (length l) out ->
  pc = PDone None /\ exists n, (n <= length out)%nat /\
    q_run N q (repeat Pop n ++ Push x :: repeat Pop (length out - n)) = Ok (q', firstn n (map snd out) ++ Taken :: skipn n (map snd out)).
Proof. intros A. exact push_interrupted. Qed.
Print Assumptions C91_push_interrupted.
Definition q2 : queue Z := mk_queue 0 1 2 [None; Some 7; Some 8].
Lemma q2_rep : rep 3 q2 [7; 8].
Proof. constructor; cbn; try lia; auto. intros [|[|i]] H; cbn in *; auto. lia. Qed.
Example C91_push_case : rep 3 q2 [7; 8] /\ exists q' out, push_run 3 9 [QIrq Pop; QStep; QStep; QIrq Pop; QStep; QStep; QIrq Pop; QStep; QStep; QStep] P52 q2 = Ok (PDone None, q', out) /\
  push_undisturbed 2 out /\ map snd out = [Popped (Some 7); Popped (Some 8); Popped (Some 9)].
Proof. split; [apply q2_rep|]. do 2 eexists. split; [vm_compute; reflexivity|]. split; [split; cbn; lia|reflexivity]. Qed.
(** A pop executed access by access, interrupted by whole pushes (for which there is room) anywhere except between load and store of the counter. *)
Theorem C91_pop_interrupted : forall (A : Type) N (q : queue A) l acts r q' out, rep N q l -> Forall (fun o => exists x, o = Push x) (irqs acts) -> Z.of_nat (length l + length (irqs acts)) <= N ->
  pop_run N acts Q89 q = Ok (QDone r, q', out) -> pop_undisturbed out ->
  exists ops1 ops2 r1 r2, irqs acts = ops1 ++ ops2 /\ map snd out = r1 ++ r2 /\ length r1 = length ops1 /\ q_run N q (ops1 ++ Pop :: ops2) = Ok (q', r1 ++ Popped r :: r2).
Proof. intros A. exact pop_interrupted. Qed.
Print Assumptions C91_pop_interrupted.
Example C91_pop_case : rep 3 q2 [7; 8] /\ exists q' out, pop_run 3 [QStep; QStep; QIrq (Push 9); QStep; QStep; QStep; QStep] Q89 q2 = Ok (QDone (Some 7), q', out) /\ pop_undisturbed out /\
  length out = 1%nat /\ exists q'', q_run 3 q' [Pop; Pop; Pop] = Ok (q'', [Popped (Some 8); Popped (Some 9); Popped None]).
Proof. split; [apply q2_rep|]. do 2 eexists. split; [vm_compute; reflexivity|]. split; [reflexivity|]. split; [reflexivity|]. eexists. vm_compute. reflexivity. Qed.

(** The whole master, its queue accesses executed one by one ([f_run]) and interrupted anywhere by the driver, the tick and by request
    calls, these at fine moments: the run is that of a master whose operations are not interrupted ([m_history]), with the same events,
    results, transmissions and callbacks in the same order, and the same state whenever no queue operation is under way.  If its
    behaviour is undefined, then so is that of a run of the uninterrupted master. *)
Theorem C91_harmless_requests : forall c s acts, cfg_master_ok c -> started c s -> f_reqs_safe acts -> harmless_run c acts (mk_fconf (mk_mconf s None) AtLine) ->
  match f_run c acts (mk_fconf (mk_mconf s None) AtLine) with
  | Ok (k, t) => exists sched k' t', m_history c sched k' t' /\ seen t' = seen t /\ (fc_q k = AtLine -> k' = fc_k k /\ finished t' = finished t)
  | UB => exists sched, reqs_safe sched /\ m_run c sched (mk_mconf s None) = UB
  | Diverge => False
  end.
Proof. exact fine_master. Qed.
Print Assumptions C91_harmless_requests.
Definition fsteps (n : nat) : list fmove := repeat FStep n.
Definition f0 : fconf := mk_fconf (mk_mconf m0 None) AtLine.
Definition R : fmove := FEv (MReq rh).
(** an answer arrives; n steps, what x says, m steps *)
Definition fserve (n : nat) (x : list fmove) (m : nat) : list fmove :=
  [FEv MTxDone] ++ fsteps 8 ++ map (fun b => FEv (MRx b)) rh_answer ++ [FEv MT15] ++ fsteps 20 ++ [FEv MT35] ++ fsteps n ++ x ++ fsteps m.
Definition is_rh (a : api) : bool := match a with ReadHoldingReg r q i => (r =? 1) && (q =? 2) && (i =? 9) | _ => false end.
Lemma only_rh l : forallb (fun a => match a with FEv (MReq a) => is_rh a | _ => true end) l = true -> f_reqs_safe l.
Proof.
  intros H a Ha. rewrite forallb_forall in H. specialize (H _ Ha). cbn in H. destruct a as [| | |r q i| | | |]; try discriminate H. unfold is_rh in H.
  assert (r = 1) by lia. assert (q = 2) by lia. assert (i = 9) by lia. subst. apply rh_safe.
Qed.
(** three requests; the first is answered; one more is made between the two updates of the hand-back *)
Definition in_between : list fmove := [R; R; R] ++ fsteps 14 ++ fserve 10 [R] 16.
Example C91_harmless_case : f_reqs_safe in_between /\ harmless_run mcfg in_between f0 /\
  (exists k t, f_run mcfg ([R; R; R] ++ fsteps 14 ++ fserve 10 [] 0) f0 = Ok (k, t) /\ fc_q k = AtPush (P64 1)) /\
  exists k t, f_run mcfg in_between f0 = Ok (k, t) /\ fc_q k = AtLine /\ length (accepted t) = 4%nat /\ finished t = 1%nat /\ m_sent t = [request_frame rh; request_frame rh].
Proof.
  split; [apply only_rh; vm_compute; reflexivity|]. split; [apply harmless_runb_ok; vm_compute; reflexivity|]. split; do 2 eexists; (split; [vm_compute; reflexivity|]); [vm_compute; reflexivity|].
  split; [vm_compute; reflexivity|]. split; [vm_compute; reflexivity|]. split; vm_compute; reflexivity.
Qed.

(** Other moments: one of two valid requests is made while the manager, taking the first from the queue, has loaded but not stored the counter.
    Both are answered; then the idle manager dereferences a null pointer. *)
Definition lost_count : list fmove := [R] ++ fsteps 6 ++ [R] ++ fsteps 8 ++ fserve 26 [] 0 ++ fserve 18 [] 0.
Theorem C91_refuted_counter : exists s acts k t, started mcfg s /\ f_reqs_safe acts /\ f_run mcfg acts (mk_fconf (mk_mconf s None) AtLine) = Ok (k, t) /\
  length (accepted t) = 2%nat /\ finished t = 2%nat /\ mm_st (mc_s (fc_k k)) = M_IDLE /\ f_run mcfg (fsteps 12) k = UB.
Proof.
  exists m0, lost_count. do 2 eexists. split; [apply m0_started|]. split; [apply only_rh; vm_compute; reflexivity|]. split; [vm_compute; reflexivity|].
  split; [vm_compute; reflexivity|]. split; [vm_compute; reflexivity|]. split; [vm_compute; reflexivity|]. vm_compute; reflexivity.
Qed.
Print Assumptions C91_refuted_counter.
(** Three requests fill the queue.  While the first is being handed back, two more are made, one of which is accepted.  After all four have been
    answered, and with nothing pending, the master accepts only two requests, not three. *)
Definition lost_buffer : list fmove := [R; R; R] ++ fsteps 14 ++ fserve 10 [R; R] 16 ++ fserve 26 [] 0 ++ fserve 26 [] 0 ++ fserve 26 [] 0.
Theorem C91_refuted_buffer : exists s acts k t k' t', started mcfg s /\ f_reqs_safe acts /\ f_run mcfg acts (mk_fconf (mk_mconf s None) AtLine) = Ok (k, t) /\
  length (accepted t) = 4%nat /\ finished t = 4%nat /\ pdu_errors t = 0%nat /\ c_queue mcfg = 3 /\
  f_run mcfg [R; R; R] k = Ok (k', t') /\ t' = [MTEv (MReq rh); MTOut (MoRet rh REQUEST_SEND_TO_QUEUE); MTEv (MReq rh); MTOut (MoRet rh REQUEST_SEND_TO_QUEUE); MTEv (MReq rh); MTOut (MoRet rh FREE_QUEUE_EMPTY_ERROR)].
Proof.
  exists m0, lost_buffer. do 4 eexists. split; [apply m0_started|]. split; [apply only_rh; vm_compute; reflexivity|]. split; [vm_compute; reflexivity|].
  split; [vm_compute; reflexivity|]. split; [vm_compute; reflexivity|]. split; [vm_compute; reflexivity|]. split; [reflexivity|]. split; vm_compute; reflexivity.
Qed.
Print Assumptions C91_refuted_buffer.
(** Requests made both by the main program and by an interrupt handler: two calls get the same message buffer. *)
Theorem C91_refuted_two_callers : exists N (q : queue Z) acts q' out, rep N q [7; 8] /\ irqs acts = [Pop] /\ pop_run N acts Q89 q = Ok (QDone (Some 7), q', out) /\ map snd out = [Popped (Some 7)].
Proof. exists 3, q2, [QStep; QStep; QIrq Pop; QStep; QStep; QStep; QStep]. do 2 eexists. split; [apply q2_rep|]. split; [reflexivity|]. split; vm_compute; reflexivity. Qed.
Print Assumptions C91_refuted_two_callers.
