(** C22 (contents), C26: what response callbacks and error reports contain. *)
From Verif Require Import Props.Frames Props.MasterRun.
From Verif Require Import Proofs.MasterErr.

(** *** C22: the callbacks are those of the checked frame *)
Theorem C22_delivers_the_checked_frame : forall c sched k t, cfg_master_ok c -> m_history c sched k t ->
  forall t1 x t2, t = t1 ++ MTOut (MoCb x) :: t2 -> is_response x ->
  exists a g b l, current t1 = Some a /\ m_checked t1 = Some g /\ intact (api_id a) g /\ delivered a b = Some l /\ In x l /\
    ((length (m_received t1) < 256)%nat -> firstn (length g) b = g).
Proof.
  intros c sched k t Hc H t1 x t2 E R. destruct (C22_only_checked_responses c sched k t Hc H t1 x t2 E R) as (a0 & g0 & A0 & G0 & I0 & _).
  destruct (hist_cb_fact c sched k t Hc H t1 _ t2 E x eq_refl) as (a & g & b & Cu & Pb & Y).
  assert (Z : m_checked t1 = Some g /\ exists l, delivered a b = Some l /\ In x l /\ ((length (m_received t1) < 256)%nat -> firstn (length g) (m_received t1) = g)) by (destruct x; try exact Y; destruct R).
  clear Y. destruct Z as (G & l & D & Il & Pg). assert (a0 = a) by congruence. assert (g0 = g) by congruence. subst a0 g0. exists a, g, b, l. repeat (split; auto).
  intros L. specialize (Pb L). specialize (Pg L). assert (LG : (length g <= length (m_received t1))%nat) by (assert (X := f_equal (@length Z) Pg); rewrite firstn_length in X; lia).
  transitivity (firstn (length g) (firstn (length (m_received t1)) b)); [|now rewrite Pb]. rewrite firstn_firstn. f_equal. lia.
Qed.
Print Assumptions C22_delivers_the_checked_frame.

(** *** C26 *)
(** C26 is false.  1: the timeout report takes the function code from the response buffer (here still 0, not 3). *)
Definition no_answer : list mact :=
  ask rh ++ msteps 8 ++ [MEv MTxDone] ++ msteps 6 ++ concat (repeat (MEv MTick :: msteps 8) 3).
Theorem C26_refuted_timeout : exists k t, m_history mcfg no_answer k t /\ callbacks t = [TimeoutErr (mk_err 9 0 1 2 RESP_TIMEOUT_ERR)].
Proof.
  do 2 eexists. split.
  - exists m0. split; [apply m0_started|]. split; [apply reqs_safe_app; [apply ask_safe, rh_safe|apply req_free_safe; vm_compute; reflexivity]|vm_compute; reflexivity].
  - vm_compute. reflexivity.
Qed.
Print Assumptions C26_refuted_timeout.
(** 2: the communication error report takes the function code from the damaged response (here 127, not 3). *)
Definition damaged : list Z := [9; 127; 4; 18; 52; 171; 205; 0; 0].
Definition damaged_twice : list mact :=
  ask rh ++ concat (repeat (msteps 12 ++ [MEv MTxDone] ++ msteps 6 ++ mfeed damaged ++ [MEv MT15] ++ msteps 16 ++ [MEv MT35] ++ msteps 22) 2).
Theorem C26_refuted_comm : exists k t, m_history mcfg damaged_twice k t /\ callbacks t = [CommErr (mk_err 9 127 0 0 RESP_RTU_CRC_ERR)].
Proof.
  do 2 eexists. split.
  - exists m0. split; [apply m0_started|]. split; [apply reqs_safe_app; [apply ask_safe, rh_safe|apply req_free_safe; vm_compute; reflexivity]|vm_compute; reflexivity].
  - vm_compute. reflexivity.
Qed.
Print Assumptions C26_refuted_comm.
(** What holds of every timeout report in every history: slave ID, address and quantity (or value) field of the request
    being handled, and the kind.  Missing: the function code. *)
Theorem C26_timeout_partial : forall c sched k t, cfg_master_ok c -> m_history c sched k t ->
  forall t1 r t2, t = t1 ++ MTOut (MoCb (TimeoutErr r)) :: t2 -> exists a, current t1 = Some a /\
    r_id r = api_id a /\ r_adr r = api_adr a /\ r_qty r = api_field a /\ r_err r = RESP_TIMEOUT_ERR.
Proof.
  intros c sched k t Hc H t1 r t2 E. destruct (hist_cb_fact c sched k t Hc H t1 _ t2 E _ eq_refl) as (a & g & b & Cu & Pb & ->). exists a. auto.
Qed.
Print Assumptions C26_timeout_partial.
(** What holds of every communication error report: the kind is honest (some frame failed the CRC check; a frame error is
    pending), and if fewer than 256 bytes were received and the checked frame was not empty, the slave ID is the request's
    and the function code is that of the received frame.  Missing: the request's function code. *)
Theorem C26_comm_partial : forall c sched k t, cfg_master_ok c -> m_history c sched k t ->
  forall t1 r t2, t = t1 ++ MTOut (MoCb (CommErr r)) :: t2 -> exists a g, current t1 = Some a /\ m_checked t1 = Some g /\
    (r_err r = RESP_RTU_CRC_ERR /\ (exists t0 f t3, t1 = t0 ++ MTOut (MoCheck f) :: t3 /\ ~ crc_ok f) \/
     r_err r = RESP_FRAME_ERR /\ m_frame_err_pending t1 = true) /\
    ((length (m_received t1) < 256)%nat -> g <> [] -> r_id r = api_id a) /\
    ((2 <= length (m_received t1) < 256)%nat -> r_fc r = Z.land (byte_at (m_received t1) 1) 0x7F).
Proof.
  intros c sched k t Hc H t1 r t2 E. destruct (hist_cb_fact c sched k t Hc H t1 _ t2 E _ eq_refl) as (a & g & b & Cu & Pb & G & (e & -> & K) & Id). exists a, g. cbn [r_err r_id r_fc].
  split; auto. split; auto. split; auto. split; auto. intros L. rewrite (prefix_nth (m_received t1)); auto; [apply Pb; lia|lia].
Qed.
Print Assumptions C26_comm_partial.
Example C26_case : exists k t t1 t2 r, m_history mcfg no_answer k t /\ t = t1 ++ MTOut (MoCb (TimeoutErr r)) :: t2.
Proof.
  do 2 eexists. exists [MTEv (MReq rh); MTOut (MoRet rh REQUEST_SEND_TO_QUEUE); MTOut (MoSend (request_frame rh)); MTEv MTxDone; MTOut MoClear; MTEv MTick; MTEv MTick; MTEv MTick], [MTOut MoFree].
  eexists. split; [exists m0; split; [apply m0_started|]; split; [apply reqs_safe_app; [apply ask_safe, rh_safe|apply req_free_safe; vm_compute; reflexivity]|vm_compute; reflexivity]|vm_compute; reflexivity].
Qed.
