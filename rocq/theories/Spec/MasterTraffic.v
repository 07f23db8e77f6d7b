(** Vocabulary for the traffic a master sees. *)
From Coq Require Import List ZArith.
From Verif Require Import Model.Base Model.Types Model.Iface Model.Queue Model.Master.
From Verif Require Export Spec.MasterTrace.
Import ListNotations.
Open Scope Z_scope.

(** number of 1 ms ticks *)
Fixpoint ticks (l : list mev) : nat := match l with [] => 0 | MTick :: l => S (ticks l) | _ :: l => ticks l end.
(** the received bytes, in order *)
Fixpoint rx_bytes (l : list mev) : list Z := match l with [] => [] | MRx b :: l => u8 b :: rx_bytes l | _ :: l => rx_bytes l end.

(** The master waits for a response: it is between two polls in the waiting state, or in a poll at one of the two lines that
    look for a response or the timeout; no 1.5-character event is pending ([mm_t15] is the flag set by the interrupt); the
    response timer shows [n] ms. *)
Definition awaits (k : mconf) (n : Z) : Prop :=
  (mc_pc k = None /\ mm_st (mc_s k) = M_RESP_WAITING \/ mc_pc k = Some M690 \/ mc_pc k = Some M694) /\ mm_t15 (mc_s k) = CLEARED /\ mm_timer (mc_s k) = n.
(** The master is idle: between two polls, no request in hand. *)
Definition idle (k : mconf) : Prop := mc_pc k = None /\ mm_st (mc_s k) = M_IDLE.
(** The master has handed a request to the driver and waits for the completion of the transmission. *)
Definition transmits (k : mconf) : Prop := mc_pc k = None /\ mm_st (mc_s k) = M_TRANSMITTING_REQ.

(** a response frame that is complete for request [a]: an exception, or the function code of [a] with all the data asked for *)
Definition complete_answer (a : api) (f : list Z) : Prop :=
  128 <= byte_at f 1 /\ (3 <= length f)%nat \/
  byte_at f 1 = api_fc a /\ (2 <= length f)%nat /\
  (is_read a = true -> 3 + (if api_fc a <=? 2 then (api_qty a + 7) / 8 else 2 * api_qty a) <= Z.of_nat (length f)).

(** One transmission of a request and its answer, as a schedule: the steps that hand the request to the driver [y_send], the
    completion interrupt, the steps that bring the master to waiting [y_tx], the arrival of the answer's bytes [y_rx], the
    1.5-character event, steps [y_15], the 3.5-character event, steps [y_35].  Request calls may happen anywhere. *)
Record try := mk_try { y_send : list mact; y_tx : list mact; y_rx : list mact; y_15 : list mact; y_35 : list mact }.
Definition answer_sched (y : try) : list mact := y_rx y ++ MEv MT15 :: y_15 y ++ MEv MT35 :: y_35 y.
Definition try_sched (y : try) : list mact := y_send y ++ MEv MTxDone :: y_tx y ++ answer_sched y.
(** the bytes of the answer *)
Definition y_frame (y : try) : list Z := rx_bytes (m_events (y_rx y)).
(** which interrupts may occur in which part *)
Definition sev (e : mev) : Prop := match e with MT35 | MTick | MReq _ => True | _ => False end.
Definition calm (e : mev) : Prop := match e with MTxDone | MT35 | MTick | MReq _ => True | _ => False end.
Definition bev (e : mev) : Prop := match e with MTxDone | MTick | MReq _ => True | _ => False end.
(** The answer is handled in time: after each of the two events of a reception the master executes enough steps (a poll takes
    at most 12) before the next one, and the timeout [n] does not expire. *)
Record answer_timed (n : Z) (y : try) : Prop := {
  yt_rx : ~ In MT15 (m_events (y_rx y));
  yt_15 : forall e, In e (m_events (y_15 y)) -> bev e;
  yt_15s : (6 <= m_steps (y_15 y))%nat;
  yt_35 : forall e, In e (m_events (y_35 y)) -> sev e;
  yt_35s : (19 <= m_steps (y_35 y))%nat;
  yt_time : 2 + Z.of_nat (ticks (m_events (y_rx y) ++ m_events (y_15 y))) <= n }.
Record try_timed (n : Z) (y : try) : Prop := {
  yt_send : forall e, In e (m_events (y_send y)) -> sev e;
  yt_sends : (7 <= m_steps (y_send y))%nat;
  yt_tx : forall e, In e (m_events (y_tx y)) -> calm e;
  yt_txs : (7 <= m_steps (y_tx y))%nat;
  yt_answer : answer_timed (n - Z.of_nat (ticks (m_events (y_tx y)))) y }.
(** the answer comes from the addressed slave and fits the buffer *)
Definition addressed (a : api) (y : try) : Prop := hd_error (y_frame y) = Some (api_id a) /\ (length (y_frame y) < 256)%nat.
(** a correct answer; an answer with a wrong CRC; an answer with a frame error (but an intact CRC) *)
Definition good_answer (a : api) (y : try) : Prop :=
  addressed a y /\ crc_ok (y_frame y) /\ complete_answer a (y_frame y) /\ ~ In MFrameErr (m_events (y_rx y)).
Definition crc_bad (a : api) (y : try) : Prop := addressed a y /\ ~ crc_ok (y_frame y) /\ ~ In MFrameErr (m_events (y_rx y)).
Definition frame_bad (a : api) (y : try) : Prop := addressed a y /\ crc_ok (y_frame y) /\ In MFrameErr (m_events (y_rx y)).
(** no leftovers of earlier receptions: the flags set by interrupts and by the frame check *)
Definition no_leftovers (k : mconf) : Prop := mm_t15 (mc_s k) = CLEARED /\ mm_crc (mc_s k) = CLEARED /\ mm_fe (mc_s k) = CLEARED.

(** A frame from elsewhere: its bytes arrive ([g_rx]), the 1.5-character event, steps ([g_15]; one poll is enough).  Anything but
    further bytes and 1.5-character events may happen in between. *)
Record stray := mk_stray { g_rx : list mact; g_15 : list mact }.
Definition stray_sched (g : stray) : list mact := g_rx g ++ MEv MT15 :: g_15 g.
Definition stray_frame (g : stray) : list Z := rx_bytes (m_events (g_rx g)).
Definition quiet_line (e : mev) : Prop := match e with MT15 | MRx _ => False | _ => True end.
Record stray_ok (id : Z) (g : stray) : Prop := {
  sg_one : ~ In MT15 (m_events (g_rx g));
  sg_id : hd_error (stray_frame g) <> Some id;
  sg_some : stray_frame g <> [];
  sg_len : (length (stray_frame g) <= 256)%nat;
  sg_quiet : forall e, In e (m_events (g_15 g)) -> quiet_line e;
  sg_steps : (13 <= m_steps (g_15 g))%nat }.
Definition sched_ticks (l : list mact) : Z := Z.of_nat (ticks (m_events l)).

(** A request that nobody answers: steps that hand it to the driver ([z_send]), the completion interrupt, steps ([z_tx]), the
    first ticks ([z_wait]), the last tick, steps ([z_last]).  Request calls may happen anywhere, but nothing is received. *)
Record silent := mk_silent { z_send : list mact; z_tx : list mact; z_wait : list mact; z_last : list mact }.
Definition silent_sched (z : silent) : list mact := z_send z ++ MEv MTxDone :: z_tx z ++ z_wait z ++ MEv MTick :: z_last z.
Definition only_calls (e : mev) : Prop := match e with MReq _ => True | _ => False end.
Definition calls_ticks (e : mev) : Prop := match e with MReq _ | MTick => True | _ => False end.
Record silent_ok (T : Z) (z : silent) : Prop := {
  zo_send : forall e, In e (m_events (z_send z)) -> calls_ticks e;
  zo_sends : (7 <= m_steps (z_send z))%nat;
  zo_tx : forall e, In e (m_events (z_tx z)) -> only_calls e;
  zo_txs : (7 <= m_steps (z_tx z))%nat;
  zo_wait : forall e, In e (m_events (z_wait z)) -> calls_ticks e;
  zo_ticks : sched_ticks (z_wait z) = T - 2;
  zo_last : forall e, In e (m_events (z_last z)) -> only_calls e;
  zo_lasts : (9 <= m_steps (z_last z))%nat }.
(** the pending requests: accepted and not finished, oldest first *)
Definition pending_reqs (t : list mitem) : list api := skipn (finished t) (accepted t).
(** a communication error with a wrong CRC (a frame error) has been reported, and no wrong CRC (frame error) has caused a
    repetition since *)
Definition crc_error_reported (t : list mitem) : bool :=
  fold_left (fun acc x => match x with
    | MTOut (MoCb (CommErr r)) => match r_err r with RESP_RTU_CRC_ERR => true | _ => acc end
    | MTOut (MoRetry RESP_RTU_CRC_ERR) => false
    | _ => acc end) t false.
Definition frame_error_reported (t : list mitem) : bool :=
  fold_left (fun acc x => match x with
    | MTOut (MoCb (CommErr r)) => match r_err r with RESP_FRAME_ERR => true | _ => acc end
    | MTOut (MoRetry RESP_FRAME_ERR) => false
    | _ => acc end) t false.
(** the first byte of the response buffer of the request in hand *)
Definition response_byte0 (k : mconf) : option Z :=
  match mm_cur (mc_s k) with
  | Some i => match nth_error (mm_msgs (mc_s k)) i with Some m => Some (nth 0 (rr_buf (m_resp m)) 0) | None => None end
  | None => None
  end.
(** the number of bytes in the response buffer of the request in hand *)
Definition response_len (k : mconf) : option Z :=
  match mm_cur (mc_s k) with
  | Some i => match nth_error (mm_msgs (mc_s k)) i with Some m => Some (rr_len (m_resp m)) | None => None end
  | None => None
  end.
(** no request function is called *)
Definition no_calls (l : list mact) : Prop := forall a, ~ In (MReq a) (m_events l).
(** a tick and what follows it before the next one: at least one poll's worth of steps, no reception event *)
Definition polled_tick (l : list mact) : Prop := exists b, l = MEv MTick :: b /\ (9 <= m_steps b)%nat /\ forall e, In e (m_events b) -> e <> MTick /\ e <> MT15.
