(** Vocabulary for histories (traces) of a master: what was accepted, transmitted, received, reported.
    A trace lists the interrupts, ticks and request calls ([MTEv]) and the program's observable points ([MTOut]), oldest first. *)
From Coq Require Import List ZArith Bool.
From Verif Require Import Model.Types Model.Iface Model.Queue Model.Master.
From Verif Require Export Spec.Frame Spec.Buf Spec.Client.
Import ListNotations.
Open Scope Z_scope.

(** MODBUS_MASTER_MAX_MSG_QUEUE_ITEMS in 1..255, repeats in 0..254 *)
Definition cfg_master_ok (c : cfg) : Prop := 1 <= c_queue c <= 255 /\ 0 <= c_repeat c <= 254.

(** The static memory of a master has the right sizes; nothing is said about what happened before. *)
Definition half_mem_ok (r : rr) : Prop := length (rr_buf r) = 256%nat /\ bytes (rr_buf r) /\ byte (rr_len r).
Definition master_memory_ok (c : cfg) (s : master) : Prop :=
  length (mm_msgs s) = Z.to_nat (c_queue c) /\ Forall (fun m => half_mem_ok (m_req m) /\ half_mem_ok (m_resp m)) (mm_msgs s) /\
  length (q_slots (mm_free s)) = Z.to_nat (c_queue c) /\ length (q_slots (mm_txq s)) = Z.to_nat (c_queue c) /\
  (forall i, mm_rx s = Some i -> (i < Z.to_nat (c_queue c))%nat).

(** A call with arguments of the C types; arrays are long enough when they are going to be read. *)
Definition req_safe (a : api) : Prop := api_typed a /\ (api_valid a = true -> api_arrays a).
Definition reqs_safe (sched : list mact) : Prop := forall a, In (MEv (MReq a)) sched -> req_safe a.

(** requests accepted, in order *)
Fixpoint accepted (t : list mitem) : list api :=
  match t with
  | [] => []
  | MTOut (MoRet a REQUEST_SEND_TO_QUEUE) :: t => a :: accepted t
  | _ :: t => accepted t
  end.
(** number of requests rejected with a PDU error; number of finished requests *)
Fixpoint pdu_errors (t : list mitem) : nat :=
  match t with
  | [] => 0
  | MTOut (MoRet _ LIB_PDU_REQ_ERROR) :: t => S (pdu_errors t)
  | _ :: t => pdu_errors t
  end.
Fixpoint finished (t : list mitem) : nat :=
  match t with [] => 0 | MTOut MoFree :: t => S (finished t) | _ :: t => finished t end.
(** the request being handled: the oldest accepted one that is not finished *)
Definition current (t : list mitem) : option api := nth_error (accepted t) (finished t).
(** frames handed to the driver, in order *)
Fixpoint m_sent (t : list mitem) : list (list Z) :=
  match t with [] => [] | MTOut (MoSend f) :: t => f :: m_sent t | _ :: t => m_sent t end.
(** callbacks made, in order *)
Fixpoint callbacks (t : list mitem) : list cb :=
  match t with [] => [] | MTOut (MoCb x) :: t => x :: callbacks t | _ :: t => callbacks t end.

(** the externally visible acts: frame handed over, callback made, request finished (buffer free again) *)
Inductive vis := VSend (f : list Z) | VCb (x : cb) | VFree.
Fixpoint visible (t : list mitem) : list vis :=
  match t with
  | [] => []
  | MTOut (MoSend f) :: t => VSend f :: visible t
  | MTOut (MoCb x) :: t => VCb x :: visible t
  | MTOut MoFree :: t => VFree :: visible t
  | _ :: t => visible t
  end.

(** The one outcome of request [a]: a timeout report, a communication error report, or the callbacks of one response
    (held by some buffer [b]). *)
Definition timeout_report_of (a : api) (r : err_report) : Prop :=
  r_id r = api_id a /\ r_adr r = api_adr a /\ r_qty r = api_field a /\ r_err r = RESP_TIMEOUT_ERR.
Definition comm_report_of (r : err_report) : Prop :=
  r_err r = RESP_RTU_CRC_ERR \/ r_err r = RESP_FRAME_ERR.
Definition outcome_of (a : api) (l : list cb) : Prop :=
  (exists r, l = [TimeoutErr r] /\ timeout_report_of a r) \/
  (exists r, l = [CommErr r] /\ comm_report_of r) \/
  (exists b, delivered a b = Some l).
(** The handling of one request: transmitted [e_sends] times, its outcome reported, buffer freed. *)
Record episode := mk_episode { e_api : api; e_sends : nat; e_cbs : list cb }.
Definition sends (a : api) (k : nat) : list vis := repeat (VSend (request_frame a)) k.
Definition episode_trace (e : episode) : list vis := sends (e_api e) (e_sends e) ++ map VCb (e_cbs e) ++ [VFree].
Definition episode_ok (c : cfg) (e : episode) : Prop :=
  (1 <= e_sends e)%nat /\ Z.of_nat (e_sends e) <= 1 + c_repeat c /\ outcome_of (e_api e) (e_cbs e).

(** The driver has signalled completion of the last transmission of the request being handled *)
Definition tx_complete (t : list mitem) : bool :=
  fold_left (fun acc x => match x with
    | MTOut (MoSend _) | MTOut MoFree => false
    | MTEv MTxDone => true
    | _ => acc end) t false.
(** bytes received since reception last started anew *)
Definition m_received (t : list mitem) : list Z :=
  fold_left (fun acc x => match x with
    | MTEv (MRx b) => acc ++ [u8 b]
    | MTOut MoClear => []
    | _ => acc end) t [].
(** the receive length is a uint8_t: what the buffer holds of the bytes received (all of them up to 255) *)
Definition m_buffered (l : list Z) : list Z := skipn (256 * (length l / 256)) l.
(** the last bytes given to the frame check since the last transmission *)
Definition m_checked (t : list mitem) : option (list Z) :=
  fold_left (fun acc x => match x with
    | MTOut (MoCheck g) => Some g
    | MTOut (MoSend _) | MTOut MoFree => None
    | _ => acc end) t None.
(** a 3.5-character event occurred since the master last started handling a reception *)
Definition m_t35_after (t : list mitem) : bool :=
  fold_left (fun acc x => match x with
    | MTEv MT35 => true
    | MTOut MoHandle => false
    | _ => acc end) t false.
(** a frame error has been signalled and not been consumed by a retry *)
Definition m_frame_err_pending (t : list mitem) : bool :=
  fold_left (fun acc x => match x with
    | MTEv MFrameErr => true
    | MTOut (MoRetry RESP_FRAME_ERR) => false
    | _ => acc end) t false.
(** when the master decided to deliver (last MoNoFrameErr after the last check) no frame error was pending *)
Definition m_started_clean (t : list mitem) : bool :=
  snd (fold_left (fun acc x => match x with
    | MTEv MFrameErr => (true, snd acc)
    | MTOut (MoRetry RESP_FRAME_ERR) => (false, snd acc)
    | MTOut (MoCheck _) | MTOut (MoSend _) => (fst acc, false)
    | MTOut MoNoFrameErr => (fst acc, negb (fst acc))
    | _ => acc end) t (false, false)).

(** callbacks that belong to a response *)
Definition is_response (x : cb) : Prop := match x with TimeoutErr _ | CommErr _ => False | _ => True end.

(** A schedule's interrupts, ticks and calls, in order *)
Fixpoint m_events (l : list mact) : list mev :=
  match l with [] => [] | MStep :: l => m_events l | MEv e :: l => e :: m_events l end.
Fixpoint m_steps (l : list mact) : nat := match l with [] => 0 | MStep :: l => S (m_steps l) | MEv _ :: l => m_steps l end.

(** *** message buffers *)
(** the contents of a queue, oldest first *)
Definition queue_list {A : Type} (N : Z) (q : queue A) : list A :=
  flat_map (fun k => match nth (Z.to_nat ((q_tail q + Z.of_nat k) mod N)) (q_slots q) None with Some x => [x] | None => [] end)
           (seq 0 (Z.to_nat (q_items q))).
(** the buffer being handled: none in the idle state and at lines 649, 651, 902 *)
Definition busy (k : mconf) : bool :=
  match mc_pc k with
  | Some M649 | Some M651 | Some M902 => false
  | Some _ => true
  | None => match mm_st (mc_s k) with M_IDLE => false | _ => true end
  end.
Definition in_flight (k : mconf) : list nat :=
  if busy k then match mm_cur (mc_s k) with Some i => [i] | None => [] end else [].

(** A master just initialised in RTU mode, whatever happened before, and what it may do from there *)
Definition started (c : cfg) (s : master) : Prop := exists s0, master_memory_ok c s0 /\ modbus_master_init c RTU s0 = Ok s.
Definition m_history (c : cfg) (sched : list mact) (k : mconf) (t : list mitem) : Prop :=
  exists s, started c s /\ reqs_safe sched /\ m_run c sched (mk_mconf s None) = Ok (k, t).
(** free message buffers; requests waiting *)
Definition free_bufs (c : cfg) (s : master) : list nat := queue_list (c_queue c) (mm_free s).
Definition waiting (c : cfg) (s : master) : list nat := queue_list (c_queue c) (mm_txq s).
