(** Vocabulary for the master firmware (library, STM32 example driver, UART): what can be seen on the line. *)
From Coq Require Import List ZArith Bool.
From Verif Require Import Model.Base Model.Types Model.Iface Model.Master Model.MasterSystem.
From Verif Require Export Spec.MasterTraffic.
Import ListNotations.
Open Scope Z_scope.

(** the library's part of a history; the bytes the UART put on the line *)
Definition m_lib_of (t : list witem) : list mitem := flat_map (fun x => match x with WLib i => [i] | WLine _ => [] end) t.
Definition m_on_line (t : list witem) : list Z := flat_map (fun x => match x with WLine b => [b] | WLib _ => [] end) t.

(** the driver transmits nothing *)
Definition tx_idle (w : mfw) : Prop := w_sub w = None /\ u_tdr (w_u w) = None /\ u_last (w_u w) <= u_cur (w_u w) /\ u_txeie (w_u w) = false.
(** just started: the library initialised, the main program outside of the library, the driver transmits nothing, and if the UART holds a received byte there is a buffer for it.
    (After power-on the driver has its initial values; the library may also have been initialised again in a running firmware.) *)
Definition mfw_started (c : cfg) (w : mfw) : Prop :=
  started c (mc_s (w_lib w)) /\ mc_pc (w_lib w) = None /\ tx_idle w /\ (u_rdr (w_u w) <> None -> mm_rx (mc_s (w_lib w)) <> None).
(** all calls in the schedule have arguments of the C types and arrays that are long enough *)
Definition w_reqs_safe (l : list wact) : Prop := forall a, In (WReq a) l -> req_safe a.

(** [P] holds whenever the schedule [l], started in [w], comes to an action [x] *)
Definition always_at (c : cfg) (w : mfw) (l : list wact) (P : wact -> mfw -> list witem -> Prop) : Prop :=
  forall l1 x l2 w1 t1, l = l1 ++ x :: l2 -> w_run c l1 w = Ok (w1, t1) -> P x w1 t1.
(** The UART's interrupt handler is not started while the main program is in the driver's send function and has not yet written
    the first byte to the UART. *)
Definition m_send_undisturbed (c : cfg) (w : mfw) (l : list wact) : Prop :=
  always_at c w l (fun x w1 _ => x = WUsart -> match w_sub w1 with Some (W83 _ _) | Some (W84 _ _) | Some (W85 _) => False | _ => True end).
(** No character arrives before the driver has been given a receive buffer, i.e. before the first request is being transmitted. *)
Definition no_early_rx (c : cfg) (w : mfw) (l : list wact) : Prop :=
  always_at c w l (fun x w1 _ => forall b, x = WRx b -> mm_rx (mc_s (w_lib w1)) <> None).
(** Slaves asked for more than 126 items answer with the function code of the request, or an exception, and fewer than 256 bytes. *)
Definition w_polite (c : cfg) (w : mfw) (l : list wact) : Prop :=
  always_at c w l (fun _ _ t => forall a, current (m_lib_of t) = Some a -> is_read a = true -> 126 < api_qty a ->
    (length (m_received (m_lib_of t)) < 256)%nat /\
    (forall g, m_checked (m_lib_of t) = Some g -> intact (api_id a) g -> byte_at g 1 = api_fc a \/ 128 <= byte_at g 1)).

(** *** exchanges on the line *)
(** the main program, SysTick, the application *)
Definition w_plain (x : wact) : bool := match x with WMain | WTick | WReq _ => true | _ => false end.
(** ... and the transmitter *)
Definition w_tx_only (x : wact) : bool := match x with WMain | WTick | WReq _ | WShift | WUsart => true | _ => false end.
Definition w_mains (l : list wact) : nat := length (filter (fun x => match x with WMain => true | _ => false end) l).
Definition w_shifts (l : list wact) : nat := length (filter (fun x => match x with WShift => true | _ => false end) l).
Definition w_ticks (l : list wact) : nat := length (filter (fun x => match x with WTick => true | _ => false end) l).
Definition w_hardware (l : list wact) : list wact := filter (fun x => negb (w_plain x)) l.
(** at least [n] times a byte is taken by the transmitter and the UART's interrupt handler is called thereafter *)
Inductive w_rounds : nat -> list wact -> Prop :=
| w_rounds_0 l : w_rounds 0 l
| w_rounds_S n a b l : w_rounds n l -> w_rounds (S n) (a ++ WShift :: b ++ WUsart :: l).
(** One transmission of a request and its answer on the line: the main program hands the request to the driver ([v_send]), the bytes leave ([v_out]), the
    master gets ready for the answer ([v_wait]), the answer's bytes arrive and the receiver times out ([v_rx]), its interrupt,
    the timer expires ([v_15]), its interrupt, the answer is processed ([v_35]). *)
Record wtry := mk_wtry { v_send : list wact; v_out : list wact; v_wait : list wact; v_rx : list wact; v_15 : list wact; v_35 : list wact }.
Definition wtry_sched (v : wtry) : list wact := v_send v ++ v_out v ++ v_wait v ++ v_rx v ++ WUsart :: v_15 v ++ WTimer :: v_35 v.
(** The answer [f] to a request of [len] bytes arrives and everything happens in time: interrupts are served before the next byte is
    through, the main program executes enough lines (a poll takes at most 12, the driver's send function 7), the timeout [T] (ms) does not expire.
    Main program lines, ticks and request calls may happen at any point. *)
Record wtry_ok (T : Z) (len : nat) (f : list Z) (v : wtry) : Prop := {
  vt_send : forallb w_tx_only (v_send v) = true;
  vt_sends : (14 <= w_mains (v_send v))%nat;
  vt_shifts : (w_shifts (v_send v) < len)%nat;
  vt_out : forallb w_tx_only (v_out v) = true;
  vt_outs : w_rounds len (v_out v);
  vt_wait : forallb w_plain (v_wait v) = true;
  vt_waits : (7 <= w_mains (v_wait v))%nat;
  vt_rx : w_hardware (v_rx v) = flat_map (fun b => [WRx b; WUsart]) f ++ [WRto];
  vt_15 : w_hardware (v_15 v) = [WTim];
  vt_15s : (6 <= w_mains (v_15 v))%nat;
  vt_35 : forallb w_plain (v_35 v) = true;
  vt_35s : (19 <= w_mains (v_35 v))%nat;
  vt_time : 2 + Z.of_nat (w_ticks (v_out v ++ v_wait v ++ v_rx v ++ v_15 v)) <= T }.
(** driver and UART are at rest *)
Definition driver_rests (w : mfw) : Prop :=
  w_sub w = None /\ u_tdr (w_u w) = None /\ u_last (w_u w) <= u_cur (w_u w) /\ u_txeie (w_u w) = false /\ u_det (w_u w) = false /\ u_rdr (w_u w) = None /\
  u_rtof (w_u w) = false /\ u_cen (w_u w) = false /\ u_uif (w_u w) = false.
(** The driver can send: as at rest, but its frame-end flag may be set and its timer may be running *)
Definition driver_ready (w : mfw) : Prop :=
  w_sub w = None /\ u_tdr (w_u w) = None /\ u_last (w_u w) <= u_cur (w_u w) /\ u_txeie (w_u w) = false /\ u_rdr (w_u w) = None /\ u_rtof (w_u w) = false /\ u_uif (w_u w) = false.
(** a frame from the slave that request [a] is for; a complete answer with a correct CRC; a frame with a wrong CRC *)
Definition from_slave (a : api) (f : list Z) : Prop := Forall (fun b => 0 <= b < 256) f /\ hd_error f = Some (api_id a) /\ (length f < 256)%nat.
Definition good_frame (a : api) (f : list Z) : Prop := from_slave a f /\ crc_ok f /\ complete_answer a f.
Definition bad_frame (a : api) (f : list Z) : Prop := from_slave a f /\ ~ crc_ok f.
(** A request that nobody answers: it is handed to the driver ([x_send]), its bytes leave ([x_out]), the master gets ready for the answer ([x_wait]), then
    every millisecond ([x_ticks]) SysTick occurs and the main program executes at least 9 lines.  Main program lines and request calls may happen at any point. *)
Record wsilent := mk_wsilent { x_send : list wact; x_out : list wact; x_wait : list wact; x_ticks : list (list wact) }.
Definition wsilent_sched (x : wsilent) : list wact := x_send x ++ x_out x ++ x_wait x ++ concat (x_ticks x).
Definition w_tick (l : list wact) : Prop := exists b, l = WTick :: b /\ forallb w_plain b = true /\ w_ticks b = 0%nat /\ (9 <= w_mains b)%nat.
Record wsilent_ok (T : Z) (len : nat) (x : wsilent) : Prop := {
  xt_send : forallb w_tx_only (x_send x) = true;
  xt_sends : (14 <= w_mains (x_send x))%nat;
  xt_shifts : (w_shifts (x_send x) < len)%nat;
  xt_out : forallb w_tx_only (x_out x) = true;
  xt_outs : w_rounds len (x_out x);
  xt_wait : forallb w_plain (x_wait x) = true;
  xt_waits : (7 <= w_mains (x_wait x))%nat;
  xt_time : 2 + Z.of_nat (w_ticks (x_out x ++ x_wait x)) <= T;
  xt_tick : Forall w_tick (x_ticks x);
  xt_ticks : Z.of_nat (length (x_ticks x)) = T - 1 }.
(** What happens to a request on the line: it is transmitted [n]+1 times, the first [n] answers ([e_bad], with their schedules) have wrong CRCs, the last one is good; or nobody
    answers the transmission. *)
Inductive exch := Answered (bad : list (list Z * wtry)) (f : list Z) (v : wtry) | Unanswered (x : wsilent).
Definition exch_sched (e : exch) : list wact :=
  match e with Answered bad f v => concat (map (fun p => wtry_sched (snd p)) bad) ++ wtry_sched v | Unanswered x => wsilent_sched x end.
Definition exch_sends (e : exch) : nat := match e with Answered bad _ _ => S (length bad) | Unanswered _ => 1 end.
Definition exch_ok (c : cfg) (a : api) (e : exch) : Prop :=
  let len := length (request_frame a) in
  match e with
  | Answered bad f v => Z.of_nat (length bad) <= c_repeat c /\ Forall (fun p => bad_frame a (fst p) /\ wtry_ok (c_timeout c) len (fst p) (snd p)) bad /\ good_frame a f /\ wtry_ok (c_timeout c) len f v
  | Unanswered x => wsilent_ok (c_timeout c) len x
  end.
(** what the application is told in the end *)
Definition exch_result (a : api) (e : exch) (l : list cb) : Prop :=
  match e with Answered _ f _ => delivered a f = Some l | Unanswered _ => exists r, l = [TimeoutErr r] /\ timeout_report_of a r end.
(** what appears on the line, and what the application sees, if the request of [p] goes as [p] says *)
Definition exch_frames (p : api * exch) : list Z := concat (repeat (request_frame (fst p)) (exch_sends (snd p))).
Definition exch_view (p : api * exch * list cb) : list vis := sends (fst (fst p)) (exch_sends (snd (fst p))) ++ map VCb (snd p) ++ [VFree].
(** a firmware history: started, then the schedule [sched] *)
Definition w_history (c : cfg) (sched : list wact) (w : mfw) (t : list witem) : Prop :=
  exists w0, mfw_started c w0 /\ w_reqs_safe sched /\ w_run c sched w0 = Ok (w, t).
(** nothing is going on: the main program is between two polls, the master idle, no error flags set, the driver at rest *)
Definition w_rests (w : mfw) : Prop := idle (w_lib w) /\ no_leftovers (w_lib w) /\ driver_rests w.
(** ... except that the driver's frame-end flag may be set and its timer may be running *)
Definition w_ready (w : mfw) : Prop := idle (w_lib w) /\ no_leftovers (w_lib w) /\ driver_ready w.
