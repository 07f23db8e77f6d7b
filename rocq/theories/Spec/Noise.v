(** One master firmware and any number of slave firmwares on a noisy bus: requests may arrive damaged or not at all at the slave, answers may arrive damaged
    or not at all at the master. *)
From Coq Require Import List ZArith Bool.
From Verif Require Import Model.Base Model.Types Model.Iface Model.SlaveData Model.Slave Model.Master Model.SlaveSystem Model.MasterSystem.
From Verif Require Spec.SlaveSystem.
From Verif Require Export Spec.Bus.
Import ListNotations.
Open Scope Z_scope.

(** Frames arrive at a slave that are not for it or damaged: none is intact for its ID. *)
Inductive garbled (id : Z) : list yact -> Prop :=
| garbled_none : garbled id []
| garbled_more h l m rest : SlaveSystem.wire_frame h l -> SlaveSystem.wire_silence m -> h <> [] -> bytes h -> ~ intact id (SlaveTrace.buffered h) -> garbled id rest -> garbled id (l ++ m ++ rest).
(** What node [n] makes (schedule [l]) of a transmission of the request [g] for slave [id].  [x]: it is the addressed slave and the request gets_there intact, possibly
    between other frames; otherwise nothing gets_there that is intact for this node. *)
Definition node_takes (id : Z) (g : list Z) (n : node) (p : bool * list yact) : Prop :=
  if fst p then n_id n = id /\ exists l1 l2 l3, snd p = l1 ++ l2 ++ l3 /\ garbled (n_id n) l1 /\ is_asked n g l2 /\ garbled (n_id n) l3
  else garbled (n_id n) (snd p).
(** the slaves, one by one: does the request reach the slave; its schedule *)
Definition hearing := list (bool * list yact).
Definition reached (h : hearing) : bool := existsb fst h.
(** The master, started in [w], has gone through [pre] and now transmits (schedule [tx]): the slaves take what is on the line as in [h]. *)
Definition bus_takes (c : cfg) (w : mfw) (pre tx : list wact) (ns : list node) (id : Z) (h : hearing) : Prop :=
  forall w1 t1 w2 t2, w_run c pre w = Ok (w1, t1) -> w_run c tx w1 = Ok (w2, t2) -> Forall2 (node_takes id (m_on_line t2)) ns h.

(** A request on a noisy bus: the first transmissions are answered by something with a wrong CRC ([k_bad]: what gets_there at the master, its schedule, the slaves);
    then the slave's answer gets_there, or nothing at all, or the master has used up its attempts. *)
Inductive ending := Heard (f : list Z) (v : wtry) (h : hearing) | Nothing (x : wsilent) (h : hearing) | GaveUp.
Record ncall := mk_ncall { k_bad : list (list Z * wtry * hearing); k_end : ending }.
Definition gave_up (k : ncall) : bool := match k_end k with GaveUp => true | _ => false end.
Fixpoint noisy_call (c : cfg) (w : mfw) (pre : list wact) (ns : list node) (a : api) (bad : list (list Z * wtry * hearing)) (e : ending) : Prop :=
  match bad with
  | (f, v, h) :: bad =>
      bad_frame a f /\ wtry_ok (c_timeout c) (length (request_frame a)) f v /\ bus_takes c w pre (v_send v ++ v_out v) ns (api_id a) h /\
      forall ns' out, bus_run ns (map snd h) ns' out -> noisy_call c w (pre ++ wtry_sched v) ns' a bad e
  | [] =>
      match e with
      | Heard f v h => wtry_ok (c_timeout c) (length (request_frame a)) f v /\ bus_takes c w pre (v_send v ++ v_out v) ns (api_id a) h /\ reached h = true /\
          forall ns' out, bus_run ns (map snd h) ns' out -> f = out
      | Nothing x h => wsilent_ok (c_timeout c) (length (request_frame a)) x /\ bus_takes c w pre (x_send x ++ x_out x) ns (api_id a) h
      | GaveUp => True
      end
  end.
(** the number of attempts fits: at most the configured number of repetitions; one more failed attempt than repetitions if the master gives up *)
Definition attempts_ok (c : cfg) (k : ncall) : Prop :=
  if gave_up k then Z.of_nat (length (k_bad k)) = c_repeat c + 1 else Z.of_nat (length (k_bad k)) <= c_repeat c.
(** the master's schedule; the slaves' schedules, transmission by transmission; the number of transmissions; does the request reach the slave at least once *)
Definition nsched (k : ncall) : list wact :=
  concat (map (fun p => wtry_sched (snd (fst p))) (k_bad k)) ++ match k_end k with Heard _ v _ => wtry_sched v | Nothing x _ => wsilent_sched x | GaveUp => [] end.
Definition hearings (k : ncall) : list hearing := map snd (k_bad k) ++ match k_end k with Heard _ _ h | Nothing _ h => [h] | GaveUp => [] end.
Definition nslaves (k : ncall) : list (list (list yact)) := map (map snd) (hearings k).
Definition transmissions (k : ncall) : nat := length (hearings k).
Definition gets_there (k : ncall) : bool := existsb reached (hearings k).

(** a session: requests one after the other; no further one after the master has given up *)
Fixpoint noisy_session (c : cfg) (w : mfw) (pre : list wact) (ns : list node) (ps : list (api * ncall)) : Prop :=
  match ps with
  | [] => True
  | (a, k) :: ps => noisy_call c w pre ns a (k_bad k) (k_end k) /\ attempts_ok c k /\ (gave_up k = true -> ps = []) /\
      forall ns' outs, bus_runs ns (nslaves k) ns' outs -> noisy_session c w (pre ++ nsched k) ns' ps
  end.

(** what a request does to a memory and what its application is told if it is executed *)
Definition executed (c : cfg) (d : sdata) (a : api) (d' : sdata) (l : list cb) : Prop :=
  if is_read a then d' = d /\ read_result c d a l else write_result c d a d' l.
(** the application is told that something has gone wrong *)
Definition error_told (a : api) (l : list cb) : Prop :=
  (exists r, l = [TimeoutErr r] /\ timeout_report_of a r) \/ (exists e, l = [CommErr e] /\ r_err e = RESP_RTU_CRC_ERR /\ r_id e = api_id a).
(** What the application is told and what the memories are in the end.  [x]: the request has reached the slave at least once.  A result is reported only if the request
    has been executed, and it is that of executing it once, however many transmissions there were; if an error is reported, the memory is as
    if the request had been executed exactly once, or not at all. *)
Inductive noisy_served : list mem -> list (api * bool) -> list (list cb) -> list mem -> Prop :=
| noisy_none ms : noisy_served ms [] [] ms
| noisy_done ms1 c d ms2 a d1 l reqs ls ms' : executed c d a d1 l ->
    noisy_served (ms1 ++ (api_id a, c, d1) :: ms2) reqs ls ms' -> noisy_served (ms1 ++ (api_id a, c, d) :: ms2) ((a, true) :: reqs) (l :: ls) ms'
| noisy_error ms1 c d ms2 a x d1 l reqs ls ms' : error_told a l -> (if x : bool then exists l', executed c d a d1 l' else d1 = d) ->
    noisy_served (ms1 ++ (api_id a, c, d1) :: ms2) reqs ls ms' -> noisy_served (ms1 ++ (api_id a, c, d) :: ms2) ((a, x) :: reqs) (l :: ls) ms'
| noisy_absent ms a l reqs ls ms' : ~ In (api_id a) (map (fun m => fst (fst m)) ms) -> error_told a l ->
    noisy_served ms reqs ls ms' -> noisy_served ms ((a, false) :: reqs) (l :: ls) ms'.
(** which report: the answer's contents, a timeout, a communication error *)
Definition told (a : api) (e : ending) (l : list cb) : Prop :=
  match e with
  | Heard f _ _ => delivered a f = Some l
  | Nothing _ _ => exists r, l = [TimeoutErr r] /\ timeout_report_of a r
  | GaveUp => exists e, l = [CommErr e] /\ r_err e = RESP_RTU_CRC_ERR /\ r_id e = api_id a
  end.
(** what an observer of the master sees of a request *)
Definition noisy_view (p : api * ncall * list cb) : list vis := sends (fst (fst p)) (transmissions (snd (fst p))) ++ map VCb (snd p) ++ [VFree].
