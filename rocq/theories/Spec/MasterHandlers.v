(** Vocabulary for handlers executed statement by statement. *)
From Coq Require Import List ZArith Bool.
From Verif Require Import Model.Base Model.Types Model.Iface Model.Master Model.MasterSystem.
From Verif Require Export Model.MasterHandlers Spec.MasterSystem.
Import ListNotations.
Open Scope Z_scope.

(** The schedule seen from a firmware whose handlers are indivisible: a driver's handler counts when it starts, SysTick's when it ends. *)
Definition act_of (a : hact) (h : hfw) : list wact :=
  match a with
  | HMain => if no_handler h then match h_cr1 h with None => [WMain] | Some _ => [] end else []
  | HReq r => if no_handler h then [WReq r] else []
  | HUsart => match h_irq h with None => if h_pending h then [WUsart] else [] | Some _ => [] end
  | HTimer => match h_irq h with None => if u_uif (w_u (h_fw h)) then [WTimer] else [] | Some _ => [] end
  | HTick => []
  | HStep => match h_irq h, h_tick h with
             | None, Some p => match fst (fst (t_line p (w_lib (h_fw h)))) with None => [WTick] | Some _ => [] end
             | _, _ => []
             end
  | HHw x => if is_hw x then [x] else []
  end.
Fixpoint acts_of (c : cfg) (l : list hact) (h : hfw) : list wact :=
  match l with
  | [] => []
  | a :: l => act_of a h ++ match h_act c a h with Ok (h1, _) => acts_of c l h1 | _ => [] end
  end.
(** Two different ones of: character, byte taken by the transmitter, receiver time-out, timer *)
Definition kind (x : wact) : nat := match x with WRx _ => 0 | WShift => 1 | WRto => 2 | WTim => 3 | _ => 4 end.
(** [ws] is [l], some hardware events taken to have happened earlier: before the handler during which they happened, or before hardware events of another kind.
    The order of the main program's lines, request calls, ticks and handlers among each other, of the hardware events of each kind, and of the main program's lines,
    requests and ticks against hardware events is the same. *)
Inductive moved : list wact -> list wact -> Prop :=
| moved_refl l : moved l l
| moved_trans l m n : moved l m -> moved m n -> moved l n
| moved_swap l1 y x l2 : is_hw x = true -> y = WUsart \/ y = WTimer \/ is_hw y = true /\ kind y <> kind x -> moved (l1 ++ y :: x :: l2) (l1 ++ x :: y :: l2).

(** just started; reception interrupts are enabled if and only if there is a buffer *)
Definition hfw_started (c : cfg) (h : hfw) : Prop :=
  mfw_started c (h_fw h) /\ h_irq h = None /\ h_tick h = None /\ h_cr1 h = None /\ (h_rxne h = true <-> mm_rx (mc_s (w_lib (h_fw h))) <> None).
Definition h_reqs_safe (l : list hact) : Prop := forall a, In (HReq a) l -> req_safe a.
(** [P] holds whenever the schedule [l], started in [h], comes to an action [x] *)
Definition h_always (c : cfg) (h : hfw) (l : list hact) (P : hact -> hfw -> list witem -> Prop) : Prop :=
  forall l1 x l2 h1 t1, l = l1 ++ x :: l2 -> h_run c l1 h = Ok (h1, t1) -> P x h1 t1.
(** Between the load and the store of CR1 in DRV:96 no handler switches the transmitter's interrupt off (does not notice that the transmission is complete). *)
Definition cr1_undisturbed (c : cfg) (h : hfw) (l : list hact) : Prop :=
  h_always c h l (fun x h1 _ => x = HMain -> forall v, h_cr1 h1 = Some (E96s v) -> u_txeie (w_u (h_fw h1)) = v).
(** as for the firmware with indivisible handlers (Spec/MasterSystem.v) *)
Definition h_send_undisturbed (c : cfg) (h : hfw) (l : list hact) : Prop :=
  h_always c h l (fun x h1 _ => x = HUsart -> match w_sub (h_fw h1) with Some (W83 _ _) | Some (W84 _ _) | Some (W85 _) => False | _ => True end).
Definition h_no_early_rx (c : cfg) (h : hfw) (l : list hact) : Prop :=
  h_always c h l (fun x h1 _ => forall b, x = HHw (WRx b) -> mm_rx (mc_s (w_lib (h_fw h1))) <> None).
Definition h_polite (c : cfg) (h : hfw) (l : list hact) : Prop :=
  forall l1 l2 h1 t, l = l1 ++ l2 -> h_run c l1 h = Ok (h1, t) -> forall a, current (m_lib_of t) = Some a -> is_read a = true -> 126 < api_qty a ->
    (length (m_received (m_lib_of t)) < 256)%nat /\
    (forall g, m_checked (m_lib_of t) = Some g -> intact (api_id a) g -> byte_at g 1 = api_fc a \/ 128 <= byte_at g 1).
(** how often the driver has told the library that a transmission is complete *)
Fixpoint completions (t : list mitem) : nat := match t with [] => 0%nat | MTEv MTxDone :: t => S (completions t) | _ :: t => completions t end.
(** no character arrives, no receiver time-out *)
Definition heard_nothing (h : hfw) (l : list hact) : Prop :=
  u_rdr (w_u (h_fw h)) = None /\ u_rtof (w_u (h_fw h)) = false /\ forall b, ~ In (HHw (WRx b)) l /\ ~ In (HHw WRto) l.

(** A hardware event is on time if the rest of the handler that is running (which is about to execute [p]) does not look at what it changes. *)
Definition passed (x : wact) (p : hpc) : bool :=
  match p, x with
  | (U123 | U125), WRx _ => false
  | _, WRx _ => true
  | (U145 | U146 | U149 | U151 | U153 | U155 | U156 | V162 | V164 | V165 | V167), WShift => true
  | _, WShift => false
  | (V162 | V164 | V165 | V167), WRto => true
  | _, WRto => false
  | (U135 | U137 | U139 | U140 | U145 | U146 | U149 | U151 | U153 | U155 | U156), WTim => true
  | _, WTim => false
  | _, _ => true
  end.
Definition h_on_time (c : cfg) (h : hfw) (l : list hact) : Prop :=
  h_always c h l (fun a h1 _ => forall x p, a = HHw x -> is_hw x = true -> h_irq h1 = Some p -> passed x p = true).
