(** Vocabulary for the example master application. *)
From Coq Require Import List ZArith Bool.
From Verif Require Import Model.Base Model.Types Model.Iface Model.Master Model.MasterSystem Model.MasterApp.
From Verif Require Export Spec.MasterSystem.
Import ListNotations.
Open Scope Z_scope.

(** a history of the application: power-on, then the schedule [sched] *)
Definition app_history (c : cfg) (sched : list aact) (a : mapp) (t : list witem) : Prop :=
  exists a0, master_app c = Ok a0 /\ a_run c sched a0 = Ok (a, t).
(** SysTick interrupts, main program lines in a schedule *)
Definition app_ticks (l : list aact) : nat := length (filter (fun x => match x with AaTick => true | _ => false end) l).
Definition app_mains (l : list aact) : nat := length (filter (fun x => match x with AaMain => true | _ => false end) l).
(** request functions called, with what they returned *)
Definition app_calls (t : list witem) : list (api * req_ret) :=
  flat_map (fun x => match x with WLib (MTOut (MoRet a r)) => [(a, r)] | _ => [] end) t.
(** the value reported last for coil 1 and for holding register 1 of slave 1; 0 if there was none *)
Definition coil_seen (l : list cb) : bool := fold_left (fun v x => match x with CoilRead 1 1 b => b | _ => v end) l false.
Definition hreg_seen (l : list cb) : Z := fold_left (fun v x => match x with HregRead 1 1 r => r | _ => v end) l 0.
(** the [n]-th request of the application, when the callbacks [l] have been made: in turn, read coil 1 and holding register 1 of slave 1, write what was seen there
    last to coil 0 and holding register 0 *)
Definition app_request (n : nat) (l : list cb) : api :=
  match (n mod 4)%nat with
  | 0%nat => ReadCoils 1 1 1
  | 1%nat => ReadHoldingReg 1 1 1
  | 2%nat => WriteSingleCoil 0 1 (coil_seen l)
  | _ => WriteSingleReg 0 1 (hreg_seen l)
  end.
(** [P] holds whenever the schedule [l], started in [a], comes to an action [x] *)
Definition a_always (c : cfg) (a : mapp) (l : list aact) (P : aact -> mfw -> Prop) : Prop :=
  forall l1 x l2 a1 t1, l = l1 ++ x :: l2 -> a_run c l1 a = Ok (a1, t1) -> P x (a_fw a1).
(** as for the firmware: no UART interrupt inside the driver's send before the first byte is written; no character before the first request is being transmitted *)
Definition a_send_undisturbed (c : cfg) (a : mapp) (l : list aact) : Prop :=
  a_always c a l (fun x w => x = AaHw WUsart -> match w_sub w with Some (W83 _ _) | Some (W84 _ _) | Some (W85 _) => False | _ => True end).
Definition a_no_early_rx (c : cfg) (a : mapp) (l : list aact) : Prop :=
  a_always c a l (fun x w => forall b, x = AaHw (WRx b) -> mm_rx (mc_s (w_lib w)) <> None).
