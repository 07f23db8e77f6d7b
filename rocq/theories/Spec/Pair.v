(** The example master application and the example slave application on one bus. *)
From Coq Require Import List ZArith Bool.
From Verif Require Export Model.SlaveApp Spec.SlaveApp.
From Verif Require Export Model.MasterApp Spec.MasterApp Spec.Bus.
Import ListNotations.
Open Scope Z_scope.

(** the schedule of the master application as its firmware (library, driver, hardware) sees it *)
Fixpoint a_sched (c : cfg) (l : list aact) (a : mapp) : list wact :=
  match l with
  | [] => []
  | x :: l =>
      match x with
      | AaMain =>
          match a_pc a with
          | A55 => [WMain]
          | A66 | A83 => []
          | A79 => [WReq (ReadCoils 1 1 1)]
          | A80 => [WReq (ReadHoldingReg 1 1 1)]
          | A81 => [WReq (WriteSingleCoil 0 1 (readed_coil (a_vars a)))]
          | A82 => [WReq (WriteSingleReg 0 1 (readed_hreg (a_vars a)))]
          end
      | AaTick => [WTick]
      | AaHw y => match y with WMain | WTick | WReq _ => [] | _ => [y] end
      end ++ match a_act c x a with Ok (a1, _) => a_sched c l a1 | _ => [] end
  end.
(** one round of requests of the example master, with the values it writes *)
Definition round_of (v : bool) (r : Z) : list api := [ReadCoils 1 1 1; ReadHoldingReg 1 1 1; WriteSingleCoil 0 1 v; WriteSingleReg 0 1 r].
(** the variables of the example slave: coil_data[i], hreg_data[i] *)
Definition coil_var (d : sdata) (i : nat) : bool := nth i (v_bits d) false.
Definition hreg_var (d : sdata) (i : nat) : Z := nth i (v_regs d) 0.
(** nothing changed but coil_data[0] and hreg_data[0] *)
Definition with_outputs (d : sdata) (v : bool) (r : Z) : sdata := mk_sdata (t_coils d) (t_din d) (t_ireg d) (t_hreg d) (v :: tl (v_bits d)) (r :: tl (v_regs d)).
(** The example slave [b] is the only slave; the requests in [ps] are exchanged; [al]: what happens at the master, [bl]: at the slave *)
Definition pair_session (c : cfg) (a : mapp) (al : list aact) (c' : cfg) (b : sapp) (bl : list bact) (ps : list (api * bcall)) : Prop :=
  bus_session c (a_fw a) [] [mk_node c' (b_fw b)] ps /\
  a_sched c al a = concat (map (fun p => exch_sched (b_exch (snd p))) ps) /\
  b_sched c' bl b = concat (map (fun p => concat (b_slaves (snd p))) ps).
