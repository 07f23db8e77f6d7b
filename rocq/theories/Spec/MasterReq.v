(** A request call interrupted by the master's manager: when that is harmless. *)
From Coq Require Import List ZArith Bool.
From Verif Require Import Model.MasterReq.
From Verif Require Export Spec.QueueIrq Spec.MasterTrace.
Import ListNotations.
Open Scope Z_scope.

(** the interrupt handlers' actions, in order; none of them makes a request itself *)
Definition r_irqs (acts : list ract) : list mact := flat_map (fun x => match x with RStep => [] | RIrq y => [y] end) acts.
Definition no_requests (l : list mact) : Prop := forall a, ~ In (MEv (MReq a)) l.
(** the request's message is in the queue and has been taken out again by the manager before the push has updated both counter and head *)
Definition taken_early (pc : push_pc nat) (q : queue nat) : bool :=
  match pc with P64 nh => negb (q_tail q =? q_head q) | P72 | P72s _ => q_items q =? 255 | _ => false end.
(** Moments at which a line of the manager may not be executed: the queue operations of lines 901 and 651 between the load and the store of the
    call's counter; line 649 when the message has been taken early *)
Definition r_fine (l : option mpc) (pc : rpc) (s : master) : bool :=
  match l, pc with
  | Some M901, RPop p => negb (pop_in_count p)
  | Some M651, RPush _ p => negb (push_in_count p)
  | Some M649, RPush _ p => negb (taken_early p (mm_txq s))
  | _, _ => true
  end.
Fixpoint r_harmless (c : cfg) (a : api) (acts : list ract) (k : rpc * mconf) : Prop :=
  match acts with
  | [] => True
  | x :: l => (x = RIrq MStep -> r_fine (mc_pc (snd k)) (fst k) (mc_s (snd k)) = true) /\
      forall pc' k' t, r_act c a x k = Ok (pc', k', t) -> r_harmless c a l (pc', k')
  end.
(** whole programs: the calls' arguments are typed, the handlers make no requests, and every call is interrupted harmlessly *)
Definition p_safe (prog : list stage) : Prop :=
  Forall (fun s => match s with Between l => no_requests l | Call a acts => req_safe a /\ no_requests (r_irqs acts) end) prog.
Fixpoint p_harmless (c : cfg) (prog : list stage) (k : mconf) : Prop :=
  match prog with
  | [] => True
  | Between l :: prog => forall k' t, m_run c l k = Ok (k', t) -> p_harmless c prog k'
  | Call a acts :: prog => r_harmless c a acts (RPop Q89, k) /\ forall pc k' t, r_run c a acts (RPop Q89, k) = Ok (pc, k', t) -> p_harmless c prog k'
  end.
(** of a history: the calls and their results; everything else *)
Fixpoint answers (t : list mitem) : list (api * rpc) := match t with [] => [] | MTOut (MoRet a r) :: t => (a, RRet r) :: answers t | _ :: t => answers t end.
Definition is_call (x : mitem) : bool := match x with MTEv (MReq _) | MTOut (MoRet _ _) => true | _ => false end.
Definition other_items (t : list mitem) : list mitem := filter (fun x => negb (is_call x)) t.
Definition returned (pc : rpc) : Prop := exists r, pc = RRet r.
(** no interrupt handler calls the manager *)
Definition no_manager (acts : list ract) : Prop := ~ In (RIrq MStep) acts.
Definition own_steps (acts : list ract) : nat := length (filter (fun x => match x with RStep => true | _ => false end) acts).
