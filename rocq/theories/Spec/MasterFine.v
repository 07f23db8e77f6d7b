(** When a request made from an interrupt handler is harmless. *)
From Coq Require Import List ZArith Bool.
From Verif Require Import Model.MasterFine.
From Verif Require Export Spec.QueueIrq Spec.MasterTrace.
Import ListNotations.
Open Scope Z_scope.

(** A request may not fall between the load and the store of a counter.  While a buffer is being handed back, between the
    updates of the counter and of the head, it may only if there is a buffer (the one being handed back included). *)
Definition fine_moment (k : fconf) : bool :=
  let n := q_items (mm_free (mc_s (fc_k k))) in
  match fc_q k with
  | AtLine | AtCheck => true
  | AtPop pc => negb (pop_in_count pc)
  | AtPush pc => negb (push_in_count pc) && match pc with P64 _ => 0 <? n | P72 => negb (n =? 255) | _ => true end
  end.
Definition harmless (a : fmove) (k : fconf) : Prop := match a with FEv (MReq _) => fine_moment k = true | _ => True end.
(** along a run *)
Fixpoint harmless_run (c : cfg) (acts : list fmove) (k : fconf) : Prop :=
  match acts with
  | [] => True
  | a :: l => harmless a k /\ forall k' t, f_act c a k = Ok (k', t) -> harmless_run c l k'
  end.
Definition f_reqs_safe (acts : list fmove) : Prop := forall a, In (FEv (MReq a)) acts -> req_safe a.
(** a trace without the internal landmark "buffer handed back" *)
Definition seen (t : list mitem) : list mitem := filter (fun x => match x with MTOut MoFree => false | _ => true end) t.
