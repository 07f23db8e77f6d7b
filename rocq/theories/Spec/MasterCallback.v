(** Requests made from inside callbacks. *)
From Coq Require Import List ZArith Bool.
From Verif Require Import Model.MasterCallback.
From Verif Require Export Spec.MasterTrace.
Import ListNotations.
Open Scope Z_scope.

(** all requests have typed arguments and readable arrays *)
Definition g_safe (acts : list gact) : Prop :=
  Forall (fun x => match x with GStep react => forall x a, In a (react x) -> req_safe a | GEv (MReq a) => req_safe a | GEv _ => True end) acts.
(** the same actions with requests made right after a line of the manager instead of within *)
Inductive after_line : list gact -> list mact -> Prop :=
| al_nil : after_line [] []
| al_ev e acts l : after_line acts l -> after_line (GEv e :: acts) (MEv e :: l)
| al_step react rs acts l : after_line acts l -> after_line (GStep react :: acts) (MStep :: map (fun a => MEv (MReq a)) rs ++ l).
(** the request calls of a history with their results, in order; everything else, in order *)
Fixpoint calls_of (t : list mitem) : list (api * req_ret) := match t with [] => [] | MTOut (MoRet a r) :: t => (a, r) :: calls_of t | _ :: t => calls_of t end.
Definition rest_of (t : list mitem) : list mitem := filter (fun x => match x with MTEv (MReq _) | MTOut (MoRet _ _) => false | _ => true end) t.
