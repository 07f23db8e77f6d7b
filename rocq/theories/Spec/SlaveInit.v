(** Vocabulary for the slave's initialisation. *)
From Coq Require Import List ZArith Bool.
From Verif Require Import Model.Base Model.Types Model.SlaveInit.
From Verif Require Export Spec.SlaveSystem.
Import ListNotations.
Open Scope Z_scope.
(** nothing is received: no character, and so no receiver time-out (the UART's time-out counts from the end of a character) *)
Definition quiet_act (a : yact) : bool := match a with HRx _ | HRto => false | _ => true end.
Definition silent (l : list yact) : bool := forallb quiet_act l.
(** nothing is received before all four callbacks are subscribed *)
Definition all_subscribed (x : isys) : bool := b_tx (i_subs x) && b_t15 (i_subs x) && b_t35 (i_subs x) && b_fe (i_subs x).
Fixpoint careful (id : Z) (l : list yact) (x : isys) : Prop :=
  match l with
  | [] => True
  | a :: l => (quiet_act a = false -> all_subscribed x = true) /\ forall x1 t1, i_act id a x = Ok (x1, t1) -> careful id l x1
  end.
(** the application does not change its variables *)
Definition no_app (l : list yact) : bool := forallb (fun a => match a with AApp _ _ => false | _ => true end) l.
(** the main program is outside of the library *)
Definition outside (y : sys) : Prop := sc_pc (y_lib y) = None /\ y_sub y = None.
