(** Schedules in which the application writes its variables at any moment. *)
From Coq Require Import List ZArith Bool.
From Verif Require Import Model.Slave Model.SlaveIrqRun.
From Verif Require Export Spec.SlaveTraffic Spec.SlaveIrqData.
Import ListNotations.
Open Scope Z_scope.

(** the schedule without the application *)
Definition strip (l : list iact) : list sact := flat_map (fun a => match a with IStep _ => [SStep] | IEv e => [SEv e] | IApp _ => [] end) l.
(** the application's writes between lines, in order *)
Definition writes (l : list iact) : list aw := flat_map (fun a => match a with IApp w => [w] | _ => [] end) l.
(** the application writes 16-bit values to registers *)
Definition words_written (l : list iact) : Prop :=
  (forall x v, In (IApp (WReg x v)) l -> word v) /\ (forall app, In (IStep app) l -> app_words app).
