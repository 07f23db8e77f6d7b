(** Vocabulary for the master's initialisation. *)
From Coq Require Import List ZArith Bool.
From Verif Require Import Model.Base Model.Types Model.MasterInit.
From Verif Require Export Spec.MasterApp.
Import ListNotations.
Open Scope Z_scope.
(** nothing is received: no character, and so no receiver time-out (the UART's time-out counts from the end of a character) *)
Definition m_quiet (a : wact) : bool := match a with WRx _ | WRto => false | _ => true end.
Definition m_silent (l : list wact) : bool := forallb m_quiet l.
(** characters arrive only if the driver has a buffer for them *)
Definition has_buffer (w : mfw) (l : list wact) : Prop := m_silent l = true \/ mm_rx (mc_s (w_lib w)) <> None.
