(** Vocabulary for statements about what may happen during a piece of code. *)
From Coq Require Import List ZArith.
From Verif Require Import Model.Types Model.Slave Model.Master.
Import ListNotations.
Open Scope Z_scope.

(** The message half points to a buffer that begins with the bytes [g].  Nothing is said about what follows (there may be
    nothing at all) nor about the length field. *)
Definition begins (r : rr) (g : list Z) : Prop := rr_ptr r = true /\ firstn (length g) (rr_buf r) = g.

(** interrupts, as opposed to actions of the application *)
Definition s_interrupt (e : Slave.sev) : Prop := match e with SApp _ _ => False | _ => True end.
Definition m_interrupt (e : mev) : Prop := match e with MReq _ => False | _ => True end.
(** number of bytes received *)
Fixpoint s_rx_count (l : list Slave.sev) : Z := match l with [] => 0 | SRx _ :: l => 1 + s_rx_count l | _ :: l => s_rx_count l end.
Fixpoint m_rx_count (l : list mev) : Z := match l with [] => 0 | MRx _ :: l => 1 + m_rx_count l | _ :: l => m_rx_count l end.
