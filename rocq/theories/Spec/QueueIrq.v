(** A queue operation interrupted by whole operations of the other kind. *)
From Coq Require Import List ZArith.
From Verif Require Import Model.Base Model.QueueSteps.
From Verif Require Export Spec.QueueRun.
Import ListNotations.
Open Scope Z_scope.

Section Irq.
Context {A : Type}.
(** the next access of the interrupted operation, or an interrupt that performs an operation *)
Inductive qact := QStep | QIrq (o : qop A).
(** result: where the operation is, the queue, and for each interrupt where it fell and what it got *)
Fixpoint push_run (N : Z) (x : A) (acts : list qact) (pc : push_pc A) (q : queue A) : outcome (push_pc A * queue A * list (push_pc A * qres A)) :=
  match acts with
  | [] => Ok (pc, q, [])
  | QStep :: l => let* '(pc, q) := push_step N (Some x) pc q in push_run N x l pc q
  | QIrq o :: l => let* '(q, r) := q_step N q o in let* '(pc', q, out) := push_run N x l pc q in Ok (pc', q, (pc, r) :: out)
  end.
Fixpoint pop_run (N : Z) (acts : list qact) (pc : pop_pc A) (q : queue A) : outcome (pop_pc A * queue A * list (pop_pc A * qres A)) :=
  match acts with
  | [] => Ok (pc, q, [])
  | QStep :: l => let* '(pc, q) := pop_step N pc q in pop_run N l pc q
  | QIrq o :: l => let* '(q, r) := q_step N q o in let* '(pc', q, out) := pop_run N l pc q in Ok (pc', q, (pc, r) :: out)
  end.
Definition irqs (acts : list qact) : list (qop A) := flat_map (fun a => match a with QStep => [] | QIrq o => [o] end) acts.

(** points of a push: between load and store of the counter; between its two updates (counter and head); before these *)
Definition push_in_count (pc : push_pc A) : bool := match pc with P63s _ _ | P72s _ => true | _ => false end.
Definition push_between (pc : push_pc A) : bool := match pc with P64 _ | P72 => true | _ => false end.
Definition push_before (pc : push_pc A) : bool := match pc with P52 | P54 _ | P56 _ | P62 _ | P63 _ | P70 _ | P71 _ => true | _ => false end.
Definition pop_in_count (pc : pop_pc A) : bool := match pc with Q100s _ _ => true | _ => false end.
Definition fell {P R} (where_ : P -> bool) (out : list (P * R)) : nat := length (filter (fun y => where_ (fst y)) out).
(** a push on a queue of [n] messages is interrupted harmlessly: never between load and store of the counter, and between its two
    updates by no more pops than there are messages then *)
Definition push_undisturbed {R} (n : nat) (out : list (push_pc A * R)) : Prop :=
  fell push_in_count out = 0%nat /\ (fell push_between out <= 1 + (n - fell push_before out))%nat.
Definition pop_undisturbed {R} (out : list (pop_pc A * R)) : Prop := fell pop_in_count out = 0%nat.
End Irq.
Arguments qact A : clear implicits.
