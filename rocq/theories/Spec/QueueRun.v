(** Driving the library's queue with a list of operations, recording what the caller observes. *)
From Verif Require Export Model.Queue Spec.Fifo.

Section Run.
Context {A : Type}.
Definition q_step (N : Z) (q : queue A) (o : qop A) : outcome (queue A * qres A) :=
  match o with
  | Push x => let* '(q', d) := modbus_queue_push N q (Some x) in
              Ok (q', match d with None => Taken | Some _ => Kept end)
  | Pop => let* '(r, q') := modbus_queue_pop N q in Ok (q', Popped r)
  end.
Fixpoint q_run (N : Z) (q : queue A) (ops : list (qop A)) : outcome (queue A * list (qres A)) :=
  match ops with
  | [] => Ok (q, [])
  | o :: t => let* '(q1, r) := q_step N q o in
              let* '(q2, rs) := q_run N q1 t in Ok (q2, r :: rs)
  end.
End Run.
