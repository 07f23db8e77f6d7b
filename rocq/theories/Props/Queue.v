(** C18: the message queue is a bounded FIFO. *)
From Verif Require Import Proofs.QueueP.

(** From initialisation, every sequence of pushes and pops is executed without undefined behaviour and gives the
    caller exactly the results of a FIFO list of capacity N. *)
Theorem C18_queue_is_bounded_fifo : forall (A : Type) (N : Z) (q : queue A) (ops : list (qop A)),
  1 <= N <= 255 -> length (q_slots q) = Z.to_nat N ->
  exists q', q_run N (modbus_queue_init q) ops = Ok (q', snd (fifo_run N [] ops)).
Proof.
  intros A N q ops HN HL. destruct (q_run_fifo N ops _ [] (rep_init N q HN HL)) as (q' & E & _). eauto.
Qed.
Print Assumptions C18_queue_is_bounded_fifo.
(** "something to send" exactly when the FIFO is not empty *)
Theorem C18_availability : forall (A : Type) (N : Z) (q : queue A) (ops : list (qop A)) (q' : queue A) res,
  1 <= N <= 255 -> length (q_slots q) = Z.to_nat N ->
  q_run N (modbus_queue_init q) ops = Ok (q', res) ->
  (check_data_to_send_availability q' = true <-> fst (fifo_run N [] ops) <> []).
Proof.
  intros A N q ops q' res HN HL E. destruct (q_run_fifo N ops _ [] (rep_init N q HN HL)) as (q2 & E2 & R).
  rewrite E in E2. inversion E2; subst. rewrite (avail_iff N _ _ R).
  destruct (fst (fifo_run N [] ops)); cbn; split; congruence.
Qed.
Print Assumptions C18_availability.
(** capacity 2: push 5, push 6, push 7 (refused), pop, push 8, pop, pop, pop (empty); and the wrap-around at 255 *)
Example C18_case : exists q', q_run 2 (modbus_queue_init (queue_zero 2)) [Push 5; Push 6; Push 7; Pop; Push 8; Pop; Pop; Pop] =
  Ok (q', [Taken; Taken; Kept; Popped (Some 5); Taken; Popped (Some 6); Popped (Some 8); Popped None]).
Proof. eexists. reflexivity. Qed.
Example C18_fifo_case : snd (fifo_run 2 [] [Push 5; Push 6; Push 7; Pop; Push 8; Pop; Pop; Pop]) =
  [Taken; Taken; Kept; Popped (Some 5); Taken; Popped (Some 6); Popped (Some 8); Popped None].
Proof. reflexivity. Qed.
