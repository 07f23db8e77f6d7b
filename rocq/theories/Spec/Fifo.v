(** A FIFO of capacity N as a list, oldest element first. *)
From Coq Require Import List ZArith.
Import ListNotations.
Open Scope Z_scope.

Inductive qop (A : Type) := Push (x : A) | Pop.
Arguments Push {A} x.
Arguments Pop {A}.
(** what the caller observes: after a push, whether its pointer was taken over (cleared); after a pop, the element *)
Inductive qres (A : Type) := Taken | Kept | Popped (x : option A).
Arguments Taken {A}.
Arguments Kept {A}.
Arguments Popped {A} x.

Definition fifo_step {A : Type} (N : Z) (l : list A) (o : qop A) : list A * qres A :=
  match o with
  | Push x => if Z.of_nat (length l) <? N then (l ++ [x], Taken) else (l, Kept)
  | Pop => match l with [] => ([], Popped None) | x :: t => (t, Popped (Some x)) end
  end.
Fixpoint fifo_run {A : Type} (N : Z) (l : list A) (ops : list (qop A)) : list A * list (qres A) :=
  match ops with
  | [] => (l, [])
  | o :: t => let '(l1, r) := fifo_step N l o in let '(l2, rs) := fifo_run N l1 t in (l2, r :: rs)
  end.
