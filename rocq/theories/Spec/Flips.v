(** Vocabulary for bits damaged on the line. *)
From Coq Require Import List ZArith Bool.
From Verif Require Import Model.Line Spec.Crc.
From Verif Require Export Spec.Line.
Import ListNotations.
Open Scope Z_scope.

(** characters on the line with any bits between start bit and stop bits, each after a pause *)
Definition words_on_line (f : fmt) (l : list (nat * list bool)) : list bool :=
  flat_map (fun x => repeat true (fst x) ++ [false] ++ snd x ++ repeat true (f_stop2 f / 2)) l.
(** the bits [w] on the line where the characters [l] were sent with format [f]: start bits, stop bits and pauses are intact, of
    the bits between (data and parity) any may be flipped *)
Definition disturbed (f : fmt) (l : list (nat * Z)) (w : list bool) : Prop :=
  exists l', map fst l' = map fst l /\ Forall (fun x => length (snd x) = word_bits f) l' /\ w = words_on_line f l'.
(** which bits are flipped *)
Definition flipped (a b : list bool) : list bool := xor_bits a b.
(** few: up to three; close together: within 16 consecutive bits *)
Definition few_or_close (e : list bool) : Prop := (weight e <= 3)%nat \/ exists i, forall k, nth k e false = true -> (i <= k < i + 16)%nat.
