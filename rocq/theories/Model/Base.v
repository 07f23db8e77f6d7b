(** Basic machinery of the model: outcomes with explicit undefined behaviour,
    fixed-width conversions, arrays.  No C code is modelled here except the meaning of
    C's array access, unsigned conversion and NULL dereference. *)
From Coq Require Export List ZArith Bool Lia.
Export ListNotations.
Open Scope Z_scope.

(** Result of executing a piece of C code: a value, undefined behaviour (out-of-bounds access,
    NULL or dangling dereference, division by zero) or an endless loop. *)
Inductive outcome (A : Type) : Type :=
| Ok (a : A)
| UB
| Diverge.
Arguments Ok {A} a.
Arguments UB {A}.
Arguments Diverge {A}.

Definition bind {A B : Type} (x : outcome A) (k : A -> outcome B) : outcome B :=
  match x with
  | Ok a => k a
  | UB => UB
  | Diverge => Diverge
  end.

Notation "'let*' x ':=' e 'in' k" := (bind e (fun x => k))
  (at level 200, x name, e at level 100, k at level 200).
Notation "'let*' ' p ':=' e 'in' k" := (bind e (fun p => k))
  (at level 200, p strict pattern, e at level 100, k at level 200).

(** C conversions to uint8_t, uint16_t, uint32_t (modulo 2^n). *)
Definition u8 (x : Z) : Z := x mod 256.
Definition u16 (x : Z) : Z := x mod 65536.
Definition u32 (x : Z) : Z := x mod 4294967296.

(** Array read and write: outside the array = undefined behaviour. *)
Fixpoint upd {A : Type} (l : list A) (i : nat) (v : A) : list A :=
  match l, i with
  | [], _ => []
  | _ :: t, O => v :: t
  | x :: t, S j => x :: upd t j v
  end.

Definition aget {A : Type} (l : list A) (i : Z) : outcome A :=
  if i <? 0 then UB
  else match nth_error l (Z.to_nat i) with
       | Some v => Ok v
       | None => UB
       end.

Definition aset {A : Type} (l : list A) (i : Z) (v : A) : outcome (list A) :=
  if (i <? 0) || (Z.of_nat (length l) <=? i) then UB
  else Ok (upd l (Z.to_nat i) v).

(** bool -> int *)
Definition b2z (b : bool) : Z := if b then 1 else 0.
