(** When a Modbus server has to refuse a request, and with which exception code: the priority list of the
    properties, written without reference to [server]. *)
From Coq Require Import List ZArith Bool.
From Verif Require Import Model.Types Model.SlaveData.
From Verif Require Export Spec.Server.
Import ListNotations.
Open Scope Z_scope.

Definition supported (fc : Z) : bool := existsb (Z.eqb fc) [1; 2; 3; 4; 5; 6; 15; 16].
(** the quantity (or coil value) is out of range *)
Definition value_bad (fc qty : Z) : bool :=
  if existsb (Z.eqb fc) [1; 2] then (qty <? 1) || (2000 <? qty)
  else if existsb (Z.eqb fc) [3; 4] then (qty <? 1) || (125 <? qty)
  else if fc =? 5 then negb (qty =? 0x0000) && negb (qty =? 0xFF00)
  else if fc =? 15 then (qty <? 1) || (1968 <? qty)
  else if fc =? 16 then (qty <? 1) || (123 <? qty)
  else false.
(** number of items addressed *)
Definition item_count (fc qty : Z) : Z := if existsb (Z.eqb fc) [5; 6] then 1 else qty.
(** the table the function works on, with its configured size *)
Definition table_of (fc : Z) (d : sdata) : list (option nat) :=
  if existsb (Z.eqb fc) [1; 5; 15] then t_coils d
  else if fc =? 2 then t_din d
  else if fc =? 4 then t_ireg d
  else t_hreg d.
Definition size_of (fc : Z) (c : cfg) : Z :=
  if existsb (Z.eqb fc) [1; 5; 15] then c_coils c
  else if fc =? 2 then c_din c
  else if fc =? 4 then c_ireg c
  else c_hreg c.
(** the byte count of a multiple write does not fit its quantity *)
Definition count_bad (fc qty cnt : Z) : bool :=
  if fc =? 15 then negb (cnt =? coil_bytes qty) else if fc =? 16 then negb (cnt =? 2 * qty) else false.
(** some addressed item has no variable *)
Definition registered (tab : list (option nat)) (k : nat) : bool :=
  match nth_error tab k with Some (Some _) => true | _ => false end.
Definition unregistered (tab : list (option nat)) (adr n : Z) : bool :=
  negb (forallb (registered tab) (seq (Z.to_nat adr) (Z.to_nat n))).

Definition refusal (c : cfg) (d : sdata) (b : list Z) : option Z :=
  let fc := byte_at b 1 in let adr := word_at b 2 in let qty := word_at b 4 in
  if negb (supported fc) then Some 1
  else if value_bad fc qty then Some 3
  else if size_of fc c <? adr + item_count fc qty then Some 2
  else if count_bad fc qty (byte_at b 6) then Some 3
  else if unregistered (table_of fc d) adr (item_count fc qty) then Some 4
  else None.

(** the message part r carries the PDU [pdu] (behind one byte for the address), inside its 256-byte buffer *)
Definition answer_is (r : rr) (pdu : list Z) : Prop :=
  rr_ptr r = true /\ length (rr_buf r) = 256%nat /\ bytes (rr_buf r) /\ rr_len r = 1 + Z.of_nat (length pdu) /\
  exists x, firstn (Z.to_nat (rr_len r)) (rr_buf r) = x :: pdu.

(** a frame that carries everything its function needs *)
Definition frame_complete (f : list Z) : Prop :=
  (6 <= length f)%nat /\ (byte_at f 1 = 15 \/ byte_at f 1 = 16 -> 7 + byte_at f 6 <= Z.of_nat (length f)).

(** Exactly the variables registered at the addresses k, k+1, ... take the values [vals], in that order (when two
    addresses share a variable the last one wins); all other variables keep their value. *)
Definition written {A} (tab : list (option nat)) (cells cells' : list A) (k : nat) (vals : list A) : Prop :=
  length cells' = length cells /\
  (forall x, (forall i, (i < length vals)%nat -> nth_error tab (k + i) <> Some (Some x)) -> nth_error cells' x = nth_error cells x) /\
  (forall x i v, nth_error vals i = Some v -> nth_error tab (k + i) = Some (Some x) ->
     (forall j, (i < j < length vals)%nat -> nth_error tab (k + j) <> Some (Some x)) -> nth_error cells' x = Some v).

