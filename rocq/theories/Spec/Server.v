(** What a Modbus server (slave) has to answer and to change: a function from the request bytes, the
    registered variables and their values.  Written from the Modbus application protocol specification.
    Deviation made explicit: when a multiple write meets an unregistered address it has already changed the
    items before it ([store] stops at the first unregistered item). *)
From Coq Require Import List ZArith Bool.
From Verif Require Import Model.Types Model.SlaveData.
From Verif Require Export Spec.Frame.
Import ListNotations.
Open Scope Z_scope.

Definition byte_at (b : list Z) (i : nat) : Z := nth i b 0.
Definition word_at (b : list Z) (i : nat) : Z := 256 * byte_at b i + byte_at b (S i).

(** exception response *)
Definition exc (fc code : Z) : list Z := [if fc <? 128 then fc + 128 else fc; code].

(** current value of the variable registered at address k *)
Definition var_at {A : Type} (tab : list (option nat)) (cells : list A) (k : nat) : option A :=
  match nth_error tab k with
  | Some (Some c) => nth_error cells c
  | _ => None
  end.
Fixpoint all_some {A : Type} (l : list (option A)) : option (list A) :=
  match l with
  | [] => Some []
  | Some x :: t => option_map (cons x) (all_some t)
  | None :: _ => None
  end.
(** the values of the n variables from address adr on, if all are registered *)
Definition fetch {A : Type} (tab : list (option nat)) (cells : list A) (adr n : Z) : option (list A) :=
  all_some (map (var_at tab cells) (seq (Z.to_nat adr) (Z.to_nat n))).

Fixpoint put {A : Type} (l : list A) (i : nat) (v : A) : list A :=
  match l, i with
  | [], _ => []
  | _ :: t, O => v :: t
  | x :: t, S j => x :: put t j v
  end.
(** write values in order to the variables registered from address k on, stop at an unregistered one *)
Fixpoint store {A : Type} (tab : list (option nat)) (cells : list A) (k : nat) (vals : list A) : list A * bool :=
  match vals with
  | [] => (cells, true)
  | v :: vs =>
      match nth_error tab k with
      | Some (Some c) => store tab (put cells c v) (S k) vs
      | _ => (cells, false)
      end
  end.

(** read function: quantity limit, table size, data bytes if registered *)
Definition read_reply (fc max size adr qty : Z) (data : option (list Z)) : list Z :=
  if negb ((1 <=? qty) && (qty <=? max)) then exc fc 3
  else if size <? adr + qty then exc fc 2
  else match data with
       | Some l => fc :: Z.of_nat (length l) :: l
       | None => exc fc 4
       end.

(** the bits / registers carried by a multiple write request (from byte 7 of the frame on) *)
Definition req_bits (b : list Z) (n : Z) : list bool :=
  map (fun k => Z.testbit (byte_at b (7 + k / 8)) (Z.of_nat (k mod 8))) (seq 0 (Z.to_nat n)).
Definition req_regs (b : list Z) (n : Z) : list Z :=
  map (fun k => word_at b (7 + 2 * k)) (seq 0 (Z.to_nat n)).

Definition server (c : cfg) (d : sdata) (b : list Z) : list Z * sdata :=
  let fc := byte_at b 1 in
  let adr := word_at b 2 in
  let qty := word_at b 4 in
  let cnt := byte_at b 6 in
  match fc with
  | 1 => (read_reply 1 2000 (c_coils c) adr qty (option_map pack_bits (fetch (t_coils d) (v_bits d) adr qty)), d)
  | 2 => (read_reply 2 2000 (c_din c) adr qty (option_map pack_bits (fetch (t_din d) (v_bits d) adr qty)), d)
  | 3 => (read_reply 3 125 (c_hreg c) adr qty (option_map pack_regs (fetch (t_hreg d) (v_regs d) adr qty)), d)
  | 4 => (read_reply 4 125 (c_ireg c) adr qty (option_map pack_regs (fetch (t_ireg d) (v_regs d) adr qty)), d)
  | 5 =>
      if negb ((qty =? 0x0000) || (qty =? 0xFF00)) then (exc 5 3, d)
      else if c_coils c <=? adr then (exc 5 2, d)
      else match store (t_coils d) (v_bits d) (Z.to_nat adr) [qty =? 0xFF00] with
           | (cells, true) => ([5] ++ be16 adr ++ be16 qty, set_bits d cells)
           | (cells, false) => (exc 5 4, set_bits d cells)
           end
  | 6 =>
      if c_hreg c <=? adr then (exc 6 2, d)
      else match store (t_hreg d) (v_regs d) (Z.to_nat adr) [qty] with
           | (cells, true) => ([6] ++ be16 adr ++ be16 qty, set_regs d cells)
           | (cells, false) => (exc 6 4, set_regs d cells)
           end
  | 15 =>
      if negb ((1 <=? qty) && (qty <=? 1968)) then (exc 15 3, d)
      else if c_coils c <? adr + qty then (exc 15 2, d)
      else if negb (cnt =? coil_bytes qty) then (exc 15 3, d)
      else match store (t_coils d) (v_bits d) (Z.to_nat adr) (req_bits b qty) with
           | (cells, true) => ([15] ++ be16 adr ++ be16 qty, set_bits d cells)
           | (cells, false) => (exc 15 4, set_bits d cells)
           end
  | 16 =>
      if negb ((1 <=? qty) && (qty <=? 123)) then (exc 16 3, d)
      else if c_hreg c <? adr + qty then (exc 16 2, d)
      else if negb (cnt =? 2 * qty) then (exc 16 3, d)
      else match store (t_hreg d) (v_regs d) (Z.to_nat adr) (req_regs b qty) with
           | (cells, true) => ([16] ++ be16 adr ++ be16 qty, set_regs d cells)
           | (cells, false) => (exc 16 4, set_regs d cells)
           end
  | _ => (exc fc 1, d)
  end.

(** Configuration and data the specification is about: table sizes 0..65535, every table has its configured
    size, every registered pointer points to an existing variable, registers hold 16-bit values. *)
Definition cfg_tables_ok (c : cfg) : Prop :=
  0 <= c_coils c <= 65535 /\ 0 <= c_din c <= 65535 /\ 0 <= c_ireg c <= 65535 /\ 0 <= c_hreg c <= 65535.
Definition ptrs_ok {A : Type} (tab : list (option nat)) (cells : list A) : Prop :=
  forall k c, nth_error tab k = Some (Some c) -> (c < length cells)%nat.
Definition data_ok (c : cfg) (d : sdata) : Prop :=
  Z.of_nat (length (t_coils d)) = c_coils c /\ Z.of_nat (length (t_din d)) = c_din c /\
  Z.of_nat (length (t_ireg d)) = c_ireg c /\ Z.of_nat (length (t_hreg d)) = c_hreg c /\
  ptrs_ok (t_coils d) (v_bits d) /\ ptrs_ok (t_din d) (v_bits d) /\
  ptrs_ok (t_ireg d) (v_regs d) /\ ptrs_ok (t_hreg d) (v_regs d) /\
  Forall word (v_regs d).
