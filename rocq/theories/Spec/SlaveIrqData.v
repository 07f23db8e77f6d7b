(** What a server whose application writes its variables while a request is being handled has to answer and to change.
    [app k]: the application's writes just before the k-th access of the request to a variable. *)
From Coq Require Import List ZArith Bool.
From Verif Require Import Model.SlaveIrqData.
From Verif Require Export Spec.Server.
Import ListNotations.
Open Scope Z_scope.

(** the application's writes up to the k-th access; the variables at the k-th access of a read request *)
Definition writes_until (app : nat -> list aw) (k : nat) : list aw := flat_map app (seq 0 k).
Definition at_access (app : nat -> list aw) (d : sdata) (k : nat) : sdata := aw_run d (writes_until app (S k)).
(** the k-th item asked for is the variable registered at address adr + k, with the value it has at the k-th access *)
Definition fetch_i {A : Type} (app : nat -> list aw) (d : sdata) (tab : list (option nat)) (cells : sdata -> list A) (adr n : Z) : option (list A) :=
  all_some (map (fun k => var_at tab (cells (at_access app d k)) (Z.to_nat adr + k)) (seq 0 (Z.to_nat n))).
(** how many accesses there are: up to the first unregistered address *)
Fixpoint accesses (tab : list (option nat)) (k n : nat) : nat :=
  match n with
  | O => O
  | S n' => match nth_error tab k with Some (Some _) => S (accesses tab (S k) n') | _ => 1%nat end
  end.
(** a read request is answered with these values; its accesses change nothing: only the application's writes happen *)
Definition read_i (app : nat -> list aw) (d : sdata) (fc max size adr qty : Z) (tab : list (option nat)) (data : option (list Z)) : list Z * sdata :=
  (read_reply fc max size adr qty data,
   if (1 <=? qty) && (qty <=? max) && (adr + qty <=? size) then aw_run d (writes_until app (accesses tab (Z.to_nat adr) (Z.to_nat qty))) else d).
(** the writes a request asks for, up to the first unregistered address; true: all of them *)
Fixpoint asked {A : Type} (mk : nat -> A -> aw) (tab : list (option nat)) (k : nat) (vals : list A) : list aw * bool :=
  match vals with
  | [] => ([], true)
  | v :: vs =>
      match nth_error tab k with
      | Some (Some x) => let '(l, b) := asked mk tab (S k) vs in (mk x v :: l, b)
      | _ => ([], false)
      end
  end.
(** the request's writes with the application's before each of them (and before the one that failed) *)
Fixpoint mixed (app : nat -> list aw) (k : nat) (ws : list aw) (complete : bool) : list aw :=
  match ws with
  | [] => if complete then [] else app k
  | w :: ws => app k ++ w :: mixed app (S k) ws complete
  end.
Definition write_i (app : nat -> list aw) (d : sdata) (fc adr qty : Z) (a : list aw * bool) : list Z * sdata :=
  (if snd a then [fc] ++ be16 adr ++ be16 qty else exc fc 4, aw_run d (mixed app 0 (fst a) (snd a))).

Definition server_i (app : nat -> list aw) (c : cfg) (d : sdata) (b : list Z) : list Z * sdata :=
  let fc := byte_at b 1 in
  let adr := word_at b 2 in
  let qty := word_at b 4 in
  let cnt := byte_at b 6 in
  match fc with
  | 1 => read_i app d 1 2000 (c_coils c) adr qty (t_coils d) (option_map pack_bits (fetch_i app d (t_coils d) v_bits adr qty))
  | 2 => read_i app d 2 2000 (c_din c) adr qty (t_din d) (option_map pack_bits (fetch_i app d (t_din d) v_bits adr qty))
  | 3 => read_i app d 3 125 (c_hreg c) adr qty (t_hreg d) (option_map pack_regs (fetch_i app d (t_hreg d) v_regs adr qty))
  | 4 => read_i app d 4 125 (c_ireg c) adr qty (t_ireg d) (option_map pack_regs (fetch_i app d (t_ireg d) v_regs adr qty))
  | 5 =>
      if negb ((qty =? 0x0000) || (qty =? 0xFF00)) then (exc 5 3, d)
      else if c_coils c <=? adr then (exc 5 2, d)
      else write_i app d 5 adr qty (asked WBit (t_coils d) (Z.to_nat adr) [qty =? 0xFF00])
  | 6 =>
      if c_hreg c <=? adr then (exc 6 2, d)
      else write_i app d 6 adr qty (asked WReg (t_hreg d) (Z.to_nat adr) [qty])
  | 15 =>
      if negb ((1 <=? qty) && (qty <=? 1968)) then (exc 15 3, d)
      else if c_coils c <? adr + qty then (exc 15 2, d)
      else if negb (cnt =? coil_bytes qty) then (exc 15 3, d)
      else write_i app d 15 adr qty (asked WBit (t_coils d) (Z.to_nat adr) (req_bits b qty))
  | 16 =>
      if negb ((1 <=? qty) && (qty <=? 123)) then (exc 16 3, d)
      else if c_hreg c <? adr + qty then (exc 16 2, d)
      else if negb (cnt =? 2 * qty) then (exc 16 3, d)
      else write_i app d 16 adr qty (asked WReg (t_hreg d) (Z.to_nat adr) (req_regs b qty))
  | _ => (exc fc 1, d)
  end.
(** registers are written with 16-bit values *)
Definition app_words (app : nat -> list aw) : Prop := forall k x v, In (WReg x v) (app k) -> word v.
(** the value variable x has after the writes l, if it had v before *)
Definition last_bit (l : list aw) (x : nat) (v : bool) : bool := fold_left (fun v w => match w with WBit y u => if (y =? x)%nat then u else v | _ => v end) l v.
Definition last_reg (l : list aw) (x : nat) (v : Z) : Z := fold_left (fun v w => match w with WReg y u => if (y =? x)%nat then u else v | _ => v end) l v.
(** the application does not write the variable of kind bit / register number x in these writes *)
Definition leaves_bit (x : nat) (l : list aw) : Prop := forall u, ~ In (WBit x u) l.
Definition leaves_reg (x : nat) (l : list aw) : Prop := forall u, ~ In (WReg x u) l.
