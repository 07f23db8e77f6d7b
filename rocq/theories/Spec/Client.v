(** What a Modbus client (master) has to report to its application for a response. *)
From Coq Require Import List ZArith Bool.
From Verif Require Import Model.Iface.
From Verif Require Export Spec.Server.
Import ListNotations.
Open Scope Z_scope.

(** one callback per requested item, ascending addresses (16 bits), data from byte 3 of the frame on *)
Definition bit_callbacks (mk : Z -> Z -> bool -> cb) (id adr qty : Z) (resp : list Z) : list cb :=
  map (fun k => mk id ((adr + Z.of_nat k) mod 65536) (Z.testbit (byte_at resp (3 + k / 8)) (Z.of_nat (k mod 8))))
      (seq 0 (Z.to_nat qty)).
Definition reg_callbacks (mk : Z -> Z -> Z -> cb) (id adr qty : Z) (resp : list Z) : list cb :=
  map (fun k => mk id ((adr + Z.of_nat k) mod 65536) (word_at resp (3 + 2 * k))) (seq 0 (Z.to_nat qty)).

(** normal response with the function code of the request *)
Definition normal_callbacks (fc id adr qty : Z) (resp : list Z) : list cb :=
  match fc with
  | 1 => bit_callbacks CoilRead id adr qty resp
  | 2 => bit_callbacks DisinRead id adr qty resp
  | 3 => reg_callbacks HregRead id adr qty resp
  | 4 => reg_callbacks InregRead id adr qty resp
  | 5 => [CoilWrite id adr 1]
  | 6 => [HregWrite id adr 1]
  | 15 => [CoilWrite id adr qty]
  | 16 => [HregWrite id adr qty]
  | _ => []
  end.

(** exception response *)
Definition exception_callbacks (e : exc_report) : list cb :=
  match x_fc e with
  | 1 | 5 | 15 => [CoilExc e]
  | 2 => [DisinExc e]
  | 3 | 6 | 16 => [HregExc e]
  | 4 => [InregExc e]
  | _ => []
  end.

(** the 16-bit field that follows the address in a request: quantity, or the value of a single write *)
Definition api_field (a : api) : Z :=
  match a with
  | WriteSingleCoil _ _ v => if v then 0xFF00 else 0x0000
  | WriteSingleReg _ _ v => v
  | _ => api_qty a
  end.
(** read functions have codes 1..4 *)
Definition is_read (a : api) : bool := api_fc a <=? 4.

Definition is_data (c : cb) : Prop :=
  match c with CoilRead _ _ _ | DisinRead _ _ _ | InregRead _ _ _ | HregRead _ _ _ => True | _ => False end.
Definition is_confirm (c : cb) : Prop := match c with CoilWrite _ _ _ | HregWrite _ _ _ => True | _ => False end.

(** The callbacks made for the response held by buffer [b] (C11-C15 in one table): exceptions; for reads the data with the
    response's function code (nothing for codes other than 1..4); for writes one confirmation.  [None]: undefined behaviour
    (more than 126 items read as registers run out of the buffer). *)
Definition delivered (a : api) (b : list Z) : option (list cb) :=
  let fc := byte_at b 1 in let id := byte_at b 0 in
  if 128 <=? fc then Some (exception_callbacks (mk_exc id (fc - 128) (byte_at b 2) (api_adr a) (api_field a)))
  else if is_read a
  then if (fc =? 1) || (fc =? 2) || (fc =? 3) || (fc =? 4)
       then if ((fc =? 3) || (fc =? 4)) && (126 <? api_qty a) then None else Some (normal_callbacks fc id (api_adr a) (api_qty a) b)
       else Some []
  else Some (if (fc =? 5) || (fc =? 6) || (fc =? 15) then normal_callbacks fc id (api_adr a) (api_field a) b
             else [HregWrite id (api_adr a) (api_field a)]).
