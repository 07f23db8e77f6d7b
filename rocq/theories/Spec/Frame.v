(** Modbus RTU frames and the encoding of requests, written from the Modbus application protocol
    specification, independently of the C code. *)
From Coq Require Import List ZArith Bool.
From Verif Require Import Model.Iface.
From Verif Require Export Spec.Crc.
Import ListNotations.
Open Scope Z_scope.

(** big-endian 16-bit field *)
Definition be16 (v : Z) : list Z := [v / 256; v mod 256].

(** CRC field: low byte first *)
Definition crc_field (body : list Z) : list Z := [crc16 body mod 256; crc16 body / 256].

(** RTU frame: address, PDU, CRC of both *)
Definition rtu_frame (id : Z) (pdu : list Z) : list Z := (id :: pdu) ++ crc_field (id :: pdu).

(** a received byte string is intact if it ends with the CRC of what precedes *)
Definition crc_ok (f : list Z) : Prop := exists body, f = body ++ crc_field body.
(** ... and addressed to [id] *)
Definition intact (id : Z) (f : list Z) : Prop := crc_ok f /\ hd_error f = Some id.

(** coils: 8 per byte, first coil in the least significant bit, unused bits zero *)
Fixpoint byte_of_bits (l : list bool) : Z :=
  match l with [] => 0 | b :: t => Z.b2z b + 2 * byte_of_bits t end.
Definition pack_bits (l : list bool) : list Z :=
  map (fun k => byte_of_bits (firstn 8 (skipn (8 * k) l))) (seq 0 ((length l + 7) / 8)).
Definition pack_regs (l : list Z) : list Z := flat_map be16 l.

(** the number of bytes needed for n coils *)
Definition coil_bytes (n : Z) : Z := (n + 7) / 8.

(** slave ID, function code, start address, quantity of a request *)
Definition api_id (a : api) : Z :=
  match a with
  | ReadCoils _ _ id | ReadDiscreteInputs _ _ id | ReadInputReg _ _ id | ReadHoldingReg _ _ id
  | WriteSingleCoil _ id _ | WriteSingleReg _ id _ | WriteMultipleReg _ _ id _ | WriteMultipleCoils _ _ id _ => id
  end.
Definition api_adr (a : api) : Z :=
  match a with
  | ReadCoils adr _ _ | ReadDiscreteInputs adr _ _ | ReadInputReg adr _ _ | ReadHoldingReg adr _ _
  | WriteSingleCoil adr _ _ | WriteSingleReg adr _ _ | WriteMultipleReg adr _ _ _ | WriteMultipleCoils adr _ _ _ => adr
  end.
Definition api_fc (a : api) : Z :=
  match a with
  | ReadCoils _ _ _ => 1 | ReadDiscreteInputs _ _ _ => 2 | ReadHoldingReg _ _ _ => 3 | ReadInputReg _ _ _ => 4
  | WriteSingleCoil _ _ _ => 5 | WriteSingleReg _ _ _ => 6
  | WriteMultipleCoils _ _ _ _ => 15 | WriteMultipleReg _ _ _ _ => 16
  end.
Definition api_qty (a : api) : Z :=
  match a with
  | ReadCoils _ q _ | ReadDiscreteInputs _ q _ | ReadInputReg _ q _ | ReadHoldingReg _ q _
  | WriteMultipleReg _ q _ _ | WriteMultipleCoils _ q _ _ => q
  | WriteSingleCoil _ _ _ | WriteSingleReg _ _ _ => 1
  end.

(** request PDUs *)
Definition request_pdu (a : api) : list Z :=
  match a with
  | ReadCoils adr q _ => [1] ++ be16 adr ++ be16 q
  | ReadDiscreteInputs adr q _ => [2] ++ be16 adr ++ be16 q
  | ReadHoldingReg adr q _ => [3] ++ be16 adr ++ be16 q
  | ReadInputReg adr q _ => [4] ++ be16 adr ++ be16 q
  | WriteSingleCoil adr _ v => [5] ++ be16 adr ++ be16 (if v then 0xFF00 else 0x0000)
  | WriteSingleReg adr _ v => [6] ++ be16 adr ++ be16 v
  | WriteMultipleCoils adr q _ d =>
      [15] ++ be16 adr ++ be16 q ++ [coil_bytes q]
      ++ pack_bits (firstn (Z.to_nat q) (match d with Some l => l | None => [] end))
  | WriteMultipleReg adr q _ d =>
      [16] ++ be16 adr ++ be16 q ++ [2 * q]
      ++ pack_regs (firstn (Z.to_nat q) (match d with Some l => l | None => [] end))
  end.
Definition request_frame (a : api) : list Z := rtu_frame (api_id a) (request_pdu a).

(** the quantity limits of the specification *)
Definition api_valid (a : api) : bool :=
  match a with
  | ReadCoils _ q _ | ReadDiscreteInputs _ q _ => (1 <=? q) && (q <=? 2000)
  | ReadInputReg _ q _ | ReadHoldingReg _ q _ => (1 <=? q) && (q <=? 125)
  | WriteSingleCoil _ _ _ | WriteSingleReg _ _ _ => true
  | WriteMultipleReg _ q _ _ => (1 <=? q) && (q <=? 123)
  | WriteMultipleCoils _ q _ _ => (1 <=? q) && (q <=? 1968)
  end.

(** the arguments have the C types of the prototypes *)
Definition word (v : Z) : Prop := 0 <= v < 65536.
Definition api_typed (a : api) : Prop :=
  byte (api_id a) /\ word (api_adr a) /\ word (api_qty a) /\
  match a with
  | WriteSingleReg _ _ v => word v
  | WriteMultipleReg _ _ _ (Some l) => Forall word l
  | _ => True
  end.
(** a multiple write is given an array (not NULL) of at least the requested quantity *)
Definition api_arrays (a : api) : Prop :=
  match a with
  | WriteMultipleReg _ q _ d => exists l, d = Some l /\ q <= Z.of_nat (length l)
  | WriteMultipleCoils _ q _ d => exists l, d = Some l /\ q <= Z.of_nat (length l)
  | _ => True
  end.
Definition api_ok (a : api) : Prop := api_typed a /\ api_arrays a.
