(** CRC-16/MODBUS, bit-serial definition (Modbus over serial line specification, 6.2.2): initial value 0xFFFF,
    bits of each byte least significant first, reflected polynomial 0xA001, no final xor. *)
From Coq Require Import List ZArith Bool.
Import ListNotations.
Open Scope Z_scope.

Definition crc_bit (reg : Z) (bit : bool) : Z :=
  let x := Z.lxor reg (Z.b2z bit) in
  if Z.odd x then Z.lxor (x / 2) 0xA001 else x / 2.

Definition byte_bits (b : Z) : list bool := map (Z.testbit b) [0; 1; 2; 3; 4; 5; 6; 7].
Definition bits_of (bytes : list Z) : list bool := flat_map byte_bits bytes.

Definition crc16 (bytes : list Z) : Z := fold_left crc_bit (bits_of bytes) 0xFFFF.

(** a byte *)
Definition byte (b : Z) : Prop := 0 <= b < 256.
Definition bytes (l : list Z) : Prop := Forall byte l.

(** Transmission errors: the pattern of altered bits between two bit strings of the same length, and the number of
    altered bits. *)
Definition xor_bits (a b : list bool) : list bool := map (fun p => xorb (fst p) (snd p)) (combine a b).
Definition weight (l : list bool) : nat := length (filter (fun b => b) l).
