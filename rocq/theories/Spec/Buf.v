(** Well-formed message buffers, and the received frame they hold. *)
From Coq Require Import List ZArith.
From Verif Require Import Model.Types.
From Verif Require Export Spec.Crc.
Open Scope Z_scope.

(** half of a message: the data pointer is set, the buffer has 256 bytes, the length is a uint8_t *)
Definition rr_ok (r : rr) : Prop :=
  rr_ptr r = true /\ length (rr_buf r) = 256%nat /\ bytes (rr_buf r) /\ byte (rr_len r).
Definition msg_ok (m : msg) : Prop := rr_ok (m_req m) /\ rr_ok (m_resp m).
(** the bytes that count: the first len bytes of the buffer *)
Definition rx_frame (r : rr) : list Z := firstn (Z.to_nat (rr_len r)) (rr_buf r).
