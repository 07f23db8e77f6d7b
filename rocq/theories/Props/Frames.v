(** C01-C06: checksum, frames, 16-bit fields. *)
From Verif Require Import Proofs.FrameMain.

(** C01: the table-driven checksum is the bit-serial CRC-16/MODBUS of exactly the first [len] bytes. *)
Theorem C01_crc_is_crc16 : forall (buf : list Z) (len : Z),
  0 <= len <= Z.of_nat (length buf) -> bytes (firstn (Z.to_nat len) buf) ->
  calculate_CRC buf len = Ok (crc16 (firstn (Z.to_nat len) buf)).
Proof. exact calculate_CRC_spec. Qed.
Print Assumptions C01_crc_is_crc16.
(** the published check value of CRC-16/MODBUS for the string "123456789", and a concrete run of the code *)
Example C01_check_value : crc16 [0x31;0x32;0x33;0x34;0x35;0x36;0x37;0x38;0x39] = 0x4B37.
Proof. reflexivity. Qed.
Example C01_case : bytes (firstn 9 [0x31;0x32;0x33;0x34;0x35;0x36;0x37;0x38;0x39;7]) /\
  calculate_CRC [0x31;0x32;0x33;0x34;0x35;0x36;0x37;0x38;0x39;7] 9 = Ok 0x4B37.
Proof. split; [repeat constructor; unfold byte; lia|reflexivity]. Qed.

(** C02: building a frame from the first [rr_len r] bytes (address byte included) of a buffer. *)
Theorem C02_build_check_round_trip : forall (r : rr) (id : Z),
  rr_ok r -> 1 <= rr_len r <= 253 -> byte id ->
  exists r', modbus_RTU_send r id = Ok (RET_OK, r') /\ rr_ok r' /\
    rr_len r' = rr_len r + 2 /\
    rx_frame r' = rtu_frame id (tl (rx_frame r)) /\
    skipn (Z.to_nat (rr_len r) + 2) (rr_buf r') = skipn (Z.to_nat (rr_len r) + 2) (rr_buf r) /\
    modbus_RTU_recv r' id = Ok RET_OK /\
    forall id', id' <> id -> modbus_RTU_recv r' id' = Ok RET_ERROR_SLAVE_ID.
Proof. exact c02. Qed.
Print Assumptions C02_build_check_round_trip.
Definition sample_rr (l : list Z) : rr := mk_rr true (l ++ repeat 0 (256 - length l)) (Z.of_nat (length l)).
Lemma bytes_dec l : forallb (fun b => (0 <=? b) && (b <? 256)) l = true -> bytes l.
Proof. intros H. rewrite forallb_forall in H. apply Forall_forall. intros x Hx. specialize (H x Hx). unfold byte. lia. Qed.
Lemma sample_ok l : (length l <= 255)%nat -> forallb (fun b => (0 <=? b) && (b <? 256)) l = true -> rr_ok (sample_rr l).
Proof.
  intros H B. unfold rr_ok, sample_rr. cbn [rr_ptr rr_buf rr_len]. repeat split; try lia.
  - rewrite app_length, repeat_length. lia.
  - apply Forall_app. split; [apply bytes_dec; auto|]. apply Forall_forall. intros x Hx. apply repeat_spec in Hx. unfold byte; lia.
Qed.
Example C02_case : rr_ok (sample_rr [0; 3; 0; 1; 0; 2]) /\
  exists r', modbus_RTU_send (sample_rr [0; 3; 0; 1; 0; 2]) 17 = Ok (RET_OK, r') /\ firstn 9 (rr_buf r') = [17; 3; 0; 1; 0; 2; 151; 91; 0].
Proof. split; [apply sample_ok; [cbn; lia|reflexivity]|]. eexists. split; [vm_compute; reflexivity|reflexivity]. Qed.

(** C03 *)
Theorem C03_accept_iff_id_and_crc : forall (r : rr) (id : Z), rr_ok r ->
  (modbus_RTU_recv r id = Ok RET_OK <-> crc_ok (rx_frame r) /\ hd_error (rx_frame r) = Some id).
Proof. exact recv_accept_iff. Qed.
Print Assumptions C03_accept_iff_id_and_crc.
Theorem C03_short_never_accepted : forall (r : rr) (id : Z), rr_ok r -> rr_len r < 2 -> modbus_RTU_recv r id <> Ok RET_OK.
Proof. exact recv_short. Qed.
Print Assumptions C03_short_never_accepted.
Theorem C03_id_error : forall (r : rr) (id : Z), rr_ok r -> rr_len r <> 0 -> hd_error (rx_frame r) <> Some id ->
  modbus_RTU_recv r id = Ok RET_ERROR_SLAVE_ID.
Proof. exact recv_id_error. Qed.
Print Assumptions C03_id_error.
Theorem C03_crc_error : forall (r : rr) (id : Z), rr_ok r -> hd_error (rx_frame r) = Some id -> ~ crc_ok (rx_frame r) ->
  modbus_RTU_recv r id = Ok RET_ERROR_CRC.
Proof. exact recv_crc_error. Qed.
Print Assumptions C03_crc_error.
Example C03_case : modbus_RTU_recv (sample_rr [17; 3; 0; 1; 0; 2; 151; 91]) 17 = Ok RET_OK /\
  modbus_RTU_recv (sample_rr [17; 3; 0; 1; 0; 2; 151; 91]) 18 = Ok RET_ERROR_SLAVE_ID /\
  modbus_RTU_recv (sample_rr [17; 3; 0; 1; 0; 2; 151; 90]) 17 = Ok RET_ERROR_CRC.
Proof. repeat split; vm_compute; reflexivity. Qed.

(** C04: [e] = the altered bits, in transmission order.  One and three altered bits are the odd cases. *)
Theorem C04_errors_detected : forall (r r' : rr) (id : Z),
  rr_ok r -> rr_ok r' -> rr_len r' = rr_len r -> modbus_RTU_recv r id = Ok RET_OK ->
  let e := xor_bits (bits_of (rx_frame r)) (bits_of (rx_frame r')) in
  Nat.odd (weight e) = true \/ weight e = 2%nat \/
  (weight e <> 0%nat /\ exists i, forall k, nth k e false = true -> (i <= k < i + 16)%nat) ->
  forall id', modbus_RTU_recv r' id' <> Ok RET_OK.
Proof. exact c04. Qed.
Print Assumptions C04_errors_detected.
Example C04_case : let r := sample_rr [17; 3; 0; 1; 0; 2; 151; 91] in let r' := sample_rr [17; 3; 0; 0; 0; 2; 151; 90] in
  rr_ok r /\ rr_ok r' /\ modbus_RTU_recv r 17 = Ok RET_OK /\
  weight (xor_bits (bits_of (rx_frame r)) (bits_of (rx_frame r'))) = 2%nat.
Proof. repeat split; try (apply sample_ok; [cbn; lia|reflexivity]); vm_compute; reflexivity. Qed.

(** C05: too long or NULL: refused, nothing changed; otherwise C02 gives the exact in-bounds result (the outcome is [Ok],
    not [UB]); the length never wraps. *)
Theorem C05_too_long_refused : forall (r : rr) (id : Z), rr_ptr r = false \/ 253 < rr_len r ->
  modbus_RTU_send r id = Ok (RET_ERROR, r).
Proof. exact send_too_long. Qed.
Print Assumptions C05_too_long_refused.
Theorem C05_never_overflows : forall (r : rr) (id : Z), rr_ok r -> byte id ->
  (exists r', modbus_RTU_send r id = Ok (RET_OK, r') /\ rr_len r <= 253 /\ length (rr_buf r') = 256%nat /\ rr_len r' = rr_len r + 2 /\ rr_len r' <= 255)
  \/ (modbus_RTU_send r id = Ok (RET_ERROR, r) /\ 253 < rr_len r).
Proof. exact c05. Qed.
Print Assumptions C05_never_overflows.
Example C05_case : modbus_RTU_send (mk_rr true (repeat 1 256) 254) 3 = Ok (RET_ERROR, mk_rr true (repeat 1 256) 254).
Proof. vm_compute. reflexivity. Qed.

(** C06 *)
Theorem C06_write_then_read : forall (r : rr) (i v : Z), rr_ok r -> 0 <= i < 255 -> word v ->
  exists r', write_u16_to_buf r i v = Ok r' /\ rr_len r' = rr_len r /\ rr_ptr r' = true /\ length (rr_buf r') = 256%nat /\
    nth (Z.to_nat i) (rr_buf r') 0 = v / 256 /\ nth (S (Z.to_nat i)) (rr_buf r') 0 = v mod 256 /\
    (forall k, k <> Z.to_nat i -> k <> S (Z.to_nat i) -> nth k (rr_buf r') 0 = nth k (rr_buf r) 0) /\
    read_u16_from_buf r' i = Ok v.
Proof. exact c06_write. Qed.
Print Assumptions C06_write_then_read.
Theorem C06_read_big_endian : forall (r : rr) (i : Z), rr_ok r -> 0 <= i < 255 ->
  read_u16_from_buf r i = Ok (256 * nth (Z.to_nat i) (rr_buf r) 0 + nth (S (Z.to_nat i)) (rr_buf r) 0).
Proof. exact c06_read. Qed.
Print Assumptions C06_read_big_endian.
Example C06_case : rr_ok (sample_rr [1; 2; 3]) /\ word 0xABCD /\
  read_u16_from_buf (sample_rr [1; 2; 3]) 1 = Ok 0x0203.
Proof. split; [apply sample_ok; [cbn; lia|reflexivity]|]. split; [unfold word; lia|reflexivity]. Qed.
