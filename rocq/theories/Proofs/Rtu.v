(** 16-bit fields, frame building and frame check. *)
From Verif Require Export Proofs.Crc Spec.Buf.

Lemma bytes_nth l i : bytes l -> byte (nth i l 0).
Proof. intros H. apply Forall_nth_d; auto. unfold byte; lia. Qed.

Lemma shiftr8 v : Z.shiftr v 8 = v / 256.
Proof. rewrite Z.shiftr_div_pow2 by lia. reflexivity. Qed.
Lemma land255 v : Z.land v 255 = v mod 256.
Proof. change 255 with (Z.ones 8). rewrite Z.land_ones by lia. reflexivity. Qed.
Lemma lor_bytes a b : byte a -> byte b -> Z.lor (Z.shiftl a 8) b = 256 * a + b.
Proof.
  intros Ha Hb. rewrite <- Z.add_nocarry_lxor || idtac.
  assert (N : Z.land (Z.shiftl a 8) b = 0).
  { apply Z.bits_inj'. intros k Hk. rewrite Z.land_spec, Z.bits_0.
    destruct (Z.ltb_spec k 8).
    - rewrite Z.shiftl_spec_low by lia. reflexivity.
    - rewrite <- (Z.mod_small b (2 ^ 8)) by (unfold byte in Hb; lia).
      rewrite Z.mod_pow2_bits_high by lia. apply andb_false_r. }
  rewrite <- Z.lxor_lor, <- Z.add_nocarry_lxor by auto.
  rewrite Z.shiftl_mul_pow2 by lia. change (2 ^ 8) with 256. lia.
Qed.

Lemma write_u16_ok r i v :
  rr_ptr r = true -> 0 <= i -> i + 1 < Z.of_nat (length (rr_buf r)) -> word v ->
  write_u16_to_buf r i v =
    Ok (mk_rr true (upd (upd (rr_buf r) (Z.to_nat i) (v / 256)) (S (Z.to_nat i)) (v mod 256)) (rr_len r)).
Proof.
  intros P H1 H2 Hv. unfold write_u16_to_buf. rewrite wr_ok by (auto; lia). cbn [bind].
  rewrite wr_ok; cbn [rr_ptr rr_buf rr_len]; auto; [|rewrite upd_length; lia].
  unfold word in Hv. rewrite shiftr8, land255, !u8_id by lia.
  replace (Z.to_nat (i + 1)) with (S (Z.to_nat i)) by lia. reflexivity.
Qed.
Lemma read_u16_ok r i :
  rr_ptr r = true -> 0 <= i -> i + 1 < Z.of_nat (length (rr_buf r)) -> bytes (rr_buf r) ->
  read_u16_from_buf r i = Ok (256 * nth (Z.to_nat i) (rr_buf r) 0 + nth (S (Z.to_nat i)) (rr_buf r) 0).
Proof.
  intros P H1 H2 Hb. unfold read_u16_from_buf. rewrite !rd_ok by (auto; lia). cbn [bind].
  replace (Z.to_nat (i + 1)) with (S (Z.to_nat i)) by lia.
  assert (B1 := bytes_nth (rr_buf r) (Z.to_nat i) Hb).
  assert (B2 := bytes_nth (rr_buf r) (S (Z.to_nat i)) Hb).
  rewrite lor_bytes by auto. rewrite u16_id; auto. unfold byte in *; lia.
Qed.
Lemma word_split v : word v -> byte (v / 256) /\ byte (v mod 256) /\ 256 * (v / 256) + v mod 256 = v.
Proof. unfold word, byte; lia. Qed.
Lemma write_u16_bytes b i v : bytes b -> word v -> bytes (upd (upd b i (v / 256)) (S i) (v mod 256)).
Proof. intros Hb Hv. apply word_split in Hv. apply Forall_upd; [apply Forall_upd|]; tauto. Qed.

(** frame check *)
Lemma recv_ok r id : rr_ok r ->
  modbus_RTU_recv r id =
    Ok (if negb (id =? nth 0 (rr_buf r) 0) then RET_ERROR_SLAVE_ID
        else if negb (0 =? crc16 (firstn (Z.to_nat (rr_len r)) (rr_buf r))) then RET_ERROR_CRC else RET_OK).
Proof.
  intros (P & L & B & Hl). unfold modbus_RTU_recv. unfold byte in Hl.
  rewrite rd_ok by (auto; unfold MODBUS_SLAVE_ADR_IDX; lia).
  cbn [bind]. change (Z.to_nat MODBUS_SLAVE_ADR_IDX) with 0%nat.
  destruct (id =? _); cbn [negb]; auto.
  rewrite calculate_CRC_spec; [|lia|apply Forall_firstn; auto]. cbn [bind].
  destruct (0 =? _); reflexivity.
Qed.

Lemma intact_len id f : intact id f -> (2 <= length f)%nat.
Proof. intros [[b ->] _]. rewrite app_length. cbn [crc_field length]. lia. Qed.

(** the received frame *)
Lemma rx_frame_len r : rr_ok r -> length (rx_frame r) = Z.to_nat (rr_len r).
Proof. intros (P & L & B & Hl). unfold rx_frame. rewrite firstn_length. unfold byte in Hl. lia. Qed.
Lemma rx_frame_bytes r : rr_ok r -> bytes (rx_frame r).
Proof. intros (P & L & B & Hl). apply Forall_firstn; auto. Qed.
Lemma rx_frame_hd r : rr_ok r -> rr_len r <> 0 -> hd_error (rx_frame r) = Some (nth 0 (rr_buf r) 0).
Proof.
  intros (P & L & B & Hl) N. unfold rx_frame, byte in *.
  destruct (Z.to_nat (rr_len r)) eqn:E; [lia|]. destruct (rr_buf r); [discriminate|reflexivity].
Qed.

Lemma recv_accept_iff r id : rr_ok r ->
  (modbus_RTU_recv r id = Ok RET_OK <-> intact id (rx_frame r)).
Proof.
  intros H. rewrite recv_ok by auto. fold (rx_frame r).
  split.
  - destruct (id =? nth 0 (rr_buf r) 0) eqn:E; cbn [negb]; [|discriminate].
    destruct (0 =? crc16 (rx_frame r)) eqn:F; cbn [negb]; [|discriminate].
    intros _. split.
    + apply crc_ok_iff; [apply rx_frame_bytes; auto|]. lia.
    + rewrite rx_frame_hd; auto.
      * f_equal. lia.
      * intros Z0. unfold rx_frame in F. rewrite Z0 in F. change (firstn (Z.to_nat 0) (rr_buf r)) with (@nil Z) in F. rewrite crc16_nil in F. discriminate.
  - intros I. assert (L := intact_len _ _ I). destruct I as [C I].
    rewrite rx_frame_len in L by auto.
    rewrite rx_frame_hd in I by (auto; lia). injection I as I.
    apply crc_ok_iff in C; [|apply rx_frame_bytes; auto].
    rewrite C, I, Z.eqb_refl. reflexivity.
Qed.
Lemma recv_id_error r id : rr_ok r -> rr_len r <> 0 -> hd_error (rx_frame r) <> Some id ->
  modbus_RTU_recv r id = Ok RET_ERROR_SLAVE_ID.
Proof.
  intros H N E. rewrite recv_ok by auto. rewrite rx_frame_hd in E by auto.
  destruct (id =? _) eqn:F; cbn [negb]; auto. exfalso. apply E. f_equal. lia.
Qed.
Lemma recv_crc_error r id : rr_ok r -> hd_error (rx_frame r) = Some id -> ~ crc_ok (rx_frame r) ->
  modbus_RTU_recv r id = Ok RET_ERROR_CRC.
Proof.
  intros H E C. rewrite recv_ok by auto. fold (rx_frame r).
  rewrite rx_frame_hd in E.
  2: auto.
  2:{ intros Z0. unfold rx_frame in E. rewrite Z0 in E. discriminate. }
  injection E as ->. rewrite Z.eqb_refl. cbn [negb].
  rewrite <- crc_ok_iff in C by (apply rx_frame_bytes; auto).
  destruct (0 =? crc16 (rx_frame r)) eqn:F; cbn [negb]; auto. lia.
Qed.

(** frame building *)
Lemma firstn_app_exact {A} (a b : list A) n : n = length a -> firstn n (a ++ b) = a.
Proof. intros ->. rewrite firstn_app, Nat.sub_diag, firstn_O, app_nil_r. apply firstn_all. Qed.
Lemma skipn_app_exact {A} (a b : list A) n : n = length a -> skipn n (a ++ b) = b.
Proof. intros ->. rewrite skipn_app, Nat.sub_diag, skipn_all. reflexivity. Qed.

Lemma list3 {A} (l : list A) : (2 <= length l)%nat -> exists a b t, l = a :: b :: t.
Proof. destruct l as [|a [|b t]]; cbn [length]; intros; try lia. eauto. Qed.

Lemma send_ok id r x pdu rest :
  rr_ptr r = true -> rr_buf r = (x :: pdu) ++ rest -> (length rest >= 2)%nat ->
  rr_len r = Z.of_nat (length (x :: pdu)) -> rr_len r <= 253 ->
  bytes pdu -> byte id ->
  modbus_RTU_send r id = Ok (RET_OK, mk_rr true (rtu_frame id pdu ++ skipn 2 rest) (rr_len r + 2)).
Proof.
  intros P E L Hl H253 Hb Hid. unfold modbus_RTU_send. rewrite P. change MODBUS_PDU_MAX_LEN with 253.
  destruct (rr_len r <=? 253) eqn:Q; [|lia]. cbn [andb].
  destruct (list3 rest L) as (a & b & t & ->). clear L.
  unfold wr at 1. rewrite P, E. cbn [app]. rewrite aset_ok by (cbn [length]; unfold MODBUS_SLAVE_ADR_IDX; lia).
  cbn [bind]. change (Z.to_nat MODBUS_SLAVE_ADR_IDX) with 0%nat. cbn [upd].
  cbn [rr_buf rr_len].
  assert (F : firstn (Z.to_nat (rr_len r)) (id :: pdu ++ a :: b :: t) = id :: pdu).
  { change (id :: pdu ++ a :: b :: t) with ((id :: pdu) ++ a :: b :: t). apply firstn_app_exact. rewrite Hl. cbn [length]. lia. }
  rewrite calculate_CRC_spec.
  2:{ rewrite Hl. cbn [length]. rewrite app_length. cbn [length]. lia. }
  2:{ rewrite F. constructor; auto. }
  rewrite F. cbn [bind].
  set (crc := crc16 (id :: pdu)). assert (W := crc16_w16 (id :: pdu)). fold crc in W. unfold w16 in W.
  assert (Hn : Z.to_nat (rr_len r) = length (id :: pdu)) by (rewrite Hl; cbn [length]; lia).
  rewrite wr_ok; cbn [rr_ptr rr_buf rr_len]; auto.
  2:{ rewrite Hl. cbn [length]. rewrite app_length. cbn [length]. lia. }
  cbn [bind rr_len]. rewrite wr_ok; cbn [rr_ptr rr_buf rr_len]; auto.
  2:{ rewrite upd_length, Hl. cbn [length]. rewrite app_length. cbn [length]. lia. }
  cbn [bind]. unfold set_len. cbn [rr_ptr rr_buf rr_len].
  rewrite (u8_id (rr_len r + 2)) by lia.
  do 3 f_equal.
  change (id :: pdu ++ a :: b :: t) with ((id :: pdu) ++ a :: b :: t).
  rewrite upd_app_mid by exact Hn.
  change ((id :: pdu) ++ u8 (Z.land crc 255) :: b :: t) with ((id :: pdu) ++ [u8 (Z.land crc 255)] ++ b :: t).
  rewrite app_assoc, upd_app_mid.
  2:{ rewrite app_length. cbn [length] in *. lia. }
  unfold rtu_frame, crc_field. fold crc. cbn [skipn].
  rewrite shiftr8, land255, !u8_id by lia. rewrite <- !app_assoc. reflexivity.
Qed.

Lemma send_too_long r id : rr_ptr r = false \/ 253 < rr_len r -> modbus_RTU_send r id = Ok (RET_ERROR, r).
Proof.
  unfold modbus_RTU_send. change MODBUS_PDU_MAX_LEN with 253. intros H.
  destruct (rr_ptr r && (rr_len r <=? 253)) eqn:E; auto. apply andb_prop in E. destruct E as [E1 E2]. destruct H; [congruence|lia].
Qed.

Lemma rtu_frame_bytes id pdu : byte id -> bytes pdu -> bytes (rtu_frame id pdu).
Proof. intros. unfold rtu_frame. apply Forall_app; split; [constructor; auto|apply crc_field_bytes]. Qed.
Lemma rtu_frame_len id pdu : length (rtu_frame id pdu) = (length pdu + 3)%nat.
Proof. unfold rtu_frame. rewrite app_length. cbn [length crc_field]. lia. Qed.
Lemma rtu_frame_intact id pdu : intact id (rtu_frame id pdu).
Proof. split; [exists (id :: pdu); reflexivity|reflexivity]. Qed.
