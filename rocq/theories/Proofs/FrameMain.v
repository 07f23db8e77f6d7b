(** Statements about whole frames, assembled from Crc.v and Rtu.v. *)
From Verif Require Export Proofs.Rtu.

Lemma c02 r id : rr_ok r -> 1 <= rr_len r <= 253 -> byte id ->
  exists r', modbus_RTU_send r id = Ok (RET_OK, r') /\ rr_ok r' /\
    rr_len r' = rr_len r + 2 /\
    rx_frame r' = rtu_frame id (tl (rx_frame r)) /\
    skipn (Z.to_nat (rr_len r) + 2) (rr_buf r') = skipn (Z.to_nat (rr_len r) + 2) (rr_buf r) /\
    modbus_RTU_recv r' id = Ok RET_OK /\
    forall id', id' <> id -> modbus_RTU_recv r' id' = Ok RET_ERROR_SLAVE_ID.
Proof.
  intros Hr Hl Hid. destruct Hr as (P & L & B & Hb).
  set (n := Z.to_nat (rr_len r)).
  assert (E : rr_buf r = firstn n (rr_buf r) ++ skipn n (rr_buf r)) by now rewrite firstn_skipn.
  assert (Lf : length (firstn n (rr_buf r)) = n) by (rewrite firstn_length; lia).
  assert (Ls : length (skipn n (rr_buf r)) = (256 - n)%nat) by (rewrite skipn_length; lia).
  set (f := firstn n (rr_buf r)) in *. destruct f as [|x pdu] eqn:Ef; [cbn in Lf; lia|].
  set (rest := skipn n (rr_buf r)) in *.
  assert (Bf : bytes pdu). { assert (bytes (x :: pdu)). { rewrite <- Ef. apply Forall_firstn; auto. } inversion H; auto. }
  assert (Br : bytes rest) by (apply Forall_skipn; auto).
  assert (S := send_ok id r x pdu rest P E ltac:(lia) ltac:(lia) ltac:(lia) Bf Hid).
  eexists. split; [exact S|].
  assert (Hok : rr_ok (mk_rr true (rtu_frame id pdu ++ skipn 2 rest) (rr_len r + 2))).
  { repeat split; cbn [rr_buf rr_len]; try lia.
    - rewrite app_length, rtu_frame_len, skipn_length. cbn [length] in Lf. lia.
    - apply Forall_app. split; [apply rtu_frame_bytes; auto|apply Forall_skipn; auto]. }
  split; [exact Hok|]. split; [reflexivity|].
  assert (Et : tl (rx_frame r) = pdu). { unfold rx_frame. fold n f. rewrite Ef. reflexivity. }
  assert (Ex : rx_frame (mk_rr true (rtu_frame id pdu ++ skipn 2 rest) (rr_len r + 2)) = rtu_frame id pdu).
  { unfold rx_frame. cbn [rr_buf rr_len]. apply firstn_app_exact. rewrite rtu_frame_len. cbn [length] in Lf. lia. }
  split; [rewrite Et; exact Ex|]. split; [|split].
  - cbn [rr_buf]. rewrite skipn_app_exact by (rewrite rtu_frame_len; cbn [length] in Lf; lia).
    unfold rest. clear. rewrite skipn_skipn. f_equal.
  - apply recv_accept_iff; auto. rewrite Ex. apply rtu_frame_intact.
  - intros id' Hne. apply recv_id_error; auto.
    + cbn [rr_len]. lia.
    + rewrite Ex. cbn. congruence.
Qed.

Lemma c04 r r' id : rr_ok r -> rr_ok r' -> rr_len r' = rr_len r -> modbus_RTU_recv r id = Ok RET_OK ->
  let e := xor_bits (bits_of (rx_frame r)) (bits_of (rx_frame r')) in
  Nat.odd (weight e) = true \/ weight e = 2%nat \/
  (weight e <> 0%nat /\ exists i, forall k, nth k e false = true -> (i <= k < i + 16)%nat) ->
  forall id', modbus_RTU_recv r' id' <> Ok RET_OK.
Proof.
  intros Hr Hr' El Hacc e He id' Hacc'.
  apply recv_accept_iff in Hacc; auto. apply recv_accept_iff in Hacc'; auto.
  destruct Hacc as [A _], Hacc' as [A' _].
  assert (L : length (rx_frame r) = length (rx_frame r')) by (rewrite !rx_frame_len by auto; congruence).
  apply crc_ok_iff in A; [|apply rx_frame_bytes; auto]. apply crc_ok_iff in A'; [|apply rx_frame_bytes; auto].
  rewrite (altered_crc (rx_frame r) (rx_frame r')) in A'; auto using rx_frame_bytes. fold e in A'.
  destruct He as [O|[W|[N [i Hi]]]].
  - eapply run_detect_odd; eauto.
  - eapply run_detect_two; eauto. unfold e, xor_bits. rewrite map_length, combine_length, !bits_of_len, !rx_frame_len by auto.
    destruct Hr as (_ & _ & _ & B). unfold byte in B. lia.
  - eapply run_detect_burst; eauto.
Qed.

Lemma c06_write r i v : rr_ok r -> 0 <= i < 255 -> word v ->
  exists r', write_u16_to_buf r i v = Ok r' /\ rr_len r' = rr_len r /\ rr_ptr r' = true /\ length (rr_buf r') = 256%nat /\
    nth (Z.to_nat i) (rr_buf r') 0 = v / 256 /\ nth (S (Z.to_nat i)) (rr_buf r') 0 = v mod 256 /\
    (forall k, k <> Z.to_nat i -> k <> S (Z.to_nat i) -> nth k (rr_buf r') 0 = nth k (rr_buf r) 0) /\
    read_u16_from_buf r' i = Ok v.
Proof.
  intros (P & L & B & Hl) Hi Hv. rewrite write_u16_ok by (auto; lia).
  eexists. split; [reflexivity|]. cbn [rr_len rr_ptr rr_buf].
  assert (N1 : nth (Z.to_nat i) (upd (upd (rr_buf r) (Z.to_nat i) (v / 256)) (S (Z.to_nat i)) (v mod 256)) 0 = v / 256).
  { rewrite upd_nth_other by lia. apply upd_nth_same. lia. }
  assert (N2 : nth (S (Z.to_nat i)) (upd (upd (rr_buf r) (Z.to_nat i) (v / 256)) (S (Z.to_nat i)) (v mod 256)) 0 = v mod 256).
  { apply upd_nth_same. rewrite upd_length. lia. }
  repeat split; auto.
  - rewrite !upd_length. auto.
  - intros k H1 H2. rewrite !upd_nth_other by lia. reflexivity.
  - rewrite read_u16_ok; cbn [rr_ptr rr_buf]; auto; try lia.
    + rewrite N1, N2. f_equal. destruct (word_split v Hv) as (_ & _ & E). exact E.
    + rewrite !upd_length. lia.
    + apply write_u16_bytes; auto.
Qed.
Lemma c06_read r i : rr_ok r -> 0 <= i < 255 ->
  read_u16_from_buf r i = Ok (256 * nth (Z.to_nat i) (rr_buf r) 0 + nth (S (Z.to_nat i)) (rr_buf r) 0).
Proof. intros (P & L & B & _) H. apply read_u16_ok; auto; lia. Qed.

Lemma recv_short r id : rr_ok r -> rr_len r < 2 -> modbus_RTU_recv r id <> Ok RET_OK.
Proof.
  intros Hr H A. apply recv_accept_iff in A; auto. apply intact_len in A. rewrite rx_frame_len in A by auto. lia.
Qed.
Lemma c05 r id : rr_ok r -> byte id ->
  (exists r', modbus_RTU_send r id = Ok (RET_OK, r') /\ rr_len r <= 253 /\ length (rr_buf r') = 256%nat /\ rr_len r' = rr_len r + 2 /\ rr_len r' <= 255)
  \/ (modbus_RTU_send r id = Ok (RET_ERROR, r) /\ 253 < rr_len r).
Proof.
  intros Hr Hid. destruct (Z_le_gt_dec (rr_len r) 253) as [H|H].
  2:{ right. split; [apply send_too_long; right; lia|lia]. }
  left. destruct (Z.eq_dec (rr_len r) 0) as [Z0|NZ].
  - destruct Hr as (P & L & B & Hl). unfold modbus_RTU_send. rewrite P, Z0. cbn [andb].
    change (0 <=? MODBUS_PDU_MAX_LEN) with true. cbn iota.
    rewrite wr_ok by (auto; unfold MODBUS_SLAVE_ADR_IDX; lia). cbn [bind rr_buf rr_len]. rewrite Z0.
    change (calculate_CRC (upd (rr_buf r) (Z.to_nat MODBUS_SLAVE_ADR_IDX) id) 0) with (Ok 0xFFFF). cbn [bind].
    rewrite wr_ok by (cbn [rr_ptr rr_buf]; rewrite ?upd_length; auto; lia). cbn [bind rr_buf rr_len].
    rewrite wr_ok by (cbn [rr_ptr rr_buf]; rewrite ?upd_length; auto; lia). cbn [bind rr_buf rr_len].
    eexists. split; [reflexivity|]. cbn [set_len rr_buf rr_len]. rewrite !upd_length. change (u8 (0 + 2)) with 2. repeat split; auto; lia.
  - destruct (c02 r id) as (r' & E & (P' & L' & _ & _) & El & _); auto.
    { destruct Hr as (_ & _ & _ & B). unfold byte in B. lia. }
    exists r'. repeat split; auto; lia.
Qed.
