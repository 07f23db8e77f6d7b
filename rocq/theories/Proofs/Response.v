(** Interpreting responses = Spec/Client.v *)
From Verif Require Export Proofs.Request Spec.Client.

Lemma land_bit b k : 0 <= b -> 0 <= k -> negb (0 =? Z.land b (Z.shiftl 1 k)) = Z.testbit b k.
Proof.
  intros Hb Hk. rewrite Z.shiftl_1_l.
  destruct (Z.testbit b k) eqn:E.
  - destruct (0 =? Z.land b (2 ^ k)) eqn:F; cbn [negb]; auto.
    assert (Z.testbit (Z.land b (2 ^ k)) k = true) by (rewrite Z.land_spec, E, Z.pow2_bits_true by lia; reflexivity).
    replace (Z.land b (2 ^ k)) with 0 in H by lia. rewrite Z.bits_0 in H. discriminate.
  - replace (Z.land b (2 ^ k)) with 0; auto. symmetry. apply Z.bits_inj'. intros j Hj.
    rewrite Z.land_spec, Z.bits_0. destruct (Z.eq_dec k j) as [->|N].
    + now rewrite E.
    + rewrite Z.pow2_bits_false by lia. apply andb_false_r.
Qed.
Lemma land_bit' b k : 0 <= b -> 0 <= k -> negb (Z.land b (Z.shiftl 1 k) =? 0) = Z.testbit b k.
Proof. intros. rewrite Z.eqb_sym. apply land_bit; auto. Qed.

Definition bit_at (resp : list Z) (k : nat) : bool := Z.testbit (byte_at resp (3 + k / 8)) (Z.of_nat (k mod 8)).

Lemma update_bits_loop_ok n : forall mk resp id adr i,
  rr_ok resp -> (i + n <= 2024)%nat ->
  update_bits_loop n mk resp id adr (Z.of_nat i) =
    Ok (map (fun k => mk id ((adr + Z.of_nat k) mod 65536) (bit_at (rr_buf resp) k)) (seq i n)).
Proof.
  induction n as [|n IH]; intros mk resp id adr i H Hi; cbn [update_bits_loop seq map]; auto.
  destruct H as (P & L & B & Hl).
  replace (Z.of_nat i / 8) with (Z.of_nat (i / 8)) by (rewrite Nat2Z.inj_div; reflexivity).
  replace (Z.of_nat i mod 8) with (Z.of_nat (i mod 8)) by (rewrite Nat2Z.inj_mod; reflexivity).
  assert (D : (i / 8 < 253)%nat) by (apply Nat.div_lt_upper_bound; lia).
  unfold MODBUS_RESP_READ_DATA_IDX.
  rewrite rd_ok by (auto; lia). cbn [bind].
  replace (Z.of_nat i + 1) with (Z.of_nat (S i)) by lia. rewrite IH by (unfold rr_ok; auto; lia). cbn [bind].
  replace (Z.to_nat (3 + Z.of_nat (i / 8))) with (3 + i / 8)%nat by lia.
  assert (B0 := bytes_nth (rr_buf resp) (3 + i / 8) B). unfold byte in B0.
  rewrite land_bit by lia. unfold bit_at, byte_at.
  unfold u16. destruct (Z.testbit _ _); reflexivity.
Qed.
Lemma update_regs_loop_ok n : forall mk resp id adr i,
  rr_ok resp -> (i + n <= 126)%nat ->
  update_regs_loop n mk resp id adr (Z.of_nat i) =
    Ok (map (fun k => mk id ((adr + Z.of_nat k) mod 65536) (word_at (rr_buf resp) (3 + 2 * k))) (seq i n)).
Proof.
  induction n as [|n IH]; intros mk resp id adr i H Hi; cbn [update_regs_loop seq map]; auto.
  assert (H' := H). destruct H as (P & L & B & Hl). unfold MODBUS_RESP_READ_DATA_IDX.
  rewrite read_u16_ok by (auto; lia). cbn [bind].
  replace (Z.of_nat i + 1) with (Z.of_nat (S i)) by lia. rewrite IH by (auto; lia). cbn [bind].
  replace (Z.to_nat (3 + Z.of_nat i * 2)) with (3 + 2 * i)%nat by lia. reflexivity.
Qed.
Lemma update_regs_loop_ub n : forall mk resp id adr i,
  rr_ok resp -> (i <= 126)%nat -> (126 < i + n)%nat ->
  update_regs_loop n mk resp id adr (Z.of_nat i) = UB.
Proof.
  induction n as [|n IH]; intros mk resp id adr i H Hi Hn; [lia|]. cbn [update_regs_loop].
  assert (H' := H). destruct H as (P & L & B & Hl). unfold MODBUS_RESP_READ_DATA_IDX.
  destruct (Nat.eq_dec i 126) as [->|N].
  - unfold read_u16_from_buf. rewrite rd_ok by (auto; lia). cbn [bind].
    unfold rd. rewrite P, aget_ub by lia. reflexivity.
  - rewrite read_u16_ok by (auto; lia). cbn [bind].
    replace (Z.of_nat i + 1) with (Z.of_nat (S i)) by lia. rewrite IH by (auto; lia). reflexivity.
Qed.

Section Resp.
Context (m : msg).
Context (Hm : msg_ok m).
Let req := rr_buf (m_req m).
Let resp := rr_buf (m_resp m).
Let rfc := byte_at req 1.
Let adr := word_at req 2.
Let qty := word_at req 4.
Let pfc := byte_at resp 1.
Let id := byte_at resp 0.

Lemma resp_rd i : 0 <= i < 256 -> rd (m_resp m) i = Ok (byte_at resp (Z.to_nat i)).
Proof. destruct Hm as [_ (P & L & B & _)]. intros H. apply rd_ok; auto. rewrite L. lia. Qed.
Lemma req_rd i : 0 <= i < 256 -> rd (m_req m) i = Ok (byte_at req (Z.to_nat i)).
Proof. destruct Hm as [(P & L & B & _) _]. intros H. apply rd_ok; auto. rewrite L. lia. Qed.
Lemma req_rd16 i : 0 <= i < 255 -> read_u16_from_buf (m_req m) i = Ok (word_at req (Z.to_nat i)).
Proof. destruct Hm as [(P & L & B & _) _]. intros H. apply read_u16_ok; auto; lia. Qed.
Lemma req_word i : word (word_at req i).
Proof. destruct Hm as [(P & L & B & _) _]. unfold word_at, byte_at. assert (B1 := bytes_nth req i B). assert (B2 := bytes_nth req (S i) B). unfold word, byte in *. lia. Qed.
Lemma resp_byte i : byte (byte_at resp i).
Proof. destruct Hm as [_ (P & L & B & _)]. apply bytes_nth; auto. Qed.
Lemma req_byte i : byte (byte_at req i).
Proof. destruct Hm as [(P & L & B & _) _]. apply bytes_nth; auto. Qed.
Lemma not_null : check_null_ptr_correctness m = RET_OK.
Proof. destruct Hm as [(P & _) (P2 & _)]. unfold check_null_ptr_correctness. now rewrite P, P2. Qed.

Lemma update_data_char : (qty <= 2024) ->
  update_master_data_from_modbus_msg m =
    if (pfc =? 1) || (pfc =? 2) || (pfc =? 3) || (pfc =? 4)
    then if ((pfc =? 3) || (pfc =? 4)) && (126 <? qty) then UB
         else Ok (RET_OK, normal_callbacks pfc id adr qty resp)
    else Ok (RET_ERROR, []).
Proof.
  intros Hq. unfold update_master_data_from_modbus_msg.
  rewrite resp_rd by (unfold MODBUS_SLAVE_ADR_IDX; lia). cbn [bind].
  rewrite resp_rd by (unfold MODBUS_FUNCTION_CODE_IDX; lia). cbn [bind].
  rewrite !req_rd16 by (unfold MODBUS_REQUEST_ADR_IDX, MODBUS_REQUEST_QTY_IDX; lia). cbn [bind].
  change (Z.to_nat MODBUS_SLAVE_ADR_IDX) with 0%nat. change (Z.to_nat MODBUS_FUNCTION_CODE_IDX) with 1%nat.
  change (Z.to_nat MODBUS_REQUEST_ADR_IDX) with 2%nat. change (Z.to_nat MODBUS_REQUEST_QTY_IDX) with 4%nat.
  fold pfc id adr qty.
  assert (Wq : word qty) by apply req_word. unfold word in Wq.
  destruct Hm as [_ Hr].
  unfold FC_READ_COILS, FC_READ_DISCRETE_INPUTS, FC_READ_INPUT_REGISTERS, FC_READ_HOLDING_REGISTERS.
  change 0 with (Z.of_nat 0).
  destruct (pfc =? 1) eqn:E1.
  { replace pfc with 1 by lia. cbn. rewrite update_bits_loop_ok by (auto; lia). reflexivity. }
  destruct (pfc =? 2) eqn:E2.
  { replace pfc with 2 by lia. cbn. rewrite update_bits_loop_ok by (auto; lia). reflexivity. }
  destruct (pfc =? 4) eqn:E4.
  { replace pfc with 4 by lia. cbn [Z.eqb Pos.eqb orb andb].
    destruct (126 <? qty) eqn:Q.
    - rewrite update_regs_loop_ub by (auto; lia). reflexivity.
    - rewrite update_regs_loop_ok by (auto; lia). reflexivity. }
  destruct (pfc =? 3) eqn:E3.
  { replace pfc with 3 by lia. cbn [Z.eqb Pos.eqb orb andb].
    destruct (126 <? qty) eqn:Q.
    - rewrite update_regs_loop_ub by (auto; lia). reflexivity.
    - rewrite update_regs_loop_ok by (auto; lia). reflexivity. }
  reflexivity.
Qed.

Lemma write_conf_char :
  report_write_operation_confirmation m =
    Ok (RET_OK, if (pfc =? 5) || (pfc =? 6) || (pfc =? 15) then normal_callbacks pfc id adr qty resp
                else [HregWrite id adr qty]).
Proof.
  unfold report_write_operation_confirmation.
  rewrite resp_rd by (unfold MODBUS_SLAVE_ADR_IDX; lia). cbn [bind].
  rewrite req_rd16 by (unfold MODBUS_REQUEST_ADR_IDX; lia). cbn [bind].
  rewrite resp_rd by (unfold MODBUS_FUNCTION_CODE_IDX; lia). cbn [bind].
  rewrite !req_rd16 by (unfold MODBUS_REQUEST_QTY_IDX; lia).
  change (Z.to_nat MODBUS_SLAVE_ADR_IDX) with 0%nat. change (Z.to_nat MODBUS_FUNCTION_CODE_IDX) with 1%nat.
  change (Z.to_nat MODBUS_REQUEST_ADR_IDX) with 2%nat. change (Z.to_nat MODBUS_REQUEST_QTY_IDX) with 4%nat.
  fold pfc id adr qty.
  unfold FC_WRITE_SINGLE_COIL, FC_WRITE_SINGLE_REGISTER, FC_WRITE_MULTIPLE_COILS.
  rewrite (Z.eqb_sym 5), (Z.eqb_sym 6), (Z.eqb_sym 15).
  destruct (pfc =? 5) eqn:E5. { replace pfc with 5 by lia. reflexivity. }
  destruct (pfc =? 6) eqn:E6. { replace pfc with 6 by lia. reflexivity. }
  destruct (pfc =? 15) eqn:E15. { replace pfc with 15 by lia. reflexivity. }
  reflexivity.
Qed.

Lemma exc_bit : (Z.land pfc MODBUS_EXCEPTION_CODE_MASK =? MODBUS_EXCEPTION_CODE_MASK) = (128 <=? pfc) /\ Z.land pfc 127 = pfc mod 128.
Proof.
  split.
  - assert (H := resp_byte 1). fold pfc in H. unfold byte in H.
    assert (S : forallb (fun k => Bool.eqb (Z.land k 128 =? 128) (128 <=? k)) (map Z.of_nat (seq 0 256)) = true) by (vm_compute; reflexivity).
    rewrite forallb_forall in S. apply eqb_prop. apply S. apply in_map_iff. exists (Z.to_nat pfc). split; [lia|]. apply in_seq. lia.
  - change 127 with (Z.ones 7). rewrite Z.land_ones by lia. reflexivity.
Qed.

Lemma send_exc_report e : byte (x_fc e) -> send_exception_code_report_data e = exception_callbacks e.
Proof.
  intros H. unfold send_exception_code_report_data, exception_callbacks.
  unfold FC_READ_COILS, FC_WRITE_SINGLE_COIL, FC_WRITE_MULTIPLE_COILS, FC_READ_DISCRETE_INPUTS, FC_READ_HOLDING_REGISTERS,
    FC_WRITE_SINGLE_REGISTER, FC_WRITE_MULTIPLE_REGISTER, FC_READ_INPUT_REGISTERS.
  destruct (x_fc e) as [|p|p]; [reflexivity| |reflexivity].
  do 5 (try (destruct p as [p|p|]; try reflexivity)).
Qed.

Lemma resp_exception : 128 <= pfc ->
  modbus_master_read_slave_resp m = Ok (RET_OK, exception_callbacks (mk_exc id (pfc - 128) (byte_at resp 2) adr qty)).
Proof.
  intros Hp. unfold modbus_master_read_slave_resp. rewrite not_null. change (RET_OK =? RET_OK) with true. cbn [negb].
  unfold modbus_response_contain_exception_code.
  rewrite resp_rd by (unfold MODBUS_FUNCTION_CODE_IDX; lia). cbn [bind]. change (Z.to_nat MODBUS_FUNCTION_CODE_IDX) with 1%nat. fold pfc.
  destruct exc_bit as [E1 E2]. rewrite E1. destruct (128 <=? pfc) eqn:E; [|lia].
  unfold process_modbus_exception_code.
  rewrite !resp_rd by (unfold MODBUS_FUNCTION_CODE_IDX, MODBUS_SLAVE_ADR_IDX, MODBUS_RESP_EXCEPTION_CODE_IDX; lia). cbn [bind].
  rewrite !req_rd16 by (unfold MODBUS_REQUEST_ADR_IDX, MODBUS_REQUEST_QTY_IDX; lia). cbn [bind].
  change (Z.to_nat MODBUS_SLAVE_ADR_IDX) with 0%nat. change (Z.to_nat MODBUS_FUNCTION_CODE_IDX) with 1%nat.
  change (Z.to_nat MODBUS_REQUEST_ADR_IDX) with 2%nat. change (Z.to_nat MODBUS_REQUEST_QTY_IDX) with 4%nat.
  change (Z.to_nat MODBUS_RESP_EXCEPTION_CODE_IDX) with 2%nat.
  fold pfc id adr qty. rewrite E2.
  assert (H := resp_byte 1). fold pfc in H. unfold byte in H.
  replace (pfc mod 128) with (pfc - 128) by lia.
  rewrite send_exc_report by (cbn [x_fc]; unfold byte; lia). reflexivity.
Qed.

Lemma resp_normal_dispatch : pfc < 128 ->
  modbus_master_read_slave_resp m =
    if (rfc =? 1) || (rfc =? 2) || (rfc =? 3) || (rfc =? 4) then update_master_data_from_modbus_msg m
    else if (rfc =? 5) || (rfc =? 6) || (rfc =? 15) || (rfc =? 16) then report_write_operation_confirmation m
    else Ok (RET_ERROR, []).
Proof.
  intros Hp. unfold modbus_master_read_slave_resp. rewrite not_null. change (RET_OK =? RET_OK) with true. cbn [negb].
  unfold modbus_response_contain_exception_code.
  rewrite resp_rd by (unfold MODBUS_FUNCTION_CODE_IDX; lia). cbn [bind]. change (Z.to_nat MODBUS_FUNCTION_CODE_IDX) with 1%nat. fold pfc.
  destruct exc_bit as [E1 E2]. rewrite E1. destruct (128 <=? pfc) eqn:E; [lia|].
  unfold process_modbus_response.
  rewrite !req_rd by (unfold MODBUS_FUNCTION_CODE_IDX; lia). cbn [bind]. change (Z.to_nat MODBUS_FUNCTION_CODE_IDX) with 1%nat. fold rfc.
  unfold modbus_master_function_mapper. cbn [find_resp_handler].
  unfold FC_READ_COILS, FC_WRITE_SINGLE_COIL, FC_WRITE_MULTIPLE_COILS, FC_READ_DISCRETE_INPUTS, FC_READ_HOLDING_REGISTERS,
    FC_WRITE_SINGLE_REGISTER, FC_WRITE_MULTIPLE_REGISTER, FC_READ_INPUT_REGISTERS.
  rewrite (Z.eqb_sym 1), (Z.eqb_sym 2), (Z.eqb_sym 3), (Z.eqb_sym 4), (Z.eqb_sym 5), (Z.eqb_sym 6), (Z.eqb_sym 15), (Z.eqb_sym 16).
  destruct (rfc =? 1), (rfc =? 2), (rfc =? 3), (rfc =? 4), (rfc =? 5), (rfc =? 6), (rfc =? 15), (rfc =? 16); reflexivity.
Qed.

(** matching function code *)
Definition limit_ok (fc q : Z) : Prop :=
  match fc with
  | 1 | 2 => q <= 2024
  | 3 | 4 => q <= 126
  | 5 | 6 | 15 | 16 => True
  | _ => False
  end.
Lemma resp_normal : pfc = rfc -> limit_ok rfc qty ->
  modbus_master_read_slave_resp m = Ok (RET_OK, normal_callbacks rfc id adr qty resp).
Proof.
  intros E L.
  assert (C : rfc = 1 \/ rfc = 2 \/ rfc = 3 \/ rfc = 4 \/ rfc = 5 \/ rfc = 6 \/ rfc = 15 \/ rfc = 16).
  { unfold limit_ok in L. destruct rfc as [|p|p]; try contradiction.
    do 5 (try (destruct p as [p|p|]; try contradiction; try tauto)). }
  rewrite resp_normal_dispatch by lia.
  destruct C as [C|[C|[C|[C|[C|[C|[C|C]]]]]]]; rewrite C in *; cbn [Z.eqb Pos.eqb orb limit_ok] in *;
  try (rewrite update_data_char by lia; rewrite E; cbn [Z.eqb Pos.eqb orb andb];
       try destruct (126 <? qty) eqn:Q; try lia; reflexivity);
  rewrite write_conf_char, E; reflexivity.
Qed.
End Resp.
