(** parse_master_request_and_prepare_resp = server, for every request buffer *)
From Verif Require Export Proofs.ServerP.

Lemma list3' (l : list Z) : length l = 256%nat ->
  exists x0 x1 x2 t, l = x0 :: x1 :: x2 :: t /\ length t = 253%nat.
Proof.
  intros H. do 3 (destruct l as [|? l]; [discriminate|]). do 4 eexists. split; [reflexivity|]. cbn [length] in H. lia.
Qed.
Lemma byte_lit n : 0 <= n < 256 -> byte n. Proof. auto. Qed.

Section Main.
Context (c : cfg) (d : sdata) (qr : rr) (b : list Z) (x0 x1 x2 : Z) (t : list Z) (rl : Z).
Context (Hc : cfg_tables_ok c) (Hd : data_ok c d) (Hq : rr_ok qr) (Eb : rr_buf qr = b).
Context (Lt : length t = 253%nat) (Hx0 : byte x0) (Hx1 : byte x1) (Hx2 : byte x2) (Ht : bytes t).
Let adr := word_at b 2.
Let qty := word_at b 4.
Let cnt := byte_at b 6.
Let fcode := byte_at b 1.
Definition mresp (fc : Z) : msg := mk_msg qr (mk_rr true (x0 :: fc :: x2 :: t) rl).

Lemma q_rd i : 0 <= i < 256 -> rd qr i = Ok (byte_at b (Z.to_nat i)).
Proof. destruct Hq as (P & L & B & _). intros H. subst b. apply rd_ok; auto. rewrite L. lia. Qed.
Lemma q_rd16 i : 0 <= i < 255 -> read_u16_from_buf qr i = Ok (word_at b (Z.to_nat i)).
Proof. destruct Hq as (P & L & B & _). intros H. subst b. apply read_u16_ok; auto; lia. Qed.
Lemma q_word i : word (word_at b i).
Proof. destruct Hq as (P & L & B & _). subst b. unfold word_at, byte_at. assert (B1 := bytes_nth (rr_buf qr) i B). assert (B2 := bytes_nth (rr_buf qr) (S i) B). unfold word, byte in *. lia. Qed.
Lemma q_byte i : byte (byte_at b i).
Proof. destruct Hq as (P & L & B & _). subst b. apply bytes_nth; auto. Qed.
Lemma q_adr : read_u16_from_buf qr MODBUS_REQUEST_ADR_IDX = Ok adr.
Proof. apply q_rd16. unfold MODBUS_REQUEST_ADR_IDX; lia. Qed.
Lemma q_qty : read_u16_from_buf qr MODBUS_REQUEST_QTY_IDX = Ok qty.
Proof. apply q_rd16. unfold MODBUS_REQUEST_QTY_IDX; lia. Qed.
Lemma q_qty' : read_u16_from_buf qr MODBUS_RESP_WRITE_SINGLE_DATA_IDX = Ok qty.
Proof. apply q_rd16. unfold MODBUS_RESP_WRITE_SINGLE_DATA_IDX; lia. Qed.
Lemma q_cnt : rd qr MODBUS_REQUEST_BYTE_CNT_IDX = Ok cnt.
Proof. apply q_rd. unfold MODBUS_REQUEST_BYTE_CNT_IDX; lia. Qed.
Lemma q_fc : rd qr MODBUS_FUNCTION_CODE_IDX = Ok fcode.
Proof. apply q_rd. unfold MODBUS_FUNCTION_CODE_IDX; lia. Qed.

Lemma buf_len fc : length (x0 :: fc :: x2 :: t) = 256%nat.
Proof. cbn [length]. lia. Qed.
Lemma buf_bytes fc : byte fc -> bytes (x0 :: fc :: x2 :: t).
Proof. intros. do 3 (constructor; [assumption|]). exact Ht. Qed.

Lemma exc_mresp fc code : byte fc -> byte code ->
  exists r, set_exception_code_resp (mresp fc) code = Ok (mk_msg qr r) /\ holds r (exc fc code).
Proof. intros. apply set_exc_ok; auto using buf_len, buf_bytes. Qed.

Lemma check_read_ok fc max size : byte fc ->
  let ch := check_read_req_data_correcntess (mresp fc) max size in
  if negb ((1 <=? qty) && (qty <=? max)) then exists r, ch = Ok (RET_ERROR, mk_msg qr r) /\ holds r (exc fc 3)
  else if size <? adr + qty then exists r, ch = Ok (RET_ERROR, mk_msg qr r) /\ holds r (exc fc 2)
  else ch = Ok (RET_OK, mresp fc).
Proof.
  intros Hf ch. subst ch. unfold check_read_req_data_correcntess. cbn [mresp m_req].
  rewrite q_adr, q_qty. cbn [bind].
  assert (Wq : word qty) by apply q_word. unfold word in Wq.
  replace ((0 =? qty) || (max <? qty)) with (negb ((1 <=? qty) && (qty <=? max))) by lia.
  unfold MODBUS_ILLEGAL_DATA_VALUE_ERROR, MODBUS_ILLEGAL_DATA_ADDRESS_ERROR.
  destruct (negb ((1 <=? qty) && (qty <=? max))) eqn:E1.
  - destruct (exc_mresp fc 3 Hf ltac:(unfold byte; lia)) as (r & E & Hr). rewrite E. cbn [bind]. eauto.
  - unfold range_exceeded. destruct (size <? adr + qty) eqn:E2; auto.
    destruct (exc_mresp fc 2 Hf ltac:(unfold byte; lia)) as (r & E & Hr). rewrite E. cbn [bind]. eauto.
Qed.

(** the result of a handler *)
Definition answers (o : outcome (Z * msg * sdata)) (pdu : list Z) (d' : sdata) : Prop :=
  exists st r, o = Ok (st, mk_msg qr r, d') /\ holds r pdu.

Lemma holds_app x pdu rest : length (x :: pdu ++ rest) = 256%nat -> bytes (x :: pdu ++ rest) ->
  holds (mk_rr true (x :: pdu ++ rest) (1 + Z.of_nat (length pdu))) pdu.
Proof. intros. exists x, rest. auto. Qed.

Lemma bits_service fc tab : byte fc -> ptrs_ok tab (v_bits d) -> 1 <= qty <= 2000 -> adr + qty <= Z.of_nat (length tab) ->
  Z.of_nat (length tab) <= 65535 ->
  let bc := get_coil_din_byte_count qty in
  exists st r,
  (let* r := wr (m_resp (mresp fc)) MODBUS_RESP_READ_BYTE_CNT_IDX bc in
   let* r := clear_coil_din_status_byte r MODBUS_RESP_READ_DATA_IDX bc in
   let* '(m, v) := read_din_loop (Z.to_nat qty) tab (v_bits d) (mk_msg qr r) adr 0 RET_OK in
   Ok (update_msg_len_and_ret_status m v bc)) = Ok (st, mk_msg qr r) /\
  (exists last m', 
   (let* r := wr (m_resp (mresp fc)) MODBUS_RESP_READ_BYTE_CNT_IDX bc in
   let* r := clear_coil_din_status_byte r MODBUS_RESP_READ_DATA_IDX bc in
   read_din_loop (Z.to_nat qty) tab (v_bits d) (mk_msg qr r) adr 0 RET_OK) = Ok (m', last) /\
   update_msg_len_and_ret_status m' last bc = (st, mk_msg qr r) /\ (last = RET_ERROR -> m' = mk_msg qr r /\ st = RET_ERROR)) /\
  holds r (match option_map pack_bits (fetch tab (v_bits d) adr qty) with
           | Some l => fc :: Z.of_nat (length l) :: l
           | None => exc fc 4 end).
Proof.
  intros Hf P Hqr Hsz H16 bc.
  assert (Wa : word adr) by apply q_word. unfold word in Wa.
  assert (Ebc : bc = (qty + 7) / 8) by (unfold bc; apply byte_count_ok; lia). clearbody bc.
  set (nb := Z.to_nat bc).
  destruct (split_at t nb ltac:(unfold nb; lia)) as (ta & tb & Et & Hta).
  assert (Ht' := Ht). assert (Lt' := Lt). rewrite Et in Ht', Lt'.
  apply Forall_app in Ht'. destruct Ht' as [Bta Btb]. rewrite app_length in Lt'.
  cbn [mresp m_resp]. rewrite wr_at2. cbn [bind]. rewrite Et.
  assert (CL : clear_coil_din_status_byte (mk_rr true (x0 :: fc :: bc :: ta ++ tb) rl) MODBUS_RESP_READ_DATA_IDX bc =
     Ok (mk_rr true ([x0; fc; bc] ++ repeat 0 nb ++ tb) rl)).
  { change (x0 :: fc :: bc :: ta ++ tb) with ([x0; fc; bc] ++ ta ++ tb).
    rewrite clear_ok; [rewrite Hta; reflexivity | reflexivity | rewrite Hta; unfold nb; lia | lia]. }
  rewrite CL. cbn [bind].
  assert (L3 : length (buf3 x0 fc bc (repeat 0 nb) tb) = 256%nat).
  { unfold buf3. cbn [app length]. rewrite app_length, repeat_length. lia. }
  assert (Bbc : byte bc) by (unfold byte; lia).
  assert (LP := read_din_loop_ok tab (v_bits d) qr x0 fc bc tb rl adr nb P ltac:(lia) Hf Hx0 Bbc Btb L3
     (Z.to_nat qty) [] RET_OK ltac:(cbn [length]; unfold nb; lia) ltac:(cbn [length]; lia) ltac:(cbn [length]; lia) ltac:(discriminate)).
  cbv zeta in LP. cbn [length] in LP. rewrite Nat.add_0_r, packed_0 in LP. change (Z.of_nat 0) with 0 in LP. cbn [app] in LP.
  unfold fetch. destruct (all_some (map (var_at tab (v_bits d)) (seq (Z.to_nat adr) (Z.to_nat qty)))) as [l|] eqn:F; cbn [option_map].
  - destruct LP as (last & Hlast & E). unfold buf3 in E at 1. rewrite E. cbn [bind].
    assert (Ll : length l = Z.to_nat qty).
    { assert (G : forall (o : list (option bool)) l, all_some o = Some l -> length l = length o).
      { induction o as [|[y|] o IHo]; intros l0 H0; cbn in H0; try discriminate.
        - now inversion H0.
        - destruct (all_some o); cbn in H0; [|discriminate]. inversion H0; cbn. f_equal; auto. }
      apply G in F. rewrite map_length, seq_length in F. exact F. }
    assert (Enb : nb = ((length l + 7) / 8)%nat).
    { apply Nat2Z.inj. rewrite Nat2Z.inj_div. unfold nb. lia. }
    assert (EP : packed nb (length l) l = pack_bits l) by (rewrite Enb; apply packed_all).
    assert (LP' : length (pack_bits l) = nb) by (rewrite pack_bits_len; lia).
    unfold update_msg_len_and_ret_status. destruct (RET_ERROR =? last) eqn:R; [lia|]. cbn [negb].
    unfold set_resp, set_len. cbn [m_req m_resp rr_ptr rr_buf]. do 2 eexists. split; [reflexivity|]. split.
    + exists last. eexists. split; [reflexivity|]. cbn [m_req m_resp rr_ptr rr_buf]. rewrite R. cbn [negb]. split; [reflexivity|]. intros; congruence.
    + rewrite EP, LP'. unfold buf3. unfold MODBUS_READ_RESP_LEN.
      replace (Z.of_nat nb) with bc by (unfold nb; lia).
      replace (u8 (3 + bc)) with (1 + Z.of_nat (length (fc :: bc :: pack_bits l))) by (rewrite u8_id; cbn [length]; unfold nb in *; lia).
      change ([x0; fc; bc] ++ pack_bits l ++ tb) with (x0 :: (fc :: bc :: pack_bits l) ++ tb).
      apply holds_app.
      * cbn [length app]. rewrite app_length. lia.
      * do 3 (constructor; [assumption|]). apply Forall_app. split; auto. apply pack_bits_bytes.
  - destruct LP as (r & Hr & E). unfold buf3 in E. rewrite E. cbn [bind].
    unfold update_msg_len_and_ret_status. change (RET_ERROR =? RET_ERROR) with true. cbn [negb].
    do 2 eexists. split; [reflexivity|]. split; auto.
    exists RET_ERROR. eexists. split; [reflexivity|]. change (RET_ERROR =? RET_ERROR) with true. cbn [negb]. split; [reflexivity|]. auto.
Qed.

Lemma fetch_len {A} (o : list (option A)) l : all_some o = Some l -> length l = length o.
Proof.
  revert l. induction o as [|[y|] o IHo]; intros l0 H0; cbn in H0; try discriminate.
  - now inversion H0.
  - destruct (all_some o); cbn in H0; [|discriminate]. inversion H0; cbn. f_equal; auto.
Qed.

Lemma regs_service fc tab : byte fc -> ptrs_ok tab (v_regs d) -> 1 <= qty <= 125 -> adr + qty <= Z.of_nat (length tab) ->
  Z.of_nat (length tab) <= 65535 -> Forall word (v_regs d) ->
  let bc := u8 (2 * qty) in
  exists st r,
  (let* r := wr (m_resp (mresp fc)) MODBUS_RESP_READ_BYTE_CNT_IDX bc in
   let* '(m, v) := read_reg_loop (Z.to_nat qty) tab (v_regs d) (mk_msg qr r) adr 0 RET_OK in
   Ok (update_msg_len_and_ret_status m v bc)) = Ok (st, mk_msg qr r) /\
  holds r (match option_map pack_regs (fetch tab (v_regs d) adr qty) with
           | Some l => fc :: Z.of_nat (length l) :: l
           | None => exc fc 4 end).
Proof.
  intros Hf P Hqr Hsz H16 Hw bc.
  assert (Wa : word adr) by apply q_word. unfold word in Wa.
  assert (Ebc : bc = 2 * qty) by (unfold bc; apply u8_id; lia). clearbody bc.
  cbn [mresp m_resp]. rewrite wr_at2. cbn [bind].
  assert (L3 : length (buf3 x0 fc bc (pack_regs []) t) = 256%nat).
  { unfold buf3. cbn [app length pack_regs flat_map]. lia. }
  assert (Bbc : byte bc) by (unfold byte; lia).
  assert (LP := read_reg_loop_ok tab (v_regs d) qr x0 fc bc rl adr P Hw ltac:(lia) Hf Hx0 Bbc
     (Z.to_nat qty) [] t RET_OK Ht ltac:(constructor) ltac:(lia) L3 ltac:(cbn [length]; lia) ltac:(cbn [length]; lia) ltac:(discriminate)).
  cbv zeta in LP. cbn [length] in LP. rewrite Nat.add_0_r in LP. change (Z.of_nat 0) with 0 in LP. cbn [app] in LP.
  unfold buf3 in LP at 1. unfold buf3 in LP at 2. cbn [pack_regs flat_map app] in LP.
  unfold fetch. destruct (all_some (map (var_at tab (v_regs d)) (seq (Z.to_nat adr) (Z.to_nat qty)))) as [l|] eqn:F; cbn [option_map].
  - destruct LP as (last & Hlast & Hwl & E). rewrite E. cbn [bind].
    assert (Ll : length l = Z.to_nat qty).
    { apply fetch_len in F. rewrite map_length, seq_length in F. exact F. }
    unfold update_msg_len_and_ret_status. destruct (RET_ERROR =? last) eqn:R; [lia|]. cbn [negb].
    unfold set_resp, set_len. cbn [m_req m_resp rr_ptr rr_buf]. do 2 eexists. split; [reflexivity|].
    unfold MODBUS_READ_RESP_LEN. rewrite pack_regs_len.
    replace (Z.of_nat (2 * length l)) with bc by lia.
    replace (u8 (3 + bc)) with (1 + Z.of_nat (length (fc :: bc :: pack_regs l))) by (rewrite u8_id; cbn [length]; rewrite ?pack_regs_len; lia).
    unfold buf3. change ([x0; fc; bc] ++ pack_regs l ++ skipn (2 * Z.to_nat qty) t) with (x0 :: (fc :: bc :: pack_regs l) ++ skipn (2 * Z.to_nat qty) t).
    apply holds_app.
    + cbn [length app]. rewrite app_length, pack_regs_len, skipn_length. lia.
    + do 3 (constructor; [assumption|]). apply Forall_app. split; [apply pack_regs_bytes; auto|apply Forall_skipn; auto].
  - destruct LP as (r & Hr & E). rewrite E. cbn [bind].
    unfold update_msg_len_and_ret_status. change (RET_ERROR =? RET_ERROR) with true. cbn [negb]. eauto.
Qed.

Lemma tabs : u16 (c_coils c) = c_coils c /\ u16 (c_din c) = c_din c /\ u16 (c_ireg c) = c_ireg c /\ u16 (c_hreg c) = c_hreg c.
Proof. unfold cfg_tables_ok in Hc. repeat split; apply u16_id; lia. Qed.

Lemma h_read_coils : answers (modbus_slave_read_coils c (mresp x1) d)
  (read_reply 1 2000 (c_coils c) adr qty (option_map pack_bits (fetch (t_coils d) (v_bits d) adr qty))) d.
Proof.
  unfold modbus_slave_read_coils, answers. cbn [mresp m_resp].
  unfold MODBUS_FUNCTION_CODE_IDX. rewrite wr_at1. cbn [bind]. unfold set_resp. change (mk_msg (m_req (mresp x1)) (mk_rr true (x0 :: FC_READ_COILS :: x2 :: t) rl)) with (mresp FC_READ_COILS).
  destruct tabs as (-> & _).
  assert (CH := check_read_ok FC_READ_COILS MODBUS_MAX_READ_COILS_QTY (c_coils c) ltac:(unfold byte, FC_READ_COILS; lia)). cbv zeta in CH.
  unfold read_reply. change MODBUS_MAX_READ_COILS_QTY with 2000 in *.
  destruct (negb ((1 <=? qty) && (qty <=? 2000))) eqn:E1.
  { destruct CH as (r & E & Hr). rewrite E. cbn [bind]. change (RET_ERROR =? RET_ERROR) with true. cbn [negb]. eauto. }
  destruct (c_coils c <? adr + qty) eqn:E2.
  { destruct CH as (r & E & Hr). rewrite E. cbn [bind]. change (RET_ERROR =? RET_ERROR) with true. cbn [negb]. eauto. }
  rewrite CH. cbn [bind]. change (RET_ERROR =? RET_OK) with false. cbn [negb].
  destruct Hd as (D1 & D2 & D3 & D4 & P1 & P2 & P3 & P4 & W). destruct Hc as (C1 & C2 & C3 & C4).
  destruct (bits_service FC_READ_COILS (t_coils d) ltac:(unfold byte, FC_READ_COILS; lia) P1 ltac:(lia) ltac:(lia) ltac:(lia)) as (st & r & _ & (last & m' & E & U & F) & Hr).
  unfold handle_slave_read_coil_service. cbn [m_req m_resp mresp] in *.
  rewrite q_adr, q_qty. cbn [bind].
  apply bind_ok in E. destruct E as (r1 & Ea & E). apply bind_ok in E. destruct E as (r2 & Eb2 & E).
  rewrite Ea. cbn [bind]. rewrite Eb2. cbn [bind]. unfold set_resp. cbn [m_req mresp].
  rewrite read_coil_din_loop by discriminate. rewrite E.
  destruct (RET_ERROR =? last) eqn:R; cbn [bind].
  - destruct F as [-> ->]; [lia|]. do 2 eexists. split; [reflexivity|]. exact Hr.
  - rewrite U. do 2 eexists. split; [reflexivity|]. exact Hr.
Qed.

Lemma h_read_din : answers (modbus_slave_read_discrete_inputs c (mresp x1) d)
  (read_reply 2 2000 (c_din c) adr qty (option_map pack_bits (fetch (t_din d) (v_bits d) adr qty))) d.
Proof.
  unfold modbus_slave_read_discrete_inputs, answers. cbn [mresp m_resp].
  unfold MODBUS_FUNCTION_CODE_IDX. rewrite wr_at1. cbn [bind]. unfold set_resp. change (mk_msg (m_req (mresp x1)) (mk_rr true (x0 :: FC_READ_DISCRETE_INPUTS :: x2 :: t) rl)) with (mresp FC_READ_DISCRETE_INPUTS).
  destruct tabs as (_ & -> & _).
  assert (CH := check_read_ok FC_READ_DISCRETE_INPUTS MODBUS_MAX_READ_DISCRETE_INPUTS_QTY (c_din c) ltac:(unfold byte, FC_READ_DISCRETE_INPUTS; lia)). cbv zeta in CH.
  unfold read_reply. change MODBUS_MAX_READ_DISCRETE_INPUTS_QTY with 2000 in *.
  destruct (negb ((1 <=? qty) && (qty <=? 2000))) eqn:E1.
  { destruct CH as (r & E & Hr). rewrite E. cbn [bind]. change (RET_OK =? RET_ERROR) with false. cbn iota. eauto. }
  destruct (c_din c <? adr + qty) eqn:E2.
  { destruct CH as (r & E & Hr). rewrite E. cbn [bind]. change (RET_OK =? RET_ERROR) with false. cbn iota. eauto. }
  rewrite CH. cbn [bind]. change (RET_OK =? RET_OK) with true. cbn iota.
  destruct Hd as (D1 & D2 & D3 & D4 & P1 & P2 & P3 & P4 & W). destruct Hc as (C1 & C2 & C3 & C4).
  destruct (bits_service FC_READ_DISCRETE_INPUTS (t_din d) ltac:(unfold byte, FC_READ_DISCRETE_INPUTS; lia) P2 ltac:(lia) ltac:(lia) ltac:(lia)) as (st & r & E & _ & Hr).
  unfold handle_slave_read_discrete_inputs_service. cbn [m_req m_resp mresp] in *.
  rewrite q_adr, q_qty. cbn [bind]. unfold set_resp. cbn [m_req mresp].
  rewrite E. cbn [bind]. do 2 eexists. split; [reflexivity|]. exact Hr.
Qed.

Lemma h_read_hreg : answers (modbus_slave_read_holding_reg c (mresp x1) d)
  (read_reply 3 125 (c_hreg c) adr qty (option_map pack_regs (fetch (t_hreg d) (v_regs d) adr qty))) d.
Proof.
  unfold modbus_slave_read_holding_reg, answers. cbn [mresp m_resp].
  unfold MODBUS_FUNCTION_CODE_IDX. rewrite wr_at1. cbn [bind]. unfold set_resp. change (mk_msg (m_req (mresp x1)) (mk_rr true (x0 :: FC_READ_HOLDING_REGISTERS :: x2 :: t) rl)) with (mresp FC_READ_HOLDING_REGISTERS).
  destruct tabs as (_ & _ & _ & ->).
  assert (CH := check_read_ok FC_READ_HOLDING_REGISTERS MODBUS_MAX_READ_REG_QTY (c_hreg c) ltac:(unfold byte, FC_READ_HOLDING_REGISTERS; lia)). cbv zeta in CH.
  unfold read_reply. change MODBUS_MAX_READ_REG_QTY with 125 in *.
  destruct (negb ((1 <=? qty) && (qty <=? 125))) eqn:E1.
  { destruct CH as (r & E & Hr). rewrite E. cbn [bind]. change (RET_OK =? RET_ERROR) with false. cbn iota. eauto. }
  destruct (c_hreg c <? adr + qty) eqn:E2.
  { destruct CH as (r & E & Hr). rewrite E. cbn [bind]. change (RET_OK =? RET_ERROR) with false. cbn iota. eauto. }
  rewrite CH. cbn [bind]. change (RET_OK =? RET_OK) with true. cbn iota.
  destruct Hd as (D1 & D2 & D3 & D4 & P1 & P2 & P3 & P4 & W). destruct Hc as (C1 & C2 & C3 & C4).
  destruct (regs_service FC_READ_HOLDING_REGISTERS (t_hreg d) ltac:(unfold byte, FC_READ_HOLDING_REGISTERS; lia) P4 ltac:(lia) ltac:(lia) ltac:(lia) W) as (st & r & E & Hr).
  unfold handle_slave_read_holding_reg_service. cbn [m_req m_resp mresp] in *.
  rewrite q_adr, q_qty. cbn [bind]. unfold set_resp. cbn [m_req mresp].
  rewrite E. cbn [bind]. do 2 eexists. split; [reflexivity|]. exact Hr.
Qed.

Lemma h_read_ireg : answers (modbus_slave_read_input_reg c (mresp x1) d)
  (read_reply 4 125 (c_ireg c) adr qty (option_map pack_regs (fetch (t_ireg d) (v_regs d) adr qty))) d.
Proof.
  unfold modbus_slave_read_input_reg, answers. cbn [mresp m_resp].
  unfold MODBUS_FUNCTION_CODE_IDX. rewrite wr_at1. cbn [bind]. unfold set_resp. change (mk_msg (m_req (mresp x1)) (mk_rr true (x0 :: FC_READ_INPUT_REGISTERS :: x2 :: t) rl)) with (mresp FC_READ_INPUT_REGISTERS).
  destruct tabs as (_ & _ & -> & _).
  assert (CH := check_read_ok FC_READ_INPUT_REGISTERS MODBUS_MAX_READ_REG_QTY (c_ireg c) ltac:(unfold byte, FC_READ_INPUT_REGISTERS; lia)). cbv zeta in CH.
  unfold read_reply. change MODBUS_MAX_READ_REG_QTY with 125 in *.
  destruct (negb ((1 <=? qty) && (qty <=? 125))) eqn:E1.
  { destruct CH as (r & E & Hr). rewrite E. cbn [bind]. change (RET_OK =? RET_ERROR) with false. cbn iota. eauto. }
  destruct (c_ireg c <? adr + qty) eqn:E2.
  { destruct CH as (r & E & Hr). rewrite E. cbn [bind]. change (RET_OK =? RET_ERROR) with false. cbn iota. eauto. }
  rewrite CH. cbn [bind]. change (RET_OK =? RET_OK) with true. cbn iota.
  destruct Hd as (D1 & D2 & D3 & D4 & P1 & P2 & P3 & P4 & W). destruct Hc as (C1 & C2 & C3 & C4).
  destruct (regs_service FC_READ_INPUT_REGISTERS (t_ireg d) ltac:(unfold byte, FC_READ_INPUT_REGISTERS; lia) P3 ltac:(lia) ltac:(lia) ltac:(lia) W) as (st & r & E & Hr).
  unfold handle_slave_read_input_reg_service. cbn [m_req m_resp mresp] in *.
  rewrite q_adr, q_qty. cbn [bind]. unfold set_resp. cbn [m_req mresp].
  rewrite E. cbn [bind]. do 2 eexists. split; [reflexivity|]. exact Hr.
Qed.

(** the echo of a write *)
Lemma echo_ok fc v w : byte fc -> word v -> word w ->
  exists r, bind (write_u16_to_buf (m_resp (mresp fc)) 2 v) (fun r => write_u16_to_buf r 4 w) = Ok r /\
            holds (set_len r 6) ([fc] ++ be16 v ++ be16 w).
Proof.
  intros Hf Hv Hw. cbn [mresp m_resp].
  assert (Et : exists t1 t2 t3 tt, t = t1 :: t2 :: t3 :: tt /\ length tt = 250%nat /\ bytes tt).
  { assert (Lt' := Lt). assert (Ht' := Ht). destruct t as [|t1 [|t2 [|t3 tt]]]; cbn [length] in Lt'; try lia.
    exists t1, t2, t3, tt. repeat split; [lia|]. exact (Forall_skipn _ 3 _ Ht'). }
  destruct Et as (t1 & t2 & t3 & tt & Et & Ltt & Btt). rewrite Et.
  assert (W2 := write_u16_mid [x0; fc] x2 t1 (t2 :: t3 :: tt) v rl 2 eq_refl Hv).
  assert (W4 := write_u16_mid ([x0; fc] ++ be16 v) t2 t3 tt w rl 4 eq_refl Hw). rewrite <- app_assoc in W4.
  change ([x0; fc] ++ x2 :: t1 :: t2 :: t3 :: tt) with (x0 :: fc :: x2 :: t1 :: t2 :: t3 :: tt) in W2.
  rewrite W2. cbn [bind]. rewrite W4.
  eexists. split; [reflexivity|]. unfold set_len. cbn [rr_ptr rr_buf].
  change 6 with (1 + Z.of_nat (length ([fc] ++ be16 v ++ be16 w))).
  replace (([x0; fc] ++ be16 v) ++ be16 w ++ tt) with (x0 :: ([fc] ++ be16 v ++ be16 w) ++ tt) by reflexivity.
  apply holds_app.
  - cbn [length app be16]. lia.
  - constructor; auto. apply Forall_app. split.
    + constructor; auto. apply Forall_app. split; apply be16_bytes; auto.
    + exact Btt.
Qed.

Lemma h_write_coil : exists pdu d', server c d b = server c d b /\ 
  answers (modbus_slave_write_single_coil c (mresp x1) d) pdu d' /\
  (pdu, d') = 
      (if negb ((qty =? 0x0000) || (qty =? 0xFF00)) then (exc 5 3, d)
      else if c_coils c <=? adr then (exc 5 2, d)
      else match store (t_coils d) (v_bits d) (Z.to_nat adr) [qty =? 0xFF00] with
           | (cells, true) => ([5] ++ be16 adr ++ be16 qty, set_bits d cells)
           | (cells, false) => (exc 5 4, set_bits d cells)
           end).
Proof.
  unfold modbus_slave_write_single_coil, answers. cbn [mresp m_resp m_req].
  rewrite q_adr, q_qty'. cbn [bind].
  unfold MODBUS_FUNCTION_CODE_IDX. rewrite wr_at1. cbn [bind]. unfold set_resp. change (mk_msg (m_req (mresp x1)) (mk_rr true (x0 :: FC_WRITE_SINGLE_COIL :: x2 :: t) rl)) with (mresp FC_WRITE_SINGLE_COIL).
  unfold check_write_single_coil_req_data_correctness, COIL_OFF, COIL_ON.
  assert (B5 : byte FC_WRITE_SINGLE_COIL) by (unfold byte, FC_WRITE_SINGLE_COIL; lia).
  rewrite <- negb_orb. destruct (negb ((qty =? 0) || (qty =? 65280))) eqn:E1.
  { destruct (exc_mresp FC_WRITE_SINGLE_COIL MODBUS_ILLEGAL_DATA_VALUE_ERROR B5 ltac:(unfold byte, MODBUS_ILLEGAL_DATA_VALUE_ERROR; lia)) as (r & E & Hr).
    rewrite E. cbn [bind]. change (RET_ERROR =? RET_OK) with false. cbn iota. do 2 eexists. split; [reflexivity|]. split; [|reflexivity].
    do 2 eexists. split; [reflexivity|]. exact Hr. }
  destruct (c_coils c <=? adr) eqn:E2.
  { destruct (exc_mresp FC_WRITE_SINGLE_COIL MODBUS_ILLEGAL_DATA_ADDRESS_ERROR B5 ltac:(unfold byte, MODBUS_ILLEGAL_DATA_ADDRESS_ERROR; lia)) as (r & E & Hr).
    rewrite E. cbn [bind]. change (RET_ERROR =? RET_OK) with false. cbn iota. do 2 eexists. split; [reflexivity|]. split; [|reflexivity].
    do 2 eexists. split; [reflexivity|]. exact Hr. }
  cbn [bind]. change (RET_OK =? RET_OK) with true. cbn iota.
  unfold handle_slave_write_single_coil_service.
  destruct Hd as (D1 & D2 & D3 & D4 & P1 & P2 & P3 & P4 & W). destruct Hc as (C1 & C2 & C3 & C4).
  assert (Wa : word adr) by apply q_word. assert (Wq : word qty) by apply q_word. unfold word in Wa.
  rewrite set_coil_ok by (auto; lia). cbn [bind]. unfold set_at. cbn [store].
  replace (negb (qty =? 0)) with (qty =? 65280) by lia.
  destruct (nth_error (t_coils d) (Z.to_nat adr)) as [[cc|]|] eqn:EN.
  - change (RET_OK =? RET_OK) with true. cbn iota.
    destruct (echo_ok FC_WRITE_SINGLE_COIL adr qty B5 ltac:(auto) Wq) as (r & E & Hr).
    apply bind_ok in E. destruct E as (r1 & Ea & Ec). 
    unfold MODBUS_RESP_WRITE_ADR_IDX, MODBUS_RESP_WRITE_SINGLE_DATA_IDX, MODBUS_WRITE_SINGLE_RESP_LEN.
    rewrite Ea. cbn [bind]. rewrite Ec. cbn [bind]. do 2 eexists. split; [reflexivity|]. split; [|reflexivity].
    do 2 eexists. split; [reflexivity|]. exact Hr.
  - change (RET_OK =? RET_ERROR) with false. cbn iota.
    destruct (exc_mresp FC_WRITE_SINGLE_COIL MODBUS_SERVER_DEVICE_FAILURE_ERROR B5 ltac:(unfold byte, MODBUS_SERVER_DEVICE_FAILURE_ERROR; lia)) as (r & E & Hr).
    rewrite E. cbn [bind]. do 2 eexists. split; [reflexivity|]. split; [|reflexivity].
    do 2 eexists. split; [reflexivity|]. exact Hr.
  - apply nth_error_None in EN. lia.
Qed.

Lemma h_write_reg : exists pdu d', 
  answers (modbus_slave_write_single_reg c (mresp x1) d) pdu d' /\
  (pdu, d') = 
      (if c_hreg c <=? adr then (exc 6 2, d)
      else match store (t_hreg d) (v_regs d) (Z.to_nat adr) [qty] with
           | (cells, true) => ([6] ++ be16 adr ++ be16 qty, set_regs d cells)
           | (cells, false) => (exc 6 4, set_regs d cells)
           end).
Proof.
  unfold modbus_slave_write_single_reg, answers. cbn [mresp m_resp m_req].
  rewrite q_adr. cbn [bind].
  unfold MODBUS_FUNCTION_CODE_IDX. rewrite wr_at1. cbn [bind]. unfold set_resp. change (mk_msg (m_req (mresp x1)) (mk_rr true (x0 :: FC_WRITE_SINGLE_REGISTER :: x2 :: t) rl)) with (mresp FC_WRITE_SINGLE_REGISTER).
  assert (B6 : byte FC_WRITE_SINGLE_REGISTER) by (unfold byte, FC_WRITE_SINGLE_REGISTER; lia).
  destruct (c_hreg c <=? adr) eqn:E2.
  { destruct (exc_mresp FC_WRITE_SINGLE_REGISTER MODBUS_ILLEGAL_DATA_ADDRESS_ERROR B6 ltac:(unfold byte, MODBUS_ILLEGAL_DATA_ADDRESS_ERROR; lia)) as (r & E & Hr).
    rewrite E. cbn [bind]. do 2 eexists. split; [|reflexivity].
    do 2 eexists. split; [reflexivity|]. exact Hr. }
  unfold handle_slave_write_single_reg_service. cbn [mresp m_req]. rewrite q_adr, q_qty. cbn [bind].
  destruct Hd as (D1 & D2 & D3 & D4 & P1 & P2 & P3 & P4 & W). destruct Hc as (C1 & C2 & C3 & C4).
  assert (Wa : word adr) by apply q_word. assert (Wq : word qty) by apply q_word. unfold word in Wa.
  rewrite set_reg_ok by (auto; lia). cbn [bind]. unfold set_at. cbn [store].
  destruct (nth_error (t_hreg d) (Z.to_nat adr)) as [[cc|]|] eqn:EN.
  - change (RET_OK =? RET_OK) with true. cbn iota.
    destruct (echo_ok FC_WRITE_SINGLE_REGISTER adr qty B6 ltac:(auto) Wq) as (r & E & Hr).
    apply bind_ok in E. destruct E as (r1 & Ea & Ec). cbn [mresp m_resp] in Ea.
    unfold MODBUS_RESP_WRITE_ADR_IDX, MODBUS_RESP_WRITE_SINGLE_DATA_IDX, MODBUS_WRITE_SINGLE_RESP_LEN. cbn [mresp m_resp].
    rewrite Ea. cbn [bind]. rewrite Ec. cbn [bind]. do 2 eexists. split; [|reflexivity].
    do 2 eexists. split; [reflexivity|]. exact Hr.
  - change (RET_OK =? RET_ERROR) with false. cbn iota.
    destruct (exc_mresp FC_WRITE_SINGLE_REGISTER MODBUS_SERVER_DEVICE_FAILURE_ERROR B6 ltac:(unfold byte, MODBUS_SERVER_DEVICE_FAILURE_ERROR; lia)) as (r & E & Hr).
    fold (mresp FC_WRITE_SINGLE_REGISTER). rewrite E. cbn [bind]. do 2 eexists. split; [|reflexivity].
    do 2 eexists. split; [reflexivity|]. exact Hr.
  - apply nth_error_None in EN. lia.
Qed.

Lemma h_write_coils : fcode = 15 -> exists pdu d', 
  answers (modbus_slave_write_multiple_coils c (mresp x1) d) pdu d' /\
  (pdu, d') = 
      (if negb ((1 <=? qty) && (qty <=? 1968)) then (exc 15 3, d)
      else if c_coils c <? adr + qty then (exc 15 2, d)
      else if negb (cnt =? coil_bytes qty) then (exc 15 3, d)
      else match store (t_coils d) (v_bits d) (Z.to_nat adr) (req_bits b qty) with
           | (cells, true) => ([15] ++ be16 adr ++ be16 qty, set_bits d cells)
           | (cells, false) => (exc 15 4, set_bits d cells)
           end).
Proof.
  intros Hfc. unfold modbus_slave_write_multiple_coils, answers. cbn [mresp m_resp m_req].
  unfold MODBUS_FUNCTION_CODE_IDX. rewrite wr_at1. cbn [bind]. unfold set_resp. change (mk_msg (m_req (mresp x1)) (mk_rr true (x0 :: FC_WRITE_MULTIPLE_COILS :: x2 :: t) rl)) with (mresp FC_WRITE_MULTIPLE_COILS).
  assert (B15 : byte FC_WRITE_MULTIPLE_COILS) by (unfold byte, FC_WRITE_MULTIPLE_COILS; lia).
  destruct tabs as (-> & _).
  unfold check_write_req_data_correctness. cbn [mresp m_req]. rewrite q_fc. cbn [bind]. rewrite Hfc.
  fold (mresp FC_WRITE_MULTIPLE_COILS).
  assert (CH := check_read_ok FC_WRITE_MULTIPLE_COILS MODBUS_MAX_WRITE_COILS_QTY (c_coils c) B15). cbv zeta in CH.
  change MODBUS_MAX_WRITE_COILS_QTY with 1968 in *.
  destruct (negb ((1 <=? qty) && (qty <=? 1968))) eqn:E1.
  { destruct CH as (r & E & Hr). rewrite E. cbn [bind]. change (RET_OK =? RET_ERROR) with false. cbn [bind]. change (RET_OK =? RET_ERROR) with false. cbn iota.
    do 2 eexists. split; [|reflexivity]. eauto. }
  destruct (c_coils c <? adr + qty) eqn:E2.
  { destruct CH as (r & E & Hr). rewrite E. cbn [bind]. change (RET_OK =? RET_ERROR) with false. cbn [bind]. change (RET_OK =? RET_ERROR) with false. cbn iota.
    do 2 eexists. split; [|reflexivity]. eauto. }
  rewrite CH. cbn [bind]. change (RET_OK =? RET_OK) with true. change (FC_WRITE_MULTIPLE_COILS =? 15) with true. cbn iota.
  unfold check_write_req_byte_count_correctenss. cbn [mresp m_req]. rewrite q_cnt, q_qty. cbn [bind].
  rewrite byte_count_ok by lia. fold (coil_bytes qty).
  destruct (cnt =? coil_bytes qty) eqn:E3; cbn [negb].
  2:{ destruct (exc_mresp FC_WRITE_MULTIPLE_COILS MODBUS_ILLEGAL_DATA_VALUE_ERROR B15 ltac:(unfold byte, MODBUS_ILLEGAL_DATA_VALUE_ERROR; lia)) as (r & E & Hr).
    fold (mresp FC_WRITE_MULTIPLE_COILS). rewrite E. cbn [bind]. change (RET_OK =? RET_ERROR) with false. cbn iota.
    do 2 eexists. split; [|reflexivity]. eauto. }
  cbn [bind]. change (RET_OK =? RET_OK) with true. cbn iota. cbn [mresp m_req]. rewrite q_adr, q_qty. cbn [bind].
  destruct Hd as (D1 & D2 & D3 & D4 & P1 & P2 & P3 & P4 & W). destruct Hc as (C1 & C2 & C3 & C4).
  assert (Wa : word adr) by apply q_word. assert (Wq : word qty) by apply q_word. unfold word in Wa.
  unfold MODBUS_REQUEST_WRITE_MULTI_DATA_IDX. change 0 with (Z.of_nat 0) at 1.
  rewrite set_bits_loop_ok by (auto; lia). rewrite Nat.add_0_r, Eb. fold (req_bits b qty).
  destruct (store (t_coils d) (v_bits d) (Z.to_nat adr) (req_bits b qty)) as [cells [|]]; cbn [bind store_ret].
  - change (RET_OK =? RET_OK) with true. cbn iota.
    destruct (echo_ok FC_WRITE_MULTIPLE_COILS adr qty B15 ltac:(auto) Wq) as (r & E & Hr).
    apply bind_ok in E. destruct E as (r1 & Ea & Ec). cbn [mresp m_resp] in Ea.
    unfold MODBUS_RESP_WRITE_ADR_IDX, MODBUS_RESP_WRITE_MULTIPLE_DATA_QTY_IDX, MODBUS_WRITE_MULTI_RESP_LEN. cbn [mresp m_resp].
    rewrite Ea. cbn [bind]. rewrite Ec. cbn [bind]. do 2 eexists. split; [|reflexivity].
    do 2 eexists. split; [reflexivity|]. exact Hr.
  - change (RET_OK =? RET_ERROR) with false. cbn iota.
    destruct (exc_mresp FC_WRITE_MULTIPLE_COILS MODBUS_SERVER_DEVICE_FAILURE_ERROR B15 ltac:(unfold byte, MODBUS_SERVER_DEVICE_FAILURE_ERROR; lia)) as (r & E & Hr).
    fold (mresp FC_WRITE_MULTIPLE_COILS). rewrite E. cbn [bind]. do 2 eexists. split; [|reflexivity].
    do 2 eexists. split; [reflexivity|]. exact Hr.
Qed.

Lemma h_write_regs : fcode = 16 -> exists pdu d', 
  answers (modbus_slave_write_multiple_reg c (mresp x1) d) pdu d' /\
  (pdu, d') = 
      (if negb ((1 <=? qty) && (qty <=? 123)) then (exc 16 3, d)
      else if c_hreg c <? adr + qty then (exc 16 2, d)
      else if negb (cnt =? 2 * qty) then (exc 16 3, d)
      else match store (t_hreg d) (v_regs d) (Z.to_nat adr) (req_regs b qty) with
           | (cells, true) => ([16] ++ be16 adr ++ be16 qty, set_regs d cells)
           | (cells, false) => (exc 16 4, set_regs d cells)
           end).
Proof.
  intros Hfc. unfold modbus_slave_write_multiple_reg, answers. cbn [mresp m_resp m_req].
  unfold MODBUS_FUNCTION_CODE_IDX. rewrite wr_at1. cbn [bind]. unfold set_resp. change (mk_msg (m_req (mresp x1)) (mk_rr true (x0 :: FC_WRITE_MULTIPLE_REGISTER :: x2 :: t) rl)) with (mresp FC_WRITE_MULTIPLE_REGISTER).
  assert (B16 : byte FC_WRITE_MULTIPLE_REGISTER) by (unfold byte, FC_WRITE_MULTIPLE_REGISTER; lia).
  destruct tabs as (_ & _ & _ & ->).
  unfold check_write_req_data_correctness. cbn [mresp m_req]. rewrite q_fc. cbn [bind]. rewrite Hfc.
  fold (mresp FC_WRITE_MULTIPLE_REGISTER).
  assert (CH := check_read_ok FC_WRITE_MULTIPLE_REGISTER MODBUS_MAX_WRITE_REG_QTY (c_hreg c) B16). cbv zeta in CH.
  change MODBUS_MAX_WRITE_REG_QTY with 123 in *.
  destruct (negb ((1 <=? qty) && (qty <=? 123))) eqn:E1.
  { destruct CH as (r & E & Hr). rewrite E. cbn [bind]. change (RET_OK =? RET_ERROR) with false. cbn [bind]. change (RET_OK =? RET_ERROR) with false. cbn iota.
    do 2 eexists. split; [|reflexivity]. eauto. }
  destruct (c_hreg c <? adr + qty) eqn:E2.
  { destruct CH as (r & E & Hr). rewrite E. cbn [bind]. change (RET_OK =? RET_ERROR) with false. cbn [bind]. change (RET_OK =? RET_ERROR) with false. cbn iota.
    do 2 eexists. split; [|reflexivity]. eauto. }
  rewrite CH. cbn [bind]. change (RET_OK =? RET_OK) with true. change (FC_WRITE_MULTIPLE_COILS =? 16) with false. cbn iota.
  unfold check_write_req_reg_byte_count_correctenss. cbn [mresp m_req]. rewrite q_cnt, q_qty. cbn [bind].
  rewrite (Z.mul_comm qty 2).
  destruct (cnt =? 2 * qty) eqn:E3; cbn [negb].
  2:{ destruct (exc_mresp FC_WRITE_MULTIPLE_REGISTER MODBUS_ILLEGAL_DATA_VALUE_ERROR B16 ltac:(unfold byte, MODBUS_ILLEGAL_DATA_VALUE_ERROR; lia)) as (r & E & Hr).
    fold (mresp FC_WRITE_MULTIPLE_REGISTER). rewrite E. cbn [bind]. change (RET_OK =? RET_ERROR) with false. cbn iota.
    do 2 eexists. split; [|reflexivity]. eauto. }
  cbn [bind]. change (RET_OK =? RET_OK) with true. cbn iota.
  unfold handle_slave_write_multiple_reg_service. cbn [mresp m_req]. rewrite q_adr, q_qty. cbn [bind].
  destruct Hd as (D1 & D2 & D3 & D4 & P1 & P2 & P3 & P4 & W). destruct Hc as (C1 & C2 & C3 & C4).
  assert (Wa : word adr) by apply q_word. assert (Wq : word qty) by apply q_word. unfold word in Wa.
  change 0 with (Z.of_nat 0) at 1.
  rewrite write_regs_store by (auto; lia). rewrite Nat.add_0_r, Eb. fold (req_regs b qty).
  destruct (store (t_hreg d) (v_regs d) (Z.to_nat adr) (req_regs b qty)) as [cells [|]]; cbn [bind store_ret].
  - change (RET_OK =? RET_OK) with true. cbn iota.
    destruct (echo_ok FC_WRITE_MULTIPLE_REGISTER adr qty B16 ltac:(auto) Wq) as (r & E & Hr).
    apply bind_ok in E. destruct E as (r1 & Ea & Ec). cbn [mresp m_resp] in Ea.
    unfold MODBUS_RESP_WRITE_ADR_IDX, MODBUS_RESP_WRITE_MULTIPLE_DATA_QTY_IDX, MODBUS_WRITE_MULTI_RESP_LEN. cbn [mresp m_resp].
    rewrite Ea. cbn [bind]. rewrite Ec. cbn [bind]. do 2 eexists. split; [|reflexivity].
    do 2 eexists. split; [reflexivity|]. exact Hr.
  - change (RET_OK =? RET_ERROR) with false. cbn iota.
    destruct (exc_mresp FC_WRITE_MULTIPLE_REGISTER MODBUS_SERVER_DEVICE_FAILURE_ERROR B16 ltac:(unfold byte, MODBUS_SERVER_DEVICE_FAILURE_ERROR; lia)) as (r & E & Hr).
    fold (mresp FC_WRITE_MULTIPLE_REGISTER). rewrite E. cbn [bind]. do 2 eexists. split; [|reflexivity].
    do 2 eexists. split; [reflexivity|]. exact Hr.
Qed.

Lemma h_unknown : (forall k, In k [1;2;3;4;5;6;15;16] -> fcode <> k) ->
  find_handler fcode (modbus_slave_function_mapper c) = None.
Proof.
  intros H. unfold modbus_slave_function_mapper. cbn [find_handler].
  unfold FC_READ_COILS, FC_WRITE_SINGLE_COIL, FC_WRITE_MULTIPLE_COILS, FC_READ_DISCRETE_INPUTS, FC_READ_HOLDING_REGISTERS,
    FC_WRITE_SINGLE_REGISTER, FC_WRITE_MULTIPLE_REGISTER, FC_READ_INPUT_REGISTERS.
  assert (G : forall k, In k [1;2;3;4;5;6;15;16] -> (fcode =? k) = false) by (intros k Hk; apply Z.eqb_neq; auto).
  rewrite !G by (cbn; tauto). reflexivity.
Qed.

Lemma parse_main : answers (parse_master_request_and_prepare_resp c (mresp x1) d) (fst (server c d b)) (snd (server c d b)).
Proof.
  unfold parse_master_request_and_prepare_resp. cbn [mresp m_req m_resp rr_ptr].
  assert (Pq : rr_ptr qr = true) by apply Hq. rewrite Pq. cbn [negb orb]. rewrite q_fc. cbn [bind].
  fold (mresp x1).
  assert (Dc : (exists k, In k [1;2;3;4;5;6;15;16] /\ fcode = k) \/ (forall k, In k [1;2;3;4;5;6;15;16] -> fcode <> k)).
  { destruct (existsb (Z.eqb fcode) [1;2;3;4;5;6;15;16]) eqn:X.
    - left. apply existsb_exists in X. destruct X as (k & H1 & H2). exists k. split; auto. lia.
    - right. intros k Hk E. assert (existsb (Z.eqb fcode) [1;2;3;4;5;6;15;16] = true); [|congruence].
      apply existsb_exists. exists k. split; auto. lia. }
  unfold server. fold adr qty cnt fcode.
  destruct Dc as [(k & Hk & E)|Hno].
  - cbn [In] in Hk. destruct Hk as [<-|[<-|[<-|[<-|[<-|[<-|[<-|[<-|[]]]]]]]]]; rewrite E.
    + exact h_read_coils.
    + exact h_read_din.
    + exact h_read_hreg.
    + exact h_read_ireg.
    + destruct h_write_coil as (pdu & d' & _ & H & <-). exact H.
    + destruct h_write_reg as (pdu & d' & H & <-). exact H.
    + destruct (h_write_coils E) as (pdu & d' & H & <-). exact H.
    + destruct (h_write_regs E) as (pdu & d' & H & <-). exact H.
  - rewrite (h_unknown Hno).
    replace (match fcode with
      | 1 => (read_reply 1 2000 (c_coils c) adr qty (option_map pack_bits (fetch (t_coils d) (v_bits d) adr qty)), d)
      | _ => (exc fcode 1, d) end) with (exc fcode 1, d) by (destruct fcode as [|p|p]; auto; destruct p; auto; exfalso; apply (Hno 1); cbn; tauto).
    match goal with |- answers _ (fst ?s) (snd ?s) => assert (ES : s = (exc fcode 1, d)) end.
    { assert (Hn : forall k, In k [1;2;3;4;5;6;15;16] -> fcode <> k) by exact Hno.
      clear -Hn. cbn [In] in Hn. destruct fcode as [|p|p]; auto.
      do 5 (try (destruct p as [p|p|]; try reflexivity; try (exfalso; eapply Hn; [|reflexivity]; tauto))). }
    rewrite ES. cbn [fst snd]. unfold MODBUS_FUNCTION_CODE_IDX, mresp. cbn [m_resp]. rewrite wr_at1. cbn [bind]. unfold set_resp. cbn [m_req mresp].
    fold (mresp fcode).
    destruct (exc_mresp fcode MODBUS_ILLEGAL_FUNCTION_ERROR (q_byte 1) ltac:(unfold byte, MODBUS_ILLEGAL_FUNCTION_ERROR; lia)) as (r & E & Hr).
    rewrite E. cbn [bind]. do 2 eexists. split; [reflexivity|]. exact Hr.
Qed.
End Main.

Lemma parse_server c d m : cfg_tables_ok c -> data_ok c d -> msg_ok m ->
  exists st r, parse_master_request_and_prepare_resp c m d = Ok (st, mk_msg (m_req m) r, snd (server c d (rr_buf (m_req m)))) /\
               holds r (fst (server c d (rr_buf (m_req m)))).
Proof.
  intros Hc Hd [Hq (P & L & B & Hl)]. destruct m as [qr [rp rb rl]]. cbn [m_req m_resp rr_ptr rr_buf rr_len] in *. subst rp.
  destruct (list3' rb L) as (x0 & x1 & x2 & t & -> & Lt).
  assert (B' := B). unfold bytes in B'. rewrite Forall_forall in B'.
  apply (parse_main c d qr (rr_buf qr) x0 x1 x2 t rl); auto.
  - apply B'; cbn; tauto.
  - apply B'; cbn; tauto.
  - exact (Forall_skipn _ 3 _ B).
Qed.
