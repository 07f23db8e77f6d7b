(** Building requests = the encoders of Spec/Frame.v *)
From Verif Require Export Proofs.Pack Model.MasterPDU Model.Master.

Lemma write_u16_mid p a b t v len i :
  i = Z.of_nat (length p) -> word v ->
  write_u16_to_buf (mk_rr true (p ++ a :: b :: t) len) i v = Ok (mk_rr true (p ++ be16 v ++ t) len).
Proof.
  intros -> Hv. rewrite write_u16_ok; cbn [rr_ptr rr_buf rr_len]; auto; try lia.
  2:{ rewrite app_length. cbn [length]. lia. }
  rewrite Nat2Z.id. rewrite upd_app_mid by auto.
  change (v / 256 :: b :: t) with ([v / 256] ++ b :: t). rewrite app_assoc, upd_app_mid.
  2:{ rewrite app_length. cbn [length]. lia. }
  rewrite <- app_assoc. reflexivity.
Qed.
Lemma wr_mid p a t v len i : i = Z.of_nat (length p) ->
  wr (mk_rr true (p ++ a :: t) len) i v = Ok (mk_rr true (p ++ v :: t) len).
Proof.
  intros ->. rewrite wr_ok; cbn [rr_ptr rr_buf rr_len]; auto.
  - rewrite Nat2Z.id, upd_app_mid by auto. reflexivity.
  - rewrite app_length. cbn [length]. lia.
Qed.
Lemma rd_mid p a t len i : i = Z.of_nat (length p) -> rd (mk_rr true (p ++ a :: t) len) i = Ok a.
Proof.
  intros ->. rewrite rd_ok; cbn [rr_ptr rr_buf rr_len]; auto.
  - rewrite Nat2Z.id, nth_middle. reflexivity.
  - rewrite app_length. cbn [length]. lia.
Qed.
Lemma pack_regs_app a b : pack_regs (a ++ b) = pack_regs a ++ pack_regs b.
Proof. apply flat_map_app. Qed.
Lemma pack_regs_len l : length (pack_regs l) = (2 * length l)%nat.
Proof. induction l as [|x l IH]; auto. unfold pack_regs in *. cbn [flat_map]. rewrite app_length, IH. cbn [be16 length]. lia. Qed.
Lemma be16_bytes v : word v -> bytes (be16 v).
Proof. intros H. apply word_split in H. unfold be16. repeat constructor; unfold byte in *; lia. Qed.
Lemma pack_regs_bytes l : Forall word l -> bytes (pack_regs l).
Proof.
  induction 1 as [|x l Hx Hl IH]; [constructor|]. unfold pack_regs, bytes in *. cbn [flat_map]. apply Forall_app. split; [apply be16_bytes; auto|auto].
Qed.
Lemma list7 (l : list Z) : length l = 256%nat ->
  exists x0 x1 x2 x3 x4 x5 x6 t, l = x0 :: x1 :: x2 :: x3 :: x4 :: x5 :: x6 :: t /\ length t = 249%nat.
Proof.
  intros H. do 7 (destruct l as [|? l]; [discriminate|]). do 8 eexists. split; [reflexivity|].
  cbn [length] in H. lia.
Qed.

Lemma write_regs_loop_ok n : forall pre done post l i len,
  length pre = 7%nat -> i = Z.of_nat (length done) -> Forall word l ->
  length l = (length done + n)%nat -> firstn (length done) l = done -> (2 * n <= length post)%nat ->
  write_regs_loop n (mk_rr true (pre ++ pack_regs done ++ post) len) (Some l) i =
    Ok (mk_rr true (pre ++ pack_regs l ++ skipn (2 * n) post) len).
Proof.
  induction n as [|n IH]; intros pre done post l i len Hp Hi Hw Hl Hd Hpost; cbn [write_regs_loop].
  - rewrite Nat.add_0_r in Hl. rewrite <- Hl, firstn_all in Hd. subst l. reflexivity.
  - unfold arr_get. rewrite (aget_ok l i 0) by lia. cbn [bind].
    destruct post as [|a [|b t]]; cbn [length] in Hpost; try lia.
    set (v := nth (Z.to_nat i) l 0).
    assert (Hv : word v). { apply Forall_nth_d; auto. unfold word; lia. }
    rewrite app_assoc.
    rewrite write_u16_mid; [|rewrite app_length, pack_regs_len, Hp; unfold MODBUS_REQUEST_WRITE_MULTI_DATA_IDX; lia|auto].
    cbn [bind]. rewrite <- app_assoc.
    assert (Ed : done ++ [v] = firstn (length (done ++ [v])) l).
    { rewrite app_length. cbn [length]. replace (length done + 1)%nat with (S (length done)) by lia.
      rewrite (firstn_S_nth l _ 0) by lia. rewrite Hd. unfold v. now rewrite Hi, Nat2Z.id. }
    replace (pre ++ pack_regs done ++ be16 v ++ t) with (pre ++ pack_regs (done ++ [v]) ++ t).
    2:{ rewrite pack_regs_app. unfold pack_regs at 2. cbn [flat_map]. rewrite app_nil_r, <- app_assoc. reflexivity. }
    rewrite IH; auto.
    + replace (2 * S n)%nat with (S (S (2 * n))) by lia. reflexivity.
    + rewrite app_length. cbn [length]. lia.
    + rewrite app_length. cbn [length]. lia.
    + lia.
Qed.

Lemma write_coils_loop_ok n : forall pre nb post l i len,
  length pre = 7%nat -> length l = (i + n)%nat -> (length l <= 8 * nb)%nat ->
  write_coils_loop n (mk_rr true (pre ++ packed nb i l ++ post) len) (Some l) (Z.of_nat i) =
    Ok (mk_rr true (pre ++ packed nb (length l) l ++ post) len).
Proof.
  induction n as [|n IH]; intros pre nb post l i len Hp Hl Hn; cbn [write_coils_loop].
  - now replace i with (length l) by lia.
  - unfold arr_get. rewrite (aget_ok l _ false) by lia. cbn [bind]. rewrite Nat2Z.id.
    assert (S := pack_iter true len pre post nb i l MODBUS_REQUEST_WRITE_MULTI_DATA_IDX ltac:(lia) ltac:(lia) ltac:(rewrite Hp; reflexivity) eq_refl).
    cbv zeta in S. unfold b2z. fold (Z.b2z (nth i l false)). apply bind_ok in S. destruct S as [old [S1 S2]].
    rewrite S1. cbn [bind]. rewrite S2. cbn [bind].
    replace (Z.of_nat i + 1) with (Z.of_nat (S i)) by lia. apply IH; lia.
Qed.

(** the arrays may be longer than the quantity *)
Lemma write_regs_loop_firstn n : forall r l i k,
  (i + n <= k)%nat -> write_regs_loop n r (Some l) (Z.of_nat i) = write_regs_loop n r (Some (firstn k l)) (Z.of_nat i).
Proof.
  induction n as [|n IH]; intros r l i k H; cbn [write_regs_loop]; auto.
  assert (E : arr_get (Some l) (Z.of_nat i) = arr_get (Some (firstn k l)) (Z.of_nat i)).
  { unfold arr_get, aget. destruct (Z.of_nat i <? 0); auto. rewrite Nat2Z.id.
    replace (nth_error (firstn k l) i) with (nth_error l i); auto.
    clear -H. assert (L : (i < k)%nat) by lia. clear H. revert k l L.
    induction i as [|i IHi]; intros [|k] [|x l] L; cbn; auto; try lia. apply IHi; lia. }
  rewrite E. destruct (arr_get (Some (firstn k l)) (Z.of_nat i)); cbn [bind]; auto.
  destruct (write_u16_to_buf _ _ _); cbn [bind]; auto.
  replace (Z.of_nat i + 1) with (Z.of_nat (S i)) by lia. apply IH; lia.
Qed.
Lemma write_coils_loop_firstn n : forall r l i k,
  (i + n <= k)%nat -> write_coils_loop n r (Some l) (Z.of_nat i) = write_coils_loop n r (Some (firstn k l)) (Z.of_nat i).
Proof.
  induction n as [|n IH]; intros r l i k H; cbn [write_coils_loop]; auto.
  assert (E : arr_get (Some l) (Z.of_nat i) = arr_get (Some (firstn k l)) (Z.of_nat i)).
  { unfold arr_get, aget. destruct (Z.of_nat i <? 0); auto. rewrite Nat2Z.id.
    replace (nth_error (firstn k l) i) with (nth_error l i); auto.
    clear -H. assert (L : (i < k)%nat) by lia. clear H. revert k l L.
    induction i as [|i IHi]; intros [|k] [|x l] L; cbn; auto; try lia. apply IHi; lia. }
  rewrite E. destruct (arr_get (Some (firstn k l)) (Z.of_nat i)); cbn [bind]; auto.
  destruct (rd _ _); cbn [bind]; auto. destruct (wr _ _ _); cbn [bind]; auto.
  replace (Z.of_nat i + 1) with (Z.of_nat (S i)) by lia. apply IH; lia.
Qed.

(** message parts that hold a PDU *)
Definition holds (r : rr) (pdu : list Z) : Prop :=
  exists x rest, r = mk_rr true (x :: pdu ++ rest) (1 + Z.of_nat (length pdu)) /\
                 length (x :: pdu ++ rest) = 256%nat /\ bytes (x :: pdu ++ rest).


Lemma request_pdu_len a : api_valid a = true -> api_ok a -> (5 <= length (request_pdu a) <= 252)%nat.
Proof.
  intros V [Ty Ar]. destruct a as [adr q id|adr q id|adr q id|adr q id|adr id v|adr id v|adr q id d|adr q id d];
    cbn [request_pdu app be16 length]; try lia.
  - destruct Ar as [l [-> Hl]]. rewrite pack_regs_len, firstn_length. cbn in V. lia.
  - destruct Ar as [l [-> Hl]]. rewrite pack_bits_len, firstn_length. cbn in V.
    replace (Nat.min (Z.to_nat q) (length l)) with (Z.to_nat q) by lia.
    assert ((Z.to_nat q + 7) / 8 < 247)%nat by (apply Nat.div_lt_upper_bound; lia). lia.
Qed.
Lemma request_pdu_bytes a : api_valid a = true -> api_ok a -> bytes (request_pdu a).
Proof.
  intros V [(T1 & T2 & T3 & T4) Ar]. assert (Bo : forall v, word v -> bytes (be16 v)) by apply be16_bytes.
  destruct a as [adr q id|adr q id|adr q id|adr q id|adr id v|adr id v|adr q id d|adr q id d];
    cbn [api_adr api_qty api_id] in *; unfold request_pdu, bytes; repeat (apply Forall_app; split); auto;
    try (repeat constructor; unfold byte; lia); try apply Bo; auto.
  - destruct v; unfold word; lia.
  - cbn in V. repeat constructor; unfold byte; lia.
  - destruct Ar as [l [-> Hl]]. apply pack_regs_bytes. apply Forall_firstn; auto.
  - cbn in V. repeat constructor; unfold byte, coil_bytes; lia.
  - apply pack_bits_bytes.
Qed.

Ltac req_start m :=
  destruct m as [[qp qb ql] rs]; cbn [m_req m_resp rr_ptr rr_buf rr_len] in *.

Lemma gen_pdu_valid a m : msg_ok m -> api_ok a -> api_valid a = true ->
  exists r, generate_request_PDU_data m (api_param a) = Ok (RET_OK, mk_msg r (m_resp m)) /\ holds r (request_pdu a).
Proof.
  intros [(P & L & B & Hlen) (P2 & _)] Hok V.
  assert (PB := request_pdu_bytes a V Hok). assert (PL := request_pdu_len a V Hok).
  destruct Hok as [(T1 & T2 & T3 & T4) Ar].
  destruct m as [[qp qb ql] rs]. cbn [m_req m_resp rr_ptr rr_buf rr_len] in *. subst qp.
  destruct (list7 qb L) as (x0 & x1 & x2 & x3 & x4 & x5 & x6 & t & -> & Lt).
  assert (B0 : byte x0) by (inversion B; auto).
  assert (Bt : bytes t) by exact (Forall_skipn _ 7 _ B).
  assert (B6 : byte x6). { unfold bytes in B. rewrite Forall_forall in B. apply B. cbn. tauto. }
  assert (NC : check_null_ptr_correctness (mk_msg (mk_rr true (x0 :: x1 :: x2 :: x3 :: x4 :: x5 :: x6 :: t) ql) rs) = RET_OK).
  { unfold check_null_ptr_correctness. cbn [m_req m_resp rr_ptr]. rewrite P2. reflexivity. }
  assert (W1 : forall v p a t l, wr (mk_rr true (p :: a :: t) l) 1 v = Ok (mk_rr true (p :: v :: t) l)).
  { intros. apply (wr_mid [p]). reflexivity. }
  assert (W2 : forall p1 p2 a b t v l, word v -> write_u16_to_buf (mk_rr true (p1 :: p2 :: a :: b :: t) l) 2 v = Ok (mk_rr true ([p1; p2] ++ be16 v ++ t) l)).
  { intros. apply (write_u16_mid [p1; p2]); auto. }
  assert (W4 : forall p1 p2 w a b t v l, word v -> write_u16_to_buf (mk_rr true ([p1; p2] ++ be16 w ++ a :: b :: t) l) 4 v = Ok (mk_rr true ([p1; p2] ++ be16 w ++ be16 v ++ t) l)).
  { intros. rewrite app_assoc, (write_u16_mid ([p1; p2] ++ be16 w)); auto. }
  assert (R6 : forall a b c d e f g t l, rd (mk_rr true (a :: b :: c :: d :: e :: f :: g :: t) l) 6 = Ok g).
  { intros a' b c d e f g t' l. apply (rd_mid [a'; b; c; d; e; f]). reflexivity. }
  assert (FIN : forall rest, request_pdu a ++ rest = request_pdu a ++ rest -> length (x0 :: request_pdu a ++ rest) = 256%nat -> bytes rest ->
     holds (mk_rr true (x0 :: request_pdu a ++ rest) (1 + Z.of_nat (length (request_pdu a)))) (request_pdu a)).
  { intros rest _ HL HB. exists x0, rest. repeat split; auto. constructor; auto. apply Forall_app; auto. }
  assert (RD : forall code adr q, a = ReadCoils adr q (api_id a) \/ a = ReadDiscreteInputs adr q (api_id a) \/ a = ReadHoldingReg adr q (api_id a) \/ a = ReadInputReg adr q (api_id a) ->
     request_pdu a = [code] ++ be16 adr ++ be16 q -> word adr -> word q ->
     (q <=? modbus_get_max_len_2_read code) && (1 <=? q) = true ->
     forall p, p_adr p = adr -> p_qty p = q ->
     exists r, read_req code (mk_msg (mk_rr true (x0 :: x1 :: x2 :: x3 :: x4 :: x5 :: x6 :: t) ql) rs) p = Ok (RET_OK, mk_msg r rs) /\ holds r (request_pdu a)).
  { intros code adr q _ E Ha Hq Hlim p <- <-. unfold read_req. rewrite NC. change (RET_OK =? RET_OK) with true. cbn iota.
    unfold read_reg_request. unfold MODBUS_MIN_REG_COIL_QTY. rewrite Hlim. cbn [m_req].
    unfold MODBUS_FUNCTION_CODE_IDX, MODBUS_REQUEST_ADR_IDX, MODBUS_REQUEST_QTY_IDX. rewrite W1. cbn [bind].
    rewrite W2 by auto. cbn [bind]. rewrite W4 by auto. cbn [bind]. unfold set_req, set_len. cbn [rr_ptr rr_buf m_resp].
    eexists. split; [reflexivity|].
    replace MODBUS_READ_REQUEST_LEN with (1 + Z.of_nat (length (request_pdu a))) by (rewrite E; reflexivity).
    replace ([x0; code] ++ be16 (p_adr p) ++ be16 (p_qty p) ++ x6 :: t) with (x0 :: request_pdu a ++ x6 :: t) by (rewrite E; reflexivity).
    apply FIN; auto.
    - rewrite E. cbn. lia.
    - constructor; auto. }
  destruct a as [adr q id|adr q id|adr q id|adr q id|adr id v|adr id v|adr q id d|adr q id d];
    cbn [api_adr api_qty api_id api_valid] in *;
    unfold generate_request_PDU_data; cbn [api_param master_functions_mapper gen_pdu_loop p_fc Z.eqb Pos.eqb
      FC_READ_COILS FC_READ_DISCRETE_INPUTS FC_READ_HOLDING_REGISTERS FC_READ_INPUT_REGISTERS FC_WRITE_SINGLE_COIL
      FC_WRITE_SINGLE_REGISTER FC_WRITE_MULTIPLE_COILS FC_WRITE_MULTIPLE_REGISTER].
  - destruct (RD 1 adr q ltac:(tauto) eq_refl T2 T3 ltac:(change (modbus_get_max_len_2_read 1) with 2000; lia) (mk_param 1 adr q id false None 0 None) eq_refl eq_refl) as (r & E & Hr).
    unfold modbus_master_read_coils_req, FC_READ_COILS. rewrite E. cbn [bind]. eauto.
  - destruct (RD 2 adr q ltac:(tauto) eq_refl T2 T3 ltac:(change (modbus_get_max_len_2_read 2) with 2000; lia) (mk_param 2 adr q id false None 0 None) eq_refl eq_refl) as (r & E & Hr).
    unfold modbus_master_read_discrete_inputs_req, FC_READ_DISCRETE_INPUTS. rewrite E. cbn [bind]. eauto.
  - destruct (RD 4 adr q ltac:(tauto) eq_refl T2 T3 ltac:(change (modbus_get_max_len_2_read 4) with 125; lia) (mk_param 4 adr q id false None 0 None) eq_refl eq_refl) as (r & E & Hr).
    unfold modbus_master_read_input_reg_req, FC_READ_INPUT_REGISTERS. rewrite E. cbn [bind]. eauto.
  - destruct (RD 3 adr q ltac:(tauto) eq_refl T2 T3 ltac:(change (modbus_get_max_len_2_read 3) with 125; lia) (mk_param 3 adr q id false None 0 None) eq_refl eq_refl) as (r & E & Hr).
    unfold modbus_master_read_holding_reg_req, FC_READ_HOLDING_REGISTERS. rewrite E. cbn [bind]. eauto.
  - unfold modbus_master_write_single_coil_req. rewrite NC. change (RET_OK =? RET_OK) with true. cbn iota. cbn [m_req p_adr p_coil].
    unfold MODBUS_FUNCTION_CODE_IDX, MODBUS_REQUEST_ADR_IDX, MODBUS_REQUEST_QTY_IDX. rewrite W1. cbn [bind].
    rewrite W2 by auto. cbn [bind]. rewrite W4 by (destruct v; unfold word, COIL_ON; cbn; lia). cbn [bind].
    eexists. split; [reflexivity|].
    replace (b2z v * COIL_ON) with (if v then 65280 else 0) by (destruct v; reflexivity).
    apply (FIN (x6 :: t)); [reflexivity|cbn [request_pdu be16 app length]; lia|constructor; auto].
  - unfold modbus_master_write_single_reg_req. rewrite NC. change (RET_OK =? RET_OK) with true. cbn iota. cbn [m_req p_adr p_reg].
    unfold MODBUS_FUNCTION_CODE_IDX, MODBUS_REQUEST_ADR_IDX, MODBUS_REQUEST_QTY_IDX. rewrite W1. cbn [bind].
    rewrite W2 by auto. cbn [bind]. rewrite W4 by auto. cbn [bind].
    eexists. split; [reflexivity|].
    apply (FIN (x6 :: t)); [reflexivity|cbn [request_pdu be16 app length]; lia|constructor; auto].
  - destruct Ar as [l [-> Hl]].
    unfold modbus_master_write_multiple_reg_req. rewrite NC. change (RET_OK =? RET_OK) with true. cbn [negb].
    change MODBUS_MAX_WRITE_REG_QTY with 123. change MODBUS_MIN_REG_COIL_QTY with 1. cbn [p_qty p_adr p_regs].
    destruct ((123 <? q) || (q <? 1)) eqn:Q; [lia|]. cbn [m_req].
    unfold MODBUS_FUNCTION_CODE_IDX, MODBUS_REQUEST_ADR_IDX, MODBUS_REQUEST_QTY_IDX. rewrite W1. cbn [bind].
    rewrite W2 by auto. cbn [bind]. rewrite W4 by auto. cbn [bind].
    rewrite !app_assoc. rewrite (wr_mid (([x0; FC_WRITE_MULTIPLE_REGISTER] ++ be16 adr) ++ be16 q)) by reflexivity. cbn [bind].
    rewrite u8_id by lia.
    set (pre := ((([x0; FC_WRITE_MULTIPLE_REGISTER] ++ be16 adr) ++ be16 q) ++ [q * 2])).
    change 0 with (Z.of_nat 0) at 1. rewrite (write_regs_loop_firstn _ _ l 0 (Z.to_nat q)) by lia.
    replace ((([x0; FC_WRITE_MULTIPLE_REGISTER] ++ be16 adr) ++ be16 q) ++ q * 2 :: t) with (pre ++ pack_regs [] ++ t)
      by (unfold pre; rewrite <- (app_assoc _ [q * 2]); reflexivity).
    rewrite write_regs_loop_ok; auto; try (cbn [length firstn]; rewrite ?firstn_length; lia).
    2:{ apply Forall_firstn; auto. }
    cbn [bind].
    unfold pre. rewrite <- (app_assoc _ [q * 2]). cbn [app be16]. unfold MODBUS_REQUEST_BYTE_CNT_IDX. rewrite R6.
    cbn [bind]. unfold set_req, set_len. cbn [rr_ptr rr_buf m_resp]. eexists. split; [reflexivity|].
    unfold MODBUS_WRITE_MULTI_REQUEST_LEN. rewrite u8_id by lia.
    replace (7 + q * 2) with (1 + Z.of_nat (length (request_pdu (WriteMultipleReg adr q id (Some l))))).
    2:{ cbn [request_pdu app be16 length]. rewrite pack_regs_len, firstn_length. lia. }
    rewrite (Z.mul_comm q 2).
    apply (FIN (skipn (2 * Z.to_nat q) t)); auto.
    + cbn [length]. rewrite app_length, skipn_length. cbn [request_pdu app be16 length]. rewrite pack_regs_len, firstn_length. lia.
    + apply Forall_skipn; auto.
  - destruct Ar as [l [-> Hl]].
    unfold modbus_master_write_multiple_coils_req. rewrite NC. change (RET_OK =? RET_OK) with true. cbn [negb].
    change MODBUS_MAX_WRITE_COILS_QTY with 1968. change MODBUS_MIN_REG_COIL_QTY with 1. cbn [p_qty p_adr p_coils].
    destruct ((1968 <? q) || (q <? 1)) eqn:Q; [lia|]. cbn [m_req].
    rewrite byte_count_ok by lia. fold (coil_bytes q).
    unfold MODBUS_FUNCTION_CODE_IDX, MODBUS_REQUEST_ADR_IDX, MODBUS_REQUEST_QTY_IDX. rewrite W1. cbn [bind].
    rewrite W2 by auto. cbn [bind]. rewrite W4 by auto. cbn [bind].
    rewrite !app_assoc. rewrite (wr_mid (([x0; FC_WRITE_MULTIPLE_COILS] ++ be16 adr) ++ be16 q)) by reflexivity. cbn [bind].
    set (pre := ((([x0; FC_WRITE_MULTIPLE_COILS] ++ be16 adr) ++ be16 q) ++ [coil_bytes q])).
    set (nb := Z.to_nat (coil_bytes q)).
    assert (Hnb : (nb <= 246)%nat) by (unfold nb, coil_bytes; lia).
    destruct (split_at t nb ltac:(lia)) as (ta & tb & -> & Hta).
    apply Forall_app in Bt. destruct Bt as [_ Btb]. rewrite app_length in Lt.
    replace ((([x0; FC_WRITE_MULTIPLE_COILS] ++ be16 adr) ++ be16 q) ++ coil_bytes q :: ta ++ tb) with (pre ++ ta ++ tb)
      by (unfold pre; rewrite <- (app_assoc _ [coil_bytes q]); reflexivity).
    rewrite clear_ok; [|reflexivity|rewrite Hta; unfold nb, coil_bytes; lia|unfold coil_bytes; lia].
    cbn [bind]. change 0 with (Z.of_nat 0) at 2. rewrite (write_coils_loop_firstn _ _ l 0 (Z.to_nat q)) by lia.
    assert (Lf : length (firstn (Z.to_nat q) l) = Z.to_nat q) by (rewrite firstn_length; lia).
    rewrite Hta, <- (packed_0 nb (firstn (Z.to_nat q) l)).
    rewrite write_coils_loop_ok; auto.
    2:{ rewrite Lf. unfold nb, coil_bytes. lia. }
    cbn [bind].
    assert (Enb : nb = ((length (firstn (Z.to_nat q) l) + 7) / 8)%nat).
    { rewrite Lf. apply Nat2Z.inj. rewrite Nat2Z.inj_div. unfold nb, coil_bytes. lia. }
    rewrite Enb, packed_all.
    unfold pre. rewrite <- (app_assoc _ [coil_bytes q]). cbn [app be16]. unfold MODBUS_REQUEST_BYTE_CNT_IDX. rewrite R6.
    cbn [bind]. unfold set_req, set_len. cbn [rr_ptr rr_buf m_resp]. eexists. split; [reflexivity|].
    unfold MODBUS_WRITE_MULTI_REQUEST_LEN. rewrite u8_id by (unfold coil_bytes; lia).
    assert (LP : length (request_pdu (WriteMultipleCoils adr q id (Some l))) = (6 + nb)%nat).
    { cbn [request_pdu app be16 length]. rewrite pack_bits_len. lia. }
    replace (7 + coil_bytes q) with (1 + Z.of_nat (length (request_pdu (WriteMultipleCoils adr q id (Some l))))).
    2:{ rewrite LP. unfold nb, coil_bytes. lia. }
    apply (FIN tb); auto.
    cbn [length]. rewrite app_length, LP. lia.
Qed.

Lemma gen_pdu_invalid a m : msg_ok m -> api_typed a -> api_valid a = false ->
  generate_request_PDU_data m (api_param a) = Ok (RET_ERROR, m).
Proof.
  intros [(P & L & B & Hlen) (P2 & _)] Ty V.
  assert (NC : check_null_ptr_correctness m = RET_OK).
  { unfold check_null_ptr_correctness. rewrite P, P2. reflexivity. }
  assert (RD : forall code p, (p_qty p <=? modbus_get_max_len_2_read code) && (1 <=? p_qty p) = false ->
     read_req code m p = Ok (RET_ERROR, m)).
  { intros code p H. unfold read_req. rewrite NC. change (RET_OK =? RET_OK) with true. cbn iota.
    unfold read_reg_request, MODBUS_MIN_REG_COIL_QTY. rewrite H. cbn [bind]. destruct m; reflexivity. }
  destruct a as [adr q id|adr q id|adr q id|adr q id|adr id v|adr id v|adr q id d|adr q id d];
    cbn [api_valid] in *; try discriminate;
    unfold generate_request_PDU_data; cbn [api_param master_functions_mapper gen_pdu_loop p_fc Z.eqb Pos.eqb
      FC_READ_COILS FC_READ_DISCRETE_INPUTS FC_READ_HOLDING_REGISTERS FC_READ_INPUT_REGISTERS FC_WRITE_SINGLE_COIL
      FC_WRITE_SINGLE_REGISTER FC_WRITE_MULTIPLE_COILS FC_WRITE_MULTIPLE_REGISTER].
  - unfold modbus_master_read_coils_req. rewrite RD; [reflexivity|]. change (modbus_get_max_len_2_read _) with 2000. cbn [p_qty]. lia.
  - unfold modbus_master_read_discrete_inputs_req. rewrite RD; [reflexivity|]. change (modbus_get_max_len_2_read _) with 2000. cbn [p_qty]. lia.
  - unfold modbus_master_read_input_reg_req. rewrite RD; [reflexivity|]. change (modbus_get_max_len_2_read _) with 125. cbn [p_qty]. lia.
  - unfold modbus_master_read_holding_reg_req. rewrite RD; [reflexivity|]. change (modbus_get_max_len_2_read _) with 125. cbn [p_qty]. lia.
  - unfold modbus_master_write_multiple_reg_req. rewrite NC. change (RET_OK =? RET_OK) with true. cbn [negb p_qty].
    change MODBUS_MAX_WRITE_REG_QTY with 123. change MODBUS_MIN_REG_COIL_QTY with 1.
    destruct ((123 <? q) || (q <? 1)) eqn:Q; [reflexivity|lia].
  - unfold modbus_master_write_multiple_coils_req. rewrite NC. change (RET_OK =? RET_OK) with true. cbn [negb p_qty].
    change MODBUS_MAX_WRITE_COILS_QTY with 1968. change MODBUS_MIN_REG_COIL_QTY with 1.
    destruct ((1968 <? q) || (q <? 1)) eqn:Q; [reflexivity|lia].
Qed.

(** with the frame built around it *)
Lemma send_holds r pdu id : holds r pdu -> (length pdu <= 252)%nat -> byte id -> 
  exists r', modbus_RTU_send r id = Ok (RET_OK, r') /\ rr_ok r' /\ rx_frame r' = rtu_frame id pdu.
Proof.
  intros (x & rest & -> & L & B) Hl Hid.
  assert (Lr : length (x :: pdu ++ rest) = (1 + length pdu + length rest)%nat) by (cbn [length]; rewrite app_length; lia).
  assert (Bp : bytes pdu /\ bytes rest) by (apply Forall_inv_tail in B; apply Forall_app in B; auto).
  rewrite (send_ok id _ x pdu rest); cbn [rr_ptr rr_buf rr_len length]; try tauto; try lia.
  eexists. split; [reflexivity|]. split.
  - unfold rr_ok. cbn [rr_ptr rr_buf rr_len]. repeat split; try lia.
    + rewrite app_length, rtu_frame_len, skipn_length. lia.
    + apply Forall_app. split; [apply rtu_frame_bytes; tauto|apply Forall_skipn; tauto].
  - unfold rx_frame. cbn [rr_buf rr_len]. apply firstn_app_exact. rewrite rtu_frame_len. lia.
Qed.
