(** Processing a response, in terms of the request that was sent. *)
From Verif Require Export Proofs.Response.

Lemma rx_frame_nth r k : rr_ok r -> (k < length (rx_frame r))%nat -> byte_at (rr_buf r) k = byte_at (rx_frame r) k.
Proof.
  intros Hr H. unfold byte_at, rx_frame in *. rewrite <- (firstn_skipn (Z.to_nat (rr_len r)) (rr_buf r)) at 1.
  apply app_nth1. exact H.
Qed.

(** the request buffer holds the frame of request a *)
Definition has_req (m : msg) (a : api) : Prop := rx_frame (m_req m) = request_frame a.

Lemma be16_nth v l k : byte_at (be16 v ++ l) (S (S k)) = byte_at l k.
Proof. reflexivity. Qed.
Lemma has_req_fields m a : rr_ok (m_req m) -> has_req m a -> api_ok a -> api_valid a = true ->
  byte_at (rr_buf (m_req m)) 0 = api_id a /\
  byte_at (rr_buf (m_req m)) 1 = api_fc a /\ word_at (rr_buf (m_req m)) 2 = api_adr a /\ word_at (rr_buf (m_req m)) 4 = api_field a.
Proof.
  intros Hr H Ok V. unfold has_req in H.
  assert (L : (5 <= length (request_pdu a))%nat) by (apply request_pdu_len; auto).
  assert (L' : (8 <= length (rx_frame (m_req m)))%nat) by (rewrite H; unfold request_frame; rewrite rtu_frame_len; lia).
  assert (G : forall k, (k < 6)%nat -> byte_at (rr_buf (m_req m)) k = byte_at (api_id a :: request_pdu a) k).
  { intros k Hk. rewrite rx_frame_nth by (auto; lia). rewrite H. unfold request_frame, rtu_frame, byte_at.
    apply app_nth1. cbn [length]. lia. }
  unfold word_at. rewrite !G by lia.
  destruct Ok as [(T1 & T2 & T3 & T4) _].
  assert (W : forall v, 256 * (v / 256) + v mod 256 = v) by (intros v; rewrite (Z.div_mod v 256) at 3 by lia; reflexivity).
  destruct a as [adr q id|adr q id|adr q id|adr q id|adr id v|adr id v|adr q id d|adr q id d]; cbn in *; rewrite !W; repeat split; auto.
Qed.

Lemma read_field a : is_read a = true -> api_field a = api_qty a.
Proof. destruct a; cbn; auto; discriminate. Qed.
Lemma read_limit a : is_read a = true -> api_valid a = true -> api_qty a <= 2000 /\ (3 <= api_fc a -> api_qty a <= 125).
Proof. destruct a; cbn; try discriminate; intros _ H; lia. Qed.

Lemma read_resp_char m a : msg_ok m -> has_req m a -> api_ok a -> api_valid a = true ->
  match delivered a (rr_buf (m_resp m)) with
  | None => modbus_master_read_slave_resp m = UB
  | Some l => exists st, modbus_master_read_slave_resp m = Ok (st, l)
  end.
Proof.
  intros Hm H Ok V. destruct (has_req_fields m a) as (F0 & F1 & F2 & F3); auto. { apply Hm. }
  unfold delivered. set (b := rr_buf (m_resp m)).
  destruct (128 <=? byte_at b 1) eqn:E.
  - rewrite (resp_exception m Hm) by (fold b; lia). fold b. rewrite F2, F3. eauto.
  - rewrite (resp_normal_dispatch m Hm) by (fold b; lia). rewrite F1.
    destruct (is_read a) eqn:R.
    + assert (Hc : (api_fc a =? 1) || (api_fc a =? 2) || (api_fc a =? 3) || (api_fc a =? 4) = true).
      { destruct a; cbn in *; try discriminate; reflexivity. }
      rewrite Hc. rewrite <- (read_field a R) in *.
      assert (Lq := read_limit a R V). rewrite (read_field a R) in *.
      rewrite (update_data_char m Hm) by (rewrite F3; lia). fold b. rewrite F2, F3.
      destruct ((byte_at b 1 =? 1) || (byte_at b 1 =? 2) || (byte_at b 1 =? 3) || (byte_at b 1 =? 4)); eauto.
      destruct (((byte_at b 1 =? 3) || (byte_at b 1 =? 4)) && (126 <? api_qty a)); eauto.
    + assert (Hc : (api_fc a =? 1) || (api_fc a =? 2) || (api_fc a =? 3) || (api_fc a =? 4) = false).
      { destruct a; cbn in *; try discriminate; reflexivity. }
      assert (Hc' : (api_fc a =? 5) || (api_fc a =? 6) || (api_fc a =? 15) || (api_fc a =? 16) = true).
      { destruct a; cbn in *; try discriminate; reflexivity. }
      rewrite Hc, Hc'. rewrite (write_conf_char m Hm). fold b. rewrite F2, F3. eauto.
Qed.

(** normal response with the request's function code *)
Lemma delivered_match a b : api_valid a = true -> byte_at b 1 = api_fc a ->
  delivered a b = Some (normal_callbacks (api_fc a) (byte_at b 0) (api_adr a) (api_qty a) b).
Proof.
  intros V E. unfold delivered. rewrite E. assert (F : 128 <=? api_fc a = false) by (destruct a; reflexivity). rewrite F.
  destruct (is_read a) eqn:R.
  - assert (Lq := read_limit a R V). destruct a; cbn [is_read api_fc Z.leb Z.compare Pos.compare Pos.compare_cont Z.eqb Pos.eqb orb andb api_qty api_adr] in *; try discriminate; auto;
    destruct (126 <? qty) eqn:Q; auto; lia.
  - destruct a; cbn in *; try discriminate; reflexivity.
Qed.

Lemma resp_exact m a : msg_ok m -> has_req m a -> api_ok a -> api_valid a = true ->
  byte_at (rr_buf (m_resp m)) 1 = api_fc a ->
  exists st, modbus_master_read_slave_resp m = Ok (st, normal_callbacks (api_fc a) (byte_at (rr_buf (m_resp m)) 0) (api_adr a) (api_qty a) (rr_buf (m_resp m))).
Proof.
  intros Hm H Ok V E. assert (R := read_resp_char m a Hm H Ok V). rewrite (delivered_match a _ V E) in R. exact R.
Qed.

Lemma c13 m a : msg_ok m -> has_req m a -> api_ok a -> api_valid a = true ->
  128 <= byte_at (rr_buf (m_resp m)) 1 ->
  exists st, modbus_master_read_slave_resp m = Ok (st, exception_callbacks
    (mk_exc (byte_at (rr_buf (m_resp m)) 0) (byte_at (rr_buf (m_resp m)) 1 - 128) (byte_at (rr_buf (m_resp m)) 2) (api_adr a) (api_field a))).
Proof.
  intros Hm H Ok V E. assert (R := read_resp_char m a Hm H Ok V). unfold delivered in R.
  destruct (128 <=? byte_at (rr_buf (m_resp m)) 1) eqn:Q; [exact R|lia].
Qed.

Lemma c14 m a : msg_ok m -> has_req m a -> api_ok a -> api_valid a = true ->
  let fc := byte_at (rr_buf (m_resp m)) 1 in
  (modbus_master_read_slave_resp m = UB <-> (is_read a = true /\ 126 < api_qty a /\ (fc = 3 \/ fc = 4))) /\
  modbus_master_read_slave_resp m <> Diverge.
Proof.
  intros Hm H Ok V fc. assert (R := read_resp_char m a Hm H Ok V). unfold delivered in R. fold fc in R.
  destruct (128 <=? fc) eqn:Q.
  { destruct R as [st ->]. split; [split; [discriminate|lia]|discriminate]. }
  destruct (is_read a).
  2:{ destruct R as [st ->]. split; [split; [discriminate|intros [X _]; discriminate]|discriminate]. }
  destruct ((fc =? 1) || (fc =? 2) || (fc =? 3) || (fc =? 4)) eqn:Q4.
  2:{ destruct R as [st ->]. split; [split; [discriminate|lia]|discriminate]. }
  destruct (((fc =? 3) || (fc =? 4)) && (126 <? api_qty a)) eqn:Q5.
  - rewrite R. split; [split; [intros _; split; [reflexivity|lia]|reflexivity]|discriminate].
  - destruct R as [st ->]. split; [split; [discriminate|lia]|discriminate].
Qed.

Lemma bit_cb_data mk id adr q b : (forall i a v, is_data (mk i a v)) -> Forall is_data (bit_callbacks mk id adr q b).
Proof. intros H. apply Forall_forall. intros x Hx. apply in_map_iff in Hx. destruct Hx as (k & <- & _). auto. Qed.
Lemma reg_cb_data mk id adr q b : (forall i a v, is_data (mk i a v)) -> Forall is_data (reg_callbacks mk id adr q b).
Proof. intros H. apply Forall_forall. intros x Hx. apply in_map_iff in Hx. destruct Hx as (k & <- & _). auto. Qed.

Lemma c15_partial m a st l : msg_ok m -> has_req m a -> api_ok a -> api_valid a = true ->
  modbus_master_read_slave_resp m = Ok (st, l) ->
  let fc := byte_at (rr_buf (m_resp m)) 1 in
  fc < 128 ->
  (is_read a = true -> Forall is_data l /\ (4 < fc \/ fc = 0 -> l = [])) /\
  (is_read a = false -> exists c, l = [c] /\ is_confirm c).
Proof.
  intros Hm H Ok V E fc Hf. assert (R := read_resp_char m a Hm H Ok V). unfold delivered in R. fold fc in R.
  destruct (128 <=? fc) eqn:Q; [lia|].
  destruct (is_read a).
  - split; [intros _|discriminate].
    destruct ((fc =? 1) || (fc =? 2) || (fc =? 3) || (fc =? 4)) eqn:Q4.
    + split; [|lia]. destruct (((fc =? 3) || (fc =? 4)) && (126 <? api_qty a)) eqn:Q5; [congruence|].
      destruct R as [st' R]. rewrite E in R. inversion R. subst.
      assert (C : fc = 1 \/ fc = 2 \/ fc = 3 \/ fc = 4) by lia.
      destruct C as [->|[->|[->| ->]]]; cbn [normal_callbacks]; (apply bit_cb_data || apply reg_cb_data); cbn; auto.
    + destruct R as [st' R]. rewrite E in R. inversion R. subst. split; auto.
  - split; [discriminate|intros _]. destruct R as [st' R]. rewrite E in R. inversion R. subst.
    destruct (fc =? 5) eqn:C5. { replace fc with 5 by lia. cbn. eexists; split; [reflexivity|exact I]. }
    destruct (fc =? 6) eqn:C6. { replace fc with 6 by lia. cbn. eexists; split; [reflexivity|exact I]. }
    destruct (fc =? 15) eqn:C15. { replace fc with 15 by lia. cbn. eexists; split; [reflexivity|exact I]. }
    cbn. eexists; split; [reflexivity|exact I].
Qed.

(** a frame that is long enough for the requested quantity *)
Definition resp_bytes (a : api) : Z := if api_fc a <=? 2 then coil_bytes (api_qty a) else 2 * api_qty a.
Lemma c16_partial m a : msg_ok m -> has_req m a -> api_ok a -> api_valid a = true -> is_read a = true ->
  byte_at (rx_frame (m_resp m)) 1 = api_fc a -> 3 + resp_bytes a <= rr_len (m_resp m) ->
  exists st, modbus_master_read_slave_resp m =
    Ok (st, normal_callbacks (api_fc a) (byte_at (rx_frame (m_resp m)) 0) (api_adr a) (api_qty a) (rx_frame (m_resp m))).
Proof.
  intros Hm H Ok V R E L. assert (Hr : rr_ok (m_resp m)) by apply Hm.
  assert (Lf := rx_frame_len _ Hr). assert (Q := read_limit a R V). assert (Hb : byte (rr_len (m_resp m))) by apply Hr. unfold byte in Hb.
  assert (G : forall k, Z.of_nat k < 3 + resp_bytes a -> byte_at (rr_buf (m_resp m)) k = byte_at (rx_frame (m_resp m)) k).
  { intros k Hk. apply rx_frame_nth; auto. lia. }
  assert (P : 0 <= resp_bytes a). { unfold resp_bytes, coil_bytes. assert (0 < api_qty a) by (destruct a; cbn in *; try discriminate; lia). destruct (api_fc a <=? 2); lia. }
  destruct (resp_exact m a Hm H Ok V) as [st S]. { rewrite G by lia. exact E. }
  exists st. rewrite S. do 2 f_equal. rewrite G by lia.
  destruct a; cbn in R; try discriminate; cbn [normal_callbacks api_fc api_qty api_adr] in *; unfold resp_bytes, coil_bytes in *; cbn [api_fc api_qty Z.leb Z.compare Pos.compare Pos.compare_cont] in *;
    unfold bit_callbacks, reg_callbacks; apply map_ext_in; intros k Hk; apply in_seq in Hk; f_equal;
    try (rewrite G by lia; reflexivity); unfold word_at; rewrite !G by lia; reflexivity.
Qed.

Lemma c11 m a : msg_ok m -> has_req m a -> api_ok a -> api_valid a = true -> is_read a = true ->
  byte_at (rr_buf (m_resp m)) 0 = api_id a -> byte_at (rr_buf (m_resp m)) 1 = api_fc a ->
  exists st, modbus_master_read_slave_resp m = Ok (st,
    match a with
    | ReadCoils adr qty id => bit_callbacks CoilRead id adr qty (rr_buf (m_resp m))
    | ReadDiscreteInputs adr qty id => bit_callbacks DisinRead id adr qty (rr_buf (m_resp m))
    | ReadInputReg adr qty id => reg_callbacks InregRead id adr qty (rr_buf (m_resp m))
    | ReadHoldingReg adr qty id => reg_callbacks HregRead id adr qty (rr_buf (m_resp m))
    | _ => []
    end).
Proof.
  intros Hm H Ok V R E0 E1. destruct (resp_exact m a Hm H Ok V E1) as [st E]. exists st. rewrite E, E0.
  destruct a; cbn in R; try discriminate; reflexivity.
Qed.
Lemma c12 m a : msg_ok m -> has_req m a -> api_ok a -> api_valid a = true -> is_read a = false ->
  byte_at (rr_buf (m_resp m)) 0 = api_id a -> byte_at (rr_buf (m_resp m)) 1 = api_fc a ->
  exists st, modbus_master_read_slave_resp m = Ok (st,
    [match a with
     | WriteSingleCoil adr id _ => CoilWrite id adr 1
     | WriteMultipleCoils adr qty id _ => CoilWrite id adr qty
     | WriteSingleReg adr id _ => HregWrite id adr 1
     | WriteMultipleReg adr qty id _ | ReadCoils adr qty id | ReadDiscreteInputs adr qty id | ReadInputReg adr qty id
     | ReadHoldingReg adr qty id => HregWrite id adr qty
     end]).
Proof.
  intros Hm H Ok V R E0 E1. destruct (resp_exact m a Hm H Ok V E1) as [st E]. exists st. rewrite E, E0.
  destruct a; cbn in R; try discriminate; reflexivity.
Qed.
