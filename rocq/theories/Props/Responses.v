(** C11-C16: what the master tells its application for a received response.
    [has_req m a]: the request part of message m holds the frame of request a. *)
From Verif Require Import Proofs.Unpack Props.Frames.

(** C11: read responses.  [normal_callbacks] (Spec/Client.v) lists one callback per item, ascending addresses. *)
Theorem C11_read_delivered_exactly : forall (m : msg) (a : api),
  msg_ok m -> rx_frame (m_req m) = request_frame a -> api_ok a -> api_valid a = true -> is_read a = true ->
  byte_at (rr_buf (m_resp m)) 0 = api_id a -> byte_at (rr_buf (m_resp m)) 1 = api_fc a ->
  exists st, modbus_master_read_slave_resp m = Ok (st,
    match a with
    | ReadCoils adr qty id => bit_callbacks CoilRead id adr qty (rr_buf (m_resp m))
    | ReadDiscreteInputs adr qty id => bit_callbacks DisinRead id adr qty (rr_buf (m_resp m))
    | ReadInputReg adr qty id => reg_callbacks InregRead id adr qty (rr_buf (m_resp m))
    | ReadHoldingReg adr qty id => reg_callbacks HregRead id adr qty (rr_buf (m_resp m))
    | _ => []
    end).
Proof. exact c11. Qed.
Print Assumptions C11_read_delivered_exactly.
(** ... so for a response carrying the packed values l, the application is given exactly l *)
Theorem C11_bits_round_trip : forall mk id adr q x y z l rest, length l = Z.to_nat q ->
  bit_callbacks mk id adr q ([x; y; z] ++ pack_bits l ++ rest) =
  map (fun k => mk id ((adr + Z.of_nat k) mod 65536) (nth k l false)) (seq 0 (length l)).
Proof. exact bit_callbacks_pack. Qed.
Print Assumptions C11_bits_round_trip.
Theorem C11_registers_round_trip : forall mk id adr q x y z l rest, length l = Z.to_nat q ->
  reg_callbacks mk id adr q ([x; y; z] ++ pack_regs l ++ rest) =
  map (fun k => mk id ((adr + Z.of_nat k) mod 65536) (nth k l 0)) (seq 0 (length l)).
Proof. exact reg_callbacks_pack. Qed.
Print Assumptions C11_registers_round_trip.

Definition sample_msg (a : api) (resp : list Z) : msg := mk_msg (sample_rr (request_frame a)) (sample_rr resp).
Example C11_case : let a := ReadCoils 0xFFFF 10 17 in let m := sample_msg a (rtu_frame 17 [1; 2; 0x05; 0x02]) in
  rx_frame (m_req m) = request_frame a /\ api_valid a = true /\ api_ok a /\
  exists st, modbus_master_read_slave_resp m = Ok (st,
   [CoilRead 17 65535 true; CoilRead 17 0 false; CoilRead 17 1 true; CoilRead 17 2 false; CoilRead 17 3 false;
    CoilRead 17 4 false; CoilRead 17 5 false; CoilRead 17 6 false; CoilRead 17 7 false; CoilRead 17 8 true]).
Proof.
  cbv zeta. split; [vm_compute; reflexivity|]. split; [reflexivity|].
  split; [unfold api_ok, api_typed, byte, word; cbn; lia|]. eexists. vm_compute. reflexivity.
Qed.

(** C12 *)
Theorem C12_write_confirmed_once : forall (m : msg) (a : api),
  msg_ok m -> rx_frame (m_req m) = request_frame a -> api_ok a -> api_valid a = true -> is_read a = false ->
  byte_at (rr_buf (m_resp m)) 0 = api_id a -> byte_at (rr_buf (m_resp m)) 1 = api_fc a ->
  exists st, modbus_master_read_slave_resp m = Ok (st,
    [match a with
     | WriteSingleCoil adr id _ => CoilWrite id adr 1
     | WriteMultipleCoils adr qty id _ => CoilWrite id adr qty
     | WriteSingleReg adr id _ => HregWrite id adr 1
     | WriteMultipleReg adr qty id _ | ReadCoils adr qty id | ReadDiscreteInputs adr qty id | ReadInputReg adr qty id
     | ReadHoldingReg adr qty id => HregWrite id adr qty
     end]).
Proof. exact c12. Qed.
Print Assumptions C12_write_confirmed_once.
Example C12_case : exists st, modbus_master_read_slave_resp
   (sample_msg (WriteMultipleCoils 4 3 17 (Some [true; false; true])) (rtu_frame 17 [15; 0; 4; 0; 3])) = Ok (st, [CoilWrite 17 4 3]).
Proof. eexists. vm_compute. reflexivity. Qed.

(** C13: [exception_callbacks] (Spec/Client.v): one callback, chosen by the function code, none for unknown codes *)
Theorem C13_exception_reported_once : forall (m : msg) (a : api),
  msg_ok m -> rx_frame (m_req m) = request_frame a -> api_ok a -> api_valid a = true ->
  128 <= byte_at (rr_buf (m_resp m)) 1 ->
  exists st, modbus_master_read_slave_resp m = Ok (st, exception_callbacks
    (mk_exc (byte_at (rr_buf (m_resp m)) 0) (byte_at (rr_buf (m_resp m)) 1 - 128) (byte_at (rr_buf (m_resp m)) 2)
            (api_adr a) (api_field a))).
Proof. exact c13. Qed.
Print Assumptions C13_exception_reported_once.
Example C13_case : exists st, modbus_master_read_slave_resp
   (sample_msg (ReadInputReg 4 3 17) (rtu_frame 17 [0x84; 2])) = Ok (st, [InregExc (mk_exc 17 4 2 4 3)]).
Proof. eexists. vm_compute. reflexivity. Qed.

(** C14: the full property (no request, no response makes the processing undefined) is false: *)
Definition C14_full : Prop := forall (m : msg) (a : api),
  msg_ok m -> rx_frame (m_req m) = request_frame a -> api_ok a -> api_valid a = true ->
  modbus_master_read_slave_resp m <> UB.
Theorem C14_refuted : exists (m : msg) (a : api),
  msg_ok m /\ rx_frame (m_req m) = request_frame a /\ api_ok a /\ api_valid a = true /\
  intact (api_id a) (rx_frame (m_resp m)) /\
  modbus_master_read_slave_resp m = UB.
Proof.
  exists (sample_msg (ReadCoils 0 2000 17) (rtu_frame 17 [3; 2; 0; 0])), (ReadCoils 0 2000 17).
  split. { split; apply sample_ok; (cbn; lia) || reflexivity. }
  split; [vm_compute; reflexivity|]. split; [unfold api_ok, api_typed, byte, word; cbn; lia|]. split; [reflexivity|].
  split; [exact (rtu_frame_intact 17 [3; 2; 0; 0])|vm_compute; reflexivity].
Qed.
Print Assumptions C14_refuted.
Theorem C14_full_refuted : ~ C14_full.
Proof. intros H. destruct C14_refuted as (m & a & H1 & H2 & H3 & H4 & _ & H5). exact (H m a H1 H2 H3 H4 H5). Qed.
Print Assumptions C14_full_refuted.
(** exactly when it happens: a bit read of more than 126 items answered with a register read function code *)
Theorem C14_safe_iff_partial : forall (m : msg) (a : api),
  msg_ok m -> rx_frame (m_req m) = request_frame a -> api_ok a -> api_valid a = true ->
  let fc := byte_at (rr_buf (m_resp m)) 1 in
  (modbus_master_read_slave_resp m = UB <-> (is_read a = true /\ 126 < api_qty a /\ (fc = 3 \/ fc = 4))) /\
  modbus_master_read_slave_resp m <> Diverge.
Proof. exact c14. Qed.
Print Assumptions C14_safe_iff_partial.

(** C15: false as stated: a coil read answered with function code 2 is delivered as discrete inputs, and a register
    write answered with the code of a coil write is confirmed as a coil write. *)
Definition C15_full : Prop := forall (m : msg) (a : api) st l,
  msg_ok m -> rx_frame (m_req m) = request_frame a -> api_ok a -> api_valid a = true ->
  byte_at (rr_buf (m_resp m)) 1 < 128 -> byte_at (rr_buf (m_resp m)) 1 <> api_fc a ->
  modbus_master_read_slave_resp m = Ok (st, l) -> l = [].
Theorem C15_refuted :
  (exists st, modbus_master_read_slave_resp (sample_msg (ReadCoils 7 1 17) (rtu_frame 17 [2; 1; 1])) = Ok (st, [DisinRead 17 7 true])) /\
  (exists st, modbus_master_read_slave_resp (sample_msg (WriteSingleReg 7 17 99) (rtu_frame 17 [5; 0; 7; 0; 0])) = Ok (st, [CoilWrite 17 7 1])).
Proof. split; eexists; vm_compute; reflexivity. Qed.
Print Assumptions C15_refuted.
Theorem C15_full_refuted : ~ C15_full.
Proof.
  intros H. destruct C15_refuted as [[st E] _].
  specialize (H (sample_msg (ReadCoils 7 1 17) (rtu_frame 17 [2; 1; 1])) (ReadCoils 7 1 17) st [DisinRead 17 7 true]).
  assert (X : [DisinRead 17 7 true] = []); [apply H; try exact E|discriminate].
  - split; apply sample_ok; (cbn; lia) || reflexivity.
  - vm_compute; reflexivity.
  - unfold api_ok, api_typed, byte, word; cbn; lia.
  - reflexivity.
  - vm_compute; reflexivity.
  - vm_compute; discriminate.
Qed.
Print Assumptions C15_full_refuted.
(** what holds: a read never yields a confirmation (and nothing for codes other than 1..4), a write never yields data *)
Theorem C15_kinds_separate_partial : forall (m : msg) (a : api) st l,
  msg_ok m -> rx_frame (m_req m) = request_frame a -> api_ok a -> api_valid a = true ->
  modbus_master_read_slave_resp m = Ok (st, l) ->
  let fc := byte_at (rr_buf (m_resp m)) 1 in
  fc < 128 ->
  (is_read a = true -> Forall is_data l /\ (4 < fc \/ fc = 0 -> l = [])) /\
  (is_read a = false -> exists c, l = [c] /\ is_confirm c).
Proof. exact c15_partial. Qed.
Print Assumptions C15_kinds_separate_partial.

(** C16: false as stated: after a short (but intact) response, stale buffer bytes are delivered: *)
Theorem C16_refuted : exists (m : msg),
  msg_ok m /\ rx_frame (m_req m) = request_frame (ReadHoldingReg 7 2 17) /\
  rx_frame (m_resp m) = rtu_frame 17 [3; 0] /\
  exists st, modbus_master_read_slave_resp m = Ok (st, [HregRead 17 7 0x2135; HregRead 17 8 0xABCD]).
Proof.
  exists (mk_msg (sample_rr (request_frame (ReadHoldingReg 7 2 17))) (set_len (sample_rr (rtu_frame 17 [3; 0] ++ [0xAB; 0xCD])) 5)).
  split. { split; [apply sample_ok; [cbn; lia|reflexivity]|].
    destruct (sample_ok (rtu_frame 17 [3; 0] ++ [0xAB; 0xCD])) as (P & L & B & _); [cbn; lia|reflexivity|].
    repeat split; auto; cbn; lia. }
  split; [vm_compute; reflexivity|]. split; [vm_compute; reflexivity|]. eexists. vm_compute. reflexivity.
Qed.
Print Assumptions C16_refuted.
(** what holds: if the frame is long enough, only its bytes are used *)
Theorem C16_long_enough_partial : forall (m : msg) (a : api),
  msg_ok m -> rx_frame (m_req m) = request_frame a -> api_ok a -> api_valid a = true -> is_read a = true ->
  byte_at (rx_frame (m_resp m)) 1 = api_fc a ->
  3 + (if api_fc a <=? 2 then coil_bytes (api_qty a) else 2 * api_qty a) <= rr_len (m_resp m) ->
  exists st, modbus_master_read_slave_resp m =
    Ok (st, normal_callbacks (api_fc a) (byte_at (rx_frame (m_resp m)) 0) (api_adr a) (api_qty a) (rx_frame (m_resp m))).
Proof. exact c16_partial. Qed.
Print Assumptions C16_long_enough_partial.
