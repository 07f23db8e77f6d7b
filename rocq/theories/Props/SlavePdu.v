(** C33-C37, C42, C45: how the slave interprets a request and what registration does.
    [rr_buf (m_req m)] is the 256-byte request buffer: byte 1 is the function code, bytes 2-3 the address,
    bytes 4-5 the quantity (or value), byte 6 the byte count; [answer_is r pdu]: the response carries [pdu]. *)
From Verif Require Import Proofs.SlaveMain Props.Frames.

(** C33 *)
Theorem C33_read_bits : forall c d m fc adr qty l,
  cfg_tables_ok c -> data_ok c d -> msg_ok m ->
  let b := rr_buf (m_req m) in
  byte_at b 1 = fc -> fc = 1 \/ fc = 2 -> word_at b 2 = adr -> word_at b 4 = qty ->
  1 <= qty <= 2000 -> adr + qty <= size_of fc c -> fetch (table_of fc d) (v_bits d) adr qty = Some l ->
  exists st r, parse_master_request_and_prepare_resp c m d = Ok (st, mk_msg (m_req m) r, d) /\
    answer_is r (fc :: Z.of_nat (length (pack_bits l)) :: pack_bits l).
Proof. exact c33_bits. Qed.
Print Assumptions C33_read_bits.
Theorem C33_read_regs : forall c d m fc adr qty l,
  cfg_tables_ok c -> data_ok c d -> msg_ok m ->
  let b := rr_buf (m_req m) in
  byte_at b 1 = fc -> fc = 3 \/ fc = 4 -> word_at b 2 = adr -> word_at b 4 = qty ->
  1 <= qty <= 125 -> adr + qty <= size_of fc c -> fetch (table_of fc d) (v_regs d) adr qty = Some l ->
  exists st r, parse_master_request_and_prepare_resp c m d = Ok (st, mk_msg (m_req m) r, d) /\
    answer_is r (fc :: Z.of_nat (length (pack_regs l)) :: pack_regs l).
Proof. exact c33_regs. Qed.
Print Assumptions C33_read_regs.

(** concrete slave: 4 addresses per table; coils 0,1 share variable 2, coil 3 is not registered *)
Definition sample_cfg : cfg := mk_cfg 5 1000 3 4 4 4 4.
Definition sample_data : sdata :=
  mk_sdata [Some 2; Some 2; Some 0; None]%nat [Some 0; Some 1; Some 2; None]%nat
           [Some 0; None; None; Some 1]%nat [Some 1; Some 0; Some 1; None]%nat [true; false; true] [0x1234; 0xABCD].
Definition sample_msg (l : list Z) : msg := mk_msg (sample_rr l) (sample_rr []).
Lemma sample_cfg_ok : cfg_tables_ok sample_cfg.
Proof. unfold cfg_tables_ok. cbn. lia. Qed.
Lemma sample_data_ok : data_ok sample_cfg sample_data.
Proof.
  unfold data_ok, ptrs_ok. cbn. repeat split; try reflexivity;
  try (intros k c H; do 4 (destruct k as [|k]; [cbn in H; try discriminate; inversion H; subst; lia|]); destruct k; discriminate).
  repeat constructor; lia.
Qed.
Lemma sample_msg_ok l : (length l <= 255)%nat -> forallb (fun b => (0 <=? b) && (b <? 256)) l = true -> msg_ok (sample_msg l).
Proof. intros. split; apply sample_ok; auto. cbn; lia. Qed.
(** read coils 0..2: variables 2, 2, 0 = true, true, true; the hypotheses hold and the answer is 01 01 07 *)
Example C33_case :
  let m := sample_msg [9; 1; 0; 0; 0; 3; 0; 0] in
  msg_ok m /\ fetch (table_of 1 sample_data) (v_bits sample_data) 0 3 = Some [true; true; true] /\
  exists st m', parse_master_request_and_prepare_resp sample_cfg m sample_data = Ok (st, m', sample_data) /\
    firstn 4 (rr_buf (m_resp m')) = [0; 1; 1; 7] /\ rr_len (m_resp m') = 4.
Proof.
  split; [apply sample_msg_ok; [cbn; lia|reflexivity]|]. split; [reflexivity|].
  do 2 eexists. split; [vm_compute; reflexivity|]. split; vm_compute; reflexivity.
Qed.
Example C33_case_regs :
  let m := sample_msg [9; 3; 0; 1; 0; 2; 0; 0] in
  fetch (table_of 3 sample_data) (v_regs sample_data) 1 2 = Some [0x1234; 0xABCD] /\
  exists st m', parse_master_request_and_prepare_resp sample_cfg m sample_data = Ok (st, m', sample_data) /\
    firstn 7 (rr_buf (m_resp m')) = [0; 3; 4; 0x12; 0x34; 0xAB; 0xCD].
Proof. split; [reflexivity|]. do 2 eexists. split; vm_compute; reflexivity. Qed.

(** C34: [refusal ... = None]: the request is valid and all its items are registered (see C35) *)
Theorem C34_write_bits : forall c d m fc adr qty vals,
  cfg_tables_ok c -> data_ok c d -> msg_ok m ->
  let b := rr_buf (m_req m) in
  byte_at b 1 = fc -> word_at b 2 = adr -> word_at b 4 = qty ->
  (fc = 5 /\ vals = [qty =? 0xFF00]) \/ (fc = 15 /\ vals = req_bits b qty) ->
  refusal c d b = None ->
  exists st r cells', parse_master_request_and_prepare_resp c m d = Ok (st, mk_msg (m_req m) r, set_bits d cells') /\
    answer_is r ([fc] ++ be16 adr ++ be16 qty) /\ written (t_coils d) (v_bits d) cells' (Z.to_nat adr) vals.
Proof. exact c34_bits. Qed.
Print Assumptions C34_write_bits.
Theorem C34_write_regs : forall c d m fc adr qty vals,
  cfg_tables_ok c -> data_ok c d -> msg_ok m ->
  let b := rr_buf (m_req m) in
  byte_at b 1 = fc -> word_at b 2 = adr -> word_at b 4 = qty ->
  (fc = 6 /\ vals = [qty]) \/ (fc = 16 /\ vals = req_regs b qty) ->
  refusal c d b = None ->
  exists st r cells', parse_master_request_and_prepare_resp c m d = Ok (st, mk_msg (m_req m) r, set_regs d cells') /\
    answer_is r ([fc] ++ be16 adr ++ be16 qty) /\ written (t_hreg d) (v_regs d) cells' (Z.to_nat adr) vals.
Proof. exact c34_regs. Qed.
Print Assumptions C34_write_regs.
(** [set_bits] / [set_regs] replace the application variables of one kind and nothing else *)
Theorem C34_frame : forall d cells rcells,
  v_bits (set_bits d cells) = cells /\ v_regs (set_bits d cells) = v_regs d /\ v_regs (set_regs d rcells) = rcells /\ v_bits (set_regs d rcells) = v_bits d /\
  (t_coils (set_bits d cells), t_din (set_bits d cells), t_ireg (set_bits d cells), t_hreg (set_bits d cells)) = (t_coils d, t_din d, t_ireg d, t_hreg d) /\
  (t_coils (set_regs d rcells), t_din (set_regs d rcells), t_ireg (set_regs d rcells), t_hreg (set_regs d rcells)) = (t_coils d, t_din d, t_ireg d, t_hreg d).
Proof. intros. repeat split. Qed.
(** write registers 0..2 with 1, 2, 3: addresses 0 and 2 share variable 1, which ends with 3 *)
Example C34_case :
  let m := sample_msg [9; 16; 0; 0; 0; 3; 6; 0; 1; 0; 2; 0; 3; 0; 0] in
  refusal sample_cfg sample_data (rr_buf (m_req m)) = None /\
  exists st m', parse_master_request_and_prepare_resp sample_cfg m sample_data = Ok (st, m', set_regs sample_data [2; 3]) /\
    firstn 6 (rr_buf (m_resp m')) = [0; 16; 0; 0; 0; 3].
Proof. split; [vm_compute; reflexivity|]. do 2 eexists. split; vm_compute; reflexivity. Qed.
Example C34_case_bits :
  let m := sample_msg [9; 15; 0; 1; 0; 2; 1; 2; 0; 0] in
  refusal sample_cfg sample_data (rr_buf (m_req m)) = None /\
  exists st m', parse_master_request_and_prepare_resp sample_cfg m sample_data = Ok (st, m', set_bits sample_data [true; false; false]).
Proof. split; [vm_compute; reflexivity|]. do 2 eexists. vm_compute; reflexivity. Qed.

(** C35: the exception code follows the priority list [refusal]; other requests are answered without exception bit *)
Theorem C35_exception_codes : forall c d m, cfg_tables_ok c -> data_ok c d -> msg_ok m ->
  let b := rr_buf (m_req m) in
  exists st r d', parse_master_request_and_prepare_resp c m d = Ok (st, mk_msg (m_req m) r, d') /\
  match refusal c d b with
  | Some code => answer_is r [if byte_at b 1 <? 128 then byte_at b 1 + 128 else byte_at b 1; code] /\ (code <> 4 -> d' = d)
  | None => exists t, answer_is r (byte_at b 1 :: t)
  end.
Proof. exact c35. Qed.
Print Assumptions C35_exception_codes.
Example C35_cases :
  let ref l := refusal sample_cfg sample_data (rr_buf (m_req (sample_msg l))) in
  ref [9; 7; 0; 0] = Some 1 /\ ref [9; 1; 0; 0; 0x07; 0xD1] = Some 3 /\ ref [9; 1; 0; 2; 0; 3] = Some 2 /\
  ref [9; 16; 0; 9; 0; 1; 9] = Some 2 /\ ref [9; 16; 0; 0; 0; 1; 9] = Some 3 /\ ref [9; 5; 0; 0; 1; 0] = Some 3 /\
  ref [9; 6; 0; 3; 0; 1] = Some 4 /\ ref [9; 6; 0; 1; 0; 1] = None.
Proof. repeat split; vm_compute; reflexivity. Qed.

(** C36.  For table sizes up to 65535 every request is handled without undefined behaviour, and the tables,
    variables and buffers stay well-formed.  Missing: sizes above 65535 (refuted below). *)
Theorem C36_memory_safe_partial : forall c d m, cfg_tables_ok c -> data_ok c d -> msg_ok m ->
  exists st m' d', parse_master_request_and_prepare_resp c m d = Ok (st, m', d') /\ data_ok c d' /\ m_req m' = m_req m /\
    rr_ok (m_resp m').
Proof. exact c36. Qed.
Print Assumptions C36_memory_safe_partial.
(** The full statement is false: with MAIN_APP_COILS_QTY = 65536 (tables are then clipped to 65535 entries by
    modbus_slave_data.h) a write of coil 65535 is out of bounds. *)
Theorem C36_refuted : exists c m, 65535 < c_coils c /\ msg_ok m /\
  parse_master_request_and_prepare_resp c m (s_data (slave_static c [] [])) = UB.
Proof.
  exists (mk_cfg 5 1000 3 65536 4 4 4), (sample_msg [9; 5; 255; 255; 255; 0]).
  split; [cbn; lia|]. split; [apply sample_msg_ok; [cbn; lia|reflexivity]|vm_compute; reflexivity].
Qed.
Print Assumptions C36_refuted.

(** C37.  Refused requests change nothing, except multiple writes that meet an unregistered item (code 4), which
    have then written exactly the items before it. *)
Theorem C37_refused_change_nothing_partial : forall c d m code, cfg_tables_ok c -> data_ok c d -> msg_ok m ->
  let b := rr_buf (m_req m) in
  refusal c d b = Some code -> code <> 4 \/ (byte_at b 1 <> 15 /\ byte_at b 1 <> 16) ->
  exists st m', parse_master_request_and_prepare_resp c m d = Ok (st, m', d).
Proof. exact c37_none. Qed.
Print Assumptions C37_refused_change_nothing_partial.
Theorem C37_prefix_written_bits_partial : forall c d m, cfg_tables_ok c -> data_ok c d -> msg_ok m ->
  let b := rr_buf (m_req m) in let adr := Z.to_nat (word_at b 2) in let vals := req_bits b (word_at b 4) in
  byte_at b 1 = 15 -> refusal c d b = Some 4 ->
  exists st m' cells n, parse_master_request_and_prepare_resp c m d = Ok (st, m', set_bits d cells) /\
    (n < length vals)%nat /\ (forall i, (i < n)%nat -> registered (t_coils d) (adr + i) = true) /\
    registered (t_coils d) (adr + n) = false /\ written (t_coils d) (v_bits d) cells adr (firstn n vals).
Proof. exact c37_prefix_bits. Qed.
Print Assumptions C37_prefix_written_bits_partial.
Theorem C37_prefix_written_regs_partial : forall c d m, cfg_tables_ok c -> data_ok c d -> msg_ok m ->
  let b := rr_buf (m_req m) in let adr := Z.to_nat (word_at b 2) in let vals := req_regs b (word_at b 4) in
  byte_at b 1 = 16 -> refusal c d b = Some 4 ->
  exists st m' cells n, parse_master_request_and_prepare_resp c m d = Ok (st, m', set_regs d cells) /\
    (n < length vals)%nat /\ (forall i, (i < n)%nat -> registered (t_hreg d) (adr + i) = true) /\
    registered (t_hreg d) (adr + n) = false /\ written (t_hreg d) (v_regs d) cells adr (firstn n vals).
Proof. exact c37_prefix_regs. Qed.
Print Assumptions C37_prefix_written_regs_partial.
(** the full statement is false: registers 2 and 3 are written, 3 is not registered; the answer is exception 4,
    but register 2 has changed *)
Theorem C37_refuted : exists c d m st m' d', cfg_tables_ok c /\ data_ok c d /\ msg_ok m /\
  parse_master_request_and_prepare_resp c m d = Ok (st, m', d') /\ answer_is (m_resp m') [16 + 128; 4] /\ v_regs d' <> v_regs d.
Proof.
  exists sample_cfg, sample_data, (sample_msg [9; 16; 0; 2; 0; 2; 4; 0; 1; 0; 2; 0; 0]). do 3 eexists.
  split; [apply sample_cfg_ok|]. split; [apply sample_data_ok|]. split; [apply sample_msg_ok; [cbn; lia|reflexivity]|].
  split; [vm_compute; reflexivity|]. split; [|cbn; discriminate].
  unfold answer_is. cbn [m_resp rr_ptr rr_buf rr_len]. repeat split; auto.
  - apply bytes_dec. reflexivity.
  - eexists. reflexivity.
Qed.
Print Assumptions C37_refuted.

(** C42.  If the received frame carries all the bytes its function needs, everything depends on the frame only. *)
Theorem C42_complete_frames_partial : forall c d m, cfg_tables_ok c -> data_ok c d -> msg_ok m ->
  frame_complete (rx_frame (m_req m)) ->
  exists st r, parse_master_request_and_prepare_resp c m d =
      Ok (st, mk_msg (m_req m) r, snd (server c d (rx_frame (m_req m)))) /\
    answer_is r (fst (server c d (rx_frame (m_req m)))).
Proof.
  intros c d m Hc Hd Hm F. destruct (parse_frame c d m Hc Hd Hm F) as (st & r & E & H). apply holds_answer in H. eauto.
Qed.
Print Assumptions C42_complete_frames_partial.
(** The full statement is false: the 5-byte intact frame "09 06 00 crc crc" is executed; the low byte of the value
    written comes from the old content of the buffer. *)
Definition stale (v : Z) : msg := mk_msg (mk_rr true ([9; 6; 0] ++ crc_field [9; 6; 0] ++ v :: repeat 0 250) 5) (sample_rr []).
Theorem C42_refuted : exists c d m1 m2 st1 st2 m1' m2' d1 d2,
  cfg_tables_ok c /\ data_ok c d /\ msg_ok m1 /\ msg_ok m2 /\
  rx_frame (m_req m1) = rx_frame (m_req m2) /\ m_resp m1 = m_resp m2 /\ intact 9 (rx_frame (m_req m1)) /\
  parse_master_request_and_prepare_resp c m1 d = Ok (st1, m1', d1) /\
  parse_master_request_and_prepare_resp c m2 d = Ok (st2, m2', d2) /\ v_regs d1 <> v_regs d /\ v_regs d1 <> v_regs d2.
Proof.
  exists (mk_cfg 5 1000 3 0 0 0 256), (mk_sdata [] [] [] (repeat (Some 0%nat) 256) [] [0x1234]), (stale 1), (stale 2).
  do 6 eexists.
  assert (M : forall v, byte v -> msg_ok (stale v)).
  { intros v Hv. split; [|apply sample_ok; [cbn; lia|reflexivity]]. unfold rr_ok. cbn [m_req stale rr_ptr rr_buf rr_len].
    split; auto. split; [reflexivity|]. split; [|unfold byte; lia]. apply Forall_app. split; [apply bytes_dec; reflexivity|]. apply Forall_app. split; [apply crc_field_bytes|].
    constructor; auto. apply Forall_forall. intros x Hx. apply repeat_spec in Hx. unfold byte; lia. }
  split; [unfold cfg_tables_ok; cbn; lia|]. split.
  { unfold data_ok, ptrs_ok. cbn [t_coils t_din t_ireg t_hreg v_bits v_regs c_coils c_din c_ireg c_hreg]. repeat split; try reflexivity.
    1-3: intros k x H; destruct k; discriminate.
    - intros k x H. apply nth_error_In, repeat_spec in H. inversion H. cbn. lia.
    - constructor; [unfold word; lia|constructor]. }
  split; [apply M; unfold byte; lia|]. split; [apply M; unfold byte; lia|]. split; [reflexivity|]. split; [reflexivity|].
  split; [split; [exists [9; 6; 0]; reflexivity|reflexivity]|].
  split; [vm_compute; reflexivity|]. split; [vm_compute; reflexivity|]. split; cbn; discriminate.
Qed.
Print Assumptions C42_refuted.
Example C42_case : frame_complete (rx_frame (m_req (sample_msg [9; 16; 0; 0; 0; 1; 2; 0; 7; 1; 2]))).
Proof. split; vm_compute; [lia|]. intros _. discriminate. Qed.

(** C45 *)
Definition tab_of (t : table) (d : sdata) : list (option nat) :=
  match t with TCoils => t_coils d | TDin => t_din d | TIreg => t_ireg d | THreg => t_hreg d end.
Theorem C45_register_inside : forall (t : table) (adr : Z) (ptr : option nat) (s : slave),
  0 <= adr < Z.of_nat (length (tab_of t (s_data s))) ->
  exists s', modbus_slave_register t adr ptr s = Ok s' /\
    nth_error (tab_of t (s_data s')) (Z.to_nat adr) = Some ptr /\
    length (tab_of t (s_data s')) = length (tab_of t (s_data s)) /\
    (forall k, k <> Z.to_nat adr -> nth_error (tab_of t (s_data s')) k = nth_error (tab_of t (s_data s)) k) /\
    (forall t', t' <> t -> tab_of t' (s_data s') = tab_of t' (s_data s)) /\
    v_bits (s_data s') = v_bits (s_data s) /\ v_regs (s_data s') = v_regs (s_data s) /\
    s' = s_set_data s (s_data s').
Proof.
  intros t adr ptr s H. destruct (register_inside _ adr ptr H) as (tab' & E & L & A & B).
  destruct t; cbn [tab_of] in *; unfold modbus_slave_register; rewrite E; cbn [bind]; eexists; (split; [reflexivity|]); cbn [s_data s_set_data tab_of t_coils t_din t_ireg t_hreg v_bits v_regs];
    (split; [exact A|]); (split; [exact L|]); (split; [exact B|]); (split; [intros [] N; cbn; auto; congruence|]); repeat split.
Qed.
Print Assumptions C45_register_inside.
Theorem C45_register_outside_is_unsafe : forall (t : table) (adr : Z) (ptr : option nat) (s : slave),
  0 <= adr -> Z.of_nat (length (tab_of t (s_data s))) <= adr -> modbus_slave_register t adr ptr s = UB.
Proof.
  intros t adr ptr s H1 H2. destruct t; cbn [tab_of] in *; unfold modbus_slave_register; rewrite register_outside by auto; reflexivity.
Qed.
Print Assumptions C45_register_outside_is_unsafe.
(** the function code that reads one table *)
Definition read_fc (t : table) : Z := match t with TCoils => 1 | TDin => 2 | TIreg => 4 | THreg => 3 end.
(** after registration a read of that address answers the current value of exactly that variable *)
Theorem C45_read_uses_registered_bit : forall (t : table) adr x s s' c m v,
  t = TCoils \/ t = TDin ->
  cfg_tables_ok c -> data_ok c (s_data s) -> msg_ok m -> 0 <= adr < Z.of_nat (length (tab_of t (s_data s))) ->
  modbus_slave_register t adr (Some x) s = Ok s' -> nth_error (v_bits (s_data s)) x = Some v ->
  let b := rr_buf (m_req m) in byte_at b 1 = read_fc t -> word_at b 2 = adr -> word_at b 4 = 1 ->
  exists st r, parse_master_request_and_prepare_resp c m (s_data s') = Ok (st, mk_msg (m_req m) r, s_data s') /\
    answer_is r [read_fc t; 1; if v then 1 else 0].
Proof.
  intros t adr x s s' c m v Ht Hc Hd Hm Ha E Hv b Hf Had Hq.
  destruct (C45_register_inside t adr (Some x) s Ha) as (s2 & E2 & N & L & O & O2 & V1 & V2 & _).
  rewrite E in E2. inversion E2; subst s2. clear E2.
  assert (Lx : (x < length (v_bits (s_data s)))%nat) by (apply nth_error_Some; congruence).
  assert (Hd' : data_ok c (s_data s')).
  { destruct Hd as (D1 & D2 & D3 & D4 & P1 & P2 & P3 & P4 & W). destruct Ht as [-> | ->].
    - assert (T2 := O2 TDin ltac:(discriminate)). assert (T3 := O2 TIreg ltac:(discriminate)). assert (T4 := O2 THreg ltac:(discriminate)).
      cbn [tab_of] in *. unfold data_ok, ptrs_ok. rewrite T2, T3, T4, V1, V2, L. repeat split; auto.
      intros k y Hk. destruct (Nat.eq_dec k (Z.to_nat adr)) as [->|Nk]; [congruence|]. rewrite O in Hk by auto. eapply P1; eauto.
    - assert (T2 := O2 TCoils ltac:(discriminate)). assert (T3 := O2 TIreg ltac:(discriminate)). assert (T4 := O2 THreg ltac:(discriminate)).
      cbn [tab_of] in *. unfold data_ok, ptrs_ok. rewrite T2, T3, T4, V1, V2, L. repeat split; auto.
      intros k y Hk. destruct (Nat.eq_dec k (Z.to_nat adr)) as [->|Nk]; [congruence|]. rewrite O in Hk by auto. eapply P2; eauto. }
  assert (F : fetch (table_of (read_fc t) (s_data s')) (v_bits (s_data s')) adr 1 = Some [v]).
  { unfold fetch. change (Z.to_nat 1) with 1%nat. cbn [seq map all_some]. unfold var_at.
    destruct Ht as [-> | ->]; cbn [tab_of read_fc] in *; cbn [table_of existsb Z.eqb Pos.eqb orb]; rewrite N, V1, Hv; reflexivity. }
  assert (Sz : adr + 1 <= size_of (read_fc t) c).
  { destruct Hd as (D1 & D2 & _). destruct Ht as [-> | ->]; cbn [tab_of read_fc] in *; cbn [size_of existsb Z.eqb Pos.eqb orb]; lia. }
  destruct (c33_bits c (s_data s') m (read_fc t) adr 1 [v] Hc Hd' Hm Hf ltac:(destruct Ht as [-> | ->]; cbn; auto) Had Hq ltac:(lia) Sz F) as (st & r & R & A).
  exists st, r. split; auto. destruct v; exact A.
Qed.
Print Assumptions C45_read_uses_registered_bit.
Theorem C45_read_uses_registered_reg : forall (t : table) adr x s s' c m v,
  t = TIreg \/ t = THreg ->
  cfg_tables_ok c -> data_ok c (s_data s) -> msg_ok m -> 0 <= adr < Z.of_nat (length (tab_of t (s_data s))) ->
  modbus_slave_register t adr (Some x) s = Ok s' -> nth_error (v_regs (s_data s)) x = Some v ->
  let b := rr_buf (m_req m) in byte_at b 1 = read_fc t -> word_at b 2 = adr -> word_at b 4 = 1 ->
  exists st r, parse_master_request_and_prepare_resp c m (s_data s') = Ok (st, mk_msg (m_req m) r, s_data s') /\
    answer_is r [read_fc t; 2; v / 256; v mod 256].
Proof.
  intros t adr x s s' c m v Ht Hc Hd Hm Ha E Hv b Hf Had Hq.
  destruct (C45_register_inside t adr (Some x) s Ha) as (s2 & E2 & N & L & O & O2 & V1 & V2 & _).
  rewrite E in E2. inversion E2; subst s2. clear E2.
  assert (Lx : (x < length (v_regs (s_data s)))%nat) by (apply nth_error_Some; congruence).
  assert (Hd' : data_ok c (s_data s')).
  { destruct Hd as (D1 & D2 & D3 & D4 & P1 & P2 & P3 & P4 & W). destruct Ht as [-> | ->].
    - assert (T2 := O2 TDin ltac:(discriminate)). assert (T3 := O2 TCoils ltac:(discriminate)). assert (T4 := O2 THreg ltac:(discriminate)).
      cbn [tab_of] in *. unfold data_ok, ptrs_ok. rewrite T2, T3, T4, V1, V2, L. repeat split; auto.
      intros k y Hk. destruct (Nat.eq_dec k (Z.to_nat adr)) as [->|Nk]; [congruence|]. rewrite O in Hk by auto. eapply P3; eauto.
    - assert (T2 := O2 TCoils ltac:(discriminate)). assert (T3 := O2 TIreg ltac:(discriminate)). assert (T4 := O2 TDin ltac:(discriminate)).
      cbn [tab_of] in *. unfold data_ok, ptrs_ok. rewrite T2, T3, T4, V1, V2, L. repeat split; auto.
      intros k y Hk. destruct (Nat.eq_dec k (Z.to_nat adr)) as [->|Nk]; [congruence|]. rewrite O in Hk by auto. eapply P4; eauto. }
  assert (F : fetch (table_of (read_fc t) (s_data s')) (v_regs (s_data s')) adr 1 = Some [v]).
  { unfold fetch. change (Z.to_nat 1) with 1%nat. cbn [seq map all_some]. unfold var_at.
    destruct Ht as [-> | ->]; cbn [tab_of read_fc] in *; cbn [table_of existsb Z.eqb Pos.eqb orb]; rewrite N, V2, Hv; reflexivity. }
  assert (Sz : adr + 1 <= size_of (read_fc t) c).
  { destruct Hd as (D1 & D2 & D3 & D4 & _). destruct Ht as [-> | ->]; cbn [tab_of read_fc] in *; cbn [size_of existsb Z.eqb Pos.eqb orb]; lia. }
  destruct (c33_regs c (s_data s') m (read_fc t) adr 1 [v] Hc Hd' Hm Hf ltac:(destruct Ht as [-> | ->]; cbn; auto) Had Hq ltac:(lia) Sz F) as (st & r & R & A).
  exists st, r. split; auto.
Qed.
Print Assumptions C45_read_uses_registered_reg.
Example C45_case : let s := s_set_data (slave_static sample_cfg [] []) sample_data in
  exists s', modbus_slave_register TCoils 3 (Some 1%nat) s = Ok s' /\ t_coils (s_data s') = [Some 2; Some 2; Some 0; Some 1]%nat /\
  modbus_slave_register TCoils 4 (Some 1%nat) s = UB.
Proof. eexists. repeat split. Qed.
