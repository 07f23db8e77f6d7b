(** The interpretation of a request reads nothing but the bytes of its frame. *)
From Verif Require Import Proofs.Lib Proofs.Rtu Model.SlavePDU Spec.Refusal Spec.Buf Proofs.SlaveMain.
Local Open Scope Z_scope.

Definition om {A B} (f : A -> B) (x : outcome A) : outcome B := match x with Ok a => Ok (f a) | UB => UB | Diverge => Diverge end.
Lemma om_bind {A B C} (f : B -> C) (x : outcome A) (k : A -> outcome B) : om f (bind x k) = bind x (fun a => om f (k a)).
Proof. destruct x; reflexivity. Qed.
Lemma bind_om {A B C} (f : A -> B) (x : outcome A) (k : B -> outcome C) : bind (om f x) k = bind x (fun a => k (f a)).
Proof. destruct x; reflexivity. Qed.
Lemma bind_ext {A B} (x : outcome A) (k k' : A -> outcome B) : (forall a, k a = k' a) -> bind x k = bind x k'.
Proof. intros E. destruct x; cbn; auto. Qed.
Lemma bind_ext_ok {A B} (x : outcome A) (k k' : A -> outcome B) : (forall a, x = Ok a -> k a = k' a) -> bind x k = bind x k'.
Proof. intros E. destruct x; cbn; auto. Qed.

(** the same message with another request half *)
Definition wm (q : rr) (m : msg) : msg := set_req m q.
Definition w2 (q : rr) (x : Z * msg) : Z * msg := (fst x, wm q (snd x)).
Definition w3 (q : rr) (x : Z * msg * sdata) : Z * msg * sdata := (fst (fst x), wm q (snd (fst x)), snd x).

Section Agree.
Context (q : rr).
Lemma exc_w m code : set_exception_code_resp (wm q m) code = om (wm q) (set_exception_code_resp m code).
Proof.
  unfold set_exception_code_resp. rewrite !om_bind. apply bind_ext; intros fc. rewrite om_bind. apply bind_ext; intros r1.
  rewrite om_bind. apply bind_ext; intros r2. reflexivity.
Qed.
Lemma upd_w m v k : update_msg_len_and_ret_status (wm q m) v k = w2 q (update_msg_len_and_ret_status m v k).
Proof. unfold update_msg_len_and_ret_status. destruct (negb _); reflexivity. Qed.
Lemma coil_loop_w n tab cells : forall m adr i last,
  read_coil_loop n tab cells (wm q m) adr i last = om (fun e => match e with inl m => inl (wm q m) | inr (m, v) => inr (wm q m, v) end) (read_coil_loop n tab cells m adr i last).
Proof.
  induction n as [|n IH]; intros m adr i last; cbn [read_coil_loop]; [reflexivity|].
  rewrite om_bind. apply bind_ext; intros v. destruct (RET_ERROR =? v).
  - rewrite exc_w, bind_om, om_bind. apply bind_ext; intros m'. reflexivity.
  - rewrite om_bind. apply bind_ext; intros old. rewrite om_bind. apply bind_ext; intros r.
    change (set_resp (wm q m) r) with (wm q (set_resp m r)). apply IH.
Qed.
Lemma din_loop_w n tab cells : forall m adr i last,
  read_din_loop n tab cells (wm q m) adr i last = om (fun e => (wm q (fst e), snd e)) (read_din_loop n tab cells m adr i last).
Proof.
  induction n as [|n IH]; intros m adr i last; cbn [read_din_loop]; [reflexivity|].
  rewrite om_bind. apply bind_ext; intros v. destruct (RET_ERROR =? v).
  - rewrite exc_w, bind_om, om_bind. apply bind_ext; intros m'. reflexivity.
  - rewrite om_bind. apply bind_ext; intros old. rewrite om_bind. apply bind_ext; intros r.
    change (set_resp (wm q m) r) with (wm q (set_resp m r)). apply IH.
Qed.
Lemma reg_loop_w n tab cells : forall m adr i last,
  read_reg_loop n tab cells (wm q m) adr i last = om (fun e => (wm q (fst e), snd e)) (read_reg_loop n tab cells m adr i last).
Proof.
  induction n as [|n IH]; intros m adr i last; cbn [read_reg_loop]; [reflexivity|].
  rewrite om_bind. apply bind_ext; intros v. destruct (RET_ERROR =? v).
  - rewrite exc_w, bind_om, om_bind. apply bind_ext; intros m'. reflexivity.
  - rewrite om_bind. apply bind_ext; intros r.
    change (set_resp (wm q m) r) with (wm q (set_resp m r)). apply IH.
Qed.

(** [q] shows the same first [n] bytes as [r] *)
Definition agree (n : Z) (r : rr) : Prop := forall i, 0 <= i < n -> rd q i = rd r i.
Lemma agree_u16 n r i : agree n r -> 0 <= i -> i + 1 < n -> read_u16_from_buf q i = read_u16_from_buf r i.
Proof. intros A H1 H2. unfold read_u16_from_buf. rewrite (A i), (A (i + 1)) by lia. reflexivity. Qed.

Lemma check_read_w n m mx app : agree n (m_req m) -> 6 <= n ->
  check_read_req_data_correcntess (wm q m) mx app = om (w2 q) (check_read_req_data_correcntess m mx app).
Proof.
  intros A L. unfold check_read_req_data_correcntess. cbn [wm set_req m_req].
  rewrite (agree_u16 n _ MODBUS_REQUEST_ADR_IDX A), (agree_u16 n _ MODBUS_REQUEST_QTY_IDX A) by (unfold MODBUS_REQUEST_ADR_IDX, MODBUS_REQUEST_QTY_IDX; lia).
  rewrite om_bind. apply bind_ext; intros adr. rewrite om_bind. apply bind_ext; intros dq.
  change (mk_msg q (m_resp m)) with (wm q m).
  destruct ((0 =? dq) || (mx <? dq)). { rewrite exc_w, bind_om, om_bind. apply bind_ext; intros m'. reflexivity. }
  destruct (range_exceeded adr dq app). { rewrite exc_w, bind_om, om_bind. apply bind_ext; intros m'. reflexivity. }
  reflexivity.
Qed.
(** what is received stays as it is *)
Lemma exc_req m code m' : set_exception_code_resp m code = Ok m' -> m_req m' = m_req m.
Proof.
  unfold set_exception_code_resp. intros H. apply bind_ok in H as (fc & _ & H). apply bind_ok in H as (r & _ & H). apply bind_ok in H as (r' & _ & H).
  injection H as <-. reflexivity.
Qed.
Lemma check_read_req m mx app st m' : check_read_req_data_correcntess m mx app = Ok (st, m') -> m_req m' = m_req m.
Proof.
  unfold check_read_req_data_correcntess. intros H. apply bind_ok in H as (adr & _ & H). apply bind_ok in H as (dq & _ & H).
  destruct ((0 =? dq) || (mx <? dq)). { apply bind_ok in H as (m1 & E & H). injection H as <- <-. eapply exc_req; eauto. }
  destruct (range_exceeded adr dq app). { apply bind_ok in H as (m1 & E & H). injection H as <- <-. eapply exc_req; eauto. }
  injection H as <- <-. reflexivity.
Qed.
Lemma wr_resp_req m r : m_req (set_resp m r) = m_req m. Proof. reflexivity. Qed.

(** the six functions that read at most six bytes *)
Ltac idx := unfold MODBUS_REQUEST_ADR_IDX, MODBUS_REQUEST_QTY_IDX, MODBUS_RESP_WRITE_SINGLE_DATA_IDX, MODBUS_REQUEST_BYTE_CNT_IDX, MODBUS_FUNCTION_CODE_IDX.
Lemma fetch_w n m i : agree n (m_req m) -> 0 <= i -> i + 1 < n -> read_u16_from_buf (m_req (wm q m)) i = read_u16_from_buf (m_req m) i.
Proof. intros A ? ?. apply (agree_u16 n); auto. Qed.
Lemma read_coils_w c m d n : agree n (m_req m) -> 6 <= n -> modbus_slave_read_coils c (wm q m) d = om (w3 q) (modbus_slave_read_coils c m d).
Proof.
  intros A L. unfold modbus_slave_read_coils. rewrite om_bind. apply bind_ext; intros r.
  change (set_resp (wm q m) r) with (wm q (set_resp m r)). rewrite (check_read_w n) by auto. rewrite bind_om, om_bind.
  apply bind_ext_ok; intros [st m1] E. cbn [w2 fst snd]. apply check_read_req in E. cbn [set_resp m_req] in E.
  destruct (negb (RET_ERROR =? st)); [|reflexivity].
  assert (X : handle_slave_read_coil_service (wm q m1) d = om (w2 q) (handle_slave_read_coil_service m1 d)).
  { assert (A1 : agree n (m_req m1)) by (rewrite E; auto). unfold handle_slave_read_coil_service.
    rewrite !(fetch_w n _ _ A1) by (idx; lia). rewrite om_bind; apply bind_ext; intros adr. rewrite om_bind; apply bind_ext; intros qty.
    cbn zeta. rewrite om_bind; apply bind_ext; intros r1. rewrite om_bind; apply bind_ext; intros r2.
    change (set_resp (wm q m1) r2) with (wm q (set_resp m1 r2)). rewrite coil_loop_w, bind_om, om_bind. apply bind_ext; intros [m2|[m2 v]]; [reflexivity|].
    rewrite upd_w. reflexivity. }
  rewrite X, bind_om, om_bind. apply bind_ext; intros [st2 m2]. reflexivity.
Qed.
Lemma read_din_w c m d n : agree n (m_req m) -> 6 <= n -> modbus_slave_read_discrete_inputs c (wm q m) d = om (w3 q) (modbus_slave_read_discrete_inputs c m d).
Proof.
  intros A L. unfold modbus_slave_read_discrete_inputs. rewrite om_bind. apply bind_ext; intros r.
  change (set_resp (wm q m) r) with (wm q (set_resp m r)). rewrite (check_read_w n) by auto. rewrite bind_om, om_bind.
  apply bind_ext_ok; intros [st m1] E. cbn [w2 fst snd]. apply check_read_req in E. cbn [set_resp m_req] in E.
  destruct (RET_OK =? st); [|reflexivity].
  assert (X : handle_slave_read_discrete_inputs_service (wm q m1) d = om (w2 q) (handle_slave_read_discrete_inputs_service m1 d)).
  { assert (A1 : agree n (m_req m1)) by (rewrite E; auto). unfold handle_slave_read_discrete_inputs_service.
    rewrite !(fetch_w n _ _ A1) by (idx; lia). rewrite om_bind; apply bind_ext; intros adr. rewrite om_bind; apply bind_ext; intros qty.
    cbn zeta. rewrite om_bind; apply bind_ext; intros r1. rewrite om_bind; apply bind_ext; intros r2.
    change (set_resp (wm q m1) r2) with (wm q (set_resp m1 r2)). rewrite din_loop_w, bind_om, om_bind. apply bind_ext; intros [m2 v].
    cbn [fst snd]. rewrite upd_w. reflexivity. }
  rewrite X, bind_om, om_bind. apply bind_ext; intros [st2 m2]. reflexivity.
Qed.
Lemma read_hreg_w c m d n : agree n (m_req m) -> 6 <= n -> modbus_slave_read_holding_reg c (wm q m) d = om (w3 q) (modbus_slave_read_holding_reg c m d).
Proof.
  intros A L. unfold modbus_slave_read_holding_reg. rewrite om_bind. apply bind_ext; intros r.
  change (set_resp (wm q m) r) with (wm q (set_resp m r)). rewrite (check_read_w n) by auto. rewrite bind_om, om_bind.
  apply bind_ext_ok; intros [st m1] E. cbn [w2 fst snd]. apply check_read_req in E. cbn [set_resp m_req] in E.
  destruct (RET_OK =? st); [|reflexivity].
  assert (X : handle_slave_read_holding_reg_service (wm q m1) d = om (w2 q) (handle_slave_read_holding_reg_service m1 d)).
  { assert (A1 : agree n (m_req m1)) by (rewrite E; auto). unfold handle_slave_read_holding_reg_service.
    rewrite !(fetch_w n _ _ A1) by (idx; lia). rewrite om_bind; apply bind_ext; intros adr. rewrite om_bind; apply bind_ext; intros qty.
    cbn zeta. rewrite om_bind; apply bind_ext; intros r1.
    change (set_resp (wm q m1) r1) with (wm q (set_resp m1 r1)). rewrite reg_loop_w, bind_om, om_bind. apply bind_ext; intros [m2 v].
    cbn [fst snd]. rewrite upd_w. reflexivity. }
  rewrite X, bind_om, om_bind. apply bind_ext; intros [st2 m2]. reflexivity.
Qed.
Lemma read_ireg_w c m d n : agree n (m_req m) -> 6 <= n -> modbus_slave_read_input_reg c (wm q m) d = om (w3 q) (modbus_slave_read_input_reg c m d).
Proof.
  intros A L. unfold modbus_slave_read_input_reg. rewrite om_bind. apply bind_ext; intros r.
  change (set_resp (wm q m) r) with (wm q (set_resp m r)). rewrite (check_read_w n) by auto. rewrite bind_om, om_bind.
  apply bind_ext_ok; intros [st m1] E. cbn [w2 fst snd]. apply check_read_req in E. cbn [set_resp m_req] in E.
  destruct (RET_OK =? st); [|reflexivity].
  assert (X : handle_slave_read_input_reg_service (wm q m1) d = om (w2 q) (handle_slave_read_input_reg_service m1 d)).
  { assert (A1 : agree n (m_req m1)) by (rewrite E; auto). unfold handle_slave_read_input_reg_service.
    rewrite !(fetch_w n _ _ A1) by (idx; lia). rewrite om_bind; apply bind_ext; intros adr. rewrite om_bind; apply bind_ext; intros qty.
    cbn zeta. rewrite om_bind; apply bind_ext; intros r1.
    change (set_resp (wm q m1) r1) with (wm q (set_resp m1 r1)). rewrite reg_loop_w, bind_om, om_bind. apply bind_ext; intros [m2 v].
    cbn [fst snd]. rewrite upd_w. reflexivity. }
  rewrite X, bind_om, om_bind. apply bind_ext; intros [st2 m2]. reflexivity.
Qed.
Lemma write_coil_w c m d n : agree n (m_req m) -> 6 <= n -> modbus_slave_write_single_coil c (wm q m) d = om (w3 q) (modbus_slave_write_single_coil c m d).
Proof.
  intros A L. unfold modbus_slave_write_single_coil. rewrite !(fetch_w n _ _ A) by (idx; lia).
  rewrite om_bind; apply bind_ext; intros adr. rewrite om_bind; apply bind_ext; intros v. rewrite om_bind; apply bind_ext; intros r.
  change (set_resp (wm q m) r) with (wm q (set_resp m r)). generalize (set_resp m r). intros m1.
  assert (X : check_write_single_coil_req_data_correctness c (wm q m1) adr v = om (w2 q) (check_write_single_coil_req_data_correctness c m1 adr v)).
  { unfold check_write_single_coil_req_data_correctness. destruct (_ && _).
    { rewrite exc_w, bind_om, om_bind. apply bind_ext; intros m'. reflexivity. }
    destruct (_ <=? _). { rewrite exc_w, bind_om, om_bind. apply bind_ext; intros m'. reflexivity. } reflexivity. }
  rewrite X, bind_om, om_bind. apply bind_ext; intros [st m2]. cbn [w2 fst snd]. destruct (st =? RET_OK); [|reflexivity].
  unfold handle_slave_write_single_coil_service. rewrite om_bind; apply bind_ext; intros [st2 cells]. destruct (RET_OK =? st2).
  - rewrite om_bind; apply bind_ext; intros r1. rewrite om_bind; apply bind_ext; intros r2. reflexivity.
  - rewrite exc_w, bind_om, om_bind. apply bind_ext; intros m'. reflexivity.
Qed.
Lemma write_reg_w c m d n : agree n (m_req m) -> 6 <= n -> modbus_slave_write_single_reg c (wm q m) d = om (w3 q) (modbus_slave_write_single_reg c m d).
Proof.
  intros A L. unfold modbus_slave_write_single_reg. rewrite !(fetch_w n _ _ A) by (idx; lia).
  rewrite om_bind; apply bind_ext; intros adr. rewrite om_bind; apply bind_ext; intros r. cbn zeta.
  change (set_resp (wm q m) r) with (wm q (set_resp m r)). assert (A1 : agree n (m_req (set_resp m r))) by exact A. revert A1. generalize (set_resp m r). intros m1 A1.
  destruct (_ <=? _). { rewrite exc_w, bind_om, om_bind. apply bind_ext; intros m'. reflexivity. }
  unfold handle_slave_write_single_reg_service. rewrite !(fetch_w n _ _ A1) by (idx; lia).
  rewrite om_bind; apply bind_ext; intros a1. rewrite om_bind; apply bind_ext; intros v. rewrite om_bind; apply bind_ext; intros [st2 cells]. destruct (RET_OK =? st2).
  - rewrite om_bind; apply bind_ext; intros r1. rewrite om_bind; apply bind_ext; intros r2. reflexivity.
  - rewrite exc_w, bind_om, om_bind. apply bind_ext; intros m'. reflexivity.
Qed.

(** the two multiple writes: seven bytes and the data *)
Lemma coil_vals_w n req base : agree n req -> 0 <= base -> forall k start i tab cells last, 0 <= i -> base * 8 + i + Z.of_nat k <= n * 8 ->
  set_coil_din_value_loop k q base start i tab cells last = set_coil_din_value_loop k req base start i tab cells last.
Proof.
  intros A B. induction k as [|k IH]; intros start i tab cells last Hi L; cbn [set_coil_din_value_loop]; [reflexivity|].
  rewrite (A (base + i / 8)) by lia. apply bind_ext; intros b. apply bind_ext; intros [st cs]. destruct (st =? RET_ERROR); [reflexivity|].
  apply IH; lia.
Qed.
Lemma reg_vals_w n req : agree n req -> forall k adr i tab cells last, 0 <= i -> 7 + 2 * (i + Z.of_nat k) <= n ->
  write_multi_reg_loop k q adr i tab cells last = write_multi_reg_loop k req adr i tab cells last.
Proof.
  intros A. induction k as [|k IH]; intros adr i tab cells last Hi L; cbn [write_multi_reg_loop]; [reflexivity|].
  rewrite (agree_u16 n req) by (auto; unfold MODBUS_REQUEST_WRITE_MULTI_DATA_IDX; lia). apply bind_ext; intros b. apply bind_ext; intros [st cs].
  destruct (RET_ERROR =? st); [reflexivity|]. apply IH; lia.
Qed.
Lemma count_w n m : agree n (m_req m) -> 7 <= n ->
  check_write_req_byte_count_correctenss (wm q m) = om (w2 q) (check_write_req_byte_count_correctenss m) /\
  check_write_req_reg_byte_count_correctenss (wm q m) = om (w2 q) (check_write_req_reg_byte_count_correctenss m).
Proof.
  intros A L. unfold check_write_req_byte_count_correctenss, check_write_req_reg_byte_count_correctenss.
  rewrite !(fetch_w n _ _ A) by (idx; lia). assert (A6 : rd (m_req (wm q m)) MODBUS_REQUEST_BYTE_CNT_IDX = rd (m_req m) MODBUS_REQUEST_BYTE_CNT_IDX) by (apply A; idx; lia).
  rewrite A6. split; rewrite om_bind; apply bind_ext; intros bc; rewrite om_bind; apply bind_ext; intros qty.
  - destruct (bc =? _); [reflexivity|]. rewrite exc_w, bind_om, om_bind. apply bind_ext; intros m'. reflexivity.
  - destruct (bc =? _); [reflexivity|]. rewrite exc_w, bind_om, om_bind. apply bind_ext; intros m'. reflexivity.
Qed.
Lemma check_write_w n m mx app : agree n (m_req m) -> 7 <= n ->
  check_write_req_data_correctness (wm q m) mx app = om (w2 q) (check_write_req_data_correctness m mx app).
Proof.
  intros A L. unfold check_write_req_data_correctness.
  assert (A1 : rd (m_req (wm q m)) MODBUS_FUNCTION_CODE_IDX = rd (m_req m) MODBUS_FUNCTION_CODE_IDX) by (apply A; idx; lia). rewrite A1.
  rewrite om_bind; apply bind_ext; intros fc. rewrite (check_read_w n) by (auto; lia). rewrite bind_om, om_bind.
  apply bind_ext_ok; intros [st m1] E. cbn [w2 fst snd]. apply check_read_req in E.
  destruct (RET_OK =? st); [|reflexivity]. destruct (count_w n m1) as [-> ->]; [rewrite E; auto|lia|]. destruct (FC_WRITE_MULTIPLE_COILS =? fc); reflexivity.
Qed.
(** a passed check means that quantity and byte count agree *)
Lemma check_write_pass m mx app m' fc qty bc : check_write_req_data_correctness m mx app = Ok (RET_OK, m') -> mx <= 2000 ->
  rd (m_req m) 1 = Ok fc -> read_u16_from_buf (m_req m) 4 = Ok qty -> rd (m_req m) 6 = Ok bc ->
  m_req m' = m_req m /\ 0 < qty <= mx /\ (if fc =? 15 then bc = get_coil_din_byte_count qty else bc = qty * 2).
Proof.
  intros H Hx Ef Eq Eb. unfold check_write_req_data_correctness in H. revert H. idx. rewrite Ef. cbn [bind]. intros H.
  apply bind_ok in H as ([st m1] & E & H). assert (E0 := E). apply check_read_req in E.
  destruct (RET_OK =? st) eqn:Est; [|injection H as -> _; discriminate].
  assert (Q : 0 < qty <= mx).
  { unfold check_read_req_data_correcntess in E0. revert E0. idx. rewrite Eq. intros E0. apply bind_ok in E0 as (adr & _ & E0). cbn [bind] in E0.
    destruct ((0 =? qty) || (mx <? qty)) eqn:X. { apply bind_ok in E0 as (m2 & _ & E0). injection E0 as <- _. discriminate. }
    assert (0 <= qty). { unfold read_u16_from_buf in Eq. apply bind_ok in Eq as (x & _ & Eq). apply bind_ok in Eq as (y & _ & Eq). injection Eq as <-. unfold u16. lia. }
    lia. }
  rewrite Z.eqb_sym. change FC_WRITE_MULTIPLE_COILS with 15 in H.
  destruct (15 =? fc).
  - unfold check_write_req_byte_count_correctenss in H. revert H. idx. rewrite E, Eb, Eq. cbn [bind]. destruct (bc =? get_coil_din_byte_count qty) eqn:X; intros H.
    + injection H as <-. repeat split; auto; lia.
    + apply bind_ok in H as (m2 & _ & H). discriminate.
  - unfold check_write_req_reg_byte_count_correctenss in H. revert H. idx. rewrite E, Eb, Eq. cbn [bind]. destruct (bc =? qty * 2) eqn:X; intros H.
    + injection H as <-. repeat split; auto; lia.
    + apply bind_ok in H as (m2 & _ & H). discriminate.
Qed.
Lemma write_coils_w c m d n bc : agree n (m_req m) -> 7 <= n -> rd (m_req m) 1 = Ok 15 -> rd (m_req m) 6 = Ok bc -> 7 + bc <= n ->
  modbus_slave_write_multiple_coils c (wm q m) d = om (w3 q) (modbus_slave_write_multiple_coils c m d).
Proof.
  intros A L E1 E6 Lb. unfold modbus_slave_write_multiple_coils. rewrite om_bind; apply bind_ext; intros r.
  change (set_resp (wm q m) r) with (wm q (set_resp m r)). rewrite (check_write_w n) by auto. rewrite bind_om, om_bind. apply bind_ext_ok; intros [st m1] E. cbn [w2 fst snd].
  destruct (RET_OK =? st) eqn:Est; [|reflexivity]. assert (st = RET_OK) as -> by lia.
  destruct (read_u16_from_buf (m_req m) 4) as [qty| |] eqn:Eq.
  2,3: exfalso; unfold check_write_req_data_correctness in E; apply bind_ok in E as (x & _ & E); apply bind_ok in E as ([y z] & E & _); unfold check_read_req_data_correcntess in E; apply bind_ok in E as (u & _ & E); revert E; idx; cbn [m_req set_resp]; rewrite Eq; discriminate.
  destruct (check_write_pass (set_resp m r) _ _ m1 15 qty bc E) as (E2 & Q & B); auto. { unfold MODBUS_MAX_WRITE_COILS_QTY. lia. }
  cbn [set_resp m_req] in E2. cbn in B. assert (A1 : agree n (m_req m1)) by (rewrite E2; auto). rewrite !(fetch_w n _ _ A1) by (idx; lia).
  rewrite om_bind; apply bind_ext; intros adr. idx. rewrite E2, Eq. cbn [bind].
  assert (G : get_coil_din_byte_count qty = (qty + 7) / 8).
  { unfold get_coil_din_byte_count, u8, MODBUS_MAX_WRITE_COILS_QTY in *. cbn zeta. destruct (qty mod 8 =? 0) eqn:X; rewrite ?(Z.mod_small (qty / 8)) by lia; rewrite ?Z.mod_small by lia; lia. }
  change (m_req (wm q m1)) with q. rewrite <- E2. rewrite (coil_vals_w n (m_req m1)) by (auto; unfold MODBUS_REQUEST_WRITE_MULTI_DATA_IDX; lia).
  rewrite om_bind; apply bind_ext; intros [st2 cells]. destruct (RET_OK =? st2).
  - rewrite om_bind; apply bind_ext; intros r1. rewrite om_bind; apply bind_ext; intros r2. reflexivity.
  - rewrite exc_w, bind_om, om_bind. apply bind_ext; intros m'. reflexivity.
Qed.
Lemma write_regs_w c m d n bc : agree n (m_req m) -> 7 <= n -> rd (m_req m) 1 = Ok 16 -> rd (m_req m) 6 = Ok bc -> 7 + bc <= n ->
  modbus_slave_write_multiple_reg c (wm q m) d = om (w3 q) (modbus_slave_write_multiple_reg c m d).
Proof.
  intros A L E1 E6 Lb. unfold modbus_slave_write_multiple_reg. rewrite om_bind; apply bind_ext; intros r.
  change (set_resp (wm q m) r) with (wm q (set_resp m r)). rewrite (check_write_w n) by auto. rewrite bind_om, om_bind. apply bind_ext_ok; intros [st m1] E. cbn [w2 fst snd].
  destruct (RET_OK =? st) eqn:Est; [|reflexivity]. assert (st = RET_OK) as -> by lia.
  destruct (read_u16_from_buf (m_req m) 4) as [qty| |] eqn:Eq.
  2,3: exfalso; unfold check_write_req_data_correctness in E; apply bind_ok in E as (x & _ & E); apply bind_ok in E as ([y z] & E & _); unfold check_read_req_data_correcntess in E; apply bind_ok in E as (u & _ & E); revert E; idx; cbn [m_req set_resp]; rewrite Eq; discriminate.
  destruct (check_write_pass (set_resp m r) _ _ m1 16 qty bc E) as (E2 & Q & B); auto. { unfold MODBUS_MAX_WRITE_REG_QTY. lia. }
  cbn [set_resp m_req] in E2. cbn in B. assert (A1 : agree n (m_req m1)) by (rewrite E2; auto).
  unfold handle_slave_write_multiple_reg_service. rewrite !(fetch_w n _ _ A1) by (idx; lia).
  rewrite om_bind; apply bind_ext; intros adr. idx. rewrite E2, Eq. cbn [bind].
  change (m_req (wm q m1)) with q. rewrite <- E2. rewrite (reg_vals_w n (m_req m1)) by (auto; lia).
  rewrite om_bind; apply bind_ext; intros [st2 cells]. destruct (RET_OK =? st2).
  - rewrite om_bind; apply bind_ext; intros r1. rewrite om_bind; apply bind_ext; intros r2. reflexivity.
  - rewrite exc_w, bind_om, om_bind. apply bind_ext; intros m'. reflexivity.
Qed.

Theorem parse_w c m d n : rr_ptr q = true -> rr_ptr (m_req m) = true -> agree n (m_req m) -> 6 <= n ->
  (forall fc, rd (m_req m) 1 = Ok fc -> fc = 15 \/ fc = 16 -> exists bc, rd (m_req m) 6 = Ok bc /\ 0 <= bc /\ 7 + bc <= n) ->
  parse_master_request_and_prepare_resp c (wm q m) d = om (w3 q) (parse_master_request_and_prepare_resp c m d).
Proof.
  intros Pq Pm A L M. unfold parse_master_request_and_prepare_resp. cbn [wm set_req m_req m_resp]. rewrite Pq, Pm. cbn [negb orb].
  destruct (negb (rr_ptr (m_resp m))). { reflexivity. }
  assert (A1 : rd q MODBUS_FUNCTION_CODE_IDX = rd (m_req m) MODBUS_FUNCTION_CODE_IDX) by (apply A; idx; lia). rewrite A1.
  rewrite om_bind; apply bind_ext_ok; intros fc Ef. change (mk_msg q (m_resp m)) with (wm q m).
  unfold modbus_slave_function_mapper. cbn [find_handler].
  destruct (fc =? FC_READ_COILS). { apply (read_coils_w c m d n); auto. }
  destruct (fc =? FC_READ_DISCRETE_INPUTS). { apply (read_din_w c m d n); auto. }
  destruct (fc =? FC_READ_HOLDING_REGISTERS). { apply (read_hreg_w c m d n); auto. }
  destruct (fc =? FC_READ_INPUT_REGISTERS). { apply (read_ireg_w c m d n); auto. }
  destruct (fc =? FC_WRITE_SINGLE_COIL). { apply (write_coil_w c m d n); auto. }
  destruct (fc =? FC_WRITE_SINGLE_REGISTER). { apply (write_reg_w c m d n); auto. }
  destruct (fc =? FC_WRITE_MULTIPLE_COILS) eqn:X15.
  { assert (fc = 15) as -> by (unfold FC_WRITE_MULTIPLE_COILS in *; lia). destruct (M 15 Ef) as (bc & E6 & B0 & B); auto.
    apply (write_coils_w c m d n bc); auto; lia. }
  destruct (fc =? FC_WRITE_MULTIPLE_REGISTER) eqn:X16.
  { assert (fc = 16) as -> by (unfold FC_WRITE_MULTIPLE_REGISTER in *; lia). destruct (M 16 Ef) as (bc & E6 & B0 & B); auto.
    apply (write_regs_w c m d n bc); auto; lia. }
  change (set_resp (wm q m)) with (fun r => wm q (set_resp m r)). cbn [wm set_req m_resp]. rewrite om_bind; apply bind_ext; intros r.
  rewrite exc_w, bind_om, om_bind. apply bind_ext; intros m'. reflexivity.
Qed.
End Agree.
