(** Invariants of the slave under every schedule. *)
From Verif Require Export Proofs.SlaveMain Proofs.FrameMain Spec.SlaveTrace.

Lemma send_any r id : rr_ok r -> byte id -> exists st r', modbus_RTU_send r id = Ok (st, r') /\ rr_ok r'.
Proof.
  intros R Hid. destruct (Z_le_gt_dec (rr_len r) 253) as [H|H].
  2:{ exists RET_ERROR, r. split; auto. apply send_too_long. lia. }
  destruct (Z.eq_dec (rr_len r) 0) as [Z0|N0].
  - destruct R as (P & L & B & Hl). unfold modbus_RTU_send. rewrite P, Z0. change (0 <=? MODBUS_PDU_MAX_LEN) with true. cbn [andb].
    change MODBUS_SLAVE_ADR_IDX with 0. rewrite wr_ok by (auto; lia). cbn [bind rr_buf rr_len]. rewrite Z0.
    change (calculate_CRC _ 0) with (@Ok Z 65535). cbn [bind].
    rewrite wr_ok by (cbn [rr_ptr rr_buf]; auto; rewrite upd_length; lia). cbn [bind rr_buf rr_len].
    rewrite wr_ok by (cbn [rr_ptr rr_buf]; auto; rewrite !upd_length; lia). cbn [bind rr_buf rr_len].
    do 2 eexists. split; [reflexivity|]. unfold rr_ok, set_len. cbn [rr_ptr rr_buf rr_len]. rewrite !upd_length.
    split; auto. split; auto. split; [|unfold byte, u8; lia].
    repeat apply Forall_upd; auto; unfold byte, u8; cbn; lia.
  - destruct (c02 r id R ltac:(destruct R as (_ & _ & _ & X); unfold byte in X; lia) Hid) as (r' & E & R' & _). eauto.
Qed.

(** one received byte *)
Lemma rx_byte r b : rr_ok r -> exists r', wr r (rr_len r) (u8 b) = Ok r' /\ rr_ok (set_len r' (u8 (rr_len r' + 1))) /\
  rr_len r' = rr_len r /\ rr_buf r' = upd (rr_buf r) (Z.to_nat (rr_len r)) (u8 b).
Proof.
  intros (P & L & B & Hl). rewrite wr_ok by (auto; unfold byte in Hl; lia). eexists. split; [reflexivity|].
  unfold rr_ok, set_len. cbn [rr_ptr rr_buf rr_len]. rewrite upd_length. repeat split; auto; try (unfold u8; lia).
  apply Forall_upd; auto. unfold byte, u8; lia.
Qed.

Lemma set_len_ok r n : rr_ok r -> byte n -> rr_ok (set_len r n).
Proof. intros (P & L & B & Hl) H. unfold rr_ok, set_len. cbn. auto. Qed.

Lemma words_dec l : forallb (fun v => (0 <=? v) && (v <? 65536)) l = true -> Forall word l.
Proof. intros H. rewrite forallb_forall in H. apply Forall_forall. intros x Hx. specialize (H x Hx). unfold word. lia. Qed.

Lemma ready_upd c s : slave_ready c s -> forall st t15 t35 fe tx, slave_ready c
  (mk_slave (s_id s) st (s_drv s) (s_mptr s) (s_msg s) t15 t35 fe tx (s_data s) (s_sub s) (s_rx s)).
Proof. intros (H1 & H2 & H3 & H4 & H5 & H6 & H7) *. unfold slave_ready. cbn. auto 10. Qed.

Lemma event_ready c e s : slave_ready c s -> exists s', s_event e s = Ok s' /\ slave_ready c s' /\ s_id s' = s_id s.
Proof.
  intros H. destruct e as [| | | |b|bits regs]; cbn [s_event].
  1-4: eexists; split; [reflexivity|]; destruct (s_sub s); auto; split; auto; apply (ready_upd c s H).
  - destruct H as (H1 & H2 & H3 & H4 & H5 & [H6 H6'] & H7). rewrite H4.
    destruct (rx_byte (m_req (s_msg s)) b H6) as (r' & E & R & _). rewrite E. cbn [bind]. eexists. split; [reflexivity|].
    split; auto. unfold slave_ready, msg_ok. cbn. auto 10.
  - eexists. split; [reflexivity|].
    destruct (Nat.eqb (length bits) (length (v_bits (s_data s)))) eqn:E1; cbn [andb]; auto.
    destruct (Nat.eqb (length regs) (length (v_regs (s_data s)))) eqn:E2; cbn [andb]; auto.
    destruct (forallb _ regs) eqn:E3; auto. split; auto. destruct H as (H1 & H2 & H3 & H4 & H5 & H6 & H7).
    unfold slave_ready. cbn [s_drv s_mptr s_sub s_rx s_id s_msg s_data s_set_data].
    apply Nat.eqb_eq in E1, E2. apply words_dec in E3.
    assert (D := set_regs_ok c _ regs (set_bits_ok c _ bits H7 E1) E2 E3). auto 10.
Qed.

Lemma line_ready c l s : cfg_tables_ok c -> slave_ready c s ->
  exists l' s' o, s_line c l s = Ok (l', s', o) /\ slave_ready c s' /\ s_id s' = s_id s.
Proof.
  intros Hc H. assert (U := ready_upd c s H). destruct H as (H1 & H2 & H3 & H4 & H5 & [H6 H6'] & H7).
  assert (R : slave_ready c s) by (repeat (split; auto)).
  destruct l; cbn [s_line]; rewrite ?H1, ?H2; cbn [andb];
  repeat match goal with |- context [if ?b then _ else _] => destruct b end;
  try (do 3 eexists; split; [reflexivity|]; split; [first [exact R|apply U]|reflexivity]).
  all: try (do 3 eexists; split; [reflexivity|]; split; [|reflexivity]; unfold slave_ready, msg_ok; cbn; repeat (split; auto); apply set_len_ok; auto; unfold byte; lia).
  - rewrite recv_ok by auto. cbn [bind]. do 3 eexists. split; [reflexivity|]. auto.
  - destruct (c36 c (s_data s) (s_msg s) Hc H7 (conj H6 H6')) as (st & m' & d' & E & D & Q & P). rewrite E. cbn [bind].
    do 3 eexists. split; [reflexivity|]. split; [|reflexivity]. unfold slave_ready, msg_ok. cbn. rewrite Q. auto 10.
  - destruct (send_any (m_resp (s_msg s)) (s_id s) H6' H5) as (st & r' & E & P). rewrite E. cbn [bind].
    do 3 eexists. split; [reflexivity|]. split; [|reflexivity]. unfold slave_ready, msg_ok. cbn. auto 10.
Qed.

Lemma act_ready c a k : cfg_tables_ok c -> slave_ready c (sc_s k) ->
  exists k' o, s_act c a k = Ok (k', o) /\ slave_ready c (sc_s k') /\ s_id (sc_s k') = s_id (sc_s k).
Proof.
  intros Hc H. destruct a as [|e]; cbn [s_act].
  - destruct (sc_pc k) as [l|]; [|do 2 eexists; split; [reflexivity|]; auto].
    destruct (line_ready c l _ Hc H) as (l' & s' & o & E & R & I). rewrite E. cbn [bind]. do 2 eexists. split; [reflexivity|]. auto.
  - destruct (event_ready c e _ H) as (s' & E & R & I). rewrite E. cbn [bind]. do 2 eexists. split; [reflexivity|]. auto.
Qed.

(** no schedule leads to undefined behaviour *)
Lemma run_ready c sched : cfg_tables_ok c -> forall k, slave_ready c (sc_s k) ->
  exists k' t, s_run c sched k = Ok (k', t) /\ slave_ready c (sc_s k') /\ s_id (sc_s k') = s_id (sc_s k).
Proof.
  intros Hc. induction sched as [|a sched IH]; intros k H; cbn [s_run].
  - do 2 eexists. split; [reflexivity|]. auto.
  - destruct (act_ready c a k Hc H) as (k1 & o & E & R & I). rewrite E. cbn [bind].
    destruct (IH k1 R) as (k2 & t & E2 & R2 & I2). rewrite E2. cbn [bind]. do 2 eexists. split; [reflexivity|]. split; auto. congruence.
Qed.

(** generic induction over schedules; traces grow at the end *)
Lemma run_inv c (I : list sitem -> sconf -> Prop) :
  (forall t k a k' o, I t k -> s_act c a k = Ok (k', o) -> I (t ++ o) k') ->
  forall sched t k k' o, I t k -> s_run c sched k = Ok (k', o) -> I (t ++ o) k'.
Proof.
  intros Hs. induction sched as [|a sched IH]; intros t k k' o H E; cbn [s_run] in E.
  - inversion E; subst. now rewrite app_nil_r.
  - destruct (s_act c a k) as [[k1 o1]| |] eqn:E1; try discriminate. cbn [bind] in E.
    destruct (s_run c sched k1) as [[k2 o2]| |] eqn:E2; try discriminate. cbn [bind] in E. inversion E; subst.
    rewrite app_assoc. eapply IH; eauto.
Qed.

(** snoc rules for the vocabulary *)
Definition rx_f (acc : list Z) (x : sitem) := match x with TEv (SRx b) => acc ++ [u8 b] | TOut SoClear => [] | _ => acc end.
Lemma received_snoc t x : received (t ++ [x]) = rx_f (received t) x.
Proof. unfold received. rewrite fold_left_app. reflexivity. Qed.
Lemma fep_snoc t x : frame_err_pending (t ++ [x]) = match x with TEv SFrameErr => true | TOut SoDiscard => false | _ => frame_err_pending t end.
Proof. unfold frame_err_pending. rewrite fold_left_app. reflexivity. Qed.
Lemma checked_snoc t x : checked (t ++ [x]) = match x with TOut (SoCheck g) => Some g | TOut (SoSend _) | TOut SoDiscard => None | _ => checked t end.
Proof. unfold checked. rewrite fold_left_app. reflexivity. Qed.
Lemma t35_snoc t x : t35_seen (t ++ [x]) = match x with TEv ST35 => true | TOut (SoSend _) | TOut SoDiscard => false | _ => t35_seen t end.
Proof. unfold t35_seen. rewrite fold_left_app. reflexivity. Qed.
Lemma tx_snoc t x : transmitting (t ++ [x]) = match x with TOut (SoSend _) => true | TEv STxDone => false | _ => transmitting t end.
Proof. unfold transmitting. rewrite fold_left_app. reflexivity. Qed.
Definition sc_f (acc : bool * bool) (x : sitem) := match x with
    | TEv SFrameErr => (true, snd acc)
    | TOut SoDiscard => (false, false)
    | TOut (SoCheck _) | TOut (SoSend _) => (fst acc, false)
    | TOut SoNoFrameErr => (fst acc, negb (fst acc))
    | _ => acc end.
Lemma sc_pend t : fst (fold_left sc_f t (false, false)) = frame_err_pending t.
Proof.
  induction t as [|x t IH] using rev_ind; [reflexivity|]. rewrite fold_left_app, fep_snoc. cbn [fold_left]. rewrite <- IH.
  destruct x as [[]|[]]; reflexivity.
Qed.
Lemma started_snoc t x : started_clean (t ++ [x]) = match x with
  | TOut SoDiscard | TOut (SoCheck _) | TOut (SoSend _) => false
  | TOut SoNoFrameErr => negb (frame_err_pending t)
  | _ => started_clean t end.
Proof.
  unfold started_clean. change (fold_left _ ?l (false, false)) with (fold_left sc_f l (false, false)).
  rewrite fold_left_app. cbn [fold_left]. rewrite <- sc_pend. destruct x as [[]|[]]; reflexivity.
Qed.
Lemma count_snoc {A} (p : A -> bool) t x : count p (t ++ [x]) = (count p t + if p x then 1 else 0)%nat.
Proof. unfold count. rewrite filter_app, app_length. cbn. destruct (p x); reflexivity. Qed.

(** where the program is: the next line, or the line the switch will select *)
Definition loc (k : sconf) : spc := match sc_pc k with Some l => l | None => s_dispatch (sc_s k) end.
(** the state variable belonging to each line *)
Definition st_of (l : spc) : sstate :=
  match l with
  | L164 | L167 | L168 | L169 _ | L171 | L173 | L190 | L191 | L219 | L220 => S_IDLE
  | L186 | L186b | L188 | L189 | L193 | L193b | L195 | L196 | L197 | L198 | L199 => S_MSG_RECIVED
  | L200 | L216 | L218 => S_TRANSMITTING_RESP
  | L232 | L233 | L234 | L235 | L236 | L237 | L238 => S_UNKNOWN
  end.
Definition set_or_clr (f : flag) : Prop := f = SET \/ f = CLEARED.
Record base (l : spc) (s : slave) : Prop := {
  b_st : s_st s = st_of l;
  b_un : st_of l <> S_UNKNOWN;
  b_drv : s_drv s = true; b_mptr : s_mptr s = true; b_sub : s_sub s = true; b_rx : s_rx s = true;
  b_15 : set_or_clr (s_t15 s); b_35 : set_or_clr (s_t35 s);
  b_fe : set_or_clr (s_fe s); b_tx : set_or_clr (s_tx s) }.
Definition next (l : option spc) (s : slave) : spc := match l with Some l => l | None => s_dispatch s end.

Lemma event_st e s s' : s_event e s = Ok s' -> s_st s' = s_st s.
Proof.
  destruct e; cbn [s_event]; intros E; try (inversion E; destruct (s_sub s); reflexivity).
  - destruct (s_rx s); [|inversion E; auto]. destruct (wr _ _ _) as [r| |]; try discriminate. inversion E. reflexivity.
  - inversion E. destruct (_ && _ && _); reflexivity.
Qed.

Lemma abs_inv c (I : list sitem -> spc -> slave -> Prop) :
  (forall t l s l' s' o, I t l s -> s_line c l s = Ok (l', s', o) -> I (t ++ map TOut o) (next l' s') s') ->
  (forall t l s e s', I t l s -> s_event e s = Ok s' -> I (t ++ [TEv e]) l s') ->
  forall sched t k k' o, I t (loc k) (sc_s k) -> s_run c sched k = Ok (k', o) -> I (t ++ o) (loc k') (sc_s k').
Proof.
  intros Hl He sched t k k' o H E. refine (run_inv c (fun t k => I t (loc k) (sc_s k)) _ sched t k k' o H E).
  clear - Hl He. intros t k a k' o H E. destruct a as [|e]; cbn [s_act] in E.
  - destruct (sc_pc k) as [l|] eqn:P.
    + destruct (s_line c l (sc_s k)) as [[[l' s'] o']| |] eqn:EL; try discriminate. cbn [bind] in E. inversion E; subst.
      unfold loc in H. rewrite P in H. exact (Hl _ _ _ _ _ _ H EL).
    + inversion E; subst. rewrite app_nil_r. unfold loc in *. rewrite P in H. exact H.
  - destruct (s_event e (sc_s k)) as [s'| |] eqn:EE; try discriminate. cbn [bind] in E. inversion E; subst.
    assert (X := event_st _ _ _ EE). specialize (He _ _ _ _ _ H EE). unfold loc in *. cbn [sc_s sc_pc]. destruct (sc_pc k); auto.
    unfold s_dispatch in *. rewrite X. exact He.
Qed.

Ltac ifs E := repeat match type of E with context [if ?b then _ else _] => let X := fresh "X" in destruct b eqn:X end.
Ltac line_inv E :=
  cbn [s_line] in E; ifs E; try discriminate E;
  repeat match type of E with
  | bind ?x _ = _ => let Y := fresh "Y" in destruct x as [[[? ?] ?]| |] eqn:Y; try discriminate E; cbn [bind] in E
  | bind ?x _ = _ => let Y := fresh "Y" in destruct x as [[? ?]| |] eqn:Y; try discriminate E; cbn [bind] in E
  | bind ?x _ = _ => let Y := fresh "Y" in destruct x as [?| |] eqn:Y; try discriminate E; cbn [bind] in E
  end; ifs E; try discriminate E; inversion E; subst; clear E.
Ltac ev_inv E :=
  cbn [s_event] in E; ifs E; try discriminate E;
  repeat match type of E with
  | bind ?x _ = _ => let Y := fresh "Y" in destruct x as [?| |] eqn:Y; try discriminate E; cbn [bind] in E
  end; inversion E; subst; clear E.

Lemma base_line c l s l' s' o : base l s -> s_line c l s = Ok (l', s', o) -> base (next l' s') s'.
Proof.
  intros [B1 B2 B3 B4 B5 B6 B7 B8 B9 B10] E.
  destruct l; line_inv E; cbn [st_of] in *; try congruence; constructor;
    cbn [next s_dispatch s_set_st s_set_t15 s_set_t35 s_set_fe s_set_tx s_set_msg s_set_data s_st s_t15 s_t35 s_fe s_tx s_drv s_mptr s_sub s_rx st_of] in *;
    unfold s_dispatch; cbn [s_st s_set_t35 s_set_msg]; try rewrite B1; cbn [st_of]; auto; try discriminate; try (left; reflexivity); try (right; reflexivity).
Qed.
Lemma base_event l s e s' : base l s -> s_event e s = Ok s' -> base l s'.
Proof.
  intros [B1 B2 B3 B4 B5 B6 B7 B8 B9 B10] E.
  destruct e; ev_inv E; try congruence; constructor;
    cbn [s_set_st s_set_t15 s_set_t35 s_set_fe s_set_tx s_set_msg s_set_data s_st s_t15 s_t35 s_fe s_tx s_drv s_mptr s_sub s_rx] in *;
    auto; try (left; reflexivity); try (right; reflexivity).
Qed.

Definition t35_done (l : spc) : bool := match l with L191 | L198 | L199 | L200 => true | _ => false end.
Definition chk_ok (id : Z) (t : list sitem) (l : spc) (s : slave) : Prop :=
  match l with
  | L169 st => exists g, checked t = Some g /\ (st = RET_OK -> intact id g)
  | L171 => exists g, checked t = Some g
  | L173 | L186 | L186b | L193 => exists g, checked t = Some g /\ (intact id g \/ s_fe s = SET)
  | L193b => (exists g, checked t = Some g /\ intact id g) /\ started_clean t = true
  | L195 | L196 | L197 => may_act id t
  | _ => True
  end.
Definition tx_ok (t : list sitem) (l : spc) (s : slave) : Prop :=
  match l with
  | L198 => True
  | L199 | L200 | L216 => s_tx s = CLEARED -> transmitting t = false
  | _ => transmitting t = false
  end.
Definition fl (f : flag) : nat := match f with SET => 1 | _ => 0 end.
Definition in15 (l : spc) : nat :=
  match l with L168 | L169 _ | L171 | L173 | L186 | L186b | L188 | L189 | L193 | L193b | L195 | L196 | L197 => 1 | _ => 0 end.
Definition cnt_ok (t : list sitem) (l : spc) (s : slave) : Prop :=
  (count is_send t + fl (s_t15 s) + in15 l <= count is_t15 t)%nat /\
  (count is_send t + (match l with L198 | L199 | L200 => 0 | _ => fl (s_t35 s) end) <= count is_t35 t)%nat /\
  (l = L167 -> s_t15 s = SET) /\ (l = L195 \/ l = L196 \/ l = L197 -> s_t35 s = SET).
(** every execution of a request and every transmission was permitted by the history *)
Definition acts_justified (id : Z) (t : list sitem) : Prop :=
  forall t1 o t2, t = t1 ++ TOut o :: t2 -> (o = SoExec \/ exists f, o = SoSend f) ->
  may_act id t1 /\ (forall f, o = SoSend f -> transmitting t1 = false).
Record sinv (c : cfg) (id : Z) (t : list sitem) (l : spc) (s : slave) : Prop := {
  i_base : base l s; i_id : s_id s = id; i_ready : slave_ready c s;
  i_fe : frame_err_pending t = true -> s_fe s = SET;
  i_35 : s_t35 s = SET -> t35_seen t = true \/ t35_done l = true;
  i_chk : chk_ok id t l s; i_tx : tx_ok t l s; i_cnt : cnt_ok t l s; i_good : acts_justified id t }.

Lemma is_set_iff f : is_set f = true <-> f = SET.
Proof. destruct f; cbn; split; congruence. Qed.
Lemma is_clr_iff f : is_clr f = true <-> f = CLEARED.
Proof. destruct f; cbn; split; congruence. Qed.
Lemma justified_snoc id t x : acts_justified id t ->
  (forall o, x = TOut o -> (o = SoExec \/ exists f, o = SoSend f) -> may_act id t /\ (forall f, o = SoSend f -> transmitting t = false)) ->
  acts_justified id (t ++ [x]).
Proof.
  intros G H t1 o t2 E Ho. destruct t2 as [|y t2] using rev_ind.
  - apply app_inj_tail in E as [-> ->]. eauto.
  - rewrite app_comm_cons, app_assoc in E. apply app_inj_tail in E as [-> _]. eauto.
Qed.
Ltac prj := cbn [s_set_st s_set_t15 s_set_t35 s_set_fe s_set_tx s_set_msg s_set_data s_st s_t15 s_t35 s_fe s_tx s_drv s_mptr s_sub s_rx s_id s_msg s_data] in *.
Ltac snoc := rewrite ?received_snoc, ?fep_snoc, ?checked_snoc, ?t35_snoc, ?tx_snoc, ?started_snoc, ?count_snoc in *.

Lemma sinv_line c id t l s l' s' o : cfg_tables_ok c -> sinv c id t l s -> s_line c l s = Ok (l', s', o) -> sinv c id (t ++ map TOut o) (next l' s') s'.
Proof.
  intros Hc [B I R F T C X N G] E.
  assert (B' := base_line _ _ _ _ _ _ B E).
  destruct (line_ready c l s Hc R) as (l2 & s2 & o2 & E2 & R' & I'). rewrite E in E2. inversion E2; subst l2 s2 o2. clear E2.
  assert (BS := b_st _ _ B). assert (BU := b_un _ _ B).
  constructor; auto; try congruence; clear B'.
  - clear I' R'. destruct l; line_inv E; cbn [map]; rewrite ?app_nil_r; snoc; prj; auto; try discriminate; try (exfalso; apply BU; reflexivity).
  - clear I' R' G N X C F. destruct l; line_inv E; cbn [map next]; unfold s_dispatch; prj; rewrite ?BS, ?app_nil_r; cbn [st_of]; snoc; cbn [t35_done] in *; auto; try discriminate; try (exfalso; apply BU; reflexivity).
  - assert (HM : s_mptr s = true) by (apply R). 
    assert (HR : rr_ok (m_req (s_msg s))) by (destruct R as (_ & _ & _ & _ & _ & [? _] & _); auto).
    clear I' R' G N X. destruct l; line_inv E; cbn [map next]; unfold s_dispatch; prj; rewrite ?BS, ?app_nil_r; cbn [st_of chk_ok] in *; auto;
    try (exfalso; apply BU; reflexivity).
    + snoc. eexists. split; [reflexivity|]. intros ->. apply recv_accept_iff in Y; auto.
    + destruct C as (g & C & _). exists g. auto.
    + destruct C as (g & C & C2). exists g. split; auto. left. apply C2. apply negb_false_iff in X. lia.
    + destruct C as (g & C). exists g. auto.
    + destruct C as (g & C & C2). snoc. rewrite is_clr_iff in X. split; [exists g; split; auto; destruct C2; auto; congruence|].
      destruct (frame_err_pending t); auto. rewrite F in X by auto. discriminate.
    + destruct C as ((g & C & C2) & C3). split; eauto. split; auto. rewrite is_set_iff in X. destruct T as [|T]; auto. discriminate.
    + destruct C as ((g & C & C2) & C3). exists g. auto.
    + destruct C as ((g & C & C2) & C3 & C4). split; [exists g|]; snoc; auto.
  - clear I' R' G N C. destruct l; line_inv E; cbn [map next]; unfold s_dispatch; prj; rewrite ?BS, ?app_nil_r; cbn [st_of tx_ok] in *; snoc; auto; try discriminate.
    apply X. now apply is_clr_iff.
  - clear I' R' G C X. destruct N as (N1 & N2 & N3 & N4). destruct l; line_inv E; cbn [map next]; unfold s_dispatch; prj; rewrite ?BS, ?app_nil_r; cbn [st_of] in *;
    unfold cnt_ok; snoc; cbn [is_send is_t15 is_t35 in15 s_t15 s_t35 s_set_t15 s_set_t35 s_set_st s_set_fe s_set_tx s_set_data s_set_msg] in *;
    rewrite ?is_set_iff in *;
    try (exfalso; apply BU; reflexivity);
    try rewrite N3 in * by auto; try rewrite N4 in * by auto; cbn [fl] in *;
    (split; [lia|split; [lia|split; intros HH; try discriminate HH; try (destruct HH as [HH|[HH|HH]]; discriminate HH); auto]]).
  - clear I' R' N. destruct l; line_inv E; cbn [map]; rewrite ?app_nil_r; auto; apply justified_snoc; auto; intros o Eo Ho; inversion Eo; subst;
    try (destruct Ho as [Ho|[? Ho]]; discriminate);
    (split; [auto|]; intros ? Q; try discriminate Q; auto).
Qed.

Lemma sinv_event c id t l s e s' : sinv c id t l s -> s_event e s = Ok s' -> sinv c id (t ++ [TEv e]) l s'.
Proof.
  intros [B I R F T C X N G] E.
  assert (B' := base_event _ _ _ _ B E).
  destruct (event_ready c e s R) as (s2 & E2 & R' & I'). rewrite E in E2. inversion E2; subst s2. clear E2.
  assert (SB : s_sub s = true) by (apply R).
  constructor; auto; try congruence; clear B'.
  - clear I' R'. destruct e; ev_inv E; snoc; prj; auto; try congruence.
  - clear I' R' N X G C F. destruct e; ev_inv E; snoc; prj; auto; try congruence.
  - clear I' R' N X G. destruct l; cbn [chk_ok] in *; unfold may_act in *; snoc; auto; destruct e; ev_inv E; snoc; prj; auto; try congruence;
    try (destruct C as (g & C & C2); exists g; split; auto; fail); try (destruct C as (C1 & C2 & C3); auto).
  - clear I' R' N G C. destruct l; cbn [tx_ok] in *; auto; snoc; destruct e; ev_inv E; prj; auto; try congruence.
  - clear I' R' X G C. destruct N as (N1 & N2 & N3 & N4). unfold cnt_ok. snoc. destruct e; ev_inv E; prj; cbn [is_send is_t15 is_t35 fl]; try congruence; (split; [try lia; try (destruct (s_t15 s); cbn [fl] in *; lia)|split; [try lia; destruct l; cbn [fl] in *; try lia|auto]]).

  - apply justified_snoc; auto. discriminate.
Qed.

Lemma sinv_run c id sched : cfg_tables_ok c -> forall t k k' o, sinv c id t (loc k) (sc_s k) -> s_run c sched k = Ok (k', o) ->
  sinv c id (t ++ o) (loc k') (sc_s k').
Proof.
  intros Hc. apply abs_inv.
  - intros. eapply sinv_line; eauto.
  - intros. eapply sinv_event; eauto.
Qed.

Lemma sinv_start c s : slave_ready c s -> s_st s = S_IDLE -> s_t15 s = CLEARED -> s_t35 s = CLEARED -> s_fe s = CLEARED -> s_tx s = CLEARED ->
  sinv c (s_id s) [] (s_dispatch s) s.
Proof.
  intros R A1 A2 A3 A4 A5. unfold s_dispatch. rewrite A1. constructor; auto; try discriminate.
  - destruct R as (R1 & R2 & R3 & R4 & _). constructor; auto; try discriminate; right; auto.
  - rewrite A3. discriminate.
  - exact Logic.I.
  - reflexivity.
  - unfold cnt_ok. rewrite A2, A3. cbn. repeat split; try lia; try discriminate. intros [|[|]]; discriminate.
  - intros t1 o t2 Q. destruct t1; discriminate.
Qed.
