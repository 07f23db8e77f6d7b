(** The example master application: projection to the firmware, its calls, its progress. *)
From Verif Require Export Proofs.MasterSystem Proofs.MasterPhase Model.MasterApp Spec.MasterApp.
From Verif Require Import Props.MasterRun Proofs.MasterWire Proofs.MasterOut.

(** *** projection *)
Definition proj (x : aact) (a : mapp) : list wact :=
  match x with
  | AaMain =>
      match a_pc a with
      | A55 => [WMain]
      | A66 | A83 => []
      | A79 => [WReq (ReadCoils READ_COIL_ADR coil_qty SLAVE_ADDRES_EXAMPLE_NODE)]
      | A80 => [WReq (ReadHoldingReg READ_HREG_ADR reg_qty SLAVE_ADDRES_EXAMPLE_NODE)]
      | A81 => [WReq (WriteSingleCoil WRITE_COIL_ADR SLAVE_ADDRES_EXAMPLE_NODE (readed_coil (a_vars a)))]
      | A82 => [WReq (WriteSingleReg WRITE_HREG_ADR SLAVE_ADDRES_EXAMPLE_NODE (readed_hreg (a_vars a)))]
      end
  | AaTick => [WTick]
  | AaHw y => match y with WMain | WTick | WReq _ => [] | _ => [y] end
  end.
Definition next_timer (x : aact) (a : mapp) : Z :=
  match x with
  | AaMain => match a_pc a with A83 => request_interval | _ => a_timer a end
  | AaTick => if a_timer a =? 0 then 0 else a_timer a - 1
  | AaHw _ => a_timer a
  end.
Definition next_pc (x : aact) (a : mapp) (w : mfw) : apc :=
  match x with
  | AaMain =>
      match a_pc a with
      | A55 => if between_polls w then A66 else A55
      | A66 => if a_timer a =? 0 then A79 else A55
      | A79 => A80 | A80 => A81 | A81 => A82 | A82 => A83 | A83 => A55
      end
  | _ => a_pc a
  end.
Lemma a_act_proj c x a : a_act c x a =
  let* '(w, t) := w_run c (proj x a) (a_fw a) in Ok (mk_mapp w (next_timer x a) (run_cbs t (a_vars a)) (next_pc x a w), t).
Proof.
  assert (One : forall y, w_run c [y] (a_fw a) = w_act c y (a_fw a)).
  { intros y. cbn [w_run]. destruct (w_act c y (a_fw a)) as [[w t]| |]; cbn [bind]; rewrite ?app_nil_r; reflexivity. }
  destruct a as [w tm v pc]; destruct x; [| |destruct x]; cbn [a_act proj next_timer next_pc a_pc a_fw a_timer a_vars] in *; try rewrite One; try reflexivity.
  destruct pc; cbn [a_pc a_fw]; try rewrite One; try reflexivity.
Qed.
Lemma a_step_inv c x a a' t : a_act c x a = Ok (a', t) -> w_run c (proj x a) (a_fw a) = Ok (a_fw a', t) /\ a_timer a' = next_timer x a /\ a_vars a' = run_cbs t (a_vars a) /\ a_pc a' = next_pc x a (a_fw a').
Proof. rewrite a_act_proj. intros E. bnd E. inversion E; subst. cbn. auto. Qed.
Lemma a_run_app c l1 l2 a : a_run c (l1 ++ l2) a = let* '(a1, t1) := a_run c l1 a in let* '(a2, t2) := a_run c l2 a1 in Ok (a2, t1 ++ t2).
Proof.
  revert a. induction l1 as [|x l1 IH]; intros a; cbn [app a_run].
  - cbn [bind]. destruct (a_run c l2 a) as [[? ?]| |]; reflexivity.
  - destruct (a_act c x a) as [[a1 t1]| |]; cbn [bind]; auto. rewrite IH. destruct (a_run c l1 a1) as [[a2 t2]| |]; cbn [bind]; auto.
    destruct (a_run c l2 a2) as [[a3 t3]| |]; cbn [bind]; auto. now rewrite app_assoc.
Qed.
Lemma a_run_split c l1 l2 a a' t : a_run c (l1 ++ l2) a = Ok (a', t) <-> exists a1 t1 t2, a_run c l1 a = Ok (a1, t1) /\ a_run c l2 a1 = Ok (a', t2) /\ t = t1 ++ t2.
Proof.
  rewrite a_run_app. destruct (a_run c l1 a) as [[a1 t1]| |]; cbn [bind]; [|split; [discriminate|intros (? & ? & ? & ? & _); discriminate]..]. split.
  - intros E. bnd E. inversion E; subst. exists a1, t1, l. auto.
  - intros (a2 & t2 & t3 & E & E2 & ->). inversion E; subst. rewrite E2. reflexivity.
Qed.
Lemma a_run_one c x a : a_run c [x] a = a_act c x a.
Proof. cbn [a_run]. destruct (a_act c x a) as [[? ?]| |]; cbn [bind]; rewrite ?app_nil_r; reflexivity. Qed.
Lemma a_run_snoc c l x a a' t : a_run c (l ++ [x]) a = Ok (a', t) <-> exists a1 t1 t2, a_run c l a = Ok (a1, t1) /\ a_act c x a1 = Ok (a', t2) /\ t = t1 ++ t2.
Proof. rewrite a_run_split. split; intros (a1 & t1 & t2 & A & B & C); exists a1, t1, t2; rewrite a_run_one in *; auto. Qed.

(** *** what the steps emit *)
Definition cb_typed (x : cb) : Prop := match x with HregRead _ _ v => word v | _ => True end.
Definition m_calls (t : list mitem) : list (api * req_ret) := flat_map (fun x => match x with MTOut (MoRet a r) => [(a, r)] | _ => [] end) t.
Lemma calls_lib t : app_calls t = m_calls (m_lib_of t).
Proof. unfold app_calls, m_calls, m_lib_of. induction t as [|[[e|o]|b] t IH]; cbn; auto. now rewrite IH. Qed.
Lemma m_calls_app a b : m_calls (a ++ b) = m_calls a ++ m_calls b.
Proof. apply flat_map_app. Qed.
Lemma app_calls_app a b : app_calls (a ++ b) = app_calls a ++ app_calls b.
Proof. apply flat_map_app. Qed.
Lemma callbacks_app a b : callbacks (a ++ b) = callbacks a ++ callbacks b.
Proof. induction a as [|[|[]] a IH]; cbn; auto. now rewrite IH. Qed.
Lemma callbacks_cbs l : callbacks (map MTOut (map MoCb l)) = l.
Proof. induction l; cbn; congruence. Qed.
Lemma calls_cbs l : m_calls (map MTOut (map MoCb l)) = [].
Proof. induction l; cbn; auto. Qed.
Lemma u16_word r i v : read_u16_from_buf r i = Ok v -> word v.
Proof. unfold read_u16_from_buf. intros E. bnd E. bnd E. inversion E. unfold word, u16. lia. Qed.
Lemma regs_typed n mk r s d : (forall a b v, word v -> cb_typed (mk a b v)) -> forall i l, update_regs_loop n mk r s d i = Ok l -> Forall cb_typed l.
Proof.
  intros H. induction n as [|n IH]; intros i l E; cbn [update_regs_loop] in E; [inversion E; constructor|]. bnd E. bnd E. inversion E; subst. constructor; eauto. apply H. eapply u16_word; eauto.
Qed.
Lemma bits_typed n mk r s d : (forall a b v, cb_typed (mk a b v)) -> forall i l, update_bits_loop n mk r s d i = Ok l -> Forall cb_typed l.
Proof.
  intros H. induction n as [|n IH]; intros i l E; cbn [update_bits_loop] in E; [inversion E; constructor|]. bnd E. bnd E. inversion E; subst. constructor; [destruct (negb _); apply H|]; eauto.
Qed.
Lemma resp_typed m r l : modbus_master_read_slave_resp m = Ok (r, l) -> Forall cb_typed l.
Proof.
  unfold modbus_master_read_slave_resp. destruct (negb _); [intros E; inversion E; constructor|]. intros E. bnd E. destruct a.
  - unfold process_modbus_exception_code in E. do 5 (bnd E). inversion E; subst. unfold send_exception_code_report_data. repeat (match goal with |- context [if ?b then _ else _] => destruct b end); repeat constructor.
  - unfold process_modbus_response in E. bnd E.
    assert (X : update_master_data_from_modbus_msg m = Ok (r, l) \/ report_write_operation_confirmation m = Ok (r, l) \/ l = []).
    { cbn [find_resp_handler modbus_master_function_mapper] in E. repeat (match type of E with context [if ?b then _ else _] => destruct b end); auto. inversion E; auto. }
    destruct X as [X|[X| ->]]; [| |constructor].
    + unfold update_master_data_from_modbus_msg in X. do 4 (bnd X). repeat (match type of X with context [if ?b then _ else _] => destruct b end); try bnd X; inversion X; subst; first [apply Forall_nil|eapply bits_typed; [|eassumption]; cbn; auto; fail|eapply regs_typed; [|eassumption]; cbn; auto; fail].
    + unfold report_write_operation_confirmation in X. do 3 (bnd X). repeat (match type of X with context [if ?b then _ else _] => destruct b end); try bnd X; inversion X; subst; repeat constructor.
Qed.
Lemma line_emits c l s l' s' o : m_line c l s = Ok (l', s', o) -> m_calls (map MTOut o) = [] /\ Forall cb_typed (callbacks (map MTOut o)).
Proof.
  intros E. destruct l; mline_inv E; try (split; [reflexivity|repeat constructor; fail]).
  split; [apply calls_cbs|]. rewrite callbacks_cbs. eapply resp_typed; eauto.
Qed.
Lemma act_emits c x k k' o : m_act c x k = Ok (k', o) -> Forall cb_typed (callbacks o) /\ ((forall q, x <> MEv (MReq q)) -> m_calls o = []).
Proof.
  destruct x as [|e]; cbn [m_act]; intros E.
  - destruct (mc_pc k); [|inversion E; subst; split; [constructor|auto]]. bnd E. inversion E; subst. destruct (line_emits _ _ _ _ _ _ Y). auto.
  - bnd E. inversion E; subst. destruct (ev_out _ _ _ _ _ Y) as [->|(q & r & -> & ->)]; cbn; (split; [constructor|]); auto. intros H. destruct (H q eq_refl).
Qed.
Lemma run_emits c l : forall k k' o, m_run c l k = Ok (k', o) -> Forall cb_typed (callbacks o) /\ ((forall q, ~ In (MEv (MReq q)) l) -> m_calls o = []).
Proof.
  induction l as [|x l IH]; intros k k' o E; cbn [m_run] in E; [inversion E; split; [constructor|auto]|]. bnd E. bnd E. inversion E; subst.
  destruct (act_emits _ _ _ _ _ Y) as [A1 A2]. destruct (IH _ _ _ Y0) as [B1 B2]. rewrite callbacks_app, m_calls_app. split; [apply Forall_app; auto|].
  intros H. rewrite A2, B2; auto; [intros q Hq; apply (H q); now right|intros q ->; apply (H q); now left].
Qed.
Lemma w_emits c l w w' t : w_run c l w = Ok (w', t) -> Forall cb_typed (callbacks (m_lib_of t)) /\ ((forall q, ~ In (WReq q) l) -> app_calls t = []).
Proof.
  intros E. destruct (run_piece _ _ _ _ _ E) as (sched & R & H). destruct (run_emits _ _ _ _ _ R) as [A B]. split; auto. intros N. rewrite calls_lib. apply B. intros q Hq. apply (N q), H, Hq.
Qed.
Lemma w_req_inv c q w w' t : w_run c [WReq q] w = Ok (w', t) -> exists r s', t = [WLib (MTEv (MReq q)); WLib (MTOut (MoRet q r))] /\ modbus_master_request c q (mc_s (w_lib w)) = Ok (r, s').
Proof.
  cbn [w_run w_act]. unfold w_event. cbn [m_act m_event]. destruct (modbus_master_request c q (mc_s (w_lib w))) as [[r s']| |]; cbn [bind]; try discriminate. intros E; inversion E; subst. cbn. eauto.
Qed.
(** *** the application's variables *)
Lemma run_cbs_eq t v : run_cbs t v = fold_left (fun v k => data_cb k v) (callbacks (m_lib_of t)) v.
Proof. unfold run_cbs, m_lib_of. revert v. induction t as [|[[e|[]]|b] t IH]; intros v; cbn; auto. Qed.
Lemma run_cbs_app a b v : run_cbs (a ++ b) v = run_cbs b (run_cbs a v).
Proof. unfold run_cbs. apply fold_left_app. Qed.
Lemma cbs_coil l : forall v, readed_coil (fold_left (fun v k => data_cb k v) l v) = fold_left (fun v x => match x with CoilRead 1 1 b => b | _ => v end) l (readed_coil v).
Proof.
  induction l as [|x l IH]; intros v; auto. cbn [fold_left]. rewrite IH. f_equal. destruct x as [id adr b|id adr b|id adr v0|id adr v0| | | | | | | |]; auto; cbn [data_cb]; unfold SLAVE_ADDRES_EXAMPLE_NODE, READ_COIL_ADR, READ_HREG_ADR.
  - destruct id as [|[]|], adr as [|[]|]; reflexivity.
  - destruct (_ && _); reflexivity.
Qed.
Lemma cbs_hreg l : forall v, readed_hreg (fold_left (fun v k => data_cb k v) l v) = fold_left (fun v x => match x with HregRead 1 1 r => r | _ => v end) l (readed_hreg v).
Proof.
  induction l as [|x l IH]; intros v; auto. cbn [fold_left]. rewrite IH. f_equal. destruct x as [id adr b|id adr b|id adr v0|id adr v0| | | | | | | |]; auto; cbn [data_cb]; unfold SLAVE_ADDRES_EXAMPLE_NODE, READ_COIL_ADR, READ_HREG_ADR.
  - destruct (_ && _); reflexivity.
  - destruct id as [|[]|], adr as [|[]|]; reflexivity.
Qed.

(** *** the invariant *)
From Verif Require Import Props.MasterSystem.
Lemma always_snoc c w l x (P : wact -> mfw -> list witem -> Prop) : always_at c w l P -> (forall w1 t1, w_run c l w = Ok (w1, t1) -> P x w1 t1) -> always_at c w (l ++ [x]) P.
Proof.
  intros H1 H2 l1 y l2 w1 t1 E R. destruct (exists_last (l := y :: l2)) as (l3 & z & E3); [discriminate|]. rewrite E3, app_assoc in E. apply app_inj_tail in E as [E ->].
  destruct l3 as [|y' l3]; cbn in E3; inversion E3; subst.
  - rewrite app_nil_r in *. apply H2; auto.
  - eapply H1; eauto.
Qed.
Definition good_call (t1 : list witem) (q : api) (r : req_ret) : Prop :=
  q = app_request (length (app_calls t1)) (callbacks (m_lib_of t1)) /\ (r = REQUEST_SEND_TO_QUEUE \/ r = FREE_QUEUE_EMPTY_ERROR).
Definition good_calls (t : list witem) : Prop := forall t1 q r t2, t = t1 ++ WLib (MTOut (MoRet q r)) :: t2 -> good_call t1 q r.
Lemma app_cut {A} (t t' t1 t2 : list A) y : t ++ t' = t1 ++ y :: t2 -> (exists t3, t = t1 ++ y :: t3 /\ t2 = t3 ++ t') \/ (exists t3, t1 = t ++ t3 /\ t' = t3 ++ y :: t2).
Proof.
  revert t1. induction t as [|x t IH]; intros t1 E.
  - right. exists t1. auto.
  - destruct t1 as [|x1 t1]; cbn in E; inversion E; subst; [left; exists t; auto|]. destruct (IH _ H1) as [(t3 & -> & ->)|(t3 & -> & ->)]; [left|right]; exists t3; auto.
Qed.
Lemma calls_in q r t : In (WLib (MTOut (MoRet q r))) t -> app_calls t <> [].
Proof. intros H E. assert (X : In (q, r) (app_calls t)). { unfold app_calls. apply in_flat_map. exists (WLib (MTOut (MoRet q r))). split; auto. cbn. auto. } rewrite E in X. destruct X. Qed.
Lemma good_more t t' : good_calls t -> app_calls t' = [] -> good_calls (t ++ t').
Proof.
  intros G N t1 q r t2 E. apply app_cut in E as [(t3 & E & _)|(t3 & _ & ->)]; [eapply G; eauto|]. exfalso. apply (calls_in q r (t3 ++ WLib (MTOut (MoRet q r)) :: t2)); auto. apply in_or_app. right. now left.
Qed.
Lemma good_one t q r : good_calls t -> good_call t q r -> good_calls (t ++ [WLib (MTEv (MReq q)); WLib (MTOut (MoRet q r))]).
Proof.
  intros G N t1 q' r' t2 E. apply app_cut in E as [(t3 & E & _)|(t3 & -> & E)]; [eapply G; eauto|].
  destruct t3 as [|x [|y [|? ?]]]; cbn in E; inversion E; subst; try discriminate.
  unfold good_call in *. rewrite app_calls_app, m_lib_of_app, callbacks_app. cbn [app_calls flat_map app m_lib_of callbacks]. rewrite !app_nil_r. exact N.
Qed.
Definition idx (p : apc) : nat := match p with A55 | A66 | A79 => 0 | A80 => 1 | A81 => 2 | A82 => 3 | A83 => 4 end.
Definition resting_pc (p : apc) : bool := match p with A55 | A66 => true | _ => false end.
Record ainv (c : cfg) (a0 : mapp) (sched : list aact) (a : mapp) (t : list witem) : Prop := {
  i_fw : exists ws, w_run c ws (a_fw a0) = Ok (a_fw a, t) /\ w_reqs_safe ws /\ no_big ws = true /\
    (a_send_undisturbed c a0 sched -> m_send_undisturbed c (a_fw a0) ws) /\ (a_no_early_rx c a0 sched -> no_early_rx c (a_fw a0) ws);
  i_coil : readed_coil (a_vars a) = coil_seen (callbacks (m_lib_of t));
  i_hreg : readed_hreg (a_vars a) = hreg_seen (callbacks (m_lib_of t));
  i_word : word (readed_hreg (a_vars a));
  i_good : good_calls t;
  i_len : exists k, length (app_calls t) = (4 * k + idx (a_pc a))%nat /\ 300 * (Z.of_nat k + 1) <= Z.of_nat (app_ticks sched) + (if resting_pc (a_pc a) then a_timer a else 0);
  i_tm : 0 <= a_timer a <= 300 }.
Lemma app_start c a0 : cfg_master_ok c -> master_app c = Ok a0 -> mfw_started c (a_fw a0) /\ master_firmware c = Ok (a_fw a0) /\ a_timer a0 = 300 /\ a_vars a0 = vars_init /\ a_pc a0 = A55.
Proof.
  intros Hc. unfold master_app, master_firmware. intros E. bnd E. inversion E; subst. cbn [a_fw a_timer a_vars a_pc bind]. split; [|auto]. assert (M := static_master_ok c Hc). split; [exists (master_static c); auto|]. unfold tx_idle. cbn. split; [reflexivity|]. split; [repeat split; lia|]. intros H0; destruct (H0 eq_refl).
Qed.
Lemma ticks_snoc l x : app_ticks (l ++ [x]) = (app_ticks l + match x with AaTick => 1 | _ => 0 end)%nat.
Proof. unfold app_ticks. rewrite filter_app, app_length. destruct x; reflexivity. Qed.
Lemma hreg_typed l : forall v, Forall cb_typed l -> word v -> word (fold_left (fun v x => match x with HregRead 1 1 r => r | _ => v end) l v).
Proof.
  induction l as [|x l IH]; intros v F W; auto. inversion F; subst. cbn [fold_left]. apply IH; auto. destruct x as [id adr b|id adr b|id adr v0|id adr v0| | | | | | | |]; auto. cbn in H1. destruct id as [|[]|], adr as [|[]|]; auto.
Qed.
Lemma always_init c a0 l x P : a_always c a0 (l ++ [x]) P -> a_always c a0 l P.
Proof. intros H l1 y l2 a1 t1 E R. apply (H l1 y (l2 ++ [x]) a1 t1); auto. rewrite E, <- app_assoc. reflexivity. Qed.
Lemma app_req_safe n l : word (hreg_seen l) -> req_safe (app_request n l) /\ api_valid (app_request n l) = true.
Proof.
  intros W. assert (L := Nat.mod_upper_bound n 4 ltac:(lia)). unfold app_request. destruct (n mod 4)%nat as [|[|[|[|]]]]; (split; [|reflexivity]); (split; [unfold api_typed, byte, word; cbn; repeat split; try lia; apply W|intros _; exact I]).
Qed.
Lemma ainv_step c a0 sched a t x a' t' : cfg_master_ok c -> master_app c = Ok a0 -> a_run c sched a0 = Ok (a, t) -> ainv c a0 sched a t -> a_act c x a = Ok (a', t') -> ainv c a0 (sched ++ [x]) a' (t ++ t').
Proof.
  intros Hc H0 R [(ws & W1 & W2 & W3 & W4 & W5) Ic Ih Iw Ig (k & L1 & L2) It] E. destruct (app_start _ _ Hc H0) as (St & _).
  destruct (a_step_inv _ _ _ _ _ E) as (P & T & V & Pc). destruct (w_emits _ _ _ _ _ P) as [Ty Nc].
  assert (Vc : readed_coil (a_vars a') = coil_seen (callbacks (m_lib_of (t ++ t')))).
  { rewrite V, run_cbs_eq, cbs_coil, Ic. unfold coil_seen. rewrite m_lib_of_app, callbacks_app, fold_left_app. reflexivity. }
  assert (Vh : readed_hreg (a_vars a') = hreg_seen (callbacks (m_lib_of (t ++ t')))).
  { rewrite V, run_cbs_eq, cbs_hreg, Ih. unfold hreg_seen. rewrite m_lib_of_app, callbacks_app, fold_left_app. reflexivity. }
  assert (Vw : word (readed_hreg (a_vars a'))) by (rewrite V, run_cbs_eq, cbs_hreg; apply hreg_typed; auto).
  assert (C : (exists r, proj x a = [WReq (app_request (length (app_calls t)) (callbacks (m_lib_of t)))] /\ x = AaMain /\ app_calls t' = [(app_request (length (app_calls t)) (callbacks (m_lib_of t)), r)] /\ idx (a_pc a') = S (idx (a_pc a)) /\ resting_pc (a_pc a) = false /\ resting_pc (a_pc a') = false /\ a_timer a' = a_timer a /\ good_calls (t ++ t')) \/
              ((forall q, ~ In (WReq q) (proj x a)) /\ app_calls t' = [] /\ exists k', (4 * k' + idx (a_pc a') = 4 * k + idx (a_pc a))%nat /\ 300 * (Z.of_nat k' + 1) <= Z.of_nat (app_ticks (sched ++ [x])) + (if resting_pc (a_pc a') then a_timer a' else 0) /\ 0 <= a_timer a' <= 300)).
  { rewrite ticks_snoc.
    assert (Rq : forall n, a_pc a <> A55 -> (n < 4)%nat -> idx (a_pc a) = n -> app_request (length (app_calls t)) (callbacks (m_lib_of t)) = app_request n (callbacks (m_lib_of t))).
    { intros n _ Hn Hi. unfold app_request. rewrite L1, Hi. replace ((4 * k + n) mod 4)%nat with (n mod 4)%nat; auto. rewrite Nat.add_comm, Nat.mul_comm, Nat.mod_add by lia. reflexivity. }
    assert (Cl : forall q, proj x a = [WReq q] -> q = app_request (length (app_calls t)) (callbacks (m_lib_of t)) -> exists r, app_calls t' = [(q, r)] /\ good_calls (t ++ t')).
    { intros q Ep Eq. rewrite Ep in P. destruct (w_req_inv _ _ _ _ _ P) as (r & s' & -> & Er). exists r. split; auto. apply good_one; auto. split; auto.
      destruct (C68_library_inside _ _ _ _ _ St W2 W1) as (ls & Hl). rewrite Ih in Iw. destruct (app_req_safe (length (app_calls t)) (callbacks (m_lib_of t)) Iw) as [Sf Vl].
      rewrite <- Eq in Sf, Vl. destruct (C08_accepted_exactly c ls (w_lib (a_fw a)) _ q Hc Hl Sf) as (r2 & s2 & E2 & _ & F1 & F2 & _). rewrite Er in E2. inversion E2; subst r2 s2.
      destruct (free_bufs c (mc_s (w_lib (a_fw a)))) eqn:Fb; [right; apply F1; auto|left; apply F2; auto; discriminate]. }
    unfold next_pc, next_timer in *. destruct x as [| |y].
    - destruct (a_pc a) eqn:Epc; cbn [idx resting_pc] in *.
      + right. cbn [proj] in *. rewrite Epc in *. split; [intros q [X|[]]; discriminate|]. split; [apply Nc; intros q [X|[]]; discriminate|]. exists k. rewrite T, Pc. destruct (between_polls _); cbn [idx resting_pc]; repeat split; lia.
      + right. cbn [proj] in *. rewrite Epc in *. split; [auto|]. split; [apply Nc; auto|]. exists k. rewrite T, Pc. destruct (a_timer a =? 0) eqn:Z0; cbn [idx resting_pc]; repeat split; lia.
      + left. assert (EQ : proj AaMain a = [WReq (app_request (length (app_calls t)) (callbacks (m_lib_of t)))]) by (cbn [proj]; rewrite Epc, (Rq 0%nat); [reflexivity|discriminate|lia|reflexivity]).
        destruct (Cl _ EQ eq_refl) as (r & C1 & C2). exists r. rewrite Pc, T. cbn [idx resting_pc]. repeat (split; auto).
      + left. assert (EQ : proj AaMain a = [WReq (app_request (length (app_calls t)) (callbacks (m_lib_of t)))]) by (cbn [proj]; rewrite Epc, (Rq 1%nat); [reflexivity|discriminate|lia|reflexivity]).
        destruct (Cl _ EQ eq_refl) as (r & C1 & C2). exists r. rewrite Pc, T. cbn [idx resting_pc]. repeat (split; auto).
      + left. assert (EQ : proj AaMain a = [WReq (app_request (length (app_calls t)) (callbacks (m_lib_of t)))]) by (cbn [proj]; rewrite Epc, (Rq 2%nat); [rewrite Ic; reflexivity|discriminate|lia|reflexivity]).
        destruct (Cl _ EQ eq_refl) as (r & C1 & C2). exists r. rewrite Pc, T. cbn [idx resting_pc]. repeat (split; auto).
      + left. assert (EQ : proj AaMain a = [WReq (app_request (length (app_calls t)) (callbacks (m_lib_of t)))]) by (cbn [proj]; rewrite Epc, (Rq 3%nat); [rewrite Ih; reflexivity|discriminate|lia|reflexivity]).
        destruct (Cl _ EQ eq_refl) as (r & C1 & C2). exists r. rewrite Pc, T. cbn [idx resting_pc]. repeat (split; auto).
      + right. cbn [proj] in *. rewrite Epc in *. split; [auto|]. split; [apply Nc; auto|]. exists (S k). rewrite T, Pc. cbn [idx resting_pc]. unfold request_interval, UPDATE_INTERVAL_MS. repeat split; lia.
    - right. cbn [proj] in *. split; [intros q [X|[]]; discriminate|]. split; [apply Nc; intros q [X|[]]; discriminate|]. exists k. rewrite T, Pc. destruct (a_timer a =? 0) eqn:Z0, (resting_pc (a_pc a)); repeat split; lia.
    - right. assert (X : forall q, ~ In (WReq q) (proj (AaHw y) a)) by (intros q; destruct y; cbn; intuition discriminate). split; auto. split; [apply Nc; auto|]. exists k. rewrite T, Pc. repeat split; lia. }
  assert (Fw : exists ws', w_run c ws' (a_fw a0) = Ok (a_fw a', t ++ t') /\ w_reqs_safe ws' /\ no_big ws' = true /\
    (a_send_undisturbed c a0 (sched ++ [x]) -> m_send_undisturbed c (a_fw a0) ws') /\ (a_no_early_rx c a0 (sched ++ [x]) -> no_early_rx c (a_fw a0) ws')).
  { exists (ws ++ proj x a). split. { rewrite w_run_app, W1. cbn [bind]. rewrite P. reflexivity. }
    assert (Sz : proj x a = [] \/ exists y, proj x a = [y] /\ (y = WUsart -> x = AaHw WUsart) /\ (forall b, y = WRx b -> x = AaHw (WRx b))).
    { destruct x as [| |y]; cbn [proj]; [destruct (a_pc a)| |destruct y]; try (left; reflexivity); right; eexists; (split; [reflexivity|]); split; intros; try discriminate; congruence. }
    split. { intros q Hq. apply in_app_or in Hq as [Hq|Hq]; [apply W2; auto|]. destruct C as [(r & Ep & _)|(N & _)]; [|destruct (N q Hq)]. rewrite Ep in Hq. destruct Hq as [Hq|[]]. inversion Hq. rewrite Ih in Iw. apply app_req_safe. exact Iw. }
    split. { unfold no_big in *. rewrite forallb_app, W3. cbn [andb]. destruct C as [(r & Ep & _)|(N & _)].
      - rewrite Ep. unfold app_request. cbn [forallb]. rewrite andb_true_r. destruct (_ mod 4)%nat as [|[|[|]]]; reflexivity.
      - apply forallb_forall. intros y Hy. destruct y; auto. destruct (N _ Hy). }
    destruct Sz as [-> |(y & -> & Y1 & Y2)].
    - rewrite app_nil_r. split; intros H; [apply W4|apply W5]; eapply always_init; eauto.
    - split; intros H; (apply always_snoc; [first [apply W4|apply W5]; eapply always_init; eauto|]); intros w1 t1 Rw; rewrite W1 in Rw; inversion Rw; subst.
      + intros ->. eapply (H sched x [] a t1 eq_refl); auto.
      + intros b ->. eapply (H sched x [] a t1 eq_refl); auto. }
  constructor; auto.
  - destruct C as [(r & _ & _ & _ & _ & _ & _ & _ & G)|(_ & N & _)]; auto. apply good_more; auto.
  - rewrite app_calls_app, app_length. destruct C as [(r & _ & -> & N & I1 & I2 & I3 & _ & _)|(_ & N & k' & K1 & K2 & _)].
    + exists k. rewrite N. cbn [length]. rewrite I1, ticks_snoc, I3. rewrite I2 in L2. split; lia.
    + exists k'. rewrite N. cbn [length]. split; [lia|exact K2].
  - destruct C as [(r & _ & _ & _ & _ & _ & _ & Tm & _)|(_ & _ & k' & _ & _ & Tm)]; [rewrite Tm|]; lia.
Qed.
Lemma ainv_run c a0 : cfg_master_ok c -> master_app c = Ok a0 -> forall sched a t, a_run c sched a0 = Ok (a, t) -> ainv c a0 sched a t.
Proof.
  intros Hc H0. induction sched as [|x sched IH] using rev_ind; intros a t R.
  - inversion R; subst. destruct (app_start _ _ Hc H0) as (St & _ & Tm & V & P). constructor; rewrite ?V, ?P, ?Tm; try reflexivity.
    + exists []. split; [reflexivity|]. split; [intros q []|]. split; [reflexivity|]. split; intros _ l1 y l2 w1 t1 E; destruct l1; discriminate.
    + unfold word. cbn. lia.
    + intros t1 q r t2 E. destruct t1; discriminate.
    + exists 0%nat. cbn. split; [reflexivity|lia].
    + lia.
  - apply a_run_snoc in R as (a1 & t1 & t2 & R & A & ->). eapply ainv_step; eauto.
Qed.
(** *** no undefined behaviour *)
Lemma app_total c a0 : cfg_master_ok c -> master_app c = Ok a0 -> forall sched, a_send_undisturbed c a0 sched -> a_no_early_rx c a0 sched -> exists a t, a_run c sched a0 = Ok (a, t).
Proof.
  intros Hc H0. destruct (app_start _ _ Hc H0) as (St & _). induction sched as [|x sched IH] using rev_ind; intros HU HN; [do 2 eexists; reflexivity|].
  destruct (IH (always_init _ _ _ _ _ HU) (always_init _ _ _ _ _ HN)) as (a & t & R). assert (I := ainv_run _ _ Hc H0 _ _ _ R).
  destruct (i_fw _ _ _ _ _ I) as (ws & W1 & W2 & W3 & W4 & W5).
  assert (Iw := i_word _ _ _ _ _ I).
  assert (Rn : exists w' t', w_run c (ws ++ proj x a) (a_fw a0) = Ok (w', t')).
  { assert (Sf : forall q, In (WReq q) (proj x a) -> req_safe q /\ (negb (is_read q) || (api_qty q <=? 126)) = true).
    { intros q Hq. destruct x as [| |y]; cbn [proj] in Hq; [destruct (a_pc a)| |destruct y]; try (destruct Hq as [Hq|[]]; inversion Hq; subst); try destruct Hq; clear W2 W3; (split; [|reflexivity]); (split; [unfold api_typed, byte, word, SLAVE_ADDRES_EXAMPLE_NODE, READ_COIL_ADR, READ_HREG_ADR, WRITE_COIL_ADR, WRITE_HREG_ADR, coil_qty, reg_qty in *; cbn; repeat split; lia|intros _; exact Logic.I]). }
    apply C68_master_firmware_no_ub_partial; auto.
    - intros q Hq. apply in_app_or in Hq as [Hq|Hq]; [apply W2; auto|apply Sf; auto].
    - assert (Sz : proj x a = [] \/ exists y, proj x a = [y] /\ (y = WUsart -> x = AaHw WUsart)).
      { destruct x as [| |y]; cbn [proj]; [destruct (a_pc a)| |destruct y]; try (left; reflexivity); right; eexists; (split; [reflexivity|]); intros; try discriminate; congruence. }
      destruct Sz as [-> |(y & -> & Y1)]; [rewrite app_nil_r; apply W4; eapply always_init; eauto|]. apply always_snoc; [apply W4; eapply always_init; eauto|].
      intros w1 t1 Rw. rewrite W1 in Rw. inversion Rw; subst. intros ->. eapply (HU sched x [] a t1 eq_refl); auto.
    - assert (Sz : proj x a = [] \/ exists y, proj x a = [y] /\ (forall b, y = WRx b -> x = AaHw (WRx b))).
      { destruct x as [| |y]; cbn [proj]; [destruct (a_pc a)| |destruct y]; try (left; reflexivity); right; eexists; (split; [reflexivity|]); intros; try discriminate; congruence. }
      destruct Sz as [-> |(y & -> & Y1)]; [rewrite app_nil_r; apply W5; eapply always_init; eauto|]. apply always_snoc; [apply W5; eapply always_init; eauto|].
      intros w1 t1 Rw. rewrite W1 in Rw. inversion Rw; subst. intros b ->. eapply (HN sched x [] a t1 eq_refl); auto.
    - apply small_polite. unfold no_big in *. rewrite forallb_app, W3. cbn [andb]. apply forallb_forall. intros y Hy. destruct y; auto. apply Sf; auto. }
  destruct Rn as (w' & t' & Rn). rewrite w_run_app, W1 in Rn. cbn [bind] in Rn. bnd Rn.
  assert (A : a_act c x a = Ok (mk_mapp m (next_timer x a) (run_cbs l (a_vars a)) (next_pc x a m), l)) by (rewrite a_act_proj, Y; reflexivity).
  exists (mk_mapp m (next_timer x a) (run_cbs l (a_vars a)) (next_pc x a m)), (t ++ l). apply a_run_snoc. exists a, t, l. auto.
Qed.
(** *** progress *)
Definition wrank (w : mfw) : nat :=
  (match w_sub w with Some p => left_lines p | None => 0 end + match mc_pc (w_lib w) with Some l => m_rank l + (if unsent l then 7 else 0) | None => 0 end)%nat.
Definition lrank (w : mfw) : nat := if between_polls w then 14 else wrank w.
Definition ppot (a : mapp) : nat := match a_pc a with A55 => lrank (a_fw a) + 5 | A66 => 5 | A79 => 4 | A80 => 3 | A81 => 2 | A82 => 1 | A83 => 0 end.
Lemma left_7 p : (1 <= left_lines p <= 7)%nat.
Proof. destruct p; cbn; lia. Qed.
Lemma rank_13 l : (m_rank l + (if unsent l then 7 else 0) <= 13)%nat.
Proof. assert (X := m_rank_pos l). destruct l; cbn [unsent]; cbn in *; lia. Qed.
Lemma ppot_25 a : (ppot a <= 25)%nat.
Proof.
  assert (X : (wrank (a_fw a) <= 20)%nat).
  { unfold wrank. destruct (mc_pc (w_lib (a_fw a))) as [l|]; [assert (X := rank_13 l)|]; (destruct (w_sub (a_fw a)) as [p|]; [assert (Y := left_7 p)|]); lia. }
  unfold ppot, lrank. destruct (a_pc a); try lia. destruct (between_polls _); lia.
Qed.
Lemma not_between w : between_polls w = false -> (1 <= wrank w)%nat.
Proof.
  unfold between_polls, wrank. destruct (mc_pc (w_lib w)) as [l|]; [assert (X := m_rank_pos l); intros _; lia|]. destruct (w_sub w) as [p|]; [assert (Y := left_7 p); lia|discriminate].
Qed.
Lemma unsent_line c l s l' s' o : m_line c l s = Ok (Some l', s', o) -> (unsent l' = true -> unsent l = true) /\ (l = M404 -> unsent l' = false).
Proof. intros E. destruct l; mline_inv E; cbn; split; intros; try discriminate; auto. Qed.
Lemma poll_line c w w' t : w_act c WMain w = Ok (w', t) -> between_polls w' = true \/ between_polls w' = false /\ (wrank w' < lrank w)%nat.
Proof.
  intros E. destruct (between_polls w') eqn:B; auto. right. split; auto. cbn [w_act] in E. destruct (w_sub w) as [p|] eqn:Sb.
  - bnd E. inversion E; subst. unfold lrank, wrank, between_polls in *. rewrite Sb in *. cbn [w_lib w_sub] in *.
    assert (X : (match o with Some p => left_lines p | None => 0 end < left_lines p)%nat) by (destruct p; cbn [w_send_line] in Y; try bnd Y; try bnd Y; inversion Y; subst; cbn; auto).
    destruct (mc_pc (w_lib w)); lia.
  - bnd E. bnd E. rename a into osub. inversion E; subst. cbn [m_act] in Y. destruct (mc_pc (w_lib w)) as [l1|] eqn:Pc.
    + bnd Y. rename Y1 into YL. inversion Y; subst. unfold lrank, wrank, between_polls in *. rewrite Sb, Pc in *. cbn [w_lib w_sub mc_pc] in *. destruct o as [l'|].
      * assert (R := m_rank_line _ _ _ _ _ _ YL). destruct (unsent_line _ _ _ _ _ _ YL) as [U1 U2].
        assert (X : l1 = M404 \/ osub = None) by (destruct l1; auto; inversion Y0; auto). destruct X as [-> | ->].
        { rewrite (U2 eq_refl). cbn [unsent]. destruct osub as [p|]; [assert (Z := left_7 p)|]; lia. }
        destruct (unsent l') eqn:Ul; [rewrite (U1 eq_refl); lia|]. destruct (unsent l1); lia.
      * assert (X : l1 = M404 \/ osub = None) by (destruct l1; auto; inversion Y0; auto). destruct X as [-> | ->]; [|discriminate B]. cbn [m_line] in YL. mline_inv YL.
    + inversion Y; subst. unfold lrank, wrank. assert (X : between_polls w = true) by (unfold between_polls; rewrite Sb, Pc; reflexivity). rewrite X. assert (Y1 : osub = None) by (inversion Y0; auto). subst osub. cbn [w_lib w_sub mc_pc]. assert (Z := rank_13 (m_dispatch (mc_s (w_lib w)))). lia.
Qed.
Lemma hw_keeps c y w w' t : (forall q, y <> WReq q) -> y <> WMain -> w_act c y w = Ok (w', t) -> w_sub w' = w_sub w /\ mc_pc (w_lib w') = mc_pc (w_lib w).
Proof.
  assert (Ev : forall e k k' t, w_event c e k = Ok (k', t) -> mc_pc k' = mc_pc k).
  { intros e k k' t0 E. unfold w_event in E. cbn [m_act] in E. bnd E. inversion E; subst. bnd Y. inversion Y; subst. reflexivity. }
  intros N1 N2 E. destruct y; cbn [w_act] in E; try (destruct (N1 a eq_refl)); try congruence.
  - destruct (w_pending _ _); [|inversion E; auto]. bnd E. inversion E; subst. cbn [w_sub w_lib]. split; auto. clear E. unfold w_usart in Y. bnd Y. bnd Y. bnd Y. inversion Y; subst. clear Y.
    assert (X1 : mc_pc m0 = mc_pc (w_lib w)). { unfold w_usart_rx in Y0. destruct (u_rdr _); [|inversion Y0; auto]. destruct (mm_rx _); try discriminate. bnd Y0. destruct (u_det _); [destruct (mm_sub _); [|discriminate]; bnd Y0|]; inversion Y0; subst; repeat match goal with H : w_event _ _ _ = _ |- _ => apply Ev in H end; congruence. }
    assert (X2 : mc_pc m1 = mc_pc m0). { unfold w_usart_tx in Y1. destruct (u_tdr _); [inversion Y1; auto|]. destruct (_ <? _); [bnd Y1; inversion Y1; auto|]. destruct (mm_sub _); [|discriminate]. bnd Y1. inversion Y1; subst. apply Ev in Y. auto. }
    assert (X3 : mc_pc m = mc_pc m1). { unfold w_usart_rto in Y2. destruct (u_rtof _); [|inversion Y2; auto]. destruct (mm_sub _); [|inversion Y2; auto]. bnd Y2. inversion Y2; subst. apply Ev in Y. auto. }
    congruence.
  - bnd E. inversion E; subst. cbn [w_sub w_lib]. split; auto. unfold w_timer in Y. destruct (u_uif _); [|inversion Y; auto]. destruct (mm_sub _); [|discriminate]. bnd Y. inversion Y; subst. apply Ev in Y0. auto.
  - bnd E. inversion E; subst. cbn [w_sub w_lib]. apply Ev in Y. auto.
  - inversion E; auto.
  - destruct (u_tdr _); inversion E; auto.
  - inversion E; auto.
  - destruct (u_cen _); inversion E; auto.
Qed.
Lemma app_step c x a a' t : a_act c x a = Ok (a', t) -> a_pc a <> A83 \/ x <> AaMain ->
  idx (a_pc a') = (idx (a_pc a) + length (app_calls t))%nat /\ (x <> AaTick -> a_timer a' = a_timer a) /\ (x = AaTick -> a_timer a' = if a_timer a =? 0 then 0 else a_timer a - 1) /\
  (x <> AaMain -> ppot a' = ppot a /\ a_pc a' = a_pc a) /\ (x = AaMain -> a_timer a = 0 -> (ppot a' < ppot a)%nat).
Proof.
  intros E NE. destruct (a_step_inv _ _ _ _ _ E) as (P & T & V & Pc). destruct (w_emits _ _ _ _ _ P) as [_ Nc]. unfold next_pc, next_timer in *.
  assert (Rq : forall q, proj x a = [WReq q] -> length (app_calls t) = 1%nat) by (intros q Ep; rewrite Ep in P; destruct (w_req_inv _ _ _ _ _ P) as (r & s' & -> & _); reflexivity).
  destruct x as [| |y].
  - destruct (a_pc a) eqn:Epc; cbn [proj] in *; rewrite Epc in *; rewrite T, Pc; cbn [idx].
    + rewrite Nc by (intros q [X|[]]; discriminate). assert (PA : w_act c WMain (a_fw a) = Ok (a_fw a', t)). { revert P. cbn [w_run]. destruct (w_act c WMain (a_fw a)) as [[? ?]| |]; cbn [bind]; rewrite ?app_nil_r; auto. }
      assert (PL := poll_line _ _ _ _ PA). split; [destruct (between_polls _); reflexivity|]. split; auto. split; [discriminate|]. split; [congruence|]. intros _ _. unfold ppot. rewrite Epc, Pc.
      destruct PL as [B|[B L]]; rewrite B; [unfold lrank; destruct (between_polls (a_fw a)) eqn:B2; [lia|apply not_between in B2; lia]|]. unfold lrank at 1. rewrite B. lia.
    + rewrite Nc by auto. split; [destruct (a_timer a =? 0); reflexivity|]. split; auto. split; [discriminate|]. split; [congruence|]. intros _ Z0. unfold ppot. rewrite Epc, Pc, Z0. cbn. lia.
    + rewrite (Rq _ eq_refl). split; [reflexivity|]. split; auto. split; [discriminate|]. split; [congruence|]. intros _ _. unfold ppot. rewrite Epc, Pc. lia.
    + rewrite (Rq _ eq_refl). split; [reflexivity|]. split; auto. split; [discriminate|]. split; [congruence|]. intros _ _. unfold ppot. rewrite Epc, Pc. lia.
    + rewrite (Rq _ eq_refl). split; [reflexivity|]. split; auto. split; [discriminate|]. split; [congruence|]. intros _ _. unfold ppot. rewrite Epc, Pc. lia.
    + rewrite (Rq _ eq_refl). split; [reflexivity|]. split; auto. split; [discriminate|]. split; [congruence|]. intros _ _. unfold ppot. rewrite Epc, Pc. lia.
    + destruct NE; congruence.
  - cbn [proj] in *. rewrite Nc by (intros q [X|[]]; discriminate). rewrite T, Pc. split; [cbn; lia|]. split; [congruence|]. split; auto. split; [|discriminate]. intros _. split; auto.
    assert (PA : w_act c WTick (a_fw a) = Ok (a_fw a', t)). { revert P. cbn [w_run]. destruct (w_act c WTick (a_fw a)) as [[? ?]| |]; cbn [bind]; rewrite ?app_nil_r; auto. }
    destruct (hw_keeps c WTick _ _ _ ltac:(intros q X; discriminate X) ltac:(discriminate) PA) as [K1 K2]. unfold ppot, lrank, wrank, between_polls. rewrite Pc, K1, K2. reflexivity.
  - assert (N : forall q, ~ In (WReq q) (proj (AaHw y) a)) by (intros q; destruct y; cbn; intuition discriminate). rewrite Nc by auto. rewrite T, Pc. split; [cbn; lia|]. split; [reflexivity|]. split; [discriminate|]. split; [|discriminate]. intros _. split; auto.
    assert (K : w_sub (a_fw a') = w_sub (a_fw a) /\ mc_pc (w_lib (a_fw a')) = mc_pc (w_lib (a_fw a))).
    { assert (C : proj (AaHw y) a = [] \/ proj (AaHw y) a = [y] /\ (forall q, y <> WReq q) /\ y <> WMain) by (destruct y; cbn; auto; right; split; auto; split; intros; discriminate).
      destruct C as [C|(C & C1 & C2)]; rewrite C in P; [inversion P; auto|]. eapply (hw_keeps c y _ _ t); [exact C1|exact C2|]. revert P. cbn [w_run]. destruct (w_act c y (a_fw a)) as [[? ?]| |]; cbn [bind]; rewrite ?app_nil_r; auto. }
    destruct K as [K1 K2]. unfold ppot, lrank, wrank, between_polls. rewrite Pc, K1, K2. reflexivity.
Qed.
Lemma idx_4 p : (idx p <= 4)%nat /\ (idx p = 4%nat -> p = A83).
Proof. destruct p; cbn; split; auto; try lia; discriminate. Qed.
Lemma calls_len a b : length (app_calls (a ++ b)) = (length (app_calls a) + length (app_calls b))%nat.
Proof. rewrite app_calls_app, app_length. reflexivity. Qed.
Lemma pc83_dec (p : apc) (x : aact) : (p = A83 /\ x = AaMain) \/ (p <> A83 \/ x <> AaMain).
Proof. destruct p; try (right; left; discriminate). destruct x; auto; right; right; discriminate. Qed.
Lemma adv c l : forall a a' t, a_run c l a = Ok (a', t) -> 0 <= a_timer a ->
  (4 <= idx (a_pc a) + length (app_calls t))%nat \/ (idx (a_pc a') = (idx (a_pc a) + length (app_calls t))%nat /\ a_timer a' = Z.max 0 (a_timer a - Z.of_nat (app_ticks l))).
Proof.
  induction l as [|x l IH]; intros a a' t E T0; cbn [a_run] in E.
  - inversion E; subst. right. cbn. split; lia.
  - bnd E. bnd E. inversion E; subst. clear E. rewrite calls_len. destruct (pc83_dec (a_pc a) x) as [[P ->]|NE]; [left; rewrite P; cbn; lia|].
    destruct (app_step _ _ _ _ _ Y NE) as (S1 & S2 & S3 & _ & _).
    assert (Tx : a_timer m = Z.max 0 (a_timer a - Z.of_nat (app_ticks [x])) /\ 0 <= a_timer m).
    { destruct x; cbn [app_ticks filter length]; [rewrite S2 by discriminate; lia| |rewrite S2 by discriminate; lia]. rewrite (S3 eq_refl). destruct (a_timer a =? 0) eqn:Z0; lia. }
    change (x :: l) with ([x] ++ l). assert (TA : app_ticks ([x] ++ l) = (app_ticks [x] + app_ticks l)%nat) by (unfold app_ticks; rewrite filter_app, app_length; reflexivity). rewrite TA.
    destruct (IH _ _ _ Y0 ltac:(lia)) as [L|[L1 L2]]; [left; lia|]. right. split; lia.
Qed.
Lemma finish c l : forall a a' t, a_run c l a = Ok (a', t) -> a_timer a = 0 -> (ppot a <= app_mains l)%nat -> (4 <= idx (a_pc a) + length (app_calls t))%nat.
Proof.
  induction l as [|x l IH]; intros a a' t E T0 M; cbn [a_run] in E.
  - cbn in M. assert (X : a_pc a = A83) by (unfold ppot in M; destruct (a_pc a); auto; lia). rewrite X. cbn. lia.
  - bnd E. bnd E. inversion E; subst. clear E. rewrite calls_len. destruct (pc83_dec (a_pc a) x) as [[P ->]|NE]; [rewrite P; cbn; lia|].
    destruct (app_step _ _ _ _ _ Y NE) as (S1 & S2 & S3 & S4 & S5).
    assert (MA : app_mains (x :: l) = (app_mains [x] + app_mains l)%nat) by (change (x :: l) with ([x] ++ l); unfold app_mains; rewrite filter_app, app_length; reflexivity). rewrite MA in M.
    assert (Tx : a_timer m = 0) by (destruct x; [rewrite S2 by discriminate; auto|rewrite (S3 eq_refl), T0; reflexivity|rewrite S2 by discriminate; auto]).
    specialize (IH _ _ _ Y0 Tx). destruct x; [specialize (S5 eq_refl T0)|destruct (S4 ltac:(discriminate)) as [S6 _]|destruct (S4 ltac:(discriminate)) as [S6 _]]; cbn in M; lia.
Qed.
(** within five lines a round is over *)
Definition to_go (p : apc) : nat := match p with A55 | A66 => 0 | A79 => 5 | A80 => 4 | A81 => 3 | A82 => 2 | A83 => 1 end.
Lemma round_over c l : forall a a' t, a_run c l a = Ok (a', t) -> (to_go (a_pc a) <= app_mains l)%nat ->
  exists l1 l2 a1 t1 t2, l = l1 ++ l2 /\ a_run c l1 a = Ok (a1, t1) /\ a_run c l2 a1 = Ok (a', t2) /\ t = t1 ++ t2 /\ resting_pc (a_pc a1) = true.
Proof.
  induction l as [|x l IH]; intros a a' t E M.
  - inversion E; subst. exists [], [], a', [], []. repeat split; auto. cbn in M. destruct (a_pc a'); cbn in *; auto; lia.
  - destruct (resting_pc (a_pc a)) eqn:Rp. { exists [], (x :: l), a, [], t. auto. }
    cbn [a_run] in E. bnd E. bnd E. inversion E; subst. destruct (a_step_inv _ _ _ _ _ Y) as (_ & _ & _ & Pc).
    assert (MA : app_mains (x :: l) = (app_mains [x] + app_mains l)%nat) by (change (x :: l) with ([x] ++ l); unfold app_mains; rewrite filter_app, app_length; reflexivity). rewrite MA in M.
    assert (X : (to_go (a_pc m) <= app_mains l)%nat). { rewrite Pc. unfold next_pc. destruct x; cbn in M; [destruct (a_pc a); cbn in *; try discriminate; lia|auto|auto]. }
    destruct (IH _ _ _ Y0 X) as (l3 & l4 & a1 & t3 & t4 & -> & R1 & R2 & -> & Rp1). exists (x :: l3), l4, a1, (l0 ++ t3), t4. split; auto. cbn [a_run]. rewrite Y. cbn [bind]. rewrite R1. cbn [bind]. rewrite app_assoc. auto.
Qed.
(** *** rate from any state *)
Definition credit (a : mapp) : Z := if resting_pc (a_pc a) then a_timer a else 0.
Lemma idx_rest p : resting_pc p = true -> idx p = 0%nat.
Proof. destruct p; cbn; auto; discriminate. Qed.
Lemma rate c l : forall a a' t, a_run c l a = Ok (a', t) -> 0 <= a_timer a <= 300 ->
  exists k, (idx (a_pc a) + length (app_calls t) = 4 * k + idx (a_pc a'))%nat /\ 300 * Z.of_nat k + credit a <= Z.of_nat (app_ticks l) + credit a' /\ 0 <= a_timer a' <= 300.
Proof.
  induction l as [|x l IH]; intros a a' t E T0; cbn [a_run] in E.
  - inversion E; subst. exists 0%nat. cbn. split; lia.
  - bnd E. bnd E. inversion E; subst. clear E. rewrite calls_len.
    assert (X : exists k, (idx (a_pc a) + length (app_calls l0) = 4 * k + idx (a_pc m))%nat /\ 300 * Z.of_nat k + credit a <= Z.of_nat (app_ticks [x]) + credit m /\ 0 <= a_timer m <= 300).
    { destruct (a_step_inv _ _ _ _ _ Y) as (W & T & _ & Pc). destruct (w_emits _ _ _ _ _ W) as [_ Nc]. destruct (pc83_dec (a_pc a) x) as [[P ->]|NE].
      - cbn [proj] in *. rewrite P in *. unfold next_pc, next_timer in *. rewrite P in *. rewrite Nc by auto. exists 1%nat. unfold credit. rewrite P, Pc, T. cbn. unfold request_interval, UPDATE_INTERVAL_MS. lia.
      - destruct (app_step _ _ _ _ _ Y NE) as (S1 & S2 & S3 & S4 & S5). exists 0%nat. split; [lia|]. destruct x.
        + rewrite S2 by discriminate. split; [|lia]. unfold credit. unfold next_pc in Pc. rewrite S2 by discriminate. destruct (a_pc a) eqn:Ep; rewrite Pc; cbn; try lia; try (destruct NE; congruence); try (destruct (between_polls _); cbn; lia); destruct (a_timer a =? 0) eqn:Z0; cbn; lia.
        + destruct (S4 ltac:(discriminate)) as [_ S6]. rewrite (S3 eq_refl). unfold credit. rewrite S6, (S3 eq_refl). cbn. destruct (resting_pc _), (a_timer a =? 0) eqn:Z0; lia.
        + destruct (S4 ltac:(discriminate)) as [_ S6]. unfold credit. rewrite S6, S2 by discriminate. cbn. lia. }
    destruct X as (k1 & K1 & K2 & K3). destruct (IH _ _ _ Y0 K3) as (k2 & J1 & J2 & J3). exists (k1 + k2)%nat. change (x :: l) with ([x] ++ l).
    assert (TA : app_ticks ([x] ++ l) = (app_ticks [x] + app_ticks l)%nat) by (unfold app_ticks; rewrite filter_app, app_length; reflexivity). rewrite TA. repeat split; try lia.
Qed.
Lemma no_pdu_errors t : good_calls t -> pdu_errors (m_lib_of t) = 0%nat.
Proof.
  intros G. assert (H : forall q r, In (WLib (MTOut (MoRet q r))) t -> r = REQUEST_SEND_TO_QUEUE \/ r = FREE_QUEUE_EMPTY_ERROR).
  { intros q r Hq. apply in_split in Hq as (t1 & t2 & ->). apply (G t1 q r t2 eq_refl). }
  clear G. unfold m_lib_of. induction t as [|[[e|[]]|b] t IH]; cbn; auto; try (apply IH; intros q' r' Hq'; apply (H q' r'); now right).
  destruct (H a r (or_introl eq_refl)) as [-> | ->]; apply IH; intros q' r' Hq'; apply (H q' r'); now right.
Qed.
