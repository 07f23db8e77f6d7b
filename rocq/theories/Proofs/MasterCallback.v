(** Requests made inside a callback equal requests made right after the line that calls back. *)
From Verif Require Import Proofs.QueueP Proofs.MasterInv Proofs.MasterTrace Proofs.MasterHist Proofs.MasterHist2 Proofs.MasterDrive Proofs.Atomic Proofs.MasterAtomic Proofs.MasterFine Model.MasterCallback Spec.MasterCallback.
Local Open Scope Z_scope.

Lemma calls_app t1 t2 : calls_of (t1 ++ t2) = calls_of t1 ++ calls_of t2.
Proof. induction t1 as [|x t1 IH]; cbn [Datatypes.app calls_of]; [reflexivity|]. destruct x as [e|o]; [exact IH|]. destruct o; try exact IH. rewrite IH. reflexivity. Qed.
Lemma rest_app t1 t2 : rest_of (t1 ++ t2) = rest_of t1 ++ rest_of t2.
Proof. apply filter_app. Qed.
Lemma fly_msg c free pend l s j m : mbuf c free pend l s -> fly_line l = true -> mm_cur s = Some j -> nth_error (mm_msgs s) j = Some m -> ~ In j free.
Proof.
  intros B F Ec _ I. assert (N := mb_nd _ _ _ _ _ B). unfold fly in N. rewrite F, Ec in N. cbn [Datatypes.app] in N. inversion N as [|? ? X _]. apply X. apply in_or_app. right. exact I.
Qed.
(** the message under way during requests *)
Record busy (c : cfg) (l : mpc) (j : nat) (m : msg) (s : master) : Prop := { bu_buf : exists free pend, mbuf c free pend l s; bu_fly : fly_line l = true; bu_cur : mm_cur s = Some j; bu_msg : get_msg s j = Ok m }.
Lemma get_nth s j m : get_msg s j = Ok m -> nth_error (mm_msgs s) j = Some m.
Proof. unfold get_msg. intros H. apply aget_inv in H. rewrite Nat2Z.id in H. exact (proj2 H). Qed.
Lemma busy_req c l j m s a : cfg_master_ok c -> req_safe a -> busy c l j m s -> exists s' r, m_event c (MReq a) s = Ok (s', [MoRet a r]) /\ busy c l j m s'.
Proof.
  intros Hc Sa [(free & pend & B) F Ec Em]. destruct (req_event c a free pend l s Hc B Sa) as (s' & r & f' & p' & E & Q & B'). exists s', r. split; [exact E|].
  assert (N := fly_msg _ _ _ _ _ _ _ B F Ec (get_nth _ _ _ Em)). split; [eauto|exact F| |]; destruct Q as [|i f2 q|i f2 q q2 m1 m2 Ef]; mprj; auto.
  unfold get_msg in *. mprj. unfold aget in *. rewrite Nat2Z.id in *. destruct (Z.of_nat j <? 0); [discriminate Em|]. rewrite upd_nth_error_other; auto. intros ->. apply N. rewrite Ef. left. reflexivity.
Qed.
Lemma busy_reqs c l j m : cfg_master_ok c -> forall rs s, (forall a, In a rs -> req_safe a) -> busy c l j m s ->
  exists s' t, cb_requests c rs s = Ok (s', t) /\ busy c l j m s' /\ rest_of t = [] /\ forall pc, m_run c (map (fun a => MEv (MReq a)) rs) (mk_mconf s pc) = Ok (mk_mconf s' pc, t).
Proof.
  intros Hc. induction rs as [|a rs IH]; intros s Hs B; cbn [cb_requests map m_run]; [exists s, []; auto|].
  destruct (busy_req c l j m s a Hc (Hs a (or_introl eq_refl)) B) as (s1 & r & E1 & B1). destruct (IH s1 (fun b I => Hs b (or_intror I)) B1) as (s2 & t & E2 & B2 & R & X).
  rewrite E1. cbn [bind map Datatypes.app]. rewrite E2. cbn [bind]. do 2 eexists. split; [reflexivity|]. split; [exact B2|]. split; [exact R|].
  intros pc. cbn [m_act mc_s mc_pc]. rewrite E1. cbn [bind]. rewrite X. reflexivity.
Qed.
Lemma reqs_app c rs1 rs2 s : cb_requests c (rs1 ++ rs2) s = let* '(s1, t1) := cb_requests c rs1 s in let* '(s2, t2) := cb_requests c rs2 s1 in Ok (s2, t1 ++ t2).
Proof.
  revert s. induction rs1 as [|a rs1 IH]; intros s; cbn [Datatypes.app cb_requests bind]; [destruct (cb_requests c rs2 s) as [[s2 t2]| |]; reflexivity|].
  destruct (m_event c (MReq a) s) as [[s1 o]| |]; cbn [bind]; auto. rewrite IH. destruct (cb_requests c rs1 s1) as [[s2 t2]| |]; cbn [bind]; auto.
  destruct (cb_requests c rs2 s2) as [[s3 t3]| |]; cbn [bind]; auto. rewrite app_comm_cons, app_assoc. reflexivity.
Qed.
(** what a line with callbacks [l] comes to: the requests the callbacks make, the callbacks in order *)
Definition meets (c : cfg) (react : cb -> list api) (s : master) (u : outcome (list cb)) (g : outcome (master * list mitem)) : Prop :=
  match u with
  | Ok l => exists s' t t2, g = Ok (s', t) /\ cb_requests c (flat_map react l) s = Ok (s', t2) /\ calls_of t = calls_of t2 /\ rest_of t = map (fun x => MTOut (MoCb x)) l
  | UB => g = UB
  | Diverge => g = Diverge
  end.
Section R.
Context (c : cfg) (react : cb -> list api) (Hc : cfg_master_ok c) (Hr : forall x a, In a (react x) -> req_safe a).
Lemma meets_cons l j m s x u g : busy c l j m s -> (forall s', busy c l j m s' -> meets c react s' u (g s')) ->
  meets c react s (let* r := u in Ok (x :: r)) (let* '(s1, t) := call_back c react x s in let* '(s2, t') := g s1 in Ok (s2, t ++ t')).
Proof.
  intros B H. destruct (busy_reqs c l j m Hc (react x) s (Hr x) B) as (s1 & t & E & B1 & R & _). unfold call_back. rewrite E. cbn [bind]. specialize (H s1 B1).
  destruct u as [r| |]; cbn [meets bind] in *; [|rewrite H; reflexivity|rewrite H; reflexivity]. destruct H as (s2 & t1 & t2 & E2 & E3 & H1 & H2). rewrite E2. cbn [bind].
  exists s2, ((MTOut (MoCb x) :: t) ++ t1), (t ++ t2). split; [reflexivity|]. split; [cbn [flat_map]; rewrite reqs_app, E; cbn [bind]; rewrite E3; reflexivity|].
  split; [cbn [Datatypes.app calls_of]; rewrite !calls_app, H1; reflexivity|]. rewrite rest_app, H2. unfold rest_of in *. cbn [filter]. rewrite R. reflexivity.
Qed.
Lemma meets_nil s : meets c react s (Ok []) (Ok (s, [])).
Proof. exists s, [], []. auto. Qed.
Lemma meets_bits l j m mk sa da : forall n i s, busy c l j m s -> meets c react s (update_bits_loop n mk (m_resp m) sa da i) (g_bits_loop c react n mk j sa da i s).
Proof.
  induction n as [|n IH]; intros i s B; cbn [update_bits_loop g_bits_loop]; [apply meets_nil|]. rewrite (bu_msg _ _ _ _ _ B). cbn [bind].
  destruct (rd (m_resp m) (MODBUS_RESP_READ_DATA_IDX + i / 8)) as [b| |]; cbn [bind]; try reflexivity. apply (meets_cons l j m s _ _ (fun s => g_bits_loop c react n mk j sa da (i + 1) s)); [exact B|]. intros s' B'. apply IH. exact B'.
Qed.
Lemma meets_regs l j m mk sa da : forall n i s, busy c l j m s -> meets c react s (update_regs_loop n mk (m_resp m) sa da i) (g_regs_loop c react n mk j sa da i s).
Proof.
  induction n as [|n IH]; intros i s B; cbn [update_regs_loop g_regs_loop]; [apply meets_nil|]. rewrite (bu_msg _ _ _ _ _ B). cbn [bind].
  destruct (read_u16_from_buf (m_resp m) (MODBUS_RESP_READ_DATA_IDX + i * 2)) as [b| |]; cbn [bind]; try reflexivity. apply (meets_cons l j m s _ _ (fun s => g_regs_loop c react n mk j sa da (i + 1) s)); [exact B|]. intros s' B'. apply IH. exact B'.
Qed.
Lemma meets_all l j m : forall xs s, busy c l j m s -> meets c react s (Ok xs) (call_backs c react xs s).
Proof.
  induction xs as [|x xs IH]; intros s B; cbn [call_backs]; [apply meets_nil|]. apply (meets_cons l j m s x (Ok xs) (call_backs c react xs) B). exact IH.
Qed.
Definition cbs_of (u : outcome (Z * list cb)) : outcome (list cb) := let* '(_, l) := u in Ok l.
Lemma meets_data l j m s : busy c l j m s -> meets c react s (cbs_of (update_master_data_from_modbus_msg m)) (g_update_master_data c react j s).
Proof.
  intros B. unfold cbs_of, update_master_data_from_modbus_msg, g_update_master_data. rewrite (bu_msg _ _ _ _ _ B). cbn [bind].
  destruct (rd (m_resp m) MODBUS_SLAVE_ADR_IDX) as [sa| |]; cbn [bind]; try reflexivity. destruct (rd (m_resp m) MODBUS_FUNCTION_CODE_IDX) as [fc| |]; cbn [bind]; try reflexivity.
  destruct (read_u16_from_buf (m_req m) MODBUS_REQUEST_ADR_IDX) as [da| |]; cbn [bind]; try reflexivity. destruct (read_u16_from_buf (m_req m) MODBUS_REQUEST_QTY_IDX) as [dq| |]; cbn [bind]; try reflexivity.
  assert (L : forall u : outcome (list cb), (let* '(_, l0) := (let* l1 := u in Ok (RET_OK, l1)) in Ok l0) = u) by (intros [u| |]; reflexivity).
  repeat match goal with |- context [if ?b then _ else _] => destruct b end; rewrite ?L; first [apply (meets_bits l j m); exact B|apply (meets_regs l j m); exact B|apply meets_nil].
Qed.
Lemma meets_once l j m s u : busy c l j m s -> meets c react s (cbs_of (u m)) (let* m := get_msg s j in let* '(_, xs) := u m in call_backs c react xs s).
Proof. intros B. rewrite (bu_msg _ _ _ _ _ B). cbn [bind]. unfold cbs_of. destruct (u m) as [[z xs]| |]; cbn [bind]; try reflexivity. apply (meets_all l j m). exact B. Qed.
Lemma meets_resp l j m s : busy c l j m s -> meets c react s (cbs_of (modbus_master_read_slave_resp m)) (g_read_slave_resp c react j s).
Proof.
  intros B. unfold modbus_master_read_slave_resp, g_read_slave_resp. rewrite (bu_msg _ _ _ _ _ B). cbn [bind]. destruct (negb _); [apply meets_nil|].
  destruct (modbus_response_contain_exception_code m) as [[|]| |]; cbn [bind]; try reflexivity.
  - apply (meets_once l j m s process_modbus_exception_code B).
  - unfold process_modbus_response. destruct (rd (m_req m) MODBUS_FUNCTION_CODE_IDX) as [fc| |]; cbn [bind]; try reflexivity.
    unfold modbus_master_function_mapper, g_mapper. cbn [find_resp_handler]. repeat match goal with |- context [if ?b then _ else _] => destruct b end;
      first [apply (meets_data l j m s B)|apply (meets_once l j m s report_write_operation_confirmation B)|apply meets_nil].
Qed.
End R.
Lemma busy_at c t l s : Minv c t l s -> fly_line l = true -> exists j m, busy c l j m s /\ cur_msg s = Ok (j, m).
Proof.
  intros M F. destruct (Minv_bufs _ _ _ _ M) as (free & pend & B & _). assert (X := mb_cur _ _ _ _ _ B F). destruct (mm_cur s) as [j|] eqn:E; [|destruct (X eq_refl)].
  assert (L := mb_lt _ _ _ _ _ B). unfold fly in L. rewrite F, E in L. inversion L as [|? ? L1 _]; subst. destruct (nth_error (mm_msgs s) j) as [m|] eqn:N; [|apply nth_error_None in N; rewrite (mb_len _ _ _ _ _ B) in N; lia].
  assert (C : cur_msg s = Ok (j, m)) by (apply cur_msg_inv; auto). exists j, m. split; [|exact C]. split; [exists free, pend; exact B|exact F|exact E|].
  unfold cur_msg in C. rewrite E in C. apply bind_ok in C as (m1 & C & D). injection D as <-. exact C.
Qed.
Definition lines_meet (c : cfg) (l : mpc) (s : master) (react : cb -> list api) : Prop :=
  match m_line c l s with
  | Ok (l', s1, o) => exists rs s' t t2, g_line c react l s = Ok (l', s', t) /\ (forall a, In a rs -> req_safe a) /\
      m_run c (map (fun a => MEv (MReq a)) rs) (mk_mconf s1 l') = Ok (mk_mconf s' l', t2) /\ calls_of t = calls_of (map MTOut o ++ t2) /\ rest_of t = rest_of (map MTOut o ++ t2)
  | UB => g_line c react l s = UB
  | Diverge => g_line c react l s = Diverge
  end.
Lemma cbs_calls l t : calls_of (map MTOut (map MoCb l) ++ t) = calls_of t /\ rest_of (map MTOut (map MoCb l) ++ t) = map (fun x => MTOut (MoCb x)) l ++ rest_of t.
Proof. unfold rest_of. induction l as [|x l [IH1 IH2]]; [split; reflexivity|]. cbn [map Datatypes.app calls_of filter]. rewrite IH1, IH2. split; reflexivity. Qed.
Lemma meets_line c react s l l' j m xs g : cfg_master_ok c -> (forall x a, In a (react x) -> req_safe a) -> busy c l j m s -> meets c react s (Ok xs) g ->
  exists rs s' t t2, (let* '(s, t) := g in Ok (Some l', s, t)) = Ok (Some l', s', t) /\ (forall a, In a rs -> req_safe a) /\
    m_run c (map (fun a => MEv (MReq a)) rs) (mk_mconf s (Some l')) = Ok (mk_mconf s' (Some l'), t2) /\ calls_of t = calls_of (map MTOut (map MoCb xs) ++ t2) /\ rest_of t = rest_of (map MTOut (map MoCb xs) ++ t2).
Proof.
  intros Hc Hr B (s' & t & t2 & -> & E & H1 & H2). assert (Sf : forall a, In a (flat_map react xs) -> req_safe a) by (intros a I; apply in_flat_map in I as (x & _ & I); eapply Hr; eauto).
  destruct (busy_reqs c l j m Hc (flat_map react xs) s Sf B) as (s2 & t3 & E2 & _ & R & X). rewrite E in E2. injection E2 as <- <-.
  exists (flat_map react xs), s', t, t2. split; [reflexivity|]. split; [exact Sf|]. split; [apply X|]. destruct (cbs_calls xs t2) as [-> ->]. rewrite R, app_nil_r. auto.
Qed.
Lemma meets_one c react s l j m x : cfg_master_ok c -> (forall x a, In a (react x) -> req_safe a) -> busy c l j m s -> meets c react s (Ok [x]) (call_back c react x s).
Proof.
  intros Hc Hr B. assert (X := meets_all c react Hc Hr l j m [x] s B). cbn [call_backs] in X. destruct (call_back c react x s) as [[s1 t]| |]; cbn [bind] in X; auto. rewrite app_nil_r in X. exact X.
Qed.
Lemma line_meets c t l s react : cfg_master_ok c -> (forall x a, In a (react x) -> req_safe a) -> Minv c t l s -> lines_meet c l s react.
Proof.
  intros Hc Hr M.
  assert (D : g_line c react l s = (let* '(l', s, o) := m_line c l s in Ok (l', s, map MTOut o)) -> lines_meet c l s react).
  { intros E. unfold lines_meet. rewrite E. destruct (m_line c l s) as [[[l' s1] o]| |]; cbn [bind]; auto. exists [], s1, (map MTOut o), []. rewrite app_nil_r. split; [reflexivity|]. split; [intros a []|]. auto. }
  destruct l; try (apply D; reflexivity); destruct (busy_at _ _ _ _ M eq_refl) as (j & m & B & C); unfold lines_meet; cbn [m_line g_line]; rewrite C; cbn [bind].
  - destruct (timeout_report m) as [r| |]; cbn [bind]; auto. eapply (meets_line c react s _ M900 j m [_]); eauto. eapply meets_one; eauto.
  - assert (X := meets_resp c react Hc Hr _ j m s B). unfold cbs_of in X. destruct (modbus_master_read_slave_resp m) as [[z xs]| |]; cbn [bind] in *; [|cbn [meets] in X; rewrite X; reflexivity|cbn [meets] in X; rewrite X; reflexivity].
    eapply (meets_line c react s _ M900 j m xs); eauto.
  - destruct (comm_report m RESP_RTU_CRC_ERR) as [r| |]; cbn [bind]; auto. eapply (meets_line c react s _ M900 j m [_]); eauto. eapply meets_one; eauto.
  - destruct (comm_report m RESP_FRAME_ERR) as [r| |]; cbn [bind]; auto. eapply (meets_line c react s _ M900 j m [_]); eauto. eapply meets_one; eauto.
Qed.
(** *** runs *)
Lemma reqs_free_safe rs : (forall a, In a rs -> req_safe a) -> reqs_safe (map (fun a => MEv (MReq a)) rs).
Proof. intros H a I. apply in_map_iff in I as (b & [= <-] & I). auto. Qed.
Theorem callbacks_run c : cfg_master_ok c -> forall acts t k, Minv c t (mloc k) (mc_s k) -> g_safe acts ->
  match g_run c acts k with
  | Ok (k', t') => exists sched t2, after_line acts sched /\ reqs_safe sched /\ m_run c sched k = Ok (k', t2) /\ calls_of t2 = calls_of t' /\ rest_of t2 = rest_of t'
  | UB => exists sched, reqs_safe sched /\ m_run c sched k = UB
  | Diverge => False
  end.
Proof.
  intros Hc. induction acts as [|x acts IH]; intros t k M Sf; cbn [g_run]; [exists [], []; split; [constructor|]; split; [intros a []|]; auto|]. inversion Sf as [|? ? S1 S2]; subst.
  assert (St : forall l1, reqs_safe l1 -> (forall l2, after_line acts l2 -> after_line (x :: acts) (l1 ++ l2)) -> forall k1 t1 u1, m_run c l1 k = Ok (k1, u1) -> calls_of u1 = calls_of t1 -> rest_of u1 = rest_of t1 -> g_act c x k = Ok (k1, t1) ->
    match (let* '(k1, t1) := g_act c x k in let* '(k2, t2) := g_run c acts k1 in Ok (k2, t1 ++ t2)) with
    | Ok (k', t') => exists sched t2, after_line (x :: acts) sched /\ reqs_safe sched /\ m_run c sched k = Ok (k', t2) /\ calls_of t2 = calls_of t' /\ rest_of t2 = rest_of t'
    | UB => exists sched, reqs_safe sched /\ m_run c sched k = UB
    | Diverge => False
    end).
  { intros l1 Hl Al k1 t1 u1 E1 E2 E3 Eg. rewrite Eg. cbn [bind]. assert (M1 := Minv_run c l1 t k k1 u1 Hc Hl M E1). specialize (IH _ _ M1 S2). destruct (g_run c acts k1) as [[k2 t2]| |]; cbn [bind]; auto.
    - destruct IH as (sc & t3 & A & Sc & R & X1 & X2). exists (l1 ++ sc), (u1 ++ t3). split; [apply Al, A|]. split; [intros a I; apply in_app_or in I as [I|I]; auto|].
      rewrite m_run_app, E1. cbn [bind fst snd]. rewrite R. cbn [bind]. rewrite !calls_app, !rest_app, E2, E3, X1, X2. auto.
    - destruct IH as (sc & Sc & R). exists (l1 ++ sc). split; [intros a I; apply in_app_or in I as [I|I]; auto|]. rewrite m_run_app, E1. cbn [bind fst snd]. rewrite R. reflexivity. }
  assert (One : forall y, reqs_safe [y] -> g_act c x k = m_act c y k -> (forall l2, after_line acts l2 -> after_line (x :: acts) ([y] ++ l2)) ->
    match (let* '(k1, t1) := g_act c x k in let* '(k2, t2) := g_run c acts k1 in Ok (k2, t1 ++ t2)) with
    | Ok (k', t') => exists sched t2, after_line (x :: acts) sched /\ reqs_safe sched /\ m_run c sched k = Ok (k', t2) /\ calls_of t2 = calls_of t' /\ rest_of t2 = rest_of t'
    | UB => exists sched, reqs_safe sched /\ m_run c sched k = UB
    | Diverge => False
    end).
  { intros y Sy E Al. destruct (m_act c y k) as [[k1 t1]| |] eqn:Ey.
    - apply (St [y] Sy Al k1 t1 t1); auto. cbn [m_run]. rewrite Ey. cbn [bind]. rewrite app_nil_r. reflexivity.
    - rewrite E. cbn [bind]. exists [y]. split; [exact Sy|]. cbn [m_run]. rewrite Ey. reflexivity.
    - exfalso. apply (nd_run c Hc [y] t k Sy M). cbn [m_run]. rewrite Ey. reflexivity. }
  destruct x as [react|e].
  - destruct (mc_pc k) as [l|] eqn:Pc.
    + assert (Ml : Minv c t l (mc_s k)) by (unfold mloc in M; rewrite Pc in M; exact M). assert (X := line_meets c t l (mc_s k) react Hc S1 Ml). unfold lines_meet in X.
      destruct (m_line c l (mc_s k)) as [[[l' s1] o]| |] eqn:El.
      * destruct X as (rs & s' & t1 & t2 & Eg & Sr & R & X1 & X2). apply (St (MStep :: map (fun a => MEv (MReq a)) rs) ) with (k1 := mk_mconf s' l') (u1 := map MTOut o ++ t2) (t1 := t1); auto.
        { intros a [I|I]; [discriminate I|]. apply (reqs_free_safe rs Sr a I). } { intros l2 A. apply (al_step react rs acts l2 A). }
        { cbn [m_run m_act]. rewrite Pc, El. cbn [bind]. rewrite R. reflexivity. } { cbn [g_act]. rewrite Pc, Eg. reflexivity. }
      * cbn [g_act]. rewrite Pc, X. cbn [bind]. exists [MStep]. split; [intros a [I|[]]; discriminate I|]. cbn [m_run m_act]. rewrite Pc, El. reflexivity.
      * exfalso. apply (nd_run c Hc [MStep] t k); [intros a [I|[]]; discriminate I|exact M|]. cbn [m_run m_act]. rewrite Pc, El. reflexivity.
    + apply (One MStep); [intros a [I|[]]; discriminate I|cbn [g_act]; rewrite Pc; reflexivity|]. intros l2 A. apply (al_step react [] acts l2 A).
  - apply (One (MEv e)); [intros a [[= ->]|[]]; exact S1|reflexivity|]. intros l2 A. apply (al_ev e acts l2 A).
Qed.
(** *** one message buffer *)
Lemma one_busy_refused c l j m s a : c_queue c = 1 -> busy c l j m s -> m_event c (MReq a) s = Ok (s, [MoRet a FREE_QUEUE_EMPTY_ERROR]).
Proof.
  intros N [(free & pend & B) F Ec _]. assert (L := nodup_room _ _ (mb_nd _ _ _ _ _ B) (mb_lt _ _ _ _ _ B)). unfold fly in L. rewrite F, Ec in L. cbn [Datatypes.app length] in L. rewrite app_length, N in L.
  assert (free = []) by (destruct free; auto; cbn [length] in L; lia). subst free. cbn [m_event]. rewrite (req_none c a s (mb_free _ _ _ _ _ B)). reflexivity.
Qed.
Definition all_refused (t : list mitem) : Prop := forall a r, In (a, r) (calls_of t) -> r = FREE_QUEUE_EMPTY_ERROR.
Lemma one_reqs c l j m : c_queue c = 1 -> forall rs s s' t, busy c l j m s -> cb_requests c rs s = Ok (s', t) -> s' = s /\ all_refused t.
Proof.
  intros N. induction rs as [|a rs IH]; intros s s' t B E; cbn [cb_requests] in E; [injection E as <- <-; split; [reflexivity|intros a r []]|].
  rewrite (one_busy_refused c l j m s a N B) in E. cbn [bind map Datatypes.app] in E. apply bind_ok in E as ([s2 t2] & E & X). injection X as <- <-. destruct (IH _ _ _ B E) as (-> & H). split; [reflexivity|].
  intros b r [[= <- <-]|I]; [reflexivity|exact (H b r I)].
Qed.
Lemma quiet_lines c l s l' s' o : m_line c l s = Ok (l', s', o) -> calls_of (map MTOut o) = [].
Proof. intros E. destruct l; mline_inv E; try reflexivity. match goal with |- calls_of (map MTOut (map MoCb ?x)) = _ => assert (X1 := proj1 (cbs_calls x [])) end. rewrite app_nil_r in X1. exact X1. Qed.
Lemma one_buffer_line c t l s react l' s' o : cfg_master_ok c -> c_queue c = 1 -> (forall x a, In a (react x) -> req_safe a) -> Minv c t l s -> g_line c react l s = Ok (l', s', o) -> all_refused o.
Proof.
  intros Hc N Hr M E.
  assert (D : (let* '(l', s, o) := m_line c l s in Ok (l', s, map MTOut o)) = Ok (l', s', o) -> all_refused o).
  { intros E2. apply bind_ok in E2 as ([[l2 s2] o2] & E2 & X). injection X as _ _ <-. intros a r I. rewrite (quiet_lines _ _ _ _ _ _ E2) in I. destruct I. }
  destruct l; try (apply D; exact E); destruct (busy_at _ _ _ _ M eq_refl) as (j & m & B & C); cbn [g_line] in E; rewrite C in E; cbn [bind] in E.
  all: try match type of E with (let* r := _ in let* '(s, t) := _ in _) = _ => apply bind_ok in E as (rp & _ & E) end; apply bind_ok in E as ([s2 t2] & E & X); injection X as _ _ <-.
  all: try (unfold call_back in E; apply bind_ok in E as ([s3 t3] & E & X); injection X as _ <-; exact (proj2 (one_reqs c _ j m N _ _ _ _ B E))).
  assert (Y := meets_resp c react Hc Hr _ j m s B). rewrite E in Y. destruct (cbs_of (modbus_master_read_slave_resp m)) as [xs| |]; cbn [meets] in Y; try discriminate Y.
  destruct Y as (s3 & t3 & t4 & Y & R & Cs & _). injection Y as <- <-. destruct (one_reqs c _ j m N _ _ _ _ B R) as [_ H]. intros a r I. rewrite Cs in I. exact (H a r I).
Qed.
