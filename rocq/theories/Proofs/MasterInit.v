(** C102, C103: the master's initialisation with interrupts. *)
From Verif Require Export Proofs.MasterApp Model.MasterInit Spec.MasterInit.
From Verif Require Import Proofs.MasterWire.

Definition jnum (p : option jpc) : nat :=
  match p with
  | Some J313 => 0 | Some J314 => 1 | Some J315 => 2 | Some J316 => 3 | Some J318 => 4 | Some K72 => 5 | Some K73 => 6 | Some K74 => 7 | Some K75 => 8 | Some K76 => 9
  | Some J322 => 10 | Some J323 => 11 | Some J324 => 12 | Some J325 => 13 | Some J327 => 14 | Some J328 => 15 | Some J329 => 16 | Some J330 => 17 | Some J331 => 18
  | Some J333 => 19 | Some J334 => 20 | Some J335 => 21 | None => 22
  end%nat.
Lemma jnum_none p : jnum p = 22%nat -> p = None.
Proof. destruct p as [[]|]; cbn; intros; (lia || reflexivity). Qed.
Lemma jnum_le p : (jnum p <= 22)%nat.
Proof. destruct p as [[]|]; cbn; lia. Qed.
Lemma jnum_line c x y : j_line c x = Ok y -> jnum (j_pc y) = Nat.min 22 (S (jnum (j_pc x))).
Proof.
  unfold j_line. destruct (j_pc x) as [[]|] eqn:P; intros E; try (injection E as <-; cbn; rewrite ?P; reflexivity).
  apply bind_ok in E as (q & _ & E). injection E as <-. reflexivity.
Qed.

(** *** nothing received *)
Fixpoint jlines (n : nat) (c : cfg) (x : minit) : outcome minit := match n with O => Ok x | S n => let* y := j_line c x in jlines n c y end.
(** other timers *)
Definition wt (tm ut : Z) (x : minit) : minit := mk_minit (m_set_timer (j_lib x) tm) (j_u x) (j_ue x) (j_nu x) (j_nt x) (j_subs x) ut (j_pc x).
Definition last_line (p : option jpc) : bool := match p with Some J335 => true | _ => false end.
Lemma line_wt c tm ut x y : j_line c x = Ok y -> j_line c (wt tm ut x) = Ok (wt (if last_line (j_pc x) then 0 else tm) ut y).
Proof.
  unfold j_line. cbn [wt j_pc]. destruct (j_pc x) as [[]|] eqn:P; intros E; try (injection E as <-; cbn; reflexivity).
  cbn [wt j_lib m_set_timer mm_free]. apply bind_ok in E as (q & E1 & E). injection E as <-. rewrite E1. reflexivity.
Qed.
Definition jcalm (u : uart) : Prop := u_tdr u = None /\ u_rdr u = None /\ u_txeie u = false /\ u_rtof u = false /\ u_cen u = false /\ u_uif u = false.
Lemma jcalm_line c x y : j_line c x = Ok y -> jcalm (j_u x) -> jcalm (j_u y).
Proof.
  unfold j_line. destruct (j_pc x) as [[]|] eqn:P; intros E; try (injection E as <-; cbn; auto).
  apply bind_ok in E as (q & _ & E). injection E as <-. auto.
Qed.
Lemma tick_wt c s : exists tm, j_event c MTick s = Ok (m_set_timer s tm, [WLib (MTEv MTick)]) /\ (mm_timer s = 0 -> tm = 0).
Proof.
  unfold j_event. cbn [m_event]. cbn [m_set_sub mm_timer]. destruct (mm_timer s =? 0) eqn:Z; cbn [negb bind].
  - exists (mm_timer s). split; [destruct s; reflexivity|auto].
  - exists (mm_timer s - 1). split; [destruct s; reflexivity|]. apply Z.eqb_neq in Z. lia.
Qed.
Lemma jcalm_act c a tm ut x : jcalm (j_u x) -> m_quiet a = true -> a <> WMain ->
  exists tm' t, j_act c a (wt tm ut x) = Ok (wt tm' (if match a with WTick => true | _ => false end then if ut =? 0 then 0 else ut - 1 else ut) x, t) /\ (tm = 0 -> tm' = 0) /\ m_on_line t = [] /\ visible (m_lib_of t) = [].
Proof.
  intros (U1 & U2 & U3 & U4 & U5 & U6) Q M. destruct a; try discriminate; try congruence; cbn [j_act wt j_u j_lib j_nu j_nt j_ue j_subs j_timer j_pc].
  - exists tm, []. unfold w_pending. rewrite U1, U2, U3, U4. cbn [orb]. rewrite andb_false_r. auto.
  - exists tm, []. unfold j_timer_irq. rewrite U6. cbn [bind]. destruct (j_nt x) eqn:N; auto. unfold wt. rewrite N. auto.
  - destruct (tick_wt c (m_set_timer (j_lib x) tm)) as (tm' & E & Z). rewrite E. cbn [bind]. exists tm'. eexists. split; [reflexivity|]. auto.
  - exists tm, []. auto.
  - exists tm, []. rewrite U1. auto.
  - exists tm, []. rewrite U5. auto.
Qed.
Lemma visible_nil_app t1 t2 : visible (m_lib_of t1) = [] -> visible (m_lib_of t2) = [] -> visible (m_lib_of (t1 ++ t2)) = [].
Proof. intros H1 H2. unfold m_lib_of in *. rewrite flat_map_app, visible_app, H1, H2. reflexivity. Qed.
Definition after_ticks (n : nat) (ut : Z) : Z := Z.max 0 (ut - Z.of_nat n).
Lemma m_silent_run c l : forall x y tm ut, jcalm (j_u x) -> m_silent l = true -> 0 <= ut -> jlines (w_mains l) c x = Ok y -> (j_pc x = None -> tm = 0) ->
  exists tm' t, j_run c l (wt tm ut x) = Ok (wt tm' (after_ticks (w_ticks l) ut) y, t) /\ (j_pc y = None -> tm' = 0) /\ m_on_line t = [] /\ visible (m_lib_of t) = [].
Proof.
  induction l as [|a l IH]; intros x y tm ut U Q G L Z.
  - cbn in L. injection L as <-. exists tm, []. cbn. unfold after_ticks. rewrite Z.sub_0_r, Z.max_r by lia. auto.
  - cbn [m_silent forallb] in Q. apply andb_true_iff in Q. destruct Q as (Q & Ql). cbn [j_run].
    assert (D : a = WMain \/ a <> WMain) by (destruct a; (left; reflexivity) || (right; discriminate)). destruct D as [->|M].
    + change (w_mains (WMain :: l)) with (S (w_mains l)) in L. cbn [jlines] in L. apply bind_ok in L as (x1 & L1 & L). cbn [j_act]. rewrite (line_wt _ _ _ _ _ L1). cbn [bind].
      destruct (IH x1 y (if last_line (j_pc x) then 0 else tm) ut (jcalm_line _ _ _ L1 U) Ql G L) as (tm' & t & E & Z' & O & V).
      { destruct (last_line (j_pc x)) eqn:La; auto. intros P. apply Z. assert (N := jnum_line _ _ _ L1). rewrite P in N. cbn [jnum] in N. assert (H := jnum_le (j_pc x)).
        destruct (j_pc x) as [[]|]; cbn in N, La; try lia; try discriminate; auto. }
      rewrite E. cbn [bind]. exists tm'. eexists. split; [reflexivity|]. auto.
    + destruct (jcalm_act c a tm ut x U Q M) as (tm1 & t1 & E1 & Z1 & O1 & V1). rewrite E1. cbn [bind].
      replace (w_mains (a :: l)) with (w_mains l) in L by (destruct a; try reflexivity; congruence).
      set (ut1 := if match a with WTick => true | _ => false end then if ut =? 0 then 0 else ut - 1 else ut) in *.
      assert (G1 : 0 <= ut1) by (unfold ut1; destruct (ut =? 0) eqn:Zu; destruct a; try apply Z.eqb_neq in Zu; lia).
      destruct (IH x y tm1 ut1 U Ql G1 L ltac:(auto)) as (tm' & t & E & Z' & O & V). rewrite E. cbn [bind]. exists tm'. eexists. split; [|split; [exact Z'|split]].
      * f_equal. f_equal. f_equal. unfold after_ticks, ut1. destruct a; try reflexivity. change (w_ticks (WTick :: l)) with (S (w_ticks l)). destruct (ut =? 0) eqn:Zu; [apply Z.eqb_eq in Zu|apply Z.eqb_neq in Zu]; lia.
      * unfold m_on_line in *. rewrite flat_map_app, O1, O. reflexivity.
      * now apply visible_nil_app.
Qed.
Lemma jlines_more n c x : j_pc x = None -> jlines n c x = Ok x.
Proof. intros P. induction n as [|n IH]; cbn [jlines]; auto. unfold j_line. rewrite P. cbn [bind]. auto. Qed.
Lemma jlines_add n m c x y : jlines n c x = Ok y -> jlines (n + m) c x = jlines m c y.
Proof. revert x. induction n as [|n IH]; intros x E; cbn [jlines Nat.add] in *; [congruence|]. apply bind_ok in E as (x1 & E1 & E). rewrite E1. cbn [bind]. auto. Qed.
(** the lines, one after the other, are the function of Model/Master.v *)
Definition j_done (x : minit) (s : master) : minit :=
  let u := j_u x in
  mk_minit s (mk_uart (u_cur u) (u_last u) false (u_tdr u) (u_rdr u) (u_txeie u) (u_rtof u) (u_cen u) (u_uif u)) true true true (mk_jsubs true true true true) (j_timer x) None.
Lemma jlines_init c x s n : j_pc x = Some J313 -> modbus_master_init c RTU (j_lib x) = Ok s -> (22 <= n)%nat -> jlines n c x = Ok (j_done x s).
Proof.
  intros P E N. assert (X : jlines 22 c x = Ok (j_done x s)).
  { destruct x as [s0 u ue nu nt b ut p]. cbn [j_pc j_lib] in *. subst p. unfold modbus_master_init in E. apply bind_ok in E as (q & E1 & E).
    cbn [jlines j_line j_pc j_set bind j_lib j_u j_ue j_nu j_nt j_subs j_timer].
    match goal with |- context [push_all_loop ?a ?b ?d ?e] => change (push_all_loop a b d e) with (push_all_loop a b d (mm_free (m_set_txq (m_set_free (register_msg_req_resp_data_buffers RTU s0) (modbus_queue_init (mm_free (register_msg_req_resp_data_buffers RTU s0)))) (modbus_queue_init (mm_txq (m_set_free (register_msg_req_resp_data_buffers RTU s0) (modbus_queue_init (mm_free (register_msg_req_resp_data_buffers RTU s0))))))))) end.
    rewrite E1. injection E as <-. reflexivity. }
  replace n with (22 + (n - 22))%nat by lia. rewrite (jlines_add _ _ _ _ _ X). apply jlines_more. reflexivity.
Qed.
Lemma wt_self x : wt (mm_timer (j_lib x)) (j_timer x) x = x.
Proof. destruct x as [s ? ? ? ? ? ? ?]. destruct s. reflexivity. Qed.
Lemma timer_self s : mm_timer s = 0 -> m_set_timer s 0 = s.
Proof. destruct s; cbn; intros ->; reflexivity. Qed.
Lemma silent_init c x s l : j_pc x = Some J313 -> modbus_master_init c RTU (j_lib x) = Ok s -> jcalm (j_u x) -> 0 <= j_timer x -> m_silent l = true -> (22 <= w_mains l)%nat ->
  exists t, j_run c l x = Ok (wt 0 (after_ticks (w_ticks l) (j_timer x)) (j_done x s), t) /\ m_on_line t = [] /\ visible (m_lib_of t) = [].
Proof.
  intros P E U G Q M. destruct (m_silent_run c l x (j_done x s) (mm_timer (j_lib x)) (j_timer x) U Q G (jlines_init c x s _ P E M)) as (tm & t & R & Z & O); [congruence|].
  rewrite wt_self in R. rewrite (Z eq_refl) in R. exists t. auto.
Qed.

(** *** in a running firmware, with characters *)
Definition fetch_ok (c : cfg) (u : uart) : Prop :=
  u_cur u < u_last u -> exists i, (i < Z.to_nat (c_queue c))%nat /\ 256 * Z.of_nat i <= u_cur u /\ u_last u <= 256 * Z.of_nat i + 255.
Record jmem (c : cfg) (s : master) : Prop := {
  jm_len : length (mm_msgs s) = Z.to_nat (c_queue c);
  jm_msgs : Forall msg_ok (mm_msgs s);
  jm_free : length (q_slots (mm_free s)) = Z.to_nat (c_queue c);
  jm_txq : length (q_slots (mm_txq s)) = Z.to_nat (c_queue c);
  jm_rx : forall i, mm_rx s = Some i -> (i < Z.to_nat (c_queue c))%nat }.
Record jinv (c : cfg) (x : minit) : Prop := {
  ji_mem : jmem c (j_lib x);
  ji_subs : j_subs x = mk_jsubs true true true true;
  ji_fetch : fetch_ok c (j_u x);
  ji_rdr : u_rdr (j_u x) <> None -> mm_rx (j_lib x) <> None;
  ji_free : match j_pc x with Some J315 | Some J316 => rep (c_queue c) (mm_free (j_lib x)) [] | _ => True end }.
Lemma jmem_event c e s : is_req e = false -> jmem c s ->
  exists s', j_event c e s = Ok (s', [WLib (MTEv e)]) /\ jmem c s' /\ mm_rx s' = mm_rx s /\ mm_free s' = mm_free s.
Proof.
  intros Q [L M F T R]. unfold j_event. destruct e; try discriminate Q; cbn [m_event m_set_sub mm_sub mm_rx mm_timer bind map].
  1-4: eexists; split; [reflexivity|]; mprj; split; [split; mprj; auto|auto].
  - destruct (mm_rx s) as [i|] eqn:Rx.
    + assert (Li : (i < length (mm_msgs s))%nat) by (rewrite L; auto).
      destruct (nth_error (mm_msgs s) i) as [m|] eqn:N; [|apply nth_error_None in N; lia].
      match goal with |- context [get_msg ?s1 i] => assert (G : get_msg s1 i = Ok m) by (apply get_msg_some; exact N); rewrite G end. cbn [bind].
      assert (Hm : msg_ok m) by (eapply Forall_forall; [exact M|eapply nth_error_In; eauto]). assert (Hm' := Hm). destruct Hm' as [_ (P & Ll & By & Hl)].
      rewrite wr_ok by (auto; unfold byte in Hl; lia). cbn [bind]. rewrite put_msg_ok by exact Li. cbn [bind]. eexists. split; [reflexivity|]. mprj. split; [|auto].
      split; mprj; auto; try (rewrite upd_length; exact L). 2: (intros i0 H0; apply R; congruence). apply Forall_upd; auto. split; [apply Hm|]. apply (rx_put_ok (m_resp m) b). apply Hm.
    + cbn [bind]. eexists. split; [reflexivity|]. mprj. split; [split; mprj; auto|auto]. intros i H. congruence.
  - destruct (negb _); cbn [bind]; eexists; (split; [reflexivity|]); mprj; split; auto; split; mprj; auto.
Qed.
Lemma j_usart_total c s u : jmem c s -> fetch_ok c u -> (u_rdr u <> None -> mm_rx s <> None) ->
  exists s' u' t, j_usart c (mk_jsubs true true true true) s u = Ok (s', u', t) /\ jmem c s' /\ fetch_ok c u' /\ u_rdr u' = None /\ mm_rx s' = mm_rx s /\ mm_free s' = mm_free s.
Proof.
  intros M F G. unfold j_usart.
  assert (A : exists s1 u1 t1, j_usart_rx c (mk_jsubs true true true true) s u = Ok (s1, u1, t1) /\ jmem c s1 /\ u_rdr u1 = None /\ mm_rx s1 = mm_rx s /\ mm_free s1 = mm_free s /\ u_cur u1 = u_cur u /\ u_last u1 = u_last u).
  { unfold j_usart_rx. destruct (u_rdr u) as [v|] eqn:Q; [|eauto 15]. destruct (mm_rx s) eqn:R; [|exfalso; apply G; congruence].
    destruct (jmem_event c (MRx v) s eq_refl M) as (s1 & E1 & M1 & R1 & F1). rewrite E1. cbn [bind e_fe]. destruct (u_det u).
    - destruct (jmem_event c MFrameErr s1 eq_refl M1) as (s2 & E2 & M2 & R2 & F2). rewrite E2. cbn [bind]. do 3 eexists. split; [reflexivity|]. split; [auto|]. split; [reflexivity|]. split; [congruence|]. split; [congruence|]. auto.
    - do 3 eexists. split; [reflexivity|]. split; [auto|]. split; [reflexivity|]. split; [congruence|]. split; [congruence|]. auto. }
  destruct A as (s1 & u1 & t1 & E1 & M1 & D1 & R1 & F1 & C1 & L1). rewrite E1. cbn [bind].
  assert (A : exists s2 u2 t2, j_usart_tx c (mk_jsubs true true true true) s1 u1 = Ok (s2, u2, t2) /\ jmem c s2 /\ u_rdr u2 = None /\ mm_rx s2 = mm_rx s /\ mm_free s2 = mm_free s /\ fetch_ok c u2).
  { assert (F' : fetch_ok c u1) by (unfold fetch_ok in *; rewrite C1, L1; exact F).
    unfold j_usart_tx. destruct (u_tdr u1); [eauto 15|]. destruct (u_cur u1 <? u_last u1) eqn:Lt.
    - destruct (F' ltac:(lia)) as (i & Li & B1 & B2). unfold req_byte.
      assert (Sm : u_cur u1 + 1 = (u_cur u1 + 1 - 256 * Z.of_nat i) + Z.of_nat i * 256) by lia. rewrite Sm, Z.mod_add, Z.div_add by lia. rewrite Z.mod_small, Z.div_small by lia.
      replace (u_cur u1 + 1 - 256 * Z.of_nat i =? 0) with false by lia. rewrite Z.add_0_l, Nat2Z.id. cbn [mc_s].
      assert (Li' : (i < length (mm_msgs s1))%nat) by (rewrite (jm_len _ _ M1); auto). destruct (nth_error (mm_msgs s1) i) as [m|] eqn:N; [|apply nth_error_None in N; lia].
      assert (Gm : get_msg s1 i = Ok m) by (apply get_msg_some; exact N). rewrite Gm. cbn [bind].
      assert (Hm : msg_ok m) by (eapply Forall_forall; [apply (jm_msgs _ _ M1)|eapply nth_error_In; eauto]). destruct Hm as [(P & Ll & _) _]. rewrite rd_ok by (auto; lia). cbn [bind].
      do 3 eexists. split; [reflexivity|]. cbn [u_rdr u_cur u_last]. split; [auto|]. split; [auto|]. split; [auto|]. split; [auto|]. intros _. exists i. cbn [u_cur u_last]. split; auto. lia.
    - cbn [e_tx]. destruct (jmem_event c MTxDone s1 eq_refl M1) as (s2 & E2 & M2 & R2 & F2). rewrite E2. cbn [bind]. do 3 eexists. split; [reflexivity|]. cbn [u_rdr]. split; [auto|]. split; [auto|]. split; [congruence|]. split; [congruence|]. exact F'. }
  destruct A as (s2 & u2 & t2 & E2 & M2 & D2 & R2 & F2 & Ft). rewrite E2. cbn [bind]. unfold j_usart_rto. cbn [e_t15]. destruct (u_rtof u2).
  - destruct (jmem_event c MT15 s2 eq_refl M2) as (s3 & E3 & M3 & R3 & F3). rewrite E3. cbn [bind]. do 3 eexists. split; [reflexivity|]. split; [auto|]. split; [exact Ft|]. split; [auto|]. split; congruence.
  - do 3 eexists. split; [reflexivity|]. auto.
Qed.
Lemma msg_ptr m : msg_ok m -> msg_ok (mk_msg (mk_rr true (rr_buf (m_req m)) (rr_len (m_req m))) (mk_rr true (rr_buf (m_resp m)) (rr_len (m_resp m)))).
Proof. intros [(P & L & B & H) (P' & L' & B' & H')]. split; (split; [reflexivity|]); auto. Qed.
Lemma jinv_line c x : cfg_master_ok c -> jinv c x -> exists y, j_line c x = Ok y /\ jinv c y /\ mm_rx (j_lib y) = mm_rx (j_lib x).
Proof.
  intros [HN _] [[L M F T R] Su Ft Rd Fr]. unfold j_line. rewrite Su. destruct (j_pc x) as [[]|] eqn:P; cbn [e_tx e_t15 e_t35 e_fe].
  4:{ destruct (push_all_ok (c_queue c) (Z.to_nat (c_queue c)) 0 (mm_free (j_lib x)) [] Fr ltac:(cbn; lia)) as (q & E & Rq). rewrite E. cbn [bind]. eexists. split; [reflexivity|]. split; [|reflexivity].
      split; cbn [j_set j_lib j_u j_subs j_pc]; auto. split; mprj; auto. exact (rep_slots _ _ _ Rq). }
  all: eexists; (split; [reflexivity|]); split; [|cbn; reflexivity].
  22: { split; auto; [split; auto|rewrite P; exact I]. }
  all: split; cbn [j_set j_lib j_u j_subs j_pc u_rdr]; auto; try (apply Build_jmem; unfold register_msg_req_resp_data_buffers; mprj; auto).
  - rewrite map_length. exact L.
  - apply Forall_map. eapply Forall_impl; [|exact M]. exact msg_ptr.
  - mprj. apply rep_init; auto.
Qed.
Lemma jinv_act c a x : cfg_master_ok c -> jinv c x -> (m_quiet a = true \/ mm_rx (j_lib x) <> None) ->
  exists y t, j_act c a x = Ok (y, t) /\ jinv c y /\ mm_rx (j_lib y) = mm_rx (j_lib x) /\ jnum (j_pc y) = Nat.min 22 (match a with WMain => 1 | _ => 0 end + jnum (j_pc x)).
Proof.
  intros Hc I Q. assert (Nm : forall p, jnum p = Nat.min 22 (jnum p)) by (intros p; pose proof (jnum_le p); lia). assert (I' := I). destruct I as [M Su Ft Rd Fr]. destruct a; cbn [j_act m_quiet] in *; rewrite ?Nat.add_0_l.
  - destruct (jinv_line c x Hc I') as (y & E & Iy & R). rewrite E. cbn [bind]. exists y, []. rewrite (jnum_line _ _ _ E). auto.
  - destruct (j_nu x && _); [|exists x, []; auto 10]. rewrite Su. destruct (j_usart_total c (j_lib x) (j_u x) M Ft Rd) as (s' & u' & t & E & M' & Ft' & Rd' & Rx' & Fr'). rewrite E. cbn [bind]. do 2 eexists. split; [reflexivity|].
    cbn [j_lib j_pc]. split; [|auto]. apply Build_jinv; cbn [j_lib j_u j_subs j_pc]; [exact M'|reflexivity|exact Ft'|congruence|]. rewrite Fr'. exact Fr.
  - destruct (j_nt x); [|exists x, []; auto 10]. rewrite Su. unfold j_timer_irq. cbn [e_t35]. destruct (u_uif (j_u x)).
    + destruct (jmem_event c MT35 (j_lib x) eq_refl M) as (s' & E & M' & R' & F'). rewrite E. cbn [bind]. do 2 eexists. split; [reflexivity|]. cbn [j_lib j_pc]. split; [|auto].
      apply Build_jinv; cbn [j_lib j_u j_subs j_pc u_rdr]; [exact M'|try exact Su; reflexivity|exact Ft|rewrite R'; exact Rd|]. rewrite F'. exact Fr.
    + cbn [bind]. do 2 eexists. split; [reflexivity|]. cbn [j_lib j_pc]. split; [|auto]. split; auto.
  - destruct (jmem_event c MTick (j_lib x) eq_refl M) as (s' & E & M' & R' & F'). rewrite E. cbn [bind]. do 2 eexists. split; [reflexivity|]. cbn [j_lib j_pc]. split; [|auto].
    apply Build_jinv; cbn [j_lib j_u j_subs j_pc]; [exact M'|exact Su|exact Ft|rewrite R'; exact Rd|]. rewrite F'. exact Fr.
  - exists x, []. auto 10.
  - destruct Q as [Q|Q]; [discriminate|]. do 2 eexists. split; [reflexivity|]. destruct (j_ue x); cbn [j_lib j_pc]; split; auto; split; auto.
  - destruct (u_tdr (j_u x)); [|exists x, []; auto 10]. do 2 eexists. split; [reflexivity|]. destruct (j_ue x); cbn [j_lib j_pc]; split; auto; split; auto.
  - do 2 eexists. split; [reflexivity|]. destruct (j_ue x); cbn [j_lib j_pc]; split; auto; split; auto.
  - destruct (u_cen (j_u x)); [|exists x, []; auto 10]. do 2 eexists. split; [reflexivity|]. destruct (j_ue x); cbn [j_lib j_pc]; split; auto; split; auto.
Qed.
Lemma jinv_run c l : cfg_master_ok c -> forall x, jinv c x -> m_silent l = true \/ mm_rx (j_lib x) <> None ->
  exists y t, j_run c l x = Ok (y, t) /\ jinv c y /\ jnum (j_pc y) = Nat.min 22 (w_mains l + jnum (j_pc x)).
Proof.
  intros Hc. induction l as [|a l IH]; intros x I Q.
  - exists x, []. split; [reflexivity|]. split; auto. pose proof (jnum_le (j_pc x)). change (w_mains []) with 0%nat. lia.
  - destruct (jinv_act c a x Hc I) as (x1 & t1 & E1 & I1 & R1 & N1). { destruct Q as [Q|Q]; [left|right; exact Q]. cbn [m_silent forallb] in Q. apply andb_true_iff in Q. apply Q. }
    destruct (IH x1 I1) as (y & t & E & I2 & N2). { destruct Q as [Q|Q]; [left|right; congruence]. cbn [m_silent forallb] in Q. apply andb_true_iff in Q. apply Q. }
    exists y, (t1 ++ t). cbn [j_run]. rewrite E1. cbn [bind]. rewrite E. split; [reflexivity|]. split; auto. rewrite N2, N1. assert (Wm : w_mains (a :: l) = (match a with WMain => 1 | _ => 0 end + w_mains l)%nat) by (destruct a; reflexivity). rewrite Wm. lia.
Qed.
(** where the invariant holds *)
Lemma wire_fetch c t w : Minv c (m_lib_of t) (mloc (w_lib w)) (mc_s (w_lib w)) -> wire t w -> w_sub w = None -> fetch_ok c (w_u w).
Proof.
  intros I W Su Lt. unfold wire in W. rewrite Su in W. destruct W as (_ & [[[_ Q] _]|(Sn & O & _)] & _); [lia|].
  destruct Sn as (i & a & off & R & C1 & C2 & C3 & _). exists i. destruct (cur_fetch _ _ _ _ _ I (out_fly _ _ O) R) as (m & N & _ & Hm & H).
  destruct (has_req_byte m a off Hm H C3) as (_ & _ & X3). split; [|lia].
  destruct I as (f1 & f2 & f3 & f4 & f5 & Mi). assert (Mb := iv_buf _ _ _ _ _ _ _ _ _ Mi). rewrite <- (mb_len _ _ _ _ _ Mb). apply nth_error_Some. congruence.
Qed.
