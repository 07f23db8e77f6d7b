(** What happens during request calls and during the interpretation of a response. *)
From Verif Require Import Proofs.Lib Proofs.Rtu Model.Master Spec.Buf Spec.MasterTraffic Proofs.Prefix Proofs.RespMain Proofs.Response Proofs.QueueP Proofs.MasterInv Proofs.MasterTrace.
From Verif Require Import Spec.Atomic.
From Verif Require Proofs.Atomic.
Local Open Scope Z_scope.

(** *** request calls *)
Definition v2 (r : rr) (x : Z * msg) : Z * msg := (fst x, set_resp (snd x) r).
Lemma null_w r m : rr_ptr r = rr_ptr (m_resp m) -> check_null_ptr_correctness (set_resp m r) = check_null_ptr_correctness m.
Proof. intros E. unfold check_null_ptr_correctness. cbn [set_resp m_req m_resp]. rewrite E. reflexivity. Qed.
Ltac bx := first [rewrite om_bind; apply bind_ext; intros ?|reflexivity].
Lemma gen_w r p : forall m, rr_ptr r = rr_ptr (m_resp m) -> generate_request_PDU_data (set_resp m r) p = om (v2 r) (generate_request_PDU_data m p).
Proof.
  assert (L : forall l m st, (forall x, In x l -> forall m, rr_ptr r = rr_ptr (m_resp m) -> snd x (set_resp m r) p = om (v2 r) (snd x m p)) ->
     (forall x, In x l -> forall m st' m', snd x m p = Ok (st', m') -> m_resp m' = m_resp m) -> rr_ptr r = rr_ptr (m_resp m) ->
     gen_pdu_loop l (set_resp m r) p st = om (v2 r) (gen_pdu_loop l m p st)).
  { induction l as [|[x f] l IH]; intros m st H H2 E; cbn [gen_pdu_loop]; [reflexivity|]. destruct (x =? p_fc p).
    - assert (Hf := H (x, f) (or_introl eq_refl) m E). cbn [snd] in Hf. rewrite Hf. rewrite bind_om, om_bind. apply bind_ext_ok. intros [st' m'] Em. cbn [v2 fst snd].
      apply IH. { intros y Hy. apply H. right. exact Hy. } { intros y Hy. apply H2. right. exact Hy. }
      assert (Hg := H2 (x, f) (or_introl eq_refl) m st' m' Em). rewrite Hg. exact E.
    - apply IH; auto. { intros y Hy. apply H. right. exact Hy. } { intros y Hy. apply H2. right. exact Hy. } }
  intros m E. unfold generate_request_PDU_data. apply L; auto.
  - clear. intros x Hx m E. cbn [master_functions_mapper In] in Hx.
    repeat destruct Hx as [<-|Hx]; try contradiction; cbn [snd];
      unfold modbus_master_read_coils_req, modbus_master_read_discrete_inputs_req, modbus_master_read_holding_reg_req, modbus_master_read_input_reg_req, read_req,
        modbus_master_write_single_coil_req, modbus_master_write_single_reg_req, modbus_master_write_multiple_coils_req, modbus_master_write_multiple_reg_req; rewrite (null_w r m E).
    1-4: destruct (RET_OK =? _); [|reflexivity]; rewrite om_bind; apply bind_ext; intros [st q]; reflexivity.
    1-2: destruct (RET_OK =? _); [|reflexivity]; repeat bx.
    all: destruct (negb _); [reflexivity|]; destruct (_ || _); [reflexivity|]; repeat bx.
  - clear. intros x Hx m st' m' H. cbn [master_functions_mapper In] in Hx.
    repeat destruct Hx as [<-|Hx]; try contradiction; cbn [snd] in H; revert H;
      unfold modbus_master_read_coils_req, modbus_master_read_discrete_inputs_req, modbus_master_read_holding_reg_req, modbus_master_read_input_reg_req, read_req,
        modbus_master_write_single_coil_req, modbus_master_write_single_reg_req, modbus_master_write_multiple_coils_req, modbus_master_write_multiple_reg_req.
    1-4: destruct (RET_OK =? _); [|intros H; injection H as _ <-; reflexivity]; intros H; apply bind_ok in H as ([? ?] & _ & H); injection H as _ <-; reflexivity.
    1-2: destruct (RET_OK =? _); [|intros H; injection H as _ <-; reflexivity]; intros H; repeat (apply bind_ok in H as (? & _ & H)); injection H as _ <-; reflexivity.
    all: destruct (negb _); [intros H; injection H as _ <-; reflexivity|]; destruct (_ || _); [intros H; injection H as _ <-; reflexivity|]; intros H; cbn zeta in H; repeat (apply bind_ok in H as (? & _ & H)); injection H as _ <-; reflexivity.
Qed.
Lemma gen_resp m p st m' : generate_request_PDU_data m p = Ok (st, m') -> m_resp m' = m_resp m.
Proof.
  assert (H := gen_w (m_resp m) p m eq_refl). replace (set_resp m (m_resp m)) with m in H by (destruct m; reflexivity). intros E. rewrite E in H. cbn in H.
  injection H as H. rewrite H. reflexivity.
Qed.

(** changes of the state that a request call does not notice *)
Record blind (F : master -> master) : Prop := {
  bl_free : forall s q, m_set_free (F s) q = F (m_set_free s q); bl_txq : forall s q, m_set_txq (F s) q = F (m_set_txq s q); bl_msgs : forall s l, m_set_msgs (F s) l = F (m_set_msgs s l);
  bl_gfree : forall s, mm_free (F s) = mm_free s; bl_gtxq : forall s, mm_txq (F s) = mm_txq s; bl_gmsgs : forall s, mm_msgs (F s) = mm_msgs s }.
Definition wF {A} (F : master -> master) (x : A * master) : A * master := (fst x, F (snd x)).
Lemma blind_put F : blind F -> forall s i m, put_msg (F s) i m = om F (put_msg s i m).
Proof. intros B s i m. unfold put_msg. rewrite (bl_gmsgs F B), om_bind. apply bind_ext. intros l. cbn [om]. rewrite (bl_msgs F B). reflexivity. Qed.
Lemma blind_req F : blind F -> forall c a s, modbus_master_request c a (F s) = om (wF F) (modbus_master_request c a s).
Proof.
  intros B c a s. unfold modbus_master_request, generate_request. rewrite (bl_gfree F B), om_bind. apply bind_ext. intros [ptr q]. cbn zeta.
  rewrite (bl_free F B). destruct ptr as [i|]; [|reflexivity]. set (s1 := m_set_free s q). unfold get_msg. rewrite (bl_gmsgs F B).
  rewrite om_bind. apply bind_ext. intros m. rewrite om_bind. apply bind_ext. intros [st m']. rewrite (blind_put F B), bind_om, om_bind. apply bind_ext. intros s2.
  destruct (st <? 0); [reflexivity|]. rewrite om_bind. apply bind_ext. intros [st2 r]. rewrite (blind_put F B), bind_om, om_bind. apply bind_ext. intros s3.
  destruct (RET_ERROR =? st2); [reflexivity|]. rewrite (bl_gtxq F B), om_bind. apply bind_ext. intros [q2 x]. cbn [om wF fst snd]. rewrite (bl_txq F B). reflexivity.
Qed.
Lemma blind_ev e : match e with MRx _ | MReq _ => False | _ => True end -> blind (ev_state e).
Proof.
  destruct e; try contradiction; intros _; constructor; intros; cbn [ev_state]; try reflexivity; mprj; destruct (negb _); reflexivity.
Qed.

(** a byte arrives in the response half of message j *)
Definition rx_at (j : nat) (b : Z) (l : list msg) : list msg :=
  match nth_error l j with
  | None => l
  | Some m => let r := m_resp m in upd l j (set_resp m (mk_rr true (upd (rr_buf r) (Z.to_nat (rr_len r)) (u8 b)) (u8 (rr_len r + 1))))
  end.
Lemma rx_put_at s b j : mm_rx s = Some j -> rx_put s b = m_set_msgs s (rx_at j b (mm_msgs s)).
Proof. intros R. unfold rx_put, rx_at. rewrite R. destruct (nth_error (mm_msgs s) j); [reflexivity|destruct s; reflexivity]. Qed.
Lemma rx_at_len j b l : length (rx_at j b l) = length l.
Proof. unfold rx_at. destruct (nth_error l j); auto. apply upd_length. Qed.
Lemma rx_at_other j b l i : i <> j -> nth_error (rx_at j b l) i = nth_error l i.
Proof. intros N. unfold rx_at. destruct (nth_error l j); auto. apply upd_nth_error_other. auto. Qed.
Lemma rx_at_upd_other j b l i m : i <> j -> rx_at j b (upd l i m) = upd (rx_at j b l) i m.
Proof. intros N. unfold rx_at. rewrite upd_nth_error_other by auto. destruct (nth_error l j); auto. apply upd_comm. auto. Qed.
Lemma rx_at_upd_same j b l m m' : nth_error l j = Some m -> m_resp m' = m_resp m ->
  rx_at j b (upd l j m') = upd (rx_at j b l) j (set_resp m' (mk_rr true (upd (rr_buf (m_resp m)) (Z.to_nat (rr_len (m_resp m))) (u8 b)) (u8 (rr_len (m_resp m) + 1)))).
Proof.
  intros N E. assert (L : (j < length l)%nat) by (apply nth_error_Some; congruence). unfold rx_at. rewrite N, upd_nth_error_same by auto. rewrite !upd_upd, E. reflexivity.
Qed.
Lemma req_rx c a b s j m0 : mm_rx s = Some j -> nth_error (mm_msgs s) j = Some m0 -> rr_ptr (m_resp m0) = true ->
  forall ret s', modbus_master_request c a s = Ok (ret, s') -> modbus_master_request c a (m_set_msgs s (rx_at j b (mm_msgs s))) = Ok (ret, m_set_msgs s' (rx_at j b (mm_msgs s'))).
Proof.
  intros R N P ret s'. unfold modbus_master_request, generate_request. mprj. destruct (modbus_queue_pop (c_queue c) (mm_free s)) as [[ptr q]| |]; cbn [bind]; try discriminate. cbn zeta.
  destruct ptr as [i|]. 2:{ intros H. injection H as <- <-. mprj. reflexivity. }
  intros H. apply bind_ok in H as (m & G & H). apply get_msg_some in G. mprj. apply bind_ok in H as ([st m'] & Eg & H). assert (Er := gen_resp _ _ _ _ Eg).
  apply bind_ok in H as (s2 & Ep & H). apply put_msg_inv in Ep as (-> & Li). mprj.
  destruct (Nat.eq_dec i j) as [->|D].
  - rewrite N in G. injection G as <-. set (rb := mk_rr true (upd (rr_buf (m_resp m0)) (Z.to_nat (rr_len (m_resp m0))) (u8 b)) (u8 (rr_len (m_resp m0) + 1))).
    assert (X : nth_error (rx_at j b (mm_msgs s)) j = Some (set_resp m0 rb)) by (unfold rx_at; rewrite N; apply upd_nth_error_same; auto).
    match goal with |- context [get_msg ?x j] => assert (Y : get_msg x j = Ok (set_resp m0 rb)) by (apply get_msg_some; mprj; exact X) end. rewrite Y. cbn [bind].
    rewrite gen_w by (cbn; congruence). rewrite Eg. cbn [om bind v2 fst snd]. rewrite put_msg_ok by (mprj; rewrite rx_at_len; auto). cbn [bind]. mprj.
    assert (W := rx_at_upd_same j b (mm_msgs s) m0 m' N Er). fold rb in W. rewrite <- W.
    destruct (st <? 0). { injection H as <- <-. mprj. reflexivity. }
    apply bind_ok in H as ([st2 r] & Es & H). cbn [set_resp m_req]. rewrite Es. cbn [bind]. apply bind_ok in H as (s3 & Ep & H). apply put_msg_inv in Ep as (-> & Lj). mprj.
    rewrite put_msg_ok by (mprj; rewrite rx_at_len; auto). cbn [bind]. mprj.
    assert (Z1 : upd (rx_at j b (upd (mm_msgs s) j m')) j (set_req (set_resp m' rb) r) = rx_at j b (upd (upd (mm_msgs s) j m') j (set_req m' r))).
    { rewrite upd_upd. rewrite (rx_at_upd_same j b (mm_msgs s) m0 m' N Er), upd_upd. rewrite (rx_at_upd_same j b (mm_msgs s) m0 (set_req m' r) N) by exact Er. reflexivity. }
    rewrite Z1. destruct (RET_ERROR =? st2). { injection H as <- <-. mprj. reflexivity. }
    apply bind_ok in H as ([q2 x] & Eq & H). injection H as <- <-. rewrite Eq. cbn [bind]. mprj. reflexivity.
  - match goal with |- context [get_msg ?x i] => assert (Y : get_msg x i = Ok m) by (apply get_msg_some; mprj; rewrite rx_at_other by auto; exact G) end. rewrite Y. cbn [bind].
    rewrite Eg. cbn [bind]. rewrite put_msg_ok by (mprj; rewrite rx_at_len; auto). cbn [bind]. mprj. rewrite <- rx_at_upd_other by auto.
    destruct (st <? 0). { injection H as <- <-. mprj. reflexivity. }
    apply bind_ok in H as ([st2 r] & Es & H). rewrite Es. cbn [bind]. apply bind_ok in H as (s3 & Ep & H). apply put_msg_inv in Ep as (-> & Lj). mprj.
    rewrite put_msg_ok by (mprj; rewrite rx_at_len; auto). cbn [bind]. mprj. rewrite <- rx_at_upd_other by auto.
    destruct (RET_ERROR =? st2). { injection H as <- <-. mprj. reflexivity. }
    apply bind_ok in H as ([q2 x] & Eq & H). injection H as <- <-. rewrite Eq. cbn [bind]. mprj. reflexivity.
Qed.
Lemma req_frame c a s ret s' : modbus_master_request c a s = Ok (ret, s') -> mm_rx s' = mm_rx s /\ mm_timer s' = mm_timer s /\ mm_sub s' = mm_sub s.
Proof.
  unfold modbus_master_request, generate_request. intros H. apply bind_ok in H as ([ptr q] & _ & H). cbn zeta in H. destruct ptr as [i|]; [|injection H as _ <-; auto].
  apply bind_ok in H as (m & _ & H). apply bind_ok in H as ([st m'] & _ & H). apply bind_ok in H as (s2 & E & H). apply put_msg_inv in E as (-> & _). destruct (st <? 0); [injection H as _ <-; auto|].
  apply bind_ok in H as ([st2 r] & _ & H). apply bind_ok in H as (s3 & E & H). apply put_msg_inv in E as (-> & _). destruct (RET_ERROR =? st2); [injection H as _ <-; auto|].
  apply bind_ok in H as ([q2 x] & _ & H). injection H as _ <-. auto.
Qed.
Lemma req_ev c a e free pend l s ret s' : mbuf c free pend l s -> m_interrupt e -> modbus_master_request c a s = Ok (ret, s') ->
  modbus_master_request c a (ev_state e s) = Ok (ret, ev_state e s').
Proof.
  intros B I E. destruct (req_frame _ _ _ _ _ E) as (Rx & _).
  destruct e; try contradiction; try (match goal with |- context [ev_state ?e s] => rewrite (blind_req (ev_state e) (blind_ev e Logic.I)), E end; reflexivity).
  cbn [ev_state]. destruct (mm_rx s) as [j|] eqn:R.
  - assert (Lj : (j < length (mm_msgs s))%nat) by (rewrite (mb_len _ _ _ _ _ B); eapply mb_rx; eauto).
    destruct (nth_error (mm_msgs s) j) as [m|] eqn:N; [|apply nth_error_None in N; lia].
    assert (Hm : msg_ok m) by (eapply Forall_forall; [apply (mb_msgs _ _ _ _ _ B)|eapply nth_error_In; eauto]).
    rewrite (rx_put_at s b j R), (rx_put_at s' b j Rx). apply (req_rx c a b s j m); auto. apply Hm.
  - unfold rx_put. rewrite R, Rx. exact E.
Qed.

(** *** histories *)
From Verif Require Import Proofs.MasterHist Proofs.MasterHist2 Proofs.MasterErr Proofs.MasterAnswer.
Lemma deliver_checked c t s a g : cinv c t M813 s -> current t = Some a -> m_checked t = Some g -> complete_answer a g -> (length (m_received t) < 256)%nat ->
  exists l, delivered a g = Some l /\ m_line c M813 s = Ok (Some M900, s, map MoCb l).
Proof.
  intros CI Cu G C L. destruct (Minv_current _ _ _ _ (ci_inv _ _ _ _ CI) eq_refl) as (i & a' & m & Ci & Cu' & N & Hm & H & A & V). assert (a' = a) by congruence. subst a'.
  destruct (ci_rx _ _ _ _ CI eq_refl) as (i2 & m2 & C2 & N2 & RX). assert (i2 = i) by congruence. subst i2. assert (m2 = m) by congruence. subst m2.
  assert (PB := rxb_prefix _ _ (proj2 Hm) RX L).
  destruct (ci_pref _ _ _ _ CI eq_refl) as (g' & r & z & P1 & P2 & P3). assert (Y : g' = g) by congruence. rewrite Y in P2. clear Y P1 g'.
  assert (L2 := L). rewrite P3, app_length in L2. unfold m_buffered in P2. rewrite Nat.div_small in P2 by lia. rewrite Nat.mul_0_r in P2. cbn [skipn] in P2. subst r.
  assert (Bg : firstn (length g) (rr_buf (m_resp m)) = g).
  { transitivity (firstn (length g) (m_received t)); [|rewrite P3; apply firstn_app_exact; reflexivity]. rewrite <- PB, firstn_firstn. f_equal. rewrite P3, app_length. lia. }
  destruct (complete_delivered a g _ C V Bg) as (D & l & Dl). exists l. split; [exact Dl|].
  cbn [m_line]. assert (CM : cur_msg s = Ok (i, m)) by (apply cur_msg_inv; auto). rewrite CM. cbn [bind].
  assert (R := read_resp_char m a Hm H A V). rewrite D, Dl in R. destruct R as (st & R). rewrite R. reflexivity.
Qed.
(** events do not depend on the line the program is at *)
Lemma evs_pc c : forall es s pc k T pc', m_run c (map MEv es) (mk_mconf s pc) = Ok (k, T) -> m_run c (map MEv es) (mk_mconf s pc') = Ok (mk_mconf (mc_s k) pc', T) /\ mc_pc k = pc.
Proof.
  induction es as [|e es IH]; intros s pc k T pc' E; cbn [map m_run] in *. { injection E as <- <-. auto. }
  cbn [m_act mc_s mc_pc] in *. destruct (m_event c e s) as [[s1 o]| |]; cbn [bind] in *; try discriminate.
  destruct (m_run c (map MEv es) (mk_mconf s1 pc)) as [[k2 t2]| |] eqn:E2; cbn [bind] in *; try discriminate. injection E as <- <-.
  destruct (IH _ _ _ _ pc' E2) as (-> & P). auto.
Qed.
Lemma evs_ok c : cfg_master_ok c -> forall es t k, (forall e, In e es -> ev_safe e) -> Minv c t (mloc k) (mc_s k) -> exists k' T, m_run c (map MEv es) k = Ok (k', T).
Proof.
  intros Hc. induction es as [|e es IH]; intros t k I M; cbn [map m_run]. { eauto. }
  assert (Q : exists s1 o, m_event c e (mc_s k) = Ok (s1, o)).
  { destruct M as (free & pend & apis & eps & v & M). destruct (is_req e) eqn:R.
    - destruct e as [| | | | | |a]; try discriminate. destruct (req_event c a free pend _ _ Hc (iv_buf _ _ _ _ _ _ _ _ _ M) (I _ (or_introl eq_refl))) as (s' & r & _ & _ & E & _). eauto.
    - do 2 eexists. apply (event_char c e free pend (mloc k)); auto. { apply (mc_sub _ _ _ (iv_ctl _ _ _ _ _ _ _ _ _ M)). } apply (iv_buf _ _ _ _ _ _ _ _ _ M). }
  destruct Q as (s1 & o & E). cbn [m_act]. rewrite E. cbn [bind].
  assert (HS : reqs_safe [MEv e]). { intros a [X|[]]. injection X as ->. apply (I (MReq a)). left. reflexivity. }
  assert (R1 : m_run c [MEv e] k = Ok (mk_mconf s1 (mc_pc k), (MTEv e :: map MTOut o) ++ [])) by (cbn [m_run m_act]; rewrite E; reflexivity).
  destruct (IH _ (mk_mconf s1 (mc_pc k)) (fun x Hx => I x (or_intror Hx)) (Minv_run c _ _ _ _ _ Hc HS M R1)) as (k' & T & E2). rewrite E2. cbn [bind]. eauto.
Qed.
Lemma m_run_app c a b k : m_run c (a ++ b) k = bind (m_run c a k) (fun x => bind (m_run c b (fst x)) (fun y => Ok (fst y, snd x ++ snd y))).
Proof.
  revert k; induction a as [|x a IH]; intros k; cbn [app m_run bind fst snd].
  - destruct (m_run c b k) as [[? ?]| |]; reflexivity.
  - destruct (m_act c x k) as [[k1 t1]| |]; cbn [bind]; auto. rewrite IH. destruct (m_run c a k1) as [[k2 t2]| |]; cbn [bind fst snd]; auto.
    destruct (m_run c b k2) as [[k3 t3]| |]; cbn [bind fst snd]; auto. rewrite app_assoc. reflexivity.
Qed.
Lemma history_app c sched k t es k' T : m_history c sched k t -> reqs_safe es -> m_run c es k = Ok (k', T) -> m_history c (sched ++ es) k' (t ++ T).
Proof.
  intros (s & S1 & HS & E) HS2 E2. exists s. split; [exact S1|]. split.
  - intros a Ha. apply in_app_or in Ha as [Ha|Ha]; auto.
  - rewrite m_run_app, E. cbn [bind fst snd]. rewrite E2. reflexivity.
Qed.
Lemma event_out c e s s' o : m_event c e s = Ok (s', o) -> (is_req e = false /\ o = []) \/ exists a r, e = MReq a /\ o = [MoRet a r].
Proof.
  intros H. destruct (is_req e) eqn:R.
  - right. destruct e; try discriminate. cbn [m_event] in H. apply bind_ok in H as ([r s1] & _ & H). injection H as _ <-. eauto.
  - left. split; auto. destruct e; try discriminate; cbn [m_event] in H; try (destruct (mm_sub s); injection H as _ <-; reflexivity).
    + destruct (mm_rx s); [|injection H as _ <-; reflexivity]. apply bind_ok in H as (? & _ & H). apply bind_ok in H as (? & _ & H). apply bind_ok in H as (? & _ & H). injection H as _ <-. reflexivity.
Qed.
Lemma evs_trace c : forall es k k' T t, m_run c (map MEv es) k = Ok (k', T) -> m_checked (t ++ T) = m_checked t /\ finished T = 0%nat /\
  Z.of_nat (length (m_received (t ++ T))) = Z.of_nat (length (m_received t)) + m_rx_count es.
Proof.
  induction es as [|e es IH]; intros k k' T t E; cbn [map m_run] in E. { injection E as _ <-. rewrite app_nil_r. cbn. split; auto. split; auto. lia. }
  cbn [m_act] in E. destruct (m_event c e (mc_s k)) as [[s1 o]| |] eqn:Ev; cbn [bind] in E; try discriminate.
  destruct (m_run c (map MEv es) (mk_mconf s1 (mc_pc k))) as [[k2 t2]| |] eqn:E2; cbn [bind] in E; try discriminate. injection E as _ <-.
  change (MTEv e :: map MTOut o ++ t2) with ((MTEv e :: map MTOut o) ++ t2). rewrite app_assoc. destruct (IH _ _ _ (t ++ MTEv e :: map MTOut o) E2) as (I1 & I2 & I3). rewrite I1, I3, finished_app, I2.
  destruct (event_out _ _ _ _ _ Ev) as [[R ->]|(a & r & -> & ->)]; cbn [map].
  - unfold m_checked, m_received. rewrite !fold_left_app. cbn [fold_left]. destruct e; try discriminate; cbn [m_rx_count finished]; split; auto; split; auto; try lia. rewrite app_length. cbn [length]. lia.
  - unfold m_checked, m_received. rewrite !fold_left_app. cbn [fold_left m_rx_count finished]. split; auto.
Qed.
Lemma current_more t T a : current t = Some a -> finished T = 0%nat -> current (t ++ T) = Some a.
Proof. unfold current. intros E F. rewrite finished_app, accepted_app, F, Nat.add_0_r. rewrite nth_error_app1; auto. apply nth_error_Some. congruence. Qed.
Lemma rx_count_nonneg l : 0 <= m_rx_count l.
Proof. induction l as [|[]]; cbn [m_rx_count]; lia. Qed.
Lemma rx_count_app a b : m_rx_count (a ++ b) = m_rx_count a + m_rx_count b.
Proof. induction a as [|[]]; cbn [app m_rx_count]; lia. Qed.

Theorem master_atomic c sched k t a g es : cfg_master_ok c -> m_history c sched k t -> mc_pc k = Some M813 -> current t = Some a -> m_checked t = Some g -> complete_answer a g ->
  Z.of_nat (length (m_received t)) + m_rx_count es < 256 -> (forall b, In (MReq b) es -> req_safe b) ->
  exists l kr T, delivered a g = Some l /\ m_run c (map MEv es) k = Ok (kr, T) /\
    forall es1 es2, es1 ++ es2 = es -> exists t1 t2, t1 ++ t2 = T /\
      m_run c (map MEv es1 ++ MStep :: map MEv es2) k = Ok (mk_mconf (mc_s kr) (Some M900), t1 ++ map MTOut (map MoCb l) ++ t2).
Proof.
  intros Hc H P Cu G C L I. assert (Is : forall e, In e es -> ev_safe e) by (intros []; cbn; auto).
  assert (CI := history_cinv _ _ _ _ Hc H). destruct (evs_ok c Hc es t k Is (ci_inv _ _ _ _ CI)) as (kr & T & E).
  assert (Nn := rx_count_nonneg es). destruct k as [s pc]. cbn [mc_pc mc_s] in *. subst pc.
  destruct (deliver_checked c t s a g CI Cu G C ltac:(lia)) as (l & Dl & El).
  exists l, kr, T. split; [exact Dl|]. split; [exact E|]. intros es1 es2 <-.
  rewrite map_app, m_run_app in E. destruct (m_run c (map MEv es1) (mk_mconf s (Some M813))) as [[k1 t1]| |] eqn:E1; cbn [bind fst snd] in E; try discriminate.
  destruct (m_run c (map MEv es2) k1) as [[k2 t2]| |] eqn:E2; cbn [bind fst snd] in E; try discriminate. injection E as <- <-.
  exists t1, t2. split; [reflexivity|]. rewrite m_run_app, E1. cbn [bind fst snd m_run].
  destruct (evs_pc c es1 s (Some M813) k1 t1 None E1) as (_ & P1). destruct k1 as [s1 pc1]. cbn [mc_pc mc_s] in *. subst pc1.
  assert (HS : reqs_safe (map MEv es1)). { intros b Hb. apply in_map_iff in Hb as (e & X & Hb). injection X as ->. apply I. apply in_or_app. auto. }
  assert (CI1 := history_cinv _ _ _ _ Hc (history_app c _ _ _ _ _ _ H HS E1)). cbn [mloc mc_pc mc_s] in CI1.
  destruct (evs_trace c es1 _ _ _ t E1) as (T1 & T2 & T3). rewrite rx_count_app in *. assert (N2 := rx_count_nonneg es2).
  destruct (deliver_checked c (t ++ t1) s1 a g CI1 (current_more t t1 a Cu T2) (eq_trans T1 G) C ltac:(lia)) as (l' & Dl' & El'). assert (l' = l) by congruence. subst l'.
  cbn [m_act mc_pc mc_s]. rewrite El'. cbn [bind]. destruct (evs_pc c es2 s1 _ _ _ (Some M900) E2) as (E3 & _). rewrite E3. reflexivity.
Qed.

(** a request call commutes with the interrupts *)
Theorem request_atomic c sched k t a es : cfg_master_ok c -> m_history c sched k t -> req_safe a -> (forall e, In e es -> m_interrupt e) ->
  exists k' r, forall es1 es2, es1 ++ es2 = es ->
    m_run c (map MEv es1 ++ MEv (MReq a) :: map MEv es2) k = Ok (k', map MTEv es1 ++ MTEv (MReq a) :: MTOut (MoRet a r) :: map MTEv es2).
Proof.
  intros Hc H Sa I. assert (CI := history_cinv _ _ _ _ Hc H). destruct (ci_inv _ _ _ _ CI) as (free & pend & apis & eps & v & M).
  assert (B := iv_buf _ _ _ _ _ _ _ _ _ M). assert (Sb := mc_sub _ _ _ (iv_ctl _ _ _ _ _ _ _ _ _ M)). destruct k as [s pc]. cbn [mc_s] in *.
  set (l := mloc (mk_mconf s pc)) in *. clearbody l. clear M CI H.
  destruct (req_event c a free pend l s Hc B Sa) as (s' & r & free' & pend' & Er & Rr & B').
  assert (Em : modbus_master_request c a s = Ok (r, s')). { cbn [m_event] in Er. apply bind_ok in Er as ([r1 s1] & E1 & E2). injection E2 as <- <-. exact E1. }
  assert (Sb' : mm_sub s' = true). { destruct (mm_sub s') eqn:X; auto. clear - Em X Sb. exfalso. apply req_frame in Em. destruct Em as (_ & _ & Em). congruence. }
  exists (mk_mconf (fold_left (fun s e => ev_state e s) es s') pc), r.
  assert (Ru : forall es free pend s, (forall e, In e es -> m_interrupt e) -> mm_sub s = true -> mbuf c free pend l s -> let s' := fold_left (fun s e => ev_state e s) es s in
     m_run c (map MEv es) (mk_mconf s pc) = Ok (mk_mconf s' pc, map MTEv es) /\ mm_sub s' = true /\ mbuf c free pend l s').
  { clear. induction es as [|e es IH]; intros free pend s I Sb B; cbn [fold_left map m_run]. { auto. }
    assert (Ie := I e (or_introl eq_refl)). assert (Re : is_req e = false) by (destruct e; auto; contradiction).
    cbn [m_act mc_s mc_pc]. rewrite (event_char c e free pend l) by auto. cbn [bind map app].
    destruct (IH free pend (ev_state e s)) as (E & Q); auto. { intros x Hx. apply I. right. exact Hx. }
    { destruct e; cbn [ev_state]; mprj; auto; try (destruct (negb _); auto). unfold rx_put. destruct (mm_rx s); auto. destruct (nth_error _ _); auto. }
    { apply mbuf_ev. exact B. }
    rewrite E. cbn [bind]. split; [reflexivity|exact Q]. }
  intros es1 es2 <-. assert (I1 : forall e, In e es1 -> m_interrupt e) by (intros e He; apply I; apply in_or_app; auto). assert (I2 : forall e, In e es2 -> m_interrupt e) by (intros e He; apply I; apply in_or_app; auto).
  destruct (Ru es1 free pend s I1 Sb B) as (E1 & _). destruct (Ru es1 free' pend' s' I1 Sb' B') as (_ & Sc & Bc). destruct (Ru es2 free' pend' _ I2 Sc Bc) as (E2 & _).
  rewrite m_run_app, E1. cbn [bind fst snd m_run]. cbn [m_act mc_s mc_pc m_event].
  assert (Rq : modbus_master_request c a (fold_left (fun s e => ev_state e s) es1 s) = Ok (r, fold_left (fun s e => ev_state e s) es1 s')).
  { clear - B Em I1. revert s s' B Em. induction es1 as [|e es1 IH]; intros s s' B Em; cbn [fold_left]; [exact Em|]. apply IH; [intros x Hx; apply I1; right; exact Hx|apply mbuf_ev; exact B|].
    apply (req_ev c a e free pend l); auto. apply I1. left. reflexivity. }
  rewrite Rq. cbn [bind map]. rewrite E2, fold_left_app. reflexivity.
Qed.
