(** The example master application and the example slave application on one bus. *)
From Verif Require Export Spec.Pair.
From Verif Require Import Props.SlaveApp.
From Verif Require Import Proofs.SlaveApp.
From Verif Require Import Props.Bus Proofs.Bus Proofs.MasterApp Props.MasterApp Props.MasterRun.

(** *** the master's side *)
Lemma a_sched_cons c x l a : a_sched c (x :: l) a = proj x a ++ match a_act c x a with Ok (a1, _) => a_sched c l a1 | _ => [] end.
Proof. cbn [a_sched proj]. destruct x as [| |y]; auto. Qed.
Lemma proj_len x a : (length (proj x a) <= 1)%nat.
Proof. destruct x as [| |y]; cbn [proj]; [destruct (a_pc a)| |destruct y]; cbn; lia. Qed.
Lemma a_sched_run c : forall al a la lb w t, a_sched c al a = la ++ lb -> w_run c la (a_fw a) = Ok (w, t) ->
  exists al1 al2 a', al = al1 ++ al2 /\ a_run c al1 a = Ok (a', t) /\ a_fw a' = w /\ a_sched c al2 a' = lb.
Proof.
  induction al as [|x al IH]; intros a la lb w t E R.
  - cbn in E. destruct la; [|discriminate]. inversion R; subst. exists [], [], a. cbn in *. auto.
  - destruct la as [|y la]; [inversion R; subst; exists [], (x :: al), a; auto 6|]. rewrite a_sched_cons in E. assert (L := proj_len x a). assert (Ap := a_act_proj c x a).
    assert (Go : forall la1 la2 w1 t1 t2, proj x a = la1 -> w_run c la1 (a_fw a) = Ok (w1, t1) -> w_run c la2 w1 = Ok (w, t2) -> t = t1 ++ t2 ->
      match a_act c x a with Ok (a1, _) => a_sched c al a1 | _ => [] end = la2 ++ lb -> exists al1 al2 a', x :: al = al1 ++ al2 /\ a_run c al1 a = Ok (a', t) /\ a_fw a' = w /\ a_sched c al2 a' = lb).
    { intros la1 la2 w1 t1 t2 P R1 R2 -> E2. rewrite P, R1 in Ap. cbn [bind] in Ap. rewrite Ap in E2. destruct (IH _ _ _ _ _ E2 R2) as (al1 & al2 & a' & -> & R3 & F & G).
      exists (x :: al1), al2, a'. split; auto. split; auto. cbn [a_run]. rewrite Ap. cbn [bind]. rewrite R3. reflexivity. }
    destruct (proj x a) as [|z [|? ?]] eqn:P; [| |cbn in L; lia].
    + apply (Go [] (y :: la) (a_fw a) [] t); auto.
    + cbn [app] in E. injection E as -> E. cbn [w_run] in R. destruct (w_act c y (a_fw a)) as [[w1 t1]| |] eqn:A; try discriminate. cbn [bind] in R. destruct (w_run c la w1) as [[w2 t2]| |] eqn:R2; try discriminate. cbn [bind] in R. inversion R; subst.
      apply (Go [y] la w1 t1 t2); auto. cbn [w_run]. rewrite A. cbn [bind]. rewrite app_nil_r. reflexivity.
Qed.
Lemma app_word c sched a t : cfg_master_ok c -> app_history c sched a t -> word (readed_hreg (a_vars a)).
Proof. intros Hc (a0 & H0 & R). exact (i_word _ _ _ _ _ (ainv_run _ _ Hc H0 _ _ _ R)). Qed.
Lemma history_step c sched a t x a' t' : app_history c sched a t -> a_act c x a = Ok (a', t') -> app_history c (sched ++ [x]) a' (t ++ t').
Proof. intros (a0 & H0 & R) E. exists a0. split; auto. apply a_run_snoc. eauto 7. Qed.
Lemma history_more c sched a t l a' t' : app_history c sched a t -> a_run c l a = Ok (a', t') -> app_history c (sched ++ l) a' (t ++ t').
Proof. intros (a0 & H0 & R) E. exists a0. split; auto. apply a_run_split. eauto 7. Qed.
Lemma proj_safe x a : word (readed_hreg (a_vars a)) -> w_reqs_safe (proj x a).
Proof.
  intros W q Hq. destruct x as [| |y]; cbn [proj] in Hq; [destruct (a_pc a)| |destruct y]; cbn in Hq; try contradiction; destruct Hq as [Hq|[]]; inversion Hq; subst; (split; [|intros; exact I]); unfold api_typed, byte, word, coil_qty, reg_qty, SLAVE_ADDRES_EXAMPLE_NODE, READ_COIL_ADR, READ_HREG_ADR, WRITE_COIL_ADR, WRITE_HREG_ADR in *; cbn; repeat split; lia.
Qed.
Lemma a_sched_safe c : cfg_master_ok c -> forall al sched a t, app_history c sched a t -> w_reqs_safe (a_sched c al a).
Proof.
  intros Hc. induction al as [|x al IH]; intros sched a t H; [intros q []|]. rewrite a_sched_cons. intros q Hq. apply in_app_or in Hq as [Hq|Hq].
  - eapply proj_safe; [eapply app_word; eauto|]. exact Hq.
  - destruct (a_act c x a) as [[a1 t1]| |] eqn:A; try contradiction. eapply IH; [eapply history_step; eauto|]. exact Hq.
Qed.
Lemma visible_cbs t : callbacks t = flat_map (fun x => match x with VCb k => [k] | _ => [] end) (visible t).
Proof. induction t as [|[e|[]] t IH]; cbn; auto. now rewrite IH. Qed.
Lemma session_cbs : forall reqs ls, length ls = length reqs -> flat_map (fun x => match x with VCb k => [k] | _ => [] end) (session_view reqs ls) = concat ls.
Proof.
  unfold session_view. induction reqs as [|a reqs IH]; intros [|l ls] L; try discriminate; auto. injection L as L. cbn [combine map concat fst snd]. rewrite flat_map_app, IH by auto. f_equal.
  cbn [flat_map app]. rewrite flat_map_app. cbn [flat_map app]. rewrite app_nil_r. induction l; cbn; congruence.
Qed.

(** *** the slave's side *)
Lemma one_node_runs c' : forall lss y ns' outs, bus_runs [mk_node c' y] lss ns' outs -> exists y' t, ns' = [mk_node c' y'] /\ y_run c' (concat (concat lss)) y = Ok (y', t) /\ SlaveSystem.on_line t = concat outs.
Proof.
  induction lss as [|ls lss IH]; intros y ns' outs H; inversion H; subst.
  - exists y, []. auto.
  - match goal with X : bus_run _ _ _ _ |- _ => inversion X; subst end. match goal with X : bus_run [] _ _ _ |- _ => inversion X; subst end. match goal with X : node_run _ _ _ _ |- _ => destruct X as [Ec Er] end. cbn [n_cfg n_sys] in *.
    destruct n' as [c1 y1]. cbn [n_cfg n_sys] in *. subst c1. match goal with X : bus_runs _ _ _ _ |- _ => destruct (IH _ _ _ X) as (y2 & t2 & -> & R2 & O2) end.
    exists y2, (t ++ t2). split; auto. cbn [concat app]. rewrite Verif.Proofs.SlaveArrive.y_run_app, Er. cbn [bind]. rewrite R2. cbn [bind]. split; auto. unfold SlaveSystem.on_line in *. rewrite flat_map_app, O2, app_nil_r. reflexivity.
Qed.
Lemma one_mem (m : mem) ms1 x ms2 : [m] = ms1 ++ x :: ms2 -> ms1 = [] /\ ms2 = [] /\ x = m.
Proof. destruct ms1 as [|? [|? ?]]; cbn; intros E; inversion E; subst; auto. Qed.
Lemma one_served id c : forall reqs ls ms d ms', bus_served ms reqs ls ms' -> ms = [(id, c, d)] -> Forall (fun a => api_id a = id) reqs -> exists d', ms' = [(id, c, d')] /\ served c d reqs ls d'.
Proof.
  intros reqs ls ms d ms' H. revert d. induction H as [ms|ms1 c1 d1 ms2 a l reqs ls ms' Re Rr H IH|ms1 c1 d1 ms2 a d2 l reqs ls ms' Re Wr H IH|ms a r reqs ls ms' Ni Tr H IH]; intros d E F.
  - exists d. split; auto. constructor.
  - symmetry in E. destruct (one_mem _ _ _ _ E) as (-> & -> & X). inversion X; subst. inversion F as [|? ? F1 F2]; subst. destruct (IH _ eq_refl F2) as (d' & -> & Sv). exists d'. split; auto. constructor; auto.
  - symmetry in E. destruct (one_mem _ _ _ _ E) as (-> & -> & X). inversion X; subst. inversion F as [|? ? F1 F2]; subst. destruct (IH _ eq_refl F2) as (d' & -> & Sv). exists d'. split; auto. eapply served_write; eauto.
  - subst ms. inversion F; subst. exfalso. apply Ni. left. reflexivity.
Qed.
(** one round, served by the example's memory *)
Lemma list_ext {A} : forall l l' : list A, (forall i, nth_error l i = nth_error l' i) -> l = l'.
Proof.
  induction l as [|x l IH]; intros [|y l'] H; auto; [specialize (H 0%nat); discriminate|specialize (H 0%nat); discriminate|]. assert (X := H 0%nat). injection X as ->. f_equal. apply IH. intros i. exact (H (S i)).
Qed.
Lemma written_0 {A} tab (cells cells' : list A) v : nth_error tab 0 = Some (Some 0%nat) -> (0 < length cells)%nat -> written tab cells cells' 0 [v] -> cells' = v :: tl cells.
Proof.
  intros T L (W1 & W2 & W3). apply list_ext. intros i. destruct i as [|i].
  - apply (W3 0%nat 0%nat v); auto. cbn. intros j Hj. lia.
  - destruct cells as [|x cells]; [cbn in L; lia|]. cbn [tl]. rewrite W2; auto. cbn [length]. intros k Hk. replace (0 + k)%nat with 0%nat by lia. rewrite T. congruence.
Qed.
Lemma example_tables c : example_cfg_ok c -> forall i, (i < 20)%nat -> nth_error (t_coils (example_data c)) i = Some (Some i) /\ nth_error (t_hreg (example_data c)) i = Some (Some i).
Proof.
  intros Hc i Hi. destruct Hc as (H1 & _ & _ & H4). cbn [example_data t_coils t_hreg]. rewrite !nth_error_map, !(nth_error_nth' _ 0%nat) by (rewrite seq_length; lia). rewrite !seq_nth by lia. cbn [option_map plus].
  unfold example_coil, example_other. replace (i <? 20)%nat with true by (symmetry; apply Nat.ltb_lt; lia). auto.
Qed.
Lemma round_served c d v r ls d' : example_cfg_ok c -> same_map (example_data c) d -> served c d (round_of v r) ls d' ->
  ls = [[CoilRead 1 1 (coil_var d 1)]; [HregRead 1 1 (hreg_var d 1)]; [CoilWrite 1 0 1]; [HregWrite 1 0 1]] /\ d' = with_outputs d v r.
Proof.
  intros Hc (T1 & T2 & T3 & T4 & L1 & L2) H. destruct (example_tables c Hc 0%nat ltac:(lia)) as [C0 H0]. destruct (example_tables c Hc 1%nat ltac:(lia)) as [C1 H1]. destruct Hc as (S1 & _ & _ & S4).
  rewrite <- T1 in C0, C1. rewrite <- T4 in H0, H1. assert (Lb : length (v_bits d) = 41%nat) by (rewrite L1; reflexivity). assert (Lr : length (v_regs d) = 40%nat) by (rewrite L2; reflexivity). clear T1 T2 T3 T4 L1 L2.
  unfold round_of in H. inversion H as [|d0 a l reqs ls1 dd _ Rr Sv|d0 a d1 l reqs ls1 dd X _ _]; subst; [|discriminate X]. clear H.
  assert (E1 : l = [CoilRead 1 1 (coil_var d 1)]).
  { assert (V : value_cb d (ReadCoils 1 1 1) 0 = Some (CoilRead 1 1 (coil_var d 1))) by (cbn [value_cb]; change (Z.to_nat 1 + 0)%nat with 1%nat; unfold var_at; rewrite C1; unfold coil_var; rewrite (nth_error_nth' _ false) by lia; reflexivity).
    inversion Rr as [l' Ra E|Ra|k Ra Hk Nk]; subst; unfold range_ok in *; cbn [api_adr api_qty api_fc size_of] in *.
    - change (seq 0 (Z.to_nat 1)) with [0%nat] in E. change (map Some l = [value_cb d (ReadCoils 1 1 1) 0]) in E. rewrite V in E. destruct l as [|x [|? ?]]; try discriminate. inversion E. reflexivity.
    - exfalso. apply Ra. cbn. lia.
    - replace k with 0%nat in Nk by (cbn in Hk; lia). congruence. }
  subst l. inversion Sv as [|d0 a l reqs ls2 dd _ Rr2 Sv2|d0 a d1 l reqs ls2 dd X _ _]; subst; [|discriminate X]. clear Sv.
  assert (E2 : l = [HregRead 1 1 (hreg_var d 1)]).
  { assert (V : value_cb d (ReadHoldingReg 1 1 1) 0 = Some (HregRead 1 1 (hreg_var d 1))) by (cbn [value_cb]; change (Z.to_nat 1 + 0)%nat with 1%nat; unfold var_at; rewrite H1; unfold hreg_var; rewrite (nth_error_nth' _ 0) by lia; reflexivity).
    inversion Rr2 as [l' Ra E|Ra|k Ra Hk Nk]; subst; unfold range_ok in *; cbn [api_adr api_qty api_fc size_of] in *.
    - change (seq 0 (Z.to_nat 1)) with [0%nat] in E. change (map Some l = [value_cb d (ReadHoldingReg 1 1 1) 0]) in E. rewrite V in E. destruct l as [|x [|? ?]]; try discriminate. inversion E. reflexivity.
    - exfalso. apply Ra. cbn. lia.
    - replace k with 0%nat in Nk by (cbn in Hk; lia). congruence. }
  subst l. inversion Sv2 as [|d0 a l reqs ls3 dd X _ _|d0 a d1 l reqs ls3 dd _ Wr Sv3]; subst; [discriminate X|]. clear Sv2.
  assert (E3 : l = [CoilWrite 1 0 1] /\ d1 = set_bits d (v :: tl (v_bits d))).
  { assert (It : item_registered d (WriteSingleCoil 0 1 v) 0) by (unfold item_registered; change (registered (t_coils d) 0 = true); unfold registered; rewrite C0; reflexivity).
    inversion Wr as [d2 Ra Rg W|Ra|n d2 Ra Hn Bf Nr W]; subst; unfold range_ok in *; cbn [api_adr api_qty api_fc] in *.
    - split; auto. destruct W as (cells & -> & W). f_equal. eapply written_0; [exact C0| |exact W]. lia.
    - exfalso. apply Ra. cbn. lia.
    - replace n with 0%nat in Nr by (cbn in Hn; lia). contradiction. }
  destruct E3 as [-> ->]. inversion Sv3 as [|d0 a l reqs ls4 dd X _ _|d0 a d2 l reqs ls4 dd _ Wr2 Sv4]; subst; [discriminate X|]. clear Sv3.
  assert (E4 : l = [HregWrite 1 0 1] /\ d2 = with_outputs d v r).
  { assert (It : item_registered (set_bits d (v :: tl (v_bits d))) (WriteSingleReg 0 1 r) 0) by (unfold item_registered; change (registered (t_hreg d) 0 = true); unfold registered; rewrite H0; reflexivity).
    inversion Wr2 as [d3 Ra Rg W|Ra|n d3 Ra Hn Bf Nr W]; subst; unfold range_ok in *; cbn [api_adr api_qty api_fc] in *.
    - split; auto. destruct W as (cells & -> & W). unfold with_outputs, set_regs, set_bits. cbn. f_equal. eapply written_0; [exact H0| |exact W]. cbn. lia.
    - exfalso. apply Ra. cbn. lia.
    - replace n with 0%nat in Nr by (cbn in Hn; lia). contradiction. }
  destruct E4 as [-> ->]. inversion Sv4; subst. auto.
Qed.
