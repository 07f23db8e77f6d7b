(** A master whose queue operations are interrupted harmlessly behaves like one whose operations are not interrupted. *)
From Verif Require Import Proofs.QueueP Proofs.QueueIrq Proofs.MasterInv Proofs.MasterTrace Proofs.MasterHist Proofs.MasterSafe Proofs.Prefix Proofs.Atomic Proofs.MasterAtomic Model.MasterFine Spec.MasterFine.
Local Open Scope Z_scope.

(** *** requests on a state with another queue *)
Lemma get_free s q i : get_msg (m_set_free s q) i = get_msg s i. Proof. reflexivity. Qed.
Lemma get_txq s q i : get_msg (m_set_txq s q) i = get_msg s i. Proof. reflexivity. Qed.
Lemma put_free s q i m : put_msg (m_set_free s q) i m = om (fun s => m_set_free s q) (put_msg s i m).
Proof. unfold put_msg. mprj. rewrite om_bind. apply bind_ext. intros l. reflexivity. Qed.
Lemma put_txq s q i m : put_msg (m_set_txq s q) i m = om (fun s => m_set_txq s q) (put_msg s i m).
Proof. unfold put_msg. mprj. rewrite om_bind. apply bind_ext. intros l. reflexivity. Qed.
Lemma req_on_free c a s q r q' qs' : modbus_queue_pop (c_queue c) q = Ok (r, q') -> modbus_queue_pop (c_queue c) (mm_free s) = Ok (r, qs') ->
  modbus_master_request c a (m_set_free s q) = om (wF (fun s => m_set_free s q')) (modbus_master_request c a s) /\
  forall ret s', modbus_master_request c a s = Ok (ret, s') -> mm_free s' = qs'.
Proof.
  intros E1 E2. unfold modbus_master_request, generate_request. mprj. rewrite E1, E2. cbn [bind]. split.
  - destruct r as [i|]; [|reflexivity]. rewrite !get_free, om_bind. apply bind_ext. intros m. rewrite om_bind. apply bind_ext. intros [st m'].
    change (m_set_free (m_set_free s q) q') with (m_set_free s q'). rewrite (put_free s q'), (put_free s qs'), !bind_om, om_bind. apply bind_ext. intros s2.
    destruct (st <? 0); [reflexivity|]. rewrite om_bind. apply bind_ext. intros [st2 x]. rewrite (put_free s2 q'), (put_free s2 qs'), !bind_om, om_bind. apply bind_ext. intros s3.
    destruct (RET_ERROR =? st2); [reflexivity|]. mprj. rewrite om_bind. apply bind_ext. intros [q2 y]. reflexivity.
  - intros ret s'. destruct r as [i|]; [|intros [= _ <-]; reflexivity]. intros H. apply bind_ok in H as (m & _ & H). apply bind_ok in H as ([st m'] & _ & H).
    rewrite put_free in H. apply bind_ok in H as (s2 & P & H). assert (F2 : mm_free s2 = qs') by (destruct (put_msg s i m'); inversion P; reflexivity).
    destruct (st <? 0); [injection H as _ <-; exact F2|]. apply bind_ok in H as ([st2 x] & _ & H). apply bind_ok in H as (s3 & P3 & H).
    assert (F3 : mm_free s3 = qs'). { unfold put_msg in P3. destruct (aset _ _ _); inversion P3. exact F2. }
    destruct (RET_ERROR =? st2); [injection H as _ <-; exact F3|]. apply bind_ok in H as ([q2 y] & _ & H). injection H as _ <-. exact F3.
Qed.
Lemma req_on_txq c a s q (R : queue nat -> queue nat -> Prop) : (forall i, exists q' qs', modbus_queue_push (c_queue c) q (Some i) = Ok (q', None) /\ modbus_queue_push (c_queue c) (mm_txq s) (Some i) = Ok (qs', None) /\ R q' qs') -> R q (mm_txq s) ->
  forall ret s', modbus_master_request c a s = Ok (ret, s') -> exists q', modbus_master_request c a (m_set_txq s q) = Ok (ret, m_set_txq s' q') /\ R q' (mm_txq s').
Proof.
  intros P0 R0 ret s'. unfold modbus_master_request, generate_request. mprj. destruct (modbus_queue_pop (c_queue c) (mm_free s)) as [[r q1]| |]; cbn [bind]; try discriminate.
  destruct r as [i|]; [|intros [= <- <-]; exists q; split; [reflexivity|exact R0]].
  change (m_set_free (m_set_txq s q) q1) with (m_set_txq (m_set_free s q1) q). set (s1 := m_set_free s q1). rewrite get_txq.
  destruct (get_msg s1 i) as [m| |]; cbn [bind]; try discriminate. destruct (generate_request_PDU_data m (api_param a)) as [[st m']| |]; cbn [bind]; try discriminate.
  rewrite put_txq. destruct (put_msg s1 i m') as [s2| |] eqn:P2; cbn [bind om]; try discriminate.
  assert (T2 : mm_txq s2 = mm_txq s). { unfold put_msg in P2. destruct (aset _ _ _); inversion P2. reflexivity. }
  destruct (st <? 0); [intros [= <- <-]; exists q; rewrite T2; split; [reflexivity|exact R0]|].
  destruct (modbus_RTU_send (m_req m') (p_id (api_param a))) as [[st2 x]| |]; cbn [bind]; try discriminate.
  rewrite put_txq. destruct (put_msg s2 i (set_req m' x)) as [s3| |] eqn:P3; cbn [bind om]; try discriminate.
  assert (T3 : mm_txq s3 = mm_txq s). { unfold put_msg in P3. destruct (aset _ _ _); inversion P3. exact T2. }
  destruct (RET_ERROR =? st2); [intros [= <- <-]; exists q; rewrite T3; split; [reflexivity|exact R0]|].
  mprj. rewrite T3. destruct (P0 i) as (q' & qs' & E1 & E2 & R1). rewrite E1, E2. cbn [bind]. intros [= <- <-]. exists q'. split; [reflexivity|exact R1].
Qed.
(** *** interrupts *)
Lemma ev_on_free c e s q : is_req e = false -> m_event c e (m_set_free s q) = om (fun x => (m_set_free (fst x) q, snd x)) (m_event c e s) /\ forall s' o, m_event c e s = Ok (s', o) -> mm_free s' = mm_free s.
Proof.
  intros H. destruct e; try discriminate H; cbn [m_event]; mprj; (split; [|intros s' o E]).
  all: try (destruct (mm_sub s); reflexivity). all: try (destruct (negb (mm_timer s =? 0)); reflexivity).
  all: try (destruct (mm_sub s); injection E as <- <-; reflexivity). all: try (destruct (negb (mm_timer s =? 0)); injection E as <- <-; reflexivity).
  - destruct (mm_rx s); [|reflexivity]. rewrite get_free, om_bind. apply bind_ext. intros m. rewrite om_bind. apply bind_ext. intros r. rewrite put_free, bind_om, om_bind. apply bind_ext. intros s2. reflexivity.
  - destruct (mm_rx s); [|injection E as <- <-; reflexivity]. apply bind_ok in E as (m & _ & E). apply bind_ok in E as (r & _ & E). apply bind_ok in E as (s2 & P & E). injection E as <- <-.
    unfold put_msg in P. destruct (aset _ _ _); inversion P. reflexivity.
Qed.
Lemma ev_on_txq c e s q : is_req e = false -> m_event c e (m_set_txq s q) = om (fun x => (m_set_txq (fst x) q, snd x)) (m_event c e s) /\ forall s' o, m_event c e s = Ok (s', o) -> mm_txq s' = mm_txq s.
Proof.
  intros H. destruct e; try discriminate H; cbn [m_event]; mprj; (split; [|intros s' o E]).
  all: try (destruct (mm_sub s); reflexivity). all: try (destruct (negb (mm_timer s =? 0)); reflexivity).
  all: try (destruct (mm_sub s); injection E as <- <-; reflexivity). all: try (destruct (negb (mm_timer s =? 0)); injection E as <- <-; reflexivity).
  - destruct (mm_rx s); [|reflexivity]. rewrite get_txq, om_bind. apply bind_ext. intros m. rewrite om_bind. apply bind_ext. intros r. rewrite put_txq, bind_om, om_bind. apply bind_ext. intros s2. reflexivity.
  - destruct (mm_rx s); [|injection E as <- <-; reflexivity]. apply bind_ok in E as (m & _ & E). apply bind_ok in E as (r & _ & E). apply bind_ok in E as (s2 & P & E). injection E as <- <-.
    unfold put_msg in P. destruct (aset _ _ _); inversion P. reflexivity.
Qed.
Lemma ev_on_cur c e s v : m_event c e (m_set_cur s v) = om (fun x => (m_set_cur (fst x) v, snd x)) (m_event c e s) /\ forall s' o, m_event c e s = Ok (s', o) -> mm_cur s' = mm_cur s.
Proof.
  assert (B : blind (fun s => m_set_cur s v)) by (constructor; reflexivity).
  destruct e; cbn [m_event]; mprj; (split; [|intros s' o E]).
  all: try (destruct (mm_sub s); reflexivity). all: try (destruct (negb (mm_timer s =? 0)); reflexivity).
  all: try (destruct (mm_sub s); injection E as <- <-; reflexivity). all: try (destruct (negb (mm_timer s =? 0)); injection E as <- <-; reflexivity).
  - destruct (mm_rx s) as [i|]; [|reflexivity]. change (get_msg (m_set_cur s v) i) with (get_msg s i). rewrite om_bind. apply bind_ext. intros m. rewrite om_bind. apply bind_ext. intros r. rewrite (blind_put _ B), bind_om, om_bind. apply bind_ext. intros s2. reflexivity.
  - destruct (mm_rx s); [|injection E as <- <-; reflexivity]. apply bind_ok in E as (m & _ & E). apply bind_ok in E as (r & _ & E). apply bind_ok in E as (s2 & P & E). injection E as <- <-.
    unfold put_msg in P. destruct (aset _ _ _); inversion P. reflexivity.
  - rewrite (blind_req _ B), bind_om, om_bind. apply bind_ext. intros [r s2]. reflexivity.
  - apply bind_ok in E as ([r s1] & H & E). injection E as <- <-. unfold modbus_master_request, generate_request in H. apply bind_ok in H as ([p q] & _ & H).
    destruct p as [i|]; [|injection H as _ <-; reflexivity]. apply bind_ok in H as (m & _ & H). apply bind_ok in H as ([st m'] & _ & H). apply bind_ok in H as (s2 & P & H).
    assert (F2 : mm_cur s2 = mm_cur s) by (unfold put_msg in P; destruct (aset _ _ _); inversion P; reflexivity).
    destruct (st <? 0); [injection H as _ <-; exact F2|]. apply bind_ok in H as ([st2 x] & _ & H). apply bind_ok in H as (s3 & P3 & H).
    assert (F3 : mm_cur s3 = mm_cur s) by (unfold put_msg in P3; destruct (aset _ _ _); inversion P3; exact F2).
    destruct (RET_ERROR =? st2); [injection H as _ <-; exact F3|]. apply bind_ok in H as ([q2 y] & _ & H). injection H as _ <-. exact F3.
Qed.

(** *** the relation *)
Inductive frel (c : cfg) : nat -> fconf -> mconf -> Prop :=
| fr_line k : frel c 0 (mk_fconf k AtLine) k
| fr_check s : frel c 0 (mk_fconf (mk_mconf s (Some M649)) AtCheck) (mk_mconf s (Some M649))
| fr_pop s q l pc : at_pop (c_queue c) pc q (mm_txq s) l false -> frel c 0 (mk_fconf (mk_mconf (m_set_txq s q) (Some M651)) (AtPop pc)) (mk_mconf s (Some M651))
| fr_push0 s q l pc x : mm_cur s = Some x -> at_push (c_queue c) x pc q (mm_free s) l false -> frel c 0 (mk_fconf (mk_mconf (m_set_free s q) (Some M901)) (AtPush pc)) (mk_mconf s (Some M901))
| fr_push1 s q l pc x : at_push (c_queue c) x pc q (mm_free s) l true -> mm_cur s = None ->
    frel c 1 (mk_fconf (mk_mconf (m_set_cur (m_set_free s q) (Some x)) (Some M901)) (AtPush pc)) (mk_mconf s (Some M902)).
Lemma Minv_bufs c t l s : Minv c t l s -> exists free pend, mbuf c free pend l s /\ (length (fly l s) + length pend + length free <= Z.to_nat (c_queue c))%nat.
Proof. intros (free & pend & apis & eps & v & I). exists free, pend. split; [apply (iv_buf _ _ _ _ _ _ _ _ _ I)|]. assert (X := iv_cnt _ _ _ _ _ _ _ _ _ I). lia. Qed.
Lemma event_sim c e d fk k t : cfg_master_ok c -> Minv c t (mloc k) (mc_s k) -> ev_safe e -> harmless (FEv e) fk -> frel c d fk k ->
  exists fk' k' o, f_act c (FEv e) fk = Ok (fk', o) /\ m_run c [MEv e] k = Ok (k', o) /\ frel c d fk' k'.
Proof.
  intros Hc M HE HA H. destruct (m_event_total c t _ _ e Hc M HE) as (s1 & o & E). cbn [f_act m_run m_act]. rewrite E. cbn [bind]. rewrite app_nil_r.
  destruct H as [k|s|s q l pc H|s q l pc x C H|s q l pc x H C]; cbn [fc_k fc_q mc_s mc_pc] in *.
  - rewrite E. cbn [bind]. do 3 eexists. split; [reflexivity|]. split; [reflexivity|]. constructor.
  - rewrite E. cbn [bind]. do 3 eexists. split; [reflexivity|]. split; [reflexivity|]. constructor.
  - destruct (is_req e) eqn:IR.
    + destruct e; try discriminate IR. cbn [harmless] in HA. unfold fine_moment in HA. cbn [fc_q] in HA. cbn [m_event] in *.
      destruct (modbus_master_request c a s) as [[r s2]| |] eqn:Er; cbn [bind] in E; try discriminate. injection E as <- <-.
      destruct (Minv_bufs _ _ _ _ M) as (free & pend & B & L). unfold mloc in B. cbn [mc_pc mc_s] in B. unfold mloc, fly in L. cbn [mc_pc mc_s fly_line length Nat.add] in L.
      assert (R1 := mb_pend _ _ _ _ _ B). assert (Ll : length l = length pend) by (destruct H as [R _]; assert (X := rep_items _ _ _ R1); rewrite (rep_items _ _ _ R) in X; lia).
      destruct free as [|j free].
      * rewrite (req_none c a s (mb_free _ _ _ _ _ B)) in Er. injection Er as <- <-. assert (En : modbus_master_request c a (m_set_txq s q) = Ok (FREE_QUEUE_EMPTY_ERROR, m_set_txq s q)) by (apply req_none; exact (mb_free _ _ _ _ _ B)).
        rewrite En. cbn [bind]. do 3 eexists. split; [reflexivity|]. split; [reflexivity|]. eapply fr_pop; eauto.
      * cbn [length] in L. destruct Hc as [Hq _].
        destruct (req_on_txq c a s q (fun q qs => exists l, at_pop (c_queue c) pc q qs l false)) with (ret := r) (s' := s2) as (q' & Eq & l' & Hq'); auto.
        { intros i. destruct (pop_sim_push (c_queue c) i pc q (mm_txq s) l false H) as (q' & qs' & P1 & P2 & P3); [destruct (pop_in_count pc); auto; discriminate|lia|]. exists q', qs'. eauto. }
        { eauto. }
        rewrite Eq. cbn [bind]. do 3 eexists. split; [reflexivity|]. split; [reflexivity|]. eapply fr_pop; eauto.
    + destruct (ev_on_txq c e s q IR) as (Q1 & Q2). rewrite Q1, E. cbn [om bind fst snd]. do 3 eexists. split; [reflexivity|]. split; [reflexivity|]. eapply fr_pop. rewrite (Q2 _ _ E). exact H.
  - destruct (is_req e) eqn:IR.
    + destruct e; try discriminate IR. cbn [harmless] in HA. unfold fine_moment in HA. cbn [fc_q] in HA. apply andb_true_iff in HA as [HA _]. cbn [m_event] in *.
      destruct (modbus_master_request c a s) as [[r s2]| |] eqn:Er; cbn [bind] in E; try discriminate. injection E as <- <-.
      destruct (push_sim_pop (c_queue c) x pc q (mm_free s) l false H) as (q' & qs' & P1 & P2 & P3); [destruct (push_in_count pc); auto; discriminate|destruct H as [_ H]; destruct pc; discriminate || contradiction|].
      destruct (req_on_free c a s q _ q' qs' P1 P2) as (Q1 & Q2). rewrite Q1, Er. cbn [om bind wF fst snd]. do 3 eexists. split; [reflexivity|]. split; [reflexivity|].
      eapply fr_push0; [|rewrite (Q2 _ _ Er); exact P3]. assert (Q3 := proj2 (ev_on_cur c (MReq a) s None) s2 [MoRet a r]). rewrite Q3; auto. cbn [m_event]. rewrite Er. reflexivity.
    + destruct (ev_on_free c e s q IR) as (Q1 & Q2). rewrite Q1, E. cbn [om bind fst snd]. do 3 eexists. split; [reflexivity|]. split; [reflexivity|]. eapply fr_push0; [|rewrite (Q2 _ _ E); exact H].
      rewrite (proj2 (ev_on_cur c e s None) _ _ E). exact C.
  - destruct (ev_on_cur c e (m_set_free s q) (Some x)) as (K1 & _). rewrite K1. destruct (is_req e) eqn:IR.
    + destruct e; try discriminate IR. cbn [harmless] in HA. unfold fine_moment in HA. cbn [fc_q fc_k mc_s] in HA. mprj. apply andb_true_iff in HA as [HA HB]. cbn [m_event] in *.
      destruct (modbus_master_request c a s) as [[r s2]| |] eqn:Er; cbn [bind] in E; try discriminate. injection E as <- <-.
      assert (R := proj1 H). assert (Ri := rep_items _ _ _ R). assert (Rc := rep_cap _ _ _ R). assert (Rn := rep_N _ _ _ R).
      destruct (push_sim_pop (c_queue c) x pc q (mm_free s) l true H) as (q' & qs' & P1 & P2 & P3).
      { destruct (push_in_count pc); auto; discriminate. }
      { intros B ->. cbn [length] in Ri. destruct H as [_ H]. destruct pc; try discriminate B; try contradiction.
        - destruct H as (H & _). rewrite H in HB. cbn [set_head q_items] in HB. lia.
        - destruct H as (-> & _). cbn [set_items q_items] in HB. rewrite Ri in HB. discriminate HB. }
      destruct (req_on_free c a s q _ q' qs' P1 P2) as (Q1 & Q2). rewrite Q1, Er. cbn [om bind wF fst snd]. do 3 eexists. split; [reflexivity|]. split; [reflexivity|].
      eapply fr_push1; [rewrite (Q2 _ _ Er); exact P3|]. assert (Q3 := proj2 (ev_on_cur c (MReq a) s None) s2 [MoRet a r]). rewrite Q3; auto. cbn [m_event]. rewrite Er. reflexivity.
    + destruct (ev_on_free c e s q IR) as (Q1 & Q2). rewrite Q1, E. cbn [om bind fst snd]. do 3 eexists. split; [reflexivity|]. split; [reflexivity|]. eapply fr_push1; [rewrite (Q2 _ _ E); exact H|].
      rewrite (proj2 (ev_on_cur c e s None) _ _ E). exact C.
Qed.
Lemma mpc_eq (l : mpc) : (l = M649 \/ l = M651 \/ l = M901) \/ (l <> M649 /\ l <> M651 /\ l <> M901).
Proof. destruct l; auto; right; repeat split; discriminate. Qed.
Definition same_end (x : outcome (fconf * list mitem)) (y : outcome (mconf * list mitem)) : Prop :=
  match x with Ok _ => False | UB => y = UB | Diverge => y = Diverge end.
Lemma other_line c k : mc_pc k <> Some M649 -> mc_pc k <> Some M651 -> mc_pc k <> Some M901 ->
  f_step c (mk_fconf k AtLine) = bind (m_act c MStep k) (fun x => Ok (mk_fconf (fst x) AtLine, snd x)).
Proof.
  intros H1 H2 H3. unfold f_step. cbn [fc_q fc_k]. destruct (mc_pc k) as [l|]; [destruct l; congruence || (apply bind_ext; intros [k' o]; reflexivity)|apply bind_ext; intros [k' o]; reflexivity].
Qed.
Lemma step_sim c d fk k t : cfg_master_ok c -> Minv c t (mloc k) (mc_s k) -> frel c d fk k ->
  (exists fk' o, f_step c fk = Ok (fk', o) /\ exists sch d' k' o', (sch = [] \/ sch = [MStep]) /\ m_run c sch k = Ok (k', o') /\ frel c d' fk' k' /\ seen o' = seen o /\ (d + finished o' = d' + finished o)%nat)
  \/ same_end (f_step c fk) (m_run c [MStep] k).
Proof.
  intros Hc M H. destruct (Minv_bufs _ _ _ _ M) as (free & pend & B & L). assert (Hp := mb_pend _ _ _ _ _ B). assert (Hf := mb_free _ _ _ _ _ B).
  assert (P0 : forall s pc q l, at_pop (c_queue c) pc q (mm_txq s) l false -> 
    exists fk' o, f_pop c pc (m_set_txq s q) = Ok (fk', o) /\ exists sch d' k' o', (sch = [] \/ sch = [MStep]) /\ m_run c sch (mk_mconf s (Some M651)) = Ok (k', o') /\ frel c d' fk' k' /\ seen o' = seen o /\ (0 + finished o' = d' + finished o)%nat).
  { clear. intros s pc q l H. destruct (pop_sim_step (c_queue c) pc q (mm_txq s) l false H) as (pc' & q' & E & S1). unfold f_pop. mprj. rewrite E. cbn [bind]. change (m_set_txq (m_set_txq s q) q') with (m_set_txq s q').
    destruct S1 as [(S1 & _)|(_ & r & qs' & -> & P & S1)].
    - destruct pc'; try (destruct S1 as [_ S1]; contradiction); do 2 eexists; (split; [reflexivity|]); exists [], 0%nat; do 2 eexists; (split; [auto|]); (split; [reflexivity|]); (split; [eapply fr_pop; exact S1|]); auto.
    - do 2 eexists. split; [reflexivity|]. exists [MStep], 0%nat. do 2 eexists. split; [auto|]. split; [cbn [m_run m_act mc_pc mc_s m_line]; rewrite P; reflexivity|]. destruct S1 as [_ ->]. split; [constructor|]. auto. }
  assert (P1 : forall s pc q l x, mm_cur s = Some x -> at_push (c_queue c) x pc q (mm_free s) l false ->
    exists fk' o, f_push c pc (m_set_free s q) = Ok (fk', o) /\ exists sch d' k' o', (sch = [] \/ sch = [MStep]) /\ m_run c sch (mk_mconf s (Some M901)) = Ok (k', o') /\ frel c d' fk' k' /\ seen o' = seen o /\ (0 + finished o' = d' + finished o)%nat).
  { clear. intros s pc q l x C H. destruct (push_sim_step (c_queue c) x pc q (mm_free s) l false H) as (pc' & q' & E & S1). unfold f_push. mprj. rewrite C, E. cbn [bind]. change (m_set_free (m_set_free s q) q') with (m_set_free s q').
    destruct S1 as [S1|(_ & qs' & P & S1)].
    - destruct pc'; try (destruct S1 as [_ S1]; contradiction); do 2 eexists; (split; [reflexivity|]); exists [], 0%nat; do 2 eexists; (split; [auto|]); (split; [reflexivity|]); (split; [eapply fr_push0; eauto|]); auto.
    - assert (Ln : m_run c [MStep] (mk_mconf s (Some M901)) = Ok (mk_mconf (m_set_cur (m_set_free s qs') None) (Some M902), [MTOut MoFree])) by (cbn [m_run m_act mc_pc mc_s m_line]; rewrite C, P; reflexivity).
      assert (Sx : forall z, m_set_free s z = m_set_cur (m_set_free (m_set_cur (m_set_free s qs') None) z) (Some x)) by (intros z; destruct s; cbn in C; subst; reflexivity).
      destruct pc'; try (destruct S1 as [_ S1]; contradiction).
      1-5: do 2 eexists; (split; [reflexivity|]); exists [MStep], 1%nat; do 2 eexists; (split; [auto|]); (split; [exact Ln|]); (split; [rewrite Sx; eapply fr_push1; [exact S1|reflexivity]|]); auto.
      do 2 eexists. split; [reflexivity|]. exists [MStep], 0%nat. do 2 eexists. split; [auto|]. split; [exact Ln|]. destruct S1 as (_ & -> & ->). split; [apply fr_line|]. auto. }
  destruct H as [k|s|s q l pc H|s q l pc x C H|s q l pc x H C].
  - destruct (mc_pc k) as [l|] eqn:Ep.
    + assert (Ek : k = mk_mconf (mc_s k) (Some l)) by (destruct k; cbn in *; congruence). unfold mloc in *. rewrite Ep in *. set (s := mc_s k) in *. clearbody s. subst k. cbn [mc_s mc_pc] in *.
      destruct (mpc_eq l) as [[->|[->| ->]]|(N1 & N2 & N3)].
      * left. cbn [f_step fc_q fc_k mc_pc mc_s]. assert (A := avail_iff _ _ _ Hp). unfold check_data_to_send_availability in A. destruct (q_head (mm_txq s) =? q_tail (mm_txq s)) eqn:Q; cbn [negb].
        { do 2 eexists. split; [reflexivity|]. exists [], 0%nat. do 2 eexists. split; [auto|]. split; [reflexivity|]. split; [constructor|]. auto. }
        { do 2 eexists. split; [reflexivity|]. exists [MStep], 0%nat. do 2 eexists. split; [auto|]. split; [cbn [m_run m_act mc_pc mc_s m_line]; unfold check_data_to_send_availability; rewrite Q; reflexivity|]. split; [constructor|]. auto. }
      * left. assert (H : at_pop (c_queue c) Q89 (mm_txq s) (mm_txq s) pend false) by (split; auto). destruct (P0 s Q89 (mm_txq s) pend H) as (fk' & o & E & R). exists fk', o. split; [|exact R].
        cbn [f_step fc_q fc_k mc_pc mc_s]. rewrite <- E. f_equal. destruct s; reflexivity.
      * left. destruct (mm_cur s) as [i|] eqn:C; [|exfalso; eapply mb_cur; eauto; reflexivity]. unfold fly in L. cbn [fly_line] in L. rewrite C in L. cbn [length] in L. destruct Hc as [Hq _].
        assert (H : at_push (c_queue c) i P52 (mm_free s) (mm_free s) free false) by (split; auto; split; auto; lia). destruct (P1 s P52 (mm_free s) free i C H) as (fk' & o & E & R). exists fk', o. split; [|exact R].
        cbn [f_step fc_q fc_k mc_pc mc_s]. rewrite <- E. f_equal. destruct s; reflexivity.
      * rewrite other_line by (cbn [mc_pc]; congruence). cbn [m_run]. destruct (m_act c MStep (mk_mconf s (Some l))) as [[k1 o]| |] eqn:E; cbn [bind fst snd]; [left|right; reflexivity..].
        do 2 eexists. split; [reflexivity|]. exists [MStep], 0%nat. do 2 eexists. split; [auto|]. split; [cbn [m_run]; rewrite E; cbn [bind]; rewrite app_nil_r; reflexivity|]. split; [constructor|]. auto.
    + rewrite other_line by congruence. cbn [m_run m_act]. rewrite Ep. cbn [bind fst snd]. left. do 2 eexists. split; [reflexivity|]. exists [MStep], 0%nat. do 2 eexists. split; [auto|]. split; [cbn [m_run m_act]; rewrite Ep; reflexivity|]. split; [constructor|]. auto.
  - left. cbn [f_step fc_q fc_k mc_pc mc_s] in *. assert (A := avail_iff _ _ _ Hp). assert (A2 := rep_items _ _ _ Hp). do 2 eexists. split; [reflexivity|]. exists [MStep], 0%nat. do 2 eexists. split; [auto|].
    split; [|split; [constructor|auto]]. cbn [m_run m_act mc_pc mc_s m_line]. rewrite A, A2. destruct pend; reflexivity.
  - left. cbn [f_step fc_q fc_k mc_pc mc_s]. apply (P0 s pc q l H).
  - left. cbn [f_step fc_q fc_k mc_pc mc_s]. apply (P1 s pc q l x C H).
  - left. cbn [f_step fc_q fc_k mc_pc mc_s]. destruct (push_sim_step (c_queue c) x pc q (mm_free s) l true H) as (pc' & q' & E & S1). unfold f_push. mprj. rewrite E. cbn [bind].
    destruct S1 as [S1|(X & _)]; [|discriminate].
    assert (Sx : forall z, m_set_free (m_set_cur (m_set_free s q) (Some x)) z = m_set_cur (m_set_free s z) (Some x)) by reflexivity. rewrite Sx.
    destruct pc'; try (destruct S1 as [_ S1]; contradiction).
    1-5: do 2 eexists; (split; [reflexivity|]); exists [], 1%nat; do 2 eexists; (split; [auto|]); (split; [reflexivity|]); (split; [eapply fr_push1; eauto|]); auto.
    do 2 eexists. split; [reflexivity|]. exists [], 0%nat. do 2 eexists. split; [auto|]. split; [reflexivity|]. destruct S1 as (_ & -> & ->). split; [|auto].
    replace (m_set_cur (m_set_cur (m_set_free s (mm_free s)) (Some x)) None) with s by (destruct s; cbn in C; subst; reflexivity). constructor.
Qed.
Lemma seen_app a b : seen (a ++ b) = seen a ++ seen b.
Proof. apply filter_app. Qed.
Lemma f_run_sim c : cfg_master_ok c -> forall acts d fk k t, Minv c t (mloc k) (mc_s k) -> f_reqs_safe acts -> harmless_run c acts fk -> frel c d fk k ->
  (exists fk' o, f_run c acts fk = Ok (fk', o) /\ exists sch d' k' o', reqs_safe sch /\ m_run c sch k = Ok (k', o') /\ frel c d' fk' k' /\ seen o' = seen o /\ (d + finished o' = d' + finished o)%nat)
  \/ exists sch, reqs_safe sch /\ same_end (f_run c acts fk) (m_run c sch k).
Proof.
  intros Hc. induction acts as [|a acts IH]; intros d fk k t M HS HA H.
  { left. do 2 eexists. split; [reflexivity|]. exists [], d. do 2 eexists. split; [intros a []|]. split; [reflexivity|]. auto. }
  assert (HS' : f_reqs_safe acts) by (intros x Hx; apply HS; right; exact Hx). destruct HA as [HA HB].
  assert (C : (exists fk1 o1, f_act c a fk = Ok (fk1, o1) /\ exists sch d1 k1 o1', reqs_safe sch /\ m_run c sch k = Ok (k1, o1') /\ frel c d1 fk1 k1 /\ seen o1' = seen o1 /\ (d + finished o1' = d1 + finished o1)%nat)
     \/ exists sch, reqs_safe sch /\ same_end (f_act c a fk) (m_run c sch k)).
  { destruct a as [|e].
    - destruct (step_sim c d fk k t Hc M H) as [(fk1 & o1 & E & sch & d1 & k1 & o1' & Sc & R)|R]; [left|right; exists [MStep]; split; [intros x [X|[]]; discriminate|exact R]].
      exists fk1, o1. split; [exact E|]. exists sch, d1, k1, o1'. split; [|exact R]. destruct Sc as [->| ->]; intros x X; [destruct X|destruct X as [X|[]]; discriminate].
    - assert (He : ev_safe e) by (destruct e; cbn; auto; apply HS; left; auto).
      destruct (event_sim c e d fk k t Hc M He HA H) as (fk1 & k1 & o1 & E & R & F). left. exists fk1, o1. split; [exact E|]. exists [MEv e], d, k1, o1. split; [|split; [exact R|split; [exact F|auto]]].
      intros x [X|[]]. injection X as ->. exact He. }
  destruct C as [(fk1 & o1 & E & sch & d1 & k1 & o1' & Sc & R & F & Sn & Fi)|(sch & Sc & R)].
  - assert (M1 := Minv_run c sch t k k1 o1' Hc Sc M R). cbn [f_run]. rewrite E. cbn [bind].
    destruct (IH d1 fk1 k1 _ M1 HS' (HB _ _ E) F) as [(fk2 & o2 & E2 & sch2 & d2 & k2 & o2' & Sc2 & R2 & F2 & Sn2 & Fi2)|(sch2 & Sc2 & R2)].
    + left. rewrite E2. cbn [bind]. do 2 eexists. split; [reflexivity|]. exists (sch ++ sch2), d2, k2, (o1' ++ o2'). split; [intros x X; apply in_app_or in X as [X|X]; auto|].
      split; [rewrite m_run_app, R; cbn [bind fst snd]; rewrite R2; reflexivity|]. split; [exact F2|]. rewrite !seen_app, !finished_app, Sn, Sn2. split; [reflexivity|lia].
    + right. exists (sch ++ sch2). split; [intros x X; apply in_app_or in X as [X|X]; auto|]. rewrite m_run_app, R. cbn [bind fst snd].
      destruct (f_run c acts fk1) as [[? ?]| |]; cbn [same_end bind] in *; [contradiction|rewrite R2; reflexivity..].
  - right. exists sch. split; [exact Sc|]. cbn [f_run]. destruct (f_act c a fk) as [[? ?]| |]; cbn [same_end bind] in *; [contradiction|exact R..].
Qed.
Lemma nd_run c : cfg_master_ok c -> forall sch t k, reqs_safe sch -> Minv c t (mloc k) (mc_s k) -> m_run c sch k <> Diverge.
Proof.
  intros Hc. induction sch as [|a sch IH]; intros t k HS M; cbn [m_run]; [discriminate|]. assert (HS' : reqs_safe sch) by (intros x X; apply HS; right; exact X).
  assert (Ha : reqs_safe [a]) by (intros x [X|[]]; apply HS; left; exact X).
  destruct (m_act c a k) as [[k1 t1]| |] eqn:E; cbn [bind]; [|discriminate|].
  - assert (R : m_run c [a] k = Ok (k1, t1)) by (cbn [m_run]; rewrite E; cbn [bind]; rewrite app_nil_r; reflexivity).
    assert (X := IH _ k1 HS' (Minv_run c [a] t k k1 t1 Hc Ha M R)). destruct (m_run c sch k1) as [[? ?]| |]; cbn [bind]; congruence || discriminate.
  - exfalso. destruct a as [|e]; cbn [m_act] in E.
    + destruct (mc_pc k) as [l|]; [|discriminate]. assert (X := nd_line c l (mc_s k)). destruct (m_line c l (mc_s k)) as [[[? ?] ?]| |]; cbn [bind] in E; try discriminate. apply X. reflexivity.
    + assert (He : ev_safe e) by (destruct e; cbn; auto; apply Ha; left; auto). destruct (m_event_total c t _ _ e Hc M He) as (s1 & o & E1). rewrite E1 in E. discriminate.
Qed.
Theorem fine_master c s acts : cfg_master_ok c -> started c s -> f_reqs_safe acts -> harmless_run c acts (mk_fconf (mk_mconf s None) AtLine) ->
  match f_run c acts (mk_fconf (mk_mconf s None) AtLine) with
  | Ok (k, t) => exists sched k' t', m_history c sched k' t' /\ seen t' = seen t /\ (fc_q k = AtLine -> k' = fc_k k /\ finished t' = finished t)
  | UB => exists sched, reqs_safe sched /\ m_run c sched (mk_mconf s None) = UB
  | Diverge => False
  end.
Proof.
  intros Hc St HS HA. assert (M : Minv c [] (mloc (mk_mconf s None)) s).
  { assert (X : m_history c [] (mk_mconf s None) []) by (exists s; split; [exact St|split; [intros a []|reflexivity]]). exact (ci_inv _ _ _ _ (history_cinv _ _ _ _ Hc X)). }
  destruct (f_run_sim c Hc acts 0%nat _ (mk_mconf s None) [] M HS HA (fr_line c _)) as [(fk & o & E & sch & d & k & o' & Sc & R & F & Sn & Fi)|(sch & Sc & R)].
  - rewrite E. exists sch, k, o'. split; [exists s; auto|]. split; [exact Sn|]. intros Q. inversion F; subst; cbn [fc_q] in Q; try discriminate. split; [reflexivity|lia].
  - destruct (f_run c acts (mk_fconf (mk_mconf s None) AtLine)) as [[? ?]| |]; cbn [same_end] in R; [contradiction|eauto|]. exfalso. exact (nd_run c Hc sch [] _ Sc M R).
Qed.
(** deciding [harmless_run] on examples *)
Fixpoint harmless_runb (c : cfg) (acts : list fmove) (k : fconf) : bool :=
  match acts with
  | [] => true
  | a :: l => (match a with FEv (MReq _) => fine_moment k | _ => true end) && match f_act c a k with Ok (k', _) => harmless_runb c l k' | _ => true end
  end.
Lemma harmless_runb_ok c : forall acts k, harmless_runb c acts k = true -> harmless_run c acts k.
Proof.
  induction acts as [|a acts IH]; intros k H; cbn [harmless_runb harmless_run] in *; [exact I|]. apply andb_true_iff in H as [H1 H2]. split.
  - destruct a as [|[]]; cbn; auto.
  - intros k' t E. rewrite E in H2. auto.
Qed.
