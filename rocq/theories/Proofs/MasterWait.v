(** Waiting for a response: timeout, foreign frames, hangs. *)
From Verif Require Export Proofs.MasterDrive Spec.MasterTraffic.

Ltac vinv H := unfold view in H; inversion H.
(** destruct an event: hypothesis E : m_event c e s = Ok (s', o) *)
Ltac evs I Hs E :=
  let IR := fresh "IR" in let a0 := fresh "b" in let r0 := fresh "r" in let Vw := fresh "Vw" in
  destruct (cev _ _ _ _ _ _ _ ltac:(eassumption) (ci_inv _ _ _ _ I) Hs E) as [(IR & -> & ->)|(a0 & r0 & -> & -> & Vw)].
Lemma In_cons_not {A} (x e : A) l : ~ In x (e :: l) -> x <> e /\ ~ In x l.
Proof. intros H. split; intros X; apply H; [left; auto|right; auto]. Qed.

(** *** no response: the timer runs *)
Definition Qw (a : api) (F : nat) (V : list vis) (n : Z) (rem : list mev) (t : list mitem) (l : mpc) (s : master) : Prop :=
  base a F V t /\ (l = M673 \/ l = M690 \/ l = M694) /\ mm_t15 s = CLEARED /\ mm_timer s = n + Z.of_nat (ticks rem) /\ 2 <= n /\ ~ In MT15 rem.
Lemma wait_phase c a F V n : cfg_master_ok c -> forall sched rem t k, reqs_safe sched -> cinv c t (mloc k) (mc_s k) ->
  Qw a F V n (m_events sched ++ rem) t (mloc k) (mc_s k) ->
  exists k' o, m_run c sched k = Ok (k', o) /\ cinv c (t ++ o) (mloc k') (mc_s k') /\ Qw a F V n rem (t ++ o) (mloc k') (mc_s k').
Proof.
  intros Hc. apply cphase; auto.
  - intros rem t l s l' s' o I (B & L & T & Ti & N & NT) E. assert (BS := mc_st _ _ _ (Minv_ctl _ _ _ _ (ci_inv _ _ _ _ I))).
    destruct L as [->|[->| ->]]; mline_inv E; cbn [m_next map]; unfold m_dispatch; mprj; cbn [mst_ok] in BS; rewrite ?app_nil_r; rewrite ?BS.
    + split; auto.
    + rewrite T in X. discriminate.
    + split; auto.
    + exfalso. apply Z.eqb_eq in X. lia.
    + split; auto.
  - intros e rem t l s s' o I (B & L & T & Ti & N & NT) Hs E. apply In_cons_not in NT as [NE NT]. evs I Hs E.
    + split; [apply base_ev; auto|]. split; auto.
      destruct e; try discriminate IR; try congruence; cbn [ev_state ticks] in *; mprj; auto.
      * assert (X := rx_view s b). cbn [ev_state] in X. vinv X. split; [congruence|]. split; auto. lia.
      * replace (mm_timer s =? 0) with false by lia. cbn [negb]. mprj. split; auto. split; auto. lia.
    + vinv Vw. split; [apply base_ev; eauto|]. split; auto. split; [congruence|]. cbn [ticks] in Ti. split; auto. congruence.
  - intros rem t l s I (B & L & _). apply not813. destruct L as [->|[->| ->]]; discriminate.
Qed.

Definition Qt (a : api) (F : nat) (V : list vis) (t : list mitem) (l : mpc) (s : master) : Prop :=
  mm_t15 s = CLEARED /\
  match l with
  | M673 | M690 | M694 | M718 => base a F V t /\ mm_timer s = 1
  | M900 | M901 => exists r, timeout_report_of a r /\ base a F (V ++ [VCb (TimeoutErr r)]) t
  | M902 | M649 => exists r, timeout_report_of a r /\ finished t = S F /\ visible t = V ++ [VCb (TimeoutErr r); VFree]
  | _ => False
  end.
Definition goal_idle (t : list mitem) (l : mpc) : bool := match l with M649 => true | _ => false end.
Definition wt (l : mpc) : nat := match l with M673 => 8 | M690 => 6 | M694 => 5 | M718 => 4 | M900 => 3 | M901 => 2 | _ => 1 end.
Lemma timeout_reach c a F V : cfg_master_ok c -> forall sched t k, reqs_safe sched -> (forall e, In e (m_events sched) -> e <> MTick /\ e <> MT15) ->
  cinv c t (mloc k) (mc_s k) -> Qt a F V t (mloc k) (mc_s k) -> mloc k <> M649 -> (9 <= m_steps sched)%nat ->
  exists s1 s2 k' o, sched = s1 ++ s2 /\ m_run c s1 k = Ok (k', o) /\ cinv c (t ++ o) (mloc k') (mc_s k') /\
    Qt a F V (t ++ o) (mloc k') (mc_s k') /\ mloc k' = M649 /\ mc_pc k' = None.
Proof.
  intros Hc sched t k HS HE I H NG W.
  assert (X : forall t l, goal_idle t l = true -> l = M649) by (intros ? [] ?; auto; discriminate).
  enough (Y : exists s1 s2 k' o, sched = s1 ++ s2 /\ m_run c s1 k = Ok (k', o) /\ cinv c (t ++ o) (mloc k') (mc_s k') /\
    Qt a F V (t ++ o) (mloc k') (mc_s k') /\ goal_idle (t ++ o) (mloc k') = true /\ (True -> mc_pc k' = None)).
  { destruct Y as (s1 & s2 & k' & o & Y1 & Y2 & Y3 & Y4 & Y5 & Y6). exists s1, s2, k', o. repeat (split; auto). eapply X; eauto. }
  clear X. apply (creach c (Qt a F V) goal_idle wt (fun e => e <> MTick /\ e <> MT15) True); auto.
  - clear - Hc. intros t l s l' s' o I [T H] G E. assert (K := Minv_ctl _ _ _ _ (ci_inv _ _ _ _ I)). assert (BS := mc_st _ _ _ K).
    destruct l; try (destruct H; fail); try discriminate G.
    + destruct H as (B & Ti). mline_inv E. cbn [m_next map]. unfold m_dispatch. mprj. rewrite app_nil_r. split; [split; auto|]. right. split; auto.
    + destruct H as (B & Ti). mline_inv E; [rewrite T in X; discriminate|]. cbn [m_next map]. rewrite app_nil_r. split; [split; auto|]. right. split; auto. 
    + destruct H as (B & Ti). mline_inv E; [|rewrite Ti in X; discriminate]. cbn [m_next map]. rewrite app_nil_r. split; [split; auto|]. right. split; auto. 
    + destruct H as (B & Ti). destruct (Minv_current _ _ _ _ (ci_inv _ _ _ _ I) eq_refl) as (i & a' & m & C & Cu & N & Hm & Hr & A & Va).
      assert (a' = a) by (destruct B as (B & _); congruence). subst a'. cbn [m_line] in E. rewrite (proj2 (cur_msg_inv _ _ _) (conj C N)) in E. cbn [bind] in E.
      rewrite (timeout_report_char m a) in E by auto. cbn [bind] in E. inversion E; subst. cbn [m_next map].
      split; [|right; split; auto]. split; auto. eexists. split; [|apply (base_vis _ _ _ _ [MoCb _] _ B); reflexivity]. unfold timeout_report_of. auto.
    + destruct H as (r & R & B). mline_inv E. cbn [m_next map]. rewrite app_nil_r. split; [split; auto; exists r; auto|]. right. split; auto.
    + destruct H as (r & R & B). mline_inv E. cbn [m_next map]. split; [|right; split; auto]. split; auto. exists r. split; auto. destruct B as (B1 & B2 & B3).
      rewrite finished_app, visible_app, B2, B3, <- app_assoc. cbn. split; auto. lia.
    + mline_inv E. cbn [m_next map]. unfold m_dispatch. mprj. rewrite app_nil_r. split; [split; auto|]. left. auto.
  - clear - Hc. intros e t l s s' o I [T H] [N1 N2] Hs E. split; [|destruct l; reflexivity].
    assert (T' : mm_t15 s' = CLEARED).
    { evs I Hs E.
      + destruct e; try discriminate IR; try congruence; cbn [ev_state]; mprj; auto. assert (X := rx_view s b). cbn [ev_state] in X. vinv X. congruence.
      + vinv Vw. congruence. }
    assert (D : base a F V t /\ mm_timer s = 1 -> base a F V (t ++ MTEv e :: map MTOut o) /\ mm_timer s' = 1).
    { intros (B & Ti). evs I Hs E.
      + split; [apply base_ev; auto|]. destruct e; try discriminate IR; try congruence; cbn [ev_state]; mprj; auto.
        assert (X := rx_view s b). cbn [ev_state] in X. vinv X. congruence.
      + vinv Vw. split; [apply base_ev; eauto|]. congruence. }
    assert (O : o = [] \/ (exists b r, o = [MoRet b r])) by (evs I Hs E; eauto).
    assert (X : finished (MTEv e :: map MTOut o) = 0%nat /\ visible (MTEv e :: map MTOut o) = []) by (destruct O as [->|(b & r & ->)]; auto). destruct X as [X1 X2].
    destruct l; cbn [Qt] in *; try (destruct H; fail); split; auto.
    + rewrite finished_app, visible_app, X1, X2, app_nil_r, Nat.add_0_r. exact H.
    + destruct H as (r & R & B). exists r. split; auto. apply base_ev; auto.
    + destruct H as (r & R & B). exists r. split; auto. apply base_ev; auto.
    + rewrite finished_app, visible_app, X1, X2, app_nil_r, Nat.add_0_r. exact H.
  - clear. intros t l s I [_ H]. apply not813. intros ->. exact H.
  - clear. intros t l H. destruct l; try discriminate H; cbn; lia.
  - destruct (mloc k); auto; congruence.
  - unfold m_weight. destruct (mc_pc k) as [[]|]; cbn [wt]; try lia. destruct (m_dispatch _); cbn [wt]; lia.
Qed.
