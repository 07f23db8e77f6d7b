(** Totality of the master's lines, termination of polls, phases of an interleaving. *)
From Verif Require Export Proofs.MasterErr.

(** *** every line can be executed, except the interpretation of a response that reads beyond its buffer *)
Lemma m_line_total c t l s : Minv c t l s ->
  (l = M813 -> forall i a m, mm_cur s = Some i -> current t = Some a -> nth_error (mm_msgs s) i = Some m -> delivered a (rr_buf (m_resp m)) <> None) ->
  exists l' s' o, m_line c l s = Ok (l', s', o).
Proof.
  intros I H8. assert (K := Minv_ctl _ _ _ _ I). assert (D := mc_drv _ _ _ K).
  destruct (fly_line l) eqn:F.
  - destruct (Minv_current _ _ _ _ I F) as (i & a & m & C & Cu & N & Hm & H & A & V).
    assert (CM : cur_msg s = Ok (i, m)) by (apply cur_msg_inv; auto).
    assert (SL : set_cur_resp_len s 0 = Ok (m_set_msgs s (upd (mm_msgs s) i (set_resp m (set_len (m_resp m) 0))))) by (apply set_cur_len_ok; auto).
    destruct l; try discriminate F; cbn [m_line]; rewrite ?CM, ?SL, ?D; cbn [bind];
      try (repeat match goal with |- context [if ?b then _ else _] => destruct b end; do 3 eexists; reflexivity).
    + rewrite (timeout_report_char m a) by auto. cbn [bind]. eauto.
    + destruct Hm as [(P & L & B & _) _]. rewrite rd_ok by (auto; unfold MODBUS_SLAVE_ADR_IDX; lia). cbn [bind]. eauto.
    + rewrite recv_ok by apply Hm. cbn [bind]. eauto.
    + assert (R := read_resp_char m a Hm H A V). specialize (H8 eq_refl i a m C Cu N). destruct (delivered a (rr_buf (m_resp m))) as [l|]; [|congruence].
      destruct R as (st & ->). cbn [bind]. eauto.
    + rewrite comm_report_char by apply Hm. cbn [bind]. eauto.
    + rewrite comm_report_char by apply Hm. cbn [bind]. eauto.
    + destruct I as (free & pend & apis & eps & v & I). assert (B := iv_buf _ _ _ _ _ _ _ _ _ I).
      assert (L := nodup_room _ _ (mb_nd _ _ _ _ _ B) (mb_lt _ _ _ _ _ B)). unfold fly in L. cbn [fly_line] in L. rewrite C in L. cbn [app length] in L. rewrite app_length in L.
      assert (HN := rep_N _ _ _ (mb_free _ _ _ _ _ B)).
      rewrite C. destruct (push_room _ _ _ i (mb_free _ _ _ _ _ B)) as (q & P & _); [lia|]. rewrite P. cbn [bind]. eauto.
  - destruct l; try discriminate F; cbn [m_line].
    + destruct (check_data_to_send_availability _); eauto.
    + destruct I as (free & pend & apis & eps & v & I). assert (B := iv_buf _ _ _ _ _ _ _ _ _ I).
      destruct pend as [|i pend]; [destruct (mb_651 _ _ _ _ _ B eq_refl eq_refl)|].
      destruct (pop_cons _ _ _ _ (mb_pend _ _ _ _ _ B)) as (q & P & R). rewrite P. cbn [bind]. eauto.
    + eauto.
Qed.
Lemma m_event_total c t l s e : cfg_master_ok c -> Minv c t l s -> ev_safe e -> exists s' o, m_event c e s = Ok (s', o).
Proof.
  intros Hc (free & pend & apis & eps & v & I) H. assert (B := iv_buf _ _ _ _ _ _ _ _ _ I). destruct (is_req e) eqn:IR.
  - destruct e; try discriminate IR. destruct (req_event c a free pend l s Hc B H) as (s2 & r & free' & pend' & E2 & Q & B'). eauto.
  - rewrite (event_char c e free pend l s IR (mc_sub _ _ _ (iv_ctl _ _ _ _ _ _ _ _ _ I)) B). eauto.
Qed.

(** *** rank of a line: an upper bound of the number of lines until the function returns *)
Definition m_rank (l : mpc) : nat :=
  match l with
  | M902 => 1 | M901 => 2 | M900 => 3
  | M813 | M718 | M844 | M879 => 4
  | M838 | M873 => 1 | M837 | M872 => 2 | M836 | M871 => 3 | M834 | M869 => 5 | M833 | M868 => 6
  | M792c => 5 | M792b => 6 | M792 => 7 | M788b => 8 | M788 => 9 | M784b => 10 | M784 => 11
  | M694 => 5 | M763 => 1 | M762 => 2 | M758 => 1 | M756 _ => 3 | M754 => 1 | M753 => 2 | M752 => 3
  | M750 _ => 4 | M749 _ => 5 | M748 _ => 6 | M747 _ => 7 | M746 => 8 | M690 => 9
  | M407 => 1 | M406 => 2 | M405 => 3 | M404 => 4 | M651 => 5 | M649 => 6
  | M673 => 1 | M672 => 2 | M671 => 3 | M669 => 4
  end.
Lemma m_rank_line c l s l' s' o : m_line c l s = Ok (Some l', s', o) -> (m_rank l' < m_rank l)%nat.
Proof. intros E. destruct l; mline_inv E; cbn; lia. Qed.
Lemma m_rank_pos l : (1 <= m_rank l <= 11)%nat.
Proof. destruct l; cbn; lia. Qed.
(** within [m_rank] further lines, whatever events come between, the function has returned *)
Lemma m_returns c sched : forall k l k' t, mc_pc k = Some l -> (m_rank l <= m_steps sched)%nat -> m_run c sched k = Ok (k', t) ->
  exists s1 s2 k1 t1, sched = s1 ++ s2 /\ m_run c s1 k = Ok (k1, t1) /\ mc_pc k1 = None /\ (m_steps s1 <= m_rank l)%nat.
Proof.
  induction sched as [|a sched IH]; intros k l k' t P H E.
  - cbn in H. assert (X := m_rank_pos l). lia.
  - cbn [m_run] in E. destruct (m_act c a k) as [[k1 t1]| |] eqn:A; try discriminate. cbn [bind] in E.
    destruct (m_run c sched k1) as [[k2 t2]| |] eqn:A2; try discriminate.
    destruct a as [|e].
    + assert (A' := A). cbn [m_act] in A. rewrite P in A. destruct (m_line c l (mc_s k)) as [[[l' s'] o]| |] eqn:E1; try discriminate. cbn [bind] in A. inversion A; subst k1 t1.
      destruct l' as [l'|].
      * assert (X := m_rank_line _ _ _ _ _ _ E1). destruct (IH (mk_mconf s' (Some l')) l' k2 t2 eq_refl) as (s1 & s2 & k3 & t3 & -> & R1 & R2 & R3); auto.
        { cbn [m_steps] in H. lia. }
        exists (MStep :: s1), s2, k3, (map MTOut o ++ t3). split; [reflexivity|]. cbn [m_run]. rewrite A'. cbn [bind]. rewrite R1. cbn [bind m_steps]. repeat split; auto. lia.
      * exists [MStep], sched, (mk_mconf s' None), (map MTOut o ++ []). split; [reflexivity|]. cbn [m_run]. rewrite A'. cbn [bind m_steps]. repeat split; auto. apply m_rank_pos.
    + assert (A' := A). cbn [m_act] in A. destruct (m_event c e (mc_s k)) as [[s' o]| |]; try discriminate. cbn [bind] in A. inversion A; subst k1 t1.
      destruct (IH (mk_mconf s' (mc_pc k)) l k2 t2 P) as (s1 & s2 & k3 & t3 & -> & R1 & R2 & R3); auto.
      exists (MEv e :: s1), s2, k3, ((MTEv e :: map MTOut o) ++ t3). split; [reflexivity|]. cbn [m_run]. rewrite A'. cbn [bind]. rewrite R1. cbn [bind m_steps]. repeat split; auto.
Qed.
(** an uninterrupted poll: it ends with a value or undefined behaviour, never runs out of fuel *)
Lemma m_lines_end c fuel : forall l s, (m_rank l <= fuel)%nat -> m_lines fuel c l s <> Diverge \/ exists l s, m_line c l s = Diverge.
Proof.
  induction fuel as [|fuel IH]; intros l s H; [assert (X := m_rank_pos l); lia|]. cbn [m_lines].
  destruct (m_line c l s) as [[[l' s'] o]| |] eqn:E; cbn [bind]; [|left; discriminate|right; eauto]. destruct l' as [l'|]; [|left; discriminate].
  apply m_rank_line in E. destruct (IH l' s' ltac:(lia)) as [X|X]; auto. left. destruct (m_lines fuel c l' s') as [[? ?]| |]; cbn [bind]; congruence.
Qed.

(** *** schedules *)
Lemma m_run_app c a : forall b k, m_run c (a ++ b) k = let* '(k1, t1) := m_run c a k in let* '(k2, t2) := m_run c b k1 in Ok (k2, t1 ++ t2).
Proof.
  induction a as [|x a IH]; intros b k; cbn [app m_run].
  - cbn [bind]. destruct (m_run c b k) as [[? ?]| |]; reflexivity.
  - destruct (m_act c x k) as [[k1 t1]| |]; cbn [bind]; auto. rewrite IH. destruct (m_run c a k1) as [[k2 t2]| |]; cbn [bind]; auto.
    destruct (m_run c b k2) as [[k3 t3]| |]; cbn [bind]; auto. now rewrite app_assoc.
Qed.
Lemma m_events_app a b : m_events (a ++ b) = m_events a ++ m_events b.
Proof. induction a as [|[|e] a IH]; cbn [m_events app]; rewrite ?IH; reflexivity. Qed.
Lemma m_events_steps n : m_events (repeat MStep n) = [].
Proof. induction n; auto. Qed.

(** A predicate on (remaining events, history, next line, state) kept by lines and by the expected events *)
Lemma m_phase c (P : list mev -> list mitem -> mpc -> master -> Prop) :
  (forall rem t l s, P rem t l s -> exists l' s' o, m_line c l s = Ok (l', s', o) /\ P rem (t ++ map MTOut o) (m_next l' s') s') ->
  (forall e rem t l s, P (e :: rem) t l s -> exists s' o, m_event c e s = Ok (s', o) /\ P rem (t ++ MTEv e :: map MTOut o) l s') ->
  forall sched t k rem, P (m_events sched ++ rem) t (mloc k) (mc_s k) ->
  exists k' o, m_run c sched k = Ok (k', o) /\ P rem (t ++ o) (mloc k') (mc_s k').
Proof.
  intros Hl He. induction sched as [|a sched IH]; intros t k rem H; cbn [m_run m_events app] in *.
  - do 2 eexists. split; [reflexivity|]. now rewrite app_nil_r.
  - destruct a as [|e]; cbn [m_act m_events app] in *.
    + destruct (mc_pc k) as [l|] eqn:Q.
      * unfold mloc in H. rewrite Q in H. destruct (Hl _ _ _ _ H) as (l' & s' & o & E & H').
        rewrite E. cbn [bind]. destruct (IH (t ++ map MTOut o) (mk_mconf s' l') rem H') as (k2 & o2 & E2 & H2).
        rewrite E2. cbn [bind]. do 2 eexists. split; [reflexivity|]. now rewrite app_assoc.
      * destruct (IH t (mk_mconf (mc_s k) (Some (m_dispatch (mc_s k)))) rem) as (k2 & o2 & E2 & H2).
        { unfold mloc in *. rewrite Q in H. exact H. }
        cbn [bind]. rewrite E2. cbn [bind app]. do 2 eexists. split; [reflexivity|]. exact H2.
    + destruct (He _ _ _ _ _ H) as (s' & o & E & H'). rewrite E. cbn [bind].
      destruct (IH (t ++ MTEv e :: map MTOut o) (mk_mconf s' (mc_pc k)) rem) as (k2 & o2 & E2 & H2).
      { unfold mloc in *. cbn [mc_pc mc_s]. destruct (mc_pc k); auto. unfold m_dispatch in *. rewrite (m_event_st _ _ _ _ _ E). exact H'. }
      rewrite E2. cbn [bind]. do 2 eexists. split; [reflexivity|]. now rewrite app_assoc.
Qed.

(** Progress: a weight per line which decreases with every line until a final line is reached *)
Definition m_weight (w : mpc -> nat) (k : mconf) : nat := match mc_pc k with Some l => w l | None => S (w (m_dispatch (mc_s k))) end.
Lemma m_progress c (P : list mitem -> mpc -> master -> Prop) (final : mpc -> master -> bool) (w : mpc -> nat) :
  (forall t l s, P t l s -> exists l' s' o, m_line c l s = Ok (l', s', o) /\ P (t ++ map MTOut o) (m_next l' s') s' /\
     if final l s then final (m_next l' s') s' = true else final (m_next l' s') s' = true \/ (m_weight w (mk_mconf s' l') < w l)%nat) ->
  (forall l s, final l s = false -> w l <> 0)%nat ->
  forall n t k, P t (mloc k) (mc_s k) -> final (mloc k) (mc_s k) = true \/ (m_weight w k <= n)%nat ->
  exists k' o, m_run c (repeat MStep n) k = Ok (k', o) /\ P (t ++ o) (mloc k') (mc_s k') /\ final (mloc k') (mc_s k') = true.
Proof.
  intros Hl Hw. induction n as [|n IH]; intros t k H Hn; cbn [repeat m_run].
  - do 2 eexists. split; [reflexivity|]. rewrite app_nil_r. split; auto.
    destruct Hn as [Hn|Hn]; auto. destruct (final (mloc k) (mc_s k)) eqn:F; auto. apply Hw in F. unfold m_weight, mloc in *. destruct (mc_pc k); lia.
  - cbn [m_act]. destruct (mc_pc k) as [l|] eqn:Q.
    + unfold mloc in H. rewrite Q in H. destruct (Hl _ _ _ H) as (l' & s' & o & E & H' & W). rewrite E. cbn [bind].
      destruct (IH (t ++ map MTOut o) (mk_mconf s' l')) as (k2 & o2 & E2 & H2 & F2); [exact H'| |].
      { unfold mloc, m_weight in *. rewrite Q in *. cbn [mc_pc mc_s] in *. destruct (final l (mc_s k)); [left; exact W|].
        destruct Hn as [|Hn]; [discriminate|]. destruct W as [W|W]; [left; exact W|right]. destruct l'; lia. }
      rewrite E2. cbn [bind]. do 2 eexists. split; [reflexivity|]. rewrite app_assoc. auto.
    + cbn [bind]. destruct (IH t (mk_mconf (mc_s k) (Some (m_dispatch (mc_s k))))) as (k2 & o2 & E2 & H2 & F2).
      { unfold mloc in *. rewrite Q in H. exact H. }
      { unfold mloc, m_weight in *. rewrite Q in *. cbn [mc_pc mc_s] in *. destruct Hn as [|Hn]; [left; auto|right; lia]. }
      rewrite E2. cbn [bind app]. do 2 eexists. split; [reflexivity|]. auto.
Qed.
Lemma m_phase_progress c (P : list mev -> list mitem -> mpc -> master -> Prop) (final : mpc -> master -> bool) (w : mpc -> nat) (K : nat) :
  (forall rem t l s, P rem t l s -> exists l' s' o, m_line c l s = Ok (l', s', o) /\ P rem (t ++ map MTOut o) (m_next l' s') s' /\
     (rem = [] -> if final l s then final (m_next l' s') s' = true else final (m_next l' s') s' = true \/ (m_weight w (mk_mconf s' l') < w l)%nat)) ->
  (forall e rem t l s, P (e :: rem) t l s -> exists s' o, m_event c e s = Ok (s', o) /\ P rem (t ++ MTEv e :: map MTOut o) l s') ->
  (forall l s, final l s = false -> w l <> 0)%nat ->
  (forall t l s, P [] t l s -> (w l < K)%nat) ->
  forall sched n t k, P (m_events sched) t (mloc k) (mc_s k) -> (K <= n)%nat ->
  exists k' o, m_run c (sched ++ repeat MStep n) k = Ok (k', o) /\ P [] (t ++ o) (mloc k') (mc_s k') /\ final (mloc k') (mc_s k') = true.
Proof.
  intros Hl He Hw HK sched n t k H Hn.
  destruct (m_phase c P) with (sched := sched) (t := t) (k := k) (rem := @nil mev) as (k1 & o1 & E1 & H1).
  - intros rem t' l s X. destruct (Hl rem t' l s X) as (l' & s' & o & A1 & A2 & _). eauto.
  - intros. eapply He; eauto.
  - now rewrite app_nil_r.
  - destruct (m_progress c (P []) final w) with (n := n) (t := t ++ o1) (k := k1) as (k2 & o2 & E2 & H2 & F2); auto.
    + intros t' l s X. destruct (Hl [] t' l s X) as (l' & s' & o & A1 & A2 & A3). exists l', s', o. split; auto. split; auto. exact (A3 eq_refl).
    + right. specialize (HK _ _ _ H1). unfold m_weight, mloc in *. destruct (mc_pc k1); lia.
    + rewrite m_run_app, E1. cbn [bind]. rewrite E2. cbn [bind]. do 2 eexists. split; [reflexivity|]. rewrite app_assoc. auto.
Qed.
