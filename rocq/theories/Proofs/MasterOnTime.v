(** C107: the master's handlers' statements one by one when every hardware event is on time. *)
From Verif Require Export Proofs.MasterHandlers2.
From Verif Require Import Proofs.MasterInv Proofs.MasterWire.

(** *** C106: when every hardware event is on time *)
Lemma passed_line c x p k u : is_hw x = true -> passed x p = true -> h_line c p k (hw1 x u) = let* '(p', k', u', t) := h_line c p k u in Ok (p', k', hw1 x u', t).
Proof.
  intros A B. destruct u as [a b d td rd te rf ce ui].
  destruct x; try discriminate A; destruct p; try discriminate B; cbn [h_line hw1 u_cur u_last u_det u_tdr u_rdr u_txeie u_rtof u_cen u_uif bind]; auto;
    try (destruct ce; reflexivity);
    repeat (first
      [ match goal with |- context [match ?x with Some _ => _ | None => _ end] => destruct x end
      | match goal with |- context [if ?x then _ else _] => destruct x end
      | match goal with |- context [bind (get_msg ?x ?y) _] => destruct (get_msg x y) end
      | match goal with |- context [bind (wr ?x ?y ?z) _] => destruct (wr x y z) end
      | match goal with |- context [bind (put_msg ?x ?y ?z) _] => destruct (put_msg x y z) end
      | match goal with |- context [bind (req_byte ?x ?y) _] => destruct (req_byte x y) end
      | match goal with |- context [bind (w_event ?x ?y ?z) _] => destruct (w_event x y z) as [[? ?]| |] end ]; cbn [bind]; auto).
Qed.
Lemma passed_stays c x p k u p' k' u' t : is_hw x = true -> passed x p = true -> h_line c p k u = Ok (p', k', u', t) ->
  hw2 x u' = hw2 x u /\ match p' with Some q => passed x q = true | None => True end.
Proof.
  intros A B E. destruct x; try discriminate A; destruct p; try discriminate B; cbn [h_line bind] in E; cases E; inversion E; subst; cbn [hw2 passed u_tdr]; auto.
Qed.
Definition ontime (p : hpc) (x : wact) : Prop := is_hw x = true /\ passed x p = true.
Lemma ontime_hws c p k aft : Forall (ontime p) aft -> forall u, h_line c p k (fst (hws aft u)) = let* '(p', k', u', t) := h_line c p k u in Ok (p', k', fst (hws aft u'), t).
Proof.
  induction 1 as [|x l [A B] _ IH]; intros u; cbn [hws fst].
  - destruct (h_line c p k u) as [[[[? ?] ?] ?]| |]; reflexivity.
  - rewrite IH, passed_line by auto. destruct (h_line c p k u) as [[[[? ?] ?] ?]| |]; reflexivity.
Qed.
Lemma ontime_outs c p k u p' k' u' t aft : Forall (ontime p) aft -> h_line c p k u = Ok (p', k', u', t) -> snd (hws aft u') = snd (hws aft u) /\ match p' with Some q => Forall (ontime q) aft | None => True end.
Proof.
  intros F. revert u u'. induction F as [|x l [A B] F IH]; intros u u' E; cbn [hws snd]; [split; auto; destruct p'; auto|]. destruct (passed_stays _ _ _ _ _ _ _ _ _ A B E) as (X & Y).
  destruct (IH (hw1 x u) (hw1 x u')) as (I1 & I2). { rewrite passed_line, E by auto. reflexivity. }
  rewrite X, I1. split; auto. destruct p'; auto. constructor; auto. now split.
Qed.
Section Exact.
Context (c : cfg) (h0 : hfw).
Inductive exact_inv (fs : list hact) (h : hfw) (t : list witem) : Prop :=
| ex_free t' : h_irq h = None -> w_run c (acts_of c fs h0) (h_fw h0) = Ok (h_fw h, t') -> m_lib_of t' = m_lib_of t -> m_on_line t' = m_on_line t -> exact_inv fs h t
| ex_in p H p0 l0 t0 k0 u0 sub k1 u1 th aft : h_irq h = Some p -> w_run c l0 (h_fw h0) = Ok (mk_mfw k0 u0 sub, t0) -> begins H p0 k0 u0 ->
    reach c p0 k0 u0 (Some p) k1 u1 th -> h_fw h = mk_mfw k1 (fst (hws aft u1)) sub -> Forall (ontime p) aft ->
    m_lib_of t = m_lib_of t0 ++ m_lib_of th -> m_on_line t = m_on_line t0 ++ m_on_line (snd (hws aft u1)) -> acts_of c fs h0 = l0 ++ H :: aft -> exact_inv fs h t.
Lemma ex_nothing fs h t a h' : h_run c fs h0 = Ok (h, t) -> exact_inv fs h t -> act_of a h = [] -> h_fw h' = h_fw h -> h_irq h' = h_irq h -> exact_inv (fs ++ [a]) h' (t ++ []).
Proof.
  intros R I N F Q. rewrite app_nil_r. assert (X : acts_of c (fs ++ [a]) h0 = acts_of c fs h0) by (erewrite acts_snoc by eauto; now rewrite N, app_nil_r). destruct I.
  - eapply ex_free; [congruence|rewrite X, F; eauto|auto|auto].
  - eapply ex_in; [rewrite Q; eauto|eauto|eauto|eauto|rewrite F; eauto|auto|auto|auto|congruence].
Qed.
Lemma ex_one fs h t a x w' t' h' : h_run c fs h0 = Ok (h, t) -> exact_inv fs h t -> h_irq h = None -> act_of a h = [x] -> w_act c x (h_fw h) = Ok (w', t') -> h_fw h' = w' -> h_irq h' = None -> exact_inv (fs ++ [a]) h' (t ++ t').
Proof.
  intros R I Q N E F Q'. destruct I as [t1 _ R' L O|]; [|congruence]. subst w'. eapply ex_free with (t' := t1 ++ t'); auto.
  - erewrite acts_snoc by eauto. rewrite N, (w_run_snoc _ _ _ _ _ _ R'), E. reflexivity.
  - rewrite !m_lib_of_app. congruence.
  - rewrite !m_on_line_app. congruence.
Qed.
Lemma ex_begin fs h t a H p0 h' : h_run c fs h0 = Ok (h, t) -> exact_inv fs h t -> h_irq h = None -> act_of a h = [H] -> begins H p0 (w_lib (h_fw h)) (w_u (h_fw h)) -> h_fw h' = h_fw h -> h_irq h' = Some p0 -> exact_inv (fs ++ [a]) h' (t ++ []).
Proof.
  intros R I Q N B F Q'. rewrite app_nil_r. destruct I as [t1 _ R' L O|]; [|congruence]. assert (W : h_fw h = mk_mfw (w_lib (h_fw h)) (w_u (h_fw h)) (w_sub (h_fw h))) by (destruct (h_fw h); reflexivity).
  eapply ex_in with (aft := []); [exact Q'|rewrite <- W; eauto|eauto|apply reach_start|rewrite F; exact W|constructor| | |].
  - cbn. now rewrite app_nil_r.
  - cbn. now rewrite app_nil_r.
  - erewrite acts_snoc by eauto. now rewrite N.
Qed.
Lemma hws_lib l : forall u, m_lib_of (snd (hws l u)) = [].
Proof. induction l as [|x l IH]; intros u; cbn [hws snd]; [reflexivity|]. rewrite m_lib_of_app, IH. destruct x; cbn; auto. destruct (u_tdr u); reflexivity. Qed.
Lemma ex_line fs h t p p' k' u' t' h' : h_run c fs h0 = Ok (h, t) -> exact_inv fs h t -> h_irq h = Some p -> h_line c p (w_lib (h_fw h)) (w_u (h_fw h)) = Ok (p', k', u', t') ->
  h_fw h' = mk_mfw k' u' (w_sub (h_fw h)) -> h_irq h' = p' -> exact_inv (fs ++ [HStep]) h' (t ++ t').
Proof.
  intros R I Q St HF HQ. destruct I as [|q H p0 l0 t0 k0 u0 sub k1 u1 th aft Q' R0 B Re F La EL EO M]; [congruence|]. rewrite Q in Q'. inversion Q'; subst q. clear Q'.
  rewrite F in St, HF. cbn [w_lib w_u w_sub] in St, HF. rewrite ontime_hws in St by auto.
  destruct (h_line c p k1 u1) as [[[[q' k2] u2] t1]| |] eqn:E; try discriminate St. cbn [bind] in St. inversion St; subst q' k2 u' t1. clear St. rename u2 into u'.
  assert (N : acts_of c (fs ++ [HStep]) h0 = l0 ++ H :: aft) by (erewrite acts_snoc by eauto; cbn [act_of]; now rewrite Q, M, app_nil_r).
  destruct (ontime_outs _ _ _ _ _ _ _ _ _ La E) as (O1 & O2). destruct (line_keeps _ _ _ _ _ _ _ _ E) as (_ & _ & OL).
  assert (Re' := reach_step _ _ _ _ _ _ _ _ _ _ _ _ Re E). assert (Hw : Forall (fun x => is_hw x = true) aft) by (eapply Forall_impl; [|exact La]; intros x (Y & _); exact Y).
  destruct p' as [p'|].
  - eapply ex_in with (l0 := l0) (aft := aft); [exact HQ|eauto|eauto|exact Re'|exact HF|exact O2| | |exact N].
    + rewrite !m_lib_of_app, EL. now rewrite app_assoc.
    + rewrite m_on_line_app, OL, app_nil_r, O1. exact EO.
  - assert (Ac : w_act c H (mk_mfw k0 u0 sub) = Ok (mk_mfw k' u' sub, th ++ t')) by (rewrite begins_exec with (p0 := p0) by auto; rewrite (reach_exec _ _ _ _ _ _ _ _ Re'), exec_none; cbn [bind]; now rewrite app_nil_r).
    destruct (reach_keeps _ _ _ _ _ _ _ _ Re') as (_ & K2).
    eapply ex_free with (t' := t0 ++ (th ++ t') ++ snd (hws aft u')); [exact HQ| | |].
    + rewrite HF, N, w_run_app, R0. cbn [bind w_run]. rewrite Ac. cbn [bind]. rewrite run_hws by auto. reflexivity.
    + rewrite !m_lib_of_app, hws_lib, EL, app_nil_r. now rewrite !app_assoc.
    + rewrite m_on_line_app, OL, app_nil_r in K2. rewrite !m_on_line_app, O1, EO, OL, K2, !app_nil_r. reflexivity.
Qed.
Lemma ex_hw fs h t p x h' : h_run c fs h0 = Ok (h, t) -> exact_inv fs h t -> h_irq h = Some p -> is_hw x = true -> passed x p = true ->
  h_fw h' = mk_mfw (w_lib (h_fw h)) (hw1 x (w_u (h_fw h))) (w_sub (h_fw h)) -> h_irq h' = Some p -> exact_inv (fs ++ [HHw x]) h' (t ++ hw2 x (w_u (h_fw h))).
Proof.
  intros R I Q Hx P HF HQ. destruct I as [|q H p0 l0 t0 k0 u0 sub k1 u1 th aft Q' R0 B Re F La EL EO M]; [congruence|]. rewrite Q in Q'. inversion Q'; subst q. clear Q'.
  rewrite F in HF |- *. cbn [w_lib w_u w_sub] in HF |- *.
  assert (Lx : forall u, m_lib_of (hw2 x u) = []). { intros u. destruct x; cbn; auto. destruct (u_tdr u); reflexivity. }
  eapply ex_in with (l0 := l0) (aft := aft ++ [x]); [exact HQ|exact R0|exact B|exact Re| | | | |].
  - rewrite hws_snoc. exact HF.
  - apply Forall_app. split; auto. constructor; auto. now split.
  - rewrite m_lib_of_app, Lx, app_nil_r. exact EL.
  - rewrite hws_snoc, !m_on_line_app. cbn [snd]. rewrite EO, m_on_line_app, app_assoc. reflexivity.
  - erewrite acts_snoc by eauto. cbn [act_of]. rewrite Hx, M, <- app_assoc. reflexivity.
Qed.
Lemma ex_act fs h t a h' t' : h_run c fs h0 = Ok (h, t) -> exact_inv fs h t -> side h -> (a = HMain -> forall v, h_cr1 h = Some (E96s v) -> u_txeie (w_u (h_fw h)) = v) ->
  (forall x p, a = HHw x -> is_hw x = true -> h_irq h = Some p -> passed x p = true) -> h_act c a h = Ok (h', t') -> exact_inv (fs ++ [a]) h' (t ++ t').
Proof.
  intros R I (S1 & S2) CR OT St.
  assert (NH : no_handler h = true -> h_irq h = None /\ h_tick h = None) by (unfold no_handler; destruct (h_irq h), (h_tick h); try discriminate; auto).
  destruct a as [|r| | | | |x].
  - cbn [h_act] in St. destruct (no_handler h) eqn:NHe; [|inversion St; subst; eapply ex_nothing; eauto; cbn [act_of]; now rewrite NHe]. destruct (NH eq_refl) as (Q1 & Q2).
    destruct (h_cr1 h) as [[|v]|] eqn:C1.
    + inversion St; subst. eapply ex_nothing; eauto. cbn [act_of]. now rewrite NHe, C1.
    + rewrite <- (CR eq_refl v eq_refl) in St. inversion St; subst. eapply ex_nothing; eauto; cbn [act_of h_fw h_irq]; rewrite ?NHe, ?C1; auto; destruct (h_fw h) as [k [] s]; reflexivity.
    + destruct (w_act c WMain (h_fw h)) as [[w' t1]| |] eqn:E; try discriminate St. cbn [bind] in St. inversion St; subst. eapply ex_one; eauto. cbn [act_of]. now rewrite NHe, C1.
  - cbn [h_act] in St. destruct (no_handler h) eqn:NHe; [|inversion St; subst; eapply ex_nothing; eauto; cbn [act_of]; now rewrite NHe]. destruct (NH eq_refl) as (Q1 & Q2).
    destruct (w_act c (WReq r) (h_fw h)) as [[w' t1]| |] eqn:E; try discriminate St. cbn [bind] in St. inversion St; subst. eapply ex_one; eauto. cbn [act_of]. now rewrite NHe.
  - cbn [h_act] in St. destruct (h_irq h) eqn:Q; [inversion St; subst; eapply ex_nothing; eauto; cbn [act_of]; now rewrite Q|]. destruct (h_pending h) eqn:P; [|inversion St; subst; eapply ex_nothing; eauto; cbn [act_of]; now rewrite Q, P].
    inversion St; subst. eapply ex_begin with (H := WUsart); eauto; cbn [act_of]; rewrite ?Q, ?P; auto; try reflexivity. left. split; [auto|]. split; [auto|]. clear - P S1. unfold h_pending in P. unfold w_pending.
    destruct (u_rdr (w_u (h_fw h))); [|exact P]. destruct (h_rxne h); cbn [orb] in P.
    + destruct (mm_rx _) eqn:X; [reflexivity|]. exfalso. now apply S1; auto.
    + apply orb_true_iff in P as [P|P]; rewrite P, ?orb_true_r; auto.
  - cbn [h_act] in St. destruct (h_irq h) eqn:Q; [inversion St; subst; eapply ex_nothing; eauto; cbn [act_of]; now rewrite Q|]. destruct (u_uif (w_u (h_fw h))) eqn:P; [|inversion St; subst; eapply ex_nothing; eauto; cbn [act_of]; now rewrite Q, P].
    inversion St; subst. eapply ex_begin with (H := WTimer); eauto; cbn [act_of]; rewrite ?Q, ?P; auto; try reflexivity. right. auto.
  - cbn [h_act] in St. inversion St; subst. destruct (no_handler h) eqn:NHe; [destruct (NH eq_refl) as (Q1 & Q2)|]; eapply ex_nothing; eauto.
  - cbn [h_act] in St. destruct (h_irq h) as [p|] eqn:Q.
    + destruct (h_line c p (w_lib (h_fw h)) (w_u (h_fw h))) as [[[[p' k'] u'] t1]| |] eqn:E; try discriminate St. cbn [bind] in St. inversion St; subst. eapply ex_line; eauto.
    + destruct (h_tick h) as [p|] eqn:T; [|inversion St; subst; eapply ex_nothing; eauto; cbn [act_of]; now rewrite Q, T].
      assert (Tk : forall k' t1, t_line p (w_lib (h_fw h)) = (None, k', t1) -> w_act c WTick (h_fw h) = Ok (mk_mfw k' (w_u (h_fw h)) (w_sub (h_fw h)), t1)).
      { intros k' t1 E. cbn [w_act]. unfold w_event. cbn [m_act m_event bind]. destruct p; cbn [t_line] in E.
        - destruct (negb (mm_timer (mc_s (w_lib (h_fw h))) =? 0)) eqn:Z; inversion E; subst. cbn [map]. destruct (w_lib (h_fw h)); reflexivity.
        - discriminate.
        - inversion E; subst. destruct S2 as (-> & Z). apply Z.eqb_neq in Z. rewrite Z. reflexivity. }
      destruct (t_line p (w_lib (h_fw h))) as [[p' k'] t1] eqn:E. inversion St; subst. destruct p' as [p'|].
      * assert (E' : k' = w_lib (h_fw h) /\ t' = []).
        { destruct p; cbn [t_line] in E; [destruct (negb (mm_timer (mc_s (w_lib (h_fw h))) =? 0)) eqn:Z|..]; inversion E; subst; auto. }
        destruct E' as (-> & ->). eapply ex_nothing; eauto; cbn [act_of h_fw]; [rewrite Q, T, E; reflexivity|destruct (h_fw h); reflexivity].
      * specialize (Tk _ _ eq_refl). eapply ex_one with (x := WTick); eauto; cbn [act_of]; rewrite Q, T, E; reflexivity.
  - cbn [h_act] in St. destruct (is_hw x) eqn:Hx; [|inversion St; subst; eapply ex_nothing; eauto; cbn [act_of]; now rewrite Hx].
    rewrite hw_act in St by auto. cbn [bind] in St. inversion St; subst. destruct (h_irq h) as [p|] eqn:Q.
    + eapply ex_hw; eauto.
    + eapply ex_one with (x := x); eauto; [cbn [act_of]; now rewrite Hx|now apply hw_act].
Qed.
Lemma exact_run fs : side h0 -> h_irq h0 = None -> cr1_undisturbed c h0 fs -> h_on_time c h0 fs -> forall h t, h_run c fs h0 = Ok (h, t) -> exact_inv fs h t /\ side h.
Proof.
  intros S0 Q0. induction fs as [|a fs IH] using rev_ind; intros CR T h t R.
  - inversion R; subst. split; auto. eapply ex_free with (t' := []); auto.
  - assert (T' : h_on_time c h0 fs). { intros l1 x l2 h1 t1 E. subst fs. apply (T l1 x (l2 ++ [a])). rewrite <- app_assoc. reflexivity. }
    assert (CR' : cr1_undisturbed c h0 fs). { intros l1 x l2 h1 t1 E. subst fs. apply (CR l1 x (l2 ++ [a])). rewrite <- app_assoc. reflexivity. }
    specialize (IH CR' T'). rewrite h_run_app in R. destruct (h_run c fs h0) as [[h1 t1]| |] eqn:R1; try discriminate R. cbn [bind h_run] in R. destruct (IH _ _ eq_refl) as (I & S1).
    destruct (h_act c a h1) as [[h2 t2]| |] eqn:St; try discriminate R. cbn [bind] in R. inversion R; subst. rewrite app_nil_r.
    assert (Y : a = HMain -> forall v, h_cr1 h1 = Some (E96s v) -> u_txeie (w_u (h_fw h1)) = v) by (intros -> v; eapply (CR fs HMain []); eauto).
    split.
    + eapply ex_act; eauto.
    + pose proof (sim c h0 (fs ++ [a]) S0 Q0 CR) as X. rewrite h_run_app, R1 in X. cbn [bind h_run] in X. rewrite St in X. cbn [bind] in X. apply X.
Qed.
End Exact.
