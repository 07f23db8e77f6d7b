(** C108: the master's handlers' statements one by one, the store of CR1 anywhere. *)
From Verif Require Export Proofs.MasterHandlers2 Spec.MasterRace.
From Verif Require Import Proofs.MasterInv Proofs.MasterWire.

Lemma x_run_app c a : forall b w, x_run c (a ++ b) w = let* '(w1, t1) := x_run c a w in let* '(w2, t2) := x_run c b w1 in Ok (w2, t1 ++ t2).
Proof.
  induction a as [|x a IH]; intros b w; cbn [app x_run].
  - cbn [bind]. destruct (x_run c b w) as [[? ?]| |]; reflexivity.
  - destruct x as [x|v]; [|apply IH]. destruct (w_act c x w) as [[w1 t1]| |]; cbn [bind]; auto. rewrite IH. destruct (x_run c a w1) as [[w2 t2]| |]; cbn [bind]; auto.
    destruct (x_run c b w2) as [[w3 t3]| |]; cbn [bind]; auto. now rewrite app_assoc.
Qed.
Lemma x_run_acts c l : forall w, x_run c (map XAct l) w = w_run c l w.
Proof. induction l as [|x l IH]; intros w; cbn [map x_run w_run]; [reflexivity|]. destruct (w_act c x w) as [[w1 t1]| |]; cbn [bind]; auto. now rewrite IH. Qed.
Lemma x_acts_snoc c a : forall l h h1 t1, h_run c l h = Ok (h1, t1) -> x_acts_of c (l ++ [a]) h = x_acts_of c l h ++ x_act_of a h1.
Proof.
  induction l as [|x l IH]; intros h h1 t1 E; cbn [app x_acts_of h_run] in *.
  - inversion E; subst. destruct (h_act c a h1) as [[? ?]| |]; now rewrite app_nil_r.
  - destruct (h_act c x h) as [[h2 t2]| |]; try discriminate. cbn [bind] in E. destruct (h_run c l h2) as [[h3 t3]| |] eqn:R; try discriminate. cbn [bind] in E. inversion E; subst. rewrite (IH _ _ _ R). now rewrite app_assoc.
Qed.
Lemma x_moved_app l m a : x_moved l m -> x_moved (l ++ a) (m ++ a).
Proof. induction 1; [constructor|econstructor; eauto|]. rewrite <- !app_assoc. cbn [app]. now constructor. Qed.
Lemma x_moved_pre l m a : x_moved l m -> x_moved (a ++ l) (a ++ m).
Proof. induction 1; [constructor|econstructor; eauto|]. rewrite !app_assoc. now constructor. Qed.
Lemma x_moved_acts l m : moved l m -> x_moved (map XAct l) (map XAct m).
Proof. induction 1; [constructor|econstructor; eauto|]. rewrite !map_app. cbn [map]. now constructor. Qed.
Lemma x_moved_in l m : x_moved l m -> forall x, In x m <-> In x l.
Proof.
  induction 1 as [l|l m n _ IH1 _ IH2|l1 y x l2 _ _]; intros z; [tauto|rewrite IH2; auto|]. rewrite !in_app_iff. cbn. tauto.
Qed.
Lemma x_moved_count (f : xact -> bool) l m : x_moved l m -> length (filter f m) = length (filter f l).
Proof.
  induction 1 as [l|l m n _ IH1 _ IH2|l1 y x l2 _ _]; [auto|congruence|]. rewrite !filter_app, !app_length. cbn. destruct (f (XAct x)), (f (XAct y)); reflexivity.
Qed.
Lemma x_act_plain a h : (a = HMain -> forall v, h_cr1 h = Some (E96s v) -> u_txeie (w_u (h_fw h)) = v \/ no_handler h = false) -> x_act_of a h = map XAct (act_of a h).
Proof.
  intros H. destruct a; try reflexivity. unfold x_act_of, act_of. destruct (h_cr1 h) as [[|v]|]; [destruct (no_handler h); reflexivity| |reflexivity].
  destruct (H eq_refl v eq_refl) as [E|E]; rewrite E; [rewrite Bool.eqb_reflx, andb_false_r; now destruct (no_handler h)|reflexivity].
Qed.

Section Race.
Context (c : cfg) (h0 : hfw).
(** the last store of an old value left the state [h1]; since then the schedule is [fs], without steps of the main program that a handler holds up *)
Inductive raced (l : list hact) (h : hfw) (t : list witem) : Prop :=
| mk_raced pre xs h1 ta fs tb : x_acts_of c l h0 = pre ++ map XAct (acts_of c fs h1) -> x_moved pre xs -> x_run c xs (h_fw h0) = Ok (h_fw h1, ta) -> h_run c fs h1 = Ok (h, tb) -> inv c h1 fs h tb -> side h ->
    m_lib_of t = m_lib_of ta ++ m_lib_of tb -> m_on_line t = m_on_line ta ++ m_on_line tb -> raced l h t.
Lemma race_run l : side h0 -> h_irq h0 = None -> forall h t, h_run c l h0 = Ok (h, t) -> raced l h t.
Proof.
  intros S0 Q0. induction l as [|a l IH] using rev_ind; intros h t R.
  - inversion R; subst. apply (mk_raced [] h0 [] [] [] h0 [] [] []); auto; [constructor|]. eapply inv_free with (ws := []) (t' := []); auto; [constructor|]. intros l1 x l2 w1 t1 E. destruct l1; discriminate.
  - rewrite h_run_app in R. destruct (h_run c l h0) as [[h1 t1]| |] eqn:R1; try discriminate R. cbn [bind h_run] in R. specialize (IH h1 t1 eq_refl).
    destruct (h_act c a h1) as [[h2 t2]| |] eqn:St; try discriminate R. cbn [bind] in R. inversion R; subst. rewrite app_nil_r. clear R.
    destruct IH as [pre xs hb ta fs tb Ac Mo Ru Fi In Si Li Ln].
    assert (D : (a = HMain -> forall v, h_cr1 h1 = Some (E96s v) -> u_txeie (w_u (h_fw h1)) = v) \/ a = HMain /\ no_handler h1 = false \/
      a = HMain /\ no_handler h1 = true /\ exists v, h_cr1 h1 = Some (E96s v) /\ u_txeie (w_u (h_fw h1)) <> v).
    { destruct a; try (left; discriminate). destruct (no_handler h1); [|auto]. destruct (h_cr1 h1) as [[|v]|]; try (left; intros _ v'; discriminate). destruct (Bool.bool_dec (u_txeie (w_u (h_fw h1))) v) as [E|E]; [left; intros _ v' X; inversion X; subst; auto|].
      right. right. eauto 6. }
    destruct D as [D|[(-> & D)|(-> & NH & v & C1 & D)]].
    + pose proof (sim_step c hb fs h1 tb a Fi In Si D) as X. rewrite St in X. destruct X as (X1 & X2).
      apply (mk_raced (l ++ [a]) h (t1 ++ t2) pre xs hb ta (fs ++ [a]) (tb ++ t2)); auto.
      * erewrite x_acts_snoc by eauto. erewrite acts_snoc by eauto. rewrite Ac, map_app, <- app_assoc. do 2 f_equal. apply x_act_plain. intros E v Ev. left. apply D; auto.
      * rewrite (h_run_snoc _ _ _ _ _ _ Fi), St. reflexivity.
      * rewrite !m_lib_of_app, Li, app_assoc. reflexivity.
      * rewrite !m_on_line_app, Ln, app_assoc. reflexivity.
    + cbn [h_act] in St. rewrite D in St. inversion St; subst. apply (mk_raced (l ++ [HMain]) h (t1 ++ []) pre xs hb ta fs tb); auto; rewrite ?app_nil_r; auto.
      erewrite x_acts_snoc by eauto. rewrite Ac. rewrite (x_act_plain HMain h) by auto. cbn [act_of]. rewrite D. cbn [map]. now rewrite app_nil_r.
    + assert (Q : h_irq h1 = None /\ h_tick h1 = None) by (unfold no_handler in NH; destruct (h_irq h1), (h_tick h1); try discriminate; auto). destruct Q as (Q1 & Q2).
      cbn [h_act] in St. rewrite NH, C1 in St. inversion St; subst. clear St. destruct In as [ws t' _ Rw Lw Ow Mw _|]; [|congruence].
      set (h' := mk_hfw _ true None None None). assert (F : h_fw h' = with_txeie v (h_fw h1)) by reflexivity.
      apply (mk_raced (l ++ [HMain]) h' (t1 ++ []) (pre ++ map XAct (acts_of c fs hb) ++ [XCr1 v]) (xs ++ map XAct ws ++ [XCr1 v]) h' (ta ++ t') [] []).
      * erewrite x_acts_snoc by eauto. rewrite Ac. cbn [acts_of map]. rewrite app_nil_r, <- app_assoc. do 2 f_equal. unfold x_act_of. rewrite C1, NH. apply Bool.eqb_false_iff in D. now rewrite D.
      * apply x_moved_trans with (xs ++ map XAct (acts_of c fs hb) ++ [XCr1 v]); [now apply x_moved_app|]. apply x_moved_pre, x_moved_app, x_moved_acts, Mw.
      * rewrite x_run_app, Ru. cbn [bind]. rewrite x_run_app, x_run_acts, Rw. cbn [bind x_run]. rewrite app_nil_r, F. reflexivity.
      * reflexivity.
      * eapply inv_free with (ws := []) (t' := []); auto; [constructor|]. intros l1 x l2 w1 u1 E. destruct l1; discriminate.
      * destruct Si as (Si & _). split; cbn [h_rxne h_cr1 h_tick h_fw h' w_lib]; auto. intros _. apply Si. right. congruence.
      * rewrite app_nil_r, m_lib_of_app, Lw, Li. cbn. now rewrite app_nil_r.
      * rewrite app_nil_r, m_on_line_app, Ow, Ln. cbn. now rewrite app_nil_r.
Qed.
Lemma race_free l : side h0 -> h_irq h0 = None -> forall h t, h_run c l h0 = Ok (h, t) -> h_irq h = None ->
  exists xs t', x_moved (x_acts_of c l h0) xs /\ x_run c xs (h_fw h0) = Ok (h_fw h, t') /\ m_lib_of t' = m_lib_of t /\ m_on_line t' = m_on_line t.
Proof.
  intros S0 Q0 h t R Q. destruct (race_run l S0 Q0 h t R) as [pre xs hb ta fs tb Ac Mo Ru Fi In Si Li Ln]. destruct In as [ws t' _ Rw Lw Ow Mw _|]; [|congruence].
  exists (xs ++ map XAct ws), (ta ++ t'). split; [|split; [|split]].
  - rewrite Ac. apply x_moved_trans with (xs ++ map XAct (acts_of c fs hb)); [now apply x_moved_app|now apply x_moved_pre, x_moved_acts].
  - rewrite x_run_app, Ru. cbn [bind]. rewrite x_run_acts, Rw. reflexivity.
  - rewrite m_lib_of_app. congruence.
  - rewrite m_on_line_app. congruence.
Qed.
End Race.

(** *** the library *)
Lemma x_in_acts c x l : forall h, In (XAct x) (x_acts_of c l h) -> exists a h1, In a l /\ In x (act_of a h1).
Proof.
  induction l as [|a l IH]; intros h I; [contradiction|]. cbn [x_acts_of] in I. apply in_app_or in I as [I|I].
  - exists a, h. split; [now left|]. assert (G : In (XAct x) (map XAct (act_of a h)) -> In x (act_of a h)) by (intros G; apply in_map_iff in G as (y & E & G); inversion E; subst; auto).
    destruct a; auto. unfold x_act_of in I. destruct (h_cr1 h) as [[|v]|]; auto. destruct (_ && _); cbn in I; intuition discriminate.
  - destruct (h_act c a h) as [[h1 t1]| |]; [|contradiction..]. destruct (IH h1 I) as (b & h2 & A & B). exists b, h2. split; [now right|auto].
Qed.
Definition x_reqs (xs : list xact) : list wact := flat_map (fun x => match x with XAct x => [x] | XCr1 _ => [] end) xs.
Lemma x_piece c xs : forall w w' t, x_run c xs w = Ok (w', t) -> piece c (x_reqs xs) (w_lib w) (w_lib w') t.
Proof.
  induction xs as [|x xs IH]; intros w w' t E; cbn [x_run] in E.
  - inversion E; subst. apply piece_refl.
  - destruct x as [x|v]; [|exact (IH _ _ _ E)]. bnd E. bnd E. inversion E; subst. eapply piece_trans; [eapply piece_weaken; [|eapply act_piece; eauto]|eapply piece_weaken; [|eapply IH; eauto]].
    + intros b [Hb|[]]. subst. now left.
    + intros b Hb. cbn. auto.
Qed.
Lemma x_reqs_in x xs : In x (x_reqs xs) -> In (XAct x) xs.
Proof. intros I. apply in_flat_map in I as ([y|v] & A & B); [|contradiction]. destruct B as [->|[]]. exact A. Qed.
Lemma x_history c xs w w' t : mfw_started c w -> (forall a, In (XAct (WReq a)) xs -> req_safe a) -> x_run c xs w = Ok (w', t) -> exists sched, m_history c sched (w_lib w') (m_lib_of t).
Proof.
  intros (St & P & _) HR E. destruct (x_piece _ _ _ _ _ E) as (sched & R & HS). exists sched, (mc_s (w_lib w)). split; auto. split; [intros a Ha; apply HR, x_reqs_in, HS, Ha|].
  destruct (w_lib w) as [s p]. cbn [mc_s mc_pc] in *. now subst p.
Qed.
(** *** completions *)
Definition is_store (x : xact) : bool := match x with XCr1 _ => true | XAct _ => false end.
Lemma x_owed_run c xs : forall w w' t, (forall x, In (XAct x) xs -> heard x = false) -> hears_nothing w -> x_run c xs w = Ok (w', t) ->
  (completions (m_lib_of t) + owed w' <= owed w + length (m_sent (m_lib_of t)) + length (filter is_store xs))%nat.
Proof.
  induction xs as [|x xs IH]; intros w w' t F N E; cbn [x_run] in E; [inversion E; subst; cbn; lia|]. destruct x as [x|v].
  - bnd E. bnd E. inversion E; subst. destruct (owed_act _ _ _ _ _ (F x (or_introl eq_refl)) N Y) as (N' & L). specialize (IH _ _ _ (fun y Hy => F y (or_intror Hy)) N' Y0). rewrite m_lib_of_app, completions_app, m_sent_app, app_length. cbn [filter is_store]. lia.
  - specialize (IH (with_txeie v w) w' t (fun y Hy => F y (or_intror Hy)) N E). cbn [filter is_store length]. unfold owed in *. cbn [with_txeie w_u u_txeie w_sub] in IH. destruct v, (u_txeie (w_u w)); cbn [txe] in *; lia.
Qed.
