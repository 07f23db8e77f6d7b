(** The master firmware: a queue of requests served on the line. *)
From Verif Require Import Props.MasterTime Props.MasterRetry.
From Verif Require Export Proofs.MasterLine.
Import Verif.Proofs.MasterWire.

Lemma line_exchange c a e lo t w : cfg_master_ok c -> 2 <= c_timeout c < 4294967296 -> exch_ok c a e -> forallb w_plain lo = true -> w_reqs_safe (lo ++ exch_sched e) ->
  cinv c t (mloc (w_lib w)) (mc_s (w_lib w)) -> current t = Some a -> idle (w_lib w) -> no_leftovers (w_lib w) -> driver_ready w ->
  exists l1 l2 w' t' l, lo ++ exch_sched e = l1 ++ l2 /\ forallb w_plain l2 = true /\ w_run c l1 w = Ok (w', t') /\ exch_result a e l /\ no_leftovers (w_lib w') /\
    wdone c a (finished t) (visible t) (exch_sends e) l t w' t'.
Proof.
  intros Hc HT Ok Hlo HS I Cu Id Nl D. assert (Rd := ready_idle _ _ _ _ I Id Cu Nl). assert (L := idle_loc _ Id).
  assert (Rw : wready c a (finished t) (visible t) 0 t w) by (split; auto; split; auto; rewrite L; auto).
  destruct e as [bad f v|x]; cbn [exch_ok exch_sched exch_sends exch_result] in *; rewrite <- timeout_u32 in Ok by auto.
  - destruct Ok as (N & Hb & G & Hv).
    destruct (line_good c Hc a bad f v (finished t) (visible t) lo t w) as (l1 & l2 & w' & t' & l & E & P & R & W & De & Nl'); auto.
    exists l1, l2, w', t', l. auto 10.
  - destruct (line_silent c Hc a x (finished t) (visible t) 0 lo t w) as (l1 & l2 & w' & t' & r & E & P & R & W & Tr & Nl'); auto.
    exists l1, l2, w', t', [TimeoutErr r]. split; auto. split; auto. split; auto. split; eauto.
Qed.
Lemma pending_current t a l : pending_reqs t = a :: l -> current t = Some a /\ forall o, finished (t ++ o) = S (finished t) -> pending_reqs (t ++ o) = l ++ accepted o.
Proof.
  unfold pending_reqs, current. intros Pd. assert (X := firstn_skipn (finished t) (accepted t)). rewrite Pd in X.
  assert (Lf : length (firstn (finished t) (accepted t)) = finished t). { rewrite firstn_length. assert (Y := f_equal (@length api) Pd). rewrite skipn_length in Y. cbn in Y. lia. }
  set (pre := firstn (finished t) (accepted t)) in *. split.
  - rewrite <- X, nth_error_app2 by lia. rewrite Lf, Nat.sub_diag. reflexivity.
  - intros o Fi. rewrite Fi, accepted_app, <- X, <- Lf. replace ((pre ++ a :: l) ++ accepted o) with ((pre ++ [a]) ++ l ++ accepted o) by (rewrite <- ?app_assoc; reflexivity).
    replace (S (length pre)) with (length (pre ++ [a])) by (rewrite app_length; cbn; lia). rewrite skipn_app, skipn_all, Nat.sub_diag. reflexivity.
Qed.
Lemma line_all c : cfg_master_ok c -> 2 <= c_timeout c < 4294967296 -> forall ps more lo t w, Forall (fun p => exch_ok c (fst p) (snd p)) ps -> forallb w_plain lo = true ->
  w_reqs_safe (lo ++ concat (map (fun p => exch_sched (snd p)) ps)) ->
  cinv c t (mloc (w_lib w)) (mc_s (w_lib w)) -> idle (w_lib w) -> no_leftovers (w_lib w) -> driver_ready w -> pending_reqs t = map fst ps ++ more ->
  exists l1 l2 w' t' ls, lo ++ concat (map (fun p => exch_sched (snd p)) ps) = l1 ++ l2 /\ forallb w_plain l2 = true /\ w_run c l1 w = Ok (w', t') /\
    Forall2 (fun p l => exch_result (fst p) (snd p) l) ps ls /\ cinv c (t ++ m_lib_of t') (mloc (w_lib w')) (mc_s (w_lib w')) /\ idle (w_lib w') /\ no_leftovers (w_lib w') /\ driver_ready w' /\ (ps <> [] \/ driver_rests w -> driver_rests w') /\
    m_on_line t' = concat (map exch_frames ps) /\ visible (m_lib_of t') = concat (map exch_view (combine ps ls)) /\ finished (m_lib_of t') = length ps /\
    pending_reqs (t ++ m_lib_of t') = more ++ accepted (m_lib_of t').
Proof.
  intros Hc HT. induction ps as [|[a e] ps IH]; intros more lo t w Hp Hlo HS I Id Nl D Pd; cbn [map concat fst snd] in *.
  - exists [], lo, w, [], []. cbn [w_run m_lib_of m_on_line flat_map]. rewrite ?(app_nil_r t), ?app_nil_r in *. cbn [app] in *. do 8 (split; auto). split; [intros [X|X]; congruence || auto|auto].
  - inversion Hp as [|? ? Hp1 Hp2]; subst. cbn [fst snd] in Hp1. rewrite app_assoc in HS. apply wsafe_app in HS as [HS1 HS2].
    destruct (pending_current _ _ _ Pd) as [Cu Pn].
    destruct (line_exchange c a e lo t w) as (l1 & l2 & w1 & t1 & l & E1 & P1 & R1 & Re1 & Nl1 & (I1 & Id1 & F1 & V1) & O1 & D1); auto.
    destruct (IH (more ++ accepted (m_lib_of t1)) l2 (t ++ m_lib_of t1) w1) as (l3 & l4 & w2 & t2 & ls & E2 & P2 & R2 & Re2 & I2 & Id2 & Nl2 & D2 & D3 & O2 & V2 & F2 & Pd2); auto.
    { apply wsafe_app. split; auto. rewrite E1 in HS1. apply wsafe_app in HS1. tauto. }
    { apply rests_ready; auto. }
    { rewrite (Pn _ F1), <- app_assoc. reflexivity. }
    exists (l1 ++ l3), l4, w2, (t1 ++ t2), (l :: ls). split. { rewrite app_assoc, E1, <- app_assoc, E2, app_assoc. reflexivity. }
    split; auto. split. { rewrite w_run_app, R1. cbn [bind]. rewrite R2. reflexivity. }
    rewrite m_lib_of_app, m_on_line_app. split; [constructor; auto|]. rewrite app_assoc. do 4 (split; auto). split; [auto|]. split; [rewrite O1, O2; reflexivity|].
    split. { rewrite visible_app, V2. rewrite <- app_assoc in V1. apply visible_rest in V1. rewrite V1. reflexivity. }
    split. { rewrite finished_app, F2. rewrite finished_app in F1. cbn [length]. lia. }
    rewrite Pd2, accepted_app, <- app_assoc. reflexivity.
Qed.
