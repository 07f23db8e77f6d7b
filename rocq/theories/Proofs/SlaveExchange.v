(** One request and its answer, from idle to idle (slave). *)
From Verif Require Import Proofs.SlaveTraffic.
From Verif Require Spec.EndToEnd.

Lemma rests_clean c q : EndToEnd.slave_rests c q -> idle_clean c q.
Proof.
  intros [H P]. destruct (idle_start c (sc_s q) H) as (A1 & A2 & A3 & A4). cbn [sc_s] in *. unfold idle_clean.
  assert (L : loc q = L164). { unfold loc in *. cbn [sc_pc sc_s] in A3. destruct P as [->| ->]; auto. }
  assert (L0 : loc (mk_sconf (sc_s q) None) = L164) by exact A3. rewrite L. rewrite L0 in A2. auto.
Qed.
Lemma clean_rests c q : idle_clean c q -> EndToEnd.slave_rests c q.
Proof.
  intros (R & B & L & A1 & A2 & A3 & A4). rewrite L in B. assert (St := b_st _ _ B). cbn [st_of] in St. split.
  - unfold slave_idle. assert (X := b_tx _ _ B). unfold set_or_clr in X. tauto.
  - unfold loc in L. destruct (sc_pc q) as [l|]; auto. subst l. auto.
Qed.
Lemma exchange c q f ss dn : cfg_tables_ok c -> EndToEnd.slave_rests c q -> bytes f -> (length f < 256)%nat -> intact (s_id (sc_s q)) f -> frame_complete f ->
  reception_of two_polls (map SRx f) ss -> completion dn ->
  exists q1 o1 q2 o2, s_run c ss q = Ok (q1, o1) /\ sent o1 = [rtu_frame (s_id (sc_s q)) (fst (server c (s_data (sc_s q)) f))] /\ s_data (sc_s q1) = snd (server c (s_data (sc_s q)) f) /\
    s_run c dn q1 = Ok (q2, o2) /\ sent o2 = [] /\ s_data (sc_s q2) = s_data (sc_s q1) /\ s_id (sc_s q2) = s_id (sc_s q) /\ EndToEnd.slave_rests c q2.
Proof.
  intros Hc K Hf Lf If Cf (pre & n & -> & Hn & He) (pre2 & n2 & -> & Hn2 & He2). apply rests_clean in K.
  destruct (good_from_idle c q f pre n [] Hc K Hf Lf) as (k1 & o1 & E1 & S1 & D1 & I1 & R1 & B1 & L1 & F1 & F2 & F3 & F4); auto.
  assert (SF : server c (s_data (sc_s q)) (f ++ skipn (length f) (rr_buf (m_req (s_msg (sc_s q))))) = server c (s_data (sc_s q)) f) by (apply server_stale; auto; apply K).
  rewrite SF in *. cbn [app sent] in S1.
  destruct (transmit_run c Hc (s_data (sc_s k1)) (s_id (sc_s k1)) (sent o1) pre2 n2 k1 o1) as (k2 & o2 & E2 & K2 & I2 & D2 & S2); auto.
  { unfold T. rewrite L1. fin. }
  exists k1, o1, k2, o2. split; auto. split; auto. split; auto. split; auto. split; [|split; auto; split; [congruence|apply clean_rests; auto]].
  rewrite sent_app in S2. rewrite <- (app_nil_r (sent o1)) in S2 at 2. now apply app_inv_head in S2.
Qed.
