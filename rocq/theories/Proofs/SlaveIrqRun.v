(** The slave whose application writes its variables at any moment, related to the undisturbed slave with other data. *)
From Verif Require Export Model.SlaveIrqRun Spec.SlaveIrqRun Proofs.SlaveExchange Proofs.SlaveIrqData Spec.EndToEnd.
From Verif Require Import Proofs.SlaveTraffic.

Definition wd (k : sconf) (d : sdata) : sconf := mk_sconf (s_set_data (sc_s k) d) (sc_pc k).
Definition omap (o : outcome (sconf * list sitem)) (d : sdata) : outcome (sconf * list sitem) := let* '(k, t) := o in Ok (wd k d, t).
Lemma wd_wd k d d' : wd (wd k d) d' = wd k d'. Proof. reflexivity. Qed.
Lemma wd_same k : wd k (s_data (sc_s k)) = k. Proof. destruct k as [[] ?]. reflexivity. Qed.
Definition no_app (e : sev) : bool := match e with SApp _ _ => false | _ => true end.
Definition not195 (k : sconf) : Prop := sc_pc k <> Some L195.

Lemma line_wd c l s d : l <> L195 -> s_line c l (s_set_data s d) = let* '(l', s', o) := s_line c l s in Ok (l', s_set_data s' d, o).
Proof.
  intros N. destruct s as [a1 a2 a3 a4 a5 a6 a7 a8 a9 a10 a11 a12]. destruct l; try contradiction (N eq_refl); unfold s_line, s_set_data, s_set_st, s_set_fe, s_set_t15, s_set_t35, s_set_tx, s_set_msg; cbn [s_id s_st s_drv s_mptr s_msg s_t15 s_t35 s_fe s_tx s_data s_sub s_rx];
  try match goal with |- context [modbus_RTU_recv ?a ?b] => destruct (modbus_RTU_recv a b); cbn [bind] end;
  try match goal with |- context [modbus_RTU_send ?a ?b] => destruct (modbus_RTU_send a b) as [[? ?]| |]; cbn [bind] end;
  repeat match goal with |- context [if ?b then _ else _] => destruct b end; reflexivity.
Qed.
Lemma event_wd e s d : no_app e = true -> s_event e (s_set_data s d) = let* s' := s_event e s in Ok (s_set_data s' d).
Proof.
  intros N. destruct s as [a1 a2 a3 a4 a5 a6 a7 a8 a9 a10 a11 a12]. destruct e; try discriminate N; cbn [s_event s_set_data s_sub s_rx s_msg s_id s_st s_drv s_mptr s_t15 s_t35 s_fe s_tx s_data];
  try (destruct a11; reflexivity). destruct a12; [|reflexivity]. destruct (wr _ _ _); reflexivity.
Qed.
Lemma act_wd c a k d : (forall e, a = SEv e -> no_app e = true) -> (a = SStep -> not195 k) -> s_act c a (wd k d) = omap (s_act c a k) d.
Proof.
  intros N H. destruct a as [|e]; cbn [s_act wd sc_pc sc_s].
  - destruct (sc_pc k) as [l|] eqn:P; [|reflexivity]. rewrite line_wd; [|intros ->; exact (H eq_refl P)]. destruct (s_line c l (sc_s k)) as [[[l' s'] o]| |]; reflexivity.
  - rewrite event_wd by (apply N; reflexivity). destruct (s_event e (sc_s k)); reflexivity.
Qed.

(** how often line 195 is executed *)
Definition hit (a : sact) (k : sconf) : nat := match a, sc_pc k with SStep, Some L195 => 1 | _, _ => 0 end.
Fixpoint hits (c : cfg) (l : list sact) (k : sconf) : nat :=
  match l with [] => 0 | a :: l => hit a k + match s_act c a k with Ok (k1, _) => hits c l k1 | _ => 0 end end.
Definition pend (k : sconf) : nat := match sc_pc k with Some L196 | Some L197 => 1 | _ => 0 end.
Lemma act_hits c a k k1 o : s_act c a k = Ok (k1, o) -> (pend k + hit a k = length (sent o) + pend k1)%nat.
Proof.
  intros A. destruct a as [|e]; cbn [s_act] in A.
  - unfold pend, hit. destruct (sc_pc k) as [l|].
    + destruct (s_line c l (sc_s k)) as [[[l' s'] o']| |] eqn:E; cbn [bind] in A; try discriminate A. injection A as <- <-. cbn [sc_pc].
      destruct l; unfold s_line in E;
      repeat match type of E with
      | (if ?b then _ else _) = _ => destruct b
      | bind ?x _ = _ => destruct x as [?| |]; cbn [bind] in E
      | (let '(_, _) := ?x in _) = _ => destruct x
      | Ok _ = Ok _ => injection E as <- <- <-
      | _ => discriminate E
      end; reflexivity.
    + injection A as <- <-. cbn. unfold s_dispatch. destruct (s_st (sc_s k)); reflexivity.
  - destruct (s_event e (sc_s k)); cbn [bind] in A; try discriminate A. injection A as <- <-. unfold pend, hit. cbn [sc_pc sent length]. destruct (sc_pc k) as [[]|]; reflexivity.
Qed.
Lemma run_hits c l : forall k k1 o, s_run c l k = Ok (k1, o) -> (pend k + hits c l k = length (sent o) + pend k1)%nat.
Proof.
  induction l as [|a l IH]; intros k k1 o R; cbn [s_run hits] in *; [injection R as <- <-; cbn; lia|].
  destruct (s_act c a k) as [[k2 o2]| |] eqn:A; cbn [bind] in R; try discriminate R. destruct (s_run c l k2) as [[k3 o3]| |] eqn:R2; cbn [bind] in R; try discriminate R. injection R as <- <-.
  rewrite sent_app, app_length. pose proof (act_hits _ _ _ _ _ A). specialize (IH _ _ _ R2). lia.
Qed.
Lemma hits_app c l : forall l' k k1 o, s_run c l k = Ok (k1, o) -> hits c (l ++ l') k = (hits c l k + hits c l' k1)%nat.
Proof.
  induction l as [|a l IH]; intros l' k k1 o R; cbn [s_run hits app] in *; [injection R as <- <-; reflexivity|].
  destruct (s_act c a k) as [[k2 o2]| |] eqn:A; cbn [bind] in R; try discriminate R. destruct (s_run c l k2) as [[k3 o3]| |] eqn:R2; cbn [bind] in R; try discriminate R. injection R as <- <-.
  rewrite (IH l' _ _ _ R2). lia.
Qed.
(** the first time *)
Lemma first_hit c l : forall k k1 o, s_run c l k = Ok (k1, o) -> (1 <= hits c l k)%nat ->
  exists p1 p2 k2 o2, l = p1 ++ SStep :: p2 /\ s_run c p1 k = Ok (k2, o2) /\ hits c p1 k = 0%nat /\ sc_pc k2 = Some L195.
Proof.
  induction l as [|a l IH]; intros k k1 o R H; cbn [s_run hits] in *; [lia|].
  destruct (s_act c a k) as [[k2 o2]| |] eqn:A; cbn [bind] in R; try discriminate R. destruct (s_run c l k2) as [[k3 o3]| |] eqn:R2; cbn [bind] in R; try discriminate R. injection R as <- <-.
  destruct (hit a k) as [|[|n]] eqn:Hh.
  - destruct (IH _ _ _ R2 H) as (p1 & p2 & k4 & o4 & -> & R4 & Z4 & P4). exists (a :: p1), p2, k4, (o2 ++ o4). split; [reflexivity|]. cbn [s_run hits]. rewrite A, Hh. cbn [bind]. rewrite R4. auto.
  - exists [], l, k, []. cbn. unfold hit in Hh. destruct a; [|discriminate Hh]. destruct (sc_pc k) as [[]|]; try discriminate Hh. auto.
  - unfold hit in Hh. destruct a; [|discriminate Hh]. destruct (sc_pc k) as [[]|]; discriminate Hh.
Qed.

(** the run without line 195 does not depend on the data *)
Definition calm (l : list sact) : Prop := forallb no_app (events l) = true.
Lemma calm_cons a l : calm (a :: l) -> (forall e, a = SEv e -> no_app e = true) /\ calm l.
Proof. unfold calm. destruct a as [|e]; cbn [events forallb]; intros H; [split; [discriminate|exact H]|]. apply andb_true_iff in H as [A B]. split; [intros e' E; injection E as <-; exact A|exact B]. Qed.
Lemma calm_app l l' : calm (l ++ l') <-> calm l /\ calm l'.
Proof. unfold calm. rewrite events_app, forallb_app. apply andb_true_iff. Qed.
Lemma run_wd c l : forall k d, calm l -> hits c l k = 0%nat -> s_run c l (wd k d) = omap (s_run c l k) d /\ hits c l (wd k d) = 0%nat.
Proof.
  induction l as [|a l IH]; intros k d C H; [split; reflexivity|]. cbn [hits s_run] in *. apply calm_cons in C as [C1 C2].
  assert (N : a = SStep -> not195 k). { intros -> P. unfold hit in H. rewrite P in H. lia. }
  rewrite (act_wd c a k d C1 N). unfold hit in *. cbn [wd sc_pc] in *.
  destruct (s_act c a k) as [[k1 o1]| |]; cbn [omap bind]; [|split; [reflexivity|lia]..].
  assert (H1 : hits c l k1 = 0%nat) by lia. destruct (IH k1 d C2 H1) as [I1 I2]. rewrite I1, I2. destruct (s_run c l k1) as [[k2 o2]| |]; cbn [omap bind]; split; (reflexivity || lia).
Qed.
Lemma strip_app a b : strip (a ++ b) = strip a ++ strip b. Proof. apply flat_map_app. Qed.
Lemma writes_app a b : writes (a ++ b) = writes a ++ writes b. Proof. apply flat_map_app. Qed.
Lemma i_run_app c a : forall b k, i_run c (a ++ b) k = let* '(k1, t1) := i_run c a k in let* '(k2, t2) := i_run c b k1 in Ok (k2, t1 ++ t2).
Proof.
  induction a as [|x a IH]; intros b k; cbn [app i_run].
  - cbn [bind]. destruct (i_run c b k) as [[? ?]| |]; reflexivity.
  - destruct (i_act c x k) as [[k1 t1]| |]; cbn [bind]; auto. rewrite IH. destruct (i_run c a k1) as [[k2 t2]| |]; cbn [bind]; auto.
    destruct (i_run c b k2) as [[k3 t3]| |]; cbn [bind]; auto. now rewrite app_assoc.
Qed.
(** without line 195: the same run, the data changed by the application alone *)
Lemma i_run_calm c l : forall k, calm (strip l) -> hits c (strip l) k = 0%nat -> i_run c l k = omap (s_run c (strip l) k) (aw_run (s_data (sc_s k)) (writes l)).
Proof.
  induction l as [|a l IH]; intros k C H; [cbn; rewrite wd_same; reflexivity|]. destruct a as [app|e|w].
  - cbn [i_run]. change (strip (IStep app :: l)) with (SStep :: strip l) in *. change (writes (IStep app :: l)) with (writes l). cbn [hits s_run] in *. apply calm_cons in C as [C1 C2].
    assert (N : not195 k). { intros P. unfold hit in H. rewrite P in H. lia. }
    assert (A : i_act c (IStep app) k = s_act c SStep k). { unfold i_act, s_act. unfold not195 in N. destruct (sc_pc k) as [p|]; [|reflexivity]. unfold i_line. destruct p; try reflexivity. contradiction (N eq_refl). }
    rewrite A. destruct (s_act c SStep k) as [[k1 o1]| |] eqn:E; [|reflexivity..]. cbn [bind]. rewrite (IH k1 C2) by lia.
    assert (D : s_data (sc_s k1) = s_data (sc_s k)).
    { pose proof (act_wd c SStep k (s_data (sc_s k)) ltac:(discriminate) (fun _ => N)) as W. rewrite wd_same, E in W. cbn [omap bind] in W. injection W as W. rewrite W. reflexivity. }
    rewrite D. destruct (s_run c (strip l) k1) as [[k2 o2]| |]; reflexivity.
  - cbn [i_run i_act]. change (strip (IEv e :: l)) with (SEv e :: strip l) in *. change (writes (IEv e :: l)) with (writes l). cbn [hits s_run] in *. apply calm_cons in C as [C1 C2].
    destruct (s_act c (SEv e) k) as [[k1 o1]| |] eqn:E; [|reflexivity..]. cbn [bind]. rewrite (IH k1 C2) by lia.
    assert (D : s_data (sc_s k1) = s_data (sc_s k)).
    { pose proof (act_wd c (SEv e) k (s_data (sc_s k)) C1 ltac:(discriminate)) as W. rewrite wd_same, E in W. cbn [omap bind] in W. injection W as W. rewrite W. reflexivity. }
    rewrite D. destruct (s_run c (strip l) k1) as [[k2 o2]| |]; reflexivity.
  - cbn [i_run i_act bind]. change (strip (IApp w :: l)) with (strip l) in *. change (writes (IApp w :: l)) with (w :: writes l).
    change (mk_sconf (s_set_data (sc_s k) (aw_do (s_data (sc_s k)) w)) (sc_pc k)) with (wd k (aw_do (s_data (sc_s k)) w)).
    destruct (run_wd c (strip l) k (aw_do (s_data (sc_s k)) w) C H) as [R1 R2]. rewrite (IH _ C R2), R1. destruct (s_run c (strip l) k) as [[k2 o2]| |]; reflexivity.
Qed.
Lemma strip_split l : forall p1 p2, strip l = p1 ++ SStep :: p2 -> exists l1 app l2, l = l1 ++ IStep app :: l2 /\ strip l1 = p1 /\ strip l2 = p2.
Proof.
  induction l as [|a l IH]; intros p1 p2 E; [destruct p1; discriminate E|]. destruct a as [app|e|w].
  - change (strip (IStep app :: l)) with (SStep :: strip l) in E. destruct p1 as [|x p1].
    + injection E as E. exists [], app, l. auto.
    + injection E as <- E. destruct (IH _ _ E) as (l1 & ap & l2 & -> & <- & <-). exists (IStep app :: l1), ap, l2. auto.
  - change (strip (IEv e :: l)) with (SEv e :: strip l) in E. destruct p1 as [|x p1]; [discriminate E|]. injection E as <- E. destruct (IH _ _ E) as (l1 & ap & l2 & -> & <- & <-). exists (IEv e :: l1), ap, l2. auto.
  - change (strip (IApp w :: l)) with (strip l) in E. destruct (IH _ _ E) as (l1 & ap & l2 & -> & <- & <-). exists (IApp w :: l1), ap, l2. auto.
Qed.

Lemma server_i_frame app c d b n : bytes b -> (n <= length b)%nat -> frame_complete (firstn n b) ->
  server_i app c d (firstn n b) = server_i app c d b.
Proof.
  intros B Ln [L C]. rewrite firstn_length in L, C. rewrite Nat.min_l in L, C by auto.
  unfold server_i. rewrite byte_at_firstn in * by lia. rewrite !word_at_firstn in * by lia.
  assert (HR : byte_at b 1 = 15 \/ byte_at b 1 = 16 -> (7 <= n)%nat /\ 7 + byte_at b 6 <= Z.of_nat n).
  { intros X. specialize (C X). assert (7 <= n)%nat.
    { destruct (Nat.eq_dec n 6) as [->|]; [|lia]. exfalso. unfold byte_at in C. rewrite nth_overflow in C; [lia|]. rewrite firstn_length. lia. }
    rewrite byte_at_firstn in C by lia. auto. }
  clear C. set (qty := word_at b 4) in *. set (adr := word_at b 2) in *.
  destruct (supported (byte_at b 1)) eqn:Hs.
  2:{ unfold supported in Hs. cbn [existsb] in Hs. set (fc := byte_at b 1) in *. clear HR.
      destruct fc as [|p|p]; auto. do 5 (try (destruct p as [p|p|]; try reflexivity; try (exfalso; cbn in Hs; discriminate))). }
  apply supported_cases in Hs. destruct Hs as [E|[E|[E|[E|[E|[E|[E|E]]]]]]]; rewrite E in *; auto.
  - destruct HR as [H7 HC]; auto. rewrite byte_at_firstn by lia.
    destruct (negb ((1 <=? qty) && (qty <=? 1968))) eqn:X1; auto. destruct (c_coils c <? adr + qty); auto.
    destruct (negb (byte_at b 6 =? coil_bytes qty)) eqn:X3; auto.
    replace (req_bits (firstn n b) qty) with (req_bits b qty); auto.
    unfold req_bits. apply map_ext_in. intros k Hk. apply in_seq in Hk. rewrite byte_at_firstn; auto.
    assert (byte_at b 6 = coil_bytes qty) by lia. unfold coil_bytes in *.
    assert (Z.of_nat (k / 8) < (qty + 7) / 8); [|lia].
    rewrite Nat2Z.inj_div. change (Z.of_nat 8) with 8. assert (Z.of_nat k < qty) by lia. clear - H0.
    apply Z.div_lt_upper_bound; [lia|]. assert (qty + 7 = 8 * ((qty + 7) / 8) + (qty + 7) mod 8) by (apply Z.div_mod; lia).
    assert (0 <= (qty + 7) mod 8 < 8) by (apply Z.mod_pos_bound; lia). lia.
  - destruct HR as [H7 HC]; auto. rewrite byte_at_firstn by lia.
    destruct (negb ((1 <=? qty) && (qty <=? 123))) eqn:X1; auto. destruct (c_hreg c <? adr + qty); auto.
    destruct (negb (byte_at b 6 =? 2 * qty)) eqn:X3; auto.
    replace (req_regs (firstn n b) qty) with (req_regs b qty); auto.
    unfold req_regs. apply map_ext_in. intros k Hk. apply in_seq in Hk. rewrite word_at_firstn; auto. lia.
Qed.
Lemma server_i_stale app c d f buf : bytes f -> bytes buf -> frame_complete f -> server_i app c d (f ++ skipn (length f) buf) = server_i app c d f.
Proof.
  intros Hf Bb Cf. symmetry. replace f with (firstn (length f) (f ++ skipn (length f) buf)) at 1 by (apply firstn_app_exact; auto).
  apply server_i_frame.
  - apply Forall_app. split; [exact Hf|]. apply Forall_forall. intros x Hx. apply (proj1 (Forall_forall _ _) Bb). rewrite <- (firstn_skipn (length f) buf). apply in_or_app. auto.
  - rewrite app_length. lia.
  - rewrite firstn_app_exact; auto.
Qed.
(** the request buffer when line 195 is executed *)
Lemma at_195 c q f pre n p1 p2 k1 o1 : cfg_tables_ok c -> slave_rests c q -> bytes f -> (length f < 256)%nat -> intact (s_id (sc_s q)) f ->
  arrival (map SRx f) (events pre) -> pre ++ repeat SStep n = p1 ++ SStep :: p2 -> s_run c p1 q = Ok (k1, o1) -> sc_pc k1 = Some L195 ->
  rr_buf (m_req (s_msg (sc_s k1))) = f ++ skipn (length f) (rr_buf (m_req (s_msg (sc_s q)))).
Proof.
  intros Hc K Hf Lf If (es1 & A1 & A2) Es R1 P1. apply rests_clean in K. destruct K as (R & B & Lk & F1 & F2 & F3 & F4).
  assert (Hd : data_ok c (s_data (sc_s q))) by apply R.
  assert (Lb : length (rr_buf (m_req (s_msg (sc_s q)))) = 256%nat) by apply R.
  set (P := G c (s_data (sc_s q)) (s_id (sc_s q)) f (rr_buf (m_req (s_msg (sc_s q)))) []).
  assert (P0 : P (map SRx f ++ [ST15; ST35]) [] (loc q) (sc_s q)).
  { split; auto. split; auto. split; auto. split; auto. exists [], false, false. split; [left; split; auto; split; auto; exists f; auto|]. split.
    - split; [rewrite F4; reflexivity|reflexivity].
    - rewrite Lk. cbn [body]. auto. }
  assert (Ev : events p1 ++ events p2 = es1 ++ [ST35]). { apply (f_equal events) in Es. rewrite !events_app, events_steps, app_nil_r, A1 in Es. symmetry. exact Es. }
  destruct (phase c (fun rem t l s => (exists es, rem = es ++ [ST35] /\ P (line_events es ++ [ST35]) t l s) \/ (rem = [] /\ P [] t l s)))
    with (sched := p1) (t := @nil sitem) (k := q) (rem := events p2) as (k2 & o2 & E2 & H2).
  - intros rem t' l s [(es & -> & X)|[-> X]]; destruct (G_line c Hc _ Hd _ f _ Lf If Lb [] _ _ _ _ X) as (l' & s' & o & E & X' & _); exists l', s', o; split; auto. left. exists es. auto.
  - intros e rem t' l s [(es & Q & X)|[Q _]]; [|discriminate]. destruct es as [|e' es]; cbn [app] in Q; inversion Q; subst; clear Q.
    + cbn in X. destruct (G_event c _ Hd _ f _ Hf Lf If Lb [] _ _ _ _ _ X) as (s' & E & X'). exists s'. split; auto.
    + cbn [line_events filter] in X. destruct (not_tx e') eqn:N.
      * cbn [app] in X. destruct (G_event c _ Hd _ f _ Hf Lf If Lb [] _ _ _ _ _ X) as (s' & E & X'). exists s'. split; auto. left. exists es. auto.
      * destruct e'; try discriminate. destruct (G_tx c _ _ f _ [] _ _ _ _ X) as (s' & E & X'). { intros Z0. apply (f_equal (@length sev)) in Z0. rewrite app_length in Z0. cbn in Z0. lia. }
        exists s'. split; auto. left. exists es. auto.
  - left. exists es1. split; [exact Ev|]. rewrite A2. rewrite <- app_assoc. exact P0.
  - rewrite R1 in E2. injection E2 as <- <-.
    assert (X : exists rem, P rem o1 L195 (sc_s k1)). { unfold loc in H2. rewrite P1 in H2. destruct H2 as [(es & _ & X)|(_ & X)]; eauto. }
    destruct X as (rem & _ & _ & _ & _ & f1 & n15 & n35 & V & (_ & Q) & (_ & Y)). cbn in Y.
    assert (f1 = f) by (destruct V as [(_ & V & _)|[(_ & V & _)|(_ & _ & V & _)]]; congruence). subst f1. exact Q.
Qed.
Lemma arrival_calm xs es : forallb no_app xs = true -> arrival xs es -> forallb no_app es = true.
Proof.
  intros H (es1 & -> & E). rewrite forallb_app. cbn [forallb no_app andb]. rewrite andb_true_r. apply forallb_forall. intros e I. destruct (not_tx e) eqn:N; [|destruct e; try discriminate N; reflexivity].
  assert (J : In e (line_events es1)) by (unfold line_events; apply filter_In; auto). rewrite E in J. apply in_app_or in J. destruct J as [J|[<-|[]]]; [|reflexivity]. exact (proj1 (forallb_forall _ _) H e J).
Qed.
Lemma reception_calm n xs l : forallb no_app xs = true -> reception_of n xs l -> calm l.
Proof. intros H (pre & m & -> & _ & A). unfold calm. rewrite events_app, events_steps, app_nil_r. exact (arrival_calm _ _ H A). Qed.
Lemma completion_calm l : completion l -> calm l.
Proof. intros (pre & m & -> & _ & A). unfold calm. rewrite events_app, events_steps, app_nil_r, A. reflexivity. Qed.
Lemma rx_calm f : forallb no_app (map SRx f) = true.
Proof. induction f; auto. Qed.
Lemma rests_pend c q : slave_rests c q -> pend q = 0%nat.
Proof. intros [_ [P|P]]; unfold pend; rewrite P; reflexivity. Qed.
Lemma rests_wd c q d : slave_rests c q -> data_ok c d -> slave_rests c (wd q d).
Proof. intros [(( R1 & R2 & R3 & R4 & R5 & R6 & _) & H) P] D. split; [|exact P]. split; [|exact H]. unfold slave_ready. cbn. auto 10. Qed.
Lemma words_of l : words_written l -> forall x v, In (WReg x v) (writes l) -> word v.
Proof. intros [W _] x v I. unfold writes in I. apply in_flat_map in I. destruct I as (a & I & J). destruct a as [ap|e|w]; cbn in J; try contradiction. destruct J as [->|[]]. exact (W x v I). Qed.
Lemma words_app a b : words_written (a ++ b) -> words_written a /\ words_written b.
Proof.
  intros [W1 W2]. split; split.
  - intros x v I. apply (W1 x v), in_or_app. auto.
  - intros ap I. apply (W2 ap), in_or_app. auto.
  - intros x v I. apply (W1 x v), in_or_app. auto.
  - intros ap I. apply (W2 ap), in_or_app. auto.
Qed.

Lemma byte_at_byte b i : bytes b -> byte (byte_at b i).
Proof. intros B. unfold byte_at. destruct (nth_in_or_default i b 0) as [I|E]; [exact (proj1 (Forall_forall _ _) B _ I)|rewrite E; unfold byte; lia]. Qed.
Lemma word_at_word b i : bytes b -> word (word_at b i).
Proof. intros B. pose proof (byte_at_byte b i B) as H1. pose proof (byte_at_byte b (S i) B) as H2. unfold word_at, word, byte in *. lia. Qed.
Lemma asked_words tab vals : Forall word vals -> forall k x v, In (WReg x v) (fst (asked WReg tab k vals)) -> word v.
Proof.
  induction 1 as [|u vals U F IH]; intros k x v I; cbn [asked] in I; [contradiction|]. destruct (nth_error tab k) as [[y|]|]; try contradiction.
  specialize (IH (S k)). destruct (asked WReg tab (S k) vals) as [l bb]. cbn [fst] in *. destruct I as [E|I]; [injection E as -> ->; exact U|exact (IH _ _ I)].
Qed.
Lemma asked_bits tab vals : forall k x v, In (WReg x v) (fst (asked WBit tab k vals)) -> False.
Proof.
  induction vals as [|u vals IH]; intros k x v I; cbn [asked] in I; [contradiction|]. destruct (nth_error tab k) as [[y|]|]; try contradiction.
  specialize (IH (S k)). destruct (asked WBit tab (S k) vals) as [l bb]. cbn [fst] in *. destruct I as [E|I]; [discriminate E|exact (IH _ _ I)].
Qed.
Lemma mixed_in app ws cmp : forall k w, In w (mixed app k ws cmp) -> In w ws \/ exists j, In w (app j).
Proof.
  induction ws as [|u ws IH]; intros k w I; cbn [mixed] in I; [destruct cmp; [contradiction|eauto]|]. apply in_app_or in I. destruct I as [I|[->|I]]; [eauto|left; left; reflexivity|]. destruct (IH _ _ I) as [J|J]; [left; right; exact J|auto].
Qed.
Lemma server_i_data app c d b : data_ok c d -> app_words app -> bytes b -> data_ok c (snd (server_i app c d b)).
Proof.
  intros D Wa B.
  assert (Rd : forall fc max size a q tab data, data_ok c (snd (read_i app d fc max size a q tab data))).
  { intros. unfold read_i. cbn [snd]. destruct (_ && _); [|exact D]. apply aw_data; [exact D|]. apply until_words; exact Wa. }
  assert (Wb : forall fc a q vals, data_ok c (snd (write_i app d fc a q (asked WBit (t_coils d) (Z.to_nat a) vals)))).
  { intros. unfold write_i. cbn [snd]. apply aw_data; [exact D|]. intros x v I. apply mixed_in in I. destruct I as [I|(j & I)]; [destruct (asked_bits _ _ _ _ _ I)|exact (Wa _ _ _ I)]. }
  assert (Wr : forall fc a q vals, Forall word vals -> data_ok c (snd (write_i app d fc a q (asked WReg (t_hreg d) (Z.to_nat a) vals)))).
  { intros fc a q vals F. unfold write_i. cbn [snd]. apply aw_data; [exact D|]. intros x v I. apply mixed_in in I. destruct I as [I|(j & I)]; [exact (asked_words _ _ F _ _ _ I)|exact (Wa _ _ _ I)]. }
  destruct (supported (byte_at b 1)) eqn:Hs.
  2:{ unfold supported in Hs. cbn [existsb] in Hs. unfold server_i. set (fc := byte_at b 1) in *. clear - Hs D.
      destruct fc as [|p|p]; auto. do 5 (try (destruct p as [p|p|]; try exact D; try (exfalso; cbn in Hs; discriminate))). }
  apply supported_cases in Hs. unfold server_i. destruct Hs as [E|[E|[E|[E|[E|[E|[E|E]]]]]]]; rewrite E; try apply Rd;
  repeat match goal with |- context [if ?x then (_, d) else _] => destruct x; [exact D|] end; try apply Wb; apply Wr.
  - constructor; [apply word_at_word; exact B|constructor].
  - unfold req_regs. apply Forall_forall. intros x I. apply in_map_iff in I. destruct I as (j & <- & _). apply word_at_word; exact B.
Qed.

Lemma exchange_i c q f sched dn : cfg_tables_ok c -> slave_rests c q -> bytes f -> (length f < 256)%nat -> intact (s_id (sc_s q)) f -> frame_complete f ->
  reception_of two_polls (map SRx f) (strip sched) -> completion (strip dn) -> words_written (sched ++ dn) ->
  exists l1 app l2 k1 t1 k2 k3 t3 k4 t4, sched = l1 ++ IStep app :: l2 /\
    let d1 := aw_run (s_data (sc_s q)) (writes l1) in
    i_run c l1 q = Ok (k1, t1) /\ s_data (sc_s k1) = d1 /\ i_act c (IStep app) k1 = Ok (k2, [TOut SoExec]) /\ s_data (sc_s k2) = snd (server_i app c d1 f) /\
    i_run c l2 k2 = Ok (k3, t3) /\ s_data (sc_s k3) = aw_run (snd (server_i app c d1 f)) (writes l2) /\
    sent (t1 ++ t3) = [rtu_frame (s_id (sc_s q)) (fst (server_i app c d1 f))] /\
    i_run c dn k3 = Ok (k4, t4) /\ s_data (sc_s k4) = aw_run (s_data (sc_s k3)) (writes dn) /\ sent t4 = [] /\ s_id (sc_s k4) = s_id (sc_s q) /\ slave_rests c k4.
Proof.
  intros Hc K Hf Lf If Cf Rc Cp Ww. apply words_app in Ww as [Ws Wd].
  pose proof (reception_calm _ _ _ (rx_calm f) Rc) as Cs. pose proof (completion_calm _ Cp) as Cd.
  assert (D0 : data_ok c (s_data (sc_s q))) by apply K.
  destruct (exchange c q f _ _ Hc K Hf Lf If Cf Rc Cp) as (q1 & o1 & q2 & o2 & E1 & S1 & _ & E2 & S2 & _ & _ & K2).
  assert (H1 : (1 <= hits c (strip sched) q)%nat).
  { pose proof (run_hits _ _ _ _ _ E1) as H. rewrite S1, (rests_pend _ _ K) in H. cbn [length] in H. lia. }
  destruct (first_hit _ _ _ _ _ E1 H1) as (p1 & p2 & k1 & t1 & Sp & R1 & Z1 & P1).
  destruct (strip_split _ _ _ Sp) as (l1 & app & l2 & -> & X1 & X2). rewrite Sp in Cs. apply calm_app in Cs as [Cs1 Cs2].
  assert (Cs3 : calm p2) by (destruct (calm_cons _ _ Cs2); assumption). clear Cs2.
  apply words_app in Ws as [W1 W2]. assert (Wa : app_words app) by (apply (proj2 W2); left; reflexivity).
  assert (W3 : words_written l2). { destruct W2 as [A B]. split; [intros x v I; apply (A x v); right; exact I|intros ap I; apply (B ap); right; exact I]. } clear W2.
  set (d1 := aw_run (s_data (sc_s q)) (writes l1)).
  assert (D1 : data_ok c d1) by (apply aw_data; [exact D0|apply words_of; exact W1]).
  assert (RB : rr_buf (m_req (s_msg (sc_s k1))) = f ++ skipn (length f) (rr_buf (m_req (s_msg (sc_s q))))).
  { destruct Rc as (pre & n & E & _ & Ar). rewrite Sp in E. symmetry in E. exact (at_195 c q f pre n p1 p2 k1 t1 Hc K Hf Lf If Ar E R1 P1). }
  destruct (run_ready c p1 Hc q (proj1 (proj1 K))) as (k1' & t1' & R1' & RY & _). rewrite R1 in R1'. injection R1' as <- <-.
  assert (M1 : msg_ok (s_msg (sc_s k1))) by apply RY. assert (MP : s_mptr (sc_s k1) = true) by apply RY.
  destruct (parse_i app c d1 (s_msg (sc_s k1)) Hc D1 M1 Wa) as (dx & X & PX & FX & _).
  destruct (parse_server c dx (s_msg (sc_s k1)) Hc X M1) as (st & r & PS & _). rewrite PS in PX. cbn [redata bind] in PX.
  assert (BQ : bytes (rr_buf (m_req (s_msg (sc_s q))))) by apply K.
  rewrite RB in PX, FX, PS. rewrite server_i_stale in PX, FX by assumption. rewrite server_stale in FX, PS by assumption.
  (* the undisturbed slave with data dx *)
  pose proof (rests_wd _ _ _ K X) as Kx.
  destruct (exchange c (wd q dx) f _ _ Hc Kx Hf Lf If Cf Rc Cp) as (y1 & u1 & y2 & u2 & F1 & T1 & _ & F2 & T2 & _ & I2 & Ky).
  change (s_data (sc_s (wd q dx))) with dx in *. change (s_id (sc_s (wd q dx))) with (s_id (sc_s q)) in *.
  rewrite Sp in F1. rewrite run_app in F1. destruct (run_wd c p1 q dx Cs1 Z1) as [R1x Z1x]. rewrite R1x, R1 in F1. cbn [omap bind] in F1.
  cbn [s_run s_act] in F1. change (sc_pc (wd k1 dx)) with (sc_pc k1) in F1. rewrite P1 in F1. unfold s_line in F1. change (s_mptr (sc_s (wd k1 dx))) with (s_mptr (sc_s k1)) in F1. rewrite MP in F1.
  change (s_msg (sc_s (wd k1 dx))) with (s_msg (sc_s k1)) in F1. change (s_data (sc_s (wd k1 dx))) with dx in F1. rewrite PS in F1. cbn [bind map] in F1.
  set (k2 := mk_sconf (s_set_data (s_set_msg (sc_s (wd k1 dx)) (mk_msg (m_req (s_msg (sc_s k1))) r)) (snd (server c dx f))) (Some L196)) in *.
  destruct (s_run c p2 k2) as [[k3 t3]| |] eqn:R3; cbn [bind] in F1; try discriminate F1. injection F1 as F1a F1b. subst y1.
  (* line 195 is executed once *)
  assert (Z3 : hits c p2 k2 = 0%nat /\ hits c (strip dn) k3 = 0%nat).
  { pose proof (run_hits _ _ _ _ _ R3) as A. pose proof (run_hits _ _ _ _ _ F2) as B. rewrite (rests_pend _ _ Ky), T2 in B. cbn [length] in B.
    apply (f_equal sent) in F1b. rewrite !sent_app in F1b. rewrite T1 in F1b. change (sent [TOut SoExec]) with (@nil (list Z)) in F1b. cbn [Datatypes.app] in F1b. change (pend k2) with 1%nat in A.
    apply (f_equal (@length _)) in F1b. rewrite app_length in F1b. cbn [length] in F1b. change (sent (TOut SoExec :: t3)) with (sent t3) in F1b. lia. }
  destruct Z3 as [Z3 Z4].
  exists l1, app, l2, (wd k1 d1), t1, (wd k2 (snd (server_i app c d1 f))), (wd k3 (aw_run (snd (server_i app c d1 f)) (writes l2))), t3,
    (wd y2 (aw_run (aw_run (snd (server_i app c d1 f)) (writes l2)) (writes dn))), u2. split; [reflexivity|]. fold d1. cbn zeta.
  split. { rewrite (i_run_calm c l1 q) by (rewrite X1; assumption). rewrite X1, R1. reflexivity. }
  split; [reflexivity|].
  split. { cbn [i_act wd sc_pc sc_s]. rewrite P1. unfold i_line. change (s_mptr (s_set_data (sc_s k1) d1)) with (s_mptr (sc_s k1)). rewrite MP.
    change (s_msg (s_set_data (sc_s k1) d1)) with (s_msg (sc_s k1)). change (s_data (s_set_data (sc_s k1) d1)) with d1. rewrite PX. reflexivity. }
  split; [reflexivity|].
  split. { destruct (run_wd c p2 k2 (snd (server_i app c d1 f)) Cs3 Z3) as [A B]. rewrite (i_run_calm c l2) by (rewrite X2; assumption). rewrite X2, A, R3. reflexivity. }
  split; [reflexivity|].
  split. { rewrite sent_app. apply (f_equal sent) in F1b. rewrite !sent_app in F1b. rewrite T1, FX in F1b. exact F1b. }
  split. { destruct (run_wd c (strip dn) k3 (aw_run (snd (server_i app c d1 f)) (writes l2)) Cd Z4) as [A B]. rewrite (i_run_calm c dn) by assumption. rewrite A, F2. reflexivity. }
  split; [reflexivity|]. split; [exact T2|]. split; [exact I2|].
  apply rests_wd; [exact Ky|]. apply aw_data; [|apply words_of; exact Wd]. apply aw_data; [|apply words_of; exact W3].
  apply server_i_data; assumption.
Qed.

(** frames that are not answered *)
Lemma dropped_i c q xs sched : cfg_tables_ok c -> slave_rests c q -> reception_of two_polls xs (strip sched) -> forallb is_reception xs = true ->
  has_frame_err xs = true \/ ~ intact (s_id (sc_s q)) (buffered (rx_bytes xs)) -> words_written sched ->
  exists k t, i_run c sched q = Ok (k, t) /\ sent t = [] /\ s_data (sc_s k) = aw_run (s_data (sc_s q)) (writes sched) /\ s_id (sc_s k) = s_id (sc_s q) /\ slave_rests c k.
Proof.
  intros Hc K Rc Rx Bad Ww.
  assert (Nx : forallb no_app xs = true). { apply forallb_forall. intros e I. pose proof (proj1 (forallb_forall _ _) Rx e I) as H. destruct e; try discriminate H; reflexivity. }
  pose proof (reception_calm _ _ _ Nx Rc) as Cs.
  assert (T : traffic c (s_id (sc_s q)) (s_data (sc_s q)) (strip sched ++ []) [] (s_data (sc_s q))) by (eapply dropped; eauto; constructor). rewrite app_nil_r in T.
  destruct (traffic_run c _ _ _ _ Hc _ T q [] (rests_clean _ _ K) eq_refl eq_refl) as (k & t & R & S1 & D1 & I1 & K1). cbn [Datatypes.app sent] in S1. apply clean_rests in K1.
  assert (Z0 : hits c (strip sched) q = 0%nat). { pose proof (run_hits _ _ _ _ _ R) as H. rewrite S1, (rests_pend _ _ K), (rests_pend _ _ K1) in H. exact H. }
  exists (wd k (aw_run (s_data (sc_s q)) (writes sched))), t. rewrite (i_run_calm c sched q Cs Z0), R. split; [reflexivity|]. split; [exact S1|]. split; [reflexivity|]. split; [exact I1|].
  apply rests_wd; [exact K1|]. apply aw_data; [apply K|apply words_of; exact Ww].
Qed.

(** whatever happens, nothing undefined *)
Lemma i_act_ready c a k : cfg_tables_ok c -> words_written [a] -> slave_ready c (sc_s k) -> exists k' t, i_act c a k = Ok (k', t) /\ slave_ready c (sc_s k').
Proof.
  intros Hc [W1 W2] R. destruct a as [app|e|w].
  - cbn [i_act]. destruct (sc_pc k) as [l|] eqn:P.
    + destruct (match l with L195 => true | _ => false end) eqn:E.
      * destruct l; try discriminate E. cbn [i_line]. pose proof R as (R1 & R2 & R3 & R4 & R5 & R6 & R7). rewrite R2.
        assert (Wa : app_words app) by (apply W2; left; reflexivity). destruct (parse_i app c (s_data (sc_s k)) (s_msg (sc_s k)) Hc R7 R6 Wa) as (dx & X & PE & _). destruct (c36 c dx (s_msg (sc_s k)) Hc X R6) as (st & m' & d' & E2 & _ & Q2 & P2). rewrite PE, E2. cbn [redata bind].
        do 2 eexists. split; [reflexivity|]. unfold slave_ready. cbn [sc_s s_set_data s_set_msg s_drv s_mptr s_sub s_rx s_id s_msg s_data].
        split; [exact R1|]. split; [exact R2|]. split; [exact R3|]. split; [exact R4|]. split; [exact R5|]. split; [split; [rewrite Q2; exact (proj1 R6)|exact P2]|].
        apply server_i_data; [exact R7|exact Wa|apply R6].
      * destruct (line_ready c l (sc_s k) Hc R) as (l' & s' & o & E' & R' & _). replace (i_line app c l (sc_s k)) with (s_line c l (sc_s k)) by (destruct l; try discriminate E; reflexivity). rewrite E'. cbn [bind]. do 2 eexists. split; [reflexivity|exact R'].
    + cbn [s_act]. rewrite P. do 2 eexists. split; [reflexivity|exact R].
  - cbn [i_act]. destruct (act_ready c (SEv e) k Hc R) as (k' & o & E & R' & _). eauto.
  - cbn [i_act]. do 2 eexists. split; [reflexivity|]. pose proof R as (R1 & R2 & R3 & R4 & R5 & R6 & R7). unfold slave_ready. cbn [sc_s s_set_data s_drv s_mptr s_sub s_rx s_id s_msg s_data].
    split; [exact R1|]. split; [exact R2|]. split; [exact R3|]. split; [exact R4|]. split; [exact R5|]. split; [exact R6|].
    apply (aw_data c _ [w] R7). intros x v [E|[]]. subst w. apply (W1 x v). left. reflexivity.
Qed.
Lemma i_run_ready c l : cfg_tables_ok c -> words_written l -> forall k, slave_ready c (sc_s k) -> exists k' t, i_run c l k = Ok (k', t) /\ slave_ready c (sc_s k').
Proof.
  intros Hc. induction l as [|a l IH]; intros W k R; [do 2 eexists; split; [reflexivity|exact R]|]. change (a :: l) with ([a] ++ l) in W. apply words_app in W as [W1 W2].
  destruct (i_act_ready c a k Hc W1 R) as (k1 & t1 & E1 & R1). destruct (IH W2 k1 R1) as (k2 & t2 & E2 & R2). cbn [i_run]. rewrite E1. cbn [bind]. rewrite E2. cbn [bind]. eauto.
Qed.
