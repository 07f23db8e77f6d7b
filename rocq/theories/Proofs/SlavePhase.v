(** Progress of the slave: phases of the handling of one frame, under every interleaving of lines and interrupts. *)
From Verif Require Export Proofs.SlaveInv.

Lemma sent_app a b : sent (a ++ b) = sent a ++ sent b.
Proof. induction a as [|x a IH]; [reflexivity|]. destruct x as [?|[]]; cbn [sent app]; rewrite ?IH; reflexivity. Qed.
Lemma events_app a b : events (a ++ b) = events a ++ events b.
Proof. induction a as [|[|e] a IH]; cbn [events app]; rewrite ?IH; reflexivity. Qed.
Lemma events_steps n : events (repeat SStep n) = [].
Proof. induction n; auto. Qed.

(** A predicate on (remaining interrupts, history, next line, state) kept by lines and by the expected interrupts *)
Lemma phase c (P : list sev -> list sitem -> spc -> slave -> Prop) :
  (forall rem t l s, P rem t l s -> exists l' s' o, s_line c l s = Ok (l', s', o) /\ P rem (t ++ map TOut o) (next l' s') s') ->
  (forall e rem t l s, P (e :: rem) t l s -> exists s', s_event e s = Ok s' /\ P rem (t ++ [TEv e]) l s') ->
  forall sched t k rem, P (events sched ++ rem) t (loc k) (sc_s k) ->
  exists k' o, s_run c sched k = Ok (k', o) /\ P rem (t ++ o) (loc k') (sc_s k').
Proof.
  intros Hl He. induction sched as [|a sched IH]; intros t k rem H; cbn [s_run events app] in *.
  - do 2 eexists. split; [reflexivity|]. now rewrite app_nil_r.
  - destruct a as [|e]; cbn [s_act events app] in *.
    + destruct (sc_pc k) as [l|] eqn:Q.
      * unfold loc in H. rewrite Q in H. destruct (Hl _ _ _ _ H) as (l' & s' & o & E & H').
        rewrite E. cbn [bind]. destruct (IH (t ++ map TOut o) (mk_sconf s' l') rem H') as (k2 & o2 & E2 & H2).
        rewrite E2. cbn [bind]. do 2 eexists. split; [reflexivity|]. now rewrite app_assoc.
      * destruct (IH t (mk_sconf (sc_s k) (Some (s_dispatch (sc_s k)))) rem) as (k2 & o2 & E2 & H2).
        { unfold loc in *. rewrite Q in H. exact H. }
        cbn [bind]. rewrite E2. cbn [bind app]. do 2 eexists. split; [reflexivity|]. exact H2.
    + destruct (He _ _ _ _ _ H) as (s' & E & H'). rewrite E. cbn [bind].
      destruct (IH (t ++ [TEv e]) (mk_sconf s' (sc_pc k)) rem) as (k2 & o2 & E2 & H2).
      { unfold loc in *. cbn [sc_pc sc_s]. destruct (sc_pc k); auto. unfold s_dispatch in *. rewrite (event_st _ _ _ E). exact H'. }
      rewrite E2. cbn [bind]. do 2 eexists. split; [reflexivity|]. now rewrite app_assoc.
Qed.

(** Progress: a weight per line which decreases with every line until a final line is reached *)
Definition weight (w : spc -> nat) (k : sconf) : nat := match sc_pc k with Some l => w l | None => S (w (s_dispatch (sc_s k))) end.
Lemma progress c (P : list sitem -> spc -> slave -> Prop) (final : spc -> slave -> bool) (w : spc -> nat) :
  (forall t l s, P t l s -> exists l' s' o, s_line c l s = Ok (l', s', o) /\ P (t ++ map TOut o) (next l' s') s' /\
     if final l s then final (next l' s') s' = true else final (next l' s') s' = true \/ (weight w (mk_sconf s' l') < w l)%nat) ->
  (forall l s, final l s = false -> w l <> 0)%nat ->
  forall n t k, P t (loc k) (sc_s k) -> final (loc k) (sc_s k) = true \/ (weight w k <= n)%nat ->
  exists k' o, s_run c (repeat SStep n) k = Ok (k', o) /\ P (t ++ o) (loc k') (sc_s k') /\ final (loc k') (sc_s k') = true.
Proof.
  intros Hl Hw. induction n as [|n IH]; intros t k H Hn; cbn [repeat s_run].
  - do 2 eexists. split; [reflexivity|]. rewrite app_nil_r. split; auto.
    destruct Hn as [Hn|Hn]; auto. destruct (final (loc k) (sc_s k)) eqn:F; auto. apply Hw in F. unfold weight, loc in *. destruct (sc_pc k); lia.
  - cbn [s_act]. destruct (sc_pc k) as [l|] eqn:Q.
    + unfold loc in H. rewrite Q in H. destruct (Hl _ _ _ H) as (l' & s' & o & E & H' & W). rewrite E. cbn [bind].
      destruct (IH (t ++ map TOut o) (mk_sconf s' l')) as (k2 & o2 & E2 & H2 & F2); [exact H'| |].
      { unfold loc, weight in *. rewrite Q in *. cbn [sc_pc sc_s] in *. destruct (final l (sc_s k)); [left; exact W|].
        destruct Hn as [|Hn]; [discriminate|]. destruct W as [W|W]; [left; exact W|right]. destruct l'; lia. }
      rewrite E2. cbn [bind]. do 2 eexists. split; [reflexivity|]. rewrite app_assoc. auto.
    + cbn [bind]. destruct (IH t (mk_sconf (sc_s k) (Some (s_dispatch (sc_s k))))) as (k2 & o2 & E2 & H2 & F2).
      { unfold loc in *. rewrite Q in H. exact H. }
      { unfold loc, weight in *. rewrite Q in *. cbn [sc_pc sc_s] in *. destruct Hn as [|Hn]; [left; auto|right; lia]. }
      rewrite E2. cbn [bind app]. do 2 eexists. split; [reflexivity|]. auto.
Qed.

Lemma run_app c a : forall b k, s_run c (a ++ b) k = let* '(k1, t1) := s_run c a k in let* '(k2, t2) := s_run c b k1 in Ok (k2, t1 ++ t2).
Proof.
  induction a as [|x a IH]; intros b k; cbn [app s_run].
  - cbn [bind]. destruct (s_run c b k) as [[? ?]| |]; reflexivity.
  - destruct (s_act c x k) as [[k1 t1]| |]; cbn [bind]; auto. rewrite IH. destruct (s_run c a k1) as [[k2 t2]| |]; cbn [bind]; auto.
    destruct (s_run c b k2) as [[k3 t3]| |]; cbn [bind]; auto. now rewrite app_assoc.
Qed.

Lemma phase_progress c (P : list sev -> list sitem -> spc -> slave -> Prop) (final : spc -> slave -> bool) (w : spc -> nat) (K : nat) :
  (forall rem t l s, P rem t l s -> exists l' s' o, s_line c l s = Ok (l', s', o) /\ P rem (t ++ map TOut o) (next l' s') s' /\
     (rem = [] -> if final l s then final (next l' s') s' = true else final (next l' s') s' = true \/ (weight w (mk_sconf s' l') < w l)%nat)) ->
  (forall e rem t l s, P (e :: rem) t l s -> exists s', s_event e s = Ok s' /\ P rem (t ++ [TEv e]) l s') ->
  (forall l s, final l s = false -> w l <> 0)%nat ->
  (forall t l s, P [] t l s -> (w l < K)%nat) ->
  forall sched n t k, P (events sched) t (loc k) (sc_s k) -> (K <= n)%nat ->
  exists k' o, s_run c (sched ++ repeat SStep n) k = Ok (k', o) /\ P [] (t ++ o) (loc k') (sc_s k') /\ final (loc k') (sc_s k') = true.
Proof.
  intros Hl He Hw HK sched n t k H Hn.
  destruct (phase c P) with (sched := sched) (t := t) (k := k) (rem := @nil sev) as (k1 & o1 & E1 & H1).
  - intros rem t' l s X. destruct (Hl rem t' l s X) as (l' & s' & o & A1 & A2 & _). eauto.
  - intros. eapply He; eauto.
  - now rewrite app_nil_r.
  - destruct (progress c (P []) final w) with (n := n) (t := t ++ o1) (k := k1) as (k2 & o2 & E2 & H2 & F2); auto.
    + intros t' l s X. destruct (Hl [] t' l s X) as (l' & s' & o & A1 & A2 & A3). exists l', s', o. split; auto. split; auto. exact (A3 eq_refl).
    + right. specialize (HK _ _ _ H1). unfold weight, loc in *. destruct (sc_pc k1); lia.
    + rewrite run_app, E1. cbn [bind]. rewrite E2. cbn [bind]. do 2 eexists. split; [reflexivity|]. rewrite app_assoc. auto.
Qed.

(** the same with transmission-complete events that do no harm before the last event *)
Lemma phase_progress_tx c (P : list sev -> list sitem -> spc -> slave -> Prop) (final : spc -> slave -> bool) (w : spc -> nat) (K : nat) :
  (forall rem t l s, P rem t l s -> exists l' s' o, s_line c l s = Ok (l', s', o) /\ P rem (t ++ map TOut o) (next l' s') s' /\
     (rem = [] -> if final l s then final (next l' s') s' = true else final (next l' s') s' = true \/ (weight w (mk_sconf s' l') < w l)%nat)) ->
  (forall e rem t l s, P (e :: rem) t l s -> exists s', s_event e s = Ok s' /\ P rem (t ++ [TEv e]) l s') ->
  (forall rem t l s, P rem t l s -> rem <> [] -> exists s', s_event STxDone s = Ok s' /\ P rem (t ++ [TEv STxDone]) l s') ->
  (forall l s, final l s = false -> w l <> 0)%nat ->
  (forall t l s, P [] t l s -> (w l < K)%nat) ->
  forall sched n t k xs, P (xs ++ [ST15; ST35]) t (loc k) (sc_s k) -> arrival xs (events sched) -> (K <= n)%nat ->
  exists k' o, s_run c (sched ++ repeat SStep n) k = Ok (k', o) /\ P [] (t ++ o) (loc k') (sc_s k') /\ final (loc k') (sc_s k') = true.
Proof.
  intros Hl He Ht Hw HK sched n t k xs H (es1 & A1 & A2) Hn.
  set (P' := fun rem t l s => (exists es, rem = es ++ [ST35] /\ P (line_events es ++ [ST35]) t l s) \/ (rem = [] /\ P [] t l s)).
  assert (P0 : forall t l s, P' [] t l s -> P [] t l s). { intros t' l s [(es & Q & _)|[_ X]]; auto. destruct es; discriminate. }
  destruct (phase_progress c P' final w K) with (sched := sched) (n := n) (t := t) (k := k) as (k2 & o2 & E2 & H2 & F2); auto.
  - intros rem t' l s [(es & -> & X)|[-> X]]; destruct (Hl _ _ _ _ X) as (l' & s' & o & E & X' & W); exists l', s', o; split; auto; split.
    + left. exists es. auto.
    + intros Q. destruct es; discriminate.
    + right. auto.
    + exact W.
  - intros e rem t' l s [(es & Q & X)|[Q _]]; [|discriminate]. destruct es as [|e' es]; cbn [app] in Q; inversion Q; subst; clear Q.
    + cbn in X. destruct (He _ _ _ _ _ X) as (s' & E & X'). exists s'. split; auto. right. auto.
    + cbn [line_events filter] in X. destruct (not_tx e') eqn:N.
      * cbn [app] in X. destruct (He _ _ _ _ _ X) as (s' & E & X'). exists s'. split; auto. left. exists es. auto.
      * destruct e'; try discriminate. destruct (Ht _ _ _ _ X) as (s' & E & X'). { intros Z0. apply (f_equal (@length sev)) in Z0. rewrite app_length in Z0. cbn in Z0. lia. }
        exists s'. split; auto. left. exists es. auto.
  - intros t' l s X. eapply HK, P0. exact X.
  - left. exists es1. split; auto. rewrite A2. rewrite <- app_assoc. exact H.
  - exists k2, o2. split; auto.
Qed.

Lemma phase_tx c (P : list sev -> list sitem -> spc -> slave -> Prop) :
  (forall rem t l s, P rem t l s -> exists l' s' o, s_line c l s = Ok (l', s', o) /\ P rem (t ++ map TOut o) (next l' s') s') ->
  (forall e rem t l s, P (e :: rem) t l s -> exists s', s_event e s = Ok s' /\ P rem (t ++ [TEv e]) l s') ->
  (forall rem t l s, P rem t l s -> rem <> [] -> exists s', s_event STxDone s = Ok s' /\ P rem (t ++ [TEv STxDone]) l s') ->
  forall sched t k xs, P (xs ++ [ST15; ST35]) t (loc k) (sc_s k) -> arrival xs (events sched) ->
  exists k' o, s_run c sched k = Ok (k', o) /\ P [] (t ++ o) (loc k') (sc_s k').
Proof.
  intros Hl He Ht sched t k xs H (es1 & A1 & A2).
  destruct (phase c (fun rem t l s => (exists es, rem = es ++ [ST35] /\ P (line_events es ++ [ST35]) t l s) \/ (rem = [] /\ P [] t l s)))
    with (sched := sched) (t := t) (k := k) (rem := @nil sev) as (k2 & o2 & E2 & H2).
  - intros rem t' l s [(es & -> & X)|[-> X]]; destruct (Hl _ _ _ _ X) as (l' & s' & o & E & X'); exists l', s', o; split; auto. left. exists es. auto.
  - intros e rem t' l s [(es & Q & X)|[Q _]]; [|discriminate]. destruct es as [|e' es]; cbn [app] in Q; inversion Q; subst; clear Q.
    + cbn in X. destruct (He _ _ _ _ _ X) as (s' & E & X'). exists s'. split; auto.
    + cbn [line_events filter] in X. destruct (not_tx e') eqn:N.
      * cbn [app] in X. destruct (He _ _ _ _ _ X) as (s' & E & X'). exists s'. split; auto. left. exists es. auto.
      * destruct e'; try discriminate. destruct (Ht _ _ _ _ X) as (s' & E & X'). { intros Z0. apply (f_equal (@length sev)) in Z0. rewrite app_length in Z0. cbn in Z0. lia. }
        exists s'. split; auto. left. exists es. auto.
  - left. exists es1. rewrite app_nil_r. split; auto. rewrite A2. rewrite <- app_assoc. exact H.
  - exists k2, o2. split; auto. destruct H2 as [(es & Q & _)|[_ X]]; auto. destruct es; discriminate.
Qed.

Definition bl (b : bool) : flag := if b then SET else CLEARED.

Section good.
Context (c : cfg) (Hc : cfg_tables_ok c) (d0 : sdata) (Hd : data_ok c d0) (id : Z) (f buf0 : list Z) (Hf : bytes f) (Lf : (length f < 256)%nat)
        (If : intact id f) (Lb : length buf0 = 256%nat) (s0 : list (list Z)).
Definition ans : list Z * sdata := server c d0 (f ++ skipn (length f) buf0).
Definition rbuf (f1 : list Z) (r : rr) : Prop := rr_len r = Z.of_nat (length f1) /\ rr_buf r = f1 ++ skipn (length f1) buf0.
Definition evs (rem : list sev) (f1 : list Z) (n15 n35 : bool) : Prop :=
  (n15 = false /\ n35 = false /\ exists f2, f = f1 ++ f2 /\ rem = map SRx f2 ++ [ST15; ST35]) \/
  (n15 = true /\ n35 = false /\ f1 = f /\ rem = [ST35]) \/
  (n15 = true /\ n35 = true /\ f1 = f /\ rem = []).
Definition pre (t : list sitem) (s : slave) (n15 n35 : bool) : Prop :=
  s_data s = d0 /\ sent t = s0 /\ n15 = true /\ s_t15 s = CLEARED /\ s_t35 s = bl n35.
Definition post (t : list sitem) (s : slave) (n35 : bool) : Prop :=
  s_data s = snd ans /\ sent t = s0 ++ [rtu_frame id (fst ans)] /\ n35 = true /\ s_t15 s = CLEARED.
Definition body (t : list sitem) (l : spc) (s : slave) (n15 n35 : bool) : Prop :=
  match l with
  | L164 => s_data s = d0 /\ sent t = s0 /\ s_t15 s = bl n15 /\ s_t35 s = bl n35
  | L167 => s_data s = d0 /\ sent t = s0 /\ n15 = true /\ s_t15 s = SET /\ s_t35 s = bl n35
  | L168 | L173 | L186 | L193 | L193b => pre t s n15 n35
  | L169 st => pre t s n15 n35 /\ st = RET_OK
  | L195 => pre t s n15 n35 /\ n35 = true
  | L196 => s_data s = snd ans /\ sent t = s0 /\ n35 = true /\ s_t15 s = CLEARED /\ holds (m_resp (s_msg s)) (fst ans)
  | L197 => s_data s = snd ans /\ sent t = s0 /\ n35 = true /\ s_t15 s = CLEARED /\ rx_frame (m_resp (s_msg s)) = rtu_frame id (fst ans)
  | L198 => post t s n35
  | L199 | L200 => post t s n35 /\ s_tx s = SET
  | L216 => post t s n35 /\ s_tx s = SET /\ s_t35 s = CLEARED
  | _ => False
  end.
Definition G (rem : list sev) (t : list sitem) (l : spc) (s : slave) : Prop :=
  slave_ready c s /\ base l s /\ s_id s = id /\ s_fe s = CLEARED /\
  exists f1 n15 n35, evs rem f1 n15 n35 /\ rbuf f1 (m_req (s_msg s)) /\ body t l s n15 n35.

Lemma rbuf_frame f1 r : rbuf f1 r -> rx_frame r = f1.
Proof. intros [A B]. unfold rx_frame. rewrite A, B, Nat2Z.id. apply firstn_app_exact. reflexivity. Qed.

Definition wG (l : spc) : nat :=
  match l with
  | L164 => 15 | L167 => 14 | L168 => 13 | L169 _ => 12 | L173 => 11 | L186 => 9 | L193 => 8 | L193b => 7
  | L195 => 6 | L196 => 5 | L197 => 4 | L198 => 3 | L199 => 2 | L200 => 1 | _ => 1 end.
Definition fG (l : spc) (s : slave) : bool := match l with L216 => true | _ => false end.

Lemma G_line rem t l s : G rem t l s -> exists l' s' o, s_line c l s = Ok (l', s', o) /\ G rem (t ++ map TOut o) (next l' s') s' /\
  (rem = [] -> if fG l s then fG (next l' s') s' = true else fG (next l' s') s' = true \/ (weight wG (mk_sconf s' l') < wG l)%nat).
Proof.
  intros (R & B & I & F & f1 & n15 & n35 & V & Q & Y).
  destruct (line_ready c l s Hc R) as (l' & s' & o & E & R' & I').
  exists l', s', o. split; auto. assert (B' := base_line _ _ _ _ _ _ B E).
  assert (BS := b_st _ _ B).
  assert (RR := R). destruct RR as (HD & HM & _ & _ & Hid & [HQ HP] & HDD).
  destruct l; cbn [body] in Y; try contradiction.
  - (* L164 *) destruct Y as (Y1 & Y2 & Y3 & Y4). cbn [s_line] in E. rewrite Y3 in E. destruct n15; cbn [bl is_set] in E; inversion E; subst.
    + split.
      * repeat (split; auto). exists f1, true, n35. cbn [map next body]. rewrite app_nil_r. auto 10.
      * intros _. right. cbn. lia.
    + split.
      * repeat (split; auto). exists f1, false, n35. cbn [map next]. unfold s_dispatch. rewrite BS. cbn [body st_of]. rewrite app_nil_r. auto 10.
      * intros ->. destruct V as [(_ & _ & f2 & _ & V)|[(V & _)|(V & _)]]; try discriminate. symmetry in V. destruct f2; discriminate.
  - destruct Y as (Y1 & Y2 & -> & Y3 & Y4). cbn [s_line] in E. inversion E; subst. split.
    + repeat (split; auto). exists f1, true, n35. cbn [map next body]. rewrite app_nil_r. unfold pre. prj. auto 10.
    + intros _. right. cbn. lia.
  - destruct Y as (Y1 & Y2 & -> & Y3 & Y4). cbn [s_line] in E. rewrite HM in E.
    assert (f1 = f) by (destruct V as [(V & _)|[(_ & _ & V & _)|(_ & _ & V & _)]]; congruence). subst f1.
    assert (A := rbuf_frame _ _ Q). rewrite I in E.
    rewrite (proj2 (recv_accept_iff _ id HQ)) in E by (rewrite A; auto). cbn [bind] in E. inversion E; subst. split.
    + repeat (split; auto). exists f, true, n35. cbn [map next body]. unfold pre. rewrite sent_app. cbn [sent]. rewrite app_nil_r. auto 10.
    + intros _. right. cbn. lia.
  - destruct Y as ((Y1 & Y2 & -> & Y3 & Y4) & ->). cbn [s_line] in E. change (negb (RET_OK =? RET_OK)) with false in E. cbn iota in E. inversion E; subst. split.
    + repeat (split; auto). exists f1, true, n35. cbn [map next body]. unfold pre. rewrite app_nil_r. auto 10.
    + intros _. right. cbn. lia.
  - destruct Y as (Y1 & Y2 & -> & Y3 & Y4). cbn [s_line] in E. inversion E; subst. split.
    + repeat (split; auto). exists f1, true, n35. cbn [map next body s_dispatch s_st s_set_st]. unfold pre. rewrite app_nil_r. prj. auto 10.
    + intros _. right. cbn. lia.
  - destruct Y as (Y1 & Y2 & -> & Y3 & Y4). cbn [s_line] in E. rewrite F in E. cbn [is_set] in E. inversion E; subst. split.
    + repeat (split; auto). exists f1, true, n35. cbn [map next body]. unfold pre. rewrite app_nil_r. prj. auto 10.
    + intros _. right. cbn. lia.
  - destruct Y as (Y1 & Y2 & -> & Y3 & Y4). cbn [s_line] in E. rewrite F in E. cbn [is_clr] in E. inversion E; subst. split.
    + repeat (split; auto). exists f1, true, n35. cbn [map next body]. unfold pre. rewrite sent_app. cbn [sent]. rewrite app_nil_r. prj. auto 10.
    + intros _. right. cbn. lia.
  - destruct Y as (Y1 & Y2 & -> & Y3 & Y4). cbn [s_line] in E. rewrite Y4 in E. destruct n35; cbn [bl is_set] in E; inversion E; subst; split.
    + repeat (split; auto). exists f1, true, true. cbn [map next body]. unfold pre. rewrite app_nil_r. prj. auto 10.
    + intros _. right. cbn. lia.
    + repeat (split; auto). exists f1, true, false. cbn [map next body]. unfold s_dispatch. rewrite BS. cbn [st_of body]. unfold pre. rewrite app_nil_r. prj. auto 10.
    + intros ->. destruct V as [(V & _)|[(_ & _ & _ & V)|(_ & V & _)]]; try discriminate.
  - destruct Y as ((Y1 & Y2 & -> & Y3 & Y4) & ->). cbn [s_line] in E. rewrite HM, Y1 in E.
    assert (f1 = f) by (destruct V as [(V & _)|[(_ & _ & V & _)|(_ & _ & V & _)]]; congruence). subst f1.
    destruct (parse_server c d0 (s_msg s) Hc Hd (conj HQ HP)) as (st & r & E2 & HH). rewrite (proj2 Q) in E2, HH. fold ans in E2, HH.
    rewrite E2 in E. cbn [bind] in E. inversion E; subst. split.
    + repeat (split; auto). exists f, true, true. cbn [map next body]. rewrite sent_app. cbn [sent]. rewrite app_nil_r. prj. cbn [m_req m_resp]. auto 10.
    + intros _. right. cbn. lia.
  - destruct Y as (Y1 & Y2 & -> & Y3 & Y4). cbn [s_line] in E. rewrite HM in E.
    destruct (send_holds _ (fst ans) id Y4) as (r & E2 & HH & HF). { apply server_pdu_len. } { now rewrite <- I. }
    rewrite I in E. rewrite E2 in E. cbn [bind] in E. inversion E; subst. split.
    + repeat (split; auto). exists f1, n15, true. cbn [map next body]. rewrite app_nil_r. prj. cbn [set_resp m_req m_resp]. auto 10.
    + intros _. right. cbn. lia.
  - destruct Y as (Y1 & Y2 & -> & Y3 & Y4). cbn [s_line] in E. rewrite HM, HD in E. cbn [andb] in E. inversion E; subst. split.
    + repeat (split; auto). exists f1, n15, true. cbn [map next body]. unfold post. rewrite sent_app. cbn [sent].
      unfold rx_frame in Y4. rewrite Y4, Y2. auto 10.
    + intros _. right. cbn. lia.
  - destruct Y as (Y1 & Y2 & -> & Y3). cbn [s_line] in E. inversion E; subst. split.
    + repeat (split; auto). exists f1, n15, true. cbn [map next body]. unfold post. rewrite app_nil_r. prj. auto 10.
    + intros _. right. cbn. lia.
  - destruct Y as ((Y1 & Y2 & -> & Y3) & Y4). cbn [s_line] in E. inversion E; subst. split.
    + repeat (split; auto). exists f1, n15, true. cbn [map next body]. unfold post. rewrite app_nil_r. prj. auto 10.
    + intros _. right. cbn. lia.
  - destruct Y as ((Y1 & Y2 & -> & Y3) & Y4). cbn [s_line] in E. inversion E; subst. split.
    + repeat (split; auto). exists f1, n15, true. cbn [map next body]. unfold s_dispatch. prj. rewrite BS. cbn [st_of body]. unfold post. rewrite app_nil_r. prj. auto 10.
    + intros _. left. cbn. unfold s_dispatch. prj. rewrite BS. reflexivity.
  - destruct Y as ((Y1 & Y2 & -> & Y3) & Y4 & Y5). cbn [s_line] in E. rewrite Y4 in E. cbn [is_clr] in E. inversion E; subst. split.
    + repeat (split; auto). exists f1, n15, true. cbn [map next body]. unfold s_dispatch. prj. rewrite BS. cbn [st_of body]. unfold post. rewrite app_nil_r. prj. auto 10.
    + intros _. cbn. unfold s_dispatch. prj. rewrite BS. reflexivity.
Qed.

Lemma rbuf_rx f1 r b : rr_ok r -> rbuf f1 r -> byte b -> (length f1 < 255)%nat ->
  exists r', wr r (rr_len r) (u8 b) = Ok r' /\ rbuf (f1 ++ [b]) (set_len r' (u8 (rr_len r' + 1))).
Proof.
  intros R [A B] Hb Hl. destruct (rx_byte r b R) as (r' & E & _ & L' & B'). exists r'. split; auto.
  unfold rbuf, set_len. cbn [rr_len rr_buf]. rewrite L', B', A, B, app_length. cbn [length].
  unfold byte in Hb. unfold u8. split; [rewrite Z.mod_small; lia|].
  rewrite Nat2Z.id, (Z.mod_small b) by lia.
  destruct (skipn (length f1) buf0) as [|x tl] eqn:K.
  - exfalso. apply (f_equal (@length Z)) in K. rewrite skipn_length in K. cbn [length] in K. lia.
  - rewrite upd_app_mid by auto. rewrite <- app_assoc. cbn [app]. f_equal. f_equal.
    rewrite <- (skipn_skipn buf0 (length f1) 1), K. reflexivity.
Qed.

Lemma G_event e rem t l s : G (e :: rem) t l s -> exists s', s_event e s = Ok s' /\ G rem (t ++ [TEv e]) l s'.
Proof.
  intros (R & B & I & F & f1 & n15 & n35 & V & Q & Y).
  destruct (event_ready c e s R) as (s' & E & R' & I'). exists s'. split; auto. assert (B' := base_event _ _ _ _ B E).
  assert (RR := R). destruct RR as (_ & _ & HS & HR & Hid & [HQ HP] & HDD).
  unfold G. rewrite I', I. split; auto. split; auto. split; auto.
  destruct V as [(-> & -> & f2 & Vf & V)|[(-> & -> & -> & V)|(-> & -> & -> & V)]]; [| |discriminate].
  - assert (l = L164). { destruct l; cbn [body] in Y; unfold pre, post in Y; try contradiction; auto; exfalso; repeat match type of Y with _ /\ _ => let X := fresh in destruct Y as [X Y]; try discriminate X end; try discriminate;
      try (match goal with H : _ /\ _ |- _ => destruct H as (_ & _ & H & _); try discriminate H; try (destruct H as (H & _); discriminate H) end). }
    subst l. cbn [body] in *. destruct Y as (Y1 & Y2 & Y3 & Y4).
    destruct f2 as [|b f2]; cbn [map app] in V; inversion V; subst e rem.
    + cbn [s_event] in E. rewrite HS in E. inversion E; subst. prj. split; auto. exists f1, true, false. split.
      { right; left. rewrite app_nil_r in Vf. subst f1. auto. } split; auto. rewrite sent_app. cbn [sent]. rewrite app_nil_r. auto.
    + assert (Hb : byte b). { rewrite Vf in Hf. apply Forall_app in Hf as [_ Hf2]. inversion Hf2; auto. }
      assert (L1 : (length f1 < 255)%nat). { rewrite Vf, app_length in Lf. cbn in Lf. lia. }
      destruct (rbuf_rx f1 _ b HQ Q Hb L1) as (r' & E2 & Q2). cbn [s_event] in E. rewrite HR, E2 in E. cbn [bind] in E. inversion E; subst s'. prj.
      split; auto. exists (f1 ++ [b]), false, false. split. { left. split; auto. split; auto. exists f2. rewrite <- app_assoc. auto. }
      cbn [set_req m_req]. split; auto. rewrite sent_app. cbn [sent]. rewrite app_nil_r. auto.
  - inversion V; subst e rem. cbn [s_event] in E. rewrite HS in E. inversion E; subst s'. prj. split; auto. exists f, true, true.
    split; [right; right; auto|]. split; auto. destruct l; cbn [body] in *; unfold pre, post in *; prj; rewrite ?sent_app; cbn [sent]; rewrite ?app_nil_r;
    try contradiction; repeat match goal with H : _ /\ _ |- _ => destruct H end; subst; try discriminate; auto 10.
Qed.

Lemma G_tx rem t l s : G rem t l s -> rem <> [] -> exists s', s_event STxDone s = Ok s' /\ G rem (t ++ [TEv STxDone]) l s'.
Proof.
  intros (R & B & I & F & f1 & n15 & n35 & V & Q & Y) N.
  destruct (event_ready c STxDone s R) as (s' & E & R' & I'). exists s'. split; auto. assert (B' := base_event _ _ _ _ B E).
  assert (HS : s_sub s = true) by apply R.
  unfold G. rewrite I', I. cbn [s_event] in E. rewrite HS in E. inversion E; subst s'. prj. repeat (split; auto).
  exists f1, n15, n35. split; auto. split; auto.
  assert (n35 = false) by (destruct V as [(_ & V & _)|[(_ & V & _)|(_ & _ & _ & V)]]; auto; contradiction). subst n35.
  destruct l; cbn [body] in *; unfold pre, post in *; prj; rewrite ?sent_app; cbn [sent]; rewrite ?app_nil_r; auto;
    repeat match goal with H : _ /\ _ |- _ => destruct H end; try discriminate.
Qed.
Lemma good_run sched n k t : G (map SRx f ++ [ST15; ST35]) t (loc k) (sc_s k) -> arrival (map SRx f) (events sched) -> (16 <= n)%nat ->
  exists k' o, s_run c (sched ++ repeat SStep n) k = Ok (k', o) /\ G [] (t ++ o) L216 (sc_s k') /\ loc k' = L216.
Proof.
  intros H E Hn.
  destruct (phase_progress_tx c G fG wG 16) with (sched := sched) (n := n) (t := t) (k := k) (xs := map SRx f) as (k2 & o2 & E2 & H2 & F2); auto.
  - intros. now apply G_line.
  - intros. eapply G_event; eauto.
  - intros. now apply G_tx.
  - intros l s. destruct l; cbn; congruence.
  - intros t' l s _. destruct l; cbn; lia.
  - do 2 eexists. split; eauto. destruct (loc k2) eqn:K; try discriminate. auto.
Qed.
End good.

(** the idle slave with an empty receive buffer and nothing pending *)
Definition idle_clean (c : cfg) (k : sconf) : Prop :=
  slave_ready c (sc_s k) /\ base (loc k) (sc_s k) /\ loc k = L164 /\
  s_t15 (sc_s k) = CLEARED /\ s_t35 (sc_s k) = CLEARED /\ s_fe (sc_s k) = CLEARED /\ rr_len (m_req (s_msg (sc_s k))) = 0.

Lemma good_from_idle c k f sched n t : cfg_tables_ok c -> idle_clean c k -> bytes f -> (length f < 256)%nat -> intact (s_id (sc_s k)) f ->
  arrival (map SRx f) (events sched) -> (16 <= n)%nat ->
  let A := server c (s_data (sc_s k)) (f ++ skipn (length f) (rr_buf (m_req (s_msg (sc_s k))))) in
  exists k' o, s_run c (sched ++ repeat SStep n) k = Ok (k', o) /\ sent (t ++ o) = sent t ++ [rtu_frame (s_id (sc_s k)) (fst A)] /\
    s_data (sc_s k') = snd A /\ s_id (sc_s k') = s_id (sc_s k) /\
    slave_ready c (sc_s k') /\ base L216 (sc_s k') /\ loc k' = L216 /\ s_t15 (sc_s k') = CLEARED /\ s_t35 (sc_s k') = CLEARED /\ s_fe (sc_s k') = CLEARED /\ s_tx (sc_s k') = SET.
Proof.
  intros Hc (R & B & Lk & F1 & F2 & F3 & F4) Hf Lf If E Hn A.
  assert (Hd : data_ok c (s_data (sc_s k))) by apply R.
  assert (Lb : length (rr_buf (m_req (s_msg (sc_s k)))) = 256%nat) by apply R.
  destruct (good_run c Hc (s_data (sc_s k)) Hd (s_id (sc_s k)) f (rr_buf (m_req (s_msg (sc_s k)))) Hf Lf If Lb (sent t) sched n k t) as (k' & o & E' & H' & L'); auto.
  { split; auto. split; auto. split; auto. split; auto. exists [], false, false. split; [left; split; auto; split; auto; exists f; auto|]. split.
    - split; [rewrite F4; reflexivity|reflexivity].
    - rewrite Lk. cbn [body]. auto. }
  destruct H' as (R' & B' & I' & F' & f1 & n15 & n35 & _ & _ & (Y1 & Y2 & _ & Y3) & Y4 & Y5). exists k', o. repeat (split; auto).
Qed.

(** the response has been handed over; completion is signalled; the slave becomes idle and clean *)
Section transmit.
Context (c : cfg) (Hc : cfg_tables_ok c) (d1 : sdata) (id : Z) (s1 : list (list Z)).
Definition T (rem : list sev) (t : list sitem) (l : spc) (s : slave) : Prop :=
  slave_ready c s /\ base l s /\ s_id s = id /\ s_fe s = CLEARED /\ s_t15 s = CLEARED /\ s_data s = d1 /\ sent t = s1 /\
  (rem = [STxDone] \/ rem = []) /\ (match l with L199 | L200 => True | _ => s_t35 s = CLEARED end) /\
  match l with
  | L199 | L200 | L216 => s_tx s = bl (match rem with [] => false | _ => true end)
  | L218 | L219 | L220 => rem = []
  | L164 => rem = [] /\ rr_len (m_req (s_msg s)) = 0
  | _ => False
  end.
Definition wT (l : spc) : nat := match l with L199 => 7 | L200 => 6 | L216 => 4 | L218 => 3 | L219 => 2 | _ => 1 end.
Definition fT (l : spc) (s : slave) : bool := match l with L164 => true | _ => false end.
Ltac same := repeat (split; auto); rewrite ?app_nil_r; auto; cbn; try (split; auto); auto; lia.
Lemma T_line rem t l s : T rem t l s -> exists l' s' o, s_line c l s = Ok (l', s', o) /\ T rem (t ++ map TOut o) (next l' s') s' /\
  (rem = [] -> if fT l s then fT (next l' s') s' = true else fT (next l' s') s' = true \/ (weight wT (mk_sconf s' l') < wT l)%nat).
Proof.
  intros (R & B & I & F & T15 & D & S1 & V & T35 & Y).
  destruct (line_ready c l s Hc R) as (l' & s' & o & E & R' & I').
  exists l', s', o. split; auto. assert (B' := base_line _ _ _ _ _ _ B E). unfold T.
  assert (BS := b_st _ _ B). assert (HM : s_mptr s = true) by apply R.
  assert (HL : s_line c l s = Ok (l', s', o)) by auto.
  destruct l; try contradiction; cbn [s_line] in E; rewrite ?T15, ?HM, ?Y in E; cbn [is_set bind] in E.
  - inversion E; subst. cbn [next map] in *. unfold s_dispatch in *. rewrite BS in B' |- *. cbn [st_of] in *. rewrite ?app_nil_r. destruct Y. split; [|reflexivity].
    repeat (split; auto).
  - inversion E; subst. cbn [next map]. rewrite ?app_nil_r. split; [repeat (split; auto)|right; cbn; lia].
  - inversion E; subst. cbn [next map] in *. unfold s_dispatch in *. prj. rewrite BS in B' |- *. cbn [st_of] in *. rewrite ?app_nil_r. split; [repeat (split; auto)|].
    right. unfold weight. cbn [sc_pc sc_s wT]. unfold s_dispatch. prj. rewrite BS. cbn. lia.
  - assert (C : is_clr (bl (match rem with [] => false | _ => true end)) = match rem with [] => true | _ => false end) by (destruct rem; reflexivity).
    rewrite C in E. destruct rem; inversion E; subst; cbn [next map]; rewrite ?app_nil_r.
    + split; [repeat (split; auto)|right; cbn; lia].
    + cbn [next] in B'. unfold s_dispatch in *. rewrite BS in B' |- *. cbn [st_of] in *. split; [repeat (split; auto)|]. discriminate.
  - inversion E; subst. cbn [next map]. rewrite ?app_nil_r. split; [repeat (split; auto)|right; cbn; lia].
  - inversion E; subst. cbn [next map]. rewrite ?app_nil_r. split; [repeat (split; auto)|right; cbn; lia].
  - inversion E; subst. cbn [next map] in *. unfold s_dispatch in *. prj. rewrite BS in B' |- *. cbn [st_of] in *. rewrite sent_app. cbn [sent]. rewrite ?app_nil_r. split; [repeat (split; auto)|].
    left. reflexivity.
Qed.
Lemma T_event e rem t l s : T (e :: rem) t l s -> exists s', s_event e s = Ok s' /\ T rem (t ++ [TEv e]) l s'.
Proof.
  intros (R & B & I & F & T15 & D & S1 & V & T35 & Y).
  destruct (event_ready c e s R) as (s' & E & R' & I'). exists s'. split; auto. assert (B' := base_event _ _ _ _ B E).
  destruct V as [V|V]; [|discriminate]. inversion V; subst e rem. cbn [s_event] in E. assert (HS : s_sub s = true) by apply R. rewrite HS in E.
  inversion E; subst s'. unfold T. rewrite sent_app. cbn [sent]. rewrite app_nil_r. prj.
  repeat (split; auto). destruct l; auto; try discriminate; try tauto; destruct Y; discriminate.
Qed.
Lemma transmit_run sched n k t : T [STxDone] t (loc k) (sc_s k) -> events sched = [STxDone] -> (8 <= n)%nat ->
  exists k' o, s_run c (sched ++ repeat SStep n) k = Ok (k', o) /\ idle_clean c k' /\ s_id (sc_s k') = id /\ s_data (sc_s k') = d1 /\ sent (t ++ o) = s1.
Proof.
  intros H E Hn. rewrite <- E in H.
  destruct (phase_progress c T fT wT 8) with (sched := sched) (n := n) (t := t) (k := k) as (k2 & o2 & E2 & H2 & F2); auto.
  - intros. now apply T_line.
  - intros. eapply T_event; eauto.
  - intros l s. destruct l; cbn; congruence.
  - intros t' l s _. destruct l; cbn; lia.
  - exists k2, o2. split; auto. unfold fT in F2. destruct (loc k2) eqn:K; try discriminate.
    destruct H2 as (R & B & I & F & T15 & D & S1 & V & T35 & Y1 & Y2). unfold idle_clean. rewrite K. repeat (split; auto).
Qed.
End transmit.
