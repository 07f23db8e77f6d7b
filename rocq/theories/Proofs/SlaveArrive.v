(** The slave firmware: a frame arrives on the line. *)
From Verif Require Export Proofs.SlaveWire Proofs.SlaveExchange.

Lemma y_run_app c a : forall b y, y_run c (a ++ b) y = let* '(y1, t1) := y_run c a y in let* '(y2, t2) := y_run c b y1 in Ok (y2, t1 ++ t2).
Proof.
  induction a as [|x a IH]; intros b y; cbn [y_run app bind].
  - destruct (y_run c b y) as [[y2 t2]| |]; reflexivity.
  - destruct (y_act c x y) as [[y1 t1]| |]; cbn [bind]; auto. rewrite IH. destruct (y_run c a y1) as [[y2 t2]| |]; cbn [bind]; auto.
    destruct (y_run c b y2) as [[y3 t3]| |]; cbn [bind]; auto. now rewrite app_assoc.
Qed.

(** before the 3.5-character event the library transmits nothing *)
Definition before (l : spc) : bool := match l with L164 | L167 | L168 | L169 _ | L171 | L173 | L186 | L186b | L193 | L193b => true | _ => false end.
Definition early (c : cfg) (k : sconf) : Prop :=
  slave_ready c (sc_s k) /\ base (loc k) (sc_s k) /\ before (loc k) = true /\ s_t35 (sc_s k) = CLEARED.
Lemma early_step c k : cfg_tables_ok c -> early c k -> exists k' o, s_act c SStep k = Ok (k', o) /\ early c k' /\ sc_pc k <> Some L197.
Proof.
  intros Hc (R & B & L & F). destruct (act_ready c SStep k Hc R) as (k' & o & E & R' & _). exists k', o. split; auto.
  assert (NP : sc_pc k <> Some L197) by (intros P; unfold loc in L; rewrite P in L; discriminate). split; auto.
  assert (B' : base (loc k') (sc_s k')). { apply (base_run c [SStep] k k' o B). cbn [s_run]. rewrite E. cbn [bind]. now rewrite app_nil_r. }
  split; auto. split; auto. clear B' R'. cbn [s_act] in E. destruct (sc_pc k) as [l|] eqn:P.
  2:{ inversion E; subst. unfold loc in *. rewrite P in L. cbn [sc_pc sc_s]. auto. }
  assert (LK : loc k = l) by (unfold loc; now rewrite P). rewrite LK in *. clear LK. bnd E. inversion E; subst. clear E. cbn [sc_s].
  unfold loc. cbn [sc_pc sc_s]. assert (BS := b_st _ _ B). clear B R. destruct l; try discriminate L; line_inv Y; prj; cbn [before]; auto;
    try (unfold s_dispatch; prj; rewrite ?BS; cbn [st_of before]; auto; fail).
  - rewrite F in X. discriminate.
  - rewrite F in X. discriminate.
Qed.
Lemma early_event c e k : early c k -> e <> ST35 -> exists k', y_event e k = Ok k' /\ early c k'.
Proof.
  intros (R & B & L & F) H. destruct (y_event_ok c e k R) as (k' & E & R'). exists k'. split; auto.
  destruct (event_loc _ _ _ E) as (LK & _). split; auto. rewrite LK. unfold y_event in E. bnd E. inversion E; subst. cbn [sc_s]. 
  split; [eapply base_event; eauto|]. split; auto. destruct e; try congruence; ev_inv Y; auto.
Qed.
Lemma event_run c e k k' : y_event e k = Ok k' -> s_run c [SEv e] k = Ok (k', [TEv e]).
Proof. unfold y_event. intros E. cbn [s_run s_act]. bnd E. inversion E; subst. reflexivity. Qed.

(** The receiver during the arrival: hardware actions and interrupts still to come, library events still to come, driver state. *)
Definition flat (g : list Z) : list yact := flat_map (fun b => [HRx b; AUsart]) g.
Definition tx_idle (u : uart) : Prop := quiet u /\ u_txeie u = false.
Inductive ph (u : uart) : list yact -> list sev -> Prop :=
| ph_rx g : tx_idle u -> u_rdr u = None -> u_rtof u = false -> u_det u = false -> u_uif u = false -> bytes g -> (u_cen u = true \/ g <> []) ->
    ph u (flat g ++ [HRto; AUsart; HTim]) (map SRx g ++ [ST15])
| ph_byte b g : tx_idle u -> u_rdr u = Some b -> u_rtof u = false -> u_det u = false -> u_uif u = false -> bytes (b :: g) ->
    ph u (AUsart :: flat g ++ [HRto; AUsart; HTim]) (map SRx (b :: g) ++ [ST15])
| ph_to : tx_idle u -> u_rdr u = None -> u_rtof u = true -> u_det u = false -> u_uif u = false -> u_cen u = true -> ph u [AUsart; HTim] [ST15]
| ph_tim : tx_idle u -> u_rdr u = None -> u_rtof u = true -> u_det u = true -> u_uif u = false -> u_cen u = true -> ph u [HTim] []
| ph_uif : tx_idle u -> u_rdr u = None -> u_rtof u = true -> u_det u = true -> u_uif u = true -> u_cen u = false -> ph u [] [].

Definition arrives (c : cfg) (y : sys) : Prop := early c (y_lib y) /\ y_sub y = None /\ 0 <= u_cur (y_u y) /\ u_last (y_u y) <= 254.
Definition same_tx (u u' : uart) : Prop := u_cur u' = u_cur u /\ u_last u' = u_last u.

Lemma arrive_main c y : cfg_tables_ok c -> arrives c y -> exists y' t, y_act c AMain y = Ok (y', t) /\ arrives c y' /\ y_u y' = y_u y /\ on_line t = [] /\
  s_run c [SStep] (y_lib y) = Ok (y_lib y', lib_of t).
Proof.
  intros Hc (H & P & U). cbn [y_act]. rewrite P. destruct (early_step c _ Hc H) as (k' & o & E & H' & NP). rewrite E. cbn [bind].
  do 2 eexists. split; [reflexivity|]. split; [|split; [reflexivity|split; [apply on_line_lib|]]].
  - split; auto. split; auto. cbn [y_sub]. destruct (sc_pc (y_lib y)) as [[]|]; auto. congruence.
  - cbn [s_run]. rewrite E. cbn [bind]. now rewrite lib_of_lib, app_nil_r.
Qed.
Ltac ev c e k H := let k' := fresh "k" in let E := fresh "E" in let A := fresh "A" in
  destruct (early_event c e k H ltac:(discriminate)) as (k' & E & A); rewrite E; cbn [bind].
Lemma arrive_act c y a rem es : arrives c y -> ph (y_u y) (a :: rem) es ->
  exists y' t sched es', y_act c a y = Ok (y', t) /\ arrives c y' /\ same_tx (y_u y) (y_u y') /\ on_line t = [] /\ s_run c sched (y_lib y) = Ok (y_lib y', lib_of t) /\
    es = line_events (events sched) ++ es' /\ ph (y_u y') rem es'.
Proof.
  destruct y as [k u sub]. cbn [y_lib y_u y_sub]. intros (A & SU & U1 & U2) P. cbn [y_lib y_u y_sub] in *. subst sub. assert (HR : s_rx (sc_s k) = true) by apply A. assert (HS : s_sub (sc_s k) = true) by apply A.
  remember (a :: rem) as L eqn:EL.
  destruct P as [g [[Q1 Q2] Q3] HD HF HX HI HB HC|b g [[Q1 Q2] Q3] HD HF HX HI HB|[[Q1 Q2] Q3] HD HF HX HI HC|[[Q1 Q2] Q3] HD HF HX HI HC|[[Q1 Q2] Q3] HD HF HX HI HC]; [| | | |discriminate].
  - destruct g as [|b g]; cbn [flat flat_map app map] in *.
    + inversion EL; subst. cbn [y_act y_lib y_u y_sub]. do 2 eexists. exists [], [ST15]. split; [reflexivity|].
      split; [split; [|split]; auto|]. split; [split; reflexivity|]. split; auto. split; auto. split; auto. 
      apply ph_to; cbn; auto; [split; [split|]; cbn; auto|]. destruct HC as [HC|HC]; [exact HC|congruence].
    + inversion EL; subst. cbn [y_act y_lib y_u y_sub]. do 2 eexists. exists [], (map SRx (b :: g) ++ [ST15]). split; [reflexivity|].
      split; [split; [|split]; auto|]. split; [split; reflexivity|]. split; auto. split; auto. split; auto. 
      apply ph_byte; cbn; auto; [split; [split|]; cbn; auto|]. f_equal. inversion HB; subst. unfold byte in *. unfold u8. lia.
  - inversion EL; subst. cbn [y_act y_lib y_u y_sub]. unfold usart_pending. rewrite HD, HR. cbn [orb].
    unfold y_usart, y_usart_rx. rewrite HD, HR. ev c (SRx b) k A. rewrite HX. cbn [bind]. unfold y_usart_tx. cbn [u_tdr u_cur u_last]. rewrite Q1.
    assert (C : u_cur u <? u_last u = false) by lia. rewrite C. assert (HS1 : s_sub (sc_s k0) = true) by apply A0. rewrite HS1.
    ev c STxDone k0 A0. unfold y_usart_rto. cbn [u_rtof]. rewrite HF. cbn [bind]. do 2 eexists. exists [SEv (SRx b); SEv STxDone], (map SRx g ++ [ST15]).
    split; [reflexivity|]. split; [split; [|split]; auto|]. split; [split; reflexivity|]. split; auto. 
    split. { change [SEv (SRx b); SEv STxDone] with ([SEv (SRx b)] ++ [SEv STxDone]). rewrite run_app, (event_run c _ _ _ E). cbn [bind]. rewrite (event_run c _ _ _ E0). reflexivity. }
    split; [reflexivity|]. apply ph_rx; cbn; auto; [split; [split|]; cbn; auto|]. inversion HB; auto.
  - inversion EL; subst. cbn [y_act y_lib y_u y_sub]. unfold usart_pending. rewrite HD, HF, orb_true_r.
    unfold y_usart, y_usart_rx. rewrite HD. cbn [bind]. unfold y_usart_tx. rewrite Q1.
    assert (C : u_cur u <? u_last u = false) by lia. rewrite C, HS. ev c STxDone k A. unfold y_usart_rto. cbn [u_rtof]. rewrite HF.
    assert (HS1 : s_sub (sc_s k0) = true) by apply A0. rewrite HS1. ev c ST15 k0 A0.
    do 2 eexists. exists [SEv STxDone; SEv ST15], []. split; [reflexivity|]. split; [split; [|split]; auto|]. split; [split; reflexivity|]. split; auto.
    split. { change [SEv STxDone; SEv ST15] with ([SEv STxDone] ++ [SEv ST15]). rewrite run_app, (event_run c _ _ _ E). cbn [bind]. rewrite (event_run c _ _ _ E0). reflexivity. }
    split; [reflexivity|]. apply ph_tim; cbn; auto. split; [split|]; cbn; auto.
  - inversion EL; subst. cbn [y_act y_lib y_u y_sub]. rewrite HC. do 2 eexists. exists [], []. split; [reflexivity|].
    split; [split; [|split]; auto|]. split; [split; reflexivity|]. split; auto. split; auto. split; auto. apply ph_uif; cbn; auto. split; [split|]; cbn; auto.
Qed.
Lemma arrive_run c l rem : cfg_tables_ok c -> forall y es, arrives c y -> ph (y_u y) (no_main l ++ rem) es ->
  exists y' t sched es', y_run c l y = Ok (y', t) /\ arrives c y' /\ same_tx (y_u y) (y_u y') /\ on_line t = [] /\ s_run c sched (y_lib y) = Ok (y_lib y', lib_of t) /\
    es = line_events (events sched) ++ es' /\ ph (y_u y') rem es'.
Proof.
  intros Hc. induction l as [|a l IH]; intros y es A P.
  - exists y, [], [], es. cbn [y_run s_run]. split; auto. split; auto. split; [split; auto|]. auto.
  - assert (CASE : a = AMain \/ no_main (a :: l) = a :: no_main l) by (destruct a; auto). destruct CASE as [->|CA].
    + cbn [no_main filter] in P. destruct (arrive_main c y Hc A) as (y1 & t1 & E1 & A1 & U1 & O1 & S1).
      destruct (IH y1 es A1 ltac:(now rewrite U1)) as (y2 & t2 & sc & es2 & E2 & A2 & U2 & O2 & S2 & X2 & P2).
      exists y2, (t1 ++ t2), ([SStep] ++ sc), es2. cbn [y_run]. rewrite E1. cbn [bind]. rewrite E2. cbn [bind]. split; auto. split; auto. split; [rewrite <- U1; auto|].
      split; [rewrite on_line_app, O1, O2; auto|]. split; [|split; auto]. rewrite run_app, S1. cbn [bind]. rewrite S2. cbn [bind]. now rewrite lib_of_app.
    + rewrite CA in P. destruct (arrive_act c y a _ es A P) as (y1 & t1 & sc1 & es1 & E1 & A1 & U1 & O1 & S1 & X1 & P1).
      destruct (IH y1 es1 A1 P1) as (y2 & t2 & sc & es2 & E2 & A2 & U2 & O2 & S2 & X2 & P2).
      exists y2, (t1 ++ t2), (sc1 ++ sc), es2. cbn [y_run]. rewrite E1. cbn [bind]. rewrite E2. cbn [bind]. split; auto. split; auto. split; [unfold same_tx in *; destruct U1, U2; split; congruence|].
      split; [rewrite on_line_app, O1, O2; auto|]. split; [rewrite run_app, S1; cbn [bind]; rewrite S2; cbn [bind]; now rewrite lib_of_app|].
      split; auto. rewrite events_app. unfold line_events in *. rewrite filter_app, <- app_assoc. congruence.
Qed.

(** the time-out's interrupt handler once more, without the main program in between: nothing changes *)
Definition timed_out (y : sys) : Prop :=
  s_t15 (sc_s (y_lib y)) = SET /\ s_tx (sc_s (y_lib y)) = CLEARED /\ tx_idle (y_u y) /\ u_rdr (y_u y) = None /\ u_rtof (y_u y) = true /\ u_det (y_u y) = true.
Lemma event_same e k : (e = STxDone /\ s_tx (sc_s k) = CLEARED \/ e = ST15 /\ s_t15 (sc_s k) = SET) -> y_event e k = Ok k.
Proof.
  intros H. destruct k as [[a1 a2 a3 a4 a5 a6 a7 a8 a9 a10 a11 a12] pc]. unfold y_event. cbn [sc_s sc_pc s_tx s_t15] in *. destruct H as [[-> ->]|[-> ->]]; cbn; destruct a11; reflexivity.
Qed.
Lemma usart_same c y : arrives c y -> timed_out y -> exists t, y_act c AUsart y = Ok (y, t) /\ on_line t = [].
Proof.
  destruct y as [k u sub]. intros (A & _) (T1 & T2 & [[Q1 Q2] Q3] & HD & HF & HX). cbn [y_lib y_u y_sub] in *. cbn [y_act y_lib y_u y_sub].
  assert (HS : s_sub (sc_s k) = true) by apply A.
  unfold usart_pending. rewrite HF, orb_true_r. unfold y_usart, y_usart_rx. rewrite HD. cbn [bind]. unfold y_usart_tx. rewrite Q1.
  assert (C : u_cur u <? u_last u = false) by lia. rewrite C, HS. rewrite event_same by auto. cbn [bind]. unfold y_usart_rto. cbn [u_rtof]. rewrite HF, HS.
  rewrite event_same by auto. cbn [bind]. eexists. split; [destruct u; cbn in *; subst; reflexivity|reflexivity].
Qed.
Lemma rto_now c y es y' t : arrives c y -> ph (y_u y) [AUsart; HTim] es -> y_act c AUsart y = Ok (y', t) -> timed_out y'.
Proof.
  destruct y as [k u sub]. cbn [y_lib y_u y_sub]. intros (A & SU & U1 & U2) P E. cbn [y_lib y_u y_sub] in *.
  assert (HR : s_rx (sc_s k) = true) by apply A. assert (HS : s_sub (sc_s k) = true) by apply A.
  remember [AUsart; HTim] as L eqn:EL.
  destruct P as [g [[Q1 Q2] Q3] HD HF HX HI HB HC|b g [[Q1 Q2] Q3] HD HF HX HI HB|[[Q1 Q2] Q3] HD HF HX HI HC|[[Q1 Q2] Q3] HD HF HX HI HC|[[Q1 Q2] Q3] HD HF HX HI HC]; try discriminate.
  - destruct g; discriminate.
  - destruct g; discriminate.
  - cbn [y_act y_lib y_u y_sub] in E. revert E. unfold usart_pending. rewrite HD, HF, orb_true_r.
    unfold y_usart, y_usart_rx. rewrite HD. cbn [bind]. unfold y_usart_tx. rewrite Q1.
    assert (C : u_cur u <? u_last u = false) by lia. rewrite C, HS. unfold y_event at 1. cbn [s_event]. rewrite HS. cbn [bind]. unfold y_usart_rto. cbn [u_rtof sc_s]. rewrite HF. cbn [s_sub s_set_tx]. rewrite HS.
    unfold y_event. cbn [s_event sc_s s_sub s_set_tx]. rewrite HS. cbn [bind]. intros E. inversion E; subst. unfold timed_out, tx_idle, quiet. cbn. auto 10.
Qed.
Lemma tim_same c y y' t : timed_out y -> y_act c HTim y = Ok (y', t) -> timed_out y'.
Proof. intros H E. cbn [y_act] in E. destruct (u_cen (y_u y)); inversion E; subst; auto. Qed.
Lemma again_run c again rem : cfg_tables_ok c -> mains again = 0%nat -> forall y, arrives c y -> timed_out y -> ph (y_u y) (no_usart again ++ rem) [] ->
  exists y' t sched, y_run c again y = Ok (y', t) /\ arrives c y' /\ same_tx (y_u y) (y_u y') /\ on_line t = [] /\ (exists o, s_run c sched (y_lib y) = Ok (y_lib y', o)) /\
    line_events (events sched) = [] /\ ph (y_u y') rem [].
Proof.
  intros Hc. induction again as [|a l IH]; intros M y A T P.
  - exists y, [], []. cbn [y_run s_run]. split; auto. split; auto. split; [split; auto|]. split; auto. split; eauto.
  - assert (CASE : a = AUsart \/ no_usart (a :: l) = a :: no_usart l) by (destruct a; auto). destruct CASE as [->|CA].
    + destruct (usart_same c y A T) as (t1 & E1 & O1). destruct (IH M y A T P) as (y2 & t2 & sc & E2 & A2 & U2 & O2 & S2 & X2 & P2).
      exists y2, (t1 ++ t2), sc. cbn [y_run]. rewrite E1. cbn [bind]. rewrite E2. cbn [bind]. split; auto. split; auto. split; auto. split; [rewrite on_line_app, O1, O2; auto|]. auto.
    + rewrite CA in P. destruct (arrive_act c y a _ [] A P) as (y1 & t1 & sc1 & es1 & E1 & A1 & U1 & O1 & S1 & X1 & P1).
      symmetry in X1. apply app_eq_nil in X1 as [X1 ->].
      assert (TO : timed_out y1 /\ mains l = 0%nat).
      { destruct (no_usart l ++ rem) as [|z zs] eqn:Z in P, P1.
        - cbn [app] in P. rewrite Z in P. inversion P; subst; try (destruct g; discriminate). split; [eapply tim_same; eauto|]. destruct T; auto.
        - exfalso. cbn [app] in P. rewrite Z in P. inversion P; subst; try (destruct g; discriminate). }
      destruct TO as [TO M'].
      destruct (IH M' y1 A1 TO P1) as (y2 & t2 & sc & E2 & A2 & U2 & O2 & (o2 & S2) & X2 & P2).
      exists y2, (t1 ++ t2), (sc1 ++ sc). cbn [y_run]. rewrite E1. cbn [bind]. rewrite E2. cbn [bind]. split; auto. split; auto. split; [unfold same_tx in *; destruct U1, U2; split; congruence|].
      split; [rewrite on_line_app, O1, O2; auto|]. split; [rewrite run_app, S1; cbn [bind]; rewrite S2; cbn [bind]; eauto|].
      split; auto. rewrite events_app. unfold line_events in *. rewrite filter_app, X1, X2. reflexivity.
Qed.

Lemma rests_arrives c y : sys_rests c y -> arrives c y.
Proof.
  intros (I & P & HS & U1 & U2 & U3 & _). split; [|auto].
  assert (K : idle_clean c (y_lib y)) by (apply rests_clean; split; auto). destruct K as (R & B & L & A1 & A2 & A3 & A4).
  split; auto. split; auto. rewrite L. auto.
Qed.
Lemma no_main_app a b : no_main (a ++ b) = no_main a ++ no_main b.
Proof. apply filter_app. Qed.
Lemma no_usart_app a b : no_usart (a ++ b) = no_usart a ++ no_usart b.
Proof. apply filter_app. Qed.
Lemma no_main_id l : mains l = 0%nat -> no_main l = l.
Proof. induction l as [|[] l IH]; cbn; intros H; try discriminate; auto; f_equal; auto. Qed.
Lemma no_usart_id l : ~ In AUsart l -> no_usart l = l.
Proof. induction l as [|[] l IH]; cbn; intros H; auto; try (f_equal; apply IH; intros X; apply H; auto). exfalso. apply H. auto. Qed.
Lemma in_no_main a l : In a (no_main l) -> In a l.
Proof. intros H. apply filter_In in H. apply H. Qed.

Lemma early_run c sched : cfg_tables_ok c -> forall k k' o, early c k -> ~ In ST35 (events sched) -> s_run c sched k = Ok (k', o) -> sent o = [].
Proof.
  intros Hc. induction sched as [|a l IH]; intros k k' o A N E; cbn [s_run] in E.
  - inversion E; reflexivity.
  - destruct a as [|e].
    + destruct (early_step c k Hc A) as (k1 & o1 & E1 & A1 & NP). rewrite E1 in E. cbn [bind] in E. bnd E. inversion E; subst. rewrite sent_app, (IH _ _ _ A1 N Y), app_nil_r.
      cbn [s_act] in E1. destruct (sc_pc k) as [p|]; [|inversion E1; reflexivity]. bnd E1. inversion E1; subst. 
      destruct (line_sent _ _ _ _ _ _ Y0 ltac:(congruence) []) as (X & _). exact X.
    + cbn [events] in N. destruct (early_event c e k A) as (k1 & E1 & A1). { intros ->. apply N. left. auto. }
      cbn [s_act] in E. unfold y_event in E1. bnd E1. inversion E1; subst. cbn [bind] in E. bnd E. inversion E; subst. cbn [app sent].
      apply (IH _ _ _ A1) in Y0; auto. intros Q. apply N. right. auto.
Qed.
(** the receiver and the transmitter after a frame *)
Definition line_idle (u : uart) : Prop :=
  tx_idle u /\ u_rdr u = None /\ u_rtof u = false /\ u_det u = false /\ u_uif u = false /\ u_cen u = false /\ 0 <= u_cur u /\ u_last u <= 254.
Lemma frame_run c y f l : cfg_tables_ok c -> sys_rests c y -> f <> [] -> bytes f -> wire_frame f l ->
  exists y' t pre o, y_run c l y = Ok (y', t) /\ on_line t = [] /\ s_run c pre (y_lib y) = Ok (y_lib y', o) /\ arrival (map SRx f) (events pre) /\
    sent o = [] /\ y_sub y' = None /\ line_idle (y_u y').
Proof.
  intros Hc K Hf Bf (l1 & again & l2 & -> & H1 & H2 & H3 & H4). assert (A := rests_arrives c y K).
  destruct K as (_ & _ & _ & U1 & U2 & U3 & U4 & U5 & U6 & U7 & U8 & U9).
  assert (P : ph (y_u y) (no_main l1 ++ [AUsart; HTim]) (map SRx f ++ [ST15])).
  { rewrite H1, <- app_assoc. apply ph_rx; auto. split; [split|]; auto. }
  destruct (arrive_run c l1 _ Hc y _ A P) as (y1 & t1 & s1 & e1 & E1 & A1 & X1 & O1 & S1 & V1 & P1).
  destruct (arrive_act c y1 _ _ _ A1 P1) as (y2 & t2 & s2 & e2 & E2 & A2 & X2 & O2 & S2 & V2 & P2).
  assert (TO := rto_now _ _ _ _ _ A1 P1 E2).
  assert (e2 = []) by (inversion P2; subst; auto; destruct g; discriminate). subst e2.
  rewrite no_main_app, no_usart_app, (no_main_id again), (no_usart_id (no_main l2)) in H4 by (auto; intros Q; apply H3; now apply in_no_main).
  destruct (again_run c again (no_main l2) Hc H2 y2 A2 TO ltac:(now rewrite H4)) as (y3 & t3 & s3 & E3 & A3 & X3 & O3 & (o3 & S3) & V3 & P3).
  rewrite <- (app_nil_r (no_main l2)) in P3.
  destruct (arrive_run c l2 _ Hc y3 _ A3 P3) as (y4 & t4 & s4 & e4 & E4 & A4 & X4 & O4 & S4 & V4 & P4).
  assert (e4 = [] /\ line_events (events s4) = []) as [-> V5] by (symmetry in V4; apply app_eq_nil in V4; tauto).
  assert (Q4 : u_uif (y_u y4) = true /\ tx_idle (y_u y4) /\ u_rdr (y_u y4) = None /\ u_cen (y_u y4) = false).
  { remember [] as z eqn:Z in P4 at 1. destruct P4; try (destruct g; discriminate); try discriminate; auto. }
  destruct Q4 as (Q1 & [[Q2 Q3] Q4] & Q5 & Q6). destruct A4 as (A4 & SU & C1 & C2).
  assert (HS : s_sub (sc_s (y_lib y4)) = true) by apply A4.
  assert (R4 : slave_ready c (sc_s (y_lib y4))) by apply A4.
  destruct (y_event_ok c ST35 (y_lib y4) R4) as (k5 & E5 & R5).
  assert (AR : s_run c (s1 ++ s2 ++ s3 ++ s4) (y_lib y) = Ok (y_lib y4, lib_of t1 ++ lib_of t2 ++ o3 ++ lib_of t4)).
  { rewrite run_app, S1. cbn [bind]. rewrite run_app, S2. cbn [bind]. rewrite run_app, S3. cbn [bind]. rewrite S4. reflexivity. }
  assert (LE : line_events (events (s1 ++ s2 ++ s3 ++ s4)) = map SRx f ++ [ST15]).
  { rewrite !events_app. unfold line_events in *. rewrite !filter_app, V3, V5, V1, V2, app_nil_r. cbn [app]. now rewrite !app_nil_r. }
  eexists (mk_sys k5 _ None), _, ((s1 ++ s2 ++ s3 ++ s4) ++ [SEv ST35]), _.
  split. { rewrite y_run_app, E1. cbn [bind y_run]. rewrite E2. cbn [bind]. rewrite y_run_app, E3. cbn [bind]. rewrite y_run_app, E4. cbn [bind y_run y_act].
    unfold y_timer. rewrite Q1, HS, E5. cbn [bind]. rewrite SU. reflexivity. }
  split. { rewrite !on_line_app, O1, O2, O3, O4. reflexivity. }
  split. { rewrite run_app, AR. cbn [bind]. rewrite (event_run c _ _ _ E5). cbn [bind y_lib]. reflexivity. }
  split. { rewrite events_app. exists (events (s1 ++ s2 ++ s3 ++ s4)). split; auto. }
  split. { rewrite sent_app. cbn [sent]. rewrite app_nil_r. apply (early_run c _ Hc _ _ _ (proj1 A)) in AR; auto.
    intros Q. assert (IN : In ST35 (map SRx f ++ [ST15])) by (rewrite <- LE; apply filter_In; auto). apply in_app_or in IN as [IN|[IN|[]]]; [|discriminate].
    apply in_map_iff in IN as (? & ? & _). discriminate. }
  split; auto. cbn [y_u]. unfold line_idle, tx_idle, quiet. cbn. auto 12.
Qed.
