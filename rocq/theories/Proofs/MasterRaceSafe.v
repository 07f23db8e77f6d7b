(** C108: no undefined behaviour, whatever happens between the load and the store of CR1. *)
From Verif Require Export Proofs.MasterRace.
From Verif Require Import Proofs.MasterInv Proofs.MasterHist Proofs.MasterTrace Proofs.MasterWire.

(** what the driver fetches lies in one of the request buffers *)
Definition in_row (c : cfg) (i : nat) : Prop := (i < Z.to_nat (c_queue c))%nat.
Definition fetch (c : cfg) (w : mfw) : Prop :=
  let u := w_u w in
  match w_sub w with
  | Some (W83 i n) => in_row c i /\ n <= 255
  | Some (W84 i n) => in_row c i /\ n <= 255 /\ u_cur u = 256 * Z.of_nat i
  | Some (W85 i) => in_row c i /\ u_cur u = 256 * Z.of_nat i /\ u_last u <= 256 * Z.of_nat i + 254
  | _ => u_last u <= u_cur u \/ exists i, in_row c i /\ 256 * Z.of_nat i <= u_cur u /\ u_last u <= 256 * Z.of_nat i + 254
  end.
Lemma Minv_row c t l s i : Minv c t l s -> in_row c i -> exists m, get_msg s i = Ok m /\ msg_ok m.
Proof.
  intros (fr & pe & ap & ep & v & I) H. assert (B := iv_buf _ _ _ _ _ _ _ _ _ I). destruct (nth_error (mm_msgs s) i) as [m|] eqn:N.
  - exists m. split; [now apply get_msg_some|]. eapply Forall_forall; [apply (mb_msgs _ _ _ _ _ B)|eapply nth_error_In; eauto].
  - apply nth_error_None in N. rewrite (mb_len _ _ _ _ _ B) in N. unfold in_row in H. lia.
Qed.
Lemma msg_rd m i : msg_ok m -> 0 <= i < 256 -> exists b, rd (m_req m) i = Ok b.
Proof. intros [(P & L & _) _] H. unfold rd. rewrite P. exists (nth (Z.to_nat i) (rr_buf (m_req m)) 0). apply aget_ok. lia. Qed.
Lemma row_byte c t l k p i : Minv c t l (mc_s k) -> in_row c i -> 256 * Z.of_nat i < p -> p <= 256 * Z.of_nat i + 255 -> exists b, req_byte k p = Ok b.
Proof.
  intros I H L1 L2. destruct (Minv_row _ _ _ _ _ I H) as (m & G & Hm). unfold req_byte. set (o := p - 256 * Z.of_nat i).
  assert (E : p = o + Z.of_nat i * 256) by (unfold o; lia). rewrite E, Z.mod_add, Z.div_add by lia. rewrite Z.mod_small, Z.div_small by (unfold o; lia). replace (o =? 0) with false by (unfold o; lia).
  rewrite Z.add_0_l, Nat2Z.id, G. cbn [bind]. apply msg_rd; auto. unfold o. lia.
Qed.
Lemma fetch_start c w : mfw_started c w -> fetch c w.
Proof. intros (_ & P & (HS & U1 & U2 & U3) & _). unfold fetch. rewrite HS. left. lia. Qed.
Lemma fetch_txeie c v w : fetch c w -> fetch c (with_txeie v w).
Proof. destruct w as [k [] sub]. exact (fun H => H). Qed.
Lemma rx_cur c k u k' u' t : w_usart_rx c k u = Ok (k', u', t) -> u_cur u' = u_cur u /\ u_last u' = u_last u /\ u_tdr u' = u_tdr u.
Proof.
  unfold w_usart_rx. intros E. destruct (u_rdr u); [|inversion E; auto]. destruct (mm_rx _); [|discriminate]. bnd E. destruct (u_det u); [destruct (mm_sub _); [|discriminate]; bnd E|]; inversion E; subst; auto.
Qed.
Lemma rto_cur c k u k' u' t : w_usart_rto c k u = Ok (k', u', t) -> u_cur u' = u_cur u /\ u_last u' = u_last u.
Proof. unfold w_usart_rto. intros E. destruct (u_rtof u); [|inversion E; auto]. destruct (mm_sub _); [bnd E|]; inversion E; subst; auto. Qed.
Lemma usart_cur c k u k' u' t : w_usart c k u = Ok (k', u', t) -> (u_cur u' = u_cur u \/ u_cur u < u_last u /\ u_cur u' = u_cur u + 1) /\ u_last u' = u_last u.
Proof.
  unfold w_usart. intros E. destruct (w_usart_rx c k u) as [[[k1 u1] t1]| |] eqn:E1; try discriminate E. cbn [bind] in E. destruct (w_usart_tx c k1 u1) as [[[k2 u2] t2]| |] eqn:E2; try discriminate E. cbn [bind] in E.
  destruct (w_usart_rto c k2 u2) as [[[k3 u3] t3]| |] eqn:E3; try discriminate E. cbn [bind] in E. inversion E; subst k' u' t. destruct (rx_cur _ _ _ _ _ _ E1) as (A1 & A2 & _). destruct (rto_cur _ _ _ _ _ _ E3) as (A3 & A4).
  rewrite A3, A4, <- A1, <- A2. unfold w_usart_tx in E2. destruct (u_tdr u1); [inversion E2; subst; auto|]. destruct (u_cur u1 <? u_last u1) eqn:C.
  - destruct (req_byte k1 _); try discriminate E2. cbn [bind] in E2. inversion E2; subst. cbn [u_cur u_last]. split; [right; split; [lia|reflexivity]|reflexivity].
  - destruct (mm_sub _); [|discriminate E2]. destruct (w_event c MTxDone k1) as [[? ?]| |]; try discriminate E2. cbn [bind] in E2. inversion E2; subst. auto.
Qed.
Lemma fetch_act c t w x w' t' : Minv c t (mloc (w_lib w)) (mc_s (w_lib w)) -> fetch c w -> (x = WUsart -> in_send (w_sub w) = false) -> w_act c x w = Ok (w', t') -> fetch c w'.
Proof.
  intros I F HS E. destruct w as [k u sub]. cbn [w_lib w_u w_sub] in *. destruct x; cbn [w_act w_lib w_u w_sub] in E.
  - destruct sub as [p|].
    + bnd E. inversion E; subst. clear E. unfold fetch in *. cbn [w_sub w_u] in *. destruct p as [i n|i n|i| | | |]; cbn [w_send_line] in Y.
      * inversion Y; subst. cbn. tauto.
      * inversion Y; subst. cbn. destruct F as (A & B & C). split; [auto|]. split; [auto|lia].
      * bnd Y. bnd Y. inversion Y; subst. cbn. right. exists i. destruct F as (A & B & C). split; [auto|]. split; [lia|auto].
      * inversion Y; subst. exact F.
      * inversion Y; subst. exact F.
      * inversion Y; subst. exact F.
      * inversion Y; subst. exact F.
    + bnd E. bnd E. inversion E; subst. clear E. unfold fetch in *. cbn [w_sub w_u] in *.
      destruct (mc_pc k) as [[]|]; try (inversion Y0; subst; exact F). unfold w_call_send in Y0. bnd Y0. inversion Y0; subst. destruct (_ && _); [|exact F].
      apply cur_msg_inv in Y1 as (_ & N). destruct I as (fr & pe & ap & ep & v & I). assert (B := iv_buf _ _ _ _ _ _ _ _ _ I).
      assert (M : msg_ok m0) by (eapply Forall_forall; [apply (mb_msgs _ _ _ _ _ B)|eapply nth_error_In; eauto]). destruct M as [(_ & _ & _ & L) _]. unfold byte in L. split; [|lia].
      unfold in_row. rewrite <- (mb_len _ _ _ _ _ B). apply nth_error_Some. congruence.
  - destruct (w_pending k u); [|inversion E; subst; exact F]. specialize (HS eq_refl). destruct (w_usart c k u) as [[[k9 u9] t9]| |] eqn:Y; try discriminate E. cbn [bind] in E. inversion E; subst w'. clear E.
    destruct (usart_cur _ _ _ _ _ _ Y) as (D & E2). unfold fetch in *. cbn [w_sub w_u] in *. rewrite E2.
    destruct sub as [[i n|i n|i| | | |]|]; try discriminate HS; (destruct D as [D|(D & D')]; [rewrite D; exact F|]; destruct F as [F|(i & B1 & B2 & B3)]; [lia|right; exists i; split; [auto|lia]]).
  - bnd E. inversion E; subst. unfold w_timer in Y. destruct (u_uif u); [|inversion Y; subst; exact F]. destruct (mm_sub _); [|discriminate]. bnd Y. inversion Y; subst. exact F.
  - bnd E. inversion E; subst. exact F.
  - bnd E. inversion E; subst. exact F.
  - inversion E; subst. exact F.
  - destruct (u_tdr u); inversion E; subst; exact F.
  - inversion E; subst. exact F.
  - destruct (u_cen u); inversion E; subst; exact F.
Qed.
Lemma fetch_total c w tr x : cfg_master_ok c -> cinv c tr (mloc (w_lib w)) (mc_s (w_lib w)) -> polite tr -> fetch c w -> rx_given w ->
  (forall q, x = WReq q -> req_safe q) -> (x = WUsart -> in_send (w_sub w) = false) -> exists w' t', w_act c x w = Ok (w', t').
Proof.
  intros Hc CI P W G HR HS. assert (I := ci_inv _ _ _ _ CI). assert (K := Minv_ctl _ _ _ _ I). destruct w as [k u sub]. cbn [w_lib w_u w_sub] in *.
  destruct x; cbn [w_act w_lib w_u w_sub].
  - destruct sub as [p|].
    + destruct p as [i n|i n|i| | | |]; cbn [w_send_line bind]; eauto. destruct W as (A1 & _ & _). destruct (Minv_row _ _ _ _ _ I A1) as (m & Gm & Hm). rewrite Gm. cbn [bind].
      destruct (msg_rd m 0 Hm ltac:(lia)) as (b & F). rewrite F. cbn [bind]. eauto.
    + assert (X : exists k' o, m_act c MStep k = Ok (k', o)).
      { cbn [m_act]. unfold mloc in CI, I. destruct (mc_pc k) as [l|] eqn:PC; [|eauto]. destruct (m_line_total c tr l (mc_s k) I) as (l' & s' & o & E').
        { intros -> i a m C Cu N. eapply polite_delivered; eauto. }
        rewrite E'. cbn [bind]. eauto. }
      destruct X as (k' & o & ->). cbn [bind]. assert (X : exists p, (match mc_pc k with Some M404 => w_call_send k | _ => Ok None end) = Ok p).
      { destruct (mc_pc k) as [l|] eqn:PC; [|eauto]. destruct l; eauto. unfold mloc in I. rewrite PC in I. destruct (Minv_current _ _ _ _ I eq_refl) as (i & a & m1 & C & Cu & N & _).
        unfold w_call_send. assert (CM : cur_msg (mc_s k) = Ok (i, m1)) by (apply cur_msg_inv; auto). rewrite CM. cbn [bind]. eauto. }
      destruct X as (p & ->). cbn [bind]. eauto.
  - destruct (w_pending k u); [|eauto]. specialize (HS eq_refl).
    assert (X1 : exists k1 u1 t1, w_usart_rx c k u = Ok (k1, u1, t1) /\ Minv c (tr ++ m_lib_of t1) (mloc k1) (mc_s k1) /\ mm_sub (mc_s k1) = true).
    { unfold w_usart_rx. destruct (u_rdr u) as [b|] eqn:Q; [|do 3 eexists; split; [reflexivity|]; cbn; rewrite app_nil_r; split; auto; apply (mc_sub _ _ _ K)].
      destruct (mm_rx (mc_s k)) eqn:R; [|exfalso; apply G; cbn; congruence].
      destruct (w_event_total c _ k (MRx b) Hc I Logic.I) as (k1 & t1 & E1 & I1 & R1 & S1). rewrite E1. cbn [bind]. rewrite (mc_sub _ _ _ K).
      assert (S1' : mm_sub (mc_s k1) = true) by (rewrite S1; apply (mc_sub _ _ _ K)).
      destruct (u_det u); [|eauto 10].
      destruct (w_event_total c _ k1 MFrameErr Hc I1 Logic.I) as (k2 & t2 & E2 & I2 & R2 & S2). rewrite E2. cbn [bind]. do 3 eexists. split; [reflexivity|].
      rewrite m_lib_of_app, app_assoc. split; auto. congruence. }
    destruct X1 as (k1 & u1 & t1 & E1 & I1 & S1). unfold w_usart. rewrite E1. cbn [bind]. destruct (rx_cur _ _ _ _ _ _ E1) as (C1 & C2 & _).
    assert (X2 : exists k2 u2 t2, w_usart_tx c k1 u1 = Ok (k2, u2, t2) /\ Minv c ((tr ++ m_lib_of t1) ++ m_lib_of t2) (mloc k2) (mc_s k2) /\ mm_sub (mc_s k2) = true).
    { unfold w_usart_tx. destruct (u_tdr u1) as [b|] eqn:Q; [do 3 eexists; split; [reflexivity|]; cbn [m_lib_of flat_map]; rewrite app_nil_r; split; auto|].
      destruct (u_cur u1 <? u_last u1) eqn:C.
      - assert (X : exists b, req_byte k1 (u_cur u1 + 1) = Ok b).
        { rewrite C1, C2 in *. unfold fetch in W. cbn [w_sub w_u] in W. destruct sub as [[i n|i n|i| | | |]|]; try discriminate HS; (destruct W as [W|(i & B1 & B2 & B3)]; [lia|]; eapply row_byte; [exact I1|exact B1|lia|lia]). }
        destruct X as (b & F). rewrite F. cbn [bind]. do 3 eexists. split; [reflexivity|]. cbn [m_lib_of flat_map]. rewrite app_nil_r. auto.
      - rewrite S1. destruct (w_event_total c _ k1 MTxDone Hc I1 Logic.I) as (k2 & t2 & E2 & I2 & R2 & S2). rewrite E2. cbn [bind]. do 3 eexists. split; [reflexivity|]. split; auto. congruence. }
    destruct X2 as (k2 & u2 & t2 & E2 & I2 & S2). rewrite E2. cbn [bind].
    assert (X3 : exists k3 u3 t3, w_usart_rto c k2 u2 = Ok (k3, u3, t3)).
    { unfold w_usart_rto. destruct (u_rtof u2); [|eauto]. rewrite S2. destruct (w_event_total c _ k2 MT15 Hc I2 Logic.I) as (k3 & t3 & E3 & _). rewrite E3. cbn [bind]. eauto. }
    destruct X3 as (k3 & u3 & t3 & E3). rewrite E3. cbn [bind]. eauto.
  - unfold w_timer. destruct (u_uif u); [|cbn [bind]; eauto]. rewrite (mc_sub _ _ _ K). destruct (w_event_total c _ k MT35 Hc I Logic.I) as (k1 & t1 & E1 & _). rewrite E1. cbn [bind]. eauto.
  - destruct (w_event_total c _ k MTick Hc I Logic.I) as (k1 & t1 & E1 & _). rewrite E1. cbn [bind]. eauto.
  - destruct (w_event_total c _ k (MReq a) Hc I) as (k1 & t1 & E1 & _). { cbn. auto. } rewrite E1. cbn [bind]. eauto.
  - eauto.
  - destruct (u_tdr u); eauto.
  - eauto.
  - destruct (u_cen u); eauto.
Qed.
(** *** segments *)
Lemma seg_given c w1 l : rx_given w1 -> forall w t, no_early_rx c w1 l -> w_run c l w1 = Ok (w, t) -> rx_given w.
Proof.
  intros G. induction l as [|x l IH] using rev_ind; intros w t HN R; [inversion R; subst; auto|]. destruct (w_snoc _ _ _ _ _ _ R) as (w2 & t1 & t2 & R2 & A & ->).
  eapply given_act; [eapply IH; [eapply always_app; eauto|exact R2]| |exact A]. intros b Hb. exact (HN l x [] w2 t1 eq_refl R2 b Hb).
Qed.
Section Seg.
Context (c : cfg) (w0 : mfw) (Hc : cfg_master_ok c) (HW : mfw_started c w0).
Context (xs : list xact) (w1 : mfw) (ta : list witem) (HR : forall a, In (XAct (WReq a)) xs -> req_safe a) (RX : x_run c xs w0 = Ok (w1, ta)).
Lemma seg_cinv l w t : w_reqs_safe l -> w_run c l w1 = Ok (w, t) -> cinv c (m_lib_of ta ++ m_lib_of t) (mloc (w_lib w)) (mc_s (w_lib w)).
Proof.
  intros HL R. assert (X : x_run c (xs ++ map XAct l) w0 = Ok (w, ta ++ t)) by (rewrite x_run_app, RX; cbn [bind]; rewrite x_run_acts, R; reflexivity).
  assert (X2 : exists sched, m_history c sched (w_lib w) (m_lib_of (ta ++ t))); [eapply x_history; [exact HW| |exact X]|destruct X2 as (sched & H)].
  - intros a I. apply in_app_or in I as [I|I]; [auto|]. apply in_map_iff in I as (y & E & I). inversion E; subst. now apply HL.
  - rewrite m_lib_of_app in H. eapply history_cinv; eauto.
Qed.
Lemma seg_fetch l : fetch c w1 -> forall w t, w_reqs_safe l -> m_send_undisturbed c w1 l -> w_run c l w1 = Ok (w, t) -> fetch c w.
Proof.
  intros F. induction l as [|x l IH] using rev_ind; intros w t HL HU R; [inversion R; subst; auto|]. destruct (w_snoc _ _ _ _ _ _ R) as (w2 & t1 & t2 & R2 & A & ->).
  assert (HL' := safe_app _ _ HL). eapply fetch_act; [exact (ci_inv _ _ _ _ (seg_cinv l w2 t1 HL' R2))|eapply IH; eauto; eapply always_app; exact HU| |exact A].
  intros E. eapply undisturbed_at; eauto.
Qed.
End Seg.
Section Safe.
Context (c : cfg) (h0 : hfw).
Definition pol (L : list mitem) (h1 : hfw) (fs : list hact) : Prop := forall f1 f2 h2 u, fs = f1 ++ f2 -> h_run c f1 h1 = Ok (h2, u) -> polite (L ++ m_lib_of u).
Inductive rsafe (h : hfw) (t : list witem) : Prop :=
| mk_rsafe xs h1 ta fs tb : x_run c xs (h_fw h0) = Ok (h_fw h1, ta) -> (forall a, In (XAct (WReq a)) xs -> req_safe a) -> fetch c (h_fw h1) -> rx_given (h_fw h1) ->
    h_run c fs h1 = Ok (h, tb) -> inv c h1 fs h tb -> side h -> m_lib_of t = m_lib_of ta ++ m_lib_of tb ->
    h_reqs_safe fs -> h_send_undisturbed c h1 fs -> h_no_early_rx c h1 fs -> pol (m_lib_of ta) h1 fs -> rsafe h t.
Lemma always_snoc h1 fs a h tb (P : hact -> hfw -> Prop) : h_run c fs h1 = Ok (h, tb) -> h_always c h1 fs (fun x h _ => P x h) -> P a h -> h_always c h1 (fs ++ [a]) (fun x h _ => P x h).
Proof.
  intros R H Pa l1 x l2 h2 t2 E R2. destruct l2 as [|y l2] using rev_ind.
  - apply app_inj_tail in E as (-> & <-). rewrite R in R2. inversion R2; subst. exact Pa.
  - clear IHl2. rewrite app_comm_cons, app_assoc in E. apply app_inj_tail in E as (E & _). eapply H; eauto.
Qed.
Lemma safe_run : cfg_master_ok c -> hfw_started c h0 -> forall l, h_reqs_safe l -> h_send_undisturbed c h0 l -> h_no_early_rx c h0 l -> h_polite c h0 l ->
  exists h t, h_run c l h0 = Ok (h, t) /\ rsafe h t.
Proof.
  intros Hc HS. assert (HW := proj1 HS). destruct (started_side c h0 HS) as (S0 & Q0). induction l as [|a l IH] using rev_ind; intros HR HU HN HP.
  - exists h0, []. split; [reflexivity|]. apply (mk_rsafe h0 [] [] h0 [] [] []); auto; try (intros ? ?; contradiction); try (intros l1 x l2 h2 t2 E; destruct l1; discriminate E).
    + now apply fetch_start.
    + exact (proj2 (proj2 (proj2 HW))).
    + eapply inv_free with (ws := []) (t' := []); auto; [constructor|]. intros l1 x l2 w1 t1 E. destruct l1; discriminate.
  - destruct IH as (h & t & R & [xs h1 ta fs tb Rx HRx Fe Gi Fi In Si Li HRf HUf HNf Pl]); [eapply h_safe_prefix; eauto|eapply always_prefix; exact HU|eapply always_prefix; exact HN|eapply polite_prefix; eauto|].
    assert (HRa : h_reqs_safe (fs ++ [a])) by (intros q I; apply in_app_or in I as [I|[I|[]]]; [auto|apply HR, in_or_app; right; now left]).
    assert (HUa : h_send_undisturbed c h1 (fs ++ [a])) by (eapply always_snoc; [exact Fi|exact HUf|exact (HU l a [] h t eq_refl R)]).
    assert (HNa : h_no_early_rx c h1 (fs ++ [a])) by (eapply always_snoc; [exact Fi|exact HNf|exact (HN l a [] h t eq_refl R)]).
    assert (Pa : pol (m_lib_of ta) h1 (fs ++ [a])).
    { intros f1 f2 h2 u E R2. destruct f2 as [|y f2] using rev_ind.
      - rewrite app_nil_r in E. subst f1. rewrite (h_run_snoc _ _ _ _ _ _ Fi) in R2. destruct (h_act c a h) as [[h3 t3]| |] eqn:St; try discriminate R2. cbn [bind] in R2. inversion R2; subst.
        assert (Rl : h_run c (l ++ [a]) h0 = Ok (h2, t ++ t3)) by (rewrite (h_run_snoc _ _ _ _ _ _ R), St; reflexivity).
        pose proof (HP (l ++ [a]) [] h2 (t ++ t3) ltac:(now rewrite app_nil_r) Rl) as X. rewrite m_lib_of_app, Li in X. rewrite m_lib_of_app, app_assoc. exact X.
      - clear IHf2. rewrite app_assoc in E. apply app_inj_tail in E as (E & _). eapply Pl; eauto. }
    assert (D : (a = HMain -> forall v, h_cr1 h = Some (E96s v) -> u_txeie (w_u (h_fw h)) = v) \/ a = HMain /\ no_handler h = false \/
      a = HMain /\ no_handler h = true /\ exists v, h_cr1 h = Some (E96s v) /\ u_txeie (w_u (h_fw h)) <> v).
    { destruct a; try (left; discriminate). destruct (no_handler h); [|auto]. destruct (h_cr1 h) as [[|v]|]; try (left; intros _ v'; discriminate). destruct (Bool.bool_dec (u_txeie (w_u (h_fw h))) v) as [E|E]; [left; intros _ v' X; inversion X; subst; auto|].
      right. right. eauto 6. }
    rewrite (h_run_snoc _ _ _ _ _ _ R). destruct D as [D|[(-> & D)|(-> & NH & v & C1 & D)]].
    + pose proof (sim_step c h1 fs h tb a Fi In Si D) as X.
      assert (F : forall r, fails c h1 (fs ++ [a]) r -> exists w t, r = Ok (w, t)).
      { intros r (l0 & x & w2 & t2 & R2 & E & A). assert (HL : w_reqs_safe (l0 ++ [x])) by (eapply fine_reqs_next; eauto).
        assert (U2 := fine_undisturbed _ _ _ _ A HUa). assert (N2 := fine_listens _ _ _ _ A HNa). assert (HL0 := safe_app _ _ HL).
        destruct (proj2 (A l0 x [] w2 t2 eq_refl R2)) as (f1 & f2 & h3 & u3 & Ef & Rf & Lf).
        rewrite <- E. eapply (fetch_total c w2 (m_lib_of ta ++ m_lib_of t2)); auto.
        - eapply seg_cinv; eauto.
        - rewrite <- Lf. eapply Pa; eauto.
        - eapply seg_fetch; eauto. eapply always_app; exact U2.
        - refine (seg_given c (h_fw h1) l0 Gi w2 t2 _ R2). eapply always_app; exact N2.
        - intros q ->. apply HL, in_or_app. right. now left.
        - intros Hx. eapply undisturbed_at; eauto. }
      destruct (h_act c a h) as [[h2 t2]| |] eqn:St; [|destruct (F _ X) as (? & ? & ?); discriminate..]. cbn [bind]. destruct X as (X1 & X2).
      exists h2, (t ++ t2). split; [reflexivity|]. apply (mk_rsafe h2 (t ++ t2) xs h1 ta (fs ++ [a]) (tb ++ t2)); auto.
      * rewrite (h_run_snoc _ _ _ _ _ _ Fi), St. reflexivity.
      * rewrite !m_lib_of_app, Li, app_assoc. reflexivity.
    + cbn [h_act]. rewrite D. cbn [bind]. exists h, (t ++ []). split; [reflexivity|]. apply (mk_rsafe h (t ++ []) xs h1 ta fs tb); auto. now rewrite app_nil_r.
    + assert (Q : h_irq h = None /\ h_tick h = None) by (unfold no_handler in NH; destruct (h_irq h), (h_tick h); try discriminate; auto). destruct Q as (Q1 & Q2).
      cbn [h_act]. rewrite NH, C1. cbn [bind]. destruct In as [ws t' _ Rw Lw Ow Mw A|]; [|congruence].
      set (h' := mk_hfw _ true None None None). assert (F : h_fw h' = with_txeie v (h_fw h)) by reflexivity.
      assert (HL : w_reqs_safe ws) by exact (fine_reqs c h1 fs ws _ _ HRf A Rw).
      exists h', (t ++ []). split; [reflexivity|]. apply (mk_rsafe h' (t ++ []) (xs ++ map XAct ws ++ [XCr1 v]) h' (ta ++ t') [] []); auto; try (intros ? ?; contradiction); try (intros l1 x l2 h2 t2 E; destruct l1; discriminate E).
      * rewrite x_run_app, Rx. cbn [bind]. rewrite x_run_app, x_run_acts, Rw. cbn [bind x_run]. rewrite app_nil_r, F. reflexivity.
      * intros q I. apply in_app_or in I as [I|I]; [auto|]. apply in_app_or in I as [I|[I|[]]]; [|discriminate]. apply in_map_iff in I as (y & E & I). inversion E; subst. now apply HL.
      * rewrite F. apply fetch_txeie. eapply (seg_fetch c (h_fw h0) Hc HW xs); eauto. exact (fine_undisturbed c h1 fs ws A HUf).
      * rewrite F. assert (G : rx_given (h_fw h)) by (refine (seg_given c (h_fw h1) ws Gi (h_fw h) t' _ Rw); exact (fine_listens c h1 fs ws A HNf)). exact G.
      * eapply inv_free with (ws := []) (t' := []); auto; [constructor|]. intros l1 x l2 w1 u1 E. destruct l1; discriminate.
      * destruct Si as (Si & _). split; cbn [h_rxne h_cr1 h_tick h_fw h' w_lib]; auto. intros _. apply Si. right. congruence.
      * rewrite app_nil_r, m_lib_of_app, Lw, Li. cbn. now rewrite app_nil_r.
      * intros f1 f2 h2 u E R2. destruct f1; [|discriminate]. inversion R2; subst. cbn. rewrite app_nil_r, m_lib_of_app, Lw, <- Li. exact (HP l [HMain] h t eq_refl R).
Qed.
End Safe.
(** a handler that has been started returns *)
Lemma race_returns c h0 fs h t : cfg_master_ok c -> hfw_started c h0 -> h_reqs_safe fs -> h_send_undisturbed c h0 fs -> h_no_early_rx c h0 fs ->
  h_polite c h0 (fs ++ repeat HStep 17) -> h_run c fs h0 = Ok (h, t) ->
  exists n h' t', (n <= 17)%nat /\ h_run c (fs ++ repeat HStep n) h0 = Ok (h', t') /\ h_irq h' = None.
Proof.
  intros Hc HS HR HU HN HP R.
  assert (G : forall m n h t, (rk (h_irq h) <= m)%nat -> (n + m <= 17)%nat -> h_run c (fs ++ repeat HStep n) h0 = Ok (h, t) ->
     exists n h' t', (n <= 17)%nat /\ h_run c (fs ++ repeat HStep n) h0 = Ok (h', t') /\ h_irq h' = None).
  { induction m as [|m IH]; intros n h1 t1 K L E.
    - exists n, h1, t1. split; [lia|]. split; auto. destruct (h_irq h1) as [p|]; auto. exfalso. destruct p; cbn in K; lia.
    - destruct (h_irq h1) as [p|] eqn:Q.
      2:{ exists n, h1, t1. split; [lia|]. auto. }
      destruct (safe_run c h0 Hc HS (fs ++ repeat HStep (S n))) as (h2 & t2 & E2 & _).
      + intros a I. apply in_app_or in I as [I|I]; auto. apply repeat_spec in I. discriminate.
      + apply always_steps; auto. discriminate.
      + apply always_steps; auto. discriminate.
      + replace 17%nat with (S n + (16 - n))%nat in HP by lia. rewrite repeat_app, app_assoc in HP. exact (polite_prefix _ _ _ _ HP).
      + apply (IH (S n) h2 t2); auto; [|lia]. replace (repeat HStep (S n)) with (repeat HStep n ++ [HStep]) in E2 by (rewrite <- repeat_cons; reflexivity).
        rewrite app_assoc, (h_run_snoc _ _ _ _ _ _ E) in E2. cbn [h_act] in E2. rewrite Q in E2. destruct (h_line c p (w_lib (h_fw h1)) (w_u (h_fw h1))) as [[[[p' k'] u'] t']| |] eqn:El; try discriminate E2.
        cbn [bind] in E2. inversion E2; subst. cbn [h_irq]. apply line_rank in El. lia. }
  apply (G 17%nat 0%nat h t); auto using rk_max. cbn [repeat]. now rewrite app_nil_r.
Qed.

