(** The slave firmware: the bytes on the line. *)
From Verif Require Export Proofs.SlaveSystem.

Definition resp_buf (y : sys) : list Z := rr_buf (m_resp (s_msg (sc_s (y_lib y)))).
Definition opt (o : option Z) : list Z := match o with Some b => [b] | None => [] end.
Definition rest (u : uart) (buf : list Z) : list Z := opt (u_tdr u) ++ skipn (Z.to_nat (u_cur u + 1)) (firstn (Z.to_nat (u_last u + 1)) buf).
Definition quiet (u : uart) : Prop := u_tdr u = None /\ u_last u <= u_cur u.
Definition out_loc (l : spc) (s : slave) : Prop :=
  match l with L198 => True | L199 | L200 | L216 => s_tx s = SET | _ => False end.
Definition calls (y : sys) : Prop := sc_pc (y_lib y) = Some L198.

Definition wire (t : list yitem) (y : sys) : Prop :=
  let u := y_u y in let s := sc_s (y_lib y) in let tr := lib_of t in
  0 <= u_cur u /\ length (resp_buf y) = 256%nat /\
  match y_sub y with
  | Some (D85 n) => calls y /\ u_tdr u = None /\ 0 < n <= 255 /\ transmitting tr = true /\ u_txeie u = false /\
      on_line t ++ firstn (Z.to_nat n) (resp_buf y) = concat (sent tr)
  | Some (D86 n) => calls y /\ u_tdr u = None /\ 0 < n <= 255 /\ transmitting tr = true /\ u_txeie u = false /\ u_cur u = 0 /\
      on_line t ++ firstn (Z.to_nat n) (resp_buf y) = concat (sent tr)
  | Some D87 => calls y /\ u_tdr u = None /\ 0 <= u_last u <= 254 /\ transmitting tr = true /\ u_txeie u = false /\ u_cur u = 0 /\
      on_line t ++ firstn (Z.to_nat (u_last u + 1)) (resp_buf y) = concat (sent tr)
  | sub => (sub = Some D88 -> calls y) /\ u_last u <= 254 /\
      on_line t ++ rest u (resp_buf y) = concat (sent tr) /\
      (quiet u \/ out_loc (loc (y_lib y)) s /\ transmitting tr = true /\ (sub = Some D88 \/ u_txeie u = true)) /\
      (u_txeie u = true -> out_loc (loc (y_lib y)) s)
  end.

Lemma sent_snoc t x : sent (t ++ [x]) = sent t ++ match x with TOut (SoSend f) => [f] | _ => [] end.
Proof. rewrite sent_app. destruct x as [|[]]; reflexivity. Qed.
Lemma rest_quiet u buf : quiet u -> 0 <= u_cur u -> rest u buf = [].
Proof.
  intros [A B] C. unfold rest. rewrite A. cbn [opt app]. apply skipn_all2. rewrite firstn_length. lia.
Qed.
(** an event (not a send) leaves the transmitter alone *)
Lemma event_resp e s s' : s_event e s = Ok s' -> m_resp (s_msg s') = m_resp (s_msg s).
Proof.
  destruct e; cbn [s_event]; intros E; try (inversion E; destruct (s_sub s); reflexivity).
  - destruct (s_rx s); [|inversion E; auto]. destruct (wr _ _ _) as [r| |]; try discriminate. inversion E. reflexivity.
  - inversion E. destruct (_ && _ && _); reflexivity.
Qed.
Lemma event_loc e k k' : y_event e k = Ok k' -> loc k' = loc k /\ sc_pc k' = sc_pc k /\ m_resp (s_msg (sc_s k')) = m_resp (s_msg (sc_s k)).
Proof.
  unfold y_event. intros E. bnd E. inversion E; subst. cbn [sc_s sc_pc]. split; [|split; auto; eapply event_resp; eauto].
  unfold loc. cbn [sc_s sc_pc]. destruct (sc_pc k); auto. unfold s_dispatch. now rewrite (event_st _ _ _ Y).
Qed.
Lemma event_tx e k k' : y_event e k = Ok k' -> e <> STxDone -> s_tx (sc_s k') = s_tx (sc_s k).
Proof.
  unfold y_event. intros E H. bnd E. inversion E; subst. cbn [sc_s]. destruct e; try congruence; ev_inv Y; reflexivity.
Qed.
Lemma out_loc_tx l s s' : s_tx s' = s_tx s -> out_loc l s -> out_loc l s'.
Proof. intros E. destruct l; cbn; congruence. Qed.
Lemma tx_ev t e : e <> STxDone -> transmitting (t ++ [TEv e]) = transmitting t.
Proof. intros H. rewrite tx_snoc. destruct e; congruence. Qed.
Lemma lib1 t x : lib_of (t ++ [YLib x]) = lib_of t ++ [x].
Proof. now rewrite lib_of_app. Qed.
Lemma line1 t x : on_line (t ++ [YLib x]) = on_line t.
Proof. rewrite on_line_app. cbn. now rewrite app_nil_r. Qed.

(** events other than completion *)
Lemma wire_event t k u sub e k' : wire t (mk_sys k u sub) -> y_event e k = Ok k' -> e <> STxDone -> wire (t ++ [YLib (TEv e)]) (mk_sys k' u sub).
Proof.
  intros W E H. destruct (event_loc _ _ _ E) as (L & P & R). assert (X := event_tx _ _ _ E H).
  unfold wire, calls, resp_buf in *. cbn [y_lib y_u y_sub] in *. rewrite lib1, line1, sent_snoc, tx_ev by auto. rewrite L, P, R, app_nil_r.
  destruct W as (W1 & W2 & W3). split; auto. split; auto. destruct sub as [[n|n| |]|]; auto.
  - destruct W3 as (A1 & A2 & A3 & A4 & A5). split; auto. split; auto. split; auto. split; [destruct A4 as [A4|[A4 A6]]; auto; right; split; auto|]; eauto using out_loc_tx.
  - destruct W3 as (A1 & A2 & A3 & A4 & A5). split; auto. split; auto. split; auto. split; [destruct A4 as [A4|[A4 A6]]; auto; right; split; auto|]; eauto using out_loc_tx.
Qed.
(** changes of the receiver and the timer *)
Lemma wire_rx t k u sub det rdr rtof cen uif : wire t (mk_sys k u sub) ->
  wire t (mk_sys k (mk_uart (u_cur u) (u_last u) det (u_tdr u) rdr (u_txeie u) rtof cen uif) sub).
Proof. unfold wire, rest, quiet, calls, resp_buf. cbn [y_lib y_u y_sub u_cur u_last u_tdr u_txeie]. auto. Qed.
Definition in_send (p : option dpc) : bool := match p with Some (D85 _) | Some (D86 _) | Some D87 => true | _ => false end.
Lemma wire_usart_rx t k u sub k' u' t' : wire t (mk_sys k u sub) -> y_usart_rx k u = Ok (k', u', t') -> wire (t ++ t') (mk_sys k' u' sub).
Proof.
  unfold y_usart_rx. intros W E. destruct (u_rdr u) as [b|]; [|inversion E; subst; now rewrite app_nil_r].
  destruct (s_rx (sc_s k)); [|discriminate]. bnd E. assert (W1 := wire_event _ _ _ _ _ _ W Y ltac:(discriminate)). destruct (u_det u) eqn:Q.
  - destruct (s_sub (sc_s k)); [|discriminate]. bnd E. assert (W2 := wire_event _ _ _ _ _ _ W1 Y0 ltac:(discriminate)). inversion E; subst.
    rewrite <- app_assoc in W2. cbn [app] in W2. rewrite <- Q. apply wire_rx. exact W2.
  - inversion E; subst. rewrite <- Q. apply wire_rx. exact W1.
Qed.
Lemma wire_usart_rto t k u sub k' u' t' : wire t (mk_sys k u sub) -> y_usart_rto k u = Ok (k', u', t') -> wire (t ++ t') (mk_sys k' u' sub).
Proof.
  unfold y_usart_rto. intros W E. destruct (u_rtof u) eqn:Q; [|inversion E; subst; now rewrite app_nil_r].
  destruct (s_sub (sc_s k)).
  - bnd E. inversion E; subst. rewrite <- Q. apply wire_rx. eapply wire_event; eauto. discriminate.
  - inversion E; subst. rewrite app_nil_r, <- Q. now apply wire_rx.
Qed.
Lemma skipn_step {A} (l : list A) i d : (i < length l)%nat -> skipn i l = nth i l d :: skipn (i+1) l.
Proof.
  revert i. induction l as [|x l IH]; intros [|i] H; cbn [length] in *; try lia; cbn [skipn nth Nat.add]; auto. apply IH. lia.
Qed.
Lemma rd_val r i b : rd r i = Ok b -> 0 <= i -> b = nth (Z.to_nat i) (rr_buf r) 0.
Proof.
  unfold rd, aget. destruct (rr_ptr r); [|discriminate]. intros E H. destruct (i <? 0); try discriminate.
  destruct (nth_error _ _) eqn:N; inversion E; subst. symmetry. now apply nth_error_nth.
Qed.
Lemma wire_usart_tx t k u sub k' u' t' : wire t (mk_sys k u sub) -> in_send sub = false -> y_usart_tx k u = Ok (k', u', t') -> wire (t ++ t') (mk_sys k' u' sub).
Proof.
  unfold y_usart_tx. intros W HS E. destruct (u_tdr u) as [b|] eqn:Q; [inversion E; subst; now rewrite app_nil_r|].
  destruct (u_cur u <? u_last u) eqn:C.
  - bnd E. inversion E; subst. rewrite app_nil_r. destruct W as (W1 & W2 & W3). cbn [y_lib y_u y_sub] in *.
    assert (L4 : u_last u <= 254) by (destruct sub as [[n|n| |]|]; try discriminate HS; apply W3).
    apply rd_val in Y; [|lia]. split; [cbn [y_u u_cur]; lia|]. split; [exact W2|].
    assert (RE : rest (mk_uart (u_cur u + 1) (u_last u) (u_det u) (Some a) (u_rdr u) (u_txeie u) (u_rtof u) (u_cen u) (u_uif u)) (resp_buf (mk_sys k' u sub)) =
                 rest u (resp_buf (mk_sys k' u sub))).
    { unfold rest. cbn [u_tdr u_cur u_last]. rewrite Q. cbn [opt app]. rewrite (skipn_step _ (Z.to_nat (u_cur u + 1)) 0).
      2:{ rewrite firstn_length. unfold resp_buf in *. cbn [y_lib] in *. lia. }
      rewrite nth_firstn by lia. rewrite <- (Y : a = nth (Z.to_nat (u_cur u + 1)) (resp_buf (mk_sys k' u sub)) 0).
      f_equal. f_equal. lia. }
    change (resp_buf (mk_sys k' ?u1 sub)) with (resp_buf (mk_sys k' u sub)).
    destruct sub as [[n|n| |]|]; try discriminate HS; cbn [y_sub y_u y_lib u_cur u_last u_tdr u_txeie] in *; rewrite RE; clear RE;
    (destruct W3 as (A1 & A2 & A3 & A4 & A5); split; [exact A1|]; split; [exact A2|]; split; [exact A3|]; split; [|exact A5];
     right; destruct A4 as [[_ A4]|A4]; [lia|exact A4]).
  - destruct (s_sub (sc_s k)) eqn:HSub; [|discriminate]. bnd E. inversion E; subst.
    destruct (event_loc _ _ _ Y) as (L & P & R).
    destruct W as (W1 & W2 & W3). unfold calls, resp_buf in *. cbn [y_lib y_u y_sub] in *. split; [exact W1|].
    unfold calls, resp_buf. cbn [y_lib]. rewrite R. split; [exact W2|]. cbn [y_sub y_u u_last]. rewrite lib1, line1, sent_snoc, app_nil_r. rewrite P.
    assert (QU : quiet u) by (split; auto; lia).
    destruct sub as [[n|n| |]|]; try discriminate HS; rewrite rest_quiet in W3 by auto;
    (rewrite rest_quiet by (cbn [u_cur]; auto; split; cbn; auto; lia));
    (destruct W3 as (A1 & A2 & A3 & A4 & A5); split; [exact A1|]; split; [exact A2|]; split; [exact A3|]; split; [left; split; cbn; auto; lia|discriminate]).
Qed.
Lemma line_buf c l s l' s' o : s_line c l s = Ok (l', s', o) -> l <> L195 -> l <> L196 -> rr_buf (m_resp (s_msg s')) = rr_buf (m_resp (s_msg s)).
Proof. intros E H1 H2. destruct l; try congruence; line_inv E; reflexivity. Qed.
Lemma line_out c l s l' s' o : base l s -> s_line c l s = Ok (l', s', o) -> out_loc l s -> out_loc (next l' s') s'.
Proof.
  intros B E H. assert (BS := b_st _ _ B). destruct l; cbn [out_loc] in H; try easy; line_inv E; cbn [next out_loc]; prj; auto.
  - unfold s_dispatch. prj. rewrite BS. exact H.
  - rewrite H in X. discriminate.
  - unfold s_dispatch. rewrite BS. exact H.
Qed.
Lemma line_sent c l s l' s' o : s_line c l s = Ok (l', s', o) -> l <> L197 -> forall t, sent (t ++ map TOut o) = sent t /\ transmitting (t ++ map TOut o) = transmitting t.
Proof. intros E H t. destruct l; try congruence; line_inv E; cbn [map]; rewrite ?app_nil_r, ?sent_snoc, ?tx_snoc, ?app_nil_r; auto. Qed.
Definition not_line (t : list yitem) : Prop := on_line t = [].

Lemma wire_line c t k u k' t' : cfg_tables_ok c -> slave_ready c (sc_s k) -> base (loc k) (sc_s k) -> wire t (mk_sys k u None) -> s_act c SStep k = Ok (k', t') ->
  wire (t ++ map YLib t') (mk_sys k' u (match sc_pc k with Some L197 => call_send k | _ => None end)).
Proof.
  intros Hc R B W E. cbn [s_act] in E. destruct (sc_pc k) as [l|] eqn:P.
  2:{ inversion E; subst. cbn [map]. rewrite app_nil_r. destruct W as (W1 & W2 & W3). split; [exact W1|]. split; [exact W2|].
      cbn [y_sub y_lib y_u] in *. unfold loc in *. rewrite P in W3. cbn [sc_pc sc_s]. destruct W3 as (A1 & A2 & A3). split; [discriminate|]. auto. }
  assert (LK : loc k = l) by (unfold loc; now rewrite P). rewrite LK in B.
  destruct (line_ready c l _ Hc R) as (l2 & s2 & o2 & E2 & R' & _). rewrite E2 in E. cbn [bind] in E. inversion E; subst k' t'. clear E.
  assert (RB : length (rr_buf (m_resp (s_msg s2))) = 256%nat) by (apply R').
  assert (B' := base_line _ _ _ _ _ _ B E2).
  destruct W as (W1 & W2 & W3). cbn [y_sub y_lib y_u] in *. rewrite LK in W3. destruct W3 as (A1 & A2 & A3 & A4 & A5).
  assert (LK2 : loc (mk_sconf s2 l2) = next l2 s2) by reflexivity.
  assert (OL : on_line (t ++ map YLib (map TOut o2)) = on_line t) by (rewrite on_line_app, on_line_lib; apply app_nil_r).
  assert (LO : lib_of (t ++ map YLib (map TOut o2)) = lib_of t ++ map TOut o2) by (now rewrite lib_of_app, lib_of_lib).
  destruct (match l with L197 => true | _ => false end) eqn:C7.
  - destruct l; try discriminate C7. clear C7. cbn [out_loc] in *.
    assert (TE : u_txeie u = false) by (destruct (u_txeie u); auto; exfalso; auto).
    assert (QU : quiet u) by (destruct A4 as [|[[] _]]; auto). rewrite rest_quiet, app_nil_r in A3 by auto. destruct QU as [Q1 Q2].
    line_inv E2. cbn [map] in *. unfold call_send. destruct (rr_ptr (m_resp (s_msg (sc_s k)))) eqn:RP.
    2:{ destruct R as (_ & _ & _ & _ & _ & [_ (X1 & _)] & _). congruence. }
    assert (HB : 0 <= rr_len (m_resp (s_msg (sc_s k))) <= 255) by (destruct R as (_ & _ & _ & _ & _ & [_ (_ & _ & _ & X1)] & _); unfold byte in X1; lia).
    cbn [andb]. destruct (0 <? rr_len (m_resp (s_msg (sc_s k)))) eqn:HL.
    + split; [exact W1|]. split; [exact RB|]. cbn [y_sub y_u]. split; [reflexivity|]. split; auto. split; [lia|].
      rewrite LO, OL, tx_snoc, sent_snoc, concat_app, A3. cbn [concat]. rewrite app_nil_r. auto.
    + split; [exact W1|]. split; [exact RB|]. cbn [y_sub y_u y_lib]. split; [discriminate|]. split; auto.
      rewrite rest_quiet, app_nil_r by (auto; split; auto). rewrite LO, OL, sent_snoc, concat_app, A3. cbn [concat].
      replace (Z.to_nat (rr_len (m_resp (s_msg (sc_s k))))) with 0%nat by lia. cbn [firstn app]. rewrite !app_nil_r. split; auto. split; [left; split; auto|]. congruence.
  - assert (SUB : match Some l with Some L197 => call_send k | _ => None end = None) by (destruct l; auto; discriminate). rewrite SUB. clear SUB.
    destruct (line_sent _ _ _ _ _ _ E2 ltac:(intros ->; discriminate) (lib_of t)) as (S1 & S2).
    assert (OUT := line_out _ _ _ _ _ _ B E2).
    split; [exact W1|]. split; [exact RB|]. cbn [y_sub y_u y_lib sc_s]. split; [discriminate|]. split; auto. rewrite LO, OL, LK2, S1, S2.
    assert (BE : out_loc l (sc_s k) -> rr_buf (m_resp (s_msg s2)) = rr_buf (m_resp (s_msg (sc_s k)))).
    { intros O. apply (line_buf _ _ _ _ _ _ E2); intros ->; exact O. }
    split; [|split; [destruct A4 as [A4|(A4 & A6 & A7)]; [left; auto|right; auto]|auto]].
    rewrite <- A3. f_equal. destruct A4 as [A4|(A4 & _)].
    + now rewrite !rest_quiet.
    + unfold resp_buf. cbn [y_lib sc_s]. now rewrite BE.
Qed.
Lemma wire_act c a y y' t t' : cfg_tables_ok c -> slave_ready c (sc_s (y_lib y)) -> base (loc (y_lib y)) (sc_s (y_lib y)) -> wire t y ->
  (a = AUsart -> in_send (y_sub y) = false) -> y_act c a y = Ok (y', t') -> wire (t ++ t') y'.
Proof.
  intros Hc R B W HS E. destruct y as [k u sub]. cbn [y_lib y_u y_sub] in *. destruct a; cbn [y_act y_lib y_u y_sub] in E.
  - destruct sub as [p|].
    2:{ bnd E. inversion E; subst. eapply wire_line; eauto. }
    destruct W as (W1 & W2 & W3). cbn [y_lib y_u y_sub] in *. destruct p as [n|n| |]; cbn [send_line bind] in E.
    + inversion E; subst. rewrite app_nil_r. split; [cbn; lia|]. split; [exact W2|]. cbn [y_sub y_lib y_u u_tdr u_txeie u_cur]. unfold resp_buf, calls in *. cbn [y_lib] in *.
      destruct W3 as (A1 & A2 & A3 & A4 & A5 & A6). auto 10.
    + inversion E; subst. rewrite app_nil_r. destruct W3 as (A1 & A2 & A3 & A4 & A5 & A6 & A7). split; [cbn; lia|]. split; [exact W2|]. cbn [y_sub y_lib y_u u_tdr u_txeie u_cur u_last]. unfold resp_buf, calls in *. cbn [y_lib] in *.
      replace (n - 1 + 1) with n by lia. split; auto. split; auto. split; [lia|]. auto.
    + bnd E. bnd Y. inversion Y; subst. inversion E; subst. rename Y0 into Y1. clear Y. rename Y1 into Y. rewrite app_nil_r. destruct W3 as (A1 & A2 & A3 & A4 & A5 & A6 & A7). apply rd_val in Y; [|lia].
      split; [cbn; lia|]. split; [exact W2|]. cbn [y_sub y_lib y_u u_tdr u_txeie u_cur u_last]. unfold resp_buf, calls in *. cbn [y_lib] in *.
      split; auto. split; [lia|]. split; [|split; [right; unfold loc; rewrite A1; cbn; auto|intros X; congruence]].
      rewrite <- A7. f_equal. unfold rest. cbn [u_tdr u_cur u_last opt app]. rewrite A6. change (Z.to_nat (0 + 1)) with 1%nat.
      replace (Z.to_nat (u_last u + 1)) with (S (Z.to_nat (u_last u))) by lia. rewrite Y. destruct (rr_buf _) as [|x l0]; [cbn in W2; discriminate|reflexivity].
    + inversion E; subst. rewrite app_nil_r. destruct W3 as (A1 & A2 & A3 & A4 & A5). split; [exact W1|]. split; [exact W2|]. cbn [y_sub y_lib y_u u_tdr u_txeie u_cur u_last].
      unfold resp_buf, calls in *. cbn [y_lib] in *. assert (OL : out_loc (loc k) (sc_s k)) by (unfold loc; rewrite A1 by auto; exact Logic.I).
      split; [discriminate|]. split; auto. split; [exact A3|]. split; auto. destruct A4 as [A4|(A4 & A6 & A7)]; [left; exact A4|right; auto].
  - destruct (usart_pending k u); [|inversion E; subst; now rewrite app_nil_r]. bnd E. inversion E; subst. clear E.
    unfold y_usart in Y. bnd Y. bnd Y. bnd Y. inversion Y; subst. rewrite !app_assoc.
    eapply wire_usart_rto; [|eauto]. eapply wire_usart_tx; [|auto|eauto]. eapply wire_usart_rx; eauto.
  - bnd E. inversion E; subst. clear E. unfold y_timer in Y. destruct (u_uif u); [|inversion Y; subst; now rewrite app_nil_r].
    destruct (s_sub _); [|discriminate]. bnd Y. inversion Y; subst. apply wire_rx. eapply wire_event; eauto. discriminate.
  - bnd E. inversion E; subst. eapply wire_event; eauto. discriminate.
  - inversion E; subst. rewrite app_nil_r. now apply wire_rx.
  - destruct (u_tdr u) as [b|] eqn:Q; inversion E; subst; [|now rewrite app_nil_r].
    destruct W as (W1 & W2 & W3). split; [exact W1|]. split; [exact W2|]. cbn [y_sub y_lib y_u u_tdr u_txeie u_cur u_last] in *.
    rewrite lib_of_app, on_line_app. cbn [lib_of flat_map on_line app]. rewrite app_nil_r. unfold resp_buf, calls in *. cbn [y_lib] in *.
    destruct sub as [[n|n| |]|]; try (exfalso; destruct W3 as (A1 & A2 & A3); congruence).
    + destruct W3 as (A1 & A2 & A3 & A4 & A5). split; auto. split; auto. split; [rewrite <- A3, <- app_assoc; f_equal; unfold rest; cbn [u_tdr u_cur u_last opt app]; now rewrite Q|].
      split; auto. destruct A4 as [[A4 _]|A4]; [congruence|right; exact A4].
    + destruct W3 as (A1 & A2 & A3 & A4 & A5). split; auto. split; auto. split; [rewrite <- A3, <- app_assoc; f_equal; unfold rest; cbn [u_tdr u_cur u_last opt app]; now rewrite Q|].
      split; auto. destruct A4 as [[A4 _]|A4]; [congruence|right; exact A4].
  - inversion E; subst. rewrite app_nil_r. now apply wire_rx.
  - destruct (u_cen u); inversion E; subst; rewrite app_nil_r; auto.
Qed.
(** all together *)
Definition winv (c : cfg) (t : list yitem) (y : sys) : Prop :=
  sys_ok c y /\ base (loc (y_lib y)) (sc_s (y_lib y)) /\ wire t y.
Lemma base_run c sched k k' o : base (loc k) (sc_s k) -> s_run c sched k = Ok (k', o) -> base (loc k') (sc_s k').
Proof.
  intros H E. refine (abs_inv c (fun _ l s => base l s) _ _ sched [] k k' o H E).
  - intros. eapply base_line; eauto.
  - intros. eapply base_event; eauto.
Qed.
Lemma winv_act c a y y' t t' : cfg_tables_ok c -> winv c t y -> (a = AUsart -> in_send (y_sub y) = false) -> y_act c a y = Ok (y', t') -> winv c (t ++ t') y'.
Proof.
  intros Hc (K & B & W) HS E. destruct (act_ok c a y Hc K) as (y2 & t2 & E2 & K2). rewrite E in E2. inversion E2; subst y2 t2.
  split; auto. split; [|eapply wire_act; eauto; apply K]. destruct (act_piece _ _ _ _ _ E) as (sched & ES). eapply base_run; eauto.
Qed.
Lemma undisturbed_send c a l y : send_undisturbed c (a :: l) y -> a = AUsart -> in_send (y_sub y) = false.
Proof. intros [H _] E. specialize (H E). destruct (y_sub y) as [[]|]; auto; contradiction. Qed.
Lemma winv_run c l : cfg_tables_ok c -> forall y y' t t', winv c t y -> send_undisturbed c l y -> y_run c l y = Ok (y', t') -> winv c (t ++ t') y'.
Proof.
  intros Hc. induction l as [|a l IH]; intros y y' t t' W H E; cbn [y_run] in E.
  - inversion E; subst. now rewrite app_nil_r.
  - bnd E. bnd E. inversion E; subst. rewrite app_assoc. eapply IH; [|exact (proj2 H _ _ Y)|eauto]. eapply winv_act; eauto. eapply undisturbed_send; eauto.
Qed.
Lemma winv_start c y : sys_started c y -> winv c [] y.
Proof.
  intros H. split; [now apply started_ok|]. destruct H as ((R & A1 & A2 & A3 & A4 & A5 & A6) & P & U & HS). 
  assert (L : loc (y_lib y) = L164) by (unfold loc, s_dispatch; now rewrite P, A1). split.
  - rewrite L. destruct R as (R1 & R2 & R3 & R4 & _). constructor; auto; try discriminate; right; auto.
  - unfold wire. rewrite HS, U. cbn [u_cur u_last u_tdr u_txeie uart_init]. split; [lia|]. split; [apply R|]. split; [discriminate|]. split; [lia|]. 
    split; [rewrite rest_quiet; [reflexivity|split; cbn; auto; lia|cbn; lia]|]. split; [left; split; cbn; auto; lia|discriminate].
Qed.
(** what it says *)
Lemma wire_out t y : wire t y -> exists r, on_line t ++ r = concat (sent (lib_of t)) /\ (transmitting (lib_of t) = false -> r = []).
Proof.
  intros (W1 & W2 & W3). destruct (y_sub y) as [[n|n| |]|].
  - eexists. split; [apply W3|]. destruct W3 as (_ & _ & _ & X & _). congruence.
  - eexists. split; [apply W3|]. destruct W3 as (_ & _ & _ & X & _). congruence.
  - eexists. split; [apply W3|]. destruct W3 as (_ & _ & _ & X & _). congruence.
  - eexists. split; [apply W3|]. destruct W3 as (_ & _ & _ & [X|(_ & X & _)] & _); [|congruence]. intros _. now apply rest_quiet.
  - eexists. split; [apply W3|]. destruct W3 as (_ & _ & _ & [X|(_ & X & _)] & _); [|congruence]. intros _. now apply rest_quiet.
Qed.
