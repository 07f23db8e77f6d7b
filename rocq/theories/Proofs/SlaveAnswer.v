(** The slave firmware: the answer is put on the line. *)
From Verif Require Export Proofs.SlaveArrive.

Lemma runs_snoc c n k k1 o1 k2 o2 : s_run c (repeat SStep n) k = Ok (k1, o1) -> s_act c SStep k1 = Ok (k2, o2) -> s_run c (repeat SStep (S n)) k = Ok (k2, o1 ++ o2).
Proof.
  intros E1 E2. replace (repeat SStep (S n)) with (repeat SStep n ++ [SStep]).
  - rewrite run_app, E1. cbn [bind s_run]. rewrite E2. cbn [bind]. now rewrite app_nil_r.
  - change [SStep] with (repeat SStep 1). rewrite <- repeat_app. f_equal. lia.
Qed.
Lemma send_now c k k' o : sc_pc k = Some L197 -> s_act c SStep k = Ok (k', o) ->
  o = [TOut (SoSend (firstn (Z.to_nat (rr_len (m_resp (s_msg (sc_s k))))) (rr_buf (m_resp (s_msg (sc_s k))))))].
Proof. intros P E. cbn [s_act] in E. rewrite P in E. cbn [s_line] in E. destruct (s_mptr _ && s_drv _); [|discriminate]. inversion E; subst. reflexivity. Qed.
Lemma no_send c k k' o : sc_pc k <> Some L197 -> s_act c SStep k = Ok (k', o) -> sent o = [].
Proof.
  intros P E. cbn [s_act] in E. destruct (sc_pc k) as [l|]; [|inversion E; reflexivity]. bnd E. inversion E; subst.
  destruct (line_sent _ _ _ _ _ _ Y ltac:(congruence) []) as (X & _). exact X.
Qed.
Lemma pc_dec k : sc_pc k = Some L197 \/ sc_pc k <> Some L197.
Proof. destruct (sc_pc k) as [[]|]; auto; right; discriminate. Qed.
Lemma pc_sub k : sc_pc k <> Some L197 -> match sc_pc k with Some L197 => call_send k | _ => None end = None.
Proof. destruct (sc_pc k) as [[]|]; congruence. Qed.
Lemma on_line_snoc t x : on_line (t ++ [YLine x]) = on_line t ++ [x].
Proof. now rewrite on_line_app. Qed.
Lemma mains_app a b : mains (a ++ b) = (mains a + mains b)%nat.
Proof. unfold mains. rewrite filter_app, app_length. reflexivity. Qed.
Lemma shifts_app a b : shifts (a ++ b) = (shifts a + shifts b)%nat.
Proof. unfold shifts. rewrite filter_app, app_length. reflexivity. Qed.

Definition rx_idle (u : uart) : Prop := u_rdr u = None /\ u_rtof u = false /\ u_det u = false /\ u_uif u = false /\ u_cen u = false.

(** no answer is due *)
Section silence.
Context (c : cfg) (Hc : cfg_tables_ok c) (q1 : sconf) (u1 : uart).
Context (NS : forall i k o, s_run c (repeat SStep i) q1 = Ok (k, o) -> sent o = []).
Context (LI : line_idle u1) (RD : slave_ready c (sc_s q1)).
Definition D (m : nat) (y : sys) (t : list yitem) : Prop :=
  s_run c (repeat SStep m) q1 = Ok (y_lib y, lib_of t) /\ y_u y = u1 /\ y_sub y = None /\ on_line t = [].
Lemma D_act a m y t : tx_only a = true -> D m y t -> exists y' t', y_act c a y = Ok (y', t') /\ D (m + mains [a]) y' (t ++ t').
Proof.
  intros HA (R & U & SU & O). destruct LI as ([[Q1 Q2] Q3] & Q4 & Q5 & _). destruct a; try discriminate HA; cbn [y_act mains filter length].
  - rewrite SU. destruct (run_ready c (repeat SStep m) Hc q1 RD) as (k' & o' & E & R' & _). rewrite R in E. inversion E; subst k' o'. clear E.
    destruct (act_ready c SStep _ Hc R') as (k2 & o2 & E2 & _). rewrite E2. cbn [bind]. do 2 eexists. split; [reflexivity|].
    assert (RR := runs_snoc _ _ _ _ _ _ _ R E2). assert (NP : sc_pc (y_lib y) <> Some L197).
    { intros P. apply NS in RR. rewrite sent_app, (send_now _ _ _ _ P E2) in RR. cbn [sent] in RR. destruct (sent (lib_of t)); discriminate. }
    split; [cbn [y_lib]; rewrite lib_of_app, lib_of_lib; now replace (m + 1)%nat with (S m) by lia|]. split; auto. split; [apply pc_sub; auto|].
    rewrite on_line_app, on_line_lib, O. reflexivity.
  - unfold usart_pending. rewrite U, Q4, Q1, Q3, Q5. cbn [orb]. do 2 eexists. split; [reflexivity|]. rewrite app_nil_r, Nat.add_0_r. split; auto.
  - rewrite U, Q1. do 2 eexists. split; [reflexivity|]. rewrite app_nil_r, Nat.add_0_r. split; auto.
Qed.
Lemma D_run l : forall m y t, forallb tx_only l = true -> D m y t -> exists y' t', y_run c l y = Ok (y', t') /\ D (m + mains l) y' (t ++ t').
Proof.
  induction l as [|a l IH]; intros m y t HA H; cbn [y_run].
  - do 2 eexists. split; [reflexivity|]. rewrite app_nil_r, Nat.add_0_r. auto.
  - cbn [forallb] in HA. apply andb_prop in HA as [HA1 HA2]. destruct (D_act a m y t HA1 H) as (y1 & t1 & E1 & H1). rewrite E1. cbn [bind].
    destruct (IH _ _ _ HA2 H1) as (y2 & t2 & E2 & H2). rewrite E2. cbn [bind]. do 2 eexists. split; [reflexivity|].
    change (a :: l) with ([a] ++ l). rewrite mains_app, Nat.add_assoc, app_assoc. exact H2.
Qed.
End silence.

Section answer.
Context (c : cfg) (Hc : cfg_tables_ok c) (q1 : sconf) (ans : list Z).
Context (RD : slave_ready c (sc_s q1)) (AN : ans <> []).
Context (PF : forall i k o, s_run c (repeat SStep i) q1 = Ok (k, o) -> (sent o = [] /\ i < 16)%nat \/ sent o = [ans]).
Context (PF2 : forall i j k o, (16 <= i)%nat -> s_run c (repeat SStep i ++ SEv STxDone :: repeat SStep j) q1 = Ok (k, o) -> sent o = [ans]).

Definition dok (i d : nat) (sub : option dpc) (s : list (list Z)) : Prop :=
  match sub with
  | None => (d = 0%nat /\ s = []) \/ ((d <= 4)%nat /\ s = [ans])
  | Some p => s = [ans] /\ (i <= 16)%nat /\ d = match p with D85 _ => 0 | D86 _ => 1 | D87 => 2 | D88 => 3 end%nat
  end.
Definition len : Z := Z.of_nat (length ans).
Definition stage (sub : option dpc) (u : uart) (s : list (list Z)) : Prop :=
  match sub with
  | Some (D85 n) | Some (D86 n) => n = len /\ u_txeie u = false
  | Some D87 | Some D88 => u_last u + 1 = len /\ u_cur u <= u_last u /\ u_txeie u = false
  | None => (s = [] /\ u_txeie u = false /\ u_tdr u = None) \/ (s = [ans] /\ u_last u + 1 = len /\ u_cur u <= u_last u /\ u_txeie u = true)
  end.
Record U1 (m h : nat) (y : sys) (t : list yitem) : Prop := {
  x_run : exists i d, s_run c (repeat SStep i) q1 = Ok (y_lib y, lib_of t) /\ m = (i + d)%nat /\ dok i d (y_sub y) (sent (lib_of t));
  x_w : winv c t y; x_h : (length (on_line t) <= h)%nat; x_rx : rx_idle (y_u y); x_s : stage (y_sub y) (y_u y) (sent (lib_of t)) }.
Definition U2 (y : sys) (t : list yitem) : Prop :=
  (exists i j, (16 <= i)%nat /\ s_run c (repeat SStep i ++ SEv STxDone :: repeat SStep j) q1 = Ok (y_lib y, lib_of t)) /\
  on_line t = ans /\ y_sub y = None /\ line_idle (y_u y).

Lemma U1_main m h y t : U1 m h y t -> exists y' t', y_act c AMain y = Ok (y', t') /\ U1 (S m) h y' (t ++ t') /\ (y_sub y = None -> sent (lib_of t) = [ans] -> y_u y' = y_u y /\ y_sub y' = None).
Proof.
  intros [(i & d & R & M & DO) W H RX ST]. assert (OK := W). destruct OK as (OK & _). destruct (act_ok c AMain y Hc OK) as (y' & t' & E & OK').
  exists y', t'. split; auto. assert (W' := winv_act c AMain y y' t t' Hc W ltac:(discriminate) E).
  destruct y as [k u sub]. cbn [y_lib y_u y_sub] in *. cbn [y_act y_lib y_u y_sub] in E. destruct sub as [p|].
  - split; [|discriminate]. destruct DO as (D1 & D2 & D3). destruct W as (_ & _ & W). unfold wire in W. cbn [y_lib y_u y_sub] in W.
    destruct p as [n|n| |]; cbn [send_line bind] in E.
    + inversion E; subst. rewrite app_nil_r in *. constructor; cbn [y_lib y_u y_sub]; auto. exists i, 1%nat. split; auto. split; [lia|]. split; auto.
    + inversion E; subst. rewrite app_nil_r in *. destruct ST as [ST1 ST2]. destruct W as (_ & _ & _ & _ & W3 & _ & _ & W4 & _).
      constructor; cbn [y_lib y_u y_sub]; auto. { exists i, 2%nat. split; auto. split; [lia|]. split; auto. } split; cbn; [lia|]. split; [lia|]. auto.
    + bnd E. bnd Y. inversion Y; subst. inversion E; subst. rewrite app_nil_r in *.
      constructor; cbn [y_lib y_u y_sub]; auto. { exists i, 3%nat. split; auto. split; [lia|]. split; auto. }
    + inversion E; subst. rewrite app_nil_r in *. constructor; cbn [y_lib y_u y_sub]; auto.
      { exists i, 4%nat. split; auto. split; [lia|]. right. auto. } right. destruct ST as (ST1 & ST2 & ST3). auto.
  - bnd E. inversion E; subst. clear E. assert (RR := runs_snoc _ _ _ _ _ _ _ R Y).
    assert (LO : lib_of (t ++ map YLib l) = lib_of t ++ l) by (now rewrite lib_of_app, lib_of_lib).
    assert (OL : on_line (t ++ map YLib l) = on_line t) by (rewrite on_line_app, on_line_lib; apply app_nil_r).
    destruct (pc_dec k) as [P|P].
    + assert (SN := send_now _ _ _ _ P Y). assert (HP := PF _ _ _ RR). rewrite sent_app, SN in HP. cbn [sent] in HP.
      destruct DO as [[-> DO]|[_ DO]]; rewrite DO in HP; cbn [app] in HP. 2:{ destruct HP as [[HP _]|HP]; discriminate. }
      destruct HP as [[HP _]|HP]; [discriminate|]. injection HP as HP.
      split; [|congruence]. rewrite P in *. destruct ST as [(_ & ST1 & ST2)|(X & _)]; [|congruence].
      assert (BU : length (rr_buf (m_resp (s_msg (sc_s k)))) = 256%nat) by (destruct W as ((X & _) & _); apply X).
      assert (BB : 0 <= rr_len (m_resp (s_msg (sc_s k))) <= 255) by (destruct W as (((_ & _ & _ & _ & _ & [_ (_ & _ & _ & X)] & _) & _) & _); unfold byte in X; cbn [y_lib] in X; lia).
      assert (BP : rr_ptr (m_resp (s_msg (sc_s k))) = true) by (destruct W as (((_ & _ & _ & _ & _ & [_ (X & _)] & _) & _) & _); exact X).
      assert (LL : rr_len (m_resp (s_msg (sc_s k))) = len) by (unfold len; rewrite <- HP, firstn_length; lia).
      unfold call_send in *. rewrite BP, LL in *. cbn [andb] in *. assert (POS : 0 <? len = true) by (unfold len; destruct ans; [congruence|cbn; lia]). rewrite POS in *.
      constructor; cbn [y_lib y_u y_sub]; auto.
      * exists (S i), 0%nat. rewrite LO. split; auto. split; [lia|]. split; [rewrite sent_app, SN, DO; cbn [sent app]; now rewrite HP|]. 
        split; auto. assert (X := PF _ _ _ R). destruct X as [[_ X]|X]; [lia|congruence].
      * rewrite OL. auto.
      * cbn. auto.
    + rewrite (pc_sub k P) in *. assert (SN := no_send _ _ _ _ P Y).
      assert (SS : sent (lib_of t ++ l) = sent (lib_of t)) by (rewrite sent_app, SN; apply app_nil_r).
      split; [|cbn; auto]. constructor; cbn [y_lib y_u y_sub]; auto; rewrite ?LO, ?OL, ?SS; auto.
      exists (S i), d. split; auto.
Qed.
Lemma U1_shift m h y t : U1 m h y t -> exists y' t', y_act c HShift y = Ok (y', t') /\ U1 m (S h) y' (t ++ t') /\ y_sub y' = y_sub y /\ u_tdr (y_u y') = None /\
  u_cur (y_u y') = u_cur (y_u y) /\ u_last (y_u y') = u_last (y_u y).
Proof.
  intros [X W H RX ST]. destruct (act_ok c HShift y Hc (proj1 W)) as (y' & t' & E & OK').
  exists y', t'. split; auto. assert (W' := winv_act c HShift y y' t t' Hc W ltac:(discriminate) E).
  destruct y as [k u sub]. cbn [y_act y_lib y_u y_sub] in *. destruct (u_tdr u) as [b|] eqn:Q; inversion E; subst; [|rewrite app_nil_r in *; cbn; split; auto; constructor; auto].
  cbn [y_sub y_u u_tdr u_cur u_last]. split; auto.
  assert (LO : lib_of (t ++ [YLine b]) = lib_of t) by (rewrite lib_of_app; apply app_nil_r).
  constructor; cbn [y_lib y_u y_sub]; rewrite ?LO; auto.
  - rewrite on_line_snoc, app_length. cbn. lia.
  - destruct sub as [[]|]; cbn [stage u_txeie u_last u_cur u_tdr] in *; auto. destruct ST as [(A1 & A2 & A3)|ST]; [congruence|auto].
Qed.
Lemma U1_usart m h y t : U1 m h y t -> exists y' t', y_act c AUsart y = Ok (y', t') /\
  ((y' = y /\ t' = [] /\ (u_tdr (y_u y) = None -> y_sub y = None -> sent (lib_of t) = [ans] -> False)) \/
   (U1 m h y' (t ++ t') /\ y_sub y' = y_sub y /\ u_last (y_u y') = u_last (y_u y) /\ u_cur (y_u y') = u_cur (y_u y) + 1) \/
   (on_line t = ans /\ ((20 <= m)%nat -> U2 y' (t ++ t')))).
Proof.
  intros [(i & d & R & M & DO) W H RX ST]. destruct (act_ok c AUsart y Hc (proj1 W)) as (y' & t' & E & OK').
  exists y', t'. split; auto. assert (WI : in_send (y_sub y) = false -> winv c (t ++ t') y') by (intros X; eapply winv_act; eauto).
  destruct y as [k u sub]. cbn [y_act y_lib y_u y_sub] in *. destruct RX as (RX1 & RX2 & RX3 & RX4 & RX5). unfold usart_pending in E. rewrite RX1, RX2 in E. cbn [orb] in E.
  rewrite orb_false_r in E. destruct (u_tdr u) as [b|] eqn:Q; [inversion E; subst; left; split; auto; split; auto; congruence|].
  destruct (u_txeie u) eqn:TE; [|inversion E; subst; left; split; auto; split; auto; intros _ -> Z; destruct ST as [(Z1 & _)|(_ & _ & _ & Z1)]; congruence].
  destruct sub as [p|]; [destruct p; cbn [stage] in ST; exfalso; repeat (destruct ST as (? & ST)); congruence|].
  destruct ST as [(_ & ST & _)|(ST1 & ST2 & ST3 & _)]; [congruence|].
  bnd E. unfold y_usart, y_usart_rx in Y. rewrite RX1 in Y. cbn [bind] in Y. bnd Y. bnd Y. inversion Y; subst. inversion E; subst. clear E Y.
  unfold y_usart_rto in Y1. unfold y_usart_tx in Y0. rewrite Q in Y0. destruct (u_cur u <? u_last u) eqn:C.
  - bnd Y0. inversion Y0; subst. cbn [u_rtof] in Y1. rewrite RX2 in Y1. inversion Y1; subst. right. left. cbn [app] in *. rewrite app_nil_r in *.
    split; [|cbn; auto]. specialize (WI eq_refl).
    constructor; cbn [y_lib y_u y_sub]; auto.
    + exists i, d. auto.
    + unfold rx_idle. cbn. auto.
    + right. cbn. split; auto. split; auto. split; [lia|]. auto.
  - destruct (s_sub (sc_s k)); [|discriminate]. bnd Y0. inversion Y0; subst. cbn [u_rtof] in Y1. rewrite RX2 in Y1. inversion Y1; subst. right. right. cbn [app] in *.
    destruct W as (WK & _ & W1 & W2 & W3). cbn [y_lib y_u y_sub] in W3. destruct W3 as (_ & L4 & W3 & _).
    rewrite rest_quiet, app_nil_r, ST1 in W3 by (auto; split; auto; lia). cbn [concat] in W3. rewrite app_nil_r in W3. split; auto. intros MM.
    assert (I16 : (16 <= i)%nat) by (destruct DO as [[-> ?]|[? _]]; lia).
    split; [|split; [rewrite on_line_app, W3; apply app_nil_r|split; auto]].
    + exists i, 0%nat. split; auto. rewrite run_app, R. cbn [bind repeat]. unfold y_lib. rewrite (event_run c _ _ _ Y). cbn [bind]. now rewrite lib_of_app.
    + unfold line_idle, tx_idle, quiet. cbn. repeat (split; auto); lia.
Qed.
Lemma U2_act a y t : tx_only a = true -> U2 y t -> exists y' t', y_act c a y = Ok (y', t') /\ U2 y' (t ++ t').
Proof.
  intros HA ((i & j & Hi & R) & O & SU & LI). assert (LI' := LI). destruct LI as ([[Q1 Q2] Q3] & Q4 & Q5 & _). destruct a; try discriminate HA; cbn [y_act].
  - rewrite SU. destruct (run_ready c (repeat SStep i ++ SEv STxDone :: repeat SStep j) Hc q1 RD) as (k' & o' & E & R' & _). rewrite R in E. inversion E; subst k' o'. clear E.
    destruct (act_ready c SStep _ Hc R') as (k2 & o2 & E2 & _). rewrite E2. cbn [bind]. do 2 eexists. split; [reflexivity|].
    assert (RR : s_run c (repeat SStep i ++ SEv STxDone :: repeat SStep (S j)) q1 = Ok (k2, lib_of t ++ o2)).
    { replace (repeat SStep i ++ SEv STxDone :: repeat SStep (S j)) with ((repeat SStep i ++ SEv STxDone :: repeat SStep j) ++ [SStep]).
      - rewrite run_app, R. cbn [bind s_run]. rewrite E2. cbn [bind]. now rewrite app_nil_r.
      - rewrite <- app_assoc. cbn [app]. do 2 f_equal. change [SStep] with (repeat SStep 1). rewrite <- repeat_app. f_equal. lia. }
    assert (NP : sc_pc (y_lib y) <> Some L197).
    { intros P. assert (X := PF2 _ _ _ _ Hi RR). rewrite sent_app, (send_now _ _ _ _ P E2), (PF2 _ _ _ _ Hi R) in X. discriminate. }
    split; [|split; [rewrite on_line_app, on_line_lib, O; apply app_nil_r|split; [apply pc_sub; auto|auto]]].
    exists i, (S j). split; auto. cbn [y_lib]. rewrite lib_of_app, lib_of_lib. exact RR.
  - unfold usart_pending. rewrite Q4, Q1, Q3, Q5. cbn [orb]. do 2 eexists. split; [reflexivity|]. rewrite app_nil_r. split; eauto.
  - rewrite Q1. do 2 eexists. split; [reflexivity|]. rewrite app_nil_r. split; eauto.
Qed.
Lemma U1_fast l : forall m h y t, forallb tx_only l = true -> (h + shifts l < length ans)%nat -> U1 m h y t ->
  exists y' t', y_run c l y = Ok (y', t') /\ U1 (m + mains l) (h + shifts l) y' (t ++ t').
Proof.
  induction l as [|a l IH]; intros m h y t HA HL H.
  - exists y, []. rewrite app_nil_r, !Nat.add_0_r. auto.
  - cbn [forallb] in HA. apply andb_prop in HA as [HA1 HA2]. change (a :: l) with ([a] ++ l) in HL |- *. rewrite mains_app, shifts_app in *.
    assert (ST : exists y1 t1, y_act c a y = Ok (y1, t1) /\ U1 (m + mains [a]) (h + shifts [a]) y1 (t ++ t1)).
    { destruct a; try discriminate HA1; cbn [mains shifts filter length] in *.
      - destruct (U1_main _ _ _ _ H) as (y1 & t1 & E & H1 & _). exists y1, t1. split; auto. rewrite Nat.add_0_r. now replace (m + 1)%nat with (S m) by lia.
      - destruct (U1_usart _ _ _ _ H) as (y1 & t1 & E & [(-> & -> & _)|[(H1 & _)|(H1 & _)]]); rewrite ?Nat.add_0_r.
        + exists y, []. rewrite app_nil_r. auto.
        + exists y1, t1. auto.
        + exfalso. assert (X := x_h _ _ _ _ H). rewrite H1 in X. lia.
      - destruct (U1_shift _ _ _ _ H) as (y1 & t1 & E & H1 & _). exists y1, t1. split; auto. rewrite Nat.add_0_r. now replace (h + 1)%nat with (S h) by lia. }
    destruct ST as (y1 & t1 & E1 & H1). assert (HL2 : (h + shifts [a] + shifts l < length ans)%nat) by lia. destruct (IH _ _ _ _ HA2 HL2 H1) as (y2 & t2 & E2 & H2).
    exists y2, (t1 ++ t2). cbn [app y_run]. rewrite E1. cbn [bind]. rewrite E2. cbn [bind]. split; auto. now rewrite !Nat.add_assoc, app_assoc.
Qed.
(** from here on the main program has left the driver's send function *)
Definition R1 (n : nat) (y : sys) (t : list yitem) : Prop :=
  exists m h, U1 m h y t /\ (20 <= m)%nat /\ u_last (y_u y) - u_cur (y_u y) + 1 <= Z.of_nat n.
Definition V (n : nat) (y : sys) (t : list yitem) : Prop := R1 n y t \/ U2 y t.
Definition V0 (n : nat) (y : sys) (t : list yitem) : Prop := (R1 (S n) y t /\ u_tdr (y_u y) = None) \/ V n y t.
Lemma U1_late m h y t : U1 m h y t -> (20 <= m)%nat -> y_sub y = None /\ sent (lib_of t) = [ans] /\ u_last (y_u y) + 1 = len /\ u_cur (y_u y) <= u_last (y_u y).
Proof.
  intros [(i & d & R & M & DO) W H RX ST] HM. destruct (y_sub y) as [p|].
  - exfalso. destruct DO as (_ & D2 & D3). destruct p; lia.
  - split; auto. assert (HS : sent (lib_of t) = [ans]). { destruct (PF _ _ _ R) as [[X Y]|X]; auto. destruct DO as [[-> _]|[_ ->]]; auto. lia. }
    split; auto. rewrite HS in ST. destruct ST as [(X & _)|(_ & X1 & X2 & _)]; [discriminate|auto].
Qed.
Lemma V_act a n y t : tx_only a = true -> V n y t -> exists y' t', y_act c a y = Ok (y', t') /\ V n y' (t ++ t') /\
  (u_tdr (y_u y) = None -> R1 (S n) y t -> a <> AUsart -> V0 n y' (t ++ t')).
Proof.
  intros HA [(m & h & H & HM & HN)|H].
  2:{ destruct (U2_act a y t HA H) as (y' & t' & E & H'). exists y', t'. split; auto. split; [right; auto|]. intros _ _ _. right. right. auto. }
  destruct (U1_late _ _ _ _ H HM) as (SU & HS & L1 & L2). destruct a; try discriminate HA.
  - destruct (U1_main _ _ _ _ H) as (y1 & t1 & E & H1 & X). destruct (X SU HS) as [XU XS]. exists y1, t1. split; auto. 
    assert (V n y1 (t ++ t1)). { left. exists (S m), h. split; auto. split; [lia|]. now rewrite XU. } split; auto. intros _ _ _. right. auto.
  - destruct (U1_usart _ _ _ _ H) as (y1 & t1 & E & [(-> & -> & _)|[(H1 & X1 & X2 & X3)|(H1 & H2)]]).
    + exists y, []. rewrite app_nil_r. split; auto. split; [left; exists m, h; auto|congruence].
    + exists y1, t1. split; auto. split; [|congruence]. left. exists m, h. split; auto. split; auto. rewrite X2, X3. lia.
    + exists y1, t1. split; auto. split; [right; auto|congruence].
  - destruct (U1_shift _ _ _ _ H) as (y1 & t1 & E & H1 & X1 & X2 & X3 & X4). exists y1, t1. split; auto.
    assert (V n y1 (t ++ t1)). { left. exists m, (S h). split; auto. split; auto. rewrite X3, X4. auto. } split; auto. intros _ _ _. right. auto.
Qed.
Lemma V0_act a n y t : tx_only a = true -> V0 n y t -> exists y' t', y_act c a y = Ok (y', t') /\ V0 n y' (t ++ t') /\ (a = AUsart -> V n y' (t ++ t')).
Proof.
  intros HA [[(m & h & H & HM & HN) Q]|H].
  2:{ destruct (V_act a n y t HA H) as (y' & t' & E & H' & _). exists y', t'. split; auto. split; [right; auto|auto]. }
  destruct (U1_late _ _ _ _ H HM) as (SU & HS & L1 & L2). destruct a; try discriminate HA.
  - destruct (U1_main _ _ _ _ H) as (y1 & t1 & E & H1 & X). destruct (X SU HS) as [XU XS]. exists y1, t1. split; auto. split; [|discriminate]. left. split; [|now rewrite XU].
    exists (S m), h. split; auto. split; [lia|]. now rewrite XU.
  - destruct (U1_usart _ _ _ _ H) as (y1 & t1 & E & [(_ & _ & X)|[(H1 & X1 & X2 & X3)|(H1 & H2)]]).
    + exfalso. auto.
    + exists y1, t1. split; auto. assert (V n y1 (t ++ t1)); [|split; auto; right; auto]. left. exists m, h. split; auto. split; auto. rewrite X2, X3. lia.
    + exists y1, t1. split; auto. assert (V n y1 (t ++ t1)); [|split; auto; right; auto]. right. auto.
  - destruct (U1_shift _ _ _ _ H) as (y1 & t1 & E & H1 & X1 & X2 & X3 & X4). exists y1, t1. split; auto. split; [|discriminate]. left. split; auto.
    exists m, (S h). split; auto. split; auto. rewrite X3, X4. auto.
Qed.
Lemma V_shift n y t : V (S n) y t -> exists y' t', y_act c HShift y = Ok (y', t') /\ V0 n y' (t ++ t').
Proof.
  intros [(m & h & H & HM & HN)|H].
  - destruct (U1_shift _ _ _ _ H) as (y1 & t1 & E & H1 & X1 & X2 & X3 & X4). exists y1, t1. split; auto. left. split; auto.
    exists m, (S h). split; auto. split; auto. rewrite X3, X4. auto.
  - destruct (U2_act HShift y t eq_refl H) as (y' & t' & E & H'). exists y', t'. split; auto. right. right. auto.
Qed.
Lemma keeps (P : sys -> list yitem -> Prop) : (forall a y t, tx_only a = true -> P y t -> exists y' t', y_act c a y = Ok (y', t') /\ P y' (t ++ t')) ->
  forall l y t, forallb tx_only l = true -> P y t -> exists y' t', y_run c l y = Ok (y', t') /\ P y' (t ++ t').
Proof.
  intros HP. induction l as [|a l IH]; intros y t HA H.
  - exists y, []. rewrite app_nil_r. auto.
  - cbn [forallb] in HA. apply andb_prop in HA as [HA1 HA2]. destruct (HP a y t HA1 H) as (y1 & t1 & E1 & H1).
    destruct (IH _ _ HA2 H1) as (y2 & t2 & E2 & H2). exists y2, (t1 ++ t2). cbn [y_run]. rewrite E1. cbn [bind]. rewrite E2. cbn [bind]. split; auto. now rewrite app_assoc.
Qed.
Lemma V_run n l y t : forallb tx_only l = true -> V n y t -> exists y' t', y_run c l y = Ok (y', t') /\ V n y' (t ++ t').
Proof. apply (keeps (V n)). intros a y0 t0 HA H. destruct (V_act a n y0 t0 HA H) as (y' & t' & E & H' & _). eauto. Qed.
Lemma V0_run n l y t : forallb tx_only l = true -> V0 n y t -> exists y' t', y_run c l y = Ok (y', t') /\ V0 n y' (t ++ t').
Proof. apply (keeps (V0 n)). intros a y0 t0 HA H. destruct (V0_act a n y0 t0 HA H) as (y' & t' & E & H' & _). eauto. Qed.
Lemma V_zero y t : V 0 y t -> U2 y t.
Proof. intros [(m & h & H & HM & HN)|H]; auto. destruct (U1_late _ _ _ _ H HM) as (SU & HS & L1 & L2). lia. Qed.
Lemma V_rounds n l : rounds n l -> forall y t, forallb tx_only l = true -> V n y t -> exists y' t', y_run c l y = Ok (y', t') /\ U2 y' (t ++ t').
Proof.
  induction 1 as [l|n a b l H IH]; intros y t HA HV.
  - destruct (V_run 0 l y t HA HV) as (y' & t' & E & H'). exists y', t'. split; auto. now apply V_zero.
  - rewrite forallb_app in HA. apply andb_prop in HA as [A1 A2]. cbn [forallb] in A2. apply andb_prop in A2 as [_ A2]. rewrite forallb_app in A2. apply andb_prop in A2 as [A2 A3]. cbn [forallb] in A3. apply andb_prop in A3 as [_ A3].
    destruct (V_run _ a y t A1 HV) as (y1 & t1 & E1 & H1). destruct (V_shift _ _ _ H1) as (y2 & t2 & E2 & H2). destruct (V0_run n b y2 _ A2 H2) as (y3 & t3 & E3 & H3).
    destruct (V0_act AUsart n y3 _ eq_refl H3) as (y4 & t4 & E4 & _ & H4). destruct (IH y4 _ A3 (H4 eq_refl)) as (y5 & t5 & E5 & H5).
    exists y5, (t1 ++ t2 ++ t3 ++ t4 ++ t5). rewrite y_run_app, E1. cbn [bind y_run]. rewrite E2. cbn [bind]. rewrite y_run_app, E3. cbn [bind y_run]. rewrite E4. cbn [bind]. rewrite E5. cbn [bind].
    split; auto. rewrite !app_assoc. exact H5.
Qed.
End answer.

(** one frame, and its answer *)
Lemma rests_lib c y : sys_rests c y -> EndToEnd.slave_rests c (y_lib y).
Proof. intros (I & P & _). split; auto. Qed.
Lemma rests_of c y : EndToEnd.slave_rests c (y_lib y) -> y_sub y = None -> line_idle (y_u y) -> sys_rests c y.
Proof. intros [I P] SU ([[Q1 Q2] Q3] & Q4 & Q5 & Q6 & Q7 & Q8 & Q9 & Q10). unfold sys_rests. auto 15. Qed.
Lemma split_run c a b k k' o : s_run c (a ++ b) k = Ok (k', o) -> forall k1 o1, s_run c a k = Ok (k1, o1) -> exists o2, s_run c b k1 = Ok (k', o2) /\ o = o1 ++ o2.
Proof. intros E k1 o1 E1. rewrite run_app, E1 in E. cbn [bind] in E. bnd E. inversion E; subst. eauto. Qed.
Lemma steps_split i n : (i <= n)%nat -> repeat SStep n = repeat SStep i ++ repeat SStep (n - i).
Proof. intros H. rewrite <- repeat_app. f_equal. lia. Qed.
Lemma sent_prefix c i n k k1 o1 k2 o2 : (i <= n)%nat -> s_run c (repeat SStep i) k = Ok (k1, o1) -> s_run c (repeat SStep n) k = Ok (k2, o2) -> exists z, sent o2 = sent o1 ++ z.
Proof. intros H E1 E2. rewrite (steps_split i n H) in E2. destruct (split_run _ _ _ _ _ _ E2 _ _ E1) as (o3 & _ & ->). exists (sent o3). apply sent_app. Qed.
Lemma run_steps c n k : cfg_tables_ok c -> slave_ready c (sc_s k) -> exists k' o, s_run c (repeat SStep n) k = Ok (k', o).
Proof. intros Hc R. destruct (run_ready c (repeat SStep n) Hc k R) as (k' & o & E & _). eauto. Qed.

Lemma drop_wire c y f l m : cfg_tables_ok c -> sys_rests c y -> f <> [] -> bytes f -> wire_frame f l -> wire_silence m -> ~ intact (s_id (sc_s (y_lib y))) (buffered f) ->
  exists y' t, y_run c (l ++ m) y = Ok (y', t) /\ on_line t = [] /\ sys_rests c y' /\ s_data (sc_s (y_lib y')) = s_data (sc_s (y_lib y)) /\ s_id (sc_s (y_lib y')) = s_id (sc_s (y_lib y)).
Proof.
  intros Hc K Hf Bf HW [HA HM] NI. destruct (frame_run c y f l Hc K Hf Bf HW) as (y1 & t1 & pre & o & E1 & O1 & S1 & AR & SN & SU & LI).
  assert (RX : rx_bytes (map SRx f) = f) by (clear - Bf; induction Bf as [|b f B Bf IH]; auto; cbn; f_equal; auto; unfold byte in B; unfold u8; lia).
  assert (BAD : forall n, (16 <= n)%nat -> exists k' o', s_run c (pre ++ repeat SStep n) (y_lib y) = Ok (k', o') /\ idle_clean c k' /\ s_id (sc_s k') = s_id (sc_s (y_lib y)) /\ s_data (sc_s k') = s_data (sc_s (y_lib y)) /\ sent o' = []).
  { intros n Hn. destruct (bad_from_idle c (y_lib y) (map SRx f) pre n [] Hc) as (k' & o' & E & X); auto.
    - apply rests_clean, rests_lib; auto.
    - clear. induction f; auto.
    - right. now rewrite RX.
    - exists k', o'. auto. }
  assert (R1 : slave_ready c (sc_s (y_lib y1))).
  { destruct (run_ready c pre Hc (y_lib y)) as (k' & o' & E & R' & _). { apply K. } rewrite S1 in E. inversion E; subst. auto. }
  assert (NS : forall i k o0, s_run c (repeat SStep i) (y_lib y1) = Ok (k, o0) -> sent o0 = []).
  { intros i k o0 E. destruct (BAD (i + 16)%nat ltac:(lia)) as (k' & o' & E' & _ & _ & _ & X). destruct (split_run _ _ _ _ _ _ E' _ _ S1) as (o2 & E2 & ->).
    rewrite sent_app in X. apply app_eq_nil in X as [_ X]. destruct (sent_prefix c i _ _ _ _ _ _ (Nat.le_add_r i 16) E E2) as (z & Z). rewrite X in Z. symmetry in Z. now apply app_eq_nil in Z as [Z _]. }
  destruct (D_run c Hc (y_lib y1) (y_u y1) NS LI R1 m 0 y1 [] HA) as (y2 & t2 & E2 & (S2 & U2 & SU2 & O2)). { split; auto. }
  cbn [Nat.add app] in *. destruct (BAD (mains m) HM) as (k' & o' & E' & IC & HI & HD & _). destruct (split_run _ _ _ _ _ _ E' _ _ S1) as (o2 & E3 & ->).
  rewrite S2 in E3. inversion E3; subst k' o2. exists y2, (t1 ++ t2). rewrite y_run_app, E1. cbn [bind]. rewrite E2. cbn [bind]. split; auto.
  split; [rewrite on_line_app, O1, O2; auto|]. split; [|auto]. apply rests_of; auto; [apply clean_rests; auto|now rewrite U2].
Qed.

Lemma answer_wire c y f l m : cfg_tables_ok c -> sys_rests c y -> bytes f -> (length f < 256)%nat -> intact (s_id (sc_s (y_lib y))) f -> frame_complete f -> wire_frame f l ->
  wire_answer (length (rtu_frame (s_id (sc_s (y_lib y))) (fst (server c (s_data (sc_s (y_lib y))) f)))) m ->
  exists y' t, y_run c (l ++ m) y = Ok (y', t) /\ on_line t = rtu_frame (s_id (sc_s (y_lib y))) (fst (server c (s_data (sc_s (y_lib y))) f)) /\ sys_rests c y' /\
    s_data (sc_s (y_lib y')) = snd (server c (s_data (sc_s (y_lib y))) f) /\ s_id (sc_s (y_lib y')) = s_id (sc_s (y_lib y)).
Proof.
  intros Hc K Bf Lf If Cf HW (l1 & l2 & n & -> & HA1 & HA2 & HM & HS & HR & Hn). set (ans := rtu_frame _ _) in *.
  assert (AN : ans <> []) by (unfold ans, rtu_frame; destruct (_ :: _) eqn:?; discriminate).
  assert (Hf : f <> []) by (intros ->; destruct If as [_ X]; discriminate X).
  destruct (frame_run c y f l Hc K Hf Bf HW) as (y1 & t1 & pre & o & E1 & O1 & S1 & AR & SN & SU & LI).
  assert (GOOD : forall n m, (16 <= n)%nat -> (8 <= m)%nat -> exists q1' o1 q2 o2, s_run c (pre ++ repeat SStep n) (y_lib y) = Ok (q1', o1) /\ sent o1 = [ans] /\
     s_run c (SEv STxDone :: repeat SStep m) q1' = Ok (q2, o2) /\ sent o2 = [] /\ EndToEnd.slave_rests c q2 /\ s_data (sc_s q2) = snd (server c (s_data (sc_s (y_lib y))) f) /\ s_id (sc_s q2) = s_id (sc_s (y_lib y))).
  { intros n0 m0 H0 H1. destruct (exchange c (y_lib y) f (pre ++ repeat SStep n0) (SEv STxDone :: repeat SStep m0) Hc) as (q1' & o1 & q2 & o2 & X1 & X2 & X3 & X4 & X5 & X6 & X7 & X8); auto.
    - apply rests_lib; auto.
    - exists pre, n0. auto.
    - exists [SEv STxDone], m0. auto.
    - exists q1', o1, q2, o2. rewrite <- X3. auto 10. }
  assert (R1 : slave_ready c (sc_s (y_lib y1))).
  { destruct (run_ready c pre Hc (y_lib y)) as (k' & o' & E & R' & _). { apply K. } rewrite S1 in E. inversion E; subst. auto. }
  assert (G1 : forall i k o0, (16 <= i)%nat -> s_run c (repeat SStep i) (y_lib y1) = Ok (k, o0) -> sent o0 = [ans]).
  { intros i k o0 Hi E. destruct (GOOD i 8%nat Hi (le_n _)) as (q1' & o1 & q2 & o2 & X1 & X2 & _). destruct (split_run _ _ _ _ _ _ X1 _ _ S1) as (o3 & E3 & ->).
    rewrite E in E3. inversion E3; subst. now rewrite sent_app, SN in X2. }
  assert (PF : forall i k o0, s_run c (repeat SStep i) (y_lib y1) = Ok (k, o0) -> (sent o0 = [] /\ i < 16)%nat \/ sent o0 = [ans]).
  { intros i k o0 E. destruct (le_lt_dec 16 i) as [Hi|Hi]; [right; eauto|]. destruct (run_steps c (i + 16) (y_lib y1) Hc R1) as (k2 & o2 & E2).
    assert (X := G1 (i + 16)%nat k2 o2 ltac:(lia) E2). destruct (sent_prefix c i _ _ _ _ _ _ (Nat.le_add_r i 16) E E2) as (z & Z). rewrite X in Z.
    destruct (sent o0) as [|a [|b s0]]; auto; inversion Z; auto. }
  assert (FIN : forall i j k o0, (16 <= i)%nat -> (8 <= j)%nat -> s_run c (repeat SStep i ++ SEv STxDone :: repeat SStep j) (y_lib y1) = Ok (k, o0) ->
     sent o0 = [ans] /\ EndToEnd.slave_rests c k /\ s_data (sc_s k) = snd (server c (s_data (sc_s (y_lib y))) f) /\ s_id (sc_s k) = s_id (sc_s (y_lib y))).
  { intros i j k o0 Hi Hj E. destruct (GOOD i j Hi Hj) as (q1' & o1 & q2 & o2 & X1 & X2 & X3 & X4 & X5). destruct (split_run _ _ _ _ _ _ X1 _ _ S1) as (o3 & E3 & ->).
    destruct (split_run _ _ _ _ _ _ E _ _ E3) as (o4 & E4 & ->). rewrite X3 in E4. inversion E4; subst. rewrite sent_app, X4, app_nil_r. rewrite sent_app, SN in X2. auto. }
  assert (PF2 : forall i j k o0, (16 <= i)%nat -> s_run c (repeat SStep i ++ SEv STxDone :: repeat SStep j) (y_lib y1) = Ok (k, o0) -> sent o0 = [ans]).
  { intros i j k o0 Hi E. destruct (run_ready c (repeat SStep i ++ SEv STxDone :: repeat SStep (j + 8)) Hc (y_lib y1) R1) as (k2 & o2 & E2 & _).
    assert (X := FIN i (j + 8)%nat k2 o2 Hi ltac:(lia) E2). destruct X as [X _].
    rewrite repeat_app, app_comm_cons, app_assoc in E2. destruct (split_run _ _ _ _ _ _ E2 _ _ E) as (o3 & _ & ->). rewrite sent_app in X.
    destruct (run_steps c i (y_lib y1) Hc R1) as (k5 & o5 & E5). destruct (split_run _ _ _ _ _ _ E _ _ E5) as (o6 & _ & ->). rewrite sent_app, (G1 _ _ _ Hi E5) in *.
    cbn [app] in *. inversion X. destruct (sent o6); auto; discriminate. }
  assert (LI' := LI). destruct LI as (TI & Q4 & Q5 & Q6 & Q7 & Q8 & Q9 & Q10). assert (TI' := TI). destruct TI as [[Q1 Q2] Q3].
  assert (B1 : base (loc (y_lib y1)) (sc_s (y_lib y1))). { eapply base_run; [|exact S1]. apply (rests_arrives c y K). }
  assert (I0 : U1 c (y_lib y1) ans 0 0 y1 []).
  { constructor; rewrite ?SU; auto.
    - exists 0%nat, 0%nat. split; auto. split; auto. cbn. auto.
    - split; [split; auto; split; [split; auto|rewrite SU; exact Logic.I]|]. split; auto. unfold wire. rewrite SU. split; auto. split; [apply R1|]. split; [discriminate|]. split; auto.
      split; [rewrite rest_quiet by (auto; split; auto); reflexivity|]. split; [left; split; auto|congruence].
    - split; auto.
    - left. auto. }
  destruct (U1_fast c Hc _ ans AN PF PF2 l1 0 0 y1 [] HA1 ltac:(lia) I0) as (y2 & t2 & E2 & I2). cbn [Nat.add app] in I2.
  assert (V1 : V c (y_lib y1) ans (length ans) y2 t2).
  { left. exists (mains l1), (shifts l1). split; auto. split; auto. destruct (U1_late c _ ans PF PF2 _ _ _ _ I2 HM) as (_ & _ & X & _). unfold len in X.
    destruct I2 as [_ (_ & _ & W1 & _) _ _ _]. lia. }
  destruct (V_rounds c Hc _ ans R1 AN PF PF2 _ _ HR y2 t2 HA2 V1) as (y3 & t3 & E3 & I3).
  assert (FR : forall n y t, U2 c (y_lib y1) ans y t -> exists y' t' i j, y_run c (repeat AMain n) y = Ok (y', t') /\ U2 c (y_lib y1) ans y' (t ++ t') /\ (16 <= i)%nat /\ (n <= j)%nat /\
    s_run c (repeat SStep i ++ SEv STxDone :: repeat SStep j) (y_lib y1) = Ok (y_lib y', lib_of (t ++ t'))).
  { clear - Hc R1 PF2. intros n0; induction n0 as [|n IH]; intros ya ta H.
    - destruct H as ((i & j & Hi & E) & H). exists ya, [], i, j. rewrite app_nil_r. split; auto. split; [split; eauto|]. split; auto. split; auto. lia.
    - replace (S n) with (n + 1)%nat by lia. rewrite repeat_app. destruct (IH ya ta H) as (y' & t' & i & j & E & H' & Hi & Hj & ER).
      destruct H' as (_ & O & SU & LI). cbn [repeat].
      destruct (run_ready c (repeat SStep i ++ SEv STxDone :: repeat SStep j) Hc (y_lib y1) R1) as (k' & o' & E' & R' & _). rewrite ER in E'. inversion E'; subst k' o'. clear E'.
      destruct (act_ready c SStep _ Hc R') as (k2 & o2 & E2 & _).
      assert (RR : s_run c (repeat SStep i ++ SEv STxDone :: repeat SStep (S j)) (y_lib y1) = Ok (k2, lib_of (ta ++ t') ++ o2)).
      { replace (repeat SStep i ++ SEv STxDone :: repeat SStep (S j)) with ((repeat SStep i ++ SEv STxDone :: repeat SStep j) ++ [SStep]).
        - rewrite run_app, ER. cbn [bind s_run]. rewrite E2. cbn [bind]. now rewrite app_nil_r.
        - rewrite <- app_assoc. cbn [app]. do 2 f_equal. change [SStep] with (repeat SStep 1). rewrite <- repeat_app. f_equal. lia. }
      assert (NP : sc_pc (y_lib y') <> Some L197).
      { intros P. assert (X := PF2 _ _ _ _ Hi RR). rewrite sent_app, (send_now _ _ _ _ P E2), (PF2 _ _ _ _ Hi ER) in X. discriminate. }
      exists (mk_sys k2 (y_u y') None), (t' ++ map YLib o2), i, (S j). rewrite y_run_app, E. cbn [bind y_run y_act]. rewrite SU, E2, (pc_sub _ NP). cbn [bind]. rewrite app_nil_r. split; auto.
      assert (LB : lib_of (ta ++ t' ++ map YLib o2) = lib_of (ta ++ t') ++ o2) by (now rewrite app_assoc, lib_of_app, lib_of_lib).
      rewrite LB. split; [|split; auto; split; auto; lia]. split; [exists i, (S j); rewrite LB; auto|]. split; auto. now rewrite app_assoc, on_line_app, on_line_lib, app_nil_r. }
  destruct (FR n y3 _ I3) as (y4 & t4 & i & j & E4 & (_ & O4 & SU4 & LI4) & Hi & Hj & S4).
  destruct (FIN i j _ _ Hi ltac:(lia) S4) as (_ & F1 & F2 & F3).
  exists y4, (t1 ++ t2 ++ t3 ++ t4). rewrite y_run_app, E1. cbn [bind]. rewrite y_run_app, E2. cbn [bind]. rewrite y_run_app, E3. cbn [bind]. rewrite E4. cbn [bind]. split; auto.
  split; [rewrite on_line_app, O1; cbn [app]; now rewrite app_assoc|]. split; auto. apply rests_of; auto.
Qed.
Lemma wire_traffic_run c l out d' id : cfg_tables_ok c -> forall d, wire_traffic c id d l out d' ->
  forall y, sys_rests c y -> s_id (sc_s (y_lib y)) = id -> s_data (sc_s (y_lib y)) = d ->
  exists y' t, y_run c l y = Ok (y', t) /\ on_line t = out /\ sys_rests c y' /\ s_data (sc_s (y_lib y')) = d' /\ s_id (sc_s (y_lib y')) = id.
Proof.
  intros Hc d H. induction H as [d|d f l m rest out d' HW HM Hf Bf NI H IH|d f l m rest out d' HW Bf Lf If Cf HM H IH]; intros y K I D.
  - exists y, []. auto.
  - subst. destruct (drop_wire c y f l m Hc K Hf Bf HW HM NI) as (y1 & t1 & E1 & O1 & K1 & D1 & I1).
    destruct (IH y1 K1 I1 D1) as (y2 & t2 & E2 & O2 & K2 & D2 & I2). exists y2, (t1 ++ t2). rewrite app_assoc, y_run_app, E1. cbn [bind]. rewrite E2. cbn [bind]. split; auto.
    split; [rewrite on_line_app, O1, O2; auto|auto].
  - subst. destruct (answer_wire c y f l m Hc K Bf Lf If Cf HW HM) as (y1 & t1 & E1 & O1 & K1 & D1 & I1).
    destruct (IH y1 K1 I1 D1) as (y2 & t2 & E2 & O2 & K2 & D2 & I2). exists y2, (t1 ++ t2). rewrite app_assoc, y_run_app, E1. cbn [bind]. rewrite E2. cbn [bind]. split; auto.
    split; [rewrite on_line_app, O1, O2; auto|auto].
Qed.
