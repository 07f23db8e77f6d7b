(** Frames that must be dropped, and the trap. *)
From Verif Require Export Proofs.SlaveRx.

Ltac step_setup l s c Hc R B E R' B' BS :=
  destruct (line_ready c l s Hc R) as (l' & s' & o & E & R' & I');
  exists l', s', o; split; [exact E|]; assert (B' := base_line _ _ _ _ _ _ B E); assert (BS := b_st _ _ B).
Ltac nxt BS B' := cbn [next map] in *; unfold s_dispatch in *; prj; try rewrite BS in B' |- *; cbn [st_of] in *; rewrite ?sent_app; cbn [sent]; rewrite ?app_nil_r.
Ltac fin := repeat match goal with |- _ /\ _ => split; auto end; auto.

Section bad.
Context (c : cfg) (Hc : cfg_tables_ok c) (d0 : sdata) (id : Z) (xs : list sev) (Hx : forallb is_reception xs = true)
        (Hb : has_frame_err xs = true \/ ~ intact id (buffered (rx_bytes xs))) (s0 : list (list Z)).
Definition evb (rem xd : list sev) (n15 n35 : bool) : Prop :=
  (n15 = false /\ n35 = false /\ exists x2, xs = xd ++ x2 /\ rem = x2 ++ [ST15; ST35]) \/
  (n15 = true /\ n35 = false /\ xd = xs /\ rem = [ST35]) \/
  (n15 = true /\ n35 = true /\ xd = xs /\ rem = []).
Definition bbody (l : spc) (s : slave) (xd : list sev) (n15 n35 : bool) : Prop :=
  match l with
  | L164 => (s_t15 s = bl n15 /\ s_t35 s = bl n35 /\ s_fe s = bl (has_frame_err xd) /\ rxb (rx_bytes xd) (m_req (s_msg s))) \/
            (n35 = true /\ s_t15 s = CLEARED /\ s_t35 s = CLEARED /\ s_fe s = CLEARED /\ rr_len (m_req (s_msg s)) = 0)
  | L167 => n15 = true /\ s_t35 s = bl n35 /\ s_fe s = bl (has_frame_err xd) /\ rxb (rx_bytes xd) (m_req (s_msg s))
  | L168 => n15 = true /\ s_t15 s = CLEARED /\ s_t35 s = bl n35 /\ s_fe s = bl (has_frame_err xd) /\ rxb (rx_bytes xd) (m_req (s_msg s))
  | L169 st => n15 = true /\ s_t15 s = CLEARED /\ s_t35 s = bl n35 /\ (st = RET_OK -> s_fe s = SET)
  | L171 => n15 = true /\ s_t15 s = CLEARED /\ s_t35 s = bl n35
  | L173 | L186 | L186b | L193 => n15 = true /\ s_t15 s = CLEARED /\ s_t35 s = bl n35 /\ s_fe s = SET
  | L188 => n15 = true /\ s_t15 s = CLEARED /\ n35 = true
  | L189 | L190 => n15 = true /\ s_t15 s = CLEARED /\ n35 = true /\ rr_len (m_req (s_msg s)) = 0
  | L191 => n15 = true /\ s_t15 s = CLEARED /\ n35 = true /\ s_fe s = CLEARED /\ rr_len (m_req (s_msg s)) = 0
  | _ => False
  end.
Definition Bd (rem : list sev) (t : list sitem) (l : spc) (s : slave) : Prop :=
  slave_ready c s /\ base l s /\ s_id s = id /\ s_data s = d0 /\ sent t = s0 /\
  exists xd n15 n35, evb rem xd n15 n35 /\ bbody l s xd n15 n35.
Definition wB (l : spc) : nat :=
  match l with
  | L164 => 14 | L167 => 13 | L168 => 12 | L169 _ => 11 | L171 => 10 | L173 => 9 | L193 => 15 | L186 => 7 | L186b => 6
  | L188 => 5 | L189 => 4 | L190 => 3 | L191 => 2 | _ => 1 end.
Definition fB (l : spc) (s : slave) : bool := match l with L164 => is_clr (s_t15 s) | _ => false end.

Lemma not_yet xd x : evb [] xd false x -> False.
Proof. intros [(_ & _ & x2 & _ & V)|[(V & _)|(V & _)]]; try discriminate. symmetry in V. destruct x2; discriminate. Qed.
Lemma not_yet35 xd x : evb [] xd x false -> False.
Proof. intros [(_ & _ & x2 & _ & V)|[(_ & _ & _ & V)|(_ & V & _)]]; try discriminate. symmetry in V. destruct x2; discriminate. Qed.

Lemma Bd_line rem t l s : Bd rem t l s -> exists l' s' o, s_line c l s = Ok (l', s', o) /\ Bd rem (t ++ map TOut o) (next l' s') s' /\
  (rem = [] -> if fB l s then fB (next l' s') s' = true else fB (next l' s') s' = true \/ (weight wB (mk_sconf s' l') < wB l)%nat).
Proof.
  intros (R & B & I & D & S1 & xd & n15 & n35 & V & Y). unfold Bd.
  step_setup l s c Hc R B E R' B' BS.
  assert (HM : s_mptr s = true) by apply R.
  assert (HQ : rr_ok (m_req (s_msg s))) by (destruct R as (_ & _ & _ & _ & _ & [? _] & _); auto).
  assert (EX : n15 = true -> xd = xs) by (intros ->; destruct V as [(V & _)|[(_ & _ & V & _)|(_ & _ & V & _)]]; congruence).
  destruct l; try contradiction; cbn [bbody] in Y; cbn [s_line] in E.
  - destruct Y as [(Y1 & Y2 & Y3 & Y4)|(-> & Y1 & Y2 & Y3 & Y4)]; rewrite Y1 in E.
    + destruct n15; cbn [bl is_set] in E; inversion E; subst; nxt BS B'.
      * split; [|intros _; cbn [fB]; rewrite Y1; right; cbn; lia]. fin. exists xd, true, n35. cbn [bbody]. auto 10.
      * split; [|intros ->; exfalso; eapply not_yet; eauto]. fin. exists xd, false, n35. cbn [bbody]. split; auto.
    + cbn [is_set] in E; inversion E; subst; nxt BS B'. split; [|intros _; cbn [fB]; rewrite Y1; reflexivity].
      fin. exists xd, n15, true. cbn [bbody]. split; auto 10.
  - destruct Y as (Y1 & Y2 & Y3 & Y4). inversion E; subst; nxt BS B'. split; [|right; cbn; lia]. fin. exists xd, true, n35. cbn [bbody]. prj. auto 10.
  - destruct Y as (Y1 & Y2 & Y3 & Y4 & Y5). rewrite HM in E. assert (E1 := recv_accept_iff _ id HQ). rewrite I in E.
    destruct (modbus_RTU_recv (m_req (s_msg s)) id) as [st| |] eqn:EQ; try discriminate E. cbn [bind] in E. inversion E; subst; nxt BS B'. split; [|right; cbn; lia]. fin. exists xd, true, n35. cbn [bbody].
    fin. intros Q. rewrite (EX eq_refl) in *. destruct Hb as [Hb1|Hb1]; [rewrite Hb1 in Y4; exact Y4|].
    exfalso. apply Hb1. rewrite <- (proj2 Y5). apply E1. now subst.
  - destruct Y as (Y1 & Y2 & Y3 & Y4). destruct (RTU_status =? RET_OK) eqn:X; cbn [negb] in E; inversion E; subst; nxt BS B'; (split; [|right; cbn; lia]); fin;
      exists xd, true, n35; cbn [bbody]; fin. apply Y4. lia.
  - destruct Y as (Y1 & Y2 & Y3). inversion E; subst; nxt BS B'. split; [|right; cbn; lia]. fin. exists xd, true, n35. cbn [bbody]. prj. fin.
  - destruct Y as (Y1 & Y2 & Y3 & Y4). inversion E; subst; nxt BS B'. split; [|right; cbn; lia]. fin. exists xd, true, n35. cbn [bbody]. prj. fin.
  - destruct Y as (Y1 & Y2 & Y3 & Y4). rewrite Y4 in E. cbn [is_set] in E. inversion E; subst; nxt BS B'. split; [|right; cbn; lia]. fin. exists xd, true, n35. cbn [bbody]. prj. fin.
  - destruct Y as (Y1 & Y2 & Y3 & Y4). rewrite Y3 in E. destruct n35; cbn [is_set bl] in E; inversion E; subst; nxt BS B'.
    + split; [|right; cbn; lia]. fin. exists xd, true, true. cbn [bbody]. prj. fin.
    + split; [|intros ->; exfalso; eapply not_yet35; eauto]. fin. exists xd, true, false. cbn [bbody]. prj. fin.
  - destruct Y as (Y1 & Y2 & ->). rewrite HM in E. inversion E; subst; nxt BS B'. split; [|right; cbn; lia]. fin. exists xd, true, true. cbn [bbody]. prj. fin.
  - destruct Y as (Y1 & Y2 & -> & Y3). inversion E; subst; nxt BS B'. split; [|right; cbn; lia]. fin. exists xd, true, true. cbn [bbody]. prj. fin.
  - destruct Y as (Y1 & Y2 & -> & Y3). inversion E; subst; nxt BS B'. split; [|right; cbn; lia]. fin. exists xd, true, true. cbn [bbody]. prj. fin.
  - destruct Y as (Y1 & Y2 & -> & Y3 & Y4). inversion E; subst; nxt BS B'. split. { fin. exists xd, true, true. cbn [bbody]. prj. split; auto 10. }
    intros _. left. cbn [fB]. prj. rewrite Y2. reflexivity.
  - destruct Y as (Y1 & Y2 & Y3 & Y4). rewrite Y4 in E. cbn [is_clr] in E. inversion E; subst; nxt BS B'. split.
    + fin. exists xd, true, n35. cbn [bbody]. prj. fin.
    + intros _. right. unfold weight. cbn [sc_pc sc_s wB]. unfold s_dispatch. rewrite BS. cbn. lia.
Qed.

Lemma herr_app a b : has_frame_err (a ++ b) = has_frame_err a || has_frame_err b.
Proof. apply existsb_app. Qed.
Lemma rx_bytes_app a b : rx_bytes (a ++ b) = rx_bytes a ++ rx_bytes b.
Proof. apply flat_map_app. Qed.

Lemma Bd_event e rem t l s : Bd (e :: rem) t l s -> exists s', s_event e s = Ok s' /\ Bd rem (t ++ [TEv e]) l s'.
Proof.
  intros (R & B & I & D & S1 & xd & n15 & n35 & V & Y).
  destruct (event_ready c e s R) as (s' & E & R' & I'). exists s'. split; auto. assert (B' := base_event _ _ _ _ B E).
  unfold Bd. rewrite sent_app. cbn [sent]. rewrite app_nil_r.
  assert (HQ : rr_ok (m_req (s_msg s))) by (destruct R as (_ & _ & _ & _ & _ & [? _] & _); auto).
  destruct R as (_ & _ & HS & HR & _). rewrite I', I. split; auto. split; auto. split; auto.
  destruct V as [(-> & -> & x2 & Vx & V)|[(-> & -> & -> & V)|(_ & _ & _ & V)]]; [| |discriminate].
  - assert (l = L164). { destruct l; cbn [bbody] in Y; try contradiction; auto; destruct Y as [Y _]; discriminate. }
    subst l. cbn [bbody] in *. destruct Y as [(Y1 & Y2 & Y3 & Y4)|(Y & _)]; [|discriminate].
    destruct x2 as [|e' x2]; cbn [app] in V; inversion V; subst e rem.
    + cbn [s_event] in E. rewrite HS in E. inversion E; subst s'. prj. fin. exists xd, true, false. rewrite app_nil_r in Vx. subst xd.
      split; [right; left; auto|]. left. fin.
    + assert (He : is_reception e' = true). { rewrite Vx, forallb_app in Hx. cbn [forallb] in Hx. apply andb_true_iff in Hx as [_ Hx]. apply andb_true_iff in Hx as [Hx _]. exact Hx. }
      destruct e'; try discriminate He; cbn [s_event] in E.
      * rewrite HS in E. inversion E; subst s'. prj. fin. exists (xd ++ [SFrameErr]), false, false. split.
        { left. split; auto. split; auto. exists x2. rewrite <- app_assoc. auto. }
        left. rewrite herr_app, orb_true_r, rx_bytes_app. cbn [rx_bytes flat_map app]. rewrite app_nil_r. fin.
      * destruct (rxb_rx _ _ b HQ Y4) as (r' & E1 & X1). rewrite HR, E1 in E. cbn [bind] in E. inversion E; subst s'. prj. fin.
        exists (xd ++ [SRx b]), false, false. split. { left. split; auto. split; auto. exists x2. rewrite <- app_assoc. auto. }
        left. rewrite herr_app, orb_false_r, rx_bytes_app. cbn [set_req m_req]. fin.
  - inversion V; subst e rem. cbn [s_event] in E. rewrite HS in E. inversion E; subst s'. prj. fin. exists xs, true, true. split; [right; right; auto|].
    destruct l; cbn [bbody] in *; prj; try contradiction; try (destruct Y as [(Y1 & Y2 & Y3 & Y4)|(Y & _)]; [|discriminate]; left; fin; fail);
    repeat match goal with H : _ /\ _ |- _ => destruct H end; fin; discriminate.
Qed.

Lemma Bd_tx rem t l s : Bd rem t l s -> rem <> [] -> exists s', s_event STxDone s = Ok s' /\ Bd rem (t ++ [TEv STxDone]) l s'.
Proof.
  intros (R & B & I & D & S1 & xd & n15 & n35 & V & Y) _.
  destruct (event_ready c STxDone s R) as (s' & E & R' & I'). exists s'. split; auto. assert (B' := base_event _ _ _ _ B E).
  assert (HS : s_sub s = true) by apply R.
  unfold Bd. rewrite I', I. cbn [s_event] in E. rewrite HS in E. inversion E; subst s'. prj. rewrite sent_app. cbn [sent]. rewrite app_nil_r.
  repeat (split; auto). exists xd, n15, n35. split; auto.
Qed.
Lemma bad_run sched n k t : Bd (xs ++ [ST15; ST35]) t (loc k) (sc_s k) -> arrival xs (events sched) -> (16 <= n)%nat ->
  exists k' o, s_run c (sched ++ repeat SStep n) k = Ok (k', o) /\ idle_clean c k' /\ s_id (sc_s k') = id /\ s_data (sc_s k') = d0 /\ sent (t ++ o) = s0.
Proof.
  intros H E Hn.
  destruct (phase_progress_tx c Bd fB wB 16) with (sched := sched) (n := n) (t := t) (k := k) (xs := xs) as (k2 & o2 & E2 & H2 & F2); auto.
  - intros. now apply Bd_line.
  - intros. eapply Bd_event; eauto.
  - intros. now apply Bd_tx.
  - intros l s. destruct l; cbn; congruence.
  - intros t' l s _. destruct l; cbn; lia.
  - exists k2, o2. split; auto. unfold fB in F2. destruct H2 as (R & B & I & D & S1 & xd & n15 & n35 & V & Y).
    destruct (loc k2) eqn:K; try discriminate. apply is_clr_iff in F2.
    cbn [bbody] in Y. destruct Y as [(Y1 & _)|(_ & Y1 & Y2 & Y3 & Y4)].
    + exfalso. destruct n15; [rewrite Y1 in F2; discriminate|eapply not_yet; eauto].
    + split; [|auto]. unfold idle_clean. rewrite K. fin.
Qed.
End bad.

Lemma bad_from_idle c k xs sched n t : cfg_tables_ok c -> idle_clean c k -> forallb is_reception xs = true ->
  has_frame_err xs = true \/ ~ intact (s_id (sc_s k)) (buffered (rx_bytes xs)) ->
  arrival xs (events sched) -> (16 <= n)%nat ->
  exists k' o, s_run c (sched ++ repeat SStep n) k = Ok (k', o) /\ idle_clean c k' /\ s_id (sc_s k') = s_id (sc_s k) /\ s_data (sc_s k') = s_data (sc_s k) /\ sent (t ++ o) = sent t.
Proof.
  intros Hc (R & B & Lk & F1 & F2 & F3 & F4) Hx Hb E Hn.
  apply (bad_run c Hc (s_data (sc_s k)) (s_id (sc_s k)) xs Hx Hb (sent t) sched n k t); auto.
  unfold Bd. fin. exists [], false, false. split; [left; split; auto; split; auto; exists xs; auto|]. rewrite Lk. cbn [bbody]. left. fin. apply rxb_nil. exact F4.
Qed.

(** the trap: a rejected frame is waiting for the 3.5-character event that has already been consumed *)
Definition trapped (c : cfg) (k : sconf) : Prop :=
  slave_ready c (sc_s k) /\ base (loc k) (sc_s k) /\ (loc k = L186 \/ loc k = L186b \/ loc k = L193) /\
  s_t15 (sc_s k) = CLEARED /\ s_t35 (sc_s k) = CLEARED /\ s_fe (sc_s k) = SET.
Section trap.
Context (c : cfg) (Hc : cfg_tables_ok c) (d0 : sdata) (id : Z) (xs : list sev) (Hx : forallb is_reception xs = true) (s0 : list (list Z)).
Definition tbody (l : spc) (s : slave) (n15 n35 : bool) : Prop :=
  match l with
  | L186 | L186b | L193 => (s_t15 s = bl n15 /\ s_t35 s = bl n35 /\ s_fe s = SET) \/ (n35 = true /\ s_t15 s = CLEARED /\ s_t35 s = CLEARED /\ s_fe s = SET)
  | L188 => s_t15 s = SET /\ n35 = true
  | L189 | L190 => s_t15 s = SET /\ n35 = true /\ rr_len (m_req (s_msg s)) = 0
  | L191 => s_t15 s = SET /\ n35 = true /\ s_fe s = CLEARED /\ rr_len (m_req (s_msg s)) = 0
  | L164 | L167 => s_t15 s = SET /\ n35 = true /\ s_t35 s = CLEARED /\ s_fe s = CLEARED /\ rr_len (m_req (s_msg s)) = 0
  | L168 => s_t15 s = CLEARED /\ n35 = true /\ s_t35 s = CLEARED /\ s_fe s = CLEARED /\ rr_len (m_req (s_msg s)) = 0
  | L169 st => s_t15 s = CLEARED /\ n35 = true /\ s_t35 s = CLEARED /\ st <> RET_OK
  | L171 => s_t15 s = CLEARED /\ n35 = true /\ s_t35 s = CLEARED
  | L173 => s_t15 s = CLEARED /\ n35 = true /\ s_t35 s = CLEARED /\ s_fe s = SET
  | _ => False
  end.
Definition Tr (rem : list sev) (t : list sitem) (l : spc) (s : slave) : Prop :=
  slave_ready c s /\ base l s /\ s_id s = id /\ s_data s = d0 /\ sent t = s0 /\
  exists xd n15 n35, evb xs rem xd n15 n35 /\ tbody l s n15 n35.
Definition wR (l : spc) : nat :=
  match l with
  | L193 => 18 | L186 => 16 | L186b => 15 | L188 => 14 | L189 => 13 | L190 => 12 | L191 => 11
  | L164 => 9 | L167 => 8 | L168 => 7 | L169 _ => 6 | L171 => 5 | L173 => 4 | _ => 1 end.
Definition fR (l : spc) (s : slave) : bool := match l with L186 | L186b | L193 => is_clr (s_t15 s) && is_clr (s_t35 s) | _ => false end.
Lemma recv_empty r i : rr_ok r -> rr_len r = 0 -> modbus_RTU_recv r i <> Ok RET_OK.
Proof. intros R Z0 E. apply recv_accept_iff in E; auto. apply intact_len in E. rewrite rx_frame_len, Z0 in E by auto. cbn in E. lia. Qed.

Lemma Tr_line rem t l s : Tr rem t l s -> exists l' s' o, s_line c l s = Ok (l', s', o) /\ Tr rem (t ++ map TOut o) (next l' s') s' /\
  (rem = [] -> if fR l s then fR (next l' s') s' = true else fR (next l' s') s' = true \/ (weight wR (mk_sconf s' l') < wR l)%nat).
Proof.
  intros (R & B & I & D & S1 & xd & n15 & n35 & V & Y). unfold Tr.
  step_setup l s c Hc R B E R' B' BS.
  assert (HM : s_mptr s = true) by apply R.
  assert (HQ : rr_ok (m_req (s_msg s))) by (destruct R as (_ & _ & _ & _ & _ & [? _] & _); auto).
  destruct l; try contradiction; cbn [tbody] in Y; cbn [s_line] in E.
  - destruct Y as (Y1 & -> & Y2 & Y3 & Y4). rewrite Y1 in E. cbn [is_set] in E; inversion E; subst; nxt BS B'.
    split; [|right; cbn; lia]. fin. exists xd, n15, true. cbn [tbody]. auto 10.
  - destruct Y as (Y1 & -> & Y2 & Y3 & Y4). inversion E; subst; nxt BS B'. split; [|right; cbn; lia]. fin. exists xd, n15, true. cbn [tbody]. prj. auto 10.
  - destruct Y as (Y1 & -> & Y2 & Y3 & Y4). rewrite HM in E.
    destruct (modbus_RTU_recv (m_req (s_msg s)) (s_id s)) as [st| |] eqn:EQ; try discriminate E. cbn [bind] in E. inversion E; subst; nxt BS B'. split; [|right; cbn; lia].
    fin. exists xd, n15, true. cbn [tbody]. fin. intros ->. revert EQ. apply recv_empty; auto.
  - destruct Y as (Y1 & -> & Y2 & Y3). destruct (RTU_status =? RET_OK) eqn:X; [lia|]. cbn [negb] in E; inversion E; subst; nxt BS B'.
    split; [|right; cbn; lia]. fin. exists xd, n15, true. cbn [tbody]. prj. fin.
  - destruct Y as (Y1 & -> & Y2). inversion E; subst; nxt BS B'. split; [|right; cbn; lia]. fin. exists xd, n15, true. cbn [tbody]. prj. fin.
  - destruct Y as (Y1 & -> & Y2 & Y3). inversion E; subst; nxt BS B'. split. { fin. exists xd, n15, true. cbn [tbody]. prj. split; auto 10. }
    intros _. left. cbn [fR]. prj. rewrite Y1, Y2. reflexivity.
  - assert (Y' := Y). destruct Y as [(Y1 & Y2 & Y3)|(-> & Y1 & Y2 & Y3)]; rewrite Y3 in E; cbn [is_set] in E; inversion E; subst; nxt BS B'; cbn [fR]; rewrite Y1, Y2.
    + split; [fin; exists xd, n15, n35; cbn [tbody]; fin|]. intros _. destruct n15, n35; cbn; auto; right; lia.
    + split; [fin; exists xd, n15, true; cbn [tbody]; fin|]. reflexivity.
  - assert (Y' := Y). destruct Y as [(Y1 & Y2 & Y3)|(-> & Y1 & Y2 & Y3)]; rewrite Y2 in E.
    + destruct n35; cbn [is_set bl] in E; inversion E; subst; nxt BS B'.
      * split. { fin. exists xd, n15, true. cbn [tbody]. split; auto. split; auto. rewrite Y1. destruct V as [(_ & V & _)|[(_ & V & _)|(V & _)]]; try discriminate. rewrite V. reflexivity. }
        intros _. cbn [fR]. rewrite Y2, andb_false_r. right. cbn. lia.
      * split; [|intros ->; exfalso; eapply not_yet35; eauto]. fin. exists xd, n15, false. cbn [tbody]. split; auto.
    + cbn [is_set] in E. inversion E; subst; nxt BS B'. split; [fin; exists xd, n15, true; cbn [tbody]; split; auto|]. intros _. cbn [fR]. rewrite Y1, Y2. reflexivity.
  - destruct Y as (Y1 & ->). rewrite HM in E. inversion E; subst; nxt BS B'. split; [|right; cbn; lia]. fin. exists xd, n15, true. cbn [tbody]. prj. fin.
  - destruct Y as (Y1 & -> & Y2). inversion E; subst; nxt BS B'. split; [|right; cbn; lia]. fin. exists xd, n15, true. cbn [tbody]. prj. fin.
  - destruct Y as (Y1 & -> & Y2). inversion E; subst; nxt BS B'. split; [|right; cbn; lia]. fin. exists xd, n15, true. cbn [tbody]. prj. fin.
  - destruct Y as (Y1 & -> & Y2 & Y3). inversion E; subst; nxt BS B'. split; [fin; exists xd, n15, true; cbn [tbody]; prj; fin|].
    intros _. right. unfold weight. cbn [sc_pc sc_s wR]. unfold s_dispatch. prj. rewrite BS. cbn. lia.
  - assert (Y' := Y). assert (Y3 : s_fe s = SET) by (destruct Y as [(_ & _ & Y)|(_ & _ & _ & Y)]; exact Y). rewrite Y3 in E. cbn [is_clr] in E. inversion E; subst; nxt BS B'. split.
    + fin. exists xd, n15, n35. cbn [tbody]. auto.
    + intros ->. destruct Y' as [(Y1 & Y2 & _)|(-> & Y1 & Y2 & _)]; cbn [fR]; rewrite Y1, Y2.
      * destruct n15; [|exfalso; eapply not_yet; eauto]. cbn. right. unfold s_dispatch. rewrite BS. cbn. lia.
      * reflexivity.
Qed.

Lemma Tr_event e rem t l s : Tr (e :: rem) t l s -> exists s', s_event e s = Ok s' /\ Tr rem (t ++ [TEv e]) l s'.
Proof.
  intros (R & B & I & D & S1 & xd & n15 & n35 & V & Y).
  destruct (event_ready c e s R) as (s' & E & R' & I'). exists s'. split; auto. assert (B' := base_event _ _ _ _ B E).
  unfold Tr. rewrite sent_app. cbn [sent]. rewrite app_nil_r.
  assert (HQ : rr_ok (m_req (s_msg s))) by (destruct R as (_ & _ & _ & _ & _ & [? _] & _); auto).
  destruct R as (_ & _ & HS & HR & _). rewrite I', I. split; auto. split; auto. split; auto.
  assert (N : n35 = false) by (destruct V as [(_ & -> & _)|[(_ & -> & _)|(_ & _ & _ & V)]]; auto; discriminate). subst n35.
  assert (K : (l = L186 \/ l = L186b \/ l = L193) /\ s_t15 s = bl n15 /\ s_t35 s = CLEARED /\ s_fe s = SET).
  { destruct l; cbn [tbody] in Y; try contradiction; try (destruct Y as [(Y1 & Y2 & Y3)|(Y & _)]; [|discriminate]; auto 10; fail); repeat match goal with H : _ /\ _ |- _ => destruct H end; try discriminate. }
  destruct K as (K & Y1 & Y2 & Y3).
  assert (KT : forall a b s2, s_t15 s2 = bl a -> s_t35 s2 = bl b -> s_fe s2 = SET -> tbody l s2 a b).
  { intros. destruct K as [->|[->| ->]]; cbn [tbody]; left; auto. }
  destruct V as [(-> & _ & x2 & Vx & V)|[(-> & _ & -> & V)|(_ & _ & _ & V)]]; [| |discriminate].
  - destruct x2 as [|e' x2]; cbn [app] in V; inversion V; subst e rem.
    + cbn [s_event] in E. rewrite HS in E. inversion E; subst s'. prj. fin. exists xd, true, false. rewrite app_nil_r in Vx. subst xd.
      split; [right; left; auto|]. apply KT; auto.
    + assert (He : is_reception e' = true). { rewrite Vx, forallb_app in Hx. cbn [forallb] in Hx. apply andb_true_iff in Hx as [_ Hx]. apply andb_true_iff in Hx as [Hx _]. exact Hx. }
      assert (V2 : evb xs (x2 ++ [ST15; ST35]) (xd ++ [e']) false false). { left. split; auto. split; auto. exists x2. rewrite <- app_assoc. auto. }
      destruct e'; try discriminate He; cbn [s_event] in E.
      * rewrite HS in E. inversion E; subst s'. prj. fin. exists (xd ++ [SFrameErr]), false, false. split; auto.
      * destruct (rx_byte _ b HQ) as (r' & E1 & X1). rewrite HR, E1 in E. cbn [bind] in E. inversion E; subst s'. prj. fin.
        exists (xd ++ [SRx b]), false, false. split; auto.
  - inversion V; subst e rem. cbn [s_event] in E. rewrite HS in E. inversion E; subst s'. prj. fin. exists xs, true, true. split; [right; right; auto|]. apply KT; auto.
Qed.
Lemma Tr_tx rem t l s : Tr rem t l s -> rem <> [] -> exists s', s_event STxDone s = Ok s' /\ Tr rem (t ++ [TEv STxDone]) l s'.
Proof.
  intros (R & B & I & D & S1 & xd & n15 & n35 & V & Y) _.
  destruct (event_ready c STxDone s R) as (s' & E & R' & I'). exists s'. split; auto. assert (B' := base_event _ _ _ _ B E).
  assert (HS : s_sub s = true) by apply R.
  unfold Tr. rewrite I', I. cbn [s_event] in E. rewrite HS in E. inversion E; subst s'. prj. rewrite sent_app. cbn [sent]. rewrite app_nil_r.
  repeat (split; auto). exists xd, n15, n35. split; auto.
Qed.
End trap.

Lemma trap_run c k xs sched n t : cfg_tables_ok c -> trapped c k -> forallb is_reception xs = true ->
  arrival xs (events sched) -> (20 <= n)%nat ->
  exists k' o, s_run c (sched ++ repeat SStep n) k = Ok (k', o) /\ trapped c k' /\ s_id (sc_s k') = s_id (sc_s k) /\ s_data (sc_s k') = s_data (sc_s k) /\ sent (t ++ o) = sent t.
Proof.
  intros Hc (R & B & Lk & F1 & F2 & F3) Hx E Hn.
  destruct (phase_progress_tx c (Tr c (s_data (sc_s k)) (s_id (sc_s k)) xs (sent t)) fR wR 20) with (sched := sched) (n := n) (t := t) (k := k) (xs := xs) as (k2 & o2 & E2 & H2 & K2); auto.
  - intros. now apply Tr_line.
  - intros. eapply Tr_event; eauto.
  - intros. now apply Tr_tx.
  - intros l s. destruct l; cbn; congruence.
  - intros t' l s _. destruct l; cbn; lia.
  - unfold Tr. fin. exists [], false, false. split; [left; split; auto; split; auto; exists xs; auto|].
    destruct Lk as [->|[->| ->]]; cbn [tbody]; left; auto.
  - exists k2, o2. split; auto. destruct H2 as (R2 & B2 & I2 & D2 & S2 & xd & n15 & n35 & V & Y). split; [|fin].
    unfold fR in K2. destruct (loc k2) eqn:K; try discriminate; apply andb_true_iff in K2 as [K3 K4]; apply is_clr_iff in K3, K4;
    unfold trapped; rewrite K; cbn [tbody] in Y; fin; destruct Y as [(_ & _ & Y)|(_ & _ & _ & Y)]; auto.
Qed.
