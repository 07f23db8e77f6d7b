(** C100, C101: the slave's initialisation with interrupts. *)
From Verif Require Export Proofs.SlaveSystem Model.SlaveInit Spec.SlaveInit.
From Verif Require Import Proofs.SlaveWire.

Definition num (p : option ipc) : nat :=
  match p with
  | Some I267 => 0 | Some I268 => 1 | Some I252 => 2 | Some I286 => 3 | Some V73 => 4 | Some V74 => 5 | Some V76 => 6 | Some V77 => 7 | Some V78 => 8 | Some I288 => 9
  | Some I289 => 10 | Some I290 => 11 | Some I291 => 12 | Some I292 => 13 | Some I311 => 14 | Some I313 => 15 | Some I315 => 16 | Some I316 => 17 | Some I317 => 18 | Some I318 => 19
  | None => 20
  end%nat.
Lemma num_line id x : num (i_pc (i_line id x)) = Nat.min 20 (S (num (i_pc x))).
Proof. unfold i_line. destruct (i_pc x) as [[]|] eqn:E; cbn; rewrite ?E; reflexivity. Qed.
Lemma num_none p : num p = 20%nat -> p = None.
Proof. destruct p as [[]|]; cbn; intros; (lia || reflexivity). Qed.
Lemma num_le p : (num p <= 20)%nat.
Proof. destruct p as [[]|]; cbn; lia. Qed.

(** *** nothing received so far *)
Fixpoint lines (n : nat) (id : Z) (x : isys) : isys := match n with O => x | S n => i_line id (lines n id x) end.
Definition with_data (d : sdata) (x : isys) : isys := mk_isys (s_set_data (i_lib x) d) (i_u x) (i_ue x) (i_nu x) (i_nt x) (i_subs x) (i_pc x).
Lemma line_data id d x : i_line id (with_data d x) = with_data d (i_line id x).
Proof. unfold i_line. cbn [i_pc with_data]. destruct (i_pc x) as [[]|]; reflexivity. Qed.
Lemma num_lines n id x : num (i_pc (lines n id x)) = Nat.min 20 (n + num (i_pc x)).
Proof. induction n as [|n IH]; cbn [lines]; [pose proof (num_le (i_pc x)); lia|]. rewrite num_line, IH. lia. Qed.
(** the UART's registers are those of a resting UART *)
Definition calm (u : uart) : Prop := u_tdr u = None /\ u_rdr u = None /\ u_txeie u = false /\ u_rtof u = false /\ u_cen u = false /\ u_uif u = false.
Lemma calm_line id x : calm (i_u x) -> calm (i_u (i_line id x)).
Proof. unfold i_line. destruct (i_pc x) as [[]|]; auto. Qed.
Lemma calm_lines n id x : calm (i_u x) -> calm (i_u (lines n id x)).
Proof. intros H. induction n; cbn [lines]; auto using calm_line. Qed.
Lemma calm_act id a x : calm (i_u x) -> quiet_act a = true ->
  i_act id a x = match a with AMain => Ok (i_line id x, [])
                 | AApp bs rs => let* s' := s_event (SApp bs rs) (i_lib x) in Ok (mk_isys s' (i_u x) (i_ue x) (i_nu x) (i_nt x) (i_subs x) (i_pc x), [YLib (TEv (SApp bs rs))])
                 | _ => Ok (x, []) end.
Proof.
  intros (U1 & U2 & U3 & U4 & U5 & U6) Q. destruct a; try discriminate; cbn [i_act].
  - reflexivity.
  - unfold usart_pending. rewrite U1, U2, U3, U4. cbn [orb]. now rewrite andb_false_r.
  - unfold i_timer. rewrite U6. cbn [bind]. destruct (i_nt x) eqn:N; [|reflexivity]. destruct x; cbn in *; subst; reflexivity.
  - reflexivity.
  - now rewrite U1.
  - now rewrite U5.
Qed.
Lemma app_data c bs rs s : data_ok c (s_data s) -> exists d', s_event (SApp bs rs) s = Ok (s_set_data s d') /\ data_ok c d'.
Proof.
  intros H. cbn [s_event]. destruct (Nat.eqb (length bs) (length (v_bits (s_data s)))) eqn:E1; cbn [andb]; [|exists (s_data s); split; [destruct s; reflexivity|auto]].
  destruct (Nat.eqb (length rs) (length (v_regs (s_data s)))) eqn:E2; cbn [andb]; [|exists (s_data s); split; [destruct s; reflexivity|auto]].
  destruct (forallb _ rs) eqn:E3; [|exists (s_data s); split; [destruct s; reflexivity|auto]].
  eexists. split; [reflexivity|]. apply Nat.eqb_eq in E1, E2. apply words_dec in E3. exact (set_regs_ok c _ rs (set_bits_ok c _ bs H E1) E2 E3).
Qed.
(** a silent run: the lines executed, and the application's changes *)
Lemma silent_run c id l : forall x d, calm (i_u x) -> data_ok c d -> silent l = true ->
  exists d' t, i_run id l (with_data d x) = Ok (with_data d' (lines (mains l) id x), t) /\ data_ok c d' /\ (no_app l = true -> d' = d) /\ on_line t = [].
Proof.
  induction l as [|a l IH]; intros x d U D Q.
  - exists d, []. cbn. auto.
  - cbn [silent forallb] in Q. apply andb_true_iff in Q. destruct Q as (Q & Ql). cbn [i_run]. rewrite calm_act by auto.
    assert (Sh : forall n, lines n id (i_line id x) = i_line id (lines n id x)) by (induction n as [|n IHn]; cbn [lines]; congruence).
    destruct a; try discriminate; cbn [bind].
    + rewrite line_data. destruct (IH (i_line id x) d (calm_line id x U) D Ql) as (d' & t & E & D' & N & O). rewrite E. cbn [bind].
      exists d', t. unfold mains in *. cbn [filter length]. cbn [lines]. rewrite <- Sh. auto.
    + destruct (IH x d U D Ql) as (d' & t & E & D' & N & O). rewrite E. cbn [bind]. exists d', t. auto.
    + destruct (IH x d U D Ql) as (d' & t & E & D' & N & O). rewrite E. cbn [bind]. exists d', t. auto.
    + destruct (app_data c bits regs (s_set_data (i_lib x) d) D) as (d1 & E1 & D1). cbn [with_data i_lib i_u i_ue i_nu i_nt i_subs i_pc]. rewrite E1. cbn [bind].
      change (mk_isys (s_set_data (s_set_data (i_lib x) d) d1) (i_u x) (i_ue x) (i_nu x) (i_nt x) (i_subs x) (i_pc x)) with (with_data d1 x).
      destruct (IH x d1 U D1 Ql) as (d' & t & E & D' & N & O). rewrite E. cbn [bind]. exists d', (YLib (TEv (SApp bits regs)) :: t). split; [reflexivity|]. split; [auto|]. split; [discriminate|exact O].
    + destruct (IH x d U D Ql) as (d' & t & E & D' & N & O). rewrite E. cbn [bind]. exists d', t. auto.
    + destruct (IH x d U D Ql) as (d' & t & E & D' & N & O). rewrite E. cbn [bind]. exists d', t. auto.
Qed.

(** *** all callbacks subscribed *)
Definition inv_b (c : cfg) (x : isys) : Prop := slave_ready c (i_lib x) /\ uart_ok (i_u x) /\ all_subscribed x = true.
Lemma subs_all x : all_subscribed x = true -> i_subs x = mk_subs true true true true.
Proof. unfold all_subscribed. destruct (i_subs x) as [[] [] [] []]; cbn; (reflexivity || discriminate). Qed.
Lemma line_b c id x : byte id -> inv_b c x -> inv_b c (i_line id x).
Proof.
  intros Hi (R & U & B). pose proof (subs_all x B) as E. unfold inv_b, all_subscribed, i_line.
  assert (R' := R). destruct R' as (H1 & H2 & H3 & H4 & H5 & [H6 H7] & H8). destruct H6 as (P1 & L1 & B1 & Le1). destruct H7 as (P2 & L2 & B2 & Le2).
  assert (V := ready_upd c _ R).
  destruct (i_pc x) as [[]|]; cbn [i_lib i_u i_subs i_set b_tx b_t15 b_t35 b_fe]; rewrite ?E; cbn [b_tx b_t15 b_t35 b_fe andb]; repeat split; auto;
    cbn [s_drv s_mptr s_sub s_rx s_id s_msg s_data s_set_id s_set_st s_set_drv s_set_mptr s_set_msg s_set_t15 s_set_t35 s_set_fe s_set_tx s_set_sub s_set_rx m_req m_resp rr_ptr rr_buf rr_len]; auto; try apply U; try apply H8; try apply H5; try apply Hi; try apply Le1; try apply Le2; try apply B1; try apply B2.
Qed.
Lemma i_event_y e s : s_sub s = true -> i_event e s = (let* k := y_event e (mk_sconf s None) in Ok (sc_s k)).
Proof.
  intros H. unfold i_event, y_event. cbn [sc_s]. replace (s_set_sub s true) with s by (unfold s_set_sub; destruct s; cbn in *; subst; reflexivity). destruct (s_event e s) as [s'| |] eqn:E; cbn [bind sc_s]; try reflexivity.
  f_equal. assert (X : s_sub s' = true).
  { destruct e; cbn [s_event] in E; rewrite ?H in E.
    1-4: inversion E; subst; cbn; auto.
    - destruct (s_rx s); [|inversion E; subst; auto]. destruct (wr _ _ _); try discriminate. cbn [bind] in E. inversion E; subst. exact H.
    - inversion E; subst. destruct (_ && _); exact H. }
  rewrite H. unfold s_set_sub. destruct s'; cbn in *; subst; reflexivity.
Qed.
Lemma ready_sub c s : slave_ready c s -> s_sub s = true. Proof. intros R. apply R. Qed.
Lemma i_usart_ok c s u : slave_ready c s -> uart_ok u -> exists s' u' t, i_usart (mk_subs true true true true) s u = Ok (s', u', t) /\ slave_ready c s' /\ uart_ok u'.
Proof.
  intros R U.
  assert (Ev : forall e s, slave_ready c s -> exists s', i_event e s = Ok s' /\ slave_ready c s').
  { intros e s0 R0. rewrite (i_event_y e s0 (ready_sub c s0 R0)). destruct (y_event_ok c e (mk_sconf s0 None) R0) as (k' & E & R'). rewrite E. cbn [bind]. eauto. }
  unfold i_usart. cbn [b_tx b_t15 b_fe].
  assert (A : exists s1 u1 t1, i_usart_rx (mk_subs true true true true) s u = Ok (s1, u1, t1) /\ slave_ready c s1 /\ uart_ok u1).
  { unfold i_usart_rx. cbn [b_fe]. destruct (u_rdr u) as [b|]; [|eauto 10]. assert (HR : s_rx s = true) by apply R. rewrite HR.
    destruct (Ev (SRx b) s R) as (k1 & E1 & R1). rewrite E1. cbn [bind]. destruct (u_det u).
    - destruct (Ev SFrameErr k1 R1) as (k2 & E2 & R2). rewrite E2. cbn [bind]. do 3 eexists. split; [reflexivity|]. auto.
    - do 3 eexists. split; [reflexivity|]. auto. }
  destruct A as (k1 & u1 & t1 & E1 & R1 & U1). rewrite E1. cbn [bind].
  assert (B : exists k2 u2 t2, i_usart_tx (mk_subs true true true true) k1 u1 = Ok (k2, u2, t2) /\ slave_ready c k2 /\ uart_ok u2).
  { unfold i_usart_tx. cbn [b_tx]. destruct (u_tdr u1) as [b|]; [eauto 10|]. destruct (u_cur u1 <? u_last u1) eqn:Q.
    - unfold uart_ok in U1. destruct (rd_ready c (mk_sconf k1 None) (u_cur u1 + 1) R1 ltac:(lia)) as (b & E & _). cbn [sc_s] in E. rewrite E. cbn [bind]. do 3 eexists. split; [reflexivity|]. split; auto.
      unfold uart_ok. cbn [u_cur u_last]. lia.
    - destruct (Ev STxDone k1 R1) as (k2 & E2 & R2). rewrite E2. cbn [bind]. do 3 eexists. split; [reflexivity|]. auto. }
  destruct B as (k2 & u2 & t2 & E2 & R2 & U2). rewrite E2. cbn [bind].
  unfold i_usart_rto. cbn [b_t15]. destruct (u_rtof u2).
  - destruct (Ev ST15 k2 R2) as (k3 & E3 & R3). rewrite E3. cbn [bind]. do 3 eexists. split; [reflexivity|]. auto.
  - cbn [bind]. do 3 eexists. split; [reflexivity|]. auto.
Qed.
Lemma act_b c id a x : byte id -> inv_b c x -> exists x' t, i_act id a x = Ok (x', t) /\ inv_b c x' /\ num (i_pc x') = (if match a with AMain => true | _ => false end then Nat.min 20 (S (num (i_pc x))) else num (i_pc x)).
Proof.
  intros Hi H. assert (H0 := H). destruct H as (R & U & B). pose proof (subs_all x B) as E. destruct a; cbn [i_act].
  - do 2 eexists. split; [reflexivity|]. split; [apply line_b; auto|]. apply num_line.
  - destruct (i_nu x && _); [|do 2 eexists; split; [reflexivity|]; auto]. rewrite E. destruct (i_usart_ok c _ _ R U) as (s' & u' & t & E' & R' & U'). rewrite E'. cbn [bind]. do 2 eexists. split; [reflexivity|]. split; [split; [exact R'|split; [exact U'|reflexivity]]|reflexivity].
  - destruct (i_nt x); [|do 2 eexists; split; [reflexivity|]; auto]. rewrite E. unfold i_timer. cbn [b_t35]. destruct (u_uif (i_u x)).
    + rewrite (i_event_y ST35 _ (ready_sub c _ R)). destruct (y_event_ok c ST35 (mk_sconf (i_lib x) None) R) as (k1 & E1 & R1). rewrite E1. cbn [bind]. do 2 eexists. split; [reflexivity|]. split; [split; [exact R1|split; [exact U|reflexivity]]|reflexivity].
    + cbn [bind]. do 2 eexists. split; [reflexivity|]. split; [split; [exact R|split; [exact U|reflexivity]]|reflexivity].
  - destruct (event_ready c (SApp bits regs) _ R) as (s' & E1 & R1 & _). rewrite E1. cbn [bind]. do 2 eexists. split; [reflexivity|]. split; [split; [exact R1|split; [exact U|exact B]]|reflexivity].
  - do 2 eexists. split; [reflexivity|]. destruct (i_ue x); (split; [split; [exact R|split; [exact U|exact B]]|reflexivity]).
  - destruct (u_tdr (i_u x)); do 2 eexists; (split; [reflexivity|]); auto. destruct (i_ue x); (split; [split; [exact R|split; [exact U|exact B]]|reflexivity]).
  - do 2 eexists. split; [reflexivity|]. destruct (i_ue x); (split; [split; [exact R|split; [exact U|exact B]]|reflexivity]).
  - destruct (u_cen (i_u x)); do 2 eexists; (split; [reflexivity|]); auto. destruct (i_ue x); (split; [split; [exact R|split; [exact U|exact B]]|reflexivity]).
Qed.
Lemma run_b c id l : byte id -> forall x, inv_b c x -> exists x' t, i_run id l x = Ok (x', t) /\ inv_b c x' /\ num (i_pc x') = Nat.min 20 (mains l + num (i_pc x)).
Proof.
  intros Hi. induction l as [|a l IH]; intros x H; cbn [i_run].
  - do 2 eexists. split; [reflexivity|]. split; auto. pose proof (num_le (i_pc x)). change (mains []) with 0%nat. lia.
  - destruct (act_b c id a x Hi H) as (x1 & t1 & E1 & H1 & N1). rewrite E1. cbn [bind]. destruct (IH x1 H1) as (x2 & t2 & E2 & H2 & N2). rewrite E2. cbn [bind].
    do 2 eexists. split; [reflexivity|]. split; auto. rewrite N2, N1. unfold mains. cbn [filter]. destruct a; cbn [length]; lia.
Qed.

(** *** from power-on *)
Definition at_stage (c : cfg) (bits : list bool) (regs : list Z) (id : Z) (n : nat) (d : sdata) : isys := with_data d (lines n id (power_on c bits regs)).
Lemma late_lines id x : num (i_pc x) = 20%nat -> forall n, lines n id x = x.
Proof. intros H. apply num_none in H. induction n as [|n IH]; cbn [lines]; auto. rewrite IH. unfold i_line. rewrite H. reflexivity. Qed.
Lemma lines_add m n id x : lines (m + n) id x = lines m id (lines n id x).
Proof. induction m as [|m IH]; cbn [Nat.add lines]; auto. now rewrite IH. Qed.
Lemma lines_20 n id x : num (i_pc x) = 0%nat -> lines n id x = lines (Nat.min n 20) id x.
Proof.
  intros H. destruct (le_lt_dec n 20) as [L|L]; [now rewrite Nat.min_l by lia|]. rewrite Nat.min_r by lia. replace n with ((n - 20) + 20)%nat by lia. rewrite lines_add, late_lines; auto. rewrite num_lines, H. reflexivity.
Qed.
Lemma static_rr : rr_ok (mk_rr true (repeat 0 256) 0).
Proof. split; [reflexivity|]. split; [apply repeat_length|]. split; [|unfold byte; cbn; lia]. apply Forall_forall. intros b Hb. apply repeat_spec in Hb. subst. unfold byte. lia. Qed.
Lemma stage_ready c bits regs id n d : byte id -> data_ok c d -> (14 <= n)%nat -> inv_b c (at_stage c bits regs id n d).
Proof.
  intros Hi D L. unfold at_stage. rewrite lines_20 by reflexivity.
  assert (M : msg_ok (mk_msg (mk_rr true (repeat 0 256) 0) (mk_rr true (repeat 0 256) 0))) by (split; apply static_rr).
  assert (X : exists n', Nat.min n 20 = n' /\ (14 <= n' <= 20)%nat) by (eexists; split; [reflexivity|lia]). destruct X as (n' & -> & X). clear L. set (buf := repeat 0 256) in *.
  assert (W : byte 0) by (unfold byte; lia).
  do 14 (destruct n' as [|n']; [lia|]). do 7 (destruct n' as [|n']; [unfold inv_b, slave_ready, uart_ok, all_subscribed; cbn; fold buf; repeat split; auto; try apply M; try apply D; try apply Hi; try lia|]). lia.
Qed.
Lemma stage_subs c bits regs id n d : all_subscribed (at_stage c bits regs id n d) = true -> (14 <= n)%nat.
Proof.
  intros H. destruct (le_lt_dec 14 n) as [L|L]; auto. exfalso. do 14 (destruct n as [|n]; [discriminate H|]). lia.
Qed.
Lemma stage_num c bits regs id n d : num (i_pc (at_stage c bits regs id n d)) = Nat.min 20 n.
Proof. unfold at_stage. cbn [with_data i_pc]. rewrite num_lines. change (num (i_pc (power_on c bits regs))) with 0%nat. lia. Qed.
Lemma careful_run c bits regs id l : byte id -> forall n d, data_ok c d -> careful id l (at_stage c bits regs id n d) ->
  exists x t, i_run id l (at_stage c bits regs id n d) = Ok (x, t) /\ num (i_pc x) = Nat.min 20 (mains l + n) /\ (i_pc x = None -> inv_b c x).
Proof.
  intros Hi. induction l as [|a l IH]; intros n d D C.
  - do 2 eexists. split; [reflexivity|]. rewrite stage_num. split; [reflexivity|]. intros P. apply stage_ready; auto. pose proof (stage_num c bits regs id n d) as N. rewrite P in N. cbn [num] in N. lia.
  - destruct (all_subscribed (at_stage c bits regs id n d)) eqn:Al.
    + destruct (run_b c id (a :: l) Hi _ (stage_ready c bits regs id n d Hi D (stage_subs _ _ _ _ _ _ Al))) as (x & t & E & B & N). exists x, t. split; [exact E|]. split; [|auto]. rewrite N, stage_num. lia.
    + cbn [careful] in C. destruct C as (Q & C). assert (Qa : quiet_act a = true) by (destruct (quiet_act a); auto; rewrite Q in Al by auto; discriminate).
      cbn [i_run]. assert (U : calm (i_u (at_stage c bits regs id n d))) by (apply calm_lines; repeat split).
      assert (Ac := calm_act id a _ U Qa). destruct a; try discriminate Qa.
      * unfold at_stage in Ac. rewrite line_data in Ac. change (i_line id (lines n id (power_on c bits regs))) with (lines (S n) id (power_on c bits regs)) in Ac. fold (at_stage c bits regs id n d) in Ac. fold (at_stage c bits regs id (S n) d) in Ac.
        specialize (C _ _ Ac). rewrite Ac. cbn [bind]. destruct (IH (S n) d D C) as (x & t & E & N & B). rewrite E. cbn [bind]. do 2 eexists. split; [reflexivity|]. split; [|auto]. rewrite N. unfold mains. cbn [filter length]. lia.
      * specialize (C _ _ Ac). rewrite Ac. cbn [bind]. destruct (IH n d D C) as (x & t & E & N & B). rewrite E. cbn [bind]. do 2 eexists. split; [reflexivity|]. auto.
      * specialize (C _ _ Ac). rewrite Ac. cbn [bind]. destruct (IH n d D C) as (x & t & E & N & B). rewrite E. cbn [bind]. do 2 eexists. split; [reflexivity|]. auto.
      * destruct (app_data c bits0 regs0 (i_lib (at_stage c bits regs id n d)) D) as (d1 & E1 & D1). rewrite E1 in Ac. cbn [bind] in Ac.
        change (mk_isys (s_set_data (i_lib (at_stage c bits regs id n d)) d1) (i_u (at_stage c bits regs id n d)) (i_ue (at_stage c bits regs id n d)) (i_nu (at_stage c bits regs id n d)) (i_nt (at_stage c bits regs id n d)) (i_subs (at_stage c bits regs id n d)) (i_pc (at_stage c bits regs id n d))) with (at_stage c bits regs id n d1) in Ac.
        specialize (C _ _ Ac). rewrite Ac. cbn [bind]. destruct (IH n d1 D1 C) as (x & t & E & N & B). rewrite E. cbn [bind]. do 2 eexists. split; [reflexivity|]. auto.
      * specialize (C _ _ Ac). rewrite Ac. cbn [bind]. destruct (IH n d D C) as (x & t & E & N & B). rewrite E. cbn [bind]. do 2 eexists. split; [reflexivity|]. auto.
      * specialize (C _ _ Ac). rewrite Ac. cbn [bind]. destruct (IH n d D C) as (x & t & E & N & B). rewrite E. cbn [bind]. do 2 eexists. split; [reflexivity|]. auto.
Qed.
Lemma running_ok c x : inv_b c x -> sys_ok c (running_fw x).
Proof. intros (R & U & _). split; [exact R|]. split; [exact U|exact I]. Qed.
Lemma power_on_stage c bits regs id : power_on c bits regs = at_stage c bits regs id 0 (s_data (slave_static c bits regs)).
Proof. reflexivity. Qed.
