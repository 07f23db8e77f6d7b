(** What the receive buffer holds. *)
From Verif Require Export Proofs.SlavePhase.

Definition rxb (l : list Z) (r : rr) : Prop := rr_len r = Z.of_nat (length l mod 256) /\ rx_frame r = buffered l.
Lemma buffered_short l : (length l < 256)%nat -> buffered l = l.
Proof. intros H. unfold buffered. rewrite Nat.div_small by auto. reflexivity. Qed.
Lemma buffered_len l : length (buffered l) = (length l mod 256)%nat.
Proof. unfold buffered. rewrite skipn_length. rewrite (Nat.mod_eq _ 256) by lia. reflexivity. Qed.
Lemma rxb_nil r : rr_len r = 0 -> rxb [] r.
Proof. intros H. unfold rxb, rx_frame. rewrite H. auto. Qed.
Lemma rxb_rx l r b : rr_ok r -> rxb l r -> exists r', wr r (rr_len r) (u8 b) = Ok r' /\ rxb (l ++ [u8 b]) (set_len r' (u8 (rr_len r' + 1))).
Proof.
  intros R [A B]. destruct (rx_byte r b R) as (r' & E & R2 & L' & B'). exists r'. split; auto.
  unfold rxb. unfold rx_frame, set_len. cbn [rr_len rr_buf]. rewrite L', B', app_length. cbn [length].
  destruct R as (P & L & Bb & Hl). set (n := length l) in *.
  assert (Q : n = (256 * (n / 256) + n mod 256)%nat) by (apply Nat.div_mod; lia).
  assert (Q2 : (n mod 256 < 256)%nat) by (apply Nat.mod_upper_bound; lia).
  destruct (Nat.eq_dec (n mod 256) 255) as [W|W].
  - assert (M1 : ((n + 1) mod 256 = 0)%nat) by (symmetry; apply (Nat.mod_unique _ _ (n/256 + 1)); lia).
    assert (M2 : ((n + 1) / 256 = n / 256 + 1)%nat) by (symmetry; apply (Nat.div_unique _ _ _ 0); lia).
    rewrite M1, A, W. split; [reflexivity|]. change (u8 (Z.of_nat 255 + 1)) with 0. cbn [Z.to_nat firstn].
    unfold buffered. rewrite app_length. cbn [length]. fold n. rewrite M2, skipn_all2; auto. rewrite app_length. cbn [length]. fold n. lia.
  - assert (M1 : ((n + 1) mod 256 = n mod 256 + 1)%nat) by (symmetry; apply (Nat.mod_unique _ _ (n/256)); lia).
    assert (M2 : ((n + 1) / 256 = n / 256)%nat) by (symmetry; apply (Nat.div_unique _ _ _ (n mod 256 + 1)); lia).
    rewrite M1, A. unfold u8 at 1. rewrite Z.mod_small by lia. split; [lia|].
    unfold u8 at 1. rewrite Z.mod_small by lia.
    unfold buffered. rewrite app_length. cbn [length]. fold n. rewrite M2, skipn_app.
    replace (256 * (n / 256) - length l)%nat with 0%nat by (fold n; lia). cbn [skipn].
    rewrite !Nat2Z.id. unfold rx_frame in B. rewrite A, Nat2Z.id in B. unfold buffered in B. fold n in B. rewrite <- B.
    replace (Z.to_nat (Z.of_nat (n mod 256) + 1)) with (S (n mod 256)) by lia.
    rewrite <- (firstn_skipn (n mod 256) (rr_buf r)) at 1.
    assert (LF : length (firstn (n mod 256) (rr_buf r)) = (n mod 256)%nat) by (rewrite firstn_length; lia).
    destruct (skipn (n mod 256) (rr_buf r)) as [|y tl] eqn:K.
    { apply (f_equal (@length Z)) in K. rewrite skipn_length in K. cbn [length] in K. lia. }
    rewrite upd_app_mid by auto. rewrite firstn_app, LF. rewrite firstn_all2 by lia.
    replace (S (n mod 256) - n mod 256)%nat with 1%nat by lia. reflexivity.
Qed.

(** what the frame check is given is what was received *)
Definition checks_honest (t : list sitem) : Prop :=
  forall t1 g t2, t = t1 ++ TOut (SoCheck g) :: t2 -> g = buffered (received t1).
Lemma honest_snoc t x : checks_honest t -> (forall g, x = TOut (SoCheck g) -> g = buffered (received t)) -> checks_honest (t ++ [x]).
Proof.
  intros G H t1 g t2 E. destruct t2 as [|y t2] using rev_ind.
  - apply app_inj_tail in E as [-> ->]. eauto.
  - rewrite app_comm_cons, app_assoc in E. apply app_inj_tail in E as [-> _]. eauto.
Qed.
Definition rinv (c : cfg) (t : list sitem) (l : spc) (s : slave) : Prop :=
  slave_ready c s /\ rxb (received t) (m_req (s_msg s)) /\ checks_honest t.
Lemma rinv_run c sched : cfg_tables_ok c -> forall t k k' o, rinv c t (loc k) (sc_s k) -> s_run c sched k = Ok (k', o) ->
  rinv c (t ++ o) (loc k') (sc_s k').
Proof.
  intros Hc. apply abs_inv.
  - intros t l s l' s' o (R & X & Hn) E. destruct (line_ready c l s Hc R) as (l2 & s2 & o2 & E2 & R' & I').
    rewrite E in E2. inversion E2; subst l2 s2 o2. clear E2. split; auto. clear I' R'.
    assert (RQ : rr_ok (m_req (s_msg s))) by (destruct R as (_ & _ & _ & _ & _ & [? _] & _); auto).
    destruct l; line_inv E; cbn [map]; rewrite ?app_nil_r; snoc; cbn [rx_f]; prj; cbn [set_req set_resp m_req]; auto;
      try (split; [first [assumption|apply rxb_nil; reflexivity]|]); try (apply honest_snoc; [assumption|]); try (intros g Hg; inversion Hg; subst; clear Hg).
    + apply X.
    + destruct (c36 c _ _ Hc (proj2 (proj2 (proj2 (proj2 (proj2 (proj2 R)))))) (proj1 (proj2 (proj2 (proj2 (proj2 (proj2 R))))))) as (st & m' & d' & E' & D & Q & P).
      rewrite E' in Y. inversion Y; subst. rewrite Q. split; auto. apply honest_snoc; auto. discriminate.
  - intros t l s e s' (R & X & Hn) E. destruct (event_ready c e s R) as (s2 & E2 & R' & I'). rewrite E in E2. inversion E2; subst s2. clear E2.
    split; auto. assert (RQ : rr_ok (m_req (s_msg s))) by (destruct R as (_ & _ & _ & _ & _ & [? _] & _); auto).
    snoc. split; [|apply honest_snoc; auto; discriminate]. clear R'.
    destruct e; cbn [rx_f]; try (ev_inv E; auto; fail).
    destruct (rxb_rx _ _ b RQ X) as (r' & E1 & X1). cbn [s_event] in E. destruct R as (_ & _ & _ & HR & _). rewrite HR, E1 in E. cbn [bind] in E. inversion E; subst.
    auto.
Qed.
