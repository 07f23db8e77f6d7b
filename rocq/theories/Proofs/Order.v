(** Only the order of the received bytes matters among interrupts between two lines of the program. *)
From Verif Require Import Proofs.Lib Model.Slave Model.Master Spec.SlaveTrace Spec.Atomic.
From Verif Require Proofs.Atomic.
From Verif Require Import Spec.MasterTraffic Proofs.MasterInv Proofs.MasterTrace Proofs.MasterHist Proofs.MasterHist2 Proofs.MasterAtomic.
Local Open Scope Z_scope.

Definition got (f : flag) (old : flag) (b : bool) : flag := if b then f else old.
Lemma got_step f old b b' : got f (got f old b) b' = got f old (b || b').
Proof. destruct b, b'; reflexivity. Qed.
Lemma u8_u8 b : u8 (u8 b) = u8 b.
Proof. unfold u8. rewrite Z.mod_mod by lia. reflexivity. Qed.
Lemma exists_in {A} (p : A -> bool) (x : A) l : (forall y, p y = true <-> y = x) -> existsb p l = true <-> In x l.
Proof. intros H. rewrite existsb_exists. split; [intros (y & I & E); apply H in E; subst; auto|intros I; exists x; split; auto; apply H; auto]. Qed.
Lemma same_exists {A} (p : A -> bool) (x : A) l l' : (forall y, p y = true <-> y = x) -> (In x l <-> In x l') -> existsb p l = existsb p l'.
Proof.
  intros H E. assert (A1 := exists_in p x l H). assert (A2 := exists_in p x l' H). destruct (existsb p l), (existsb p l'); auto.
  - symmetry. apply A2, E, A1. reflexivity.
  - apply A1, E, A2. reflexivity.
Qed.

(** *** slave *)
Definition is_stx (e : Slave.sev) : bool := match e with STxDone => true | _ => false end.
Definition is_s15 (e : Slave.sev) : bool := match e with ST15 => true | _ => false end.
Definition is_s35 (e : Slave.sev) : bool := match e with ST35 => true | _ => false end.
Definition is_sfe (e : Slave.sev) : bool := match e with SFrameErr => true | _ => false end.
Definition s_put (m : msg) (b : Z) : msg := let r := m_req m in set_req m (mk_rr true (upd (rr_buf r) (Z.to_nat (rr_len r)) (u8 b)) (u8 (rr_len r + 1))).
Definition s_after (es : list Slave.sev) (s : slave) : slave :=
  s_set_tx (s_set_t15 (s_set_t35 (s_set_fe (s_set_msg s (fold_left s_put (SlaveTrace.rx_bytes es) (s_msg s)))
    (got SET (s_fe s) (existsb is_sfe es))) (got SET (s_t35 s) (existsb is_s35 es))) (got SET (s_t15 s) (existsb is_s15 es))) (got CLEARED (s_tx s) (existsb is_stx es)).
Lemma s_put_u8 m b : s_put m (u8 b) = s_put m b. Proof. unfold s_put. rewrite u8_u8. reflexivity. Qed.
Lemma s_after_ok : forall es s, (forall e, In e es -> s_interrupt e) -> fold_left (fun s e => Atomic.ev_of e s) es s = s_after es s.
Proof.
  induction es as [|e es IH]; intros s I; cbn [fold_left]. { destruct s; reflexivity. }
  rewrite IH by (intros x Hx; apply I; right; exact Hx). assert (Ie := I e (or_introl eq_refl)). destruct s as [a1 a2 a3 a4 a5 a6 a7 a8 a9 a10 a11 a12].
  destruct e; try contradiction; unfold s_after; cbn [SlaveTrace.rx_bytes flat_map existsb is_stx is_s15 is_s35 is_sfe app orb Atomic.ev_of];
  cbn [s_set_id s_set_st s_set_drv s_set_mptr s_set_msg s_set_t15 s_set_t35 s_set_fe s_set_tx s_set_data s_set_sub s_set_rx s_id s_st s_drv s_mptr s_msg s_t15 s_t35 s_fe s_tx s_data s_sub s_rx];
  try (cbn [got]; unfold got; repeat (match goal with |- context [if ?b then _ else _] => destruct b end); reflexivity).
  cbn [fold_left]. rewrite s_put_u8. reflexivity.
Qed.
(** the same bytes in the same order, the same interrupts otherwise *)
Lemma s_order c k es es' : slave_ready c (sc_s k) -> (forall e, In e (es ++ es') -> s_interrupt e) ->
  SlaveTrace.rx_bytes es = SlaveTrace.rx_bytes es' -> (forall e, match e with SRx _ => True | _ => In e es <-> In e es' end) ->
  exists k', s_run c (map SEv es) k = Ok (k', map TEv es) /\ s_run c (map SEv es') k = Ok (k', map TEv es').
Proof.
  intros R I B E. destruct k as [s pc]. cbn [sc_s] in R. assert (I1 : forall e, In e es -> s_interrupt e) by (intros e He; apply I; apply in_or_app; auto). assert (I2 : forall e, In e es' -> s_interrupt e) by (intros e He; apply I; apply in_or_app; auto).
  destruct (Atomic.run_evs c pc es s R I1) as (E1 & _). destruct (Atomic.run_evs c pc es' s R I2) as (E2 & _). rewrite s_after_ok in E1, E2 by auto.
  exists (mk_sconf (s_after es s) pc). rewrite E1, E2. split; [reflexivity|]. do 2 f_equal. f_equal. unfold s_after. rewrite B.
  rewrite (same_exists is_stx STxDone es es'), (same_exists is_s15 ST15 es es'), (same_exists is_s35 ST35 es es'), (same_exists is_sfe SFrameErr es es'); try reflexivity;
    try (intros []; cbn; split; congruence); [apply (E SFrameErr)|apply (E ST35)|apply (E ST15)|apply (E STxDone)].
Qed.

(** *** master *)
Definition is_mtx (e : mev) : bool := match e with MTxDone => true | _ => false end.
Definition is_m15 (e : mev) : bool := match e with MT15 => true | _ => false end.
Definition is_m35 (e : mev) : bool := match e with MT35 => true | _ => false end.
Definition is_mfe (e : mev) : bool := match e with MFrameErr => true | _ => false end.
Definition m_put (rx : option nat) (l : list msg) (b : Z) : list msg := match rx with Some j => rx_at j b l | None => l end.
Definition tick1 (n : Z) : Z := if negb (n =? 0) then n - 1 else n.
Definition m_after (es : list mev) (s : master) : master :=
  m_set_tx (m_set_t15 (m_set_t35 (m_set_fe (m_set_timer (m_set_msgs s (fold_left (m_put (mm_rx s)) (MasterTraffic.rx_bytes es) (mm_msgs s))) (Nat.iter (ticks es) tick1 (mm_timer s)))
    (got SET (mm_fe s) (existsb is_mfe es))) (got SET (mm_t35 s) (existsb is_m35 es))) (got SET (mm_t15 s) (existsb is_m15 es))) (got CLEARED (mm_tx s) (existsb is_mtx es)).
Lemma m_put_u8 rx l b : m_put rx l (u8 b) = m_put rx l b. Proof. unfold m_put, rx_at. destruct rx; auto. rewrite u8_u8. reflexivity. Qed.
Lemma iter_r n x : Nat.iter n tick1 (tick1 x) = tick1 (Nat.iter n tick1 x).
Proof. induction n as [|n IH]; cbn; [reflexivity|f_equal; exact IH]. Qed.
Lemma m_after_ok : forall es s, (forall e, In e es -> m_interrupt e) -> fold_left (fun s e => ev_state e s) es s = m_after es s.
Proof.
  induction es as [|e es IH]; intros s I; cbn [fold_left]. { destruct s; reflexivity. }
  rewrite IH by (intros x Hx; apply I; right; exact Hx). assert (Ie := I e (or_introl eq_refl)).
  destruct e; try contradiction; cbn [ev_state]; unfold m_after; cbn [MasterTraffic.rx_bytes ticks existsb is_mtx is_m15 is_m35 is_mfe orb].
  1-4: destruct s; mprj; unfold got; repeat (match goal with |- context [if ?b then _ else _] => destruct b end); reflexivity.
  - assert (E : rx_put s b = m_set_msgs s (m_put (mm_rx s) (mm_msgs s) b)). { unfold m_put. destruct (mm_rx s) as [j|] eqn:R; [apply rx_put_at; exact R|unfold rx_put; rewrite R; destruct s; reflexivity]. }
    rewrite E. mprj. cbn [fold_left]. rewrite m_put_u8. destruct s; reflexivity.
  - assert (E : (if negb (mm_timer s =? 0) then m_set_timer s (mm_timer s - 1) else s) = m_set_timer s (tick1 (mm_timer s))). { unfold tick1. destruct (negb _); [reflexivity|destruct s; reflexivity]. }
    rewrite E. mprj. cbn [Nat.iter nat_rect]. rewrite iter_r. destruct s; reflexivity.
Qed.
Lemma m_run_evs c pc l free pend : forall es s, (forall e, In e es -> m_interrupt e) -> mm_sub s = true -> mbuf c free pend l s ->
  m_run c (map MEv es) (mk_mconf s pc) = Ok (mk_mconf (fold_left (fun s e => ev_state e s) es s) pc, map MTEv es).
Proof.
  induction es as [|e es IH]; intros s I Sb B; cbn [fold_left map m_run]. { auto. }
  assert (Ie := I e (or_introl eq_refl)). assert (Re : is_req e = false) by (destruct e; auto; contradiction).
  cbn [m_act mc_s mc_pc]. rewrite (event_char c e free pend l) by auto. cbn [bind map app].
  rewrite (IH (ev_state e s)); auto. { intros x Hx. apply I. right. exact Hx. }
  { destruct e; cbn [ev_state]; mprj; auto; try (destruct (negb _); auto). unfold rx_put. destruct (mm_rx s); auto. destruct (nth_error _ _); auto. }
  { apply mbuf_ev. exact B. }
Qed.
Lemma m_order c sched k t es es' : cfg_master_ok c -> m_history c sched k t -> (forall e, In e (es ++ es') -> m_interrupt e) ->
  MasterTraffic.rx_bytes es = MasterTraffic.rx_bytes es' -> ticks es = ticks es' -> (forall e, match e with MRx _ | MTick => True | _ => In e es <-> In e es' end) ->
  exists k', m_run c (map MEv es) k = Ok (k', map MTEv es) /\ m_run c (map MEv es') k = Ok (k', map MTEv es').
Proof.
  intros Hc H I B T E. assert (I1 : forall e, In e es -> m_interrupt e) by (intros e He; apply I; apply in_or_app; auto). assert (I2 : forall e, In e es' -> m_interrupt e) by (intros e He; apply I; apply in_or_app; auto).
  assert (CI := history_cinv _ _ _ _ Hc H). destruct (ci_inv _ _ _ _ CI) as (free & pend & apis & eps & v & M).
  assert (Bf := iv_buf _ _ _ _ _ _ _ _ _ M). assert (Sb := mc_sub _ _ _ (iv_ctl _ _ _ _ _ _ _ _ _ M)). destruct k as [s pc]. cbn [mc_s] in *.
  assert (E1 := m_run_evs c pc _ _ _ es s I1 Sb Bf). assert (E2 := m_run_evs c pc _ _ _ es' s I2 Sb Bf). rewrite m_after_ok in E1, E2 by auto.
  exists (mk_mconf (m_after es s) pc). rewrite E1, E2. split; [reflexivity|]. do 2 f_equal. f_equal. unfold m_after. rewrite B, T.
  rewrite (same_exists is_mtx MTxDone es es'), (same_exists is_m15 MT15 es es'), (same_exists is_m35 MT35 es es'), (same_exists is_mfe MFrameErr es es'); try reflexivity;
    try (intros []; cbn; split; congruence); [apply (E MFrameErr)|apply (E MT35)|apply (E MT15)|apply (E MTxDone)].
Qed.
