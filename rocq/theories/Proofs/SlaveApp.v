(** The example slave application: registration, projection to the firmware, the LED. *)
From Verif Require Export Proofs.SlaveSystem Model.SlaveApp Spec.SlaveApp.
From Verif Require Import Proofs.ServerMain Proofs.SlavePhase Proofs.SlaveAsked.

(** *** tables and number of variables never change *)
Definition same_map (d d' : sdata) : Prop :=
  t_coils d' = t_coils d /\ t_din d' = t_din d /\ t_ireg d' = t_ireg d /\ t_hreg d' = t_hreg d /\ length (v_bits d') = length (v_bits d) /\ length (v_regs d') = length (v_regs d).
Lemma same_refl d : same_map d d.
Proof. unfold same_map. auto 10. Qed.
Lemma same_trans a b c : same_map a b -> same_map b c -> same_map a c.
Proof. unfold same_map. intros (A1 & A2 & A3 & A4 & A5 & A6) (B1 & B2 & B3 & B4 & B5 & B6). repeat split; congruence. Qed.
Lemma server_same c d b : same_map d (snd (server c d b)).
Proof.
  assert (SB : forall tab k vals cells r, store tab (v_bits d) k vals = (cells, r) -> same_map d (set_bits d cells)).
  { intros tab k vals cells r E. unfold same_map. cbn. assert (L := store_length tab vals (v_bits d) k). rewrite E in L. cbn in L. auto 10. }
  assert (SR : forall tab k vals cells r, store tab (v_regs d) k vals = (cells, r) -> same_map d (set_regs d cells)).
  { intros tab k vals cells r E. unfold same_map. cbn. assert (L := store_length tab vals (v_regs d) k). rewrite E in L. cbn in L. auto 10. }
  unfold server.
  repeat match goal with
  | |- same_map d (snd (match ?x with _ => _ end)) => let Q := fresh "Q" in destruct x eqn:Q
  end; cbn [snd]; try apply same_refl; eauto.
Qed.
Lemma line_same c l s l' s' o : cfg_tables_ok c -> slave_ready c s -> s_line c l s = Ok (l', s', o) -> same_map (s_data s) (s_data s').
Proof.
  intros Hc R E. destruct l; line_inv E; cbn; try apply same_refl.
  destruct R as (_ & _ & _ & _ & _ & M & D). destruct (parse_server c (s_data s) (s_msg s) Hc D M) as (st & m' & E & _). rewrite Y in E. inversion E; subst. apply server_same.
Qed.
Lemma event_same e s s' : s_event e s = Ok s' -> same_map (s_data s) (s_data s').
Proof.
  intros E. destruct e; ev_inv E; cbn; try apply same_refl.
  apply andb_true_iff in X as [X _]. apply andb_true_iff in X as [X1 X2]. apply Nat.eqb_eq in X1, X2. unfold same_map. cbn. auto 10.
Qed.
Lemma s_run_same c l : cfg_tables_ok c -> forall k k' o, slave_ready c (sc_s k) -> s_run c l k = Ok (k', o) -> same_map (s_data (sc_s k)) (s_data (sc_s k')).
Proof.
  intros Hc. induction l as [|a l IH]; intros k k' o R E; cbn [s_run] in E; [inversion E; apply same_refl|]. bnd E. bnd E. inversion E; subst.
  destruct (act_ready c a k Hc R) as (k2 & o2 & E2 & R2 & _). rewrite Y in E2. inversion E2; subst. eapply same_trans; [|eapply IH; eauto]. destruct a as [|e]; cbn [s_act] in Y.
  - destruct (sc_pc k); [|inversion Y; apply same_refl]. bnd Y. inversion Y; subst. cbn. eapply line_same; eauto.
  - bnd Y. inversion Y; subst. cbn. eapply event_same; eauto.
Qed.
Lemma y_run_same c l y y' t : cfg_tables_ok c -> sys_ok c y -> y_run c l y = Ok (y', t) -> same_map (s_data (sc_s (y_lib y))) (s_data (sc_s (y_lib y'))).
Proof. intros Hc (R & _) E. destruct (run_piece c l y y' t E) as (ls & L). eapply s_run_same; eauto. Qed.

(** *** interrupts and hardware do not look at the application's memory *)
Definition with_data (d : sdata) (y : sys) : sys := mk_sys (mk_sconf (s_set_data (sc_s (y_lib y)) d) (sc_pc (y_lib y))) (y_u y) (y_sub y).
Definition is_hw (x : yact) : bool := match x with AMain | AApp _ _ => false | _ => true end.
Definition k_data (d : sdata) (k : sconf) : sconf := mk_sconf (s_set_data (sc_s k) d) (sc_pc k).
Lemma event_data d e k : (forall b r, e <> SApp b r) -> y_event e (k_data d k) = let* k' := y_event e k in Ok (k_data d k').
Proof.
  intros N. destruct k as [s pc]. unfold y_event, k_data. cbn [sc_s sc_pc]. destruct e; try (destruct (N bits regs eq_refl)); cbn [s_event]; cbn [s_sub s_rx s_msg s_set_data]; try (destruct (s_sub s); reflexivity).
  destruct (s_rx s); [|reflexivity]. destruct (wr _ _ _); reflexivity.
Qed.
Definition lift_k (d : sdata) (r : outcome (sconf * uart * list yitem)) : outcome (sconf * uart * list yitem) := let* '(k, u, t) := r in Ok (k_data d k, u, t).
Lemma rx_data d k u : y_usart_rx (k_data d k) u = lift_k d (y_usart_rx k u).
Proof.
  unfold y_usart_rx, lift_k. destruct (u_rdr u) as [b|]; [|reflexivity]. change (s_rx (sc_s (k_data d k))) with (s_rx (sc_s k)). change (s_sub (sc_s (k_data d k))) with (s_sub (sc_s k)).
  destruct (s_rx (sc_s k)); [|reflexivity]. rewrite event_data by discriminate. destruct (y_event (SRx b) k) as [k1| |]; cbn [bind]; auto. destruct (u_det u); [|reflexivity]. destruct (s_sub (sc_s k)); [|reflexivity].
  rewrite event_data by discriminate. destruct (y_event SFrameErr k1) as [k2| |]; reflexivity.
Qed.
Lemma tx_data d k u : y_usart_tx (k_data d k) u = lift_k d (y_usart_tx k u).
Proof.
  unfold y_usart_tx, lift_k. destruct (u_tdr u); [reflexivity|]. change (s_msg (sc_s (k_data d k))) with (s_msg (sc_s k)). change (s_sub (sc_s (k_data d k))) with (s_sub (sc_s k)).
  destruct (_ <? _); [destruct (rd _ _); reflexivity|]. destruct (s_sub (sc_s k)); [|reflexivity]. rewrite event_data by discriminate. destruct (y_event STxDone k) as [k2| |]; reflexivity.
Qed.
Lemma rto_data d k u : y_usart_rto (k_data d k) u = lift_k d (y_usart_rto k u).
Proof.
  unfold y_usart_rto, lift_k. destruct (u_rtof u); [|reflexivity]. change (s_sub (sc_s (k_data d k))) with (s_sub (sc_s k)).
  destruct (s_sub (sc_s k)); [|reflexivity]. rewrite event_data by discriminate. destruct (y_event ST15 k) as [k2| |]; reflexivity.
Qed.
Lemma timer_data d k u : y_timer (k_data d k) u = lift_k d (y_timer k u).
Proof.
  unfold y_timer, lift_k. destruct (u_uif u); [|reflexivity]. change (s_sub (sc_s (k_data d k))) with (s_sub (sc_s k)).
  destruct (s_sub (sc_s k)); [|reflexivity]. rewrite event_data by discriminate. destruct (y_event ST35 k) as [k2| |]; reflexivity.
Qed.
Lemma usart_data d k u : y_usart (k_data d k) u = lift_k d (y_usart k u).
Proof.
  unfold y_usart. rewrite rx_data. destruct (y_usart_rx k u) as [[[k1 u1] t1]| |]; cbn [lift_k bind]; auto.
  rewrite tx_data. destruct (y_usart_tx k1 u1) as [[[k2 u2] t2]| |]; cbn [lift_k bind]; auto. rewrite rto_data. destruct (y_usart_rto k2 u2) as [[[k3 u3] t3]| |]; reflexivity.
Qed.
Definition lift_y (d : sdata) (r : outcome (sys * list yitem)) : outcome (sys * list yitem) := let* '(y, t) := r in Ok (with_data d y, t).
Lemma hw_data c d x y : is_hw x = true -> y_act c x (with_data d y) = lift_y d (y_act c x y).
Proof.
  destruct y as [k u sb]. intros H. destruct x; try discriminate H; cbn [y_act y_lib y_u y_sub with_data]; fold (k_data d k).
  - unfold usart_pending. change (s_rx (sc_s (k_data d k))) with (s_rx (sc_s k)). destruct (_ || _); [|reflexivity]. rewrite usart_data. destruct (y_usart k u) as [[[k1 u1] t1]| |]; reflexivity.
  - rewrite timer_data. destruct (y_timer k u) as [[[k1 u1] t1]| |]; reflexivity.
  - reflexivity.
  - destruct (u_tdr u); reflexivity.
  - reflexivity.
  - destruct (u_cen u); reflexivity.
Qed.
Lemma hw_run_data c d l : forallb is_hw l = true -> forall y, y_run c l (with_data d y) = lift_y d (y_run c l y).
Proof.
  induction l as [|x l IH]; intros H y; cbn [y_run]; [reflexivity|]. cbn [forallb] in H. apply andb_true_iff in H as [H1 H2]. rewrite hw_data by auto.
  destruct (y_act c x y) as [[y1 t1]| |]; cbn [lift_y bind]; auto. rewrite IH by auto. destruct (y_run c l y1) as [[y2 t2]| |]; reflexivity.
Qed.

(** *** registration *)
Definition lookup (tb : table) (done : list (table * Z * nat)) (k : nat) : option nat :=
  fold_left (fun acc r => match r with (tb', adr, p) => if (match tb, tb' with TCoils, TCoils | TDin, TDin | TIreg, TIreg | THreg, THreg => true | _, _ => false end) && Nat.eqb (Z.to_nat adr) k then Some p else acc end) done None.
Definition tab_of (n : Z) (f : nat -> option nat) : list (option nat) := map f (seq 0 (Z.to_nat n)).
Definition data_of (c : cfg) (done : list (table * Z * nat)) : sdata :=
  mk_sdata (tab_of (c_coils c) (lookup TCoils done)) (tab_of (c_din c) (lookup TDin done)) (tab_of (c_ireg c) (lookup TIreg done)) (tab_of (c_hreg c) (lookup THreg done)) app_bits app_regs.
Lemma upd_map {A} (f g : nat -> A) v : forall n i b, (i < n)%nat -> g (b + i)%nat = v -> (forall k, k <> (b + i)%nat -> g k = f k) -> upd (map f (seq b n)) i v = map g (seq b n).
Proof.
  induction n as [|n IH]; intros i b Hi Hv Hg; [lia|]. destruct i as [|i]; cbn [seq map upd].
  - f_equal; [rewrite <- Hv; f_equal; lia|]. apply map_ext_in. intros k Hk. apply in_seq in Hk. symmetry. apply Hg. lia.
  - f_equal; [symmetry; apply Hg; lia|]. apply IH; [lia| |].
    + rewrite <- Hv. f_equal. lia.
    + intros k Hk. apply Hg. lia.
Qed.
Lemma tab_upd n f g i v : 0 <= i < n -> g (Z.to_nat i) = v -> (forall k, k <> Z.to_nat i -> g k = f k) -> aset (tab_of n f) i v = Ok (tab_of n g).
Proof.
  intros Hi Hv Hg. unfold tab_of. rewrite aset_ok by (rewrite map_length, seq_length; lia). f_equal. apply upd_map; [lia|exact Hv|exact Hg].
Qed.
Lemma lookup_snoc tb done r k : lookup tb (done ++ [r]) k = match r with (tb', adr, p) => if (match tb, tb' with TCoils, TCoils | TDin, TDin | TIreg, TIreg | THreg, THreg => true | _, _ => false end) && Nat.eqb (Z.to_nat adr) k then Some p else lookup tb done k end.
Proof. unfold lookup. rewrite fold_left_app. reflexivity. Qed.
Definition reg_size (c : cfg) (tb : table) : Z := match tb with TCoils => c_coils c | TDin => c_din c | TIreg => c_ireg c | THreg => c_hreg c end.
Lemma register_step c done tb adr p s : 0 <= adr < reg_size c tb -> s_data s = data_of c done ->
  modbus_slave_register tb adr (Some p) s = Ok (s_set_data s (data_of c (done ++ [(tb, adr, p)]))).
Proof.
  intros Ha D. assert (U : forall tb', lookup tb' (done ++ [(tb, adr, p)]) = lookup tb' (done ++ [(tb, adr, p)])) by reflexivity.
  assert (Oth : forall tb', tb' <> tb -> forall n, tab_of n (lookup tb' (done ++ [(tb, adr, p)])) = tab_of n (lookup tb' done)).
  { intros tb' N n. apply map_ext. intros k. rewrite lookup_snoc. destruct tb', tb; cbn; auto; congruence. }
  assert (Own : aset (tab_of (reg_size c tb) (lookup tb done)) adr (Some p) = Ok (tab_of (reg_size c tb) (lookup tb (done ++ [(tb, adr, p)])))).
  { apply tab_upd; auto; [|intros k N]; rewrite lookup_snoc; [rewrite Nat.eqb_refl|replace (Z.to_nat adr =? k)%nat with false by (symmetry; apply Nat.eqb_neq; auto)]; destruct tb; reflexivity. }
  unfold modbus_slave_register, register_app_data. rewrite D. unfold data_of. cbn [t_coils t_din t_ireg t_hreg v_bits v_regs].
  destruct tb; cbn [reg_size] in Own; rewrite Own; cbn [bind]; try rewrite (Oth TCoils) by discriminate; try rewrite (Oth TDin) by discriminate; try rewrite (Oth TIreg) by discriminate; try rewrite (Oth THreg) by discriminate; reflexivity.
Qed.
Lemma lookup_nil tb n : tab_of n (lookup tb []) = repeat None (Z.to_nat n).
Proof. unfold tab_of. generalize 0%nat. induction (Z.to_nat n) as [|m IH]; intros b; cbn; f_equal; auto. Qed.
Lemma data_start c : example_cfg_ok c -> s_data (slave_static c app_bits app_regs) = data_of c [].
Proof.
  intros (H1 & H2 & H3 & H4). unfold slave_static, data_of. cbn [s_data]. rewrite !lookup_nil. unfold table_size, MODBUS_MAX_SPECIFIC_DATA_ITEMS_QTY.
  repeat match goal with |- context [if ?a <? ?b then _ else _] => destruct (a <? b) eqn:? end; repeat f_equal; lia.
Qed.
Lemma data_end c : data_of c registrations = example_data c.
Proof.
  unfold data_of, example_data, tab_of. f_equal; apply map_ext; intros k; do 22 (destruct k as [|k]; [vm_compute; reflexivity|]); vm_compute; reflexivity.
Qed.
Lemma regs_in_range c : example_cfg_ok c -> Forall (fun r => match r with (tb, adr, p) => 0 <= adr < reg_size c tb end) registrations.
Proof.
  intros (H1 & H2 & H3 & H4). assert (X : forallb (fun r => match r with (tb, adr, p) => (0 <=? adr) && (adr <? match tb with TCoils => 22 | _ => 20 end) end) registrations = true) by (vm_compute; reflexivity).
  rewrite forallb_forall in X. apply Forall_forall. intros [[tb adr] p] Hi. specialize (X _ Hi). cbn in X. destruct tb; cbn; lia.
Qed.
Lemma regs_split c done tb adr p todo : example_cfg_ok c -> registrations = done ++ (tb, adr, p) :: todo -> 0 <= adr < reg_size c tb.
Proof. intros Hc E. assert (F := regs_in_range c Hc). rewrite E in F. apply Forall_app in F as [_ F]. inversion F; auto. Qed.

(** *** the firmware with the intended memory map *)
From Verif Require Import Props.SlaveRun.
Lemma tables_ok c : example_cfg_ok c -> cfg_tables_ok c.
Proof. unfold example_cfg_ok, cfg_tables_ok. lia. Qed.
Lemma ptrs_map {A} n f (cells : list A) : (forall k p, f k = Some p -> (p < length cells)%nat) -> ptrs_ok (map f (seq 0 n)) cells.
Proof.
  intros H k p E. assert (L : (k < n)%nat) by (assert (X : nth_error (map f (seq 0 n)) k <> None) by congruence; apply nth_error_Some in X; rewrite map_length, seq_length in X; auto).
  rewrite nth_error_map, (nth_error_nth' _ 0%nat) in E by (rewrite seq_length; lia). rewrite seq_nth in E by lia. cbn in E. inversion E. eauto.
Qed.
Lemma example_data_ok c : example_cfg_ok c -> data_ok c (example_data c).
Proof.
  intros (H1 & H2 & H3 & H4). unfold data_ok, example_data. cbn [t_coils t_din t_ireg t_hreg v_bits v_regs]. rewrite !map_length, !seq_length.
  assert (C : forall k p, example_coil k = Some p -> (p < 41)%nat) by (unfold example_coil; intros k p; destruct (k <? 20)%nat eqn:E; [apply Nat.ltb_lt in E; intros X; inversion X; lia|destruct (k =? 21)%nat; intros X; inversion X; lia]).
  assert (O : forall b k p, (b <= 20)%nat -> example_other b k = Some p -> (p < 40)%nat) by (unfold example_other; intros b k p Hb; destruct (k <? 20)%nat eqn:E; [apply Nat.ltb_lt in E; intros X; inversion X; lia|discriminate]).
  repeat (split; [lia|]). split; [apply ptrs_map; exact C|]. split; [apply ptrs_map; intros k p X; apply O in X; cbn; lia|].
  split; [apply ptrs_map; intros k p X; apply O in X; cbn; lia|]. split; [apply ptrs_map; intros k p X; apply O in X; cbn; lia|].
  unfold hreg_data, inreg_data. cbn [app]. repeat (apply Forall_cons; [unfold word; lia|]). apply Forall_nil.
Qed.
Lemma fresh_with c s d : slave_fresh c s -> data_ok c d -> slave_fresh c (s_set_data s d).
Proof. unfold slave_fresh, slave_ready. intros H D. destruct s as [x1 x2 x3 x4 x5 x6 x7 x8 x9 x10 x11 x12]. cbn in *. tauto. Qed.
Lemma example_started c : example_cfg_ok c -> sys_started c (example_firmware c).
Proof.
  intros Hc. assert (F : slave_fresh c (modbus_slave_init RTU 1 (slave_static c (coil_data ++ din_data ++ [false]) (hreg_data ++ inreg_data)))).
  { apply slave_init_is_fresh; [apply tables_ok; auto| |unfold byte; lia]. unfold hreg_data, inreg_data. cbn [app]. repeat (apply Forall_cons; [unfold word; lia|]). apply Forall_nil. }
  split; [exact (fresh_with _ _ _ F (example_data_ok c Hc))|]. split; [reflexivity|]. split; reflexivity.
Qed.
Lemma example_ok c : example_cfg_ok c -> sys_ok c (example_firmware c).
Proof. intros. apply started_ok, example_started; auto. Qed.
Lemma example_with c : example_firmware c = with_data (data_of c registrations) (b_fw (slave_app c)).
Proof. rewrite data_end. reflexivity. Qed.

(** *** projection *)
Definition b_step (x : bact) (b : sapp) : list yact :=
  match x with
  | BaMain => match b_pc b with B55 => [AMain] | _ => [] end
  | BaHw y => match y with AMain | AApp _ _ => [] | _ => [y] end
  end.
Lemma b_sched_cons c x l b : b_sched c (x :: l) b = b_step x b ++ match b_act c x b with Ok (b1, _) => b_sched c l b1 | _ => [] end.
Proof. reflexivity. Qed.
Lemma b_sched_app c l1 l2 : forall b b1 t1, b_run c l1 b = Ok (b1, t1) -> b_sched c (l1 ++ l2) b = b_sched c l1 b ++ b_sched c l2 b1.
Proof.
  induction l1 as [|x l1 IH]; intros b b1 t1 E; cbn [b_run app] in *; [inversion E; reflexivity|]. rewrite !b_sched_cons. bnd E. bnd E. inversion E; subst. rewrite (IH _ _ _ Y0). now rewrite app_assoc.
Qed.
Lemma b_run_app c l1 l2 b : b_run c (l1 ++ l2) b = let* '(b1, t1) := b_run c l1 b in let* '(b2, t2) := b_run c l2 b1 in Ok (b2, t1 ++ t2).
Proof.
  revert b. induction l1 as [|x l1 IH]; intros b; cbn [app b_run].
  - cbn [bind]. destruct (b_run c l2 b) as [[? ?]| |]; reflexivity.
  - destruct (b_act c x b) as [[b1 t1]| |]; cbn [bind]; auto. rewrite IH. destruct (b_run c l1 b1) as [[b2 t2]| |]; cbn [bind]; auto.
    destruct (b_run c l2 b2) as [[b3 t3]| |]; cbn [bind]; auto. now rewrite app_assoc.
Qed.
Lemma b_run_one c x b : b_run c [x] b = b_act c x b.
Proof. cbn [b_run]. destruct (b_act c x b) as [[? ?]| |]; cbn [bind]; rewrite ?app_nil_r; reflexivity. Qed.
Lemma b_run_split c l1 l2 b b' t : b_run c (l1 ++ l2) b = Ok (b', t) <-> exists b1 t1 t2, b_run c l1 b = Ok (b1, t1) /\ b_run c l2 b1 = Ok (b', t2) /\ t = t1 ++ t2.
Proof.
  rewrite b_run_app. destruct (b_run c l1 b) as [[b1 t1]| |]; cbn [bind]; [|split; [discriminate|intros (? & ? & ? & ? & _); discriminate]..]. split.
  - intros E. bnd E. inversion E; subst. exists b1, t1, l. auto.
  - intros (b2 & t2 & t3 & E & E2 & ->). inversion E; subst. rewrite E2. reflexivity.
Qed.
Lemma b_run_snoc c l x b b' t : b_run c (l ++ [x]) b = Ok (b', t) <-> exists b1 t1 t2, b_run c l b = Ok (b1, t1) /\ b_act c x b1 = Ok (b', t2) /\ t = t1 ++ t2.
Proof. rewrite b_run_split. split; intros (a1 & t1 & t2 & A & B & C); exists a1, t1, t2; rewrite b_run_one in *; auto. Qed.
Lemma y_run_one c x y : y_run c [x] y = y_act c x y.
Proof. cbn [y_run]. destruct (y_act c x y) as [[? ?]| |]; cbn [bind]; rewrite ?app_nil_r; reflexivity. Qed.
(** a step of the running application is a step of the firmware *)
Lemma b_act_running c x b b' t : running b = true -> b_act c x b = Ok (b', t) -> running b' = true /\ y_run c (b_step x b) (b_fw b) = Ok (b_fw b', t).
Proof.
  intros Hr E. unfold running in *. destruct x as [|y]; cbn [b_act b_step] in *.
  - destruct (b_pc b); try discriminate Hr; bnd E; inversion E; subst; cbn [b_pc b_fw].
    + rewrite y_run_one. split; [destruct (s_between_polls s); reflexivity|auto].
    + auto.
  - destruct y; try (inversion E; subst; auto; fail); bnd E; inversion E; subst; cbn [b_pc b_fw]; rewrite y_run_one; auto.
Qed.
Lemma b_run_running c l : forall b b' t, running b = true -> b_run c l b = Ok (b', t) -> running b' = true /\ y_run c (b_sched c l b) (b_fw b) = Ok (b_fw b', t).
Proof.
  induction l as [|x l IH]; intros b b' t Hr E; cbn [b_run] in E; [inversion E; subst; auto|]. bnd E. bnd E. inversion E; subst. destruct (b_act_running _ _ _ _ _ Hr Y) as [R1 W1]. destruct (IH _ _ _ R1 Y0) as [R2 W2].
  split; auto. rewrite b_sched_cons, Y, y_run_app, W1. cbn [bind]. rewrite W2. reflexivity.
Qed.
Definition binv (c : cfg) (l : list bact) (b : sapp) (t : list yitem) : Prop :=
  match b_pc b with
  | B50 todo => exists done, registrations = done ++ todo /\ y_run c (b_sched c l (slave_app c)) (with_data (data_of c done) (b_fw (slave_app c))) = Ok (b_fw b, t) /\
      forallb is_hw (b_sched c l (slave_app c)) = true /\ b_led b = false
  | _ => y_run c (b_sched c l (slave_app c)) (example_firmware c) = Ok (b_fw b, t)
  end.
Lemma with_with d d' y : with_data d (with_data d' y) = with_data d y.
Proof. reflexivity. Qed.
Lemma hw_keeps_data c x y y' t : is_hw x = true -> y_act c x y = Ok (y', t) -> s_data (sc_s (y_lib y')) = s_data (sc_s (y_lib y)).
Proof.
  intros H E. assert (X := hw_data c (s_data (sc_s (y_lib y))) x y H). rewrite E in X. cbn [lift_y bind] in X.
  assert (W : with_data (s_data (sc_s (y_lib y))) y = y) by (destruct y as [[[] ?] ? ?]; reflexivity). rewrite W, E in X. inversion X as [X1]. rewrite X1. reflexivity.
Qed.
Lemma hw_run_keeps c l : forall y y' t, forallb is_hw l = true -> y_run c l y = Ok (y', t) -> s_data (sc_s (y_lib y')) = s_data (sc_s (y_lib y)).
Proof.
  induction l as [|x l IH]; intros y y' t H E; cbn [y_run] in E; [inversion E; auto|]. cbn [forallb] in H. apply andb_true_iff in H as [H1 H2]. bnd E. bnd E. inversion E; subst. rewrite (IH _ _ _ H2 Y0). eapply hw_keeps_data; eauto.
Qed.
Lemma with_self d y : d = s_data (sc_s (y_lib y)) -> with_data d y = y.
Proof. destruct y as [[[] ?] ? ?]. intros ->. reflexivity. Qed.
Lemma init_data md id s : s_data (modbus_slave_init md id s) = s_data s.
Proof. destruct md; reflexivity. Qed.
Lemma binv_start c : example_cfg_ok c -> binv c [] (slave_app c) [].
Proof.
  intros Hc. unfold binv. cbn [b_pc slave_app]. exists []. split; [reflexivity|]. split; [|auto]. cbn [b_sched y_run]. rewrite with_self; [reflexivity|].
  cbn [b_fw slave_app y_lib sc_s]. rewrite init_data. symmetry. apply data_start; auto.
Qed.
Lemma step_hw x b : (forall todo, b_pc b = B50 todo -> forallb is_hw (b_step x b) = true).
Proof. intros todo E. destruct x as [|[]]; cbn; rewrite ?E; reflexivity. Qed.
Lemma binv_step c l b t x : example_cfg_ok c -> b_run c l (slave_app c) = Ok (b, t) -> binv c l b t -> exists b' t', b_act c x b = Ok (b', t') /\ binv c (l ++ [x]) b' (t ++ t').
Proof.
  intros Hc R I. assert (Ht := tables_ok c Hc). assert (Sn : b_sched c (l ++ [x]) (slave_app c) = b_sched c l (slave_app c) ++ b_step x b).
  { rewrite (b_sched_app _ _ _ _ _ _ R), b_sched_cons. f_equal. destruct (b_act c x b) as [[? ?]| |]; cbn; now rewrite app_nil_r. }
  destruct (b_pc b) as [todo| |] eqn:P; unfold binv in I; rewrite P in I.
  - destruct I as (done & Er & W & Hw & Ld).
    assert (X : exists y'' t'', y_run c (b_sched c (l ++ [x]) (slave_app c)) (example_firmware c) = Ok (y'', t'') /\ sys_ok c y'') by (apply run_ok; auto; apply example_ok; auto). destruct X as (y'' & t'' & X & _).
    assert (Hw2 : forallb is_hw (b_sched c (l ++ [x]) (slave_app c)) = true) by (rewrite Sn, forallb_app, Hw, (step_hw _ _ _ P); reflexivity).
    destruct x as [|y].
    + cbn [b_act b_step] in *. rewrite P in *. rewrite app_nil_r in Sn. destruct todo as [|[[tb adr] p] todo].
      * do 2 eexists. split; [reflexivity|]. unfold binv. cbn [b_pc b_fw]. rewrite Sn, app_nil_r. rewrite app_nil_r in Er. rewrite example_with, Er. exact W.
      * assert (D : s_data (sc_s (y_lib (b_fw b))) = data_of c done) by (rewrite (hw_run_keeps _ _ _ _ _ Hw W); reflexivity).
        rewrite (register_step c done) by (auto; eapply regs_split; eauto). cbn [bind]. do 2 eexists. split; [reflexivity|]. unfold binv. cbn [b_pc b_fw b_led]. exists (done ++ [(tb, adr, p)]).
        split; [rewrite <- app_assoc; exact Er|]. rewrite Sn, app_nil_r. split; [|split; auto]. rewrite <- (with_with _ (data_of c done)), hw_run_data, W by auto. reflexivity.
    + rewrite example_with, <- (with_with _ (data_of c done)), hw_run_data in X by auto. cbn [b_act].
      assert (Hr : exists y2 t2, y_run c (b_step (BaHw y) b) (b_fw b) = Ok (y2, t2)).
      { rewrite Sn, y_run_app, W in X. cbn [bind] in X. destruct (y_run c (b_step (BaHw y) b) (b_fw b)) as [[? ?]| |]; cbn in X; try discriminate. eauto. }
      destruct Hr as (y2 & t2 & Hr).
      assert (G : forall bb, b_act c (BaHw y) b = Ok (bb, t2) -> b_pc bb = b_pc b -> b_fw bb = y2 -> b_led bb = b_led b -> exists b' t', b_act c (BaHw y) b = Ok (b', t') /\ binv c (l ++ [BaHw y]) b' (t ++ t')).
      { intros bb E1 E2 E3 E4. exists bb, t2. split; auto. unfold binv. rewrite E2, P, E3, E4. exists done. split; auto. split; [|auto]. rewrite Sn, y_run_app, W. cbn [bind]. rewrite Hr. reflexivity. }
      cbn [b_act b_step] in *. destruct y; try (eapply G; [inversion Hr; reflexivity|reflexivity|inversion Hr; reflexivity|reflexivity]); rewrite y_run_one in Hr; rewrite Hr in G |- *; cbn [bind] in G |- *; eapply G; reflexivity.
  - assert (Ok' := run_ok c (b_sched c l (slave_app c)) Ht _ (example_ok c Hc)). destruct Ok' as (y1 & t1 & E1 & O1). rewrite I in E1. inversion E1; subst y1 t1.
    assert (Hr : running b = true) by (unfold running; rewrite P; reflexivity).
    assert (Tot : exists b' t', b_act c x b = Ok (b', t')).
    { destruct x as [|y]; cbn [b_act]; [rewrite P; destruct (act_ok c AMain _ Ht O1) as (y2 & t2 & E2 & _); rewrite E2; cbn [bind]; eauto|].
      destruct y; eauto; match goal with |- context [y_act c ?a _] => destruct (act_ok c a _ Ht O1) as (y2 & t2 & E2 & _); rewrite E2; cbn [bind]; eauto end. }
    destruct Tot as (b' & t' & E). exists b', t'. split; auto. destruct (b_act_running _ _ _ _ _ Hr E) as [R' W']. unfold running in R'. unfold binv. destruct (b_pc b'); try discriminate R'; rewrite Sn, y_run_app, I; cbn [bind]; rewrite W'; reflexivity.
  - assert (Ok' := run_ok c (b_sched c l (slave_app c)) Ht _ (example_ok c Hc)). destruct Ok' as (y1 & t1 & E1 & O1). rewrite I in E1. inversion E1; subst y1 t1.
    assert (Hr : running b = true) by (unfold running; rewrite P; reflexivity).
    assert (Sm := y_run_same _ _ _ _ _ Ht (example_ok c Hc) I).
    assert (Tot : exists b' t', b_act c x b = Ok (b', t')).
    { destruct x as [|y]; cbn [b_act].
      - rewrite P. rewrite (aget_ok _ _ false); [cbn [bind]; eauto|]. destruct Sm as (_ & _ & _ & _ & L & _). rewrite L. change (length (v_bits (s_data (sc_s (y_lib (example_firmware c)))))) with 41%nat. unfold p_LED_status. lia.
      - destruct y; eauto; match goal with |- context [y_act c ?a _] => destruct (act_ok c a _ Ht O1) as (y2 & t2 & E2 & _); rewrite E2; cbn [bind]; eauto end. }
    destruct Tot as (b' & t' & E). exists b', t'. split; auto. destruct (b_act_running _ _ _ _ _ Hr E) as [R' W']. unfold running in R'. unfold binv. destruct (b_pc b'); try discriminate R'; rewrite Sn, y_run_app, I; cbn [bind]; rewrite W'; reflexivity.
Qed.
Lemma binv_run c l : example_cfg_ok c -> exists b t, b_run c l (slave_app c) = Ok (b, t) /\ binv c l b t.
Proof.
  intros Hc. induction l as [|x l (b & t & R & I)] using rev_ind; [do 2 eexists; split; [reflexivity|apply binv_start; auto]|].
  destruct (binv_step c l b t x Hc R I) as (b' & t' & E & I'). exists b', (t ++ t'). split; auto. apply b_run_snoc. eauto 6.
Qed.

(** *** the LED *)
Definition s_rank (l : spc) : nat :=
  match l with
  | L164 => 6 | L167 => 5 | L168 => 4 | L169 _ => 3 | L171 => 2 | L173 => 1
  | L186 => 14 | L186b => 13 | L188 => 4 | L189 => 3 | L190 => 2 | L191 => 1
  | L193 => 12 | L193b => 11 | L195 => 10 | L196 => 9 | L197 => 8 | L198 => 3 | L199 => 2 | L200 => 1
  | L216 => 4 | L218 => 3 | L219 => 2 | L220 => 1
  | L232 => 7 | L233 => 6 | L234 => 5 | L235 => 4 | L236 => 3 | L237 => 2 | L238 => 1
  end%nat.
Definition d_left (p : dpc) : nat := match p with D85 _ => 4 | D86 _ => 3 | D87 => 2 | D88 => 1 end%nat.
Definition y_rank (y : sys) : nat := (match y_sub y with Some p => d_left p | None => 0 end + match sc_pc (y_lib y) with Some l => s_rank l | None => 0 end)%nat.
Definition y_lines (y : sys) : nat := if s_between_polls y then 15 else y_rank y.
Definition b_pot (b : sapp) : nat := match b_pc b with B50 _ => 0 | B55 => y_lines (b_fw b) + 1 | B57 => 1 end%nat.
Lemma s_rank_line c l s l' s' o : s_line c l s = Ok (Some l', s', o) -> (s_rank l' < s_rank l)%nat /\ (l = L197 -> s_rank l' = 3%nat).
Proof. intros E. destruct l; line_inv E; cbn; split; try lia; intros; discriminate || reflexivity. Qed.
Lemma s_poll_line c y y' t : y_act c AMain y = Ok (y', t) -> s_between_polls y' = true \/ s_between_polls y' = false /\ (y_rank y' < y_lines y)%nat.
Proof.
  intros E. destruct (s_between_polls y') eqn:B; auto. right. split; auto. cbn [y_act] in E. destruct (y_sub y) as [p|] eqn:Sb.
  - bnd E. inversion E; subst. unfold y_lines, y_rank, s_between_polls in *. rewrite Sb in *. cbn [y_lib y_sub] in *.
    assert (X : (match o with Some p => d_left p | None => 0 end < d_left p)%nat) by (destruct p; cbn [send_line] in Y; try bnd Y; inversion Y; subst; cbn; auto).
    destruct (sc_pc (y_lib y)); lia.
  - bnd E. inversion E; subst. cbn [s_act] in Y. destruct (sc_pc (y_lib y)) as [l1|] eqn:Pc.
    + bnd Y. rename Y0 into YL. inversion Y; subst. unfold y_lines, y_rank, s_between_polls in *. rewrite Sb, Pc in *. cbn [y_lib y_sub sc_pc] in *. destruct o as [l'|].
      * destruct (s_rank_line _ _ _ _ _ _ YL) as [R1 R2]. destruct l1; try (cbn in *; lia). rewrite (R2 eq_refl). unfold call_send. destruct (_ && _); cbn; lia.
      * destruct l1; try discriminate B. cbn [s_line] in YL. destruct (_ && _); discriminate.
    + inversion Y; subst. unfold y_lines, y_rank. assert (X : s_between_polls y = true) by (unfold s_between_polls; rewrite Sb, Pc; reflexivity). rewrite X. cbn [y_lib y_sub sc_pc]. unfold s_dispatch. destruct (s_st _); cbn; lia.
Qed.
Lemma hw_keeps_pc c x y y' t : is_hw x = true -> y_act c x y = Ok (y', t) -> y_sub y' = y_sub y /\ sc_pc (y_lib y') = sc_pc (y_lib y).
Proof.
  assert (Ev : forall e k k', y_event e k = Ok k' -> sc_pc k' = sc_pc k).
  { intros e k k' E. unfold y_event in E. bnd E. inversion E; subst. reflexivity. }
  intros N E. destruct x; try discriminate N; cbn [y_act] in E.
  - destruct (usart_pending _ _); [|inversion E; auto]. bnd E. inversion E; subst. cbn [y_sub y_lib]. split; auto. clear E. unfold y_usart in Y. bnd Y. bnd Y. bnd Y. inversion Y; subst. clear Y.
    assert (X1 : sc_pc s0 = sc_pc (y_lib y)). { unfold y_usart_rx in Y0. destruct (u_rdr _); [|inversion Y0; auto]. destruct (s_rx _); [|discriminate]. bnd Y0. destruct (u_det _); [destruct (s_sub _); [|discriminate]; bnd Y0|]; inversion Y0; subst; repeat match goal with H : y_event _ _ = _ |- _ => apply Ev in H end; congruence. }
    assert (X2 : sc_pc s1 = sc_pc s0). { unfold y_usart_tx in Y1. destruct (u_tdr _); [inversion Y1; auto|]. destruct (_ <? _); [bnd Y1; inversion Y1; auto|]. destruct (s_sub _); [|discriminate]. bnd Y1. inversion Y1; subst. apply Ev in Y. auto. }
    assert (X3 : sc_pc s = sc_pc s1). { unfold y_usart_rto in Y2. destruct (u_rtof _); [|inversion Y2; auto]. destruct (s_sub _); [|inversion Y2; auto]. bnd Y2. inversion Y2; subst. apply Ev in Y. auto. }
    congruence.
  - bnd E. inversion E; subst. cbn [y_sub y_lib]. split; auto. unfold y_timer in Y. destruct (u_uif _); [|inversion Y; auto]. destruct (s_sub _); [|discriminate]. bnd Y. inversion Y; subst. apply Ev in Y0. auto.
  - inversion E; auto.
  - destruct (u_tdr _); inversion E; auto.
  - inversion E; auto.
  - destruct (u_cen _); inversion E; auto.
Qed.
Lemma b_mains_app a b : b_mains (a ++ b) = (b_mains a + b_mains b)%nat.
Proof. unfold b_mains. rewrite filter_app, app_length. reflexivity. Qed.
Lemma b_pot_pos b : running b = true -> (1 <= b_pot b)%nat.
Proof. unfold running, b_pot. destruct (b_pc b); try discriminate; lia. Qed.
Lemma y_lines_pos y : (1 <= y_lines y)%nat.
Proof. unfold y_lines, y_rank, s_between_polls. destruct (sc_pc (y_lib y)) as [l|] eqn:P, (y_sub y) as [p|] eqn:Q; try (destruct l; cbn; lia); try (destruct p; cbn; lia). lia. Qed.
(** the application's step: the potential decreases, unless the LED is updated *)
Lemma b_pot_step c x b b' t : running b = true -> b_act c x b = Ok (b', t) ->
  (x <> BaMain -> b_pot b' = b_pot b /\ b_led b' = b_led b /\ b_data b' = b_data b) /\
  (x = BaMain -> (b_led b' = b_led b /\ (b_pot b' < b_pot b)%nat) \/ (b_pc b = B57 /\ b_led b' = LED_status (b_data b) /\ b_fw b' = b_fw b /\ b_pc b' = B55)).
Proof.
  intros Hr E. split; intros X.
  - destruct x as [|y]; [destruct (X eq_refl)|]. cbn [b_act] in E. destruct (is_hw y) eqn:Hy.
    + assert (A : exists y2, y_act c y (b_fw b) = Ok (y2, t) /\ b' = mk_sapp y2 (b_pc b) (b_led b)) by (destruct y; try discriminate Hy; bnd E; inversion E; subst; eauto).
      destruct A as (y2 & A & ->). destruct (hw_keeps_pc _ _ _ _ _ Hy A) as [K1 K2]. unfold b_pot, b_data, y_lines, y_rank, s_between_polls. cbn [b_pc b_fw b_led]. rewrite K1, K2, (hw_keeps_data _ _ _ _ _ Hy A). auto.
    + destruct y; try discriminate Hy; inversion E; subst; auto.
  - subst x. cbn [b_act] in E. unfold running in Hr. destruct (b_pc b) eqn:P; [discriminate| |].
    + left. bnd E. inversion E; subst. cbn [b_led]. split; auto. unfold b_pot. rewrite P. cbn [b_pc b_fw]. destruct (s_poll_line _ _ _ _ Y) as [B|[B L]]; rewrite B; [assert (Z := y_lines_pos (b_fw b)); lia|].
      unfold y_lines at 1. rewrite B. lia.
    + right. bnd E. inversion E; subst. cbn [b_led b_fw b_pc]. split; auto. split; auto. unfold LED_status, b_data. unfold aget in Y. cbn [Z.ltb Z.compare] in Y. destruct (nth_error _ _) eqn:N; try discriminate. inversion Y; subst.
      change (Z.to_nat (Z.of_nat p_LED_status)) with 40%nat in N. erewrite nth_error_nth by exact N. destruct a; reflexivity.
Qed.

(** at rest between two polls whenever the application is not in check_modbus_request *)
Definition parked (b : sapp) : Prop := b_pc b <> B55 -> s_between_polls (b_fw b) = true.
Lemma between_eq y y' : y_sub y' = y_sub y -> sc_pc (y_lib y') = sc_pc (y_lib y) -> s_between_polls y' = s_between_polls y.
Proof. unfold s_between_polls. intros -> ->. reflexivity. Qed.
Lemma parked_step c x b b' t : parked b -> b_act c x b = Ok (b', t) -> parked b'.
Proof.
  unfold parked. intros Pk E. destruct x as [|y]; cbn [b_act] in E.
  - destruct (b_pc b) as [[|[[tb adr] p] todo]| |].
    + inversion E; subst. cbn. congruence.
    + bnd E. inversion E; subst. cbn [b_pc b_fw]. intros _. apply Pk. discriminate.
    + bnd E. inversion E; subst. cbn [b_pc b_fw]. destruct (s_between_polls s) eqn:B; auto; congruence.
    + bnd E. inversion E; subst. cbn. congruence.
  - destruct (is_hw y) eqn:Hy; [|destruct y; try discriminate Hy; inversion E; subst; auto].
    assert (A : exists y2, y_act c y (b_fw b) = Ok (y2, t) /\ b' = mk_sapp y2 (b_pc b) (b_led b)) by (destruct y; try discriminate Hy; bnd E; inversion E; subst; eauto).
    destruct A as (y2 & A & ->). destruct (hw_keeps_pc _ _ _ _ _ Hy A) as [K1 K2]. cbn [b_pc b_fw]. rewrite (between_eq _ _ K1 K2). auto.
Qed.
Definition recent (c : cfg) (l : list bact) (b : sapp) : Prop :=
  exists l1 l2 b1 t1, l = l1 ++ l2 /\ b_run c l1 (slave_app c) = Ok (b1, t1) /\ LED_status (b_data b1) = b_led b /\ (b_mains l2 + b_pot b <= 17)%nat.
Lemma recent_run c l : example_cfg_ok c -> exists b t, b_run c l (slave_app c) = Ok (b, t) /\ recent c l b /\ parked b.
Proof.
  intros Hc. induction l as [|x l (b & t & R & Re & Pk)] using rev_ind.
  - do 2 eexists. split; [reflexivity|]. split; [|unfold parked; reflexivity]. exists [], [], (slave_app c), []. repeat split; auto; cbn; lia.
  - destruct (binv_run c (l ++ [x]) Hc) as (b' & t' & R' & I'). exists b', t'. split; auto. assert (Rs := R'). apply b_run_snoc in Rs as (b2 & t2 & t3 & R2 & A & ->). rewrite R in R2. inversion R2; subst b2 t2.
    split; [|eapply parked_step; eauto]. destruct (running b') eqn:Rn'.
    + destruct (running b) eqn:Rn.
      * destruct (b_pot_step _ _ _ _ _ Rn A) as [S1 S2]. destruct Re as (l1 & l2 & b1 & t1 & -> & R1 & L1 & M1).
        assert (Keep : b_led b' = b_led b -> (b_mains [x] + b_pot b' <= b_pot b)%nat -> recent c ((l1 ++ l2) ++ [x]) b').
        { intros K1 K2. exists l1, (l2 ++ [x]), b1, t1. rewrite app_assoc, b_mains_app, K1. repeat split; auto. lia. }
        destruct x as [|y]; [|destruct (S1 ltac:(discriminate)) as (Q1 & Q2 & _); apply Keep; auto; rewrite Q1; cbn; lia].
        destruct (S2 eq_refl) as [(Q1 & Q2)|(Q1 & Q2 & Q3 & Q4)]; [apply Keep; auto; cbn; lia|].
        exists (l1 ++ l2), [BaMain], b, t. repeat split; auto. unfold b_pot. rewrite Q4, Q3. unfold y_lines. rewrite (Pk ltac:(congruence)). cbn. lia.
      * (* the registration ends *)
        unfold running in Rn, Rn'. destruct (b_pc b) as [todo| |] eqn:P; try discriminate Rn. destruct x as [|y].
        2:{ cbn [b_act] in A. exfalso. destruct y; try bnd A; inversion A; subst; cbn in Rn'; rewrite P in Rn'; discriminate Rn'. }
        cbn [b_act] in A. rewrite P in A. destruct todo as [|[[tb adr] p] todo]; [|bnd A; inversion A; subst; discriminate Rn'].
        assert (Bt := Pk ltac:(congruence)). inversion A; subst b' t3. cbn [b_led]. destruct Re as (l1 & l2 & b1 & t1 & -> & R1 & L1 & M1).
        exists ((l1 ++ l2) ++ [BaMain]), [], (mk_sapp (b_fw b) B55 (b_led b)), (t ++ []). split; [now rewrite app_nil_r|]. split; auto.
        assert (D : binv c (l1 ++ l2) b t) by (destruct (binv_run c (l1 ++ l2) Hc) as (b3 & t3 & R3 & I3); rewrite R in R3; inversion R3; subst; auto).
        unfold binv in D. rewrite P in D. destruct D as (done & Er & W & Hw & Ld). unfold b_data. cbn [b_fw b_led]. rewrite (hw_run_keeps _ _ _ _ _ Hw W), Ld. split; [reflexivity|]. unfold b_pot, y_lines. cbn [b_pc b_fw]. rewrite Bt. cbn. lia.
    + unfold running in Rn'. unfold binv in I'. destruct (b_pc b') as [todo| |] eqn:P; try discriminate Rn'. destruct I' as (done & Er & W & Hw & Ld).
      exists (l ++ [x]), [], b', (t ++ t3). split; [now rewrite app_nil_r|]. split; auto. unfold b_data. rewrite (hw_run_keeps _ _ _ _ _ Hw W), Ld. split; [reflexivity|]. unfold b_pot. rewrite P. cbn. lia.
Qed.

(** *** switching the LED over the line *)
Lemma put_firstn {A} (v : A) : forall i l, (i < length l)%nat -> put l i v = firstn i l ++ [v] ++ skipn (S i) l.
Proof. induction i as [|i IH]; intros [|x l] H; cbn in H; try lia; cbn; auto. f_equal. rewrite IH by lia. reflexivity. Qed.
Lemma coil_21 c : example_cfg_ok c -> nth_error (t_coils (example_data c)) 21 = Some (Some 40%nat).
Proof.
  intros (H & _). cbn [example_data t_coils]. rewrite nth_error_map, (nth_error_nth' _ 0%nat) by (rewrite seq_length; lia). rewrite seq_nth by lia. reflexivity.
Qed.
Lemma switch_server c d v : example_cfg_ok c -> same_map (example_data c) d -> server c d (switch_LED v) = ([5; 0; 21; if v then 255 else 0; 0], with_LED d v).
Proof.
  intros Hc (T1 & T2 & T3 & T4 & L1 & L2). assert (B : forall i, (i < 6)%nat -> byte_at (switch_LED v) i = nth i (1 :: [5; 0; 21; if v then 255 else 0; 0]) 0).
  { intros i Hi. unfold byte_at, switch_LED, rtu_frame. apply app_nth1. cbn [length]. lia. }
  unfold server. rewrite (B 1%nat) by lia. unfold word_at. rewrite !B by lia. cbn [nth]. replace (256 * 0 + 21) with 21 by lia.
  assert (Cs : c_coils c <=? 21 = false) by (destruct Hc as (? & _); lia). rewrite Cs. replace (Z.to_nat 21) with 21%nat by lia. unfold store. rewrite T1, (coil_21 c Hc).
  rewrite put_firstn by (rewrite L1; cbn; lia). destruct v; reflexivity.
Qed.
Lemma history_map c l b t : example_cfg_ok c -> b_run c l (slave_app c) = Ok (b, t) -> running b = true -> same_map (example_data c) (b_data b).
Proof.
  intros Hc H Hr. destruct (binv_run c l Hc) as (b1 & t1 & R & I). rewrite H in R. inversion R; subst. unfold binv, running in *.
  destruct (b_pc b1); try discriminate; exact (y_run_same _ _ _ _ _ (tables_ok c Hc) (example_ok c Hc) I).
Qed.
Lemma b_sched_mains c n : forall b, exists k, b_sched c (repeat BaMain n) b = repeat AMain k.
Proof.
  induction n as [|n IH]; intros b; [exists 0%nat; reflexivity|]. cbn [repeat b_sched]. assert (X : exists k, match b_act c BaMain b with Ok (b1, _) => b_sched c (repeat BaMain n) b1 | _ => [] end = repeat AMain k) by (destruct (b_act c BaMain b) as [[b1 t1]| |]; [apply IH|exists 0%nat; reflexivity|exists 0%nat; reflexivity]).
  destruct X as (k & ->). destruct (b_pc b); [exists k|exists (S k)|exists k]; reflexivity.
Qed.
Lemma wire_answer_more len l k : SlaveSystem.wire_answer len l -> SlaveSystem.wire_answer len (l ++ repeat AMain k).
Proof.
  intros (l1 & l2 & n & -> & H1 & H2 & H3 & H4 & H5 & H6). exists l1, l2, (n + k)%nat. split; [rewrite <- !app_assoc, repeat_app; reflexivity|]. repeat split; auto. lia.
Qed.
Lemma b_mains_repeat n : b_mains (repeat BaMain n) = n.
Proof. induction n as [|n IH]; [reflexivity|]. unfold b_mains in *. cbn. now rewrite IH. Qed.
Lemma LED_with d v : (40 < length (v_bits d))%nat -> LED_status (with_LED d v) = v.
Proof. intros H. unfold LED_status, with_LED. cbn [v_bits]. rewrite app_nth2; rewrite firstn_length, Nat.min_l by lia; [|lia]. reflexivity. Qed.
