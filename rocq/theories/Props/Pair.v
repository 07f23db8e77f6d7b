(** C85: the example master and the example slave on one bus. *)
From Verif Require Import Props.SlaveApp.
From Verif Require Import Proofs.SlaveApp.
From Verif Require Import Props.Frames Props.MasterRun Props.MasterSystem Props.MasterLine Props.Bus Proofs.Bus Proofs.MasterApp Props.MasterApp Proofs.Pair.

Lemma example_id c sched b t : example_cfg_ok c -> slave_app_history c sched b t -> running b = true -> s_id (sc_s (y_lib (b_fw b))) = 1.
Proof.
  intros Hc H Hr. assert (Ht := tables_ok c Hc). destruct (C79_application_is_firmware c sched b t Hc H Hr) as [St Yf]. destruct (Verif.Proofs.SlaveSystem.run_piece _ _ _ _ _ Yf) as (ls & L).
  destruct (Verif.Proofs.SlaveInv.run_ready c ls Ht _ (proj1 (example_ok c Hc))) as (k' & o' & L' & _ & X). rewrite L in L'. inversion L'; subst. rewrite X. reflexivity.
Qed.

(** *** C85 *)
(** A round: the four requests of the example master are exchanged with the example slave over the line.  Thereafter the master's variables hold coil 1 and
    holding register 1 of the slave; coil 0 and holding register 0 of the slave are what the master wrote, no other variable of the slave has changed; both
    are at rest; the line has carried the four requests once each. *)
Theorem C85_round : forall c sched a t c' sched' b t' v r more al bl ps,
  cfg_master_ok c -> 2 <= c_timeout c < 4294967296 -> app_history c sched a t -> w_ready (a_fw a) -> pending_reqs (m_lib_of t) = round_of v r ++ more ->
  example_cfg_ok c' -> slave_app_history c' sched' b t' -> running b = true -> SlaveSystem.sys_rests c' (b_fw b) ->
  map fst ps = round_of v r -> pair_session c a al c' b bl ps ->
  exists al1 al2 a' ta b' tb, al = al1 ++ al2 /\ forallb w_plain (a_sched c al2 a') = true /\ a_run c al1 a = Ok (a', ta) /\ b_run c' bl b = Ok (b', tb) /\
    readed_coil (a_vars a') = coil_var (b_data b) 1 /\ readed_hreg (a_vars a') = hreg_var (b_data b) 1 /\ b_data b' = with_outputs (b_data b) v r /\
    callbacks (m_lib_of ta) = [CoilRead 1 1 (coil_var (b_data b) 1); HregRead 1 1 (hreg_var (b_data b) 1); CoilWrite 1 0 1; HregWrite 1 0 1] /\
    m_on_line ta = concat (map request_frame (round_of v r)) /\ SlaveSystem.on_line tb = concat (map (fun p => bus_answer (snd p)) ps) /\
    w_rests (a_fw a') /\ SlaveSystem.sys_rests c' (b_fw b') /\ running b' = true /\ pending_reqs (m_lib_of (t ++ ta)) = more ++ accepted (m_lib_of ta).
Proof.
  intros c sched a t c' sched' b t' v r more al bl ps Hc HT Ha Wr Pd Hc' Hb Hr Rs Ep (Bs & Ea & Eb).
  assert (Ha' := Ha). destruct Ha' as (a0 & H0 & R). destruct (i_fw _ _ _ _ _ (ainv_run _ _ Hc H0 _ _ _ R)) as (ws & W1 & W2 & _). destruct (app_start _ _ Hc H0) as (St & _).
  assert (Hw : w_history c ws (a_fw a) t) by (exists (a_fw a0); auto). assert (I := w_history_cinv _ _ _ _ Hc Hw).
  assert (Id := example_id _ _ _ _ Hc' Hb Hr). assert (Ht := tables_ok c' Hc').
  destruct (bus_all c (a_fw a) Hc HT ps more [] [] (a_fw a) [] (m_lib_of t) [mk_node c' (b_fw b)]) as (la & lb & w' & ta & ls & ns' & E & P & Rw & W' & W2' & _ & Br & Rs' & Sv & O & V & Ll & Pn); auto.
  { rewrite <- Ea. eapply a_sched_safe; eauto. }
  { rewrite Ep. exact Pd. }
  { constructor; [|constructor]. split; auto. }
  { apply NoDup_cons; [intros []|apply NoDup_nil]. }
  cbn [app] in E. rewrite <- Ea in E. destruct (a_sched_run c al a la lb w' ta E Rw) as (al1 & al2 & a' & -> & Ra & Fa & Sa).
  destruct (one_node_runs _ _ _ _ _ Br) as (y' & tb & -> & Ry & Oy).
  assert (Tb : exists b' tb', b_run c' bl b = Ok (b', tb')).
  { destruct (binv_run c' (sched' ++ bl) Hc') as (b1 & t1 & R1 & _). apply b_run_split in R1 as (b2 & t2 & t3 & R1 & R2 & _). unfold slave_app_history in Hb. rewrite Hb in R1. inversion R1; subst. eauto. }
  destruct Tb as (b' & tb' & Rb). destruct (b_run_running _ _ _ _ _ Hr Rb) as [Hr' Y]. rewrite Eb in Y. replace (concat (map (fun p => concat (b_slaves (snd p))) ps)) with (concat (concat (map (fun p => b_slaves (snd p)) ps))) in Y by (clear; induction ps as [|p ps IH]; cbn [map concat]; auto; rewrite concat_app, IH; auto).
  rewrite Ry in Y. inversion Y; subst y' tb'. clear Y.
  assert (Sm := history_map c' sched' b t' Hc' Hb Hr). rewrite Ep in *. cbn [map] in Sv. unfold mem_of in Sv. unfold n_id, n_data in Sv. cbn [n_cfg n_sys] in Sv. rewrite Id in Sv.
  destruct (one_served 1 c' _ _ _ (b_data b) _ Sv eq_refl) as (d' & Em & Srv). { repeat constructor. }
  destruct (round_served c' _ v r ls d' Hc' Sm Srv) as [El Ed]. injection Em as E1 E2.
  assert (Cb : callbacks (m_lib_of ta) = concat ls). { rewrite visible_cbs, V. apply session_cbs. rewrite El. reflexivity. }
  assert (Va : a_vars a' = run_cbs ta (a_vars a)).
  { clear - Ra. revert a ta Ra. induction al1 as [|x l IH]; intros a ta Ra; cbn [a_run] in Ra; [inversion Ra; reflexivity|]. destruct (a_act c x a) as [[a1 t1]| |] eqn:A; try discriminate. cbn [bind] in Ra. destruct (a_run c l a1) as [[a2 t2]| |] eqn:R2; try discriminate. inversion Ra; subst. rewrite (IH _ _ R2), run_cbs_app. f_equal. apply (a_step_inv _ _ _ _ _ A). }
  rewrite El in Cb. cbn [concat app] in Cb. assert (Va2 := Va). rewrite run_cbs_eq, Cb in Va2. inversion Rs' as [|n l [_ Rn] Rn']; subst n l.
  exists al1, al2, a', ta, b', tb. split; auto. rewrite Sa. split; auto. split; auto. split; auto. rewrite Va2. split; [reflexivity|]. split; [reflexivity|].
  split; [rewrite <- Ed; exact E2|]. split; [exact Cb|]. split; [rewrite O; rewrite <- Ep, map_map; reflexivity|]. split; [exact Oy|]. rewrite Fa. split; [apply W2'; left; intros ->; discriminate Ep|].
  split; [exact Rn|]. split; auto. rewrite m_lib_of_app. exact Pn.
Qed.
Print Assumptions C85_round.

(** The next round: what the master asks for after a round whose values it has read (as C85_round leaves it: nothing pending, the variables hold
    coil 1 and holding register 1 of the slave), if nothing is received in between: the values it will write are the ones it has read. *)
Lemma accepted_in a t : In a (accepted t) -> In (MTOut (MoRet a REQUEST_SEND_TO_QUEUE)) t.
Proof. induction t as [|[e|[]] t IH]; cbn [accepted]; intros H; try (right; auto; fail); auto. destruct r; try (right; auto; fail). destruct H as [->|H]; [left; auto|right; auto]. Qed.
Lemma lib_in i t : In i (m_lib_of t) -> In (WLib i) t.
Proof. unfold m_lib_of. intros H. apply in_flat_map in H as ([j|b] & H1 & H2); [|contradiction]. destruct H2 as [->|[]]. exact H1. Qed.
Lemma skipn_skipn_in {A} (x : A) n l : In x (skipn n l) -> In x l.
Proof. intros H. rewrite <- (firstn_skipn n l). apply in_or_app. auto. Qed.
Lemma asked_later c sched a t l a' t' q : cfg_master_ok c -> app_history c sched a t -> pending_reqs (m_lib_of t) = [] -> a_run c l a = Ok (a', t') -> callbacks (m_lib_of t') = [] ->
  In q (pending_reqs (m_lib_of (t ++ t'))) -> exists n, q = app_request n (callbacks (m_lib_of t)).
Proof.
  intros Hc Ha Pd R Cb Hq. destruct (history_more _ _ _ _ _ _ _ Ha R) as (a0 & H0 & R0). assert (G := i_good _ _ _ _ _ (ainv_run _ _ Hc H0 _ _ _ R0)).
  assert (In q (accepted (m_lib_of t'))).
  { unfold pending_reqs in *. assert (L : (length (accepted (m_lib_of t)) <= finished (m_lib_of t))%nat) by (apply (f_equal (@length api)) in Pd; rewrite skipn_length in Pd; cbn in Pd; lia).
    rewrite m_lib_of_app, accepted_app, finished_app, skipn_app in Hq. apply in_app_or in Hq as [Hq|Hq]; [rewrite skipn_all2 in Hq by lia; contradiction|]. eapply skipn_skipn_in; eauto. }
  apply accepted_in, lib_in in H. apply in_split in H as (t1 & t2 & ->). destruct (G (t ++ t1) q REQUEST_SEND_TO_QUEUE t2) as [E _]; [now rewrite <- app_assoc|].
  rewrite m_lib_of_app, callbacks_app in E. assert (C1 : callbacks (m_lib_of t1) = []) by (rewrite m_lib_of_app, callbacks_app in Cb; destruct (callbacks (m_lib_of t1)); [auto|discriminate]). rewrite C1, app_nil_r in E. eauto.
Qed.
Theorem C85_next_round : forall c sched a t l a' t' v r more, cfg_master_ok c -> app_history c sched a t -> pending_reqs (m_lib_of t) = [] -> a_run c l a = Ok (a', t') -> callbacks (m_lib_of t') = [] ->
  pending_reqs (m_lib_of (t ++ t')) = round_of v r ++ more -> v = readed_coil (a_vars a) /\ r = readed_hreg (a_vars a).
Proof.
  intros c sched a t l a' t' v r more Hc Ha Pd R Cb Pn. assert (Ha' := Ha). destruct Ha' as (a0 & H0 & R0). assert (Iv := ainv_run _ _ Hc H0 _ _ _ R0). rewrite (i_coil _ _ _ _ _ Iv), (i_hreg _ _ _ _ _ Iv).
  destruct (asked_later c sched a t l a' t' (WriteSingleCoil 0 1 v) Hc Ha Pd R Cb) as (n & E); [rewrite Pn; cbn; auto|]. destruct (asked_later c sched a t l a' t' (WriteSingleReg 0 1 r) Hc Ha Pd R Cb) as (m & F); [rewrite Pn; cbn; auto|].
  unfold app_request in E, F. destruct (n mod 4)%nat as [|[|[|?]]]; try discriminate E. destruct (m mod 4)%nat as [|[|[|?]]]; try discriminate F. inversion E. inversion F. auto.
Qed.
Print Assumptions C85_next_round.
(** The second round, after one as C85_round leaves it: it copies coil 1 to coil 0 and holding register 1 to holding register 0 of the slave. *)
Theorem C85_mirror : forall c sched a t l a' t' c' sched' b tb v r more al bl ps,
  cfg_master_ok c -> 2 <= c_timeout c < 4294967296 -> example_cfg_ok c' -> slave_app_history c' sched' b tb -> running b = true -> SlaveSystem.sys_rests c' (b_fw b) ->
  (* after the first round *)
  app_history c sched a t -> pending_reqs (m_lib_of t) = [] -> readed_coil (a_vars a) = coil_var (b_data b) 1 -> readed_hreg (a_vars a) = hreg_var (b_data b) 1 ->
  (* the next requests are made *)
  a_run c l a = Ok (a', t') -> callbacks (m_lib_of t') = [] -> w_ready (a_fw a') -> pending_reqs (m_lib_of (t ++ t')) = round_of v r ++ more ->
  (* and exchanged *)
  map fst ps = round_of v r -> pair_session c a' al c' b bl ps ->
  exists al1 al2 a2 ta b2 tb2, al = al1 ++ al2 /\ a_run c al1 a' = Ok (a2, ta) /\ b_run c' bl b = Ok (b2, tb2) /\
    coil_var (b_data b2) 0 = coil_var (b_data b2) 1 /\ hreg_var (b_data b2) 0 = hreg_var (b_data b2) 1 /\ coil_var (b_data b2) 1 = coil_var (b_data b) 1 /\ hreg_var (b_data b2) 1 = hreg_var (b_data b) 1 /\
    readed_coil (a_vars a2) = coil_var (b_data b2) 1 /\ readed_hreg (a_vars a2) = hreg_var (b_data b2) 1.
Proof.
  intros c sched a t l a' t' c' sched' b tb v r more al bl ps Hc HT Hc' Hb Hr Rs Ha P0 V1 V2 R Cb Wr Pd Ep Ps.
  destruct (C85_next_round _ _ _ _ _ _ _ _ _ _ Hc Ha P0 R Cb Pd) as [-> ->].
  destruct (C85_round c _ a' _ c' sched' b tb _ _ more al bl ps Hc HT (history_more _ _ _ _ _ _ _ Ha R) Wr Pd Hc' Hb Hr Rs Ep Ps) as (al1 & al2 & a2 & ta & b2 & tb2 & E & _ & Ra & Rb & C1 & C2 & D & _).
  exists al1, al2, a2, ta, b2, tb2. split; auto. split; auto. split; auto. assert (Sm := history_map c' sched' b tb Hc' Hb Hr). destruct Sm as (_ & _ & _ & _ & L1 & L2). rewrite V1, V2 in D.
  assert (T : forall (A : Type) (x : A) (m : list A) d n, length m = S (S n) -> nth 1 (x :: tl m) d = nth 1 m d) by (intros A x [|? [|? ?]] d n Q; try discriminate; reflexivity).
  assert (K1 : coil_var (b_data b2) 1 = coil_var (b_data b) 1) by (rewrite D; unfold coil_var, with_outputs; cbn [v_bits]; apply (T _ _ _ _ 39%nat); rewrite L1; reflexivity).
  assert (K2 : hreg_var (b_data b2) 1 = hreg_var (b_data b) 1) by (rewrite D; unfold hreg_var, with_outputs; cbn [v_regs]; apply (T _ _ _ _ 38%nat); rewrite L2; reflexivity).
  rewrite K1, K2, C1, C2. rewrite D. auto 8.
Qed.
Print Assumptions C85_mirror.

(** *** a case: from power-on of both boards to the end of the first round *)
Lemma session_step c w pre c' y a f v l ps w1 t1 w2 t2 y2 tb : wtry_ok (c_timeout c) (length (request_frame a)) f v -> s_id (sc_s (y_lib y)) = api_id a ->
  w_run c pre w = Ok (w1, t1) -> w_run c (v_send v ++ v_out v) w1 = Ok (w2, t2) -> is_asked (mk_node c' y) (m_on_line t2) l -> y_run c' l y = Ok (y2, tb) -> f = SlaveSystem.on_line tb ->
  bus_session c w (pre ++ wtry_sched v) [mk_node c' y2] ps -> bus_session c w pre [mk_node c' y] ((a, mk_bcall (Answered [] f v) [l]) :: ps).
Proof.
  intros Ok1 Id E1 E2 As Ey Ef Bs. cbn [bus_session]. split.
  - unfold bus_call. cbn [b_exch b_slaves]. split; [exact Ok1|]. split; [left; exact Id|]. intros w1' t1' w2' t2' F1 F2. rewrite E1 in F1. inversion F1; subst w1' t1'. rewrite E2 in F2. inversion F2; subst w2' t2'.
    constructor; [|constructor]. unfold node_hears, n_id. cbn [n_sys]. rewrite Id, Z.eqb_refl. split; [exact As|]. intros n' t' [_ R]. cbn [n_cfg n_sys] in R. rewrite Ey in R. injection R as _ <-. exact Ef.
  - intros ns' out R. inversion R as [|? ? n' ? ? ? ? ? Rn Rr]; subst. inversion Rr; subst. destruct Rn as [Ec Rn]. cbn [n_cfg n_sys] in *. destruct n' as [c1 y1]. cbn [n_cfg n_sys] in *. subst c1. rewrite Ey in Rn. injection Rn as <- <-. cbn [b_exch exch_sched map concat app]. exact Bs.
Qed.
Lemma line_try_ok_more T f : 4 <= T -> wtry_ok T 8 f (line_try_of f).
Proof. intros H. destruct (line_try_ok f). constructor; auto. lia. Qed.
(** schedules of the applications for given schedules of their firmwares *)
Fixpoint a_drive (c : cfg) (l : list wact) (a : mapp) : list aact :=
  match l with
  | [] => []
  | x :: l =>
      let xs := match x with WMain => match a_pc a with A66 => [AaMain; AaMain] | _ => [AaMain] end | WTick => [AaTick] | _ => [AaHw x] end in
      xs ++ match a_run c xs a with Ok (a1, _) => a_drive c l a1 | _ => [] end
  end.
Fixpoint b_drive (c : cfg) (l : list yact) (b : sapp) : list bact :=
  match l with
  | [] => []
  | x :: l =>
      let xs := match x with AMain => match b_pc b with B57 => [BaMain; BaMain] | _ => [BaMain] end | _ => [BaHw x] end in
      xs ++ match b_run c xs b with Ok (b1, _) => b_drive c l b1 | _ => [] end
  end.
Definition first_calls : list aact := aticks 300 ++ amains 8.
Definition pa : mapp := fst (app_result first_calls).
Definition pt : list witem := snd (app_result first_calls).
Definition pb : sapp := match b_run bcfg b_up (slave_app bcfg) with Ok (b, _) => b | _ => slave_app bcfg end.
Definition exchange_of (a : api) (p : list Z) (n : nat) : api * bcall :=
  (a, mk_bcall (Answered [] (rtu_frame 1 p) (line_try_of (rtu_frame 1 p))) [answering n (request_frame a)]).
Definition pair_calls : list (api * bcall) :=
  [exchange_of (ReadCoils 1 1 1) [1; 1; 0] 6; exchange_of (ReadHoldingReg 1 1 1) [3; 2; 7; 210] 7; exchange_of (WriteSingleCoil 0 1 false) [5; 0; 0; 0; 0] 8; exchange_of (WriteSingleReg 0 1 0) [6; 0; 0; 0; 0] 8].
Definition pair_al : list aact := a_drive xcfg (concat (map (fun p => exch_sched (b_exch (snd p))) pair_calls)) pa.
Definition pair_bl : list bact := b_drive bcfg (concat (map (fun p => concat (b_slaves (snd p))) pair_calls)) pb.
Ltac one_exchange := eapply session_step; [apply line_try_ok_more; vm_compute; discriminate|vm_compute; reflexivity|vm_compute; reflexivity|vm_compute; reflexivity|
  match goal with |- is_asked _ (m_on_line ?t) (answering _ ?g) => replace (m_on_line t) with g by (vm_compute; reflexivity) end; apply asked_ok; [lia|vm_compute; reflexivity]|vm_compute; reflexivity|vm_compute; reflexivity|].
Lemma pair_case_session : bus_session xcfg (a_fw pa) [] [mk_node bcfg (b_fw pb)] pair_calls.
Proof. unfold pair_calls, exchange_of. do 4 one_exchange. exact I. Qed.
Example C85_case : app_history xcfg first_calls pa pt /\ w_ready (a_fw pa) /\ pending_reqs (m_lib_of pt) = round_of false 0 ++ [] /\ slave_app_history bcfg b_up pb [] /\ running pb = true /\ SlaveSystem.sys_rests bcfg (b_fw pb) /\
  map fst pair_calls = round_of false 0 /\ pair_session xcfg pa pair_al bcfg pb pair_bl pair_calls /\ coil_var (b_data pb) 1 = false /\ hreg_var (b_data pb) 1 = 2002.
Proof.
  split; [exists a0; split; [apply a0_ok|vm_compute; reflexivity]|]. split; [vm_compute; repeat split; discriminate|]. split; [vm_compute; reflexivity|].
  destruct (b_up_run bcfg bcfg_ok) as (b & H & Hr & F). assert (Eb : b = pb) by (unfold pb; unfold slave_app_history in H; rewrite H; reflexivity). rewrite Eb in H, Hr, F. split; auto. split; auto.
  split; [rewrite F; apply Verif.Props.SlaveSystem.started_rests, example_started, bcfg_ok|]. split; [reflexivity|]. split; [|vm_compute; auto].
  split; [apply pair_case_session|]. split; vm_compute; reflexivity.
Qed.
(** ... and of the second round *)
Definition next_calls : list aact := aticks 300 ++ amains 7.
Definition pa1 : mapp := fst (app_result (first_calls ++ pair_al)).
Definition pt1 : list witem := snd (app_result (first_calls ++ pair_al)).
Definition second : mapp * list witem := match a_run xcfg next_calls pa1 with Ok x => x | _ => (pa1, []) end.
Definition pb1 : sapp := match b_run bcfg (b_up ++ pair_bl) (slave_app bcfg) with Ok (b, _) => b | _ => slave_app bcfg end.
Definition pbt1 : list yitem := match b_run bcfg (b_up ++ pair_bl) (slave_app bcfg) with Ok (_, t) => t | _ => [] end.
Definition pair_calls2 : list (api * bcall) :=
  [exchange_of (ReadCoils 1 1 1) [1; 1; 0] 6; exchange_of (ReadHoldingReg 1 1 1) [3; 2; 7; 210] 7; exchange_of (WriteSingleCoil 0 1 false) [5; 0; 0; 0; 0] 8; exchange_of (WriteSingleReg 0 1 2002) [6; 0; 0; 7; 210] 8].
Definition pair_al2 : list aact := a_drive xcfg (concat (map (fun p => exch_sched (b_exch (snd p))) pair_calls2)) (fst second).
Definition pair_bl2 : list bact := b_drive bcfg (concat (map (fun p => concat (b_slaves (snd p))) pair_calls2)) pb1.
Lemma pair_case_session2 : bus_session xcfg (a_fw (fst second)) [] [mk_node bcfg (b_fw pb1)] pair_calls2.
Proof. unfold pair_calls2, exchange_of. do 4 one_exchange. exact I. Qed.
Lemma pb1_rests : slave_app_history bcfg (b_up ++ pair_bl) pb1 pbt1 /\ running pb1 = true /\ SlaveSystem.sys_rests bcfg (b_fw pb1).
Proof.
  destruct C85_case as (H1 & H2 & H3 & H4 & H5 & H6 & H7 & H8 & _).
  destruct (C85_round xcfg _ pa pt bcfg b_up pb [] _ _ [] pair_al pair_bl pair_calls xcfg_ok ltac:(vm_compute; split; congruence) H1 H2 H3 bcfg_ok H4 H5 H6 H7 H8) as (_ & _ & _ & _ & b' & tb & _ & _ & _ & Rb & _ & _ & _ & _ & _ & _ & _ & Rs & Rn & _).
  assert (E : b_run bcfg (b_up ++ pair_bl) (slave_app bcfg) = Ok (b', [] ++ tb)) by (apply b_run_split; eauto 6).
  unfold slave_app_history, pb1, pbt1. rewrite E. auto.
Qed.
Example C85_mirror_case : app_history xcfg (first_calls ++ pair_al) pa1 pt1 /\ pending_reqs (m_lib_of pt1) = [] /\ readed_coil (a_vars pa1) = coil_var (b_data pb1) 1 /\ readed_hreg (a_vars pa1) = hreg_var (b_data pb1) 1 /\
  a_run xcfg next_calls pa1 = Ok second /\ callbacks (m_lib_of (snd second)) = [] /\ w_ready (a_fw (fst second)) /\ pending_reqs (m_lib_of (pt1 ++ snd second)) = round_of false 2002 ++ [] /\
  map fst pair_calls2 = round_of false 2002 /\ pair_session xcfg (fst second) pair_al2 bcfg pb1 pair_bl2 pair_calls2 /\ hreg_var (b_data pb1) 0 = 0.
Proof.
  split; [exists a0; split; [apply a0_ok|vm_compute; reflexivity]|]. split; [vm_compute; reflexivity|]. split; [vm_compute; reflexivity|]. split; [vm_compute; reflexivity|]. split; [vm_compute; reflexivity|].
  split; [vm_compute; reflexivity|]. split; [vm_compute; repeat split; discriminate|]. split; [vm_compute; reflexivity|]. split; [reflexivity|]. split; [|vm_compute; reflexivity]. split; [apply pair_case_session2|]. split; vm_compute; reflexivity.
Qed.
