(** C105: the slave firmware with the driver's interrupt handlers' statements one by one. *)
From Verif Require Import Props.Frames Props.SlavePdu Props.SlaveRun Props.SlaveSystem Proofs.SlaveArrive Proofs.SlaveHandlers.
From Verif Require Import Model.SlaveHandlers Spec.SlaveHandlers.

Lemma g_act_of_usart y h : In AUsart (act_of y h) -> y = GUsart.
Proof.
  destruct y; cbn [act_of]; repeat match goal with |- context [match ?x with _ => _ end] => destruct x eqn:? end; cbn [In]; intros H; try tauto; try (destruct H as [H|[]]; try discriminate H; auto).
  subst x. discriminate.
Qed.
Lemma undisturbed_always c : forall l y, (forall l1 x l2 y1 t1, l = l1 ++ x :: l2 -> y_run c l1 y = Ok (y1, t1) -> x = AUsart -> match y_sub y1 with Some (D85 _) | Some (D86 _) | Some D87 => False | _ => True end) ->
  send_undisturbed c l y.
Proof.
  induction l as [|a l IH]; intros y H; cbn [send_undisturbed]; [auto|]. split; [exact (H [] a l y [] eq_refl eq_refl)|].
  intros y1 t1 E. apply IH. intros l1 x l2 y2 t2 -> R. apply (H (a :: l1) x l2 y2 (t1 ++ t2) eq_refl). cbn [y_run]. rewrite E. cbn [bind]. rewrite R. reflexivity.
Qed.
Lemma arrived_app a b : arrived (a ++ b) = arrived a ++ arrived b.
Proof. unfold arrived. apply flat_map_app. Qed.
Lemma moved_arrived l m : moved l m -> arrived m = arrived l.
Proof.
  induction 1 as [|? ? ? _ A _ B|l1 y x l2 Hx Hy]; auto; [congruence|]. rewrite !arrived_app. f_equal. change (y :: x :: l2) with ([y] ++ [x] ++ l2). change (x :: y :: l2) with ([x] ++ [y] ++ l2). rewrite !arrived_app, !app_assoc. f_equal.
  destruct Hy as [->|[->|(Hy & K)]]; [destruct x; reflexivity..|]. destruct x, y; try discriminate; try reflexivity. exfalso. now apply K.
Qed.
Lemma acts_arrived c : forall l g g1 t1, g_run c l g = Ok (g1, t1) -> arrived (acts_of c l g) = g_arrived l.
Proof.
  induction l as [|a l IH]; intros g g1 t1 E; cbn [acts_of g_run] in *; [reflexivity|]. destruct (g_act c a g) as [[g2 t2]| |]; try discriminate. cbn [bind] in E.
  destruct (g_run c l g2) as [[g3 t3]| |] eqn:R; try discriminate. rewrite arrived_app, (IH _ _ _ R). change (a :: l) with ([a] ++ l). unfold g_arrived. rewrite flat_map_app. f_equal.
  destruct a as [| | | | |x]; cbn [act_of flat_map app]; repeat match goal with |- context [match g_irq ?x with _ => _ end] => destruct (g_irq x) end; try reflexivity;
    repeat match goal with |- context [if ?x then _ else _] => destruct x eqn:? end; try reflexivity; destruct x; try discriminate; reflexivity.
Qed.

(** *** C105 *)
(** Whenever no handler is running, what has happened is what the firmware with indivisible handlers (C62-C67) does when some hardware events happen earlier: the same state,
    the same events and answers in the library, the same bytes on the line, the same characters arriving in the same order; and C63's condition is inherited. *)
Theorem C105_handlers : forall c g0 sched g t, g_irq g0 = None -> g_run c sched g0 = Ok (g, t) -> g_irq g = None ->
  exists ws t', moved (acts_of c sched g0) ws /\ y_run c ws (g_sys g0) = Ok (g_sys g, t') /\ lib_of t' = lib_of t /\ on_line t' = on_line t /\
    arrived ws = g_arrived sched /\ (g_send_undisturbed c g0 sched -> send_undisturbed c ws (g_sys g0)).
Proof.
  intros c g0 sched g t Q0 R Q. pose proof (sim c g0 sched Q0) as I. rewrite R in I. destruct I as [ws t' _ R' L O M A|]; [|congruence].
  exists ws, t'. do 4 (split; auto). split; [rewrite (moved_arrived _ _ M); eapply acts_arrived; eauto|].
  intros H. apply undisturbed_always. intros l1 x l2 y1 t1 E R1 ->. destruct (A _ _ _ _ _ E R1) as (f1 & y & f2 & h1 & u1 & X1 & X2 & X3 & X4).
  pose proof (g_act_of_usart _ _ X3). subst y. rewrite <- X4. exact (H f1 GUsart f2 h1 u1 X1 X2 eq_refl).
Qed.
Print Assumptions C105_handlers.
(** No undefined behaviour, at any statement of any handler. *)
Theorem C105_no_ub : forall c g0 sched, cfg_tables_ok c -> sys_started c (g_sys g0) -> g_irq g0 = None -> exists g t, g_run c sched g0 = Ok (g, t).
Proof.
  intros c g0 sched Hc HS Q0. pose proof (sim c g0 sched Q0) as X.
  assert (F : forall r, fails c g0 sched r -> exists w t, r = Ok (w, t)).
  { intros r (l0 & x & w1 & t1 & R & E & _). destruct (run_ok c (l0 ++ [x]) Hc (g_sys g0) (started_ok _ _ HS)) as (w2 & t2 & R2 & _).
    rewrite y_run_app, R in R2. cbn [bind y_run] in R2. rewrite E in R2. destruct r as [[w t]| |]; [eauto|discriminate R2..]. }
  destruct (g_run c sched g0) as [[g t]| |]; [eauto|destruct (F _ X) as (? & ? & ?); discriminate..].
Qed.
Print Assumptions C105_no_ub.
(** A handler that runs returns after at most 16 statements. *)
Theorem C105_returns : forall c g0 sched g t, cfg_tables_ok c -> sys_started c (g_sys g0) -> g_irq g0 = None -> g_run c sched g0 = Ok (g, t) ->
  exists n g' t', (n <= 16)%nat /\ g_run c (sched ++ repeat GStep n) g0 = Ok (g', t') /\ g_irq g' = None.
Proof.
  intros c g0 sched g t Hc HS Q0 R.
  assert (G : forall m n g t, (rk (g_irq g) <= m)%nat -> (n + m <= 16)%nat -> g_run c (sched ++ repeat GStep n) g0 = Ok (g, t) ->
     exists n g' t', (n <= 16)%nat /\ g_run c (sched ++ repeat GStep n) g0 = Ok (g', t') /\ g_irq g' = None).
  { induction m as [|m IH]; intros n g1 t1 K L E.
    - exists n, g1, t1. split; [lia|]. split; auto. destruct (g_irq g1) as [p|]; auto. exfalso. destruct p; cbn in K; lia.
    - destruct (g_irq g1) as [p|] eqn:Q; [|exists n, g1, t1; split; [lia|]; auto].
      destruct (C105_no_ub c g0 (sched ++ repeat GStep (S n)) Hc HS Q0) as (g2 & t2 & E2).
      apply (IH (S n) g2 t2); auto; [|lia]. replace (repeat GStep (S n)) with (repeat GStep n ++ [GStep]) in E2 by (rewrite <- repeat_cons; reflexivity).
      rewrite app_assoc, (g_run_snoc _ _ _ _ _ _ E) in E2. cbn [g_act] in E2. rewrite Q in E2. destruct (g_line p (y_lib (g_sys g1)) (y_u (g_sys g1))) as [[[[p' k'] u'] t']| |] eqn:El; try discriminate E2.
      cbn [bind] in E2. inversion E2; subst. cbn [g_irq]. apply line_rank in El. lia. }
  apply (G 16%nat 0%nat g t); auto using rk_max. cbn [repeat]. now rewrite app_nil_r.
Qed.
Print Assumptions C105_returns.
(** C63: the bytes on the line are those of the answers handed to the driver *)
Theorem C105_bytes_on_the_line : forall c g0 sched g t, cfg_tables_ok c -> sys_started c (g_sys g0) -> g_irq g0 = None -> g_run c sched g0 = Ok (g, t) -> g_irq g = None ->
  g_send_undisturbed c g0 sched ->
  exists missing, on_line t ++ missing = concat (sent (lib_of t)) /\ (transmitting (lib_of t) = false -> missing = []).
Proof.
  intros c g0 sched g t Hc HS Q0 R Q U. destruct (C105_handlers _ _ _ _ _ Q0 R Q) as (ws & t' & _ & R' & L & O & _ & W). rewrite <- L, <- O.
  exact (C63_bytes_on_the_line_partial _ _ _ _ _ Hc HS R' (W U)).
Qed.
Print Assumptions C105_bytes_on_the_line.
(** C66: never unasked; the library is given characters that arrived, in their order *)
Theorem C105_never_unasked : forall c g0 sched g t, cfg_tables_ok c -> sys_started c (g_sys g0) -> g_irq g0 = None -> g_run c sched g0 = Ok (g, t) -> g_irq g = None ->
  thinned (delivered (lib_of t)) (g_arrived sched) /\
  (length (sent (lib_of t)) <= length (delivered (lib_of t)))%nat /\
  (forall t1 f t2, lib_of t = t1 ++ TOut (SoSend f) :: t2 -> exists g1, checked t1 = Some g1 /\ intact (s_id (sc_s (y_lib (g_sys g0)))) g1).
Proof.
  intros c g0 sched g t Hc HS Q0 R Q. destruct (C105_handlers _ _ _ _ _ Q0 R Q) as (ws & t' & _ & R' & L & _ & A & _). rewrite <- L, <- A.
  exact (C66_never_unasked _ _ _ _ _ Hc HS R').
Qed.
Print Assumptions C105_never_unasked.
(** C67: gaps inside a frame are noticed *)
Theorem C105_gap_is_a_frame_error : forall c g0 sched g t t1 b t2, cfg_tables_ok c -> sys_started c (g_sys g0) -> g_irq g0 = None -> g_run c sched g0 = Ok (g, t) -> g_irq g = None ->
  lib_of t = t1 ++ TEv (SRx b) :: t2 -> (in_gap t1 = true <-> exists t3, t2 = TEv SFrameErr :: t3).
Proof.
  intros c g0 sched g t t1 b t2 Hc HS Q0 R Q E. destruct (C105_handlers _ _ _ _ _ Q0 R Q) as (ws & t' & _ & R' & L & _). rewrite <- L in E.
  exact (C67_gap_is_a_frame_error _ _ _ _ _ _ _ _ Hc HS R' E).
Qed.
Print Assumptions C105_gap_is_a_frame_error.

(** *** a request and its answer, hardware events inside the handlers *)
Definition gsteps (n : nat) : list gact := repeat GStep n.
(** the next character arrives while the handler stores the one before *)
Fixpoint g_in (f : list Z) : list gact := match f with [] => [] | b :: f => [GUsart; GStep; GStep; GHw (HRx b)] ++ gsteps 14 ++ g_in f end.
(** the transmitter empties TDR between two statements of the handler that has just filled it *)
Definition g_out (n : nat) : list gact := GHw HShift :: concat (repeat ([GUsart] ++ gsteps 5 ++ [GHw HShift] ++ gsteps 11) n).
(** the receiver time-out happens while the handler of the last character runs; the timer while the last of that handler's statements are executed *)
Definition g_exchange (f : list Z) (n : nat) : list gact :=
  [GHw (HRx (hd 0 f))] ++ g_in (tl f) ++ [GUsart] ++ gsteps 2 ++ [GHw HRto] ++ gsteps 9 ++ [GHw HTim] ++ gsteps 5 ++ [GTimer] ++ gsteps 5 ++ repeat GMain 20 ++ g_out n ++ repeat GMain 8.
Definition g00 : gfw := mk_gfw y0 None.
Fixpoint g_undisturbedb (c : cfg) (l : list gact) (g : gfw) : bool :=
  match l with
  | [] => true
  | x :: l => match x, y_sub (g_sys g) with GUsart, (Some (D85 _) | Some (D86 _) | Some D87) => false | _, _ => true end && match g_act c x g with Ok (g1, _) => g_undisturbedb c l g1 | _ => true end
  end.
Lemma g_undisturbed_check c : forall l g, g_undisturbedb c l g = true -> g_send_undisturbed c g l.
Proof.
  intros l g E l1. revert l g E. induction l1 as [|y l1 IH]; intros l g E x l2 g1 t1 -> R Hx; cbn [app g_undisturbedb g_run] in *; apply andb_true_iff in E as [E1 E2].
  - inversion R; subst. destruct (y_sub (g_sys g1)) as [[]|]; auto; discriminate.
  - destruct (g_act c y g) as [[g2 t2]| |]; try discriminate R. cbn [bind] in R. destruct (g_run c l1 g2) as [[g3 t3]| |] eqn:R2; try discriminate R. cbn [bind] in R. inversion R; subst g3. eapply IH; eauto.
Qed.
Example C105_case : sys_started sample_cfg (g_sys g00) /\ g_send_undisturbed sample_cfg g00 (g_exchange sample_frame 9) /\
  exists g t, g_run sample_cfg (g_exchange sample_frame 9) g00 = Ok (g, t) /\ g_irq g = None /\
    g_arrived (g_exchange sample_frame 9) = sample_frame /\ delivered (lib_of t) = sample_frame /\ on_line t = [9; 3; 4; 18; 52; 171; 205; 137; 224] /\ sent (lib_of t) = [[9; 3; 4; 18; 52; 171; 205; 137; 224]].
Proof.
  split; [apply y0_started|]. split; [apply g_undisturbed_check; vm_compute; reflexivity|]. do 2 eexists. split; [vm_compute; reflexivity|]. vm_compute. auto 10.
Qed.
(** where the events went: the time-out and the last character's handler, the timer before that handler *)
Example C105_case_moved : let l := [GHw (HRx 9); GUsart; GStep; GStep; GHw (HRx 3); GHw HRto; GStep] ++ gsteps 14 in
  acts_of sample_cfg l g00 = [HRx 9; AUsart; HRx 3; HRto] /\ exists g t, g_run sample_cfg l g00 = Ok (g, t) /\ g_irq g = None /\
  exists t', y_run sample_cfg [HRx 9; HRto; AUsart; HRx 3] y0 = Ok (g_sys g, t') /\ lib_of t' = lib_of t.
Proof. split; [vm_compute; reflexivity|]. do 2 eexists. split; [vm_compute; reflexivity|]. split; [reflexivity|]. eexists. split; vm_compute; reflexivity. Qed.

(** *** C106: traffic on the line, handlers statement by statement *)
(** If every hardware event is on time (a character does not arrive before the handler has fetched the one before, and so on), the firmware with indivisible
    handlers does the same under the same schedule, each handler happening when it starts. *)
Theorem C106_exact : forall c g0 sched g t, g_irq g0 = None -> g_on_time c g0 sched -> g_run c sched g0 = Ok (g, t) -> g_irq g = None ->
  exists t', y_run c (acts_of c sched g0) (g_sys g0) = Ok (g_sys g, t') /\ lib_of t' = lib_of t /\ on_line t' = on_line t.
Proof.
  intros c g0 sched g t Q0 T R Q. destruct (exact_run c g0 sched Q0 T g t R) as [t' _ R' L O|]; [|congruence]. eauto.
Qed.
Print Assumptions C106_exact.
Lemma rests_ok c y : sys_rests c y -> sys_ok c y.
Proof.
  intros ((R & _) & _ & P & U1 & _ & U2 & _). split; [exact R|]. split; [unfold uart_ok; lia|]. rewrite P. exact Logic.I.
Qed.
Theorem C106_traffic_on_the_line : forall c id d g0 sched out d', cfg_tables_ok c -> g_irq g0 = None -> sys_rests c (g_sys g0) ->
  s_id (sc_s (y_lib (g_sys g0))) = id -> s_data (sc_s (y_lib (g_sys g0))) = d -> g_on_time c g0 sched -> wire_traffic c id d (acts_of c sched g0) out d' ->
  exists g t, g_run c sched g0 = Ok (g, t) /\ (g_irq g = None -> on_line t = out /\ s_data (sc_s (y_lib (g_sys g))) = d' /\ sys_rests c (g_sys g)).
Proof.
  intros c id d g0 sched out d' Hc Q0 K I D T W.
  assert (NU : exists g t, g_run c sched g0 = Ok (g, t)).
  { pose proof (sim c g0 sched Q0) as X. assert (F : forall r, fails c g0 sched r -> exists w t, r = Ok (w, t)).
    { intros r (l0 & x & w1 & t1 & R & E & _). destruct (run_ok c (l0 ++ [x]) Hc (g_sys g0) (rests_ok _ _ K)) as (w2 & t2 & R2 & _).
      rewrite y_run_app, R in R2. cbn [bind y_run] in R2. rewrite E in R2. destruct r as [[w t]| |]; [eauto|discriminate R2..]. }
    destruct (g_run c sched g0) as [[g t]| |]; [eauto|destruct (F _ X) as (? & ? & ?); discriminate..]. }
  destruct NU as (g & t & R). exists g, t. split; auto. intros Q. destruct (C106_exact _ _ _ _ _ Q0 T R Q) as (t' & R' & L & O).
  destruct (C64_traffic_on_the_line c id d _ out d' (g_sys g0) Hc W K I D) as (y' & t2 & E & O2 & D2 & K2). rewrite E in R'. inversion R'; subst. rewrite <- O. auto.
Qed.
Print Assumptions C106_traffic_on_the_line.

(** characters arrive while the handler still stores the one before, the timer while the pause is being handled, bytes leave while the handler that wrote them still runs *)
Definition g_request (f : list Z) : list gact :=
  [GHw (HRx (hd 0 f))] ++ g_in (tl f) ++ [GUsart] ++ gsteps 16 ++ [GHw HRto; GUsart] ++ gsteps 6 ++ [GHw HTim] ++ gsteps 5 ++ [GTimer] ++ gsteps 5.
Definition g_answer (n : nat) : list gact := repeat GMain 20 ++ [GHw HShift] ++ concat (repeat ([GUsart] ++ gsteps 7 ++ [GHw HShift] ++ gsteps 9) n) ++ repeat GMain 8.
Fixpoint g_on_timeb (c : cfg) (l : list gact) (g : gfw) : bool :=
  match l with
  | [] => true
  | x :: l => match x, g_irq g with GHw x, Some p => implb (is_hw x) (passed x p) | _, _ => true end && match g_act c x g with Ok (g1, _) => g_on_timeb c l g1 | _ => true end
  end.
Lemma g_on_time_check c : forall l g, g_on_timeb c l g = true -> g_on_time c g l.
Proof.
  intros l g E l1. revert l g E. induction l1 as [|y l1 IH]; intros l g E x l2 g1 t1 -> R z p Ez Hz Q; cbn [app g_on_timeb g_run] in *; apply andb_true_iff in E as [E1 E2].
  - inversion R; subst. rewrite Q, Hz in E1. exact E1.
  - destruct (g_act c y g) as [[g2 t2]| |]; try discriminate R. cbn [bind] in R. destruct (g_run c l1 g2) as [[g3 t3]| |] eqn:R2; try discriminate R. cbn [bind] in R. inversion R; subst g3.
    exact (IH _ g2 E2 x l2 g1 t3 eq_refl R2 z p Ez Hz Q).
Qed.
Definition g_traffic : list gact := g_request wr_frame ++ g_answer 8 ++ g_request sample_frame ++ g_answer 9.
Example C106_case : sys_rests sample_cfg (g_sys g00) /\ g_on_time sample_cfg g00 g_traffic /\
  (exists d', wire_traffic sample_cfg 9 sample_data (acts_of sample_cfg g_traffic g00) ([9; 6; 0; 1; 0; 77; 25; 119] ++ [9; 3; 4; 0; 77; 171; 205; 93; 65]) d') /\
  exists g t, g_run sample_cfg g_traffic g00 = Ok (g, t) /\ g_irq g = None /\ on_line t = [9; 6; 0; 1; 0; 77; 25; 119; 9; 3; 4; 0; 77; 171; 205; 93; 65].
Proof.
  split; [apply started_rests, y0_started|]. split; [apply g_on_time_check; vm_compute; reflexivity|]. split.
  - assert (Ac : acts_of sample_cfg g_traffic g00 = (Props.SlaveSystem.line_in wr_frame ++ (repeat AMain 20 ++ (Props.SlaveSystem.line_out 8 ++ [HShift]) ++ repeat AMain 8)) ++ line_in sample_frame ++ (repeat AMain 20 ++ (Props.SlaveSystem.line_out 9 ++ [HShift]) ++ repeat AMain 8)) by (vm_compute; reflexivity).
    rewrite Ac. clear Ac.
    assert (An : forall n, (n = 8 \/ n = 9)%nat -> wire_answer n (repeat AMain 20 ++ (Props.SlaveSystem.line_out n ++ [HShift]) ++ repeat AMain 8)).
    { intros n Hn. exists (repeat AMain 20), (Props.SlaveSystem.line_out n ++ [HShift]), 8%nat. destruct Hn as [-> | ->]; (split; [reflexivity|]; split; [reflexivity|]; split; [reflexivity|]; split; [cbn; lia|]; split; [cbn; lia|]; split; [|lia]);
        cbn; repeat (exact (rounds_0 _) || (apply (rounds_S _ [] [])) ). }
    assert (A1 : rtu_frame 9 (fst (server sample_cfg sample_data wr_frame)) = [9; 6; 0; 1; 0; 77; 25; 119]) by (vm_compute; reflexivity).
    assert (A2 : rtu_frame 9 (fst (server sample_cfg d1 sample_frame)) = [9; 3; 4; 0; 77; 171; 205; 93; 65]) by (vm_compute; reflexivity).
    eexists. rewrite <- (app_assoc (line_in wr_frame)), <- A1. apply wire_answered.
    + apply wire_frame_plain.
    + apply bytes_dec; vm_compute; reflexivity.
    + vm_compute; lia.
    + split; [exists (9 :: [6; 0; 1; 0; 77]); reflexivity|reflexivity].
    + split; [vm_compute; lia|]. intros H. exfalso. assert (E : byte_at wr_frame 1 = 6) by (vm_compute; reflexivity). rewrite E in H. lia.
    + rewrite A1. apply An. auto.
    + rewrite <- (app_nil_r [9; 3; 4; 0; 77; 171; 205; 93; 65]), <- (app_nil_r (line_in sample_frame ++ _)), <- app_assoc, <- A2. apply wire_answered.
      * apply wire_frame_plain.
      * apply sample_frame_ok.
      * apply sample_frame_ok.
      * apply sample_frame_ok.
      * apply sample_frame_ok.
      * rewrite A2. apply An. auto.
      * constructor.
  - do 2 eexists. split; [vm_compute; reflexivity|]. vm_compute. auto.
Qed.
