(** One master firmware and any number of slave firmwares on a noisy bus. *)
From Verif Require Export Spec.Noise.
From Verif Require Import Props.MasterTime Props.MasterRetry.
From Verif Require Proofs.SlaveAnswer.
From Verif Require Import Proofs.SlaveMain.
From Verif Require Import Proofs.EndToEnd Proofs.MasterSent Proofs.Bus.
Import Verif.Proofs.MasterWire.

(** *** executing a request twice is executing it once *)
Fixpoint targets {A} (tab : list (option nat)) (k : nat) (vals : list A) : list nat :=
  match vals with [] => [] | _ :: vs => match nth_error tab k with Some (Some i) => i :: targets tab (S k) vs | _ => [] end end.
Lemma put_length {A} (l : list A) i v : length (put l i v) = length l.
Proof. revert i. induction l; intros [|i]; cbn; auto. Qed.
Lemma put_same {A} (l : list A) i v : (i < length l)%nat -> nth_error (put l i v) i = Some v.
Proof. revert i. induction l; intros [|i] H; cbn in *; auto; try lia. apply IHl. lia. Qed.
Lemma put_other {A} (l : list A) i j v : i <> j -> nth_error (put l i v) j = nth_error l j.
Proof. revert i j. induction l; intros [|i] [|j] H; cbn; auto; try congruence. Qed.
Lemma nth_ext {A} (x : list A) : forall y, (forall j, nth_error x j = nth_error y j) -> x = y.
Proof.
  induction x as [|u x IH]; intros [|v y] H; auto; try (specialize (H 0%nat); discriminate H). assert (E := H 0%nat). injection E as ->. f_equal. apply IH. intros j. apply (H (S j)).
Qed.
Lemma store_agree {A} tab (vals : list A) : forall k x y, length x = length y -> (forall j, ~ In j (targets tab k vals) -> nth_error x j = nth_error y j) -> store tab x k vals = store tab y k vals.
Proof.
  induction vals as [|v vs IH]; intros k x y Hl H; cbn [store targets] in *.
  - f_equal. apply nth_ext. intros j. apply H. auto.
  - destruct (nth_error tab k) as [[i|]|]; [|f_equal; apply nth_ext; intros j; apply H; auto..].
    apply IH. { rewrite !put_length. auto. } intros j Hj. destruct (Nat.eq_dec i j) as [->|Ne].
    + destruct (Nat.lt_ge_cases j (length x)) as [L|L]. { rewrite !put_same by lia. auto. } rewrite !(proj2 (nth_error_None _ _)) by (rewrite put_length; lia). auto.
    + rewrite !put_other by auto. apply H. intros [X|X]; auto.
Qed.
Lemma store_others {A} tab (vals : list A) : forall k x j, ~ In j (targets tab k vals) -> nth_error (fst (store tab x k vals)) j = nth_error x j.
Proof.
  induction vals as [|v vs IH]; intros k x j H; cbn [store targets] in *; auto. destruct (nth_error tab k) as [[i|]|]; auto.
  rewrite IH by (intros X; apply H; right; auto). apply put_other. intros ->. apply H. left; auto.
Qed.
Lemma store_again {A} tab (vals : list A) k x : store tab (fst (store tab x k vals)) k vals = store tab x k vals.
Proof. apply store_agree; [apply store_length|]. intros j. apply store_others. Qed.
Lemma server_again c d g : server c (snd (server c d g)) g = server c d g.
Proof.
  unfold server at 2 3. set (fc := byte_at g 1). set (adr := word_at g 2). set (qty := word_at g 4). set (cnt := byte_at g 6).
  assert (R : forall p, p = (server c d g) -> snd p = d -> server c (snd p) g = p) by (intros p -> E; rewrite E; reflexivity).
  destruct (supported fc) eqn:Hs.
  2:{ replace (match fc with 1 => _ | _ => _ end) with (exc fc 1, d); [cbn [snd]|]. { apply server_unsupported. exact Hs. } fold fc.
      symmetry. pose proof (server_unsupported c d g Hs) as X. unfold server in X. fold fc adr qty cnt in X. exact X. }
  apply supported_cases in Hs. destruct Hs as [Hs|[Hs|[Hs|[Hs|[Hs|[Hs|[Hs|Hs]]]]]]]; rewrite Hs.
  1-4: cbn [snd]; unfold server; fold fc adr qty cnt; rewrite Hs; reflexivity.
  - destruct (negb _) eqn:A1; [cbn [snd]; unfold server; fold fc adr qty cnt; rewrite Hs, A1; reflexivity|].
    destruct (_ <=? _) eqn:A2; [cbn [snd]; unfold server; fold fc adr qty cnt; rewrite Hs, A1, A2; reflexivity|].
    pose proof (store_again (t_coils d) [qty =? 0xFF00] (Z.to_nat adr) (v_bits d)) as X. destruct (store (t_coils d) (v_bits d) (Z.to_nat adr) [qty =? 0xFF00]) as [cells b]. cbn [fst] in X.
    assert (Y : snd (if b then ([5] ++ be16 adr ++ be16 qty, set_bits d cells) else (exc 5 4, set_bits d cells)) = set_bits d cells) by (destruct b; reflexivity). rewrite Y.
    unfold server. fold fc adr qty cnt. rewrite Hs, A1, A2. cbn [set_bits t_coils v_bits]. rewrite X. destruct b; reflexivity.
  - destruct (_ <=? _) eqn:A2; [cbn [snd]; unfold server; fold fc adr qty cnt; rewrite Hs, A2; reflexivity|].
    pose proof (store_again (t_hreg d) [qty] (Z.to_nat adr) (v_regs d)) as X. destruct (store (t_hreg d) (v_regs d) (Z.to_nat adr) [qty]) as [cells b]. cbn [fst] in X.
    assert (Y : snd (if b then ([6] ++ be16 adr ++ be16 qty, set_regs d cells) else (exc 6 4, set_regs d cells)) = set_regs d cells) by (destruct b; reflexivity). rewrite Y.
    unfold server. fold fc adr qty cnt. rewrite Hs, A2. cbn [set_regs t_hreg v_regs]. rewrite X. destruct b; reflexivity.
  - destruct (negb (_ && _)) eqn:A1; [cbn [snd]; unfold server; fold fc adr qty cnt; rewrite Hs, A1; reflexivity|].
    destruct (_ <? _) eqn:A2; [cbn [snd]; unfold server; fold fc adr qty cnt; rewrite Hs, A1, A2; reflexivity|].
    destruct (negb (cnt =? _)) eqn:A3; [cbn [snd]; unfold server; fold fc adr qty cnt; rewrite Hs, A1, A2, A3; reflexivity|].
    pose proof (store_again (t_coils d) (req_bits g qty) (Z.to_nat adr) (v_bits d)) as X. destruct (store (t_coils d) (v_bits d) (Z.to_nat adr) (req_bits g qty)) as [cells b]. cbn [fst] in X.
    assert (Y : snd (if b then ([15] ++ be16 adr ++ be16 qty, set_bits d cells) else (exc 15 4, set_bits d cells)) = set_bits d cells) by (destruct b; reflexivity). rewrite Y.
    unfold server. fold fc adr qty cnt. rewrite Hs, A1, A2, A3. cbn [set_bits t_coils v_bits]. rewrite X. destruct b; reflexivity.
  - destruct (negb (_ && _)) eqn:A1; [cbn [snd]; unfold server; fold fc adr qty cnt; rewrite Hs, A1; reflexivity|].
    destruct (_ <? _) eqn:A2; [cbn [snd]; unfold server; fold fc adr qty cnt; rewrite Hs, A1, A2; reflexivity|].
    destruct (negb (cnt =? _)) eqn:A3; [cbn [snd]; unfold server; fold fc adr qty cnt; rewrite Hs, A1, A2, A3; reflexivity|].
    pose proof (store_again (t_hreg d) (req_regs g qty) (Z.to_nat adr) (v_regs d)) as X. destruct (store (t_hreg d) (v_regs d) (Z.to_nat adr) (req_regs g qty)) as [cells b]. cbn [fst] in X.
    assert (Y : snd (if b then ([16] ++ be16 adr ++ be16 qty, set_regs d cells) else (exc 16 4, set_regs d cells)) = set_regs d cells) by (destruct b; reflexivity). rewrite Y.
    unfold server. fold fc adr qty cnt. rewrite Hs, A1, A2, A3. cbn [set_regs t_hreg v_regs]. rewrite X. destruct b; reflexivity.
Qed.

(** *** the slaves *)
Lemma garbled_run n l : node_rests n -> garbled (n_id n) l -> exists n' t, node_run n l n' t /\ node_rests n' /\ mem_of n' = mem_of n /\ SlaveSystem.on_line t = [].
Proof.
  intros (Hc & K) G.
  assert (W : SlaveSystem.wire_traffic (n_cfg n) (n_id n) (n_data n) l [] (n_data n)). { induction G; [constructor|]. eapply SlaveSystem.wire_dropped; eauto. }
  destruct (SlaveAnswer.wire_traffic_run _ _ _ _ _ Hc _ W (n_sys n) K eq_refl eq_refl) as (y' & t & R & O & K' & D' & I').
  exists (mk_node (n_cfg n) y'), t. split; [split; auto|]. split; [split; auto|]. split; auto. unfold mem_of, n_id, n_data in *. cbn [n_sys n_cfg]. congruence.
Qed.
Lemma same_mem n' n : mem_of n' = mem_of n -> n_id n' = n_id n /\ n_cfg n' = n_cfg n /\ n_data n' = n_data n.
Proof. unfold mem_of. intros H. injection H as -> -> ->. auto. Qed.
Lemma taken_run n a l1 l2 l3 : node_rests n -> api_ok a -> api_valid a = true -> n_id n = api_id a -> garbled (n_id n) l1 -> is_asked n (request_frame a) l2 -> garbled (n_id n) l3 ->
  let r := server (n_cfg n) (n_data n) (request_frame a) in
  exists n' t, node_run n (l1 ++ l2 ++ l3) n' t /\ node_rests n' /\ mem_of n' = (n_id n, n_cfg n, snd r) /\ SlaveSystem.on_line t = rtu_frame (api_id a) (fst r).
Proof.
  intros K Hok V Id G1 As G3 r. destruct (garbled_run n l1 K G1) as (n1 & t1 & R1 & K1 & M1 & O1). destruct (same_mem _ _ M1) as (I1 & C1 & D1).
  destruct (asked_run n1 a l2 K1 Hok V) as (n2 & t2 & R2 & K2 & M2 & O2); [congruence|unfold is_asked in *; rewrite I1, C1, D1; exact As|]. rewrite C1, D1 in M2, O2. fold r in M2, O2.
  assert (I2 : n_id n2 = n_id n) by (unfold mem_of in M2; injection M2; congruence).
  destruct (garbled_run n2 l3 K2) as (n3 & t3 & R3 & K3 & M3 & O3); [rewrite I2; auto|].
  exists n3, (t1 ++ t2 ++ t3). split; [eapply node_run_app; eauto; eapply node_run_app; eauto|]. split; auto. split; [rewrite M3, M2; congruence|]. rewrite !Verif.Proofs.SlaveSystem.on_line_app, O1, O2, O3, app_nil_r. reflexivity.
Qed.
(** a memory with the request executed *)
Definition exec_mem (a : api) (m : mem) : mem := let '(id, c, d) := m in if id =? api_id a then (id, c, snd (server c d (request_frame a))) else m.
Lemma exec_again a m : exec_mem a (exec_mem a m) = exec_mem a m.
Proof. destruct m as [[id c] d]. unfold exec_mem. destruct (id =? api_id a) eqn:E; rewrite E; auto. rewrite server_again. reflexivity. Qed.
Lemma exec_others a ms : ~ In (api_id a) (map (fun m : mem => fst (fst m)) ms) -> map (exec_mem a) ms = ms.
Proof.
  intros H. rewrite <- (map_id ms) at 2. apply map_ext_in. intros [[id c] d] Hm. unfold exec_mem. destruct (id =? api_id a) eqn:E; auto. apply Z.eqb_eq in E. subst. exfalso. apply H. apply in_map_iff. exists (api_id a, c, d). auto.
Qed.
Lemma not_taken id g ns h : Forall node_rests ns -> reached h = false -> Forall2 (node_takes id g) ns h ->
  exists ns', bus_run ns (map snd h) ns' [] /\ Forall node_rests ns' /\ map mem_of ns' = map mem_of ns.
Proof.
  unfold reached. intros Rs Hr H. revert Rs Hr. induction H as [|n p ns h H1 H IH]; intros Rs Hr; [exists []; repeat split; constructor|].
  inversion Rs as [|? ? Rn Rs']; subst. cbn [existsb map] in *. apply orb_false_iff in Hr as [E Hr]. destruct IH as (ns' & R & Rr & M); auto. unfold node_takes in H1. rewrite E in H1.
  destruct (garbled_run n (snd p) Rn H1) as (n1 & t1 & R1 & K1 & M1 & O1).
  exists (n1 :: ns'). split; [replace (@nil Z) with (SlaveSystem.on_line t1 ++ []) by (rewrite O1; reflexivity); econstructor; eauto|]. split; [constructor; auto|]. cbn [map]. congruence.
Qed.
Lemma not_there id g ns h : ~ In id (map n_id ns) -> Forall2 (node_takes id g) ns h -> reached h = false.
Proof.
  intros N H. induction H as [|n p ns h H1 H IH]; auto. unfold reached in *. cbn [map In existsb] in *. rewrite IH by tauto. rewrite orb_false_r. unfold node_takes in H1. destruct (fst p); auto. tauto.
Qed.
Lemma one_taken a ns h : api_ok a -> api_valid a = true -> Forall node_rests ns -> NoDup (map n_id ns) -> reached h = true -> Forall2 (node_takes (api_id a) (request_frame a)) ns h ->
  exists ns' ms1 cs d ms2, bus_run ns (map snd h) ns' (rtu_frame (api_id a) (fst (server cs d (request_frame a)))) /\ Forall node_rests ns' /\ map mem_of ns = ms1 ++ (api_id a, cs, d) :: ms2 /\
    cfg_tables_ok cs /\ data_ok cs d /\ map mem_of ns' = map (exec_mem a) (map mem_of ns).
Proof.
  intros Hok V Rs Nd Hr H. unfold reached in Hr. apply existsb_exists in Hr as (p & Hp & Ep). apply in_split in Hp as (h1 & h2 & ->).
  apply Forall2_app_inv_r in H as (n1 & ns' & H1 & H2 & ->). inversion H2 as [|n ? n2 ? Hn H3]; subst. apply Forall_app in Rs as [Rs1 Rs2]. inversion Rs2 as [|? ? Rn Rs3]; subst.
  unfold node_takes in Hn. rewrite Ep in Hn. destruct Hn as (Id & l1 & l2 & l3 & E & G1 & As & G3).
  rewrite map_app in Nd. cbn [map] in Nd. assert (Nd' := NoDup_remove_2 _ _ _ Nd). rewrite Id in Nd'.
  assert (N1 : ~ In (api_id a) (map n_id n1)) by (intros X; apply Nd', in_or_app; auto). assert (N2 : ~ In (api_id a) (map n_id n2)) by (intros X; apply Nd', in_or_app; auto).
  destruct (taken_run n a l1 l2 l3 Rn Hok V Id G1 As G3) as (n' & t & R & K & M & O).
  destruct (not_taken _ _ n1 h1 Rs1 (not_there _ _ _ _ N1 H1) H1) as (n1' & R1 & K1 & M1). destruct (not_taken _ _ n2 h2 Rs3 (not_there _ _ _ _ N2 H3) H3) as (n2' & R2 & K2 & M2).
  assert (Hd : data_ok (n_cfg n) (n_data n)) by (destruct Rn as (_ & ((_ & _ & _ & _ & _ & _ & X) & _) & _); exact X).
  assert (X1 : forall ns, map (fun m : mem => fst (fst m)) (map mem_of ns) = map n_id ns) by (intros; rewrite map_map; reflexivity).
  exists (n1' ++ n' :: n2'), (map mem_of n1), (n_cfg n), (n_data n), (map mem_of n2).
  split. { rewrite map_app. cbn [map]. rewrite E, <- O. replace (SlaveSystem.on_line t) with ([] ++ SlaveSystem.on_line t ++ []) by (cbn [app]; now rewrite app_nil_r). apply bus_run_app; auto. econstructor; eauto. }
  split; [apply Forall_app; split; auto|]. split; [rewrite map_app; cbn [map]; unfold mem_of at 2; rewrite Id; reflexivity|]. split; [apply Rn|]. split; auto.
  rewrite !map_app. cbn [map]. rewrite !exec_others by (rewrite X1; auto). rewrite M1, M2, M. f_equal. f_equal. unfold exec_mem, mem_of. rewrite Id, Z.eqb_refl. reflexivity.
Qed.
(** a transmission, taken or not *)
Lemma heard_run a ns h : api_ok a -> api_valid a = true -> Forall node_rests ns -> NoDup (map n_id ns) -> Forall2 (node_takes (api_id a) (request_frame a)) ns h ->
  exists ns' out, bus_run ns (map snd h) ns' out /\ Forall node_rests ns' /\ NoDup (map n_id ns') /\ map mem_of ns' = (if reached h then map (exec_mem a) (map mem_of ns) else map mem_of ns) /\
    (reached h = true -> In (api_id a) (map n_id ns)).
Proof.
  intros Hok V Rs Nd H. destruct (reached h) eqn:E.
  - destruct (one_taken a ns h Hok V Rs Nd E H) as (ns' & ms1 & cs & d & ms2 & R & K & M & _ & _ & M').
    assert (X : map n_id ns' = map n_id ns). { assert (Y := f_equal (map (fun m : mem => fst (fst m))) M'). rewrite !map_map in Y. etransitivity; [exact Y|]. apply map_ext. intros n. unfold mem_of, exec_mem. destruct (n_id n =? api_id a); reflexivity. }
    exists ns', (rtu_frame (api_id a) (fst (server cs d (request_frame a)))). split; auto. split; auto. rewrite X. split; auto. split; auto. intros _.
    assert (Y := f_equal (map (fun m : mem => fst (fst m))) M). rewrite map_map in Y. change (map (fun x : node => fst (fst (mem_of x))) ns) with (map n_id ns) in Y. rewrite Y, map_app. apply in_or_app. right. left. reflexivity.
  - destruct (not_taken _ _ ns h Rs E H) as (ns' & R & K & M). exists ns', []. split; auto. split; auto. rewrite (same_ids _ _ M). split; auto. split; auto. discriminate.
Qed.

(** *** the master *)
Section Noisy.
Context (c : cfg) (Hc : cfg_master_ok c) (HT : 2 <= c_timeout c < 4294967296) (a : api) (Hok : api_ok a) (Va : api_valid a = true).
Notation T := (u32 (c_timeout c)).
Notation len := (length (request_frame a)).
Lemma line_last f v F V r lo t w : good_frame a f -> wtry_ok T len f v -> forallb w_plain lo = true -> w_reqs_safe (lo ++ wtry_sched v) -> wready c a F V r t w ->
  exists l1 l2 w' t' l, lo ++ wtry_sched v = l1 ++ l2 /\ forallb w_plain l2 = true /\ w_run c l1 w = Ok (w', t') /\ done c F (MasterAttempt.sent a V) (t ++ m_lib_of t') (w_lib w') l /\ m_on_line t' = request_frame a /\ driver_rests w' /\
    delivered a f = Some l /\ no_leftovers (w_lib w').
Proof.
  intros ((B1 & B2 & B3) & B4) Ok Hlo HS ((I1 & Q1) & U1 & D1).
  destruct (line_try c Hc a v f F V false r lo t w Ok B1 B2 B3 B4 Hlo HS I1 Q1 U1 D1) as (l3 & l4 & w2 & t2 & E2 & P2 & R2 & O2 & D2 & I2 & La & De & Pc).
  destruct (mloc (w_lib w2)) eqn:L; try discriminate De; cbn [late] in La; [|destruct La as (_ & _ & _ & Z & _); discriminate].
  destruct La as ((l & Rs & _ & Fi & Vi) & Fl & Rp). exists l3, l4, w2, t2, l. split; auto. split; auto. split; auto. split; [|split; auto; split; auto].
  unfold done. rewrite L. split; auto. split; [apply idle_of; auto|]. split; auto.
Qed.
(** the transmission is on the line *)
Lemma takes_now w0 l1 lo w t1 t F V r v h ns sd out wt : w_run c l1 w0 = Ok (w, t1) -> forallb w_plain lo = true -> wready c a F V r t w ->
  forallb w_tx_only sd = true -> (14 <= w_mains sd)%nat -> (w_shifts sd < len)%nat -> forallb w_tx_only out = true -> w_rounds len out -> forallb w_plain wt = true -> (7 <= w_mains wt)%nat -> 2 + Z.of_nat (w_ticks (out ++ wt)) <= T ->
  w_reqs_safe (lo ++ sd ++ out ++ wt ++ v) -> bus_takes c w0 (l1 ++ lo) (sd ++ out) ns (api_id a) h -> Forall2 (node_takes (api_id a) (request_frame a)) ns h.
Proof.
  intros R0 Hlo Rw O1 O2 O3 O4 O5 O6 O7 O8 HS B.
  destruct (line_sent c Hc a sd out wt F V r lo t w) as (w2 & t2 & R2 & E2); auto. { intros q Hq. apply HS. repeat rewrite in_app_iff in *. tauto. }
  apply w_run_split in R2 as (w1 & ta & tb & Ra & Rb & ->). rewrite m_on_line_app, (plain_no_line _ _ Hlo _ _ _ Ra) in E2. cbn [app] in E2.
  assert (Rp : w_run c (l1 ++ lo) w0 = Ok (w1, t1 ++ ta)) by (rewrite w_run_app, R0; cbn [bind]; rewrite Ra; reflexivity).
  specialize (B _ _ _ _ Rp Rb). rewrite E2 in B. exact B.
Qed.
Lemma takes_try w0 l1 lo w t1 t F V r f v h ns : w_run c l1 w0 = Ok (w, t1) -> forallb w_plain lo = true -> wready c a F V r t w -> wtry_ok T len f v -> w_reqs_safe (lo ++ wtry_sched v) ->
  bus_takes c w0 (l1 ++ lo) (v_send v ++ v_out v) ns (api_id a) h -> Forall2 (node_takes (api_id a) (request_frame a)) ns h.
Proof.
  intros R0 Hlo Rw Ok HS B. apply (takes_now w0 l1 lo w t1 t F V r (v_rx v ++ WUsart :: v_15 v ++ WTimer :: v_35 v) h ns (v_send v) (v_out v) (v_wait v)); auto; try apply Ok.
  destruct Ok as [_ _ _ _ _ _ _ _ _ _ _ _ X]. rewrite !w_ticks_app in X. rewrite w_ticks_app. lia.
Qed.
Lemma takes_silent w0 l1 lo w t1 t F V r x h ns : w_run c l1 w0 = Ok (w, t1) -> forallb w_plain lo = true -> wready c a F V r t w -> wsilent_ok T len x -> w_reqs_safe (lo ++ wsilent_sched x) ->
  bus_takes c w0 (l1 ++ lo) (x_send x ++ x_out x) ns (api_id a) h -> Forall2 (node_takes (api_id a) (request_frame a)) ns h.
Proof. intros R0 Hlo Rw Ok HS B. apply (takes_now w0 l1 lo w t1 t F V r (concat (x_ticks x)) h ns (x_send x) (x_out x) (x_wait x)); auto; apply Ok. Qed.

Definition esched (e : ending) : list wact := match e with Heard _ v _ => wtry_sched v | Nothing x _ => wsilent_sched x | GaveUp => [] end.
Definition ehears (e : ending) : list hearing := match e with Heard _ _ h | Nothing _ h => [h] | GaveUp => [] end.
Definition after_all (hs : list hearing) (ms : list mem) : list mem := if existsb reached hs then map (exec_mem a) ms else ms.
Lemma after_cons h hs ms ms' : ms' = (if reached h then map (exec_mem a) ms else ms) -> after_all hs ms' = after_all (h :: hs) ms.
Proof.
  intros ->. unfold after_all. cbn [existsb]. destruct (reached h); cbn [orb]; auto. destruct (existsb reached hs); auto. rewrite map_map. apply map_ext. intros m. apply exec_again.
Qed.
(** the answer that is heard in the end is that of the first execution *)
Definition heard_right (e : ending) (ms : list mem) : Prop :=
  match e with Heard f _ _ => exists ms1 cs d ms2, ms = ms1 ++ (api_id a, cs, d) :: ms2 /\ cfg_tables_ok cs /\ f = rtu_frame (api_id a) (fst (server cs d (request_frame a))) | _ => True end.
Lemma heard_back e ms ms' : ms' = ms \/ ms' = map (exec_mem a) ms -> heard_right e ms' -> heard_right e ms.
Proof.
  destruct e as [f v h|x h|]; cbn [heard_right]; auto. intros [->| ->]; auto. intros (ms1 & cs & d & ms2 & E & Hcs & F).
  apply map_eq_app in E as (u1 & u2 & -> & E1 & E2). destruct u2 as [|[[id cm] dm] u2]; [discriminate|]. cbn [map] in E2. injection E2 as E2 E3. unfold exec_mem in E2. destruct (id =? api_id a) eqn:X.
  - apply Z.eqb_eq in X. injection E2 as Ei Ec Ed. exists u1, cm, dm, u2. subst. rewrite server_again. auto.
  - injection E2 as Ei Ec Ed. rewrite Ei, Z.eqb_refl in X. discriminate.
Qed.
Definition fits (e : ending) (r : Z) (n : nat) : Prop := match e with GaveUp => r + Z.of_nat n = c_repeat c + 1 | _ => r + Z.of_nat n <= c_repeat c end.
Lemma noisy_run w0 : forall bad e l1 lo w t1 t ns F V r, w_run c l1 w0 = Ok (w, t1) -> forallb w_plain lo = true -> w_reqs_safe (lo ++ concat (map (fun p => wtry_sched (snd (fst p))) bad) ++ esched e) ->
  wready c a F V r t w -> 0 <= r <= c_repeat c -> fits e r (length bad) -> Forall node_rests ns -> NoDup (map n_id ns) -> noisy_call c w0 (l1 ++ lo) ns a bad e ->
  exists la lb w' t' l ns' outs, lo ++ concat (map (fun p => wtry_sched (snd (fst p))) bad) ++ esched e = la ++ lb /\ forallb w_plain lb = true /\ w_run c la w = Ok (w', t') /\
    wdone c a F V (length (map snd bad ++ ehears e)) l t w' t' /\ (e <> GaveUp -> no_leftovers (w_lib w')) /\ told a e l /\
    bus_runs ns (map (map snd) (map snd bad ++ ehears e)) ns' outs /\ Forall node_rests ns' /\ NoDup (map n_id ns') /\
    map mem_of ns' = after_all (map snd bad ++ ehears e) (map mem_of ns) /\ (existsb reached (map snd bad ++ ehears e) = true -> In (api_id a) (map n_id ns)) /\ heard_right e (map mem_of ns) /\ (forall f v h, e = Heard f v h -> reached h = true).
Proof.
  induction bad as [|[[f v] h] bad IH]; intros e l1 lo w t1 t ns F V r R0 Hlo HS Rw Hr Fi Rs Nd B.
  - cbn [map concat app length fits] in *. destruct e as [f v h|x h|]; cbn [noisy_call esched ehears fits] in *; [| |lia].
    + destruct B as (Hv & B & Hre & Hf). rewrite <- timeout_u32 in Hv by auto.
      assert (Tk := takes_try w0 l1 lo w t1 t F V r f v h ns R0 Hlo Rw Hv HS B).
      destruct (one_taken a ns h Hok Va Rs Nd Hre Tk) as (ns' & ms1 & cs & d & ms2 & R & K & M & Hcs & Hd & M').
      assert (Ef := Hf _ _ R). assert (G := answer_good_frame cs d a Hcs Hd Hok Va). rewrite <- Ef in G.
      destruct (line_last f v F V r lo t w G Hv Hlo HS Rw) as (la & lb & w' & t' & l & E1 & P1 & R1 & Dn & O1 & D1 & De & Nl).
      assert (X : map n_id ns' = map n_id ns). { assert (Y := f_equal (map (fun m : mem => fst (fst m))) M'). rewrite !map_map in Y. etransitivity; [exact Y|]. apply map_ext. intros n. unfold mem_of, exec_mem. destruct (n_id n =? api_id a); reflexivity. }
      exists la, lb, w', t', l, ns', [f]. split; auto. split; auto. split; auto.
      split. { split; [|split]; auto. unfold frames_out. cbn. now rewrite O1, app_nil_r. }
      split; auto. split; auto. split. { econstructor; [rewrite Ef; eauto|constructor]. } split; auto. split; [congruence|]. unfold after_all. cbn [existsb]. rewrite Hre. cbn [orb]. split; auto.
      split. { intros _. assert (Y := f_equal (map (fun m : mem => fst (fst m))) M). rewrite map_map in Y. change (map (fun x : node => fst (fst (mem_of x))) ns) with (map n_id ns) in Y. rewrite Y, map_app. apply in_or_app. right. left. reflexivity. }
      split. { exists ms1, cs, d, ms2. auto. } intros f0 v0 h0 E0. inversion E0; subst. auto.
    + destruct B as (Hx & B). rewrite <- timeout_u32 in Hx by auto.
      assert (Tk := takes_silent w0 l1 lo w t1 t F V r x h ns R0 Hlo Rw Hx HS B).
      destruct (heard_run a ns h Hok Va Rs Nd Tk) as (ns' & out & R & K & Nd' & M & In').
      destruct (line_silent c Hc a x F V r lo t w Hx Hlo HS Rw) as (la & lb & w' & t' & rr & E1 & P1 & R1 & Wd & Tr & Nl).
      exists la, lb, w', t', [TimeoutErr rr], ns', [out]. split; auto. split; auto. split; auto. split; auto. split; auto. split; [cbn; eauto|]. split. { econstructor; [eauto|constructor]. } split; auto. split; auto.
      unfold after_all. cbn [existsb heard_right]. rewrite orb_false_r. split; auto. split; auto. split; auto. discriminate.
  - cbn [map concat app length noisy_call snd fst] in *. destruct B as (Bf & Hv & B & Bn). rewrite <- timeout_u32 in Hv by auto. rewrite <- app_assoc in HS. rewrite app_assoc in HS. assert (HS' := HS). apply wsafe_app in HS' as [HS1 HS2].
    assert (Tk := takes_try w0 l1 lo w t1 t F V r f v h ns R0 Hlo Rw Hv HS1 B).
    destruct (heard_run a ns h Hok Va Rs Nd Tk) as (ns1 & out & R & K & Nd1 & M & In').
    assert (Ids : map n_id ns1 = map n_id ns). { assert (Y := f_equal (map (fun m : mem => fst (fst m))) M). rewrite map_map in Y. change (map (fun x : node => fst (fst (mem_of x))) ns1) with (map n_id ns1) in Y. rewrite Y. destruct (reached h); rewrite ?map_map; apply map_ext; intros n; unfold mem_of, exec_mem; [destruct (n_id n =? api_id a)|]; reflexivity. }
    assert (Bk : forall e, heard_right e (map mem_of ns1) -> heard_right e (map mem_of ns)). { intros e0. apply heard_back. rewrite M. destruct (reached h); auto. }
    destruct (line_bad c Hc a f v F V r lo t w (conj Bf Hv) Hlo HS1 Rw) as (la & lb & w1 & t2 & E1 & P1 & R1 & O1 & D1 & [[Rw1 Lt]|[Ge (ee & Re & Ie & Dn)]]).
    + destruct (IH e (l1 ++ la) lb w1 (t1 ++ t2) (t ++ m_lib_of t2) ns1 F (MasterAttempt.sent a V) (r + 1)) as (lc & ld & w2 & t3 & l & ns2 & outs & E2 & P2 & R2 & (Dn & O2 & D2) & Nl & To & Br & K2 & Nd2 & M2 & In2 & Hd & Hx); auto.
      { rewrite w_run_app, R0. cbn [bind]. rewrite R1. reflexivity. }
      { rewrite E1 in HS1. apply wsafe_app in HS1 as [_ HS1]. apply wsafe_app. auto. }
      { lia. } { unfold fits in *. destruct e; lia. }
      { rewrite <- app_assoc, <- E1, app_assoc. eapply Bn. exact R. }
      exists (la ++ lc), ld, w2, (t2 ++ t3), l, ns2, (out :: outs). split. { rewrite <- app_assoc, app_assoc, E1, <- app_assoc, E2, app_assoc. reflexivity. }
      split; auto. split. { rewrite w_run_app, R1. cbn [bind]. rewrite R2. reflexivity. }
      split. { split; [|split]; auto.
        - unfold done in *. rewrite m_lib_of_app, app_assoc. destruct Dn as (X1 & X2 & X3 & X4). split; auto. split; auto. split; auto. rewrite X4. unfold MasterAttempt.sent. rewrite <- !app_assoc. reflexivity.
        - rewrite m_on_line_app, O1, O2. reflexivity. }
      split; auto. split; auto. split; [econstructor; eauto|]. split; auto. split; auto. split; [rewrite M2; apply after_cons; auto|].
      split; [|auto]. cbn [existsb]. intros X. apply orb_prop in X as [X|X]; auto. rewrite <- Ids. auto.
    + destruct e as [f0 v0 h0|x0 h0|]; cbn [fits] in Fi; [lia|lia|]. assert (L0 : length bad = 0%nat) by lia. destruct bad; [|discriminate]. cbn [map concat app esched ehears] in *.
      exists la, lb, w1, t2, [CommErr ee], ns1, [out]. split; [rewrite ?app_nil_r; exact E1|]. split; auto. split; auto.
      split. { split; [|split]; auto. rewrite O1. unfold frames_out. cbn. now rewrite app_nil_r. }
      split; [congruence|]. split; [cbn; eauto|]. split; [econstructor; [eauto|constructor]|]. split; auto. split; auto. unfold after_all. cbn [existsb heard_right]. rewrite orb_false_r. split; auto. split; auto. split; auto. discriminate.
Qed.
End Noisy.

(** *** sessions *)
Lemma noisy_one c w0 a k l1 lo w t1 t ns : cfg_master_ok c -> 2 <= c_timeout c < 4294967296 -> w_run c l1 w0 = Ok (w, t1) -> forallb w_plain lo = true -> w_reqs_safe (lo ++ nsched k) ->
  cinv c t (mloc (w_lib w)) (mc_s (w_lib w)) -> current t = Some a -> w_ready w -> Forall node_rests ns -> NoDup (map n_id ns) -> attempts_ok c k -> noisy_call c w0 (l1 ++ lo) ns a (k_bad k) (k_end k) ->
  exists la lb w' t' l ns' outs, lo ++ nsched k = la ++ lb /\ forallb w_plain lb = true /\ w_run c la w = Ok (w', t') /\ wdone c a (finished t) (visible t) (transmissions k) l t w' t' /\
    (gave_up k = false -> no_leftovers (w_lib w')) /\ told a (k_end k) l /\ bus_runs ns (nslaves k) ns' outs /\ Forall node_rests ns' /\ NoDup (map n_id ns') /\
    forall reqs ls ms', noisy_served (map mem_of ns') reqs ls ms' -> noisy_served (map mem_of ns) ((a, gets_there k) :: reqs) (l :: ls) ms'.
Proof.
  intros Hc HT R0 Hlo HS I Cu (Id & Nl & D) Rs Nd At B. assert (L := idle_loc _ Id). assert (I0 := I). rewrite L in I0. destruct (current_ok c t (mc_s (w_lib w)) a (ci_inv _ _ _ _ I0) Cu) as [Hok V].
  assert (Rw : wready c a (finished t) (visible t) 0 t w) by (split; [apply ready_idle; auto|]; split; auto; rewrite L; auto).
  destruct k as [bad e]. cbn [k_bad k_end] in *. unfold nsched, nslaves, transmissions, gets_there, hearings in *. cbn [k_bad k_end] in *. unfold attempts_ok, gave_up in *. cbn [k_bad k_end] in *.
  destruct (noisy_run c Hc HT a Hok V w0 bad e l1 lo w t1 t ns (finished t) (visible t) 0) as (la & lb & w' & t' & l & ns' & outs & E1 & P1 & R1 & Wd & Nl' & To & Br & Rs' & Nd' & M & In' & Hr & Hx); auto.
  { unfold cfg_master_ok in Hc. lia. } { unfold fits. destruct e; lia. }
  exists la, lb, w', t', l, ns', outs. split; auto. split; auto. split; auto. split; auto. split. { intros X. apply Nl'. intros ->. discriminate X. }
  split; auto. split; auto. split; auto. split; auto. intros reqs ls ms' Sv. fold (ehears e). rewrite M in Sv. unfold after_all in Sv.
  destruct (in_dec Z.eq_dec (api_id a) (map n_id ns)) as [Hin|Hin].
  - assert (Sp : exists ms1 cs d ms2, map mem_of ns = ms1 ++ (api_id a, cs, d) :: ms2 /\ map (exec_mem a) (map mem_of ns) = ms1 ++ (api_id a, cs, snd (server cs d (request_frame a))) :: ms2 /\ cfg_tables_ok cs /\ data_ok cs d /\ (forall f v h, e = Heard f v h -> f = rtu_frame (api_id a) (fst (server cs d (request_frame a))))).
    { destruct (the_asked _ _ Hin Nd) as (n1 & n & n2 & -> & Idn & N1 & N2). exists (map mem_of n1), (n_cfg n), (n_data n), (map mem_of n2). assert (Rn : node_rests n) by (apply Forall_app in Rs as [_ Rs]; inversion Rs; auto).
      assert (X1 : forall ns, map (fun m : mem => fst (fst m)) (map mem_of ns) = map n_id ns) by (intros; rewrite map_map; reflexivity).
      split; [rewrite map_app; cbn [map]; unfold mem_of at 2; rewrite Idn; reflexivity|]. split. { rewrite !map_app. cbn [map]. rewrite !exec_others by (rewrite X1; auto). unfold exec_mem, mem_of at 2. rewrite Idn, Z.eqb_refl. reflexivity. }
      split; [apply Rn|]. split. { destruct Rn as (_ & ((_ & _ & _ & _ & _ & _ & X) & _) & _); exact X. }
      intros f v h ->. cbn [heard_right] in Hr. destruct Hr as (ms1 & cs & d & ms2 & E & Hcs & ->). rewrite map_app in E. cbn [map] in E.
      assert (Y : mem_of n = (api_id a, cs, d)). { clear - E N1 N2 Idn. revert ms1 E. induction n1 as [|m n1 IH]; intros ms1 E; cbn [map app] in E.
        - destruct ms1 as [|x ms1]; [exact (f_equal (fun l => hd (mem_of n) l) E)|]. exfalso. cbn [app] in E. apply (f_equal (@tl mem)) in E. cbn [tl] in E. apply N2. apply (f_equal (map (fun m : mem => fst (fst m)))) in E. rewrite map_map in E. change (map (fun x : node => fst (fst (mem_of x))) n2) with (map n_id n2) in E. rewrite E, map_app. apply in_or_app. right. left. reflexivity.
        - destruct ms1 as [|x ms1]; cbn [app] in E; assert (E0 := f_equal (fun l => hd (mem_of m) l) E); apply (f_equal (@tl mem)) in E; cbn [tl hd] in E, E0. { exfalso. apply N1. left. unfold mem_of in E0. congruence. } apply IH with (ms1 := ms1); auto. intros X. apply N1. right. auto. }
      unfold mem_of in Y. injection Y as _ -> ->. reflexivity. }
    destruct Sp as (ms1 & cs & d & ms2 & Em & Ex & Hcs & Hd & Hf). destruct (answer_result cs d a Hcs Hd Hok V) as (_ & l0 & De & Re). rewrite Em. rewrite Ex, Em in Sv. set (x := existsb reached (map snd bad ++ ehears e)) in *.
    destruct e as [f v h|xx h|]; cbn [told] in To.
    + assert (Xt : x = true). { unfold x. rewrite existsb_app. cbn [ehears existsb]. rewrite (Hx f v h eq_refl). rewrite orb_true_r. reflexivity. } rewrite Xt in *. rewrite (Hf f v h eq_refl) in To. assert (l = l0) by congruence. subst l0. eapply noisy_done; eauto.
    + apply (noisy_error ms1 cs d ms2 a x (if x then snd (server cs d (request_frame a)) else d)); [left; exact To|destruct x; eauto|destruct x; auto].
    + apply (noisy_error ms1 cs d ms2 a x (if x then snd (server cs d (request_frame a)) else d)); [right; exact To|destruct x; eauto|destruct x; auto].
  - destruct (existsb reached (map snd bad ++ ehears e)) eqn:Xe; [exfalso; auto|]. apply noisy_absent; auto. { rewrite map_map. exact Hin. }
    destruct e as [f v h|xx h|]; cbn [told] in To; [|left; exact To|right; exact To]. exfalso. rewrite existsb_app in Xe. cbn [ehears existsb] in Xe. rewrite (Hx f v h eq_refl) in Xe. rewrite orb_true_r in Xe. discriminate.
Qed.
Definition all_sched (ps : list (api * ncall)) : list wact := concat (map (fun p => nsched (snd p)) ps).
Lemma bus_runs_app ns ls ns1 o1 ls2 ns2 o2 : bus_runs ns ls ns1 o1 -> bus_runs ns1 ls2 ns2 o2 -> bus_runs ns (ls ++ ls2) ns2 (o1 ++ o2).
Proof. induction 1; intros; cbn [app]; auto. econstructor; eauto. Qed.
Lemma noisy_all c w0 : cfg_master_ok c -> 2 <= c_timeout c < 4294967296 -> forall ps more l1 lo w t1 t ns, w_run c l1 w0 = Ok (w, t1) -> forallb w_plain lo = true ->
  w_reqs_safe (lo ++ all_sched ps) -> cinv c t (mloc (w_lib w)) (mc_s (w_lib w)) -> w_ready w -> pending_reqs t = map fst ps ++ more ->
  Forall node_rests ns -> NoDup (map n_id ns) -> noisy_session c w0 (l1 ++ lo) ns ps ->
  exists la lb w' t' ls ns' outs, lo ++ all_sched ps = la ++ lb /\ forallb w_plain lb = true /\ w_run c la w = Ok (w', t') /\ idle (w_lib w') /\ driver_ready w' /\ (ps <> [] \/ driver_rests w -> driver_rests w') /\
    (forallb (fun p => negb (gave_up (snd p))) ps = true -> no_leftovers (w_lib w')) /\
    bus_runs ns (concat (map (fun p => nslaves (snd p)) ps)) ns' outs /\ Forall node_rests ns' /\
    Forall2 (fun p l => told (fst p) (k_end (snd p)) l) ps ls /\ noisy_served (map mem_of ns) (map (fun p => (fst p, gets_there (snd p))) ps) ls (map mem_of ns') /\
    m_on_line t' = concat (map (fun p => concat (repeat (request_frame (fst p)) (transmissions (snd p)))) ps) /\
    visible (m_lib_of t') = concat (map noisy_view (combine ps ls)) /\ pending_reqs (t ++ m_lib_of t') = more ++ accepted (m_lib_of t').
Proof.
  intros Hc HT. unfold all_sched. induction ps as [|[a k] ps IH]; intros more l1 lo w t1 t ns R0 Hlo HS I W Pd Rs Nd Bs; cbn [map concat fst snd forallb] in *.
  - exists [], lo, w, [], [], ns, []. cbn [w_run m_lib_of m_on_line flat_map]. rewrite ?(app_nil_r t), ?app_nil_r in *. cbn [app] in *. do 3 (split; auto). split; [apply W|]. split; [apply W|]. split; [intros [X|X]; congruence || auto|]. split; [intros _; apply W|]. split; [constructor|]. split; auto. split; [constructor|]. split; [constructor|]. auto.
  - cbn [noisy_session] in Bs. destruct Bs as (Bc & At & Gu & Bs). rewrite app_assoc in HS. apply wsafe_app in HS as [HS1 HS2]. destruct (pending_current _ _ _ Pd) as [Cu Pn].
    destruct (noisy_one c w0 a k l1 lo w t1 t ns) as (la & lb & w1 & t2 & l & ns1 & outs1 & E1 & P1 & R1 & ((I1 & Id1 & F1 & V1) & O1 & D1) & Nl1 & To & Br & Rs1 & Nd1 & Sv); auto.
    destruct (gave_up k) eqn:G.
    + rewrite (Gu eq_refl) in *. cbn [map concat combine app] in *. rewrite !app_nil_r in *. exists la, lb, w1, t2, [l], ns1, outs1. do 4 (split; auto). split; [apply rests_ready; auto|]. split; auto. split; [discriminate|]. split; auto. split; auto. split; [constructor; auto|]. split; [apply Sv; constructor|]. split; [exact O1|].
      split. { rewrite <- app_assoc in V1. apply visible_rest in V1. cbn [combine map concat]. rewrite app_nil_r. rewrite V1. reflexivity. }
      rewrite (Pn _ F1). reflexivity.
    + destruct (IH (more ++ accepted (m_lib_of t2)) (l1 ++ la) lb w1 (t1 ++ t2) (t ++ m_lib_of t2) ns1) as (lc & ld & w2 & t3 & ls & ns2 & outs2 & E2 & P2 & R2 & W2 & D2 & D3 & Nl2 & Br2 & K2 & To2 & Sv2 & O2 & V2 & Pd2); auto.
      { rewrite w_run_app, R0. cbn [bind]. rewrite R1. reflexivity. }
      { apply wsafe_app. split; auto. rewrite E1 in HS1. apply wsafe_app in HS1. tauto. }
      { split; auto. split; auto. apply rests_ready; auto. }
      { rewrite (Pn _ F1), <- app_assoc. reflexivity. }
      { rewrite <- app_assoc, <- E1, app_assoc. eapply Bs. eauto. }
      exists (la ++ lc), ld, w2, (t2 ++ t3), (l :: ls), ns2, (outs1 ++ outs2). split. { rewrite app_assoc, E1, <- app_assoc, E2, app_assoc. reflexivity. }
      split; auto. split. { rewrite w_run_app, R1. cbn [bind]. rewrite R2. reflexivity. }
      rewrite m_lib_of_app, m_on_line_app. split; auto. split; auto. split; [intros _; apply D3; auto|]. split; [intros X; apply Nl2; exact X|]. split; [eapply bus_runs_app; eauto|]. split; auto. split; [constructor; auto|]. split; [apply Sv; auto|].
      split. { rewrite O1, O2. reflexivity. }
      split. { rewrite visible_app, V2. rewrite <- app_assoc in V1. apply visible_rest in V1. rewrite V1. reflexivity. }
      rewrite app_assoc, Pd2, accepted_app, <- app_assoc. reflexivity.
Qed.
