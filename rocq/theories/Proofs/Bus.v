(** One master firmware and any number of slave firmwares on one bus. *)
From Verif Require Export Spec.Bus.
From Verif Require Import Props.MasterTime Props.MasterRetry.
From Verif Require Proofs.SlaveAnswer.
From Verif Require Import Proofs.SlaveMain.
From Verif Require Import Proofs.EndToEnd Proofs.MasterSent.
Import Verif.Proofs.MasterWire.

(** *** the slaves *)
Lemma overhear_run n g l : node_rests n -> overhears g l -> g <> [] -> bytes g -> (length g < 256)%nat -> hd_error g <> Some (n_id n) ->
  exists n' t, node_run n l n' t /\ node_rests n' /\ mem_of n' = mem_of n /\ SlaveSystem.on_line t = [].
Proof.
  intros (Hc & K) (l1 & l2 & -> & Hf & Hs) Ne Hb Hl Hh.
  assert (W : SlaveSystem.wire_traffic (n_cfg n) (n_id n) (n_data n) (l1 ++ l2 ++ []) [] (n_data n)).
  { apply (SlaveSystem.wire_dropped _ _ _ g); auto; [|constructor]. unfold SlaveTrace.buffered. rewrite Nat.div_small by auto. rewrite Nat.mul_0_r. cbn [skipn]. intros [_ X]. congruence. }
  destruct (SlaveAnswer.wire_traffic_run _ _ _ _ _ Hc _ W (n_sys n) K eq_refl eq_refl) as (y' & t & R & O & K' & D' & I'). rewrite app_nil_r in R.
  exists (mk_node (n_cfg n) y'), t. split; [split; auto|]. split; [split; auto|]. split; auto. unfold mem_of, n_id, n_data in *. cbn [n_sys n_cfg]. congruence.
Qed.
Lemma asked_run n a l : node_rests n -> api_ok a -> api_valid a = true -> n_id n = api_id a -> is_asked n (request_frame a) l ->
  let r := server (n_cfg n) (n_data n) (request_frame a) in
  exists n' t, node_run n l n' t /\ node_rests n' /\ mem_of n' = (n_id n, n_cfg n, snd r) /\ SlaveSystem.on_line t = rtu_frame (api_id a) (fst r).
Proof.
  intros (Hc & K) Hok V Id (l1 & l2 & -> & Hf & Hs) r. destruct (request_frame_ok a Hok V) as (Fb & Fl & Fi).
  assert (W : SlaveSystem.wire_traffic (n_cfg n) (n_id n) (n_data n) (l1 ++ l2 ++ []) (rtu_frame (n_id n) (fst r) ++ []) (snd r)).
  { apply SlaveSystem.wire_answered; auto; [rewrite Id; auto|apply frame_is_complete; auto|constructor]. }
  destruct (SlaveAnswer.wire_traffic_run _ _ _ _ _ Hc _ W (n_sys n) K eq_refl eq_refl) as (y' & t & R & O & K' & D' & I'). rewrite app_nil_r in R, O.
  exists (mk_node (n_cfg n) y'), t. split; [split; auto|]. split; [split; auto|]. rewrite O, Id. split; auto. unfold mem_of, n_id, n_data in *. cbn [n_sys n_cfg]. congruence.
Qed.
Lemma node_run_app n l1 n1 t1 l2 n2 t2 : node_run n l1 n1 t1 -> node_run n1 l2 n2 t2 -> node_run n (l1 ++ l2) n2 (t1 ++ t2).
Proof. intros [C1 R1] [C2 R2]. split; [congruence|]. rewrite SlaveArrive.y_run_app, R1. cbn [bind]. rewrite C1 in R2. rewrite R2. reflexivity. Qed.
(** those that are not asked *)
Lemma bystanders id g f ns ls : Forall node_rests ns -> ~ In id (map n_id ns) -> g <> [] -> bytes g -> (length g < 256)%nat -> hd_error g = Some id -> f <> [] -> bytes f -> (length f < 256)%nat -> hd_error f = Some id ->
  Forall2 (node_hears id g f) ns ls -> exists ns', bus_run ns ls ns' [] /\ Forall node_rests ns' /\ map mem_of ns' = map mem_of ns.
Proof.
  intros Rs Ni G1 G2 G3 G4 F1 F2 F3 F4 H. revert Rs Ni. induction H as [|n l ns ls H1 H IH]; intros Rs Ni; [exists []; repeat split; constructor|].
  inversion Rs as [|? ? Rn Rs']; subst. cbn [map In] in Ni. destruct IH as (ns' & R & Rr & M); auto. unfold node_hears in H1. destruct (n_id n =? id) eqn:E; [apply Z.eqb_eq in E; tauto|].
  destruct H1 as (l1 & l2 & -> & O1 & O2). apply Z.eqb_neq in E.
  destruct (overhear_run n g l1) as (n1 & t1 & R1 & K1 & M1 & O1'); auto; [congruence|]. assert (Id1 : n_id n1 = n_id n) by (unfold mem_of in M1; inversion M1; auto).
  destruct (overhear_run n1 f l2) as (n2 & t2 & R2 & K2 & M2 & O2'); auto; [congruence|].
  exists (n2 :: ns'). split; [replace (@nil Z) with (SlaveSystem.on_line (t1 ++ t2) ++ []) by (rewrite Verif.Proofs.SlaveSystem.on_line_app, O1', O2'; reflexivity); econstructor; [eapply node_run_app; eauto|auto]|]. split; [constructor; auto|]. cbn [map]. congruence.
Qed.
Lemma silent_nodes id g ns ls : Forall node_rests ns -> ~ In id (map n_id ns) -> g <> [] -> bytes g -> (length g < 256)%nat -> hd_error g = Some id ->
  Forall2 (fun _ l => overhears g l) ns ls -> exists ns', bus_run ns ls ns' [] /\ Forall node_rests ns' /\ map mem_of ns' = map mem_of ns.
Proof.
  intros Rs Ni G1 G2 G3 G4 H. revert Rs Ni. induction H as [|n l ns ls H1 H IH]; intros Rs Ni; [exists []; repeat split; constructor|].
  inversion Rs as [|? ? Rn Rs']; subst. cbn [map In] in Ni. destruct IH as (ns' & R & Rr & M); auto.
  destruct (overhear_run n g l) as (n1 & t1 & R1 & K1 & M1 & O1'); auto; [intros X; apply Ni; left; congruence|].
  exists (n1 :: ns'). split; [replace (@nil Z) with (SlaveSystem.on_line t1 ++ []) by (rewrite O1'; reflexivity); econstructor; eauto|]. split; [constructor; auto|]. cbn [map]. congruence.
Qed.
Lemma bus_run_app ns1 ls1 ns1' o1 ns2 ls2 ns2' o2 : bus_run ns1 ls1 ns1' o1 -> bus_run ns2 ls2 ns2' o2 -> bus_run (ns1 ++ ns2) (ls1 ++ ls2) (ns1' ++ ns2') (o1 ++ o2).
Proof. induction 1; intros; cbn [app]; auto. rewrite <- app_assoc. econstructor; eauto. Qed.
(** the node that is asked is known *)
Lemma the_asked id ns : In id (map n_id ns) -> NoDup (map n_id ns) -> exists n1 n n2, ns = n1 ++ n :: n2 /\ n_id n = id /\ ~ In id (map n_id n1) /\ ~ In id (map n_id n2).
Proof.
  intros Hi Hd. apply in_map_iff in Hi as (n & E & Hn). apply in_split in Hn as (n1 & n2 & ->). exists n1, n, n2. split; auto. split; auto. rewrite map_app in Hd. cbn [map] in Hd. apply NoDup_remove_2 in Hd. rewrite E in Hd.
  split; intros X; apply Hd; apply in_or_app; auto.
Qed.
Lemma same_ids ns' ns : map mem_of ns' = map mem_of ns -> map n_id ns' = map n_id ns.
Proof. intros H. assert (X := f_equal (map (fun m : mem => fst (fst m))) H). rewrite !map_map in X. exact X. Qed.

(** the whole bus: a request to one of the slaves *)
Definition result (c : cfg) (d : sdata) (a : api) (d' : sdata) (l : list cb) : Prop := if is_read a then d' = d /\ read_result c d a l else write_result c d a d' l.
Lemma answer_result c d a : cfg_tables_ok c -> data_ok c d -> api_ok a -> api_valid a = true -> let r := server c d (request_frame a) in let f := rtu_frame (api_id a) (fst r) in
  complete_answer a f /\ exists l, delivered a f = Some l /\ result c d a (snd r) l.
Proof.
  intros Hc Hd Hok V r f. unfold result. destruct (is_read a) eqn:Re.
  - destruct (read_answer c d a Hc Hok V Re) as (A1 & A2 & l & A3 & A4). split; [exact A2|]. exists l. split; [exact A3|]. split; [exact A1|exact A4].
  - destruct (write_answer c d a Hc Hd Hok V Re) as (A2 & l & A3 & A4). split; [exact A2|]. exists l. split; [exact A3|exact A4].
Qed.
Lemma all_some_in {A} (P : A -> Prop) (o : list (option A)) l : all_some o = Some l -> (forall x, In (Some x) o -> P x) -> Forall P l.
Proof.
  revert l. induction o as [|[x|] o IH]; intros l H Hx; cbn [all_some] in H; [inversion H; constructor| |discriminate]. destruct (all_some o) as [l'|]; [|discriminate]. inversion H; subst. constructor; [apply Hx; left; auto|]. apply IH; auto. intros y Hy. apply Hx. right. auto.
Qed.
Lemma server_pdu_bytes c d b : Forall word (v_regs d) -> bytes b -> bytes (fst (server c d b)).
Proof.
  intros W Hb.
  assert (B1 : byte (byte_at b 1)). { unfold byte_at, byte. destruct (nth_in_or_default 1 b 0) as [H|H]; [|rewrite H; lia]. unfold bytes in Hb. rewrite Forall_forall in Hb. apply Hb in H. exact H. }
  assert (Wd : forall i, word (word_at b i)) by (intros; apply word_bounds; auto).
  assert (EX : forall fc x, byte fc -> byte x -> bytes (exc fc x)). { intros fc x Hf Hx. unfold exc. constructor; [|constructor; auto; constructor]. unfold byte in *. destruct (fc <? 128) eqn:E; lia. }
  assert (By : forall x, (0 <=? x) && (x <? 256) = true -> byte x) by (intros; unfold byte; lia).
  destruct (supported (byte_at b 1)) eqn:Hs.
  2:{ rewrite server_unsupported by auto. cbn [fst]. apply EX; auto. }
  assert (RB : forall fc size tab adr qty, byte fc -> bytes (read_reply fc 2000 size adr qty (option_map pack_bits (fetch tab (v_bits d) adr qty)))).
  { intros fc size tab adr qty Hf. unfold read_reply. destruct (negb _) eqn:X; [apply EX; auto|]. destruct (size <? _); [apply EX; auto|].
    destruct (fetch _ _ _ _) eqn:F; [|apply EX; auto]. apply fetch_length in F. cbn [option_map]. constructor; auto. constructor; [|apply pack_bits_bytes]. rewrite pack_bits_len, F.
    assert (Z.to_nat qty + 7 < 8 * 251)%nat by lia. apply Nat.div_lt_upper_bound in H; [|lia]. unfold byte. lia. }
  assert (RR : forall fc size tab adr qty, byte fc -> bytes (read_reply fc 125 size adr qty (option_map pack_regs (fetch tab (v_regs d) adr qty)))).
  { intros fc size tab adr qty Hf. unfold read_reply. destruct (negb _) eqn:X; [apply EX; auto|]. destruct (size <? _); [apply EX; auto|].
    destruct (fetch _ _ _ _) eqn:F; [|apply EX; auto]. assert (F' := F). apply fetch_length in F. cbn [option_map]. constructor; auto. constructor.
    - rewrite pack_regs_len, F. unfold byte. lia.
    - apply pack_regs_bytes. apply (all_some_in word _ _ F'). intros x Hx. apply in_map_iff in Hx as (k & Ek & _). unfold var_at in Ek. destruct (nth_error tab k) as [[p|]|]; try discriminate. apply nth_error_In in Ek. rewrite Forall_forall in W. auto. }
  apply supported_cases in Hs. unfold server. set (adr := word_at b 2) in *. set (qty := word_at b 4) in *.
  assert (OK : forall fc, byte fc -> bytes ([fc] ++ be16 adr ++ be16 qty)). { intros fc Hf. constructor; auto. apply Forall_app. split; apply be16_bytes; apply Wd. }
  destruct Hs as [->|[->|[->|[->|[->|[->|[->| ->]]]]]]]; cbn [fst].
  1,2: apply RB; apply By; reflexivity. 1,2: apply RR; apply By; reflexivity.
  all: repeat match goal with
  | |- context [if ?x then _ else _] => destruct x
  | |- context [let (_, _) := ?x in _] => destruct x
  end; cbn [fst]; (apply EX || apply OK); apply By; reflexivity.
Qed.
Lemma answer_good_frame c d a : cfg_tables_ok c -> data_ok c d -> api_ok a -> api_valid a = true -> good_frame a (rtu_frame (api_id a) (fst (server c d (request_frame a)))).
Proof.
  intros Hc Hd Hok V. destruct (answer_result c d a Hc Hd Hok V) as (Ca & _). set (r := server c d (request_frame a)) in *.
  assert (Z := server_pdu_len c d (request_frame a)). fold r in Z.
  split; [split; [|split]|].
  - apply rtu_frame_bytes; [apply Hok|]. apply server_pdu_bytes; [apply Hd|]. apply request_frame_ok; auto.
  - reflexivity.
  - rewrite rtu_frame_len. lia.
  - split; [apply rtu_frame_intact|exact Ca].
Qed.
Lemma bus_asked a f ns ls : api_ok a -> api_valid a = true -> Forall node_rests ns -> NoDup (map n_id ns) -> In (api_id a) (map n_id ns) -> Forall2 (node_hears (api_id a) (request_frame a) f) ns ls ->
  exists ns' ms1 cs d ms2, bus_run ns ls ns' f /\ Forall node_rests ns' /\ map mem_of ns = ms1 ++ (api_id a, cs, d) :: ms2 /\ cfg_tables_ok cs /\ data_ok cs d /\
    f = rtu_frame (api_id a) (fst (server cs d (request_frame a))) /\ map mem_of ns' = ms1 ++ (api_id a, cs, snd (server cs d (request_frame a))) :: ms2.
Proof.
  intros Hok V Rs Nd Hin H. destruct (the_asked _ _ Hin Nd) as (n1 & n & n2 & -> & Id & N1 & N2). destruct (request_frame_ok a Hok V) as (Fb & Fl & Fi).
  apply Forall2_app_inv_l in H as (l1 & l' & H1 & H2 & ->). inversion H2 as [|? l ? l2 Hn H3]; subst. apply Forall_app in Rs as [Rs1 Rs2]. inversion Rs2 as [|? ? Rn Rs3]; subst.
  unfold node_hears in Hn. rewrite Id, Z.eqb_refl in Hn. destruct Hn as [As Fo].
  destruct (asked_run n a l Rn Hok V Id As) as (n' & t & R & K & M & O). specialize (Fo _ _ R). rewrite O in Fo.
  assert (Hd : data_ok (n_cfg n) (n_data n)) by (destruct Rn as (_ & ((_ & _ & _ & _ & _ & _ & X) & _) & _); exact X).
  assert (Hcn : cfg_tables_ok (n_cfg n)) by apply Rn.
  destruct (answer_good_frame (n_cfg n) (n_data n) a Hcn Hd Hok V) as ((G1 & G2 & G3) & _). rewrite <- Fo in G1, G2, G3.
  assert (Ne : f <> []) by (intros ->; discriminate G2). assert (Ng : request_frame a <> []) by discriminate.
  destruct (bystanders (api_id a) (request_frame a) f n1 l1) as (n1' & R1 & K1 & M1); auto.
  destruct (bystanders (api_id a) (request_frame a) f n2 l2) as (n2' & R2 & K2 & M2); auto.
  exists (n1' ++ n' :: n2'), (map mem_of n1), (n_cfg n), (n_data n), (map mem_of n2).
  split; [replace f with ([] ++ SlaveSystem.on_line t ++ []) by (cbn [app]; rewrite app_nil_r; congruence); apply bus_run_app; auto; econstructor; eauto|]. split; [apply Forall_app; split; auto|]. split; [rewrite map_app; cbn [map]; unfold mem_of at 2; rewrite Id; reflexivity|].
  split; auto. split; auto. split; auto. rewrite map_app. cbn [map]. rewrite M1, M2, M, Id. reflexivity.
Qed.

(** *** the master *)
Lemma plain_no_line c l : forallb w_plain l = true -> forall w w' t, w_run c l w = Ok (w', t) -> m_on_line t = [].
Proof.
  assert (X : forall t, m_on_line (map WLib t) = []) by (induction t; auto).
  induction l as [|x l IH]; intros H w w' t R; cbn [w_run] in R; [inversion R; reflexivity|]. cbn [forallb] in H. apply andb_prop in H as [Hx Hl].
  destruct (w_act c x w) as [[w1 t1]| |] eqn:A; try discriminate. cbn [bind] in R. destruct (w_run c l w1) as [[w2 t2]| |] eqn:R2; try discriminate. cbn [bind] in R. inversion R; subst.
  rewrite m_on_line_app, (IH Hl _ _ _ R2), app_nil_r. clear - A Hx X. destruct x; try discriminate Hx; cbn [w_act] in A; unfold w_event in A.
  - destruct (w_sub w) as [p|]. { destruct (w_send_line p (w_lib w) (w_u w)) as [[p' u']| |]; try discriminate. inversion A; reflexivity. }
    destruct (m_act c MStep (w_lib w)) as [[k' t]| |]; try discriminate. cbn [bind] in A. destruct (match mc_pc (w_lib w) with Some M404 => w_call_send (w_lib w) | _ => Ok None end); try discriminate. inversion A; subst. apply X.
  - destruct (m_act c (MEv MTick) (w_lib w)) as [[k' t]| |]; try discriminate. inversion A; subst. apply X.
  - destruct (m_act c (MEv (MReq a)) (w_lib w)) as [[k' t]| |]; try discriminate. inversion A; subst. apply X.
Qed.
Lemma bus_all c w0 : cfg_master_ok c -> 2 <= c_timeout c < 4294967296 -> forall ps more l1 lo w t1 t ns, w_run c l1 w0 = Ok (w, t1) -> forallb w_plain lo = true ->
  w_reqs_safe (lo ++ concat (map (fun p => exch_sched (b_exch (snd p))) ps)) -> cinv c t (mloc (w_lib w)) (mc_s (w_lib w)) -> w_ready w -> pending_reqs t = map fst ps ++ more ->
  Forall node_rests ns -> NoDup (map n_id ns) -> bus_session c w0 (l1 ++ lo) ns ps ->
  exists la lb w' t' ls ns', lo ++ concat (map (fun p => exch_sched (b_exch (snd p))) ps) = la ++ lb /\ forallb w_plain lb = true /\ w_run c la w = Ok (w', t') /\ w_ready w' /\ (ps <> [] \/ w_rests w -> w_rests w') /\
    cinv c (t ++ m_lib_of t') (mloc (w_lib w')) (mc_s (w_lib w')) /\ bus_runs ns (map (fun p => b_slaves (snd p)) ps) ns' (map (fun p => bus_answer (snd p)) ps) /\ Forall node_rests ns' /\
    bus_served (map mem_of ns) (map fst ps) ls (map mem_of ns') /\ m_on_line t' = concat (map (fun p => request_frame (fst p)) ps) /\
    visible (m_lib_of t') = session_view (map fst ps) ls /\ length ls = length ps /\ pending_reqs (t ++ m_lib_of t') = more ++ accepted (m_lib_of t').
Proof.
  intros Hc HT. induction ps as [|[a [e ss]] ps IH]; intros more l1 lo w t1 t ns R0 Hlo HS I (Id & Nl & D) Pd Rs Nd Bs; cbn [map concat fst snd b_exch b_slaves] in *.
  - exists [], lo, w, [], [], ns. cbn [w_run m_lib_of m_on_line flat_map]. rewrite ?(app_nil_r t), ?app_nil_r in *. cbn [app] in *. do 3 (split; auto). split; [split; auto|]. split; [intros [X|X]; congruence || auto|]. split; auto. split; [constructor|]. split; auto. split; [constructor|]. auto.
  - cbn [bus_session b_exch b_slaves] in Bs. destruct Bs as [Bc Bs]. assert (HSt := HS). rewrite app_assoc in HS. apply wsafe_app in HS as [HS1 HS2].
    destruct (pending_current _ _ _ Pd) as [Cu Pn]. assert (L := idle_loc _ Id). assert (I0 := I). rewrite L in I0. destruct (current_ok c t (mc_s (w_lib w)) a (ci_inv _ _ _ _ I0) Cu) as [Hok V].
    assert (Rw : wready c a (finished t) (visible t) 0 t w) by (split; [apply ready_idle; auto|]; split; auto; rewrite L; auto). destruct (request_frame_ok a Hok V) as (Fb & Fl & Fi).
    (* this exchange *)
    assert (St : exists ns1, exch_ok c a e /\ exch_sends e = 1%nat /\ bus_run ns ss ns1 (bus_answer (mk_bcall e ss)) /\ Forall node_rests ns1 /\ map n_id ns1 = map n_id ns /\
      forall l reqs ls ms', exch_result a e l -> bus_served (map mem_of ns1) reqs ls ms' -> bus_served (map mem_of ns) (a :: reqs) (l :: ls) ms').
    { destruct e as [[|? ?] f v|x]; cbn [bus_call b_exch b_slaves] in Bc; [| destruct Bc|].
      - destruct Bc as (Hv & Hin & Bc). assert (Hv' := Hv). rewrite <- timeout_u32 in Hv' by auto.
        destruct (line_sent c Hc a (v_send v) (v_out v) (v_wait v) (finished t) (visible t) 0 lo t w) as (w2 & t2 & R2 & O2); auto; try apply Hv'.
        { destruct Hv' as [_ _ _ _ _ _ _ _ _ _ _ _ X]. rewrite !w_ticks_app in X. rewrite w_ticks_app. lia. }
        { cbn [exch_sched map concat app] in HS1. unfold wtry_sched in HS1. intros q Hq. apply HS1. repeat rewrite in_app_iff in *. tauto. }
        apply w_run_split in R2 as (w1 & ta & tb & Ra & Rb & ->). rewrite m_on_line_app, (plain_no_line _ _ Hlo _ _ _ Ra) in O2. cbn [app] in O2.
        assert (Rp : w_run c (l1 ++ lo) w0 = Ok (w1, t1 ++ ta)) by (rewrite w_run_app, R0; cbn [bind]; rewrite Ra; reflexivity).
        specialize (Bc _ _ _ _ Rp Rb). rewrite O2 in Bc.
        destruct (bus_asked a f ns ss Hok V Rs Nd Hin Bc) as (ns1 & ms1 & cs & d & ms2 & R & K & M & Hcs & Hd & Ef & M'). exists ns1.
        assert (G := answer_good_frame cs d a Hcs Hd Hok V). rewrite <- Ef in G. destruct (answer_result cs d a Hcs Hd Hok V) as (_ & l0 & De & Re). rewrite <- Ef in De.
        split. { cbn [exch_ok]. split; [unfold cfg_master_ok in Hc; cbn; lia|]. split; auto. }
        split; auto. split; auto. split; auto. split.
        { assert (X := f_equal (map (fun m : mem => fst (fst m))) M). assert (X' := f_equal (map (fun m : mem => fst (fst m))) M'). rewrite map_map, map_app in X, X'. cbn [map fst] in X, X'. exact (eq_trans X' (eq_sym X)). }
        intros l reqs ls ms' Hl Hs. cbn [exch_result] in Hl. assert (l = l0) by congruence. subst l0. rewrite M. rewrite M' in Hs. unfold result in Re. destruct (is_read a) eqn:Ir.
        + destruct Re as [Ed Re]. rewrite Ed in Hs. apply bus_read; auto.
        + eapply bus_write; eauto.
      - destruct Bc as (Hv & Hin & Bc). assert (Hv' := Hv). rewrite <- timeout_u32 in Hv' by auto.
        destruct (line_sent c Hc a (x_send x) (x_out x) (x_wait x) (finished t) (visible t) 0 lo t w) as (w2 & t2 & R2 & O2); auto; try apply Hv'.
        { cbn [exch_sched] in HS1. unfold wsilent_sched in HS1. intros q Hq. apply HS1. repeat rewrite in_app_iff in *. tauto. }
        apply w_run_split in R2 as (w1 & ta & tb & Ra & Rb & ->). rewrite m_on_line_app, (plain_no_line _ _ Hlo _ _ _ Ra) in O2. cbn [app] in O2.
        assert (Rp : w_run c (l1 ++ lo) w0 = Ok (w1, t1 ++ ta)) by (rewrite w_run_app, R0; cbn [bind]; rewrite Ra; reflexivity).
        specialize (Bc _ _ _ _ Rp Rb). rewrite O2 in Bc.
        destruct (silent_nodes (api_id a) (request_frame a) ns ss) as (ns1 & R & K & M); auto; [discriminate|]. exists ns1.
        split; auto. split; auto. split; auto. split; auto. split; [apply same_ids; auto|].
        intros l reqs ls ms' (r & -> & Tr) Hs. rewrite M in Hs. apply bus_absent; auto. rewrite map_map. exact Hin. }
    destruct St as (ns1 & Eo & Es & Br & Kr & Ids & Sv).
    destruct (line_exchange c a e lo t w) as (la & lb & w1 & t2 & l & E1 & P1 & R1 & Re1 & Nl1 & (I1 & Id1 & F1 & V1) & O1 & D1); auto. rewrite Es in *.
    destruct (IH (more ++ accepted (m_lib_of t2)) (l1 ++ la) lb w1 (t1 ++ t2) (t ++ m_lib_of t2) ns1) as (lc & ld & w2 & t3 & ls & ns2 & E2 & P2 & R2 & W2 & W3 & I2 & Br2 & K2 & Sv2 & O2 & V2 & Ln2 & Pd2); auto.
    { rewrite w_run_app, R0. cbn [bind]. rewrite R1. reflexivity. }
    { apply wsafe_app. split; auto. rewrite E1 in HS1. apply wsafe_app in HS1. tauto. }
    { split; auto. split; auto. apply rests_ready; auto. }
    { rewrite (Pn _ F1), <- app_assoc. reflexivity. }
    { congruence. }
    { rewrite <- app_assoc, <- E1, app_assoc. eapply Bs. eauto. }
    exists (la ++ lc), ld, w2, (t2 ++ t3), (l :: ls), ns2. split. { rewrite app_assoc, E1, <- app_assoc, E2, app_assoc. reflexivity. }
    split; auto. split. { rewrite w_run_app, R1. cbn [bind]. rewrite R2. reflexivity. }
    rewrite m_lib_of_app, m_on_line_app. split; auto. split; [intros _; apply W3; right; split; auto|]. rewrite app_assoc. split; auto. split; [econstructor; eauto|]. split; auto. split; [apply Sv; auto|].
    split. { rewrite O1, O2. unfold frames_out. cbn [repeat concat]. rewrite app_nil_r. reflexivity. }
    split. { rewrite visible_app, V2. rewrite <- app_assoc in V1. apply visible_rest in V1. rewrite V1. reflexivity. }
    split. { cbn [length]. lia. }
    rewrite Pd2, accepted_app, <- app_assoc. reflexivity.
Qed.
