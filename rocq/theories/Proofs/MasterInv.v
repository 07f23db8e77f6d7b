(** Invariants of the master under every schedule. *)
From Verif Require Export Proofs.QueueP Proofs.Request Proofs.RespMain Proofs.FrameMain Model.Master Spec.MasterTrace.

(** *** elementary facts about the pieces of [m_line] *)
Lemma get_msg_some s i m : get_msg s i = Ok m <-> nth_error (mm_msgs s) i = Some m.
Proof.
  unfold get_msg, aget. destruct (Z.of_nat i <? 0) eqn:E; [lia|]. rewrite Nat2Z.id. destruct (nth_error _ i); split; intros H; inversion H; auto.
Qed.
Lemma put_msg_ok s i m : (i < length (mm_msgs s))%nat -> put_msg s i m = Ok (m_set_msgs s (upd (mm_msgs s) i m)).
Proof. intros H. unfold put_msg. rewrite aset_ok by lia. rewrite Nat2Z.id. reflexivity. Qed.
Lemma put_msg_inv s i m s' : put_msg s i m = Ok s' -> s' = m_set_msgs s (upd (mm_msgs s) i m) /\ (i < length (mm_msgs s))%nat.
Proof.
  unfold put_msg, aset. destruct ((Z.of_nat i <? 0) || (Z.of_nat (length (mm_msgs s)) <=? Z.of_nat i)) eqn:E; [discriminate|]. cbn [bind]. rewrite Nat2Z.id.
  intros H. inversion H. split; auto. lia.
Qed.
Lemma cur_msg_inv s i m : cur_msg s = Ok (i, m) <-> mm_cur s = Some i /\ nth_error (mm_msgs s) i = Some m.
Proof.
  unfold cur_msg. destruct (mm_cur s) as [j|]; [|split; [discriminate|intros [H _]; discriminate]].
  destruct (get_msg s j) as [m'| |] eqn:G; cbn [bind].
  - apply get_msg_some in G. split; intros H; [inversion H; subst; auto|destruct H as [H1 H2]; inversion H1; subst; congruence].
  - split; [discriminate|]. intros [H1 H2]. inversion H1; subst. apply get_msg_some in H2. congruence.
  - split; [discriminate|]. intros [H1 H2]. inversion H1; subst. apply get_msg_some in H2. congruence.
Qed.
Lemma set_cur_len_inv s n s' : set_cur_resp_len s n = Ok s' -> exists i m, mm_cur s = Some i /\ nth_error (mm_msgs s) i = Some m /\
  s' = m_set_msgs s (upd (mm_msgs s) i (set_resp m (set_len (m_resp m) n))).
Proof.
  unfold set_cur_resp_len. destruct (cur_msg s) as [[i m]| |] eqn:E; try discriminate. cbn [bind]. intros H. apply put_msg_inv in H as [-> H].
  apply cur_msg_inv in E as [E1 E2]. eauto.
Qed.
Lemma set_cur_len_ok s n i m : mm_cur s = Some i -> nth_error (mm_msgs s) i = Some m ->
  set_cur_resp_len s n = Ok (m_set_msgs s (upd (mm_msgs s) i (set_resp m (set_len (m_resp m) n)))).
Proof.
  intros H1 H2. unfold set_cur_resp_len. assert (E : cur_msg s = Ok (i, m)) by (apply cur_msg_inv; auto). rewrite E. cbn [bind].
  apply put_msg_ok. apply nth_error_Some. congruence.
Qed.

(** *** the contents of a queue *)
Lemma rep_queue_list {A} N (q : queue A) l : rep N q l -> queue_list N q = l.
Proof.
  intros R. destruct R as [HN HS HT HH HI HC HE]. unfold queue_list. rewrite HI, Nat2Z.id.
  assert (G : forall n, (n <= length l)%nat -> flat_map (fun k => match nth (Z.to_nat ((q_tail q + Z.of_nat k) mod N)) (q_slots q) None with Some x => [x] | None => [] end) (seq 0 n) = firstn n l).
  { induction n as [|n IH]; intros Hn; [reflexivity|]. rewrite seq_S, flat_map_app, IH by lia. cbn [flat_map Nat.add].
    rewrite mod_wrap by lia. specialize (HE n ltac:(lia)).
    erewrite nth_error_nth by exact HE. destruct (nth_error l n) as [x|] eqn:X; [|apply nth_error_None in X; lia].
    rewrite app_nil_r. symmetry. clear - X. revert l X. induction n as [|n IH]; intros [|y l] X; cbn in *; try discriminate; [inversion X; reflexivity|]. f_equal. apply IH. exact X. }
  rewrite G by lia. apply firstn_all.
Qed.

(** *** a request call *)
Lemma set_free_id s : m_set_free s (mm_free s) = s.
Proof. destruct s. reflexivity. Qed.
Lemma req_none c a s : rep (c_queue c) (mm_free s) [] -> modbus_master_request c a s = Ok (FREE_QUEUE_EMPTY_ERROR, s).
Proof. intros R. unfold modbus_master_request, generate_request. rewrite pop_empty by auto. cbn [bind]. now rewrite set_free_id. Qed.
Lemma set_msgs_same s i m : nth_error (mm_msgs s) i = Some m -> m_set_msgs s (upd (mm_msgs s) i m) = s.
Proof. intros H. rewrite upd_same by auto. destruct s. reflexivity. Qed.
Lemma req_invalid c a s i free m : rep (c_queue c) (mm_free s) (i :: free) -> nth_error (mm_msgs s) i = Some m -> msg_ok m ->
  api_typed a -> api_valid a = false ->
  exists q, rep (c_queue c) q free /\ modbus_master_request c a s = Ok (LIB_PDU_REQ_ERROR, m_set_free s q).
Proof.
  intros R Hi Hm Ty V. destruct (pop_cons _ _ _ _ R) as (q & E & R'). exists q. split; auto.
  unfold modbus_master_request, generate_request. rewrite E. cbn [bind].
  assert (G : get_msg (m_set_free s q) i = Ok m) by (apply get_msg_some; exact Hi). rewrite G. cbn [bind].
  rewrite gen_pdu_invalid by auto. cbn [bind]. rewrite put_msg_ok by (apply nth_error_Some; cbn; congruence). cbn [bind].
  rewrite set_msgs_same by exact Hi. reflexivity.
Qed.
Lemma req_valid c a s i free pend m : rep (c_queue c) (mm_free s) (i :: free) -> rep (c_queue c) (mm_txq s) pend ->
  Z.of_nat (length pend) < c_queue c -> nth_error (mm_msgs s) i = Some m -> msg_ok m -> api_ok a -> api_valid a = true ->
  exists q q2 m', rep (c_queue c) q free /\ rep (c_queue c) q2 (pend ++ [i]) /\ msg_ok m' /\ m_resp m' = m_resp m /\
    rx_frame (m_req m') = request_frame a /\
    modbus_master_request c a s = Ok (REQUEST_SEND_TO_QUEUE, m_set_txq (m_set_msgs (m_set_free s q) (upd (mm_msgs s) i m')) q2).
Proof.
  intros R Rp Hl Hi Hm Ok V. destruct (pop_cons _ _ _ _ R) as (q & E & R').
  destruct (gen_pdu_valid a m Hm Ok V) as (r & G & H).
  destruct (send_holds r (request_pdu a) (api_id a) H) as (r' & S & Rr & F).
  { apply request_pdu_len; auto. } { apply Ok. }
  destruct (push_room _ _ _ i Rp Hl) as (q2 & P & R2 & _).
  exists q, q2, (mk_msg r' (m_resp m)). split; auto. split; auto. split. { split; [exact Rr|apply Hm]. } split; auto. split; auto.
  unfold modbus_master_request, generate_request. rewrite E. cbn [bind].
  assert (X : get_msg (m_set_free s q) i = Model.Base.Ok m) by (apply get_msg_some; exact Hi). rewrite X. cbn [bind].
  rewrite G. cbn [bind]. assert (L : (i < length (mm_msgs s))%nat) by (apply nth_error_Some; congruence).
  rewrite put_msg_ok by exact L. cbn [bind]. change (RET_OK <? 0) with false. cbn [m_req].
  assert (I : p_id (api_param a) = api_id a) by (destruct a; reflexivity). rewrite I, S. cbn [bind].
  rewrite put_msg_ok by (cbn; rewrite upd_length; exact L). cbn [bind]. change (RET_ERROR =? RET_OK) with false.
  cbn [m_set_msgs m_set_free mm_txq]. rewrite P. cbn [bind mm_msgs m_set_msgs]. rewrite upd_upd. reflexivity.
Qed.
Lemma req_safe_ok a : req_safe a -> api_valid a = true -> api_ok a.
Proof. intros [H1 H2] V. split; auto. Qed.

(** *** where the program is *)
Definition mloc (k : mconf) : mpc := match mc_pc k with Some l => l | None => m_dispatch (mc_s k) end.
Definition m_next (l : option mpc) (s : master) : mpc := match l with Some l => l | None => m_dispatch s end.
Definition mst_ok (l : mpc) (st : mstate) : Prop :=
  match l with
  | M649 | M651 => st = M_IDLE
  | M404 | M405 | M406 | M407 => st = M_IDLE \/ st = M_REPEAT_REQUEST
  | M669 | M671 | M672 | M673 => st = M_TRANSMITTING_REQ
  | M690 | M694 | M718 | M746 | M747 _ | M748 _ | M749 _ | M750 _ | M752 | M753 | M754 | M756 _ | M758 | M762 | M763 => st = M_RESP_WAITING
  | M784 | M784b | M788 | M788b | M792 | M792b | M792c | M813 | M833 | M834 | M836 | M844 | M868 | M869 | M871 | M879 => st = M_RESP_RECIVED
  | M837 | M838 | M872 | M873 => st = M_REPEAT_REQUEST
  | M900 | M901 | M902 => st = M_RESP_WAITING \/ st = M_RESP_RECIVED
  end.
Definition fly_line (l : mpc) : bool := match l with M649 | M651 | M902 => false | _ => true end.
Definition rx_line (l : mpc) : bool := match l with M649 | M651 | M902 | M404 | M405 => false | _ => true end.
Definition m_soc (f : flag) : Prop := f = SET \/ f = CLEARED.
Definition rep_ok (c : cfg) (l : mpc) (r : Z) : Prop :=
  match l with
  | M649 | M651 | M901 | M902 => r = 0
  | M834 | M869 => 1 <= r <= 1 + c_repeat c
  | M844 | M879 => r = 1 + c_repeat c
  | M836 | M837 | M838 | M871 | M872 | M873 => 1 <= r <= c_repeat c
  | M900 => 0 <= r <= 1 + c_repeat c
  | _ => 0 <= r <= c_repeat c
  end.
Record mctl (c : cfg) (l : mpc) (s : master) : Prop := {
  mc_st : mst_ok l (mm_st s);
  mc_drv : mm_drv s = true; mc_sub : mm_sub s = true;
  mc_15 : m_soc (mm_t15 s); mc_35 : m_soc (mm_t35 s); mc_fe : m_soc (mm_fe s); mc_tx : m_soc (mm_tx s); mc_crc : m_soc (mm_crc s);
  mc_rep : rep_ok c l (mm_rep s) }.
Definition fly (l : mpc) (s : master) : list nat :=
  if fly_line l then match mm_cur s with Some i => [i] | None => [] end else [].
Record mbuf (c : cfg) (free pend : list nat) (l : mpc) (s : master) : Prop := {
  mb_free : rep (c_queue c) (mm_free s) free;
  mb_pend : rep (c_queue c) (mm_txq s) pend;
  mb_len : length (mm_msgs s) = Z.to_nat (c_queue c);
  mb_msgs : Forall msg_ok (mm_msgs s);
  mb_lt : Forall (fun i => (i < Z.to_nat (c_queue c))%nat) (fly l s ++ pend ++ free);
  mb_nd : NoDup (fly l s ++ pend ++ free);
  mb_cur : fly_line l = true -> mm_cur s <> None;
  mb_651 : l = M651 -> pend <> [];
  mb_rx : forall i, mm_rx s = Some i -> (i < Z.to_nat (c_queue c))%nat;
  mb_rxc : rx_line l = true -> mm_rx s = mm_cur s }.

Ltac mprj := cbn [m_set_st m_set_drv m_set_free m_set_txq m_set_msgs m_set_cur m_set_timer m_set_rep m_set_t15 m_set_t35 m_set_fe m_set_tx m_set_crc m_set_sub m_set_rx
  mm_st mm_drv mm_free mm_txq mm_msgs mm_cur mm_timer mm_rep mm_t15 mm_t35 mm_fe mm_tx mm_crc mm_sub mm_rx mc_s mc_pc] in *.
Ltac mifs E := repeat match type of E with context [if ?b then _ else _] => let X := fresh "X" in destruct b eqn:X end.
Ltac mline_inv E :=
  cbn [m_line] in E; mifs E; try discriminate E;
  repeat match type of E with
  | bind ?x _ = _ => let Y := fresh "Y" in
      match type of x with
      | outcome (_ * _) => destruct x as [[? ?]| |] eqn:Y
      | _ => destruct x as [?| |] eqn:Y
      end; try discriminate E; cbn [bind] in E
  end; mifs E; try discriminate E; inversion E; subst; clear E;
  repeat match goal with
  | Y : set_cur_resp_len _ _ = Ok _ |- _ => apply set_cur_len_inv in Y as (? & ? & ? & ? & ->)
  | Y : cur_msg _ = Ok _ |- _ => apply cur_msg_inv in Y as (? & ?)
  end.

Lemma mctl_line c l s l' s' o : cfg_master_ok c -> mctl c l s -> m_line c l s = Ok (l', s', o) -> mctl c (m_next l' s') s'.
Proof.
  intros [HN HR] [B1 B2 B3 B4 B5 B6 B7 B8 B9] E.
  destruct l; mline_inv E; cbn [mst_ok] in B1; cbn [rep_ok] in B9; constructor; cbn [m_next]; unfold m_dispatch; mprj; auto;
    try (rewrite ?B1; cbn [mst_ok rep_ok]; auto; fail); try (left; reflexivity); try (right; reflexivity); cbn [mst_ok rep_ok];
    try (unfold u8; rewrite ?Z.mod_small by lia); auto; try lia; rewrite B1; cbn [rep_ok]; lia.
Qed.

(** interrupts other than request calls *)
Definition is_req (e : mev) : bool := match e with MReq _ => true | _ => false end.
Definition rx_put (s : master) (b : Z) : master :=
  match mm_rx s with
  | None => s
  | Some i => match nth_error (mm_msgs s) i with
              | None => s
              | Some m => let r := m_resp m in
                  m_set_msgs s (upd (mm_msgs s) i (set_resp m (mk_rr true (upd (rr_buf r) (Z.to_nat (rr_len r)) (u8 b)) (u8 (rr_len r + 1)))))
              end
  end.
Definition ev_state (e : mev) (s : master) : master :=
  match e with
  | MTxDone => m_set_tx s CLEARED
  | MT15 => m_set_t15 s SET
  | MT35 => m_set_t35 s SET
  | MFrameErr => m_set_fe s SET
  | MRx b => rx_put s b
  | MTick => if negb (mm_timer s =? 0) then m_set_timer s (mm_timer s - 1) else s
  | MReq _ => s
  end.
Lemma event_char c e free pend l s : is_req e = false -> mm_sub s = true -> mbuf c free pend l s -> m_event c e s = Ok (ev_state e s, []).
Proof.
  intros Hr Hs B. destruct e; cbn [m_event ev_state]; rewrite ?Hs; try reflexivity; [|discriminate].
  unfold rx_put. destruct (mm_rx s) as [i|] eqn:R; [|reflexivity].
  assert (Li : (i < length (mm_msgs s))%nat) by (rewrite (mb_len _ _ _ _ _ B); eapply mb_rx; eauto).
  destruct (nth_error (mm_msgs s) i) as [m|] eqn:N; [|apply nth_error_None in N; lia].
  assert (G : get_msg s i = Ok m) by (apply get_msg_some; auto). rewrite G. cbn [bind].
  assert (Hm : msg_ok m) by (eapply Forall_forall; [apply (mb_msgs _ _ _ _ _ B)|eapply nth_error_In; eauto]).
  destruct Hm as [_ (P & L & By & Hl)]. rewrite wr_ok by (auto; unfold byte in Hl; lia). cbn [bind]. rewrite put_msg_ok by auto. reflexivity.
Qed.
Lemma rx_put_ok r b : rr_ok r -> rr_ok (mk_rr true (upd (rr_buf r) (Z.to_nat (rr_len r)) (u8 b)) (u8 (rr_len r + 1))).
Proof.
  intros (P & L & By & Hl). unfold rr_ok. cbn [rr_ptr rr_buf rr_len]. rewrite upd_length.
  split; auto. split; auto. split; [apply Forall_upd; auto; unfold byte, u8; lia|unfold byte, u8; lia].
Qed.
Ltac rxp := unfold rx_put; match goal with |- context [mm_rx ?s] => destruct (mm_rx s) as [?i|] eqn:?R end; [|auto];
   match goal with |- context [nth_error ?l ?i] => destruct (nth_error l i) as [?m|] eqn:?Nm end; [|auto].
Lemma mctl_ev c e l s : mctl c l s -> mctl c l (ev_state e s).
Proof.
  intros B. destruct e; cbn [ev_state]; auto.
  5:{ rxp. destruct B as [B1 B2 B3 B4 B5 B6 B7 B8 B9]. constructor; mprj; auto. }
  5:{ destruct (negb _); auto. destruct B as [B1 B2 B3 B4 B5 B6 B7 B8 B9]. constructor; mprj; auto. }
  all: destruct B as [B1 B2 B3 B4 B5 B6 B7 B8 B9]; constructor; mprj; auto; try (left; reflexivity); right; reflexivity.
Qed.
Lemma mbuf_ev c e free pend l s : mbuf c free pend l s -> mbuf c free pend l (ev_state e s).
Proof.
  intros B. destruct e; cbn [ev_state]; auto.
  5:{ rxp. destruct B as [B1 B2 B3 B4 B5 B6 B7 B8 B9 B10]. unfold fly in *. constructor; unfold fly; mprj; auto.
      - now rewrite upd_length.
      - apply Forall_upd; auto. assert (Hm : msg_ok m) by (eapply Forall_forall; [exact B4|eapply nth_error_In; eauto]).
        destruct Hm as [M1 M2]. split; [exact M1|]. apply rx_put_ok. exact M2. }
  5:{ destruct (negb _); auto. destruct B as [B1 B2 B3 B4 B5 B6 B7 B8 B9 B10]. unfold fly in *. constructor; unfold fly; mprj; auto. }
  all: destruct B as [B1 B2 B3 B4 B5 B6 B7 B8 B9 B10]; unfold fly in *; constructor; unfold fly; mprj; auto.
Qed.

Lemma set_len0_ok l i m : Forall msg_ok l -> nth_error l i = Some m -> Forall msg_ok (upd l i (set_resp m (set_len (m_resp m) 0))).
Proof.
  intros F N. apply Forall_upd; auto. assert (Hm : msg_ok m) by (eapply Forall_forall; [exact F|eapply nth_error_In; eauto]).
  destruct Hm as [M1 (P & L & B & _)]. split; [exact M1|]. unfold rr_ok. cbn. split; auto. split; auto. split; auto. unfold byte. lia.
Qed.
(** pigeonhole: room in the queues *)
Lemma nodup_room (l : list nat) n : NoDup l -> Forall (fun i => (i < n)%nat) l -> (length l <= n)%nat.
Proof.
  intros H F. rewrite <- (seq_length n 0). apply NoDup_incl_length; auto. intros x Hx. apply in_seq. rewrite Forall_forall in F. specialize (F x Hx). lia.
Qed.
Definition free_after (l : mpc) (s : master) (free : list nat) : list nat := match l with M901 => free ++ fly l s | _ => free end.
Definition pend_after (l : mpc) (pend : list nat) : list nat := match l with M651 => tl pend | _ => pend end.
Lemma mbuf_line c free pend l s l' s' o : cfg_master_ok c -> mctl c l s -> mbuf c free pend l s -> m_line c l s = Ok (l', s', o) ->
  mbuf c (free_after l s free) (pend_after l pend) (m_next l' s') s'.
Proof.
  intros Hc K B E. assert (BS := mc_st _ _ _ K). 
  destruct l.
  2:{ (* M651 *) destruct pend as [|i pend]; [exfalso; eapply mb_651; eauto|]. cbn [m_line] in E.
    destruct B as [B1 B2 B3 B4 B5 B6 B7 B8 B9 B10].
    destruct (pop_cons _ _ _ _ B2) as (q & P & R). rewrite P in E. cbn [bind] in E. inversion E; subst. cbn [m_next free_after pend_after tl].
    unfold fly in *. cbn [fly_line] in *. constructor; unfold fly; mprj; auto; try discriminate. }
  46:{ (* M901 *) cbn [m_line] in E. destruct (mm_cur s) as [i|] eqn:C; [|exfalso; eapply mb_cur; eauto; reflexivity].
    destruct B as [B1 B2 B3 B4 B5 B6 B7 B8 B9 B10]. unfold fly in *. cbn [fly_line] in *. rewrite C in *. cbn [app] in *.
    inversion B6 as [|? ? N1 N2]; subst. inversion B5 as [|? ? F1 F2]; subst.
    assert (L := nodup_room _ _ B6 B5). cbn [length] in L. rewrite app_length in L. destruct Hc as [HN HR].
    destruct (push_room _ _ _ i B1 ltac:(lia)) as (q & P & R & _). rewrite P in E. cbn [bind] in E. inversion E; subst. cbn [m_next free_after pend_after].
    unfold fly. cbn [fly_line]. rewrite C. constructor; unfold fly; cbn [fly_line]; mprj; auto; try discriminate.
    - cbn [app]. rewrite app_assoc. apply Forall_app. split; auto.
    - cbn [app]. rewrite app_assoc. 
      assert (X : NoDup (i :: pend ++ free)) by (constructor; auto).
      apply NoDup_rev in X. cbn [rev] in X. apply NoDup_rev in X. rewrite rev_app_distr, rev_involutive in X. cbn [rev app] in X.
      clear - N1 N2. induction (pend ++ free) as [|y l IH]; cbn [app]; [constructor; auto; constructor|]. inversion N2; subst. constructor.
      + intros H. apply in_app_or in H as [H|[->|[]]]; auto. apply N1. left; reflexivity.
      + apply IH; auto. intros H. apply N1. right; auto. }
  all: destruct B as [B1 B2 B3 B4 B5 B6 B7 B8 B9 B10]; mline_inv E; cbn [mst_ok] in BS; unfold fly in *; cbn [fly_line rx_line] in *;
    cbn [m_next free_after pend_after]; unfold m_dispatch; mprj; rewrite ?BS;
    try (constructor; unfold fly; cbn [fly_line rx_line]; mprj; auto; try discriminate; fail).
  - constructor; unfold fly; cbn [fly_line rx_line]; mprj; auto; try discriminate. intros _ ->. rewrite (avail_iff _ _ _ B2) in X. discriminate.
  - constructor; unfold fly; cbn [fly_line rx_line]; mprj; auto; try discriminate. rewrite H in *. intros i [= <-]. inversion B5; auto.
  - constructor; unfold fly; cbn [fly_line rx_line]; mprj; auto; try discriminate; [now rewrite upd_length|eapply set_len0_ok; eauto].
  - constructor; unfold fly; cbn [fly_line rx_line]; mprj; auto; try discriminate; [now rewrite upd_length|eapply set_len0_ok; eauto].
  - constructor; unfold fly; cbn [fly_line rx_line]; mprj; auto; try discriminate; [now rewrite upd_length|eapply set_len0_ok; eauto].
  - constructor; unfold fly; cbn [fly_line rx_line]; mprj; auto; try discriminate; [now rewrite upd_length|eapply set_len0_ok; eauto].
Qed.

Inductive req_result (c : cfg) (a : api) (free pend : list nat) (l : mpc) (s : master) : master -> req_ret -> list nat -> list nat -> Prop :=
| rq_none : free = [] -> req_result c a free pend l s s FREE_QUEUE_EMPTY_ERROR free pend
| rq_bad i free' q : free = i :: free' -> api_valid a = false -> req_result c a free pend l s (m_set_free s q) LIB_PDU_REQ_ERROR free' pend
| rq_good i free' q q2 m m' : free = i :: free' -> api_valid a = true -> nth_error (mm_msgs s) i = Some m -> m_resp m' = m_resp m -> msg_ok m' ->
    rx_frame (m_req m') = request_frame a ->
    req_result c a free pend l s (m_set_txq (m_set_msgs (m_set_free s q) (upd (mm_msgs s) i m')) q2) REQUEST_SEND_TO_QUEUE free' (pend ++ [i]).
Lemma NoDup_app_r {A} (a b : list A) : NoDup (a ++ b) -> NoDup b.
Proof. induction a; cbn; auto. intros H. inversion H; auto. Qed.
Lemma nodup_move {A} (a b : list A) x c0 : NoDup (a ++ b ++ x :: c0) -> NoDup (a ++ (b ++ [x]) ++ c0).
Proof. now rewrite <- (app_assoc b). Qed.
Lemma nodup_drop {A} (a b : list A) x c0 : NoDup (a ++ b ++ x :: c0) -> NoDup (a ++ b ++ c0).
Proof. rewrite !app_assoc. apply NoDup_remove_1. Qed.
Lemma req_event c a free pend l s : cfg_master_ok c -> mbuf c free pend l s -> req_safe a ->
  exists s' r free' pend', m_event c (MReq a) s = Ok (s', [MoRet a r]) /\ req_result c a free pend l s s' r free' pend' /\ mbuf c free' pend' l s'.
Proof.
  intros Hc B Hs. assert (L := nodup_room _ _ (mb_nd _ _ _ _ _ B) (mb_lt _ _ _ _ _ B)). rewrite !app_length in L. cbn [m_event].
  destruct free as [|i free].
  - rewrite (req_none c a s (mb_free _ _ _ _ _ B)). cbn [bind]. do 4 eexists. split; [reflexivity|]. split; [constructor; auto|exact B].
  - assert (Hi : (i < length (mm_msgs s))%nat).
    { rewrite (mb_len _ _ _ _ _ B). assert (F := mb_lt _ _ _ _ _ B). rewrite !Forall_app in F. destruct F as (_ & _ & F). inversion F; auto. }
    destruct (nth_error (mm_msgs s) i) as [m|] eqn:N; [|apply nth_error_None in N; lia].
    assert (Hm : msg_ok m) by (eapply Forall_forall; [apply (mb_msgs _ _ _ _ _ B)|eapply nth_error_In; eauto]).
    destruct (api_valid a) eqn:V.
    + destruct (req_valid c a s i free pend m (mb_free _ _ _ _ _ B) (mb_pend _ _ _ _ _ B)) as (q & q2 & m' & R1 & R2 & M1 & M2 & M3 & E); auto.
      { cbn [length] in L. destruct Hc. lia. } { apply req_safe_ok; auto. }
      rewrite E. cbn [bind]. do 4 eexists. split; [reflexivity|]. split; [eapply rq_good; eauto|].
      destruct B as [B1 B2 B3 B4 B5 B6 B7 B8 B9 B10]. constructor; unfold fly in *; mprj; auto.
      * now rewrite upd_length.
      * apply Forall_upd; auto.
      * now rewrite <- (app_assoc pend).
      * apply nodup_move; auto.
      * intros _ X. destruct pend; discriminate.
    + destruct (req_invalid c a s i free m (mb_free _ _ _ _ _ B) N Hm) as (q & R & E); auto. { apply Hs. }
      rewrite E. cbn [bind]. do 4 eexists. split; [reflexivity|]. split; [eapply rq_bad; eauto|].
      destruct B as [B1 B2 B3 B4 B5 B6 B7 B8 B9 B10]. constructor; unfold fly in *; mprj; auto.
      * rewrite !Forall_app in *. destruct B5 as (? & ? & B5). inversion B5; auto.
      * eapply nodup_drop; eauto.
Qed.
Lemma req_ctl c a free pend l s s' r free' pend' : req_result c a free pend l s s' r free' pend' -> mctl c l s -> mctl c l s'.
Proof. intros [] K; auto; destruct K as [B1 B2 B3 B4 B5 B6 B7 B8 B9]; constructor; mprj; auto. Qed.
