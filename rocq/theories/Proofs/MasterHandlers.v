(** C104: the handlers' statements one by one. *)
From Verif Require Export Proofs.MasterSystem Spec.MasterHandlers.
From Verif Require Import Proofs.MasterInv Proofs.MasterWire.

(** *** the statements in sequence are the handlers of Model/MasterSystem.v *)
Fixpoint h_exec (n : nat) (c : cfg) (p : option hpc) (k : mconf) (u : uart) : outcome (mconf * uart * list witem) :=
  match p, n with
  | None, _ => Ok (k, u, [])
  | Some _, O => Diverge
  | Some p, S n => let* '(p', k', u', t) := h_line c p k u in let* '(k2, u2, t2) := h_exec n c p' k' u' in Ok (k2, u2, t ++ t2)
  end.
Lemma exec_S n c p k u : h_exec (S n) c (Some p) k u = let* '(p', k', u', t) := h_line c p k u in let* '(k2, u2, t2) := h_exec n c p' k' u' in Ok (k2, u2, t ++ t2).
Proof. reflexivity. Qed.
Lemma exec_none n c k u : h_exec n c None k u = Ok (k, u, []).
Proof. destruct n; reflexivity. Qed.
Lemma exec_rto n c k u : h_exec (5 + n) c (Some U149) k u = w_usart_rto c k u.
Proof.
  change (5 + n)%nat with (S (4 + n)). rewrite exec_S. cbn [h_line bind]. unfold w_usart_rto. destruct (u_rtof u) eqn:R; [|rewrite exec_none; reflexivity].
  change (4 + n)%nat with (S (3 + n)). rewrite exec_S. cbn [h_line bind]. change (3 + n)%nat with (S (2 + n)). destruct (mm_sub (mc_s k)) eqn:Q; rewrite exec_S; cbn [h_line bind].
  - destruct (w_event c MT15 k) as [[k1 t1]| |]; cbn [bind]; auto. change (2 + n)%nat with (S (1 + n)). rewrite exec_S. cbn [h_line bind]. change (1 + n)%nat with (S n). rewrite exec_S. cbn [h_line bind]. rewrite exec_none. cbn [bind app u_cur u_last u_det u_tdr u_rdr u_txeie u_rtof u_cen u_uif]. now rewrite app_nil_r.
  - change (2 + n)%nat with (S (1 + n)). rewrite exec_S. cbn [h_line bind]. rewrite exec_none. reflexivity.
Qed.
Lemma exec_tx n c k u : h_exec (9 + n) c (Some U135) k u = let* '(k, u, t2) := w_usart_tx c k u in let* '(k, u, t3) := w_usart_rto c k u in Ok (k, u, t2 ++ t3).
Proof.
  change (9 + n)%nat with (S (8 + n)). rewrite exec_S. cbn [h_line bind]. unfold w_usart_tx. destruct (u_tdr u) eqn:T.
  - change (8 + n)%nat with (5 + (3 + n))%nat. rewrite exec_rto. cbn [bind]. destruct (w_usart_rto c k u) as [[[? ?] ?]| |]; reflexivity.
  - change (8 + n)%nat with (S (7 + n)). rewrite exec_S. cbn [h_line bind]. change (7 + n)%nat with (S (6 + n)). destruct (u_cur u <? u_last u).
    + rewrite exec_S. cbn [h_line bind]. change (6 + n)%nat with (S (5 + n)). rewrite exec_S. cbn [h_line bind u_cur u_last u_det u_tdr u_rdr u_txeie u_rtof u_cen u_uif]. destruct (req_byte k (u_cur u + 1)) as [b| |]; cbn [bind]; auto.
      rewrite exec_rto. match goal with |- context [w_usart_rto ?a ?b ?d] => destruct (w_usart_rto a b d) as [[[? ?] ?]| |] end; reflexivity.
    + rewrite exec_S. cbn [h_line bind]. change (6 + n)%nat with (S (5 + n)). rewrite exec_S. cbn [h_line bind]. destruct (mm_sub (mc_s k)); [|reflexivity]. destruct (w_event c MTxDone k) as [[k1 t1]| |]; cbn [bind]; auto.
      rewrite exec_rto. cbn [u_cur u_last u_det u_tdr u_rdr u_txeie u_rtof u_cen u_uif]. rewrite T. match goal with |- context [w_usart_rto ?a ?b ?d] => destruct (w_usart_rto a b d) as [[[? ?] ?]| |] end; reflexivity.
Qed.
Lemma sub_put s i m s' : put_msg s i m = Ok s' -> mm_sub s' = mm_sub s /\ mm_rx s' = mm_rx s /\ mm_timer s' = mm_timer s.
Proof. intros E. apply put_msg_inv in E as (-> & _). auto. Qed.
Lemma exec_rx n c k u : h_exec (17 + n) c (Some U123) k u = w_usart c k u.
Proof.
  change (17 + n)%nat with (S (16 + n)). rewrite exec_S. cbn [h_line bind]. unfold w_usart, w_usart_rx. destruct (u_rdr u) as [b|] eqn:R.
  2:{ change (16 + n)%nat with (9 + (7 + n))%nat. rewrite exec_tx. cbn [bind]. destruct (w_usart_tx c k u) as [[[? ?] ?]| |]; cbn [bind]; auto. match goal with |- context [w_usart_rto ?a ?b ?d] => destruct (w_usart_rto a b d) as [[[? ?] ?]| |] end; reflexivity. }
  change (16 + n)%nat with (S (15 + n)). rewrite exec_S. cbn [h_line]. rewrite R. destruct (mm_rx (mc_s k)) as [i|] eqn:X; [|reflexivity]. cbn [bind].
  change (15 + n)%nat with (S (14 + n)). rewrite exec_S. cbn [h_line]. rewrite X.
  assert (EV : w_event c (MRx b) k = let* m := get_msg (mc_s k) i in let* r := wr (m_resp m) (rr_len (m_resp m)) (u8 b) in let* s := put_msg (mc_s k) i (set_resp m (set_len r (u8 (rr_len (m_resp m) + 1)))) in Ok (mk_mconf s (mc_pc k), [WLib (MTEv (MRx b))])).
  { unfold w_event. cbn [m_act m_event]. rewrite X. destruct (get_msg (mc_s k) i) as [m| |]; cbn [bind]; auto. destruct (wr (m_resp m) (rr_len (m_resp m)) (u8 b)) as [r| |] eqn:W; cbn [bind]; auto.
    assert (LR : rr_len r = rr_len (m_resp m)). { unfold wr in W. destruct (rr_ptr (m_resp m)); [|discriminate]. destruct (aset _ _ _); cbn [bind] in W; inversion W. reflexivity. }
    rewrite ?LR. destruct (put_msg _ _ _); reflexivity. }
  rewrite EV. clear EV.
  destruct (get_msg (mc_s k) i) as [m| |] eqn:G; cbn [bind]; try reflexivity.
  destruct (wr (m_resp m) (rr_len (m_resp m)) (u8 b)) as [r| |] eqn:W; cbn [bind]; try reflexivity.
  assert (L : (i < length (mm_msgs (mc_s k)))%nat). { unfold get_msg, aget in G. destruct (_ <? _); [discriminate|]. destruct (nth_error _ _) eqn:N; [|discriminate]. rewrite Nat2Z.id in N. apply nth_error_Some. congruence. }
  rewrite !put_msg_ok by auto. cbn [bind]. change (14 + n)%nat with (S (13 + n)). rewrite exec_S. cbn [h_line mc_s]. change (mm_rx (m_set_msgs ?s ?l)) with (mm_rx s). rewrite X.
  assert (G' : get_msg (m_set_msgs (mc_s k) (upd (mm_msgs (mc_s k)) i (set_resp m r))) i = Ok (set_resp m r)).
  { unfold get_msg, aget. change (mm_msgs (m_set_msgs ?s ?l)) with l. rewrite Nat2Z.id. replace (Z.of_nat i <? 0) with false by (symmetry; apply Z.ltb_ge; lia). rewrite upd_nth_error_same by auto. reflexivity. }
  rewrite G'. cbn [bind m_resp set_resp]. rewrite put_msg_ok by (change (mm_msgs (m_set_msgs ?s ?l)) with l; now rewrite upd_length). cbn [bind].
  assert (LR : rr_len r = rr_len (m_resp m)). { unfold wr in W. destruct (rr_ptr (m_resp m)); [|discriminate]. destruct (aset _ _ _); cbn [bind] in W; inversion W. reflexivity. }
  replace (m_set_msgs (m_set_msgs (mc_s k) (upd (mm_msgs (mc_s k)) i (set_resp m r))) (upd (mm_msgs (m_set_msgs (mc_s k) (upd (mm_msgs (mc_s k)) i (set_resp m r)))) i (set_resp (set_resp m r) (set_len r (u8 (rr_len r + 1))))))
    with (m_set_msgs (mc_s k) (upd (mm_msgs (mc_s k)) i (set_resp m (set_len r (u8 (rr_len (m_resp m) + 1)))))).
  2:{ change (mm_msgs (m_set_msgs ?s ?l)) with l. rewrite upd_upd, LR. reflexivity. }
  set (s' := m_set_msgs (mc_s k) _). assert (Su : mm_sub s' = mm_sub (mc_s k)) by reflexivity. clearbody s'. cbn [mc_pc map].
  change (13 + n)%nat with (S (12 + n)). rewrite exec_S. cbn [h_line bind u_det]. set (k1 := mk_mconf s' (mc_pc k)).
  assert (T : forall k2 t, h_exec (11 + n) c (Some U132) k2 (mk_uart (u_cur u) (u_last u) (u_det u) (u_tdr u) None (u_txeie u) (u_rtof u) (u_cen u) (u_uif u)) = t ->
     t = let* '(k, u, t2) := w_usart_tx c k2 (mk_uart (u_cur u) (u_last u) (u_det u) (u_tdr u) None (u_txeie u) (u_rtof u) true (u_uif u)) in let* '(k, u, t3) := w_usart_rto c k u in Ok (k, u, t2 ++ t3)).
  { intros k2 t <-. change (11 + n)%nat with (S (10 + n)). rewrite exec_S. cbn [h_line bind]. change (10 + n)%nat with (S (9 + n)). rewrite exec_S. cbn [h_line bind u_cur u_last u_det u_tdr u_rdr u_txeie u_rtof u_cen u_uif]. rewrite exec_tx.
    match goal with |- context [w_usart_tx ?a ?b ?d] => destruct (w_usart_tx a b d) as [[[? ?] ?]| |] end; cbn [bind]; auto. match goal with |- context [w_usart_rto ?a ?b ?d] => destruct (w_usart_rto a b d) as [[[? ?] ?]| |] end; reflexivity. }
  destruct (u_det u) eqn:D; try rewrite D in T.
  - change (12 + n)%nat with (S (11 + n)). rewrite exec_S. cbn [h_line]. change (mm_sub (mc_s k1)) with (mm_sub s'). rewrite Su. destruct (mm_sub (mc_s k)) eqn:Q; [|reflexivity].
    destruct (w_event c MFrameErr k1) as [[k2 t2]| |] eqn:E2; cbn [bind]; auto.
    match goal with |- context [h_exec (11 + n) c (Some U132) ?a ?b] => rewrite (T a _ eq_refl) end.
    match goal with |- context [w_usart_tx ?a ?b ?d] => destruct (w_usart_tx a b d) as [[[? ?] ?]| |] end; cbn [bind]; auto. match goal with |- context [w_usart_rto ?a ?b ?d] => destruct (w_usart_rto a b d) as [[[? ?] ?]| |] end; cbn [bind app]; rewrite ?app_assoc; reflexivity.
  - change (12 + n)%nat with (1 + (11 + n))%nat. assert (T2 : forall k2, h_exec (1 + (11 + n)) c (Some U132) k2 (mk_uart (u_cur u) (u_last u) false (u_tdr u) None (u_txeie u) (u_rtof u) (u_cen u) (u_uif u)) =
     let* '(k, u, t2) := w_usart_tx c k2 (mk_uart (u_cur u) (u_last u) false (u_tdr u) None (u_txeie u) (u_rtof u) true (u_uif u)) in let* '(k, u, t3) := w_usart_rto c k u in Ok (k, u, t2 ++ t3)).
    { intros k2. change (1 + (11 + n))%nat with (S (11 + n)). rewrite exec_S. cbn [h_line bind]. change (11 + n)%nat with (S (10 + n)). rewrite exec_S. cbn [h_line bind u_cur u_last u_det u_tdr u_rdr u_txeie u_rtof u_cen u_uif]. change (10 + n)%nat with (9 + (1 + n))%nat. rewrite exec_tx.
      match goal with |- context [w_usart_tx ?a ?b ?d] => destruct (w_usart_tx a b d) as [[[? ?] ?]| |] end; cbn [bind]; auto. match goal with |- context [w_usart_rto ?a ?b ?d] => destruct (w_usart_rto a b d) as [[[? ?] ?]| |] end; reflexivity. }
    rewrite T2. cbn [bind].
    match goal with |- context [w_usart_tx ?a ?b ?d] => destruct (w_usart_tx a b d) as [[[? ?] ?]| |] end; cbn [bind]; auto. match goal with |- context [w_usart_rto ?a ?b ?d] => destruct (w_usart_rto a b d) as [[[? ?] ?]| |] end; reflexivity.
Qed.
Lemma exec_timer n c k u : h_exec (4 + n) c (Some V162) k u = w_timer c k u.
Proof.
  change (4 + n)%nat with (S (3 + n)). rewrite exec_S. cbn [h_line bind]. unfold w_timer. destruct (u_uif u); [|rewrite exec_none; reflexivity].
  change (3 + n)%nat with (S (2 + n)). rewrite exec_S. cbn [h_line]. destruct (mm_sub (mc_s k)); [|reflexivity]. destruct (w_event c MT35 k) as [[k1 t1]| |]; cbn [bind]; auto.
  change (2 + n)%nat with (S (1 + n)). rewrite exec_S. cbn [h_line bind]. change (1 + n)%nat with (S n). rewrite exec_S. cbn [h_line bind]. rewrite exec_none. cbn [bind app u_cur u_last u_det u_tdr u_rdr u_txeie u_rtof u_cen u_uif]. now rewrite app_nil_r.
Qed.

Definition rk (p : option hpc) : nat :=
  match p with
  | None => 0
  | Some U123 => 17 | Some U125 => 16 | Some (U125s _) => 15 | Some (U126 _) => 14 | Some U128 => 13 | Some U130 => 12 | Some U132 => 11 | Some U133 => 10
  | Some U135 => 9 | Some U137 => 8 | Some U139 => 7 | Some U140 => 6 | Some U145 => 7 | Some U146 => 6
  | Some U149 => 5 | Some U151 => 4 | Some U153 => 3 | Some U155 => 2 | Some U156 => 1
  | Some V162 => 4 | Some V164 => 3 | Some V165 => 2 | Some V167 => 1
  end%nat.
Ltac cases E := repeat (first
  [ match type of E with context [match ?x with Some _ => _ | None => _ end] => let Q := fresh "Q" in destruct x eqn:Q; cbn [bind] in E; try discriminate E end
  | match type of E with context [if ?x then _ else _] => let Q := fresh "Q" in destruct x eqn:Q; cbn [bind] in E; try discriminate E end
  | match type of E with context [bind ?x _] => let Q := fresh "Q" in destruct x eqn:Q; cbn [bind] in E; try discriminate E end
  | match type of E with context [let '(_, _) := ?x in _] => destruct x; cbn [bind] in E; try discriminate E end ]).
Lemma line_rank c p k u p' k' u' t : h_line c p k u = Ok (p', k', u', t) -> (rk p' < rk (Some p))%nat.
Proof. intros E. destruct p; cbn [h_line bind] in E; cases E; inversion E; subst; cbn; lia. Qed.
Lemma exec_mono c : forall n m p k u, (rk p <= n)%nat -> (rk p <= m)%nat -> h_exec n c p k u = h_exec m c p k u.
Proof.
  induction n as [|n IH]; intros m p k u Hn Hm.
  - destruct p as [p|]; [exfalso; destruct p; cbn in Hn; lia|]. now rewrite !exec_none.
  - destruct p as [p|]; [|now rewrite !exec_none]. destruct m as [|m]; [exfalso; destruct p; cbn in Hm; lia|].
    rewrite !exec_S. destruct (h_line c p k u) as [[[[p' k'] u'] t]| |] eqn:E; cbn [bind]; auto. pose proof (line_rank _ _ _ _ _ _ _ _ E). rewrite (IH m) by lia. reflexivity.
Qed.
Inductive reach (c : cfg) (p0 : hpc) (k0 : mconf) (u0 : uart) : option hpc -> mconf -> uart -> list witem -> Prop :=
| reach_start : reach c p0 k0 u0 (Some p0) k0 u0 []
| reach_step p k u o p' k' u' t : reach c p0 k0 u0 (Some p) k u o -> h_line c p k u = Ok (p', k', u', t) -> reach c p0 k0 u0 p' k' u' (o ++ t).
Lemma rk_max p : (rk p <= 17)%nat.
Proof. destruct p as [[]|]; cbn; lia. Qed.
Lemma reach_exec c p0 k0 u0 p k u o : reach c p0 k0 u0 p k u o -> h_exec 17 c (Some p0) k0 u0 = let* '(k2, u2, t2) := h_exec 17 c p k u in Ok (k2, u2, o ++ t2).
Proof.
  induction 1 as [|p k u o p' k' u' t H IH E].
  - destruct (h_exec 17 c (Some p0) k0 u0) as [[[? ?] ?]| |]; reflexivity.
  - rewrite IH. change 17%nat with (S 16) at 1. rewrite exec_S, E. cbn [bind]. pose proof (line_rank _ _ _ _ _ _ _ _ E). pose proof (rk_max (Some p)).
    rewrite (exec_mono c 16 17) by lia. destruct (h_exec 17 c p' k' u') as [[[? ?] ?]| |]; cbn [bind]; auto. now rewrite app_assoc.
Qed.
(** *** hardware events *)
Definition hw1 (x : wact) (u : uart) : uart :=
  match x with
  | WRx b => mk_uart (u_cur u) (u_last u) (u_det u) (u_tdr u) (Some (u8 b)) (u_txeie u) (u_rtof u) (u_cen u) (u_uif u)
  | WShift => mk_uart (u_cur u) (u_last u) (u_det u) None (u_rdr u) (u_txeie u) (u_rtof u) (u_cen u) (u_uif u)
  | WRto => mk_uart (u_cur u) (u_last u) (u_det u) (u_tdr u) (u_rdr u) (u_txeie u) true (u_cen u) (u_uif u)
  | WTim => mk_uart (u_cur u) (u_last u) (u_det u) (u_tdr u) (u_rdr u) (u_txeie u) (u_rtof u) false (u_cen u || u_uif u)
  | _ => u
  end.
Definition hw2 (x : wact) (u : uart) : list witem := match x with WShift => match u_tdr u with Some b => [WLine b] | None => [] end | _ => [] end.
Lemma hw_act c x w : is_hw x = true -> w_act c x w = Ok (mk_mfw (w_lib w) (hw1 x (w_u w)) (w_sub w), hw2 x (w_u w)).
Proof.
  intros H. destruct w as [k u s], x; try discriminate H; cbn [w_act w_lib w_u w_sub hw1 hw2]; auto.
  - destruct u as [a b d [t|] e f g h i]; reflexivity.
  - destruct u as [a b d t e f g [] i]; reflexivity.
Qed.
(** an event that counts as having happened before the handler, when the handler is about to execute [p] *)
Definition early (x : wact) (p : hpc) : bool :=
  match p with
  | V162 | V164 | V165 | V167 => true
  | _ => match x with
         | WRx _ => match p with U123 | U125 => true | _ => false end
         | WShift => match p with U145 | U146 | U149 | U151 | U153 | U155 | U156 => false | _ => true end
         | WTim => match p with U123 | U125 | U125s _ | U126 _ | U128 | U130 | U132 | U133 => true | _ => false end
         | _ => true
         end
  end.
Lemma early_kind x y p : is_hw x = true -> is_hw y = true -> early x p = true -> early y p = false -> kind y <> kind x.
Proof. intros A B C D E. destruct x, y; try discriminate; cbn [kind] in E; try discriminate E; destruct p; cbn in *; congruence. Qed.
Lemma late_line c x p k u : is_hw x = true -> early x p = false -> h_line c p k (hw1 x u) = let* '(p', k', u', t) := h_line c p k u in Ok (p', k', hw1 x u', t).
Proof.
  intros A B. destruct u as [a b d td rd te rf ce ui].
  destruct x; try discriminate A; destruct p; try discriminate B; cbn [h_line hw1 u_cur u_last u_det u_tdr u_rdr u_txeie u_rtof u_cen u_uif bind]; auto;
    try (destruct ce; reflexivity);
    repeat (first
      [ match goal with |- context [match ?x with Some _ => _ | None => _ end] => destruct x end
      | match goal with |- context [if ?x then _ else _] => destruct x end
      | match goal with |- context [bind (get_msg ?x ?y) _] => destruct (get_msg x y) end
      | match goal with |- context [bind (wr ?x ?y ?z) _] => destruct (wr x y z) end
      | match goal with |- context [bind (put_msg ?x ?y ?z) _] => destruct (put_msg x y z) end
      | match goal with |- context [bind (req_byte ?x ?y) _] => destruct (req_byte x y) end
      | match goal with |- context [bind (w_event ?x ?y ?z) _] => destruct (w_event x y z) as [[? ?]| |] end ]; cbn [bind]; auto).
Qed.
Lemma late_stays c x p k u p' k' u' t : is_hw x = true -> early x p = false -> h_line c p k u = Ok (p', k', u', t) ->
  hw2 x u' = hw2 x u /\ match p' with Some q => early x q = false | None => True end.
Proof.
  intros A B E. destruct x; try discriminate A; destruct p; try discriminate B; cbn [h_line bind] in E; cases E; inversion E; subst; cbn [hw2 early u_tdr]; auto.
Qed.
Lemma early_back c x p k u p' k' u' t : is_hw x = true -> h_line c p k u = Ok (Some p', k', u', t) -> early x p' = true ->
  early x p = true /\ h_line c p k (hw1 x u) = Ok (Some p', k', hw1 x u', t) /\ hw2 x u' = hw2 x u.
Proof.
  intros A E B. destruct x; try discriminate A; destruct p; cbn [h_line bind] in E; cases E; inversion E; subst; try discriminate B;
    cbn [early h_line hw1 hw2 bind u_cur u_last u_det u_tdr u_rdr u_txeie u_rtof u_cen u_uif];
    repeat match goal with H : ?x = _ |- context [?x] => rewrite H; cbn [bind] end; rewrite ?orb_true_r; auto.
Qed.

Fixpoint hws (l : list wact) (u : uart) : uart * list witem := match l with [] => (u, []) | x :: l => (fst (hws l (hw1 x u)), hw2 x u ++ snd (hws l (hw1 x u))) end.
Lemma run_hws c l : Forall (fun x => is_hw x = true) l -> forall w, w_run c l w = Ok (mk_mfw (w_lib w) (fst (hws l (w_u w))) (w_sub w), snd (hws l (w_u w))).
Proof.
  induction 1 as [|x l Hx _ IH]; intros w; cbn [w_run hws fst snd]; [destruct w; reflexivity|]. rewrite hw_act by auto. cbn [bind]. rewrite IH. reflexivity.
Qed.
Lemma hws_snoc l x : forall u, hws (l ++ [x]) u = (hw1 x (fst (hws l u)), snd (hws l u) ++ hw2 x (fst (hws l u))).
Proof. induction l as [|y l IH]; intros u; cbn [app hws fst snd]; [now rewrite app_nil_r|]. rewrite IH. cbn [fst snd]. now rewrite app_assoc. Qed.
Lemma hw_comm x y u : is_hw x = true -> is_hw y = true -> kind y <> kind x -> hw1 x (hw1 y u) = hw1 y (hw1 x u) /\ hw2 x (hw1 y u) = hw2 x u /\ hw2 y (hw1 x u) = hw2 y u /\ (hw2 x u = [] \/ forall v, hw2 y v = []).
Proof. intros A B N. destruct x, y; try discriminate; try (exfalso; apply N; reflexivity); cbn [hw1 hw2 u_cur u_last u_det u_tdr u_rdr u_txeie u_rtof u_cen u_uif]; auto. Qed.
Lemma hws_comm x l : is_hw x = true -> Forall (fun y => is_hw y = true /\ kind y <> kind x) l -> forall u,
  hws l (hw1 x u) = (hw1 x (fst (hws l u)), snd (hws l u)) /\ hw2 x (fst (hws l u)) = hw2 x u /\ (hw2 x u = [] \/ snd (hws l u) = []).
Proof.
  intros A. induction 1 as [|y l [B N] _ IH]; intros u; cbn [hws fst snd]; [auto|]. destruct (hw_comm x y u A B N) as (C1 & C2 & C3 & C4). rewrite <- C1, C3. destruct (IH (hw1 y u)) as (I1 & I2 & I3).
  rewrite I1. cbn [fst snd]. split; [reflexivity|]. split; [congruence|]. destruct C4 as [C4|C4]; [auto|]. rewrite C2 in I3. destruct I3 as [I3|I3]; [auto|]. right. rewrite C4, I3. reflexivity.
Qed.
Definition late (p : hpc) (x : wact) : Prop := is_hw x = true /\ early x p = false.
Lemma late_hws c p k aft : Forall (late p) aft -> forall u, h_line c p k (fst (hws aft u)) = let* '(p', k', u', t) := h_line c p k u in Ok (p', k', fst (hws aft u'), t).
Proof.
  induction 1 as [|x l [A B] _ IH]; intros u; cbn [hws fst]. - destruct (h_line c p k u) as [[[[? ?] ?] ?]| |]; reflexivity.
  - rewrite IH, late_line by auto. destruct (h_line c p k u) as [[[[? ?] ?] ?]| |]; reflexivity.
Qed.
Lemma late_outs c p k u p' k' u' t aft : Forall (late p) aft -> h_line c p k u = Ok (p', k', u', t) -> snd (hws aft u') = snd (hws aft u) /\ match p' with Some q => Forall (late q) aft | None => True end.
Proof.
  intros F. revert u u'. induction F as [|x l [A B] F IH]; intros u u' E; cbn [hws snd]; [split; auto; destruct p'; auto|]. destruct (late_stays _ _ _ _ _ _ _ _ _ A B E) as (X & Y).
  destruct (IH (hw1 x u) (hw1 x u')) as (I1 & I2). { rewrite late_line, E by auto. reflexivity. }
  rewrite X, I1. split; auto. destruct p'; auto. constructor; auto. now split.
Qed.
Lemma early_reach c x p0 k0 u0 p k u o : is_hw x = true -> reach c p0 k0 u0 p k u o -> match p with Some q => early x q = true | None => False end ->
  reach c p0 k0 (hw1 x u0) p k (hw1 x u) o /\ hw2 x u = hw2 x u0.
Proof.
  intros A. induction 1 as [|p k u o p' k' u' t H IH E]; intros B; [split; [constructor|auto]|]. destruct p' as [p'|]; [|contradiction].
  destruct (early_back _ _ _ _ _ _ _ _ _ A E B) as (B' & E' & X). destruct (IH B') as (I1 & I2). split; [econstructor; eauto|congruence].
Qed.
(** what a handler's statement leaves alone *)
Lemma ev_timer c e k k' t : w_event c e k = Ok (k', t) -> e <> MTick -> (forall a, e <> MReq a) -> mm_timer (mc_s k') = mm_timer (mc_s k) /\ mm_rx (mc_s k') = mm_rx (mc_s k) /\ m_on_line t = [].
Proof.
  unfold w_event. intros E N1 N2. bnd E. inversion E; subst. cbn [m_act] in Y. bnd Y. inversion Y; subst. cbn [mc_s]. rewrite m_on_line_lib. destruct (ev_fields _ _ _ _ _ Y0) as (_ & X & _). split; [|auto].
  destruct e; cbn [m_event] in Y0; try congruence; try (inversion Y0; subst; destruct (mm_sub (mc_s k)); reflexivity).
  destruct (mm_rx (mc_s k)); [|inversion Y0; reflexivity]. bnd Y0. bnd Y0. bnd Y0. inversion Y0; subst. apply sub_put in Y3. tauto.
Qed.
Lemma line_keeps c p k u p' k' u' t : h_line c p k u = Ok (p', k', u', t) -> mm_timer (mc_s k') = mm_timer (mc_s k) /\ mm_rx (mc_s k') = mm_rx (mc_s k) /\ m_on_line t = [].
Proof.
  intros E. destruct p; cbn [h_line bind] in E; cases E; inversion E; subst; auto; cbn [mc_s];
    repeat match goal with H : put_msg _ _ _ = Ok _ |- _ => apply sub_put in H; destruct H as (_ & ? & ?) | H : w_event _ _ _ = Ok _ |- _ => apply ev_timer in H; [|discriminate|discriminate] end; auto; (split; [congruence|split; [congruence|reflexivity]]).
Qed.
Lemma reach_keeps c p0 k0 u0 p k u o : reach c p0 k0 u0 p k u o -> mm_rx (mc_s k) = mm_rx (mc_s k0) /\ m_on_line o = [].
Proof. induction 1 as [|p k u o p' k' u' t H (I1 & I2) E]; [auto|]. destruct (line_keeps _ _ _ _ _ _ _ _ E) as (_ & A & B). rewrite m_on_line_app, B, I2. split; [congruence|auto]. Qed.

(** *** schedules *)
Lemma h_run_app c a : forall b h, h_run c (a ++ b) h = let* '(h1, t1) := h_run c a h in let* '(h2, t2) := h_run c b h1 in Ok (h2, t1 ++ t2).
Proof.
  induction a as [|x a IH]; intros b h; cbn [app h_run].
  - cbn [bind]. destruct (h_run c b h) as [[? ?]| |]; reflexivity.
  - destruct (h_act c x h) as [[h1 t1]| |]; cbn [bind]; auto. rewrite IH. destruct (h_run c a h1) as [[h2 t2]| |]; cbn [bind]; auto. destruct (h_run c b h2) as [[? ?]| |]; cbn [bind]; auto. now rewrite app_assoc.
Qed.
Lemma h_run_snoc c l a h h1 t1 : h_run c l h = Ok (h1, t1) -> h_run c (l ++ [a]) h = let* '(h2, t2) := h_act c a h1 in Ok (h2, t1 ++ t2).
Proof. intros E. rewrite h_run_app, E. cbn [bind h_run]. destruct (h_act c a h1) as [[h2 t2]| |]; cbn [bind]; auto. now rewrite app_nil_r. Qed.
Lemma w_run_snoc c l a h h1 t1 : w_run c l h = Ok (h1, t1) -> w_run c (l ++ [a]) h = let* '(h2, t2) := w_act c a h1 in Ok (h2, t1 ++ t2).
Proof. intros E. rewrite w_run_app, E. cbn [bind w_run]. destruct (w_act c a h1) as [[h2 t2]| |]; cbn [bind]; auto. now rewrite app_nil_r. Qed.
Lemma acts_snoc c a : forall l h h1 t1, h_run c l h = Ok (h1, t1) -> acts_of c (l ++ [a]) h = acts_of c l h ++ act_of a h1.
Proof.
  induction l as [|x l IH]; intros h h1 t1 E; cbn [app acts_of h_run] in *.
  - inversion E; subst. destruct (h_act c a h1) as [[? ?]| |]; now rewrite app_nil_r.
  - destruct (h_act c x h) as [[h2 t2]| |]; try discriminate. cbn [bind] in E. destruct (h_run c l h2) as [[h3 t3]| |] eqn:R; try discriminate. cbn [bind] in E. inversion E; subst. rewrite (IH _ _ _ R). now rewrite app_assoc.
Qed.
Lemma moved_app l m a : moved l m -> moved (l ++ a) (m ++ a).
Proof. induction 1; [constructor|econstructor; eauto|]. rewrite <- !app_assoc. cbn [app]. now constructor. Qed.
Lemma moved_back l0 y aft x : is_hw x = true -> (y = WUsart \/ y = WTimer) -> Forall (fun z => is_hw z = true /\ kind z <> kind x) aft -> moved (l0 ++ y :: aft ++ [x]) (l0 ++ x :: y :: aft).
Proof.
  intros A B F. apply moved_trans with (l0 ++ y :: x :: aft); [|now constructor; auto; destruct B; auto].
  assert (G : forall pre, moved (pre ++ aft ++ [x]) (pre ++ x :: aft)).
  { clear B. induction F as [|z l [C D] _ IH]; intros pre; [constructor|]. apply moved_trans with (pre ++ z :: x :: l).
    - specialize (IH (pre ++ [z])). rewrite <- !app_assoc in IH. exact IH.
    - constructor; auto. }
  specialize (G (l0 ++ [y])). rewrite <- !app_assoc in G. exact G.
Qed.
Lemma moved_in l m : moved l m -> forall x, In x m <-> In x l.
Proof. induction 1; intros z; [tauto|rewrite IHmoved2, IHmoved1; tauto|]. rewrite !in_app_iff. cbn. tauto. Qed.

(** *** the simulation *)
Section Sim.
Context (c : cfg) (h0 : hfw).
Definition same_place (w w' : mfw) : Prop := w_sub w = w_sub w' /\ mm_rx (mc_s (w_lib w)) = mm_rx (mc_s (w_lib w')).
Definition wit (fs : list hact) (x : wact) (w : mfw) : Prop := exists f1 y f2 h1 u1, fs = f1 ++ y :: f2 /\ h_run c f1 h0 = Ok (h1, u1) /\ In x (act_of y h1) /\ same_place (h_fw h1) w.
Definition lib_seen (fs : list hact) (L : list mitem) : Prop := exists f1 f2 h1 u1, fs = f1 ++ f2 /\ h_run c f1 h0 = Ok (h1, u1) /\ m_lib_of u1 = L.
Definition allwit (fs : list hact) (ws : list wact) : Prop :=
  forall l1 x l2 w1 t1, ws = l1 ++ x :: l2 -> w_run c l1 (h_fw h0) = Ok (w1, t1) -> wit fs x w1 /\ lib_seen fs (m_lib_of t1).
Definition begins (H : wact) (p0 : hpc) (k0 : mconf) (u0 : uart) : Prop := H = WUsart /\ p0 = U123 /\ w_pending k0 u0 = true \/ H = WTimer /\ p0 = V162.
Inductive inv (fs : list hact) (h : hfw) (t : list witem) : Prop :=
| inv_free ws t' : h_irq h = None -> w_run c ws (h_fw h0) = Ok (h_fw h, t') -> m_lib_of t' = m_lib_of t -> m_on_line t' = m_on_line t ->
    moved (acts_of c fs h0) ws -> allwit fs ws -> inv fs h t
| inv_in p H p0 l0 t0 k0 u0 sub k1 u1 th aft : h_irq h = Some p -> w_run c l0 (h_fw h0) = Ok (mk_mfw k0 u0 sub, t0) -> allwit fs l0 -> begins H p0 k0 u0 ->
    reach c p0 k0 u0 (Some p) k1 u1 th -> h_fw h = mk_mfw k1 (fst (hws aft u1)) sub -> Forall (late p) aft ->
    m_lib_of t = m_lib_of t0 ++ m_lib_of th -> m_on_line t = m_on_line t0 ++ m_on_line (snd (hws aft u1)) ->
    moved (acts_of c fs h0) (l0 ++ H :: aft) -> wit fs H (mk_mfw k0 u0 sub) -> Forall (fun x => wit fs x (mk_mfw k0 u0 sub)) aft -> lib_seen fs (m_lib_of t0) -> inv fs h t.
Definition side (h : hfw) : Prop :=
  let k := w_lib (h_fw h) in
  (h_rxne h = true \/ h_cr1 h <> None -> mm_rx (mc_s k) <> None) /\
  match h_tick h with Some K389 => mm_timer (mc_s k) <> 0 | Some (K389s v) => v = mm_timer (mc_s k) /\ mm_timer (mc_s k) <> 0 | _ => True end.
Lemma wit_more fs a x w : wit fs x w -> wit (fs ++ [a]) x w.
Proof. intros (f1 & y & f2 & h1 & u1 & -> & E). exists f1, y, (f2 ++ [a]), h1, u1. rewrite <- app_assoc. auto. Qed.
Lemma lib_more fs a L : lib_seen fs L -> lib_seen (fs ++ [a]) L.
Proof. intros (f1 & f2 & h1 & u1 & -> & E). exists f1, (f2 ++ [a]), h1, u1. rewrite <- app_assoc. auto. Qed.
Lemma allwit_more fs a ws : allwit fs ws -> allwit (fs ++ [a]) ws.
Proof. intros A l1 x l2 w1 t1 E R. destruct (A _ _ _ _ _ E R). auto using wit_more, lib_more. Qed.
Lemma wit_now fs h t a x w : h_run c fs h0 = Ok (h, t) -> In x (act_of a h) -> same_place (h_fw h) w -> wit (fs ++ [a]) x w.
Proof. intros R I Q. exists fs, a, [], h, t. auto. Qed.
Lemma lib_now fs h t a : h_run c fs h0 = Ok (h, t) -> lib_seen (fs ++ [a]) (m_lib_of t).
Proof. intros R. exists fs, [a], h, t. auto. Qed.
Lemma allwit_snoc fs ws x w t : allwit fs ws -> w_run c ws (h_fw h0) = Ok (w, t) -> wit fs x w -> lib_seen fs (m_lib_of t) -> allwit fs (ws ++ [x]).
Proof.
  intros A R W L l1 y l2 w1 t1 E R1. destruct l2 as [|z l2].
  - apply app_inj_tail in E as (-> & ->). rewrite R in R1. inversion R1; subst. auto.
  - destruct (exists_last (l := z :: l2) ltac:(discriminate)) as (l3 & q & Q). rewrite Q in E. change (l1 ++ y :: l3 ++ [q]) with (l1 ++ (y :: l3) ++ [q]) in E. rewrite app_assoc in E. apply app_inj_tail in E as (-> & ->). eapply A; eauto.
Qed.
Lemma same_refl w : same_place w w. Proof. split; auto. Qed.
Lemma inv_nothing fs h t a h' : h_run c fs h0 = Ok (h, t) -> inv fs h t -> act_of a h = [] -> h_fw h' = h_fw h -> h_irq h' = h_irq h -> inv (fs ++ [a]) h' (t ++ []).
Proof.
  intros R I N F Q. rewrite app_nil_r. destruct I.
  - eapply inv_free; [congruence|rewrite F; eauto|auto|auto| |now apply allwit_more]. erewrite acts_snoc by eauto. now rewrite N, app_nil_r.
  - eapply inv_in; [rewrite Q; eauto|eauto|apply allwit_more; auto|eauto|eauto|rewrite F; eauto|auto|auto|auto| |now apply wit_more| |now apply lib_more].
    + erewrite acts_snoc by eauto. now rewrite N, app_nil_r.
    + eapply Forall_impl; [|eauto]. intros x. apply wit_more.
Qed.
Definition fails (fs : list hact) (r : outcome (mfw * list witem)) : Prop :=
  exists l0 x w1 t1, w_run c l0 (h_fw h0) = Ok (w1, t1) /\ w_act c x w1 = r /\ allwit fs (l0 ++ [x]).
Lemma inv_one fs h t a x w' t' h' : h_run c fs h0 = Ok (h, t) -> inv fs h t -> h_irq h = None -> act_of a h = [x] -> w_act c x (h_fw h) = Ok (w', t') -> h_fw h' = w' -> h_irq h' = None ->
  inv (fs ++ [a]) h' (t ++ t').
Proof.
  intros R I Q N E F Q'. destruct I; [|congruence]. subst w'. eapply inv_free with (ws := ws ++ [x]) (t' := t'0 ++ t'); auto.
  - rewrite (w_run_snoc _ _ _ _ _ _ H0), E. reflexivity.
  - rewrite !m_lib_of_app. congruence.
  - rewrite !m_on_line_app. congruence.
  - erewrite acts_snoc by eauto. rewrite N. now apply moved_app.
  - eapply allwit_snoc; eauto using allwit_more. + eapply wit_now; eauto using same_refl. rewrite N. now left.
    + rewrite H1. eapply lib_now; eauto.
Qed.
Lemma inv_fail fs h t a x r : h_run c fs h0 = Ok (h, t) -> inv fs h t -> h_irq h = None -> act_of a h = [x] -> w_act c x (h_fw h) = r -> fails (fs ++ [a]) r.
Proof.
  intros R I Q N E. destruct I; [|congruence]. exists ws, x, (h_fw h), t'. split; [auto|]. split; [auto|]. eapply allwit_snoc; eauto using allwit_more. + eapply wit_now; eauto using same_refl. rewrite N. now left.
  + rewrite H1. eapply lib_now; eauto.
Qed.
Lemma inv_begin fs h t a H p0 h' : h_run c fs h0 = Ok (h, t) -> inv fs h t -> h_irq h = None -> act_of a h = [H] -> begins H p0 (w_lib (h_fw h)) (w_u (h_fw h)) -> h_fw h' = h_fw h -> h_irq h' = Some p0 ->
  inv (fs ++ [a]) h' (t ++ []).
Proof.
  intros R I Q N B F Q'. rewrite app_nil_r. destruct I; [|congruence]. assert (W : h_fw h = mk_mfw (w_lib (h_fw h)) (w_u (h_fw h)) (w_sub (h_fw h))) by (destruct (h_fw h); reflexivity).
  eapply inv_in with (l0 := ws) (aft := []); [eauto|rewrite <- W; eauto|now apply allwit_more|eauto|apply reach_start|rewrite F; exact W|constructor| | | | |constructor|].
  - cbn. now rewrite app_nil_r.
  - cbn. now rewrite app_nil_r.
  - erewrite acts_snoc by eauto. rewrite N. now apply moved_app.
  - rewrite <- W. eapply wit_now; eauto using same_refl. rewrite N. now left.
  - rewrite H2. eapply lib_now; eauto.
Qed.
Lemma begins_exec H p0 k0 u0 sub : begins H p0 k0 u0 -> w_act c H (mk_mfw k0 u0 sub) = let* '(k', u', t) := h_exec 17 c (Some p0) k0 u0 in Ok (mk_mfw k' u' sub, t).
Proof.
  intros [(-> & -> & P)|(-> & ->)]; cbn [w_act w_lib w_u w_sub].
  - rewrite P. rewrite <- (exec_rx 0). reflexivity.
  - rewrite <- (exec_timer 13). reflexivity.
Qed.
Lemma allwit_in fs l0 H aft k0 u0 sub t0 t : allwit fs l0 -> w_run c l0 (h_fw h0) = Ok (mk_mfw k0 u0 sub, t0) -> Forall (fun x => is_hw x = true) aft -> wit fs H (mk_mfw k0 u0 sub) -> Forall (fun x => wit fs x (mk_mfw k0 u0 sub)) aft ->
  lib_seen fs (m_lib_of t0) -> (forall w t1, w_act c H (mk_mfw k0 u0 sub) = Ok (w, t1) -> same_place (mk_mfw k0 u0 sub) w /\ m_lib_of t0 ++ m_lib_of t1 = m_lib_of t) -> lib_seen fs (m_lib_of t) -> allwit fs (l0 ++ H :: aft).
Proof.
  intros A R Hw W F L E LT l1 x l2 w1 t1 Q R1.
  assert (D : (exists l3, l0 = l1 ++ x :: l3) \/ (l1 = l0 /\ x = H) \/ exists a1 a2, l1 = l0 ++ H :: a1 /\ aft = a1 ++ x :: a2).
  { clear - Q. revert l0 Q. induction l1 as [|y l1 IH]; intros l0 Q.
    - destruct l0 as [|z l0]; cbn [app] in Q; inversion Q; subst; [right; left; auto|left; exists l0; auto].
    - destruct l0 as [|z l0]; cbn [app] in Q; inversion Q; subst; [right; right; exists l1, l2; auto|]. destruct (IH _ H2) as [(l3 & ->)|[(-> & ->)|(a1 & a2 & -> & ->)]]; [left; exists l3; auto|right; left; auto|right; right; exists a1, a2; auto]. }
  destruct D as [(l3 & ->)|[(-> & ->)|(a1 & a2 & -> & ->)]].
  - eapply A; eauto.
  - rewrite R in R1. inversion R1; subst. auto.
  - rewrite w_run_app, R in R1. cbn [bind w_run] in R1. destruct (w_act c H (mk_mfw k0 u0 sub)) as [[w2 t2]| |] eqn:E2; try discriminate R1. cbn [bind] in R1. destruct (E _ _ eq_refl) as ((S1 & S2) & EL).
    apply Forall_app in Hw as (Hw1 & _). rewrite run_hws in R1 by auto. cbn [bind] in R1. inversion R1; subst. apply Forall_app in F as (_ & F). inversion F; subst. split.
    + destruct H2 as (f1 & y & f2 & h1 & u1 & B1 & B2 & B3 & (B4 & B5)). exists f1, y, f2, h1, u1. repeat (split; auto); cbn [w_sub w_lib mc_s] in *; congruence.
    + rewrite !m_lib_of_app. assert (Z : forall l u, m_lib_of (snd (hws l u)) = []). { clear. induction l as [|x l IH]; intros u; cbn [hws snd]; [reflexivity|]. rewrite m_lib_of_app, IH. destruct x; cbn; auto. destruct (u_tdr u); reflexivity. }
      rewrite Z, app_nil_r, EL. exact LT.
Qed.

(** a handler's statement *)
Lemma inv_line fs h t p : h_run c fs h0 = Ok (h, t) -> inv fs h t -> h_irq h = Some p ->
  match h_line c p (w_lib (h_fw h)) (w_u (h_fw h)) with
  | Ok (p', k', u', t') => forall h', h_fw h' = mk_mfw k' u' (w_sub (h_fw h)) -> h_irq h' = p' -> h_run c (fs ++ [HStep]) h0 = Ok (h', t ++ t') -> inv (fs ++ [HStep]) h' (t ++ t')
  | UB => fails (fs ++ [HStep]) UB
  | Diverge => fails (fs ++ [HStep]) Diverge
  end.
Proof.
  intros R I Q. destruct I as [|q H p0 l0 t0 k0 u0 sub k1 u1 th aft Q' R0 A B Re F La EL EO M W Wa LS]; [congruence|]. rewrite Q in Q'. inversion Q'; subst q. clear Q'.
  rewrite F. cbn [w_lib w_u w_sub]. rewrite late_hws by auto. pose proof (begins_exec H p0 k0 u0 sub B) as X. rewrite (reach_exec _ _ _ _ _ _ _ _ Re) in X.
  assert (N : act_of HStep h = []) by (cbn [act_of]; now rewrite Q).
  assert (Bad : forall r, h_exec 17 c (Some p) k1 u1 = r -> (r = UB -> fails (fs ++ [HStep]) UB) /\ (r = Diverge -> fails (fs ++ [HStep]) Diverge)).
  { intros r Er. split; intros ->; rewrite Er in X; cbn [bind] in X; exists l0, H, (mk_mfw k0 u0 sub), t0; (split; [auto|]; split; [auto|]; eapply allwit_snoc; eauto using allwit_more, wit_more, lib_more). }
  assert (Ex : h_exec 17 c (Some p) k1 u1 = let* '(p', k', u', t) := h_line c p k1 u1 in let* '(k2, u2, t2) := h_exec 16 c p' k' u' in Ok (k2, u2, t ++ t2)) by reflexivity.
  destruct (h_line c p k1 u1) as [[[[p' k'] u'] t']| |] eqn:E; cbn [bind] in Ex |- *; [|exact (proj1 (Bad _ Ex) eq_refl)|exact (proj2 (Bad _ Ex) eq_refl)].
  intros h' F' Q' R'. destruct (late_outs _ _ _ _ _ _ _ _ _ La E) as (O1 & O2). destruct (line_keeps _ _ _ _ _ _ _ _ E) as (_ & _ & OL).
  assert (Re' := reach_step _ _ _ _ _ _ _ _ _ _ _ _ Re E). clear Bad Ex X.
  assert (M' : moved (acts_of c (fs ++ [HStep]) h0) (l0 ++ H :: aft)) by (erewrite acts_snoc by eauto; now rewrite N, app_nil_r).
  assert (Hw : Forall (fun x => is_hw x = true) aft) by (eapply Forall_impl; [|exact La]; intros x (Y & _); exact Y).
  destruct p' as [p'|].
  - eapply inv_in with (l0 := l0) (aft := aft); [eauto|eauto|now apply allwit_more|eauto|exact Re'|exact F'|exact O2| | |exact M'|now apply wit_more| |now apply lib_more].
    + rewrite !m_lib_of_app, EL. now rewrite app_assoc.
    + rewrite m_on_line_app, OL, app_nil_r, O1. exact EO.
    + eapply Forall_impl; [|exact Wa]. intros x. apply wit_more.
  - assert (Ac : w_act c H (mk_mfw k0 u0 sub) = Ok (mk_mfw k' u' sub, th ++ t')) by (rewrite begins_exec with (p0 := p0) by auto; rewrite (reach_exec _ _ _ _ _ _ _ _ Re'), exec_none; cbn [bind]; now rewrite app_nil_r).
    destruct (reach_keeps _ _ _ _ _ _ _ _ Re') as (K1 & K2).
    assert (Zl : forall l u, m_lib_of (snd (hws l u)) = []). { clear. induction l as [|x l IH]; intros u; cbn [hws snd]; [reflexivity|]. rewrite m_lib_of_app, IH. destruct x; cbn; auto. destruct (u_tdr u); reflexivity. }
    eapply inv_free with (ws := l0 ++ H :: aft) (t' := t0 ++ (th ++ t') ++ snd (hws aft u')); [auto| | | |exact M'|].
    + rewrite w_run_app, R0. cbn [bind w_run]. rewrite Ac. cbn [bind]. rewrite run_hws by auto. cbn [bind w_lib w_u w_sub]. now rewrite F'.
    + rewrite !m_lib_of_app, Zl, EL, app_nil_r. now rewrite !app_assoc.
    + rewrite m_on_line_app, OL, app_nil_r in K2. rewrite !m_on_line_app, O1, EO, OL, K2, !app_nil_r. reflexivity.
    + eapply allwit_in with (t0 := t0) (t := t ++ t'); eauto using allwit_more, wit_more, lib_more.
      * eapply Forall_impl; [|exact Wa]. intros x. apply wit_more.
      * intros w t1 E1. rewrite Ac in E1. inversion E1; subst. split; [split; cbn; auto|]. rewrite !m_lib_of_app, EL. now rewrite app_assoc.
      * exists (fs ++ [HStep]), [], h', (t ++ t'). rewrite app_nil_r. auto.
Qed.
(** a hardware event while a handler runs *)
Lemma pending_more k u x : is_hw x = true -> w_pending k u = true -> w_pending k (hw1 x u) = true.
Proof.
  unfold w_pending. intros A. destruct x; try discriminate; cbn [hw1 u_cur u_last u_det u_tdr u_rdr u_txeie u_rtof u_cen u_uif]; auto.
  - destruct (u_rdr u), (mm_rx (mc_s k)); cbn [orb]; auto.
  - destruct (u_tdr u), (u_rdr u), (mm_rx (mc_s k)), (u_txeie u), (u_rtof u); cbn [orb]; auto.
  - intros _. apply orb_true_r.
Qed.
Lemma inv_hw fs h t p x h' : h_run c fs h0 = Ok (h, t) -> inv fs h t -> h_irq h = Some p -> is_hw x = true -> h_fw h' = mk_mfw (w_lib (h_fw h)) (hw1 x (w_u (h_fw h))) (w_sub (h_fw h)) -> h_irq h' = Some p ->
  inv (fs ++ [HHw x]) h' (t ++ hw2 x (w_u (h_fw h))).
Proof.
  intros R I Q Hx F' Q'. destruct I as [|q H p0 l0 t0 k0 u0 sub k1 u1 th aft Qq R0 A B Re F La EL EO M W Wa LS]; [congruence|]. rewrite Q in Qq. inversion Qq; subst q. clear Qq.
  assert (N : act_of (HHw x) h = [x]) by (cbn [act_of]; now rewrite Hx).
  assert (Wx : wit (fs ++ [HHw x]) x (mk_mfw k0 u0 sub)).
  { eapply wit_now; eauto. - rewrite N. now left. - rewrite F. destruct (reach_keeps _ _ _ _ _ _ _ _ Re). split; cbn; auto. }
  rewrite F in F' |- *. cbn [w_lib w_u w_sub] in *.
  assert (Lx : forall u, m_lib_of (hw2 x u) = []). { intros u. destruct x; cbn; auto. destruct (u_tdr u); reflexivity. }
  destruct (early x p) eqn:Ey.
  - assert (Co : Forall (fun y => is_hw y = true /\ kind y <> kind x) aft). { eapply Forall_impl; [|exact La]. intros y (Y1 & Y2). split; auto. eapply early_kind; eauto. }
    destruct (hws_comm x aft Hx Co u1) as (C1 & C2 & C3). destruct (early_reach _ x _ _ _ _ _ _ _ Hx Re Ey) as (Re' & O).
    eapply inv_in with (l0 := l0 ++ [x]) (H := H) (p0 := p0) (t0 := t0 ++ hw2 x u0) (k0 := k0) (u0 := hw1 x u0) (k1 := k1) (u1 := hw1 x u1) (th := th) (aft := aft); [exact Q'| | | |exact Re'| |exact La| | | | | |].
    + rewrite (w_run_snoc _ _ _ _ _ _ R0), hw_act by auto. reflexivity.
    + eapply allwit_snoc; eauto using allwit_more, lib_more.
    + destruct B as [(-> & -> & B)|(-> & ->)]; [left; auto using pending_more|right; auto].
    + rewrite C1. exact F'.
    + rewrite !m_lib_of_app, !Lx, !app_nil_r. exact EL.
    + rewrite !m_on_line_app, C1. cbn [snd]. rewrite EO, C2, O. rewrite <- !app_assoc. f_equal. rewrite <- O. destruct C3 as [-> | ->]; cbn; now rewrite ?app_nil_r.
    + erewrite acts_snoc by eauto. rewrite N. apply moved_trans with ((l0 ++ H :: aft) ++ [x]); [now apply moved_app|]. rewrite <- !app_assoc. cbn [app]. apply moved_back; auto. destruct B as [(-> & _)|(-> & _)]; auto.
    + destruct (wit_more fs (HHw x) _ _ W) as (f1 & y & f2 & h1 & v1 & X). exists f1, y, f2, h1, v1. exact X.
    + eapply Forall_impl; [|exact Wa]. intros y Y. destruct (wit_more fs (HHw x) _ _ Y) as (f1 & z & f2 & h1 & v1 & X). exists f1, z, f2, h1, v1. exact X.
    + rewrite m_lib_of_app, Lx, app_nil_r. now apply lib_more.
  - eapply inv_in with (l0 := l0) (aft := aft ++ [x]); [exact Q'|exact R0|now apply allwit_more|exact B|exact Re| | | | | |now apply wit_more| |now apply lib_more].
    + rewrite hws_snoc. exact F'.
    + apply Forall_app. split; auto. constructor; auto. split; auto.
    + rewrite m_lib_of_app, Lx, app_nil_r. exact EL.
    + rewrite hws_snoc, !m_on_line_app. cbn [snd]. rewrite EO, m_on_line_app, app_assoc. reflexivity.
    + erewrite acts_snoc by eauto. rewrite N. change (l0 ++ H :: aft ++ [x]) with (l0 ++ (H :: aft) ++ [x]). rewrite app_assoc. now apply moved_app.
    + apply Forall_app. split; [eapply Forall_impl; [|exact Wa]; intros y; apply wit_more|]. auto.
Qed.
Lemma main_rx w w' t : w_act c WMain w = Ok (w', t) -> (mm_rx (mc_s (w_lib w)) <> None \/ at405 w = true) -> mm_rx (mc_s (w_lib w')) <> None.
Proof.
  cbn [w_act]. intros E [D|D].
  - destruct (w_sub w); [destruct (w_send_line w0 (w_lib w) (w_u w)) as [[? ?]| |]; try discriminate; cbn [bind] in E; inversion E; subst; exact D|].
    destruct (m_act c MStep (w_lib w)) as [[k' o]| |] eqn:M; try discriminate. cbn [bind] in E. bnd E. inversion E; subst. cbn [w_lib]. clear - M D. cbn [m_act] in M. destruct (mc_pc (w_lib w)); [|inversion M; subst; exact D].
    bnd M. inversion M; subst. eapply line_rx; eauto.
  - unfold at405 in D. destruct (w_sub w); [discriminate|]. destruct (mc_pc (w_lib w)) as [[]|] eqn:P; try discriminate.
    cbn [m_act] in E. rewrite P in E. cbn [m_line] in E. destruct (cur_msg _) as [[i ?]| |]; try discriminate E. cbn [bind] in E. destruct (mm_drv _); try discriminate E. cbn [bind] in E. inversion E; subst. discriminate.
Qed.
Lemma sim_step fs h t a : h_run c fs h0 = Ok (h, t) -> inv fs h t -> side h -> (a = HMain -> forall v, h_cr1 h = Some (E96s v) -> u_txeie (w_u (h_fw h)) = v) ->
  match h_act c a h with
  | Ok (h', t') => inv (fs ++ [a]) h' (t ++ t') /\ side h'
  | UB => fails (fs ++ [a]) UB
  | Diverge => fails (fs ++ [a]) Diverge
  end.
Proof.
  intros R I (S1 & S2) CR.
  assert (NH : no_handler h = true -> h_irq h = None /\ h_tick h = None) by (unfold no_handler; destruct (h_irq h), (h_tick h); try discriminate; auto).
  assert (One : forall x h'', h_irq h = None -> act_of a h = [x] -> match w_act c x (h_fw h) with
     | Ok (w', t') => h_fw h'' = w' -> h_irq h'' = None -> inv (fs ++ [a]) h'' (t ++ t') | UB => fails (fs ++ [a]) UB | Diverge => fails (fs ++ [a]) Diverge end).
  { intros x h'' Q N. destruct (w_act c x (h_fw h)) as [[w' t']| |] eqn:E; [intros; eapply inv_one; eauto|eapply inv_fail; eauto|eapply inv_fail; eauto]. }
  destruct a as [|r| | | | |x].
  - cbn [h_act]. destruct (no_handler h) eqn:NHe; [|split; [eapply inv_nothing; eauto; cbn [act_of]; now rewrite NHe|split; auto]]. destruct (NH eq_refl) as (Q1 & Q2).
    destruct (h_cr1 h) as [[|v]|] eqn:C1.
    + split; [eapply inv_nothing; eauto; cbn [act_of]; now rewrite NHe, C1|split; cbn [h_fw h_rxne h_cr1 h_tick]; auto]. intros _. apply S1. right. discriminate.
    + rewrite <- (CR eq_refl v eq_refl). split; [eapply inv_nothing; eauto; cbn [act_of h_fw h_irq]; rewrite ?NHe, ?C1; auto; destruct (h_fw h) as [k [] s]; reflexivity|]. split; cbn [h_fw h_rxne h_cr1 h_tick w_lib]; auto. intros _. apply S1. right. discriminate.
    + assert (N : act_of HMain h = [WMain]) by (cbn [act_of]; now rewrite NHe, C1). destruct (w_act c WMain (h_fw h)) as [[w' t']| |] eqn:E; cbn [bind].
      * specialize (One WMain (mk_hfw w' (h_rxne h) None None (if at405 (h_fw h) then Some E96 else None)) Q1 N). rewrite E in One. split; [apply One; reflexivity|]. split; cbn [h_fw h_rxne h_cr1 h_tick]; auto.
        intros [D|D]; eapply main_rx; eauto. destruct (at405 (h_fw h)); [auto|congruence].
      * specialize (One WMain h Q1 N). now rewrite E in One.
      * specialize (One WMain h Q1 N). now rewrite E in One.
  - cbn [h_act]. destruct (no_handler h) eqn:NHe; [|split; [eapply inv_nothing; eauto; cbn [act_of]; now rewrite NHe|split; auto]]. destruct (NH eq_refl) as (Q1 & Q2).
    assert (N : act_of (HReq r) h = [WReq r]) by (cbn [act_of]; now rewrite NHe). destruct (w_act c (WReq r) (h_fw h)) as [[w' t']| |] eqn:E; cbn [bind].
    + specialize (One (WReq r) (mk_hfw w' (h_rxne h) None None (h_cr1 h)) Q1 N). rewrite E in One. split; [apply One; reflexivity|]. split; cbn [h_fw h_rxne h_cr1 h_tick]; auto.
      intros D. specialize (S1 D). cbn [w_act] in E. destruct (w_event c (MReq r) (w_lib (h_fw h))) as [[k' o]| |] eqn:E2; try discriminate. cbn [bind] in E. inversion E; subst. cbn [w_lib].
      unfold w_event in E2. bnd E2. inversion E2; subst. cbn [m_act] in Y. bnd Y. inversion Y; subst. cbn [mc_s]. destruct (ev_fields _ _ _ _ _ Y0) as (_ & -> & _). exact S1.
    + specialize (One (WReq r) h Q1 N). now rewrite E in One.
    + specialize (One (WReq r) h Q1 N). now rewrite E in One.
  - cbn [h_act]. destruct (h_irq h) eqn:Q; [split; [eapply inv_nothing; eauto; cbn [act_of]; now rewrite Q|split; auto]|]. destruct (h_pending h) eqn:P; [|split; [eapply inv_nothing; eauto; cbn [act_of]; now rewrite Q, P|split; auto]].
    split; [|split; auto]. eapply inv_begin with (H := WUsart); eauto; cbn [act_of]; rewrite ?Q, ?P; auto; try reflexivity. left. split; [auto|]. split; [auto|]. clear - P S1. unfold h_pending in P. unfold w_pending.
    destruct (u_rdr (w_u (h_fw h))); [|exact P]. destruct (h_rxne h); cbn [orb] in P.
    + destruct (mm_rx _) eqn:X; [reflexivity|]. exfalso. now apply S1; auto.
    + apply orb_true_iff in P as [P|P]; rewrite P, ?orb_true_r; auto.
  - cbn [h_act]. destruct (h_irq h) eqn:Q; [split; [eapply inv_nothing; eauto; cbn [act_of]; now rewrite Q|split; auto]|]. destruct (u_uif (w_u (h_fw h))) eqn:P; [|split; [eapply inv_nothing; eauto; cbn [act_of]; now rewrite Q, P|split; auto]].
    split; [|split; auto]. eapply inv_begin with (H := WTimer); eauto; cbn [act_of]; rewrite ?Q, ?P; auto; try reflexivity. right. auto.
  - cbn [h_act]. destruct (no_handler h) eqn:NHe; [destruct (NH eq_refl) as (Q1 & Q2)|]; (split; [eapply inv_nothing; eauto|split; cbn [h_fw h_rxne h_cr1 h_tick]; auto]).
  - cbn [h_act]. destruct (h_irq h) as [p|] eqn:Q.
    + pose proof (inv_line fs h t p R I Q) as L. destruct (h_line c p (w_lib (h_fw h)) (w_u (h_fw h))) as [[[[p' k'] u'] t']| |] eqn:E; cbn [bind]; auto.
      destruct (line_keeps _ _ _ _ _ _ _ _ E) as (K1 & K2 & _). split.
      * apply L; auto. rewrite (h_run_snoc _ _ _ _ _ _ R). cbn [h_act]. rewrite Q, E. reflexivity.
      * split; cbn [h_fw h_rxne h_cr1 h_tick w_lib]; rewrite ?K1, ?K2; auto.
    + destruct (h_tick h) as [p|] eqn:T; [|split; [eapply inv_nothing; eauto; cbn [act_of]; now rewrite Q, T|split; rewrite ?T; auto]].
      assert (Tk : forall k' t', t_line p (w_lib (h_fw h)) = (None, k', t') -> w_act c WTick (h_fw h) = Ok (mk_mfw k' (w_u (h_fw h)) (w_sub (h_fw h)), t')).
      { intros k' t' E. cbn [w_act]. unfold w_event. cbn [m_act m_event bind]. destruct p; cbn [t_line] in E.
        - destruct (negb (mm_timer (mc_s (w_lib (h_fw h))) =? 0)) eqn:Z; inversion E; subst. cbn [map]. destruct (w_lib (h_fw h)); reflexivity.
        - discriminate.
        - inversion E; subst. destruct S2 as (-> & Z). apply Z.eqb_neq in Z. rewrite Z. reflexivity. }
      destruct (t_line p (w_lib (h_fw h))) as [[p' k'] t'] eqn:E. destruct p' as [p'|].
      * assert (E' : k' = w_lib (h_fw h) /\ t' = [] /\ match p' with K389 => mm_timer (mc_s k') <> 0 | K389s v => v = mm_timer (mc_s k') /\ mm_timer (mc_s k') <> 0 | _ => True end).
        { destruct p; cbn [t_line] in E; [destruct (negb (mm_timer (mc_s (w_lib (h_fw h))) =? 0)) eqn:Z|..]; inversion E; subst; auto. split; [auto|]. split; [auto|]. apply negb_true_iff, Z.eqb_neq in Z. auto. }
        destruct E' as (-> & -> & X). split; [eapply inv_nothing; eauto; cbn [act_of h_fw]; [rewrite Q, T, E; reflexivity|destruct (h_fw h); reflexivity]|]. split; cbn [h_fw h_rxne h_cr1 h_tick w_lib]; auto.
      * specialize (Tk _ _ eq_refl). split; [eapply inv_one with (x := WTick); eauto; cbn [act_of]; rewrite Q, T, E; reflexivity|]. split; cbn [h_fw h_rxne h_cr1 h_tick w_lib]; auto.
        intros D. specialize (S1 D). destruct p; cbn [t_line] in E; [destruct (negb (mm_timer (mc_s (w_lib (h_fw h))) =? 0))|..]; inversion E; subst; auto.
  - cbn [h_act]. destruct (is_hw x) eqn:Hx; [|split; [eapply inv_nothing; eauto; cbn [act_of]; now rewrite Hx|split; auto]].
    rewrite hw_act by auto. cbn [bind]. split; [|split; auto]. destruct (h_irq h) as [p|] eqn:Q.
    + eapply inv_hw; eauto.
    + eapply inv_one with (x := x); eauto; [cbn [act_of]; now rewrite Hx|now apply hw_act].
Qed.
Lemma sim fs : side h0 -> h_irq h0 = None -> cr1_undisturbed c h0 fs ->
  match h_run c fs h0 with
  | Ok (h, t) => inv fs h t /\ side h
  | UB => fails fs UB
  | Diverge => fails fs Diverge
  end.
Proof.
  intros S0 Q0. induction fs as [|a fs IH] using rev_ind; intros CR.
  - cbn [h_run]. split; [|auto]. eapply inv_free with (ws := []) (t' := []); auto; [constructor|]. intros l1 x l2 w1 t1 E. destruct l1; discriminate.
  - assert (CR' : cr1_undisturbed c h0 fs). { intros l1 x l2 h1 t1 E. subst fs. apply (CR l1 x (l2 ++ [a])). rewrite <- app_assoc. reflexivity. }
    specialize (IH CR'). destruct (h_run c fs h0) as [[h t]| |] eqn:R.
    + rewrite (h_run_snoc _ _ _ _ _ _ R). destruct IH as (I & S). pose proof (sim_step fs h t a R I S) as X.
      assert (Y : a = HMain -> forall v, h_cr1 h = Some (E96s v) -> u_txeie (w_u (h_fw h)) = v) by (intros -> v; eapply (CR fs HMain []); eauto).
      specialize (X Y). destruct (h_act c a h) as [[h' t']| |]; cbn [bind]; auto.
    + rewrite h_run_app, R. cbn [bind]. destruct IH as (l0 & x & w1 & t1 & A & B & C). exists l0, x, w1, t1. auto using allwit_more.
    + rewrite h_run_app, R. cbn [bind]. destruct IH as (l0 & x & w1 & t1 & A & B & C). exists l0, x, w1, t1. auto using allwit_more.
Qed.
End Sim.
