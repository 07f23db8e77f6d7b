(** C105: the slave driver's handlers' statements one by one. *)
From Verif Require Export Proofs.SlaveSystem Spec.SlaveHandlers.
From Verif Require Import Proofs.SlaveWire Proofs.SlaveArrive.

(** *** the statements in sequence are the handlers of Model/SlaveSystem.v *)
Fixpoint g_exec (n : nat) (p : option gpc) (k : sconf) (u : uart) : outcome (sconf * uart * list yitem) :=
  match p, n with
  | None, _ => Ok (k, u, [])
  | Some _, O => Diverge
  | Some p, S n => let* '(p', k', u', t) := g_line p k u in let* '(k2, u2, t2) := g_exec n p' k' u' in Ok (k2, u2, t ++ t2)
  end.
Lemma exec_S n p k u : g_exec (S n) (Some p) k u = let* '(p', k', u', t) := g_line p k u in let* '(k2, u2, t2) := g_exec n p' k' u' in Ok (k2, u2, t ++ t2).
Proof. reflexivity. Qed.
Lemma exec_none n k u : g_exec n None k u = Ok (k, u, []).
Proof. destruct n; reflexivity. Qed.
Ltac st := rewrite exec_S; cbn [g_line bind u_cur u_last u_det u_tdr u_rdr u_txeie u_rtof u_cen u_uif].
Ltac outs := repeat (match goal with |- context [y_usart_tx ?b ?d] => destruct (y_usart_tx b d) as [[[? ?] ?]| |] | |- context [y_usart_rto ?b ?d] => destruct (y_usart_rto b d) as [[[? ?] ?]| |] end; cbn [bind app]); rewrite ?app_assoc; try reflexivity.
Lemma exec_rto n k u : g_exec (4 + n) (Some G143) k u = y_usart_rto k u.
Proof.
  cbn [Nat.add]. st. unfold y_usart_rto. destruct (u_rtof u) eqn:R; [|rewrite exec_none; reflexivity].
  st. destruct (s_sub (sc_s k)) eqn:Q; st.
  - destruct (y_event ST15 k) as [k1| |]; cbn [bind]; auto. st. rewrite exec_none. cbn [bind app]. now rewrite ?R.
  - rewrite exec_none. cbn [bind app]. now rewrite ?R.
Qed.
Lemma exec_tx n k u : g_exec (8 + n) (Some G129) k u = let* '(k, u, t2) := y_usart_tx k u in let* '(k, u, t3) := y_usart_rto k u in Ok (k, u, t2 ++ t3).
Proof.
  change (8 + n)%nat with (S (S (S (S (4 + n))))). st. unfold y_usart_tx. destruct (u_tdr u) eqn:T.
  - change (S (S (S (4 + n)))) with (4 + (3 + n))%nat. rewrite exec_rto. cbn [bind]. outs.
  - st. destruct (u_cur u <? u_last u).
    + st. st. destruct (rd _ _); cbn [bind]; auto. rewrite exec_rto. outs.
    + st. st. destruct (s_sub (sc_s k)); [|reflexivity]. destruct (y_event STxDone k) as [k1| |]; cbn [bind]; auto. rewrite exec_rto, T. outs.
Qed.
Lemma exec_rx n k u : g_exec (16 + n) (Some G116) k u = y_usart k u.
Proof.
  cbn [Nat.add]. st. unfold y_usart, y_usart_rx. destruct (u_rdr u) as [b|] eqn:R.
  2:{ match goal with |- context [g_exec ?m _ _ _] => change m with (8 + (7 + n))%nat end. rewrite exec_tx. cbn [bind]. outs. }
  st. rewrite R. destruct (s_rx (sc_s k)) eqn:X; [|reflexivity]. cbn [bind]. st. rewrite X. unfold y_event at 1. cbn [s_event]. rewrite X.
  destruct (wr (m_req (s_msg (sc_s k))) (rr_len (m_req (s_msg (sc_s k)))) (u8 b)) as [r| |] eqn:W; cbn [bind]; try reflexivity. st.
  set (k1 := mk_sconf (s_set_msg (sc_s k) (set_req (s_msg (sc_s k)) (set_len r (u8 (rr_len r + 1))))) (sc_pc k)).
  assert (Su : s_sub (sc_s k1) = s_sub (sc_s k)) by reflexivity.
  change (s_rx (sc_s (mk_sconf (s_set_msg (sc_s k) (set_req (s_msg (sc_s k)) r)) (sc_pc k)))) with (s_rx (sc_s k)). rewrite X. cbn [bind].
  match goal with |- context [g_exec _ (Some G122) ?a _] => replace a with k1 by reflexivity end. clearbody k1. st. destruct (u_det u) eqn:D.
  - st. rewrite Su. destruct (s_sub (sc_s k)); [|reflexivity]. destruct (y_event SFrameErr k1) as [k2| |]; cbn [bind]; auto. st. st.
    match goal with |- context [g_exec ?m (Some G129) _ _] => change m with (8 + n)%nat end. rewrite exec_tx, ?D. cbn [bind app]. outs.
  - st. st. match goal with |- context [g_exec ?m (Some G129) _ _] => change m with (8 + (1 + n))%nat end. rewrite exec_tx, ?D. cbn [bind app]. outs.
Qed.
Lemma exec_timer n k u : g_exec (5 + n) (Some T156) k u = y_timer k u.
Proof.
  cbn [Nat.add]. st. unfold y_timer. destruct (u_uif u); [|rewrite exec_none; reflexivity].
  st. destruct (s_sub (sc_s k)); [|reflexivity]. destruct (y_event ST35 k) as [k1| |]; cbn [bind]; auto. st. st. st. rewrite exec_none. reflexivity.
Qed.

Definition rk (p : option gpc) : nat :=
  match p with
  | None => 0
  | Some G116 => 16 | Some G119 => 15 | Some (G119s _) => 14 | Some (G120 _) => 13 | Some G122 => 12 | Some G124 => 11 | Some G126 => 10 | Some G127 => 9
  | Some G129 => 8 | Some G131 => 7 | Some G133 => 6 | Some G134 => 5 | Some G139 => 6 | Some G140 => 5
  | Some G143 => 4 | Some G145 => 3 | Some G147 => 2 | Some G149 => 1
  | Some T156 => 5 | Some T158 => 4 | Some T159 => 3 | Some T160 => 2 | Some T161 => 1
  end%nat.
Ltac cases E := repeat (first
  [ match type of E with context [match ?x with Some _ => _ | None => _ end] => let Q := fresh "Q" in destruct x eqn:Q; cbn [bind] in E; try discriminate E end
  | match type of E with context [if ?x then _ else _] => let Q := fresh "Q" in destruct x eqn:Q; cbn [bind] in E; try discriminate E end
  | match type of E with context [bind ?x _] => let Q := fresh "Q" in destruct x eqn:Q; cbn [bind] in E; try discriminate E end
  | match type of E with context [let '(_, _) := ?x in _] => destruct x; cbn [bind] in E; try discriminate E end ]).
Lemma line_rank p k u p' k' u' t : g_line p k u = Ok (p', k', u', t) -> (rk p' < rk (Some p))%nat.
Proof. intros E. destruct p; cbn [g_line bind] in E; cases E; inversion E; subst; cbn; lia. Qed.
Lemma exec_mono : forall n m p k u, (rk p <= n)%nat -> (rk p <= m)%nat -> g_exec n p k u = g_exec m p k u.
Proof.
  induction n as [|n IH]; intros m p k u Hn Hm.
  - destruct p as [p|]; [exfalso; destruct p; cbn in Hn; lia|]. now rewrite !exec_none.
  - destruct p as [p|]; [|now rewrite !exec_none]. destruct m as [|m]; [exfalso; destruct p; cbn in Hm; lia|].
    rewrite !exec_S. destruct (g_line p k u) as [[[[p' k'] u'] t]| |] eqn:E; cbn [bind]; auto. pose proof (line_rank _ _ _ _ _ _ _ E). rewrite (IH m) by lia. reflexivity.
Qed.
Inductive reach (p0 : gpc) (k0 : sconf) (u0 : uart) : option gpc -> sconf -> uart -> list yitem -> Prop :=
| reach_start : reach p0 k0 u0 (Some p0) k0 u0 []
| reach_step p k u o p' k' u' t : reach p0 k0 u0 (Some p) k u o -> g_line p k u = Ok (p', k', u', t) -> reach p0 k0 u0 p' k' u' (o ++ t).
Lemma rk_max p : (rk p <= 16)%nat.
Proof. destruct p as [[]|]; cbn; lia. Qed.
Lemma reach_exec p0 k0 u0 p k u o : reach p0 k0 u0 p k u o -> g_exec 16 (Some p0) k0 u0 = let* '(k2, u2, t2) := g_exec 16 p k u in Ok (k2, u2, o ++ t2).
Proof.
  induction 1 as [|p k u o p' k' u' t H IH E].
  - destruct (g_exec 16 (Some p0) k0 u0) as [[[? ?] ?]| |]; reflexivity.
  - rewrite IH. change 16%nat with (S 15) at 1. rewrite exec_S, E. cbn [bind]. pose proof (line_rank _ _ _ _ _ _ _ E). pose proof (rk_max (Some p)).
    rewrite (exec_mono 15 16) by lia. destruct (g_exec 16 p' k' u') as [[[? ?] ?]| |]; cbn [bind]; auto. now rewrite app_assoc.
Qed.
(** *** hardware events *)
Definition hw1 (x : yact) (u : uart) : uart :=
  match x with
  | HRx b => mk_uart (u_cur u) (u_last u) (u_det u) (u_tdr u) (Some (u8 b)) (u_txeie u) (u_rtof u) (u_cen u) (u_uif u)
  | HShift => mk_uart (u_cur u) (u_last u) (u_det u) None (u_rdr u) (u_txeie u) (u_rtof u) (u_cen u) (u_uif u)
  | HRto => mk_uart (u_cur u) (u_last u) (u_det u) (u_tdr u) (u_rdr u) (u_txeie u) true (u_cen u) (u_uif u)
  | HTim => mk_uart (u_cur u) (u_last u) (u_det u) (u_tdr u) (u_rdr u) (u_txeie u) (u_rtof u) false (u_cen u || u_uif u)
  | _ => u
  end.
Definition hw2 (x : yact) (u : uart) : list yitem := match x with HShift => match u_tdr u with Some b => [YLine b] | None => [] end | _ => [] end.
Lemma hw_act c x w : is_hw x = true -> y_act c x w = Ok (mk_sys (y_lib w) (hw1 x (y_u w)) (y_sub w), hw2 x (y_u w)).
Proof.
  intros H. destruct w as [k u s], x; try discriminate H; cbn [y_act y_lib y_u y_sub hw1 hw2]; auto.
  - destruct u as [a b d [t|] e f g h i]; reflexivity.
  - destruct u as [a b d t e f g [] i]; reflexivity.
Qed.
(** an event that counts as having happened before the handler, when the handler is about to execute [p] *)
Definition early (x : yact) (p : gpc) : bool :=
  match p with
  | T156 | T158 | T159 | T160 => true
  | T161 => match x with HRto => false | _ => true end
  | _ => match x with
         | HRx _ => match p with G116 | G119 => true | _ => false end
         | HShift => match p with G139 | G140 | G143 | G145 | G147 | G149 => false | _ => true end
         | HTim => match p with G116 | G119 | G119s _ | G120 _ | G122 | G124 | G126 | G127 => true | _ => false end
         | _ => true
         end
  end.
Lemma early_kind x y p : is_hw x = true -> is_hw y = true -> early x p = true -> early y p = false -> kind y <> kind x.
Proof. intros A B C D E. destruct x, y; try discriminate; cbn [kind] in E; try discriminate E; destruct p; cbn in *; congruence. Qed.
Lemma late_line x p k u : is_hw x = true -> early x p = false -> g_line p k (hw1 x u) = let* '(p', k', u', t) := g_line p k u in Ok (p', k', hw1 x u', t).
Proof.
  intros A B. destruct u as [a b d td rv te rf ce ui].
  destruct x; try discriminate A; destruct p; try discriminate B; cbn [g_line hw1 u_cur u_last u_det u_tdr u_rdr u_txeie u_rtof u_cen u_uif bind]; auto;
    try (destruct ce; reflexivity);
    repeat (first
      [ match goal with |- context [match ?x with Some _ => _ | None => _ end] => destruct x end
      | match goal with |- context [if ?x then _ else _] => destruct x end
      | match goal with |- context [bind (wr ?x ?y ?z) _] => destruct (wr x y z) end
      | match goal with |- context [bind (Base.bind (wr ?x ?y ?z) _) _] => destruct (wr x y z) end
      | match goal with |- context [bind (rd ?x ?y) _] => destruct (rd x y) end
      | match goal with |- context [bind (y_event ?x ?y) _] => destruct (y_event x y) end ]; cbn [bind]; auto).
Qed.
Lemma late_stays x p k u p' k' u' t : is_hw x = true -> early x p = false -> g_line p k u = Ok (p', k', u', t) ->
  hw2 x u' = hw2 x u /\ match p' with Some q => early x q = false | None => True end.
Proof.
  intros A B E. destruct x; try discriminate A; destruct p; try discriminate B; cbn [g_line bind] in E; cases E; inversion E; subst; cbn [hw2 early u_tdr]; auto.
Qed.
Lemma early_back x p k u p' k' u' t : is_hw x = true -> g_line p k u = Ok (Some p', k', u', t) -> early x p' = true ->
  early x p = true /\ g_line p k (hw1 x u) = Ok (Some p', k', hw1 x u', t) /\ hw2 x u' = hw2 x u.
Proof.
  intros A E B. destruct x; try discriminate A; destruct p; cbn [g_line bind] in E; cases E; inversion E; subst; try discriminate B;
    cbn [early g_line hw1 hw2 bind u_cur u_last u_det u_tdr u_rdr u_txeie u_rtof u_cen u_uif];
    repeat match goal with H : ?x = _ |- context [?x] => rewrite H; cbn [bind] end; rewrite ?orb_true_r; auto.
Qed.
Fixpoint hws (l : list yact) (u : uart) : uart * list yitem := match l with [] => (u, []) | x :: l => (fst (hws l (hw1 x u)), hw2 x u ++ snd (hws l (hw1 x u))) end.
Lemma run_hws c l : Forall (fun x => is_hw x = true) l -> forall w, y_run c l w = Ok (mk_sys (y_lib w) (fst (hws l (y_u w))) (y_sub w), snd (hws l (y_u w))).
Proof.
  induction 1 as [|x l Hx _ IH]; intros w; cbn [y_run hws fst snd]; [destruct w; reflexivity|]. rewrite hw_act by auto. cbn [bind]. rewrite IH. reflexivity.
Qed.
Lemma hws_snoc l x : forall u, hws (l ++ [x]) u = (hw1 x (fst (hws l u)), snd (hws l u) ++ hw2 x (fst (hws l u))).
Proof. induction l as [|y l IH]; intros u; cbn [app hws fst snd]; [now rewrite app_nil_r|]. rewrite IH. cbn [fst snd]. now rewrite app_assoc. Qed.
Lemma hw_comm x y u : is_hw x = true -> is_hw y = true -> kind y <> kind x -> hw1 x (hw1 y u) = hw1 y (hw1 x u) /\ hw2 x (hw1 y u) = hw2 x u /\ hw2 y (hw1 x u) = hw2 y u /\ (hw2 x u = [] \/ forall v, hw2 y v = []).
Proof. intros A B N. destruct x, y; try discriminate; try (exfalso; apply N; reflexivity); cbn [hw1 hw2 u_cur u_last u_det u_tdr u_rdr u_txeie u_rtof u_cen u_uif]; auto. Qed.
Lemma hws_comm x l : is_hw x = true -> Forall (fun y => is_hw y = true /\ kind y <> kind x) l -> forall u,
  hws l (hw1 x u) = (hw1 x (fst (hws l u)), snd (hws l u)) /\ hw2 x (fst (hws l u)) = hw2 x u /\ (hw2 x u = [] \/ snd (hws l u) = []).
Proof.
  intros A. induction 1 as [|y l [B N] _ IH]; intros u; cbn [hws fst snd]; [auto|]. destruct (hw_comm x y u A B N) as (C1 & C2 & C3 & C4). rewrite <- C1, C3. destruct (IH (hw1 y u)) as (I1 & I2 & I3).
  rewrite I1. cbn [fst snd]. split; [reflexivity|]. split; [congruence|]. destruct C4 as [C4|C4]; [auto|]. rewrite C2 in I3. destruct I3 as [I3|I3]; [auto|]. right. rewrite C4, I3. reflexivity.
Qed.
Definition late (p : gpc) (x : yact) : Prop := is_hw x = true /\ early x p = false.
Lemma late_hws p k aft : Forall (late p) aft -> forall u, g_line p k (fst (hws aft u)) = let* '(p', k', u', t) := g_line p k u in Ok (p', k', fst (hws aft u'), t).
Proof.
  induction 1 as [|x l [A B] _ IH]; intros u; cbn [hws fst]. - destruct (g_line p k u) as [[[[? ?] ?] ?]| |]; reflexivity.
  - rewrite IH, late_line by auto. destruct (g_line p k u) as [[[[? ?] ?] ?]| |]; reflexivity.
Qed.
Lemma late_outs p k u p' k' u' t aft : Forall (late p) aft -> g_line p k u = Ok (p', k', u', t) -> snd (hws aft u') = snd (hws aft u) /\ match p' with Some q => Forall (late q) aft | None => True end.
Proof.
  intros F. revert u u'. induction F as [|x l [A B] F IH]; intros u u' E; cbn [hws snd]; [split; auto; destruct p'; auto|]. destruct (late_stays _ _ _ _ _ _ _ _ A B E) as (X & Y).
  destruct (IH (hw1 x u) (hw1 x u')) as (I1 & I2). { rewrite late_line, E by auto. reflexivity. }
  rewrite X, I1. split; auto. destruct p'; auto. constructor; auto. now split.
Qed.
Lemma early_reach x p0 k0 u0 p k u o : is_hw x = true -> reach p0 k0 u0 p k u o -> match p with Some q => early x q = true | None => False end ->
  reach p0 k0 (hw1 x u0) p k (hw1 x u) o /\ hw2 x u = hw2 x u0.
Proof.
  intros A. induction 1 as [|p k u o p' k' u' t H IH E]; intros B; [split; [constructor|auto]|]. destruct p' as [p'|]; [|contradiction].
  destruct (early_back _ _ _ _ _ _ _ _ A E B) as (B' & E' & X). destruct (IH B') as (I1 & I2). split; [econstructor; eauto|congruence].
Qed.
(** a handler's statement puts nothing on the line *)
Lemma line_keeps p k u p' k' u' t : g_line p k u = Ok (p', k', u', t) -> on_line t = [].
Proof. intros E. destruct p; cbn [g_line bind] in E; cases E; inversion E; subst; auto. Qed.
Lemma reach_keeps p0 k0 u0 p k u o : reach p0 k0 u0 p k u o -> on_line o = [].
Proof. induction 1 as [|p k u o p' k' u' t H IH E]; [auto|]. rewrite on_line_app, (line_keeps _ _ _ _ _ _ _ E), IH. auto. Qed.

(** *** schedules *)
Lemma g_run_app c a : forall b h, g_run c (a ++ b) h = let* '(h1, t1) := g_run c a h in let* '(h2, t2) := g_run c b h1 in Ok (h2, t1 ++ t2).
Proof.
  induction a as [|x a IH]; intros b h; cbn [app g_run].
  - cbn [bind]. destruct (g_run c b h) as [[? ?]| |]; reflexivity.
  - destruct (g_act c x h) as [[h1 t1]| |]; cbn [bind]; auto. rewrite IH. destruct (g_run c a h1) as [[h2 t2]| |]; cbn [bind]; auto. destruct (g_run c b h2) as [[? ?]| |]; cbn [bind]; auto. now rewrite app_assoc.
Qed.
Lemma g_run_snoc c l a h h1 t1 : g_run c l h = Ok (h1, t1) -> g_run c (l ++ [a]) h = let* '(h2, t2) := g_act c a h1 in Ok (h2, t1 ++ t2).
Proof. intros E. rewrite g_run_app, E. cbn [bind g_run]. destruct (g_act c a h1) as [[h2 t2]| |]; cbn [bind]; auto. now rewrite app_nil_r. Qed.
Lemma y_run_snoc c l a h h1 t1 : y_run c l h = Ok (h1, t1) -> y_run c (l ++ [a]) h = let* '(h2, t2) := y_act c a h1 in Ok (h2, t1 ++ t2).
Proof. intros E. rewrite y_run_app, E. cbn [bind y_run]. destruct (y_act c a h1) as [[h2 t2]| |]; cbn [bind]; auto. now rewrite app_nil_r. Qed.
Lemma acts_snoc c a : forall l h h1 t1, g_run c l h = Ok (h1, t1) -> acts_of c (l ++ [a]) h = acts_of c l h ++ act_of a h1.
Proof.
  induction l as [|x l IH]; intros h h1 t1 E; cbn [app acts_of g_run] in *.
  - inversion E; subst. destruct (g_act c a h1) as [[? ?]| |]; now rewrite app_nil_r.
  - destruct (g_act c x h) as [[h2 t2]| |]; try discriminate. cbn [bind] in E. destruct (g_run c l h2) as [[h3 t3]| |] eqn:R; try discriminate. cbn [bind] in E. inversion E; subst. rewrite (IH _ _ _ R). now rewrite app_assoc.
Qed.
Lemma moved_app l m a : moved l m -> moved (l ++ a) (m ++ a).
Proof. induction 1; [constructor|econstructor; eauto|]. rewrite <- !app_assoc. cbn [app]. now constructor. Qed.
Lemma moved_back l0 y aft x : is_hw x = true -> (y = AUsart \/ y = ATimer) -> Forall (fun z => is_hw z = true /\ kind z <> kind x) aft -> moved (l0 ++ y :: aft ++ [x]) (l0 ++ x :: y :: aft).
Proof.
  intros A B F. apply moved_trans with (l0 ++ y :: x :: aft); [|now constructor; auto; destruct B; auto].
  assert (G : forall pre, moved (pre ++ aft ++ [x]) (pre ++ x :: aft)).
  { clear B. induction F as [|z l [C D] _ IH]; intros pre; [constructor|]. apply moved_trans with (pre ++ z :: x :: l).
    - specialize (IH (pre ++ [z])). rewrite <- !app_assoc in IH. exact IH.
    - constructor; auto. }
  specialize (G (l0 ++ [y])). rewrite <- !app_assoc in G. exact G.
Qed.
Lemma moved_in l m : moved l m -> forall x, In x m <-> In x l.
Proof. induction 1; intros z; [tauto|rewrite IHmoved2, IHmoved1; tauto|]. rewrite !in_app_iff. cbn. tauto. Qed.

(** *** the simulation *)
Section Sim.
Context (c : cfg) (h0 : gfw).
Definition same_place (w w' : sys) : Prop := y_sub w = y_sub w'.
Definition wit (fs : list gact) (x : yact) (w : sys) : Prop := exists f1 y f2 h1 u1, fs = f1 ++ y :: f2 /\ g_run c f1 h0 = Ok (h1, u1) /\ In x (act_of y h1) /\ same_place (g_sys h1) w.
Definition allwit (fs : list gact) (ws : list yact) : Prop :=
  forall l1 x l2 w1 t1, ws = l1 ++ x :: l2 -> y_run c l1 (g_sys h0) = Ok (w1, t1) -> wit fs x w1.
Definition begins (H : yact) (p0 : gpc) (k0 : sconf) (u0 : uart) : Prop := H = AUsart /\ p0 = G116 /\ usart_pending k0 u0 = true \/ H = ATimer /\ p0 = T156.
Inductive inv (fs : list gact) (h : gfw) (t : list yitem) : Prop :=
| inv_free ws t' : g_irq h = None -> y_run c ws (g_sys h0) = Ok (g_sys h, t') -> lib_of t' = lib_of t -> on_line t' = on_line t ->
    moved (acts_of c fs h0) ws -> allwit fs ws -> inv fs h t
| inv_in p H p0 l0 t0 k0 u0 sub k1 u1 th aft : g_irq h = Some p -> y_run c l0 (g_sys h0) = Ok (mk_sys k0 u0 sub, t0) -> allwit fs l0 -> begins H p0 k0 u0 ->
    reach p0 k0 u0 (Some p) k1 u1 th -> g_sys h = mk_sys k1 (fst (hws aft u1)) sub -> Forall (late p) aft ->
    lib_of t = lib_of t0 ++ lib_of th -> on_line t = on_line t0 ++ on_line (snd (hws aft u1)) ->
    moved (acts_of c fs h0) (l0 ++ H :: aft) -> wit fs H (mk_sys k0 u0 sub) -> Forall (fun x => wit fs x (mk_sys k0 u0 sub)) aft -> inv fs h t.
Lemma wit_more fs a x w : wit fs x w -> wit (fs ++ [a]) x w.
Proof. intros (f1 & y & f2 & h1 & u1 & -> & E). exists f1, y, (f2 ++ [a]), h1, u1. rewrite <- app_assoc. auto. Qed.
Lemma allwit_more fs a ws : allwit fs ws -> allwit (fs ++ [a]) ws.
Proof. intros A l1 x l2 w1 t1 E R. apply wit_more. eapply A; eauto. Qed.
Lemma wit_now fs h t a x w : g_run c fs h0 = Ok (h, t) -> In x (act_of a h) -> same_place (g_sys h) w -> wit (fs ++ [a]) x w.
Proof. intros R I Q. exists fs, a, [], h, t. auto. Qed.
Lemma allwit_snoc fs ws x w t : allwit fs ws -> y_run c ws (g_sys h0) = Ok (w, t) -> wit fs x w -> allwit fs (ws ++ [x]).
Proof.
  intros A R W l1 y l2 w1 t1 E R1. destruct l2 as [|z l2].
  - apply app_inj_tail in E as (-> & ->). rewrite R in R1. inversion R1; subst. auto.
  - destruct (exists_last (l := z :: l2) ltac:(discriminate)) as (l3 & q & Q). rewrite Q in E. change (l1 ++ y :: l3 ++ [q]) with (l1 ++ (y :: l3) ++ [q]) in E. rewrite app_assoc in E. apply app_inj_tail in E as (-> & ->). eapply A; eauto.
Qed.
Lemma same_refl w : same_place w w. Proof. reflexivity. Qed.
Lemma inv_nothing fs h t a h' : g_run c fs h0 = Ok (h, t) -> inv fs h t -> act_of a h = [] -> g_sys h' = g_sys h -> g_irq h' = g_irq h -> inv (fs ++ [a]) h' (t ++ []).
Proof.
  intros R I N F Q. rewrite app_nil_r. destruct I.
  - eapply inv_free; [congruence|rewrite F; eauto|auto|auto| |now apply allwit_more]. erewrite acts_snoc by eauto. now rewrite N, app_nil_r.
  - eapply inv_in; [rewrite Q; eauto|eauto|apply allwit_more; auto|eauto|eauto|rewrite F; eauto|auto|auto|auto| |now apply wit_more|].
    + erewrite acts_snoc by eauto. now rewrite N, app_nil_r.
    + eapply Forall_impl; [|eauto]. intros x. apply wit_more.
Qed.
Definition fails (fs : list gact) (r : outcome (sys * list yitem)) : Prop :=
  exists l0 x w1 t1, y_run c l0 (g_sys h0) = Ok (w1, t1) /\ y_act c x w1 = r /\ allwit fs (l0 ++ [x]).
Lemma inv_one fs h t a x w' t' h' : g_run c fs h0 = Ok (h, t) -> inv fs h t -> g_irq h = None -> act_of a h = [x] -> y_act c x (g_sys h) = Ok (w', t') -> g_sys h' = w' -> g_irq h' = None ->
  inv (fs ++ [a]) h' (t ++ t').
Proof.
  intros R I Q N E F Q'. destruct I; [|congruence]. subst w'. eapply inv_free with (ws := ws ++ [x]) (t' := t'0 ++ t'); auto.
  - rewrite (y_run_snoc _ _ _ _ _ _ H0), E. reflexivity.
  - rewrite !lib_of_app. congruence.
  - rewrite !on_line_app. congruence.
  - erewrite acts_snoc by eauto. rewrite N. now apply moved_app.
  - eapply allwit_snoc; eauto using allwit_more. eapply wit_now; eauto using same_refl. rewrite N. now left.
Qed.
Lemma inv_fail fs h t a x r : g_run c fs h0 = Ok (h, t) -> inv fs h t -> g_irq h = None -> act_of a h = [x] -> y_act c x (g_sys h) = r -> fails (fs ++ [a]) r.
Proof.
  intros R I Q N E. destruct I; [|congruence]. exists ws, x, (g_sys h), t'. split; [auto|]. split; [auto|]. eapply allwit_snoc; eauto using allwit_more. eapply wit_now; eauto using same_refl. rewrite N. now left.
Qed.
Lemma inv_begin fs h t a H p0 h' : g_run c fs h0 = Ok (h, t) -> inv fs h t -> g_irq h = None -> act_of a h = [H] -> begins H p0 (y_lib (g_sys h)) (y_u (g_sys h)) -> g_sys h' = g_sys h -> g_irq h' = Some p0 ->
  inv (fs ++ [a]) h' (t ++ []).
Proof.
  intros R I Q N B F Q'. rewrite app_nil_r. destruct I; [|congruence]. assert (W : g_sys h = mk_sys (y_lib (g_sys h)) (y_u (g_sys h)) (y_sub (g_sys h))) by (destruct (g_sys h); reflexivity).
  eapply inv_in with (l0 := ws) (aft := []); [eauto|rewrite <- W; eauto|now apply allwit_more|eauto|apply reach_start|rewrite F; exact W|constructor| | | | |constructor].
  - cbn. now rewrite app_nil_r.
  - cbn. now rewrite app_nil_r.
  - erewrite acts_snoc by eauto. rewrite N. now apply moved_app.
  - rewrite <- W. eapply wit_now; eauto using same_refl. rewrite N. now left.
Qed.
Lemma begins_exec H p0 k0 u0 sub : begins H p0 k0 u0 -> y_act c H (mk_sys k0 u0 sub) = let* '(k', u', t) := g_exec 16 (Some p0) k0 u0 in Ok (mk_sys k' u' sub, t).
Proof.
  intros [(-> & -> & P)|(-> & ->)]; cbn [y_act y_lib y_u y_sub].
  - rewrite P. rewrite <- (exec_rx 0). reflexivity.
  - rewrite <- (exec_timer 11). reflexivity.
Qed.
Lemma allwit_in fs l0 H aft k0 u0 sub t0 : allwit fs l0 -> y_run c l0 (g_sys h0) = Ok (mk_sys k0 u0 sub, t0) -> Forall (fun x => is_hw x = true) aft -> wit fs H (mk_sys k0 u0 sub) -> Forall (fun x => wit fs x (mk_sys k0 u0 sub)) aft ->
  (forall w t1, y_act c H (mk_sys k0 u0 sub) = Ok (w, t1) -> y_sub w = sub) -> allwit fs (l0 ++ H :: aft).
Proof.
  intros A R Hw W F E l1 x l2 w1 t1 Q R1.
  assert (D : (exists l3, l0 = l1 ++ x :: l3) \/ (l1 = l0 /\ x = H) \/ exists a1 a2, l1 = l0 ++ H :: a1 /\ aft = a1 ++ x :: a2).
  { clear - Q. revert l0 Q. induction l1 as [|y l1 IH]; intros l0 Q.
    - destruct l0 as [|z l0]; cbn [app] in Q; inversion Q; subst; [right; left; auto|left; exists l0; auto].
    - destruct l0 as [|z l0]; cbn [app] in Q; inversion Q; subst; [right; right; exists l1, l2; auto|]. destruct (IH _ H2) as [(l3 & ->)|[(-> & ->)|(a1 & a2 & -> & ->)]]; [left; exists l3; auto|right; left; auto|right; right; exists a1, a2; auto]. }
  destruct D as [(l3 & ->)|[(-> & ->)|(a1 & a2 & -> & ->)]].
  - eapply A; eauto.
  - rewrite R in R1. inversion R1; subst. auto.
  - rewrite y_run_app, R in R1. cbn [bind y_run] in R1. destruct (y_act c H (mk_sys k0 u0 sub)) as [[w2 t2]| |] eqn:E2; try discriminate R1. cbn [bind] in R1. specialize (E _ _ eq_refl).
    apply Forall_app in Hw as (Hw1 & _). rewrite run_hws in R1 by auto. cbn [bind] in R1. inversion R1; subst. apply Forall_app in F as (_ & F). inversion F; subst.
    destruct H2 as (f1 & y & f2 & h1 & u1 & B1 & B2 & B3 & B4). exists f1, y, f2, h1, u1. unfold same_place in *. cbn [y_sub] in *. auto.
Qed.

(** a handler's statement *)
Lemma inv_line fs h t p : g_run c fs h0 = Ok (h, t) -> inv fs h t -> g_irq h = Some p ->
  match g_line p (y_lib (g_sys h)) (y_u (g_sys h)) with
  | Ok (p', k', u', t') => forall h', g_sys h' = mk_sys k' u' (y_sub (g_sys h)) -> g_irq h' = p' -> g_run c (fs ++ [GStep]) h0 = Ok (h', t ++ t') -> inv (fs ++ [GStep]) h' (t ++ t')
  | UB => fails (fs ++ [GStep]) UB
  | Diverge => fails (fs ++ [GStep]) Diverge
  end.
Proof.
  intros R I Q. destruct I as [|q H p0 l0 t0 k0 u0 sub k1 u1 th aft Q' R0 A B Re F La EL EO M W Wa]; [congruence|]. rewrite Q in Q'. inversion Q'; subst q. clear Q'.
  rewrite F. cbn [y_lib y_u y_sub]. rewrite late_hws by auto. pose proof (begins_exec H p0 k0 u0 sub B) as X. rewrite (reach_exec _ _ _ _ _ _ _ Re) in X.
  assert (N : act_of GStep h = []) by reflexivity.
  assert (Bad : forall r, g_exec 16 (Some p) k1 u1 = r -> (r = UB -> fails (fs ++ [GStep]) UB) /\ (r = Diverge -> fails (fs ++ [GStep]) Diverge)).
  { intros r Er. split; intros ->; rewrite Er in X; cbn [bind] in X; exists l0, H, (mk_sys k0 u0 sub), t0; (split; [auto|]; split; [auto|]; eapply allwit_snoc; eauto using allwit_more, wit_more). }
  assert (Ex : g_exec 16 (Some p) k1 u1 = let* '(p', k', u', t) := g_line p k1 u1 in let* '(k2, u2, t2) := g_exec 15 p' k' u' in Ok (k2, u2, t ++ t2)) by reflexivity.
  destruct (g_line p k1 u1) as [[[[p' k'] u'] t']| |] eqn:E; cbn [bind] in Ex |- *; [|exact (proj1 (Bad _ Ex) eq_refl)|exact (proj2 (Bad _ Ex) eq_refl)].
  intros h' F' Q' R'. destruct (late_outs _ _ _ _ _ _ _ _ La E) as (O1 & O2). pose proof (line_keeps _ _ _ _ _ _ _ E) as OL.
  assert (Re' := reach_step _ _ _ _ _ _ _ _ _ _ _ Re E). clear Bad Ex X.
  assert (M' : moved (acts_of c (fs ++ [GStep]) h0) (l0 ++ H :: aft)) by (erewrite acts_snoc by eauto; now rewrite N, app_nil_r).
  assert (Hw : Forall (fun x => is_hw x = true) aft) by (eapply Forall_impl; [|exact La]; intros x (Y & _); exact Y).
  destruct p' as [p'|].
  - eapply inv_in with (l0 := l0) (aft := aft); [eauto|eauto|now apply allwit_more|eauto|exact Re'|exact F'|exact O2| | |exact M'|now apply wit_more|].
    + rewrite !lib_of_app, EL. now rewrite app_assoc.
    + rewrite on_line_app, OL, app_nil_r, O1. exact EO.
    + eapply Forall_impl; [|exact Wa]. intros x. apply wit_more.
  - assert (Ac : y_act c H (mk_sys k0 u0 sub) = Ok (mk_sys k' u' sub, th ++ t')) by (rewrite begins_exec with (p0 := p0) by auto; rewrite (reach_exec _ _ _ _ _ _ _ Re'), exec_none; cbn [bind]; now rewrite app_nil_r).
    pose proof (reach_keeps _ _ _ _ _ _ _ Re') as K2.
    assert (Zl : forall l u, lib_of (snd (hws l u)) = []). { clear. induction l as [|x l IH]; intros u; cbn [hws snd]; [reflexivity|]. rewrite lib_of_app, IH. destruct x; cbn; auto. destruct (u_tdr u); reflexivity. }
    eapply inv_free with (ws := l0 ++ H :: aft) (t' := t0 ++ (th ++ t') ++ snd (hws aft u')); [auto| | | |exact M'|].
    + rewrite y_run_app, R0. cbn [bind y_run]. rewrite Ac. cbn [bind]. rewrite run_hws by auto. cbn [bind y_lib y_u y_sub]. now rewrite F'.
    + rewrite !lib_of_app, Zl, EL, app_nil_r. now rewrite !app_assoc.
    + rewrite on_line_app, OL, app_nil_r in K2. rewrite !on_line_app, O1, EO, OL, K2, !app_nil_r. reflexivity.
    + eapply allwit_in with (t0 := t0); eauto using allwit_more, wit_more.
      * eapply Forall_impl; [|exact Wa]. intros x. apply wit_more.
      * intros w t1 E1. rewrite Ac in E1. inversion E1; subst. reflexivity.
Qed.
(** a hardware event while a handler runs *)
Lemma pending_more k u x : is_hw x = true -> usart_pending k u = true -> usart_pending k (hw1 x u) = true.
Proof.
  unfold usart_pending. intros A. destruct x; try discriminate; cbn [hw1 u_cur u_last u_det u_tdr u_rdr u_txeie u_rtof u_cen u_uif]; auto.
  - destruct (u_rdr u), (s_rx (sc_s k)); cbn [orb]; auto.
  - destruct (u_tdr u), (u_rdr u), (s_rx (sc_s k)), (u_txeie u), (u_rtof u); cbn [orb]; auto.
  - intros _. apply orb_true_r.
Qed.
Lemma inv_hw fs h t p x h' : g_run c fs h0 = Ok (h, t) -> inv fs h t -> g_irq h = Some p -> is_hw x = true -> g_sys h' = mk_sys (y_lib (g_sys h)) (hw1 x (y_u (g_sys h))) (y_sub (g_sys h)) -> g_irq h' = Some p ->
  inv (fs ++ [GHw x]) h' (t ++ hw2 x (y_u (g_sys h))).
Proof.
  intros R I Q Hx F' Q'. destruct I as [|q H p0 l0 t0 k0 u0 sub k1 u1 th aft Qq R0 A B Re F La EL EO M W Wa]; [congruence|]. rewrite Q in Qq. inversion Qq; subst q. clear Qq.
  assert (N : act_of (GHw x) h = [x]) by (cbn [act_of]; now rewrite Hx).
  assert (Wx : wit (fs ++ [GHw x]) x (mk_sys k0 u0 sub)).
  { eapply wit_now; eauto. - rewrite N. now left. - rewrite F. reflexivity. }
  rewrite F in F' |- *. cbn [y_lib y_u y_sub] in *.
  assert (Lx : forall u, lib_of (hw2 x u) = []). { intros u. destruct x; cbn; auto. destruct (u_tdr u); reflexivity. }
  destruct (early x p) eqn:Ey.
  - assert (Co : Forall (fun y => is_hw y = true /\ kind y <> kind x) aft). { eapply Forall_impl; [|exact La]. intros y (Y1 & Y2). split; auto. eapply early_kind; eauto. }
    destruct (hws_comm x aft Hx Co u1) as (C1 & C2 & C3). destruct (early_reach x _ _ _ _ _ _ _ Hx Re Ey) as (Re' & O).
    eapply inv_in with (l0 := l0 ++ [x]) (H := H) (p0 := p0) (t0 := t0 ++ hw2 x u0) (k0 := k0) (u0 := hw1 x u0) (k1 := k1) (u1 := hw1 x u1) (th := th) (aft := aft); [exact Q'| | | |exact Re'| |exact La| | | | |].
    + rewrite (y_run_snoc _ _ _ _ _ _ R0), hw_act by auto. reflexivity.
    + eapply allwit_snoc; eauto using allwit_more.
    + destruct B as [(-> & -> & B)|(-> & ->)]; [left; auto using pending_more|right; auto].
    + rewrite C1. exact F'.
    + rewrite !lib_of_app, !Lx, !app_nil_r. exact EL.
    + rewrite !on_line_app, C1. cbn [snd]. rewrite EO, C2, O. rewrite <- !app_assoc. f_equal. rewrite <- O. destruct C3 as [-> | ->]; cbn; now rewrite ?app_nil_r.
    + erewrite acts_snoc by eauto. rewrite N. apply moved_trans with ((l0 ++ H :: aft) ++ [x]); [now apply moved_app|]. rewrite <- !app_assoc. cbn [app]. apply moved_back; auto. destruct B as [(-> & _)|(-> & _)]; auto.
    + destruct (wit_more fs (GHw x) _ _ W) as (f1 & y & f2 & h1 & v1 & X). exists f1, y, f2, h1, v1. exact X.
    + eapply Forall_impl; [|exact Wa]. intros y Y. destruct (wit_more fs (GHw x) _ _ Y) as (f1 & z & f2 & h1 & v1 & X). exists f1, z, f2, h1, v1. exact X.
  - eapply inv_in with (l0 := l0) (aft := aft ++ [x]); [exact Q'|exact R0|now apply allwit_more|exact B|exact Re| | | | | |now apply wit_more|].
    + rewrite hws_snoc. exact F'.
    + apply Forall_app. split; auto. constructor; auto. split; auto.
    + rewrite lib_of_app, Lx, app_nil_r. exact EL.
    + rewrite hws_snoc, !on_line_app. cbn [snd]. rewrite EO, on_line_app, app_assoc. reflexivity.
    + erewrite acts_snoc by eauto. rewrite N. change (l0 ++ H :: aft ++ [x]) with (l0 ++ (H :: aft) ++ [x]). rewrite app_assoc. now apply moved_app.
    + apply Forall_app. split; [eapply Forall_impl; [|exact Wa]; intros y; apply wit_more|]. auto.
Qed.
Lemma sim_step fs h t a : g_run c fs h0 = Ok (h, t) -> inv fs h t ->
  match g_act c a h with
  | Ok (h', t') => inv (fs ++ [a]) h' (t ++ t')
  | UB => fails (fs ++ [a]) UB
  | Diverge => fails (fs ++ [a]) Diverge
  end.
Proof.
  intros R I.
  assert (One : forall x, g_irq h = None -> act_of a h = [x] -> match y_act c x (g_sys h) with
     | Ok (w', t') => inv (fs ++ [a]) (mk_gfw w' None) (t ++ t') | UB => fails (fs ++ [a]) UB | Diverge => fails (fs ++ [a]) Diverge end).
  { intros x Q N. destruct (y_act c x (g_sys h)) as [[w' t']| |] eqn:E; [eapply inv_one; eauto|eapply inv_fail; eauto|eapply inv_fail; eauto]. }
  destruct a as [|b r| | | |x].
  - cbn [g_act]. destruct (g_irq h) eqn:Q; [eapply inv_nothing; eauto; cbn [act_of]; now rewrite Q|].
    specialize (One AMain eq_refl). cbn [act_of] in One. rewrite Q in One. specialize (One eq_refl). destruct (y_act c AMain (g_sys h)) as [[w' t']| |]; exact One.
  - cbn [g_act]. destruct (g_irq h) eqn:Q; [eapply inv_nothing; eauto; cbn [act_of]; now rewrite Q|].
    specialize (One (AApp b r) eq_refl). cbn [act_of] in One. rewrite Q in One. specialize (One eq_refl). destruct (y_act c (AApp b r) (g_sys h)) as [[w' t']| |]; exact One.
  - cbn [g_act]. destruct (g_irq h) eqn:Q; [eapply inv_nothing; eauto; cbn [act_of]; now rewrite Q|]. destruct (usart_pending (y_lib (g_sys h)) (y_u (g_sys h))) eqn:P.
    + eapply inv_begin with (H := AUsart); eauto; cbn [act_of]; rewrite ?Q, ?P; auto; try reflexivity. left. auto.
    + eapply inv_nothing; eauto. cbn [act_of]. now rewrite Q, P.
  - cbn [g_act]. destruct (g_irq h) eqn:Q; [eapply inv_nothing; eauto; cbn [act_of]; now rewrite Q|]. destruct (u_uif (y_u (g_sys h))) eqn:P.
    + eapply inv_begin with (H := ATimer); eauto; cbn [act_of]; rewrite ?Q, ?P; auto; try reflexivity. right. auto.
    + eapply inv_nothing; eauto. cbn [act_of]. now rewrite Q, P.
  - cbn [g_act]. destruct (g_irq h) as [p|] eqn:Q; [|eapply inv_nothing; eauto; reflexivity].
    pose proof (inv_line fs h t p R I Q) as L. destruct (g_line p (y_lib (g_sys h)) (y_u (g_sys h))) as [[[[p' k'] u'] t']| |] eqn:E; cbn [bind]; auto.
    apply L; auto. rewrite (g_run_snoc _ _ _ _ _ _ R). cbn [g_act]. rewrite Q, E. reflexivity.
  - cbn [g_act]. destruct (is_hw x) eqn:Hx; [|destruct (g_irq h) eqn:Q; (eapply inv_nothing; eauto; cbn [act_of]; now rewrite Hx)].
    rewrite hw_act by auto. destruct (g_irq h) as [p|] eqn:Q; cbn [bind].
    + eapply inv_hw; eauto.
    + eapply inv_one with (x := x); eauto; [cbn [act_of]; now rewrite Hx|now apply hw_act].
Qed.
Lemma sim fs : g_irq h0 = None ->
  match g_run c fs h0 with
  | Ok (h, t) => inv fs h t
  | UB => fails fs UB
  | Diverge => fails fs Diverge
  end.
Proof.
  intros Q0. induction fs as [|a fs IH] using rev_ind.
  - cbn [g_run]. eapply inv_free with (ws := []) (t' := []); auto; [constructor|]. intros l1 x l2 w1 t1 E. destruct l1; discriminate.
  - destruct (g_run c fs h0) as [[h t]| |] eqn:R.
    + rewrite (g_run_snoc _ _ _ _ _ _ R). pose proof (sim_step fs h t a R IH) as X. destruct (g_act c a h) as [[h' t']| |]; cbn [bind]; auto.
    + rewrite g_run_app, R. cbn [bind]. destruct IH as (l0 & x & w1 & t1 & A & B & C). exists l0, x, w1, t1. auto using allwit_more.
    + rewrite g_run_app, R. cbn [bind]. destruct IH as (l0 & x & w1 & t1 & A & B & C). exists l0, x, w1, t1. auto using allwit_more.
Qed.
End Sim.

(** *** C106: when every hardware event is on time *)
Lemma passed_line x p k u : is_hw x = true -> passed x p = true -> g_line p k (hw1 x u) = let* '(p', k', u', t) := g_line p k u in Ok (p', k', hw1 x u', t).
Proof.
  intros A B. destruct u as [a b d td rv te rf ce ui].
  destruct x; try discriminate A; destruct p; try discriminate B; cbn [g_line hw1 u_cur u_last u_det u_tdr u_rdr u_txeie u_rtof u_cen u_uif bind]; auto;
    try (destruct ce; reflexivity);
    repeat (first
      [ match goal with |- context [match ?x with Some _ => _ | None => _ end] => destruct x end
      | match goal with |- context [if ?x then _ else _] => destruct x end
      | match goal with |- context [bind (wr ?x ?y ?z) _] => destruct (wr x y z) end
      | match goal with |- context [bind (Base.bind (wr ?x ?y ?z) _) _] => destruct (wr x y z) end
      | match goal with |- context [bind (rd ?x ?y) _] => destruct (rd x y) end
      | match goal with |- context [bind (y_event ?x ?y) _] => destruct (y_event x y) end ]; cbn [bind]; auto).
Qed.
Lemma passed_stays x p k u p' k' u' t : is_hw x = true -> passed x p = true -> g_line p k u = Ok (p', k', u', t) ->
  hw2 x u' = hw2 x u /\ match p' with Some q => passed x q = true | None => True end.
Proof.
  intros A B E. destruct x; try discriminate A; destruct p; try discriminate B; cbn [g_line bind] in E; cases E; inversion E; subst; cbn [hw2 passed u_tdr]; auto.
Qed.
Definition ontime (p : gpc) (x : yact) : Prop := is_hw x = true /\ passed x p = true.
Lemma ontime_hws p k aft : Forall (ontime p) aft -> forall u, g_line p k (fst (hws aft u)) = let* '(p', k', u', t) := g_line p k u in Ok (p', k', fst (hws aft u'), t).
Proof.
  induction 1 as [|x l [A B] _ IH]; intros u; cbn [hws fst].
  - destruct (g_line p k u) as [[[[? ?] ?] ?]| |]; reflexivity.
  - rewrite IH, passed_line by auto. destruct (g_line p k u) as [[[[? ?] ?] ?]| |]; reflexivity.
Qed.
Lemma ontime_outs p k u p' k' u' t aft : Forall (ontime p) aft -> g_line p k u = Ok (p', k', u', t) -> snd (hws aft u') = snd (hws aft u) /\ match p' with Some q => Forall (ontime q) aft | None => True end.
Proof.
  intros F. revert u u'. induction F as [|x l [A B] F IH]; intros u u' E; cbn [hws snd]; [split; auto; destruct p'; auto|]. destruct (passed_stays _ _ _ _ _ _ _ _ A B E) as (X & Y).
  destruct (IH (hw1 x u) (hw1 x u')) as (I1 & I2). { rewrite passed_line, E by auto. reflexivity. }
  rewrite X, I1. split; auto. destruct p'; auto. constructor; auto. now split.
Qed.
Section Exact.
Context (c : cfg) (h0 : gfw).
Inductive exact_inv (fs : list gact) (h : gfw) (t : list yitem) : Prop :=
| ex_free t' : g_irq h = None -> y_run c (acts_of c fs h0) (g_sys h0) = Ok (g_sys h, t') -> lib_of t' = lib_of t -> on_line t' = on_line t -> exact_inv fs h t
| ex_in p H p0 l0 t0 k0 u0 sub k1 u1 th aft : g_irq h = Some p -> y_run c l0 (g_sys h0) = Ok (mk_sys k0 u0 sub, t0) -> begins H p0 k0 u0 ->
    reach p0 k0 u0 (Some p) k1 u1 th -> g_sys h = mk_sys k1 (fst (hws aft u1)) sub -> Forall (ontime p) aft ->
    lib_of t = lib_of t0 ++ lib_of th -> on_line t = on_line t0 ++ on_line (snd (hws aft u1)) -> acts_of c fs h0 = l0 ++ H :: aft -> exact_inv fs h t.
Lemma ex_nothing fs h t a h' : g_run c fs h0 = Ok (h, t) -> exact_inv fs h t -> act_of a h = [] -> g_sys h' = g_sys h -> g_irq h' = g_irq h -> exact_inv (fs ++ [a]) h' (t ++ []).
Proof.
  intros R I N F Q. rewrite app_nil_r. assert (X : acts_of c (fs ++ [a]) h0 = acts_of c fs h0) by (erewrite acts_snoc by eauto; now rewrite N, app_nil_r). destruct I.
  - eapply ex_free; [congruence|rewrite X, F; eauto|auto|auto].
  - eapply ex_in; [rewrite Q; eauto|eauto|eauto|eauto|rewrite F; eauto|auto|auto|auto|congruence].
Qed.
Lemma ex_one fs h t a x w' t' : g_run c fs h0 = Ok (h, t) -> exact_inv fs h t -> g_irq h = None -> act_of a h = [x] -> y_act c x (g_sys h) = Ok (w', t') -> exact_inv (fs ++ [a]) (mk_gfw w' None) (t ++ t').
Proof.
  intros R I Q N E. destruct I as [t1 _ R' L O|]; [|congruence]. eapply ex_free with (t' := t1 ++ t'); auto.
  - erewrite acts_snoc by eauto. rewrite N, (y_run_snoc _ _ _ _ _ _ R'), E. reflexivity.
  - rewrite !lib_of_app. congruence.
  - rewrite !on_line_app. congruence.
Qed.
Lemma ex_begin fs h t a H p0 : g_run c fs h0 = Ok (h, t) -> exact_inv fs h t -> g_irq h = None -> act_of a h = [H] -> begins H p0 (y_lib (g_sys h)) (y_u (g_sys h)) -> exact_inv (fs ++ [a]) (mk_gfw (g_sys h) (Some p0)) (t ++ []).
Proof.
  intros R I Q N B. rewrite app_nil_r. destruct I as [t1 _ R' L O|]; [|congruence]. assert (W : g_sys h = mk_sys (y_lib (g_sys h)) (y_u (g_sys h)) (y_sub (g_sys h))) by (destruct (g_sys h); reflexivity).
  eapply ex_in with (aft := []); [reflexivity|rewrite <- W; eauto|eauto|apply reach_start|exact W|constructor| | |].
  - cbn. now rewrite app_nil_r.
  - cbn. now rewrite app_nil_r.
  - erewrite acts_snoc by eauto. now rewrite N.
Qed.
Lemma hws_lib l : forall u, lib_of (snd (hws l u)) = [].
Proof. induction l as [|x l IH]; intros u; cbn [hws snd]; [reflexivity|]. rewrite lib_of_app, IH. destruct x; cbn; auto. destruct (u_tdr u); reflexivity. Qed.
Lemma ex_step fs h t p h' t' : g_run c fs h0 = Ok (h, t) -> exact_inv fs h t -> g_irq h = Some p -> g_act c GStep h = Ok (h', t') -> exact_inv (fs ++ [GStep]) h' (t ++ t').
Proof.
  intros R I Q St. destruct I as [|q H p0 l0 t0 k0 u0 sub k1 u1 th aft Q' R0 B Re F La EL EO M]; [congruence|]. rewrite Q in Q'. inversion Q'; subst q. clear Q'.
  cbn [g_act] in St. rewrite Q, F in St. cbn [y_lib y_u y_sub] in St. rewrite ontime_hws in St by auto.
  destruct (g_line p k1 u1) as [[[[p' k'] u'] t1]| |] eqn:E; try discriminate St. cbn [bind] in St. inversion St; subst t1 h'. clear St.
  assert (N : acts_of c (fs ++ [GStep]) h0 = l0 ++ H :: aft) by (erewrite acts_snoc by eauto; cbn [act_of]; now rewrite M, app_nil_r).
  destruct (ontime_outs _ _ _ _ _ _ _ _ La E) as (O1 & O2). pose proof (line_keeps _ _ _ _ _ _ _ E) as OL.
  assert (Re' := reach_step _ _ _ _ _ _ _ _ _ _ _ Re E). assert (Hw : Forall (fun x => is_hw x = true) aft) by (eapply Forall_impl; [|exact La]; intros x (Y & _); exact Y).
  destruct p' as [p'|].
  - eapply ex_in with (l0 := l0) (aft := aft); [reflexivity|eauto|eauto|exact Re'|reflexivity|exact O2| | |exact N].
    + rewrite !lib_of_app, EL. now rewrite app_assoc.
    + rewrite on_line_app, OL, app_nil_r, O1. exact EO.
  - assert (Ac : y_act c H (mk_sys k0 u0 sub) = Ok (mk_sys k' u' sub, th ++ t')) by (rewrite begins_exec with (p0 := p0) by auto; rewrite (reach_exec _ _ _ _ _ _ _ Re'), exec_none; cbn [bind]; now rewrite app_nil_r).
    pose proof (reach_keeps _ _ _ _ _ _ _ Re') as K2.
    eapply ex_free with (t' := t0 ++ (th ++ t') ++ snd (hws aft u')); [reflexivity| | |].
    + rewrite N, y_run_app, R0. cbn [bind y_run]. rewrite Ac. cbn [bind]. rewrite run_hws by auto. reflexivity.
    + rewrite !lib_of_app, hws_lib, EL, app_nil_r. now rewrite !app_assoc.
    + rewrite on_line_app, OL, app_nil_r in K2. rewrite !on_line_app, O1, EO, OL, K2, !app_nil_r. reflexivity.
Qed.
Lemma ex_hw fs h t p x h' t' : g_run c fs h0 = Ok (h, t) -> exact_inv fs h t -> g_irq h = Some p -> is_hw x = true -> passed x p = true -> g_act c (GHw x) h = Ok (h', t') -> exact_inv (fs ++ [GHw x]) h' (t ++ t').
Proof.
  intros R I Q Hx P St. destruct I as [|q H p0 l0 t0 k0 u0 sub k1 u1 th aft Q' R0 B Re F La EL EO M]; [congruence|]. rewrite Q in Q'. inversion Q'; subst q. clear Q'.
  cbn [g_act] in St. rewrite Hx, hw_act in St by auto. rewrite Q, F in St. cbn [bind y_lib y_u y_sub] in St. inversion St; subst. clear St.
  assert (Lx : forall u, lib_of (hw2 x u) = []). { intros u. destruct x; cbn; auto. destruct (u_tdr u); reflexivity. }
  eapply ex_in with (l0 := l0) (aft := aft ++ [x]); [reflexivity|exact R0|exact B|exact Re| | | | |].
  - cbn [g_sys]. now rewrite hws_snoc.
  - apply Forall_app. split; auto. constructor; auto. now split.
  - rewrite lib_of_app, Lx, app_nil_r. exact EL.
  - rewrite hws_snoc, !on_line_app. cbn [snd]. rewrite EO, on_line_app, app_assoc. reflexivity.
  - erewrite acts_snoc by eauto. cbn [act_of]. rewrite Hx, M, <- app_assoc. reflexivity.
Qed.
Lemma exact_run fs : g_irq h0 = None -> g_on_time c h0 fs -> forall h t, g_run c fs h0 = Ok (h, t) -> exact_inv fs h t.
Proof.
  intros Q0. induction fs as [|a fs IH] using rev_ind; intros T h t R.
  - inversion R; subst. eapply ex_free with (t' := []); auto.
  - assert (T' : g_on_time c h0 fs). { intros l1 x l2 h1 t1 E. subst fs. apply (T l1 x (l2 ++ [a])). rewrite <- app_assoc. reflexivity. }
    specialize (IH T'). rewrite g_run_app in R. destruct (g_run c fs h0) as [[h1 t1]| |] eqn:R1; try discriminate R. cbn [bind g_run] in R. specialize (IH _ _ eq_refl).
    destruct (g_act c a h1) as [[h2 t2]| |] eqn:St; try discriminate R. cbn [bind] in R. inversion R; subst. rewrite app_nil_r. clear R.
    assert (St0 := St). destruct a as [|b r| | | |x]; cbn [g_act] in St.
    + destruct (g_irq h1) eqn:Q; [inversion St; subst; eapply ex_nothing; eauto; cbn [act_of]; now rewrite Q|]. bnd St. inversion St; subst. eapply ex_one; eauto. cbn [act_of]. now rewrite Q.
    + destruct (g_irq h1) eqn:Q; [inversion St; subst; eapply ex_nothing; eauto; cbn [act_of]; now rewrite Q|]. bnd St. inversion St; subst. eapply ex_one; eauto. cbn [act_of]. now rewrite Q.
    + destruct (g_irq h1) eqn:Q; [inversion St; subst; eapply ex_nothing; eauto; cbn [act_of]; now rewrite Q|]. destruct (usart_pending (y_lib (g_sys h1)) (y_u (g_sys h1))) eqn:P; inversion St; subst.
      * eapply ex_begin with (H := AUsart); eauto; [cbn [act_of]; now rewrite Q, P|left; auto].
      * eapply ex_nothing; eauto. cbn [act_of]. now rewrite Q, P.
    + destruct (g_irq h1) eqn:Q; [inversion St; subst; eapply ex_nothing; eauto; cbn [act_of]; now rewrite Q|]. destruct (u_uif (y_u (g_sys h1))) eqn:P; inversion St; subst.
      * eapply ex_begin with (H := ATimer); eauto; [cbn [act_of]; now rewrite Q, P|right; auto].
      * eapply ex_nothing; eauto. cbn [act_of]. now rewrite Q, P.
    + destruct (g_irq h1) eqn:Q; [eapply ex_step; eauto|inversion St; subst; eapply ex_nothing; eauto].
    + destruct (is_hw x) eqn:Hx.
      * destruct (g_irq h1) as [p|] eqn:Q.
        -- eapply ex_hw; eauto; exact (T fs (GHw x) [] h1 t1 eq_refl R1 x p eq_refl Hx Q).
        -- bnd St. inversion St; subst. eapply ex_one; eauto; cbn [act_of]; now rewrite Hx.
      * destruct (g_irq h1) eqn:Q; inversion St; subst; (eapply ex_nothing; eauto; cbn [act_of]; now rewrite Hx).
Qed.
End Exact.
