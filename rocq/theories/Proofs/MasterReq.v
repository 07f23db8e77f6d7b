(** A request call interrupted by the manager and the driver equals a call that is not interrupted. *)
From Verif Require Import Proofs.QueueP Proofs.QueueIrq Proofs.MasterInv Proofs.MasterTrace Proofs.MasterHist Proofs.MasterSafe Proofs.Prefix Proofs.Atomic Proofs.MasterAtomic Proofs.MasterFine Model.MasterReq Spec.MasterReq.
Local Open Scope Z_scope.

Lemma set_txq_id s : m_set_txq s (mm_txq s) = s. Proof. destruct s; reflexivity. Qed.
Definition w3 (F : master -> master) (x : option mpc * master * list mout) : option mpc * master * list mout := (fst (fst x), F (snd (fst x)), snd x).
(** *** lines of the manager on a state with other queues and another message [i] *)
Definition hid (i : nat) (M : msg) (q q2 : queue nat) (s : master) : master := m_set_txq (m_set_free (m_set_msgs s (upd (mm_msgs s) i M)) q) q2.
Lemma aget_upd {B} (l : list B) i j x : i <> j -> aget (upd l i x) (Z.of_nat j) = aget l (Z.of_nat j).
Proof. intros H. unfold aget. rewrite Nat2Z.id, upd_nth_error_other by auto. reflexivity. Qed.
Lemma aset_upd {B} (l : list B) i j x y : i <> j -> aset (upd l i x) (Z.of_nat j) y = om (fun l => upd l i x) (aset l (Z.of_nat j) y).
Proof. intros H. unfold aset. rewrite upd_length, Nat2Z.id. destruct (_ || _); [reflexivity|]. cbn [om]. rewrite Lib.upd_comm by auto. reflexivity. Qed.
Lemma hid_get i M q q2 s j : i <> j -> get_msg (hid i M q q2 s) j = get_msg s j.
Proof. intros H. unfold get_msg, hid. mprj. apply aget_upd; auto. Qed.
Lemma hid_put i M q q2 s j m : i <> j -> put_msg (hid i M q q2 s) j m = om (hid i M q q2) (put_msg s j m).
Proof. intros H. unfold put_msg, hid at 1. mprj. rewrite aset_upd by auto. rewrite bind_om, om_bind. apply bind_ext. intros l. reflexivity. Qed.
Lemma hid_cur i M q q2 s : mm_cur s <> Some i -> cur_msg (hid i M q q2 s) = cur_msg s.
Proof. intros H. unfold cur_msg. change (mm_cur (hid i M q q2 s)) with (mm_cur s). destruct (mm_cur s) as [j|]; [|reflexivity]. rewrite hid_get by congruence. reflexivity. Qed.
Lemma cur_is s j m : cur_msg s = Ok (j, m) -> mm_cur s = Some j.
Proof. unfold cur_msg. destruct (mm_cur s) as [i|]; [|discriminate]. intros H. apply bind_ok in H as (m' & _ & H). injection H as <- _. reflexivity. Qed.
Lemma hid_len i M q q2 s n : mm_cur s <> Some i -> set_cur_resp_len (hid i M q q2 s) n = om (hid i M q q2) (set_cur_resp_len s n).
Proof. intros H. unfold set_cur_resp_len. rewrite hid_cur by auto. rewrite om_bind. apply bind_ext_ok. intros [j m] E. apply hid_put. apply cur_is in E. congruence. Qed.
Lemma free_len q s n : set_cur_resp_len (m_set_free s q) n = om (fun s => m_set_free s q) (set_cur_resp_len s n).
Proof. unfold set_cur_resp_len, cur_msg. mprj. destruct (mm_cur s) as [j|]; [|reflexivity]. rewrite get_free, !om_bind. destruct (get_msg s j); cbn [bind]; auto. apply put_free. Qed.
Lemma txq_len q s n : set_cur_resp_len (m_set_txq s q) n = om (fun s => m_set_txq s q) (set_cur_resp_len s n).
Proof. unfold set_cur_resp_len, cur_msg. mprj. destruct (mm_cur s) as [j|]; [|reflexivity]. rewrite get_txq, !om_bind. destruct (get_msg s j); cbn [bind]; auto. apply put_txq. Qed.

Ltac lcase := repeat (rewrite ?om_bind; match goal with
  | |- context [bind ?x _] => lazymatch x with bind _ _ => fail | om _ _ => rewrite bind_om | _ => apply bind_ext; intros ? end
  | |- context [let '(_, _) := ?x in _] => destruct x
  | |- context [if ?b then _ else _] => destruct b
  end); try reflexivity.
Lemma hid_line c l i M q q2 s : l <> M649 -> l <> M651 -> l <> M901 -> (fly_line l = true -> mm_cur s <> Some i) ->
  m_line c l (hid i M q q2 s) = om (w3 (hid i M q q2)) (m_line c l s).
Proof.
  intros N1 N2 N3 C. destruct l; try congruence; cbn [fly_line] in C; try (specialize (C eq_refl)); cbn [m_line]; rewrite ?hid_cur, ?hid_len by exact C;
    unfold hid at 1; mprj; lcase.
Qed.
Lemma free_line c l q s : l <> M901 -> m_line c l (m_set_free s q) = om (w3 (fun s => m_set_free s q)) (m_line c l s).
Proof.
  intros N3. destruct l; try congruence; cbn [m_line]; change (cur_msg (m_set_free s q)) with (cur_msg s); rewrite ?free_len; mprj; lcase.
Qed.
Lemma txq_line c l q s : l <> M649 -> l <> M651 -> m_line c l (m_set_txq s q) = om (w3 (fun s => m_set_txq s q)) (m_line c l s).
Proof.
  intros N1 N2. destruct l; try congruence; cbn [m_line]; change (cur_msg (m_set_txq s q)) with (cur_msg s); rewrite ?txq_len; mprj; lcase.
Qed.
(** what a line leaves alone *)
Lemma line_keep c l s l' s' o : m_line c l s = Ok (l', s', o) -> (l <> M901 -> mm_free s' = mm_free s) /\ (l <> M651 -> mm_txq s' = mm_txq s) /\
  forall i, (fly_line l = true -> mm_cur s <> Some i) -> nth_error (mm_msgs s') i = nth_error (mm_msgs s) i.
Proof.
  intros E. destruct l; mline_inv E; mprj; (split; [auto; congruence|]; split; [auto; congruence|]; intros i D; auto). all: specialize (D eq_refl); apply upd_nth_error_other; congruence.
Qed.
(** *** a pop and a push on a queue that is not empty may change places *)
Lemma pop_then_push N (qs : queue nat) l i q x : rep N qs l -> modbus_queue_pop N qs = Ok (Some i, q) -> Z.of_nat (length l) < N ->
  exists q' qs', modbus_queue_push N q (Some x) = Ok (q', None) /\ modbus_queue_push N qs (Some x) = Ok (qs', None) /\ modbus_queue_pop N qs' = Ok (Some i, q').
Proof.
  intros R P L. destruct l as [|y l]; [rewrite pop_empty in P by auto; discriminate|].
  destruct (pop_cons _ _ _ _ R) as (q0 & P0 & R0). rewrite P in P0. injection P0 as <- <-. cbn [length] in L.
  destruct (push_room N q l x R0 ltac:(lia)) as (q' & E1 & R1 & _). destruct (push_room N qs (i :: l) x R ltac:(cbn [length]; lia)) as (qs' & E2 & R2 & _).
  exists q', qs'. split; [exact E1|]. split; [exact E2|].
  assert (X1 := push_raw N q l x R0 ltac:(lia)). assert (X2 := push_raw N qs (i :: l) x R ltac:(cbn [length]; lia)). assert (X3 := pop_raw N qs (i :: l) R). rewrite P in X3.
  assert (X4 := pop_raw N qs' ((i :: l) ++ [x]) R2). cbn [Datatypes.app] in X4. rewrite X4. do 2 f_equal. rewrite E1 in X1. rewrite E2 in X2. injection X1 as X1. injection X2 as X2. injection X3 as X3. subst q' qs' q. cbn [q_head q_tail q_items q_slots].
  assert (Hh := rep_range _ _ _ R). assert (Ht := rep_tail _ _ _ R). assert (Hi := rep_items _ _ _ R). cbn [length] in Hi. assert (Hn := rep_N _ _ _ R). assert (He := head_eq_tail _ _ _ R). cbn [length] in He.
  f_equal; [rewrite Hi; unfold u8; rewrite !(Z.mod_small _ 256) by lia; rewrite ?(Z.mod_small _ 256) by lia; lia|].
  apply Lib.upd_comm. intros E. assert (q_head qs = q_tail qs) by lia. replace (q_head qs =? q_tail qs) with true in He by lia. lia.
Qed.

(** *** the relation before the moment at which the call takes effect: abstract state [k], the call has not been made *)
Definition built (p : req_param) (pc : rpc) (i : nat) (m M : msg) : Prop :=
  match pc with
  | RGen j => j = i /\ M = m
  | RSend j => j = i /\ exists st, generate_request_PDU_data m p = Ok (st, M) /\ (st <? 0) = false
  | RPush j _ => j = i /\ exists st m' st2 r, generate_request_PDU_data m p = Ok (st, m') /\ (st <? 0) = false /\ modbus_RTU_send (m_req m') (p_id p) = Ok (st2, r) /\ (RET_ERROR =? st2) = false /\ M = set_req m' r
  | _ => False
  end.
Definition txrel (N : Z) (pc : rpc) (q qs : queue nat) : Prop :=
  match pc with RGen _ | RSend _ => q = qs | RPush i p => exists l, at_push N i p q qs l false | _ => False end.
Inductive pre (c : cfg) (a : api) : rpc -> mconf -> mconf -> Prop :=
| pre_pop pc q l k : at_pop (c_queue c) pc q (mm_free (mc_s k)) l false -> pre c a (RPop pc) (mk_mconf (m_set_free (mc_s k) q) (mc_pc k)) k
| pre_held pc i m M q q2 k : modbus_queue_pop (c_queue c) (mm_free (mc_s k)) = Ok (Some i, q) -> nth_error (mm_msgs (mc_s k)) i = Some m -> built (api_param a) pc i m M ->
    txrel (c_queue c) pc q2 (mm_txq (mc_s k)) -> pre c a pc (mk_mconf (hid i M q q2 (mc_s k)) (mc_pc k)) k.
(** after that moment: the call has been made *)
Inductive post (c : cfg) : rpc -> mconf -> mconf -> Prop :=
| post_push i pc q l k : at_push (c_queue c) i pc q (mm_txq (mc_s k)) l true -> post c (RPush i pc) (mk_mconf (m_set_txq (mc_s k) q) (mc_pc k)) k
| post_ret r k : post c (RRet r) k k.

Definition sim (R : mconf -> mconf -> Prop) (x y : outcome (mconf * list mitem)) : Prop :=
  match x, y with Ok (k, o), Ok (k', o') => o = o' /\ R k k' | UB, UB => True | Diverge, Diverge => True | _, _ => False end.
Lemma sim_line c F l (R : mconf -> mconf -> Prop) s : m_line c l (F s) = om (w3 F) (m_line c l s) -> (forall l' s' o, m_line c l s = Ok (l', s', o) -> R (mk_mconf (F s') l') (mk_mconf s' l')) ->
  sim R (m_act c MStep (mk_mconf (F s) (Some l))) (m_act c MStep (mk_mconf s (Some l))).
Proof.
  intros E H. cbn [m_act mc_pc mc_s]. rewrite E. destruct (m_line c l s) as [[[l' s'] o]| |] eqn:El; cbn [om w3 fst snd bind sim]; eauto.
Qed.
Lemma held_first c free pend l s i q : mbuf c free pend l s -> modbus_queue_pop (c_queue c) (mm_free s) = Ok (Some i, q) -> exists free', free = i :: free' /\ (fly_line l = true -> mm_cur s <> Some i) /\ ~ In i pend.
Proof.
  intros B P. assert (R := mb_free _ _ _ _ _ B). destruct free as [|j free]; [rewrite pop_empty in P by auto; discriminate|]. destruct (pop_cons _ _ _ _ R) as (q' & P' & _). rewrite P in P'. injection P' as <- <-.
  exists free. split; [reflexivity|]. assert (N := mb_nd _ _ _ _ _ B). unfold fly in N. split.
  - intros F C. rewrite F, C in N. cbn [Datatypes.app] in N. inversion N as [|? ? X _]. apply X. apply in_or_app. right. left. reflexivity.
  - intros I. apply NoDup_app_r in N. apply NoDup_remove_2 in N. apply N. apply in_or_app. left. exact I.
Qed.
Lemma avail_early N i pc q qs l lin : at_push N i pc q qs l lin -> taken_early pc q = false -> check_data_to_send_availability q = check_data_to_send_availability qs.
Proof.
  intros (R & H) T. assert (A := avail_iff _ _ _ R). assert (Hi := rep_items _ _ _ R). assert (Hn := rep_N _ _ _ R). assert (Hc := rep_cap _ _ _ R). assert (He := head_eq_tail _ _ _ R).
  destruct pc, lin; try contradiction; cbn [taken_early] in T.
  all: try (destruct H as (-> & H); reflexivity). all: try (subst q; reflexivity).
  - destruct H as (E & H1 & H2 & H3). rewrite A. rewrite E. rewrite E in T. unfold check_data_to_send_availability. cbn [set_head q_tail q_head q_items] in *. rewrite Hi. destruct (length l); lia.
  - destruct H as (-> & H). rewrite A. unfold check_data_to_send_availability. cbn [set_items q_tail q_head q_items] in *. rewrite Hi in *. rewrite He. unfold u8 in *. destruct l as [|y l]; [cbn [length] in *; discriminate T|]. rewrite Z.mod_small in * by (cbn [length] in *; lia). cbn [length] in *. lia.
  - destruct H as (-> & H). rewrite A. unfold check_data_to_send_availability. cbn [set_items q_tail q_head q_items] in *. rewrite Hi in *. rewrite He. unfold u8 in *. destruct l as [|y l]; [cbn [length] in *; discriminate T|]. rewrite Z.mod_small in * by (cbn [length] in *; lia). cbn [length] in *. lia.
Qed.
Lemma mpc_eq3 (l : mpc) : l = M649 \/ l = M651 \/ l = M901 \/ (l <> M649 /\ l <> M651 /\ l <> M901).
Proof. destruct l; auto; right; right; right; repeat split; discriminate. Qed.
Lemma room_901 c t s : Minv c t M901 s -> cfg_master_ok c -> exists free x, rep (c_queue c) (mm_free s) free /\ mm_cur s = Some x /\ Z.of_nat (length free) < c_queue c.
Proof.
  intros M Hc. destruct (Minv_bufs _ _ _ _ M) as (free & pend & B & L). destruct (mm_cur s) as [x|] eqn:C; [|exfalso; eapply mb_cur; eauto; reflexivity].
  unfold fly in L. cbn [fly_line] in L. rewrite C in L. cbn [length] in L. exists free, x. split; [apply (mb_free _ _ _ _ _ B)|]. split; [reflexivity|]. destruct Hc as [Hq _]. lia.
Qed.
Lemma same_len N (q : queue nat) l l' : rep N q l -> rep N q l' -> length l = length l'.
Proof. intros R R'. assert (X := rep_items _ _ _ R). rewrite (rep_items _ _ _ R') in X. lia. Qed.
Lemma pre_mgr c a pc ck k t : cfg_master_ok c -> Minv c t (mloc k) (mc_s k) -> pre c a pc ck k -> r_fine (mc_pc ck) pc (mc_s ck) = true ->
  sim (pre c a pc) (m_act c MStep ck) (m_act c MStep k).
Proof.
  intros Hc M H Fi. destruct H as [pc q l k H|pc i m M0 q q2 k P Nm Bu Tx].
  - destruct k as [s p]. cbn [mc_s mc_pc] in *. destruct p as [p|]; [|cbn [m_act mc_pc mc_s sim]; split; [reflexivity|]; apply (pre_pop c a pc q l (mk_mconf s _)); exact H].
    unfold mloc in M. cbn [mc_pc mc_s] in M. destruct (mpc_eq p) as [[-> |[-> | ->]]|(N1 & N2 & N3)].
    1,2: apply (sim_line c (fun s => m_set_free s q)); [apply free_line; discriminate|]; intros l' s' o E; apply (pre_pop c a pc q l (mk_mconf s' l')); cbn [mc_s]; rewrite (proj1 (line_keep _ _ _ _ _ _ E)) by discriminate; exact H.
    + destruct (room_901 c t s M Hc) as (free & x & Rf & C & L). assert (Ll := same_len _ _ _ _ Rf (proj1 H)). cbn [r_fine] in Fi.
      destruct (pop_sim_push (c_queue c) x pc q (mm_free s) l false H) as (q' & qs' & P1 & P2 & P3); [destruct (pop_in_count pc); auto; discriminate|lia|].
      cbn [m_act mc_pc mc_s m_line]. mprj. rewrite C, P1, P2. cbn [bind sim map]. split; [reflexivity|]. apply (pre_pop c a pc q' (l ++ [x]) (mk_mconf (m_set_cur (m_set_free s qs') None) (Some M902))). exact P3.
    + apply (sim_line c (fun s => m_set_free s q)); [apply free_line; assumption|]; intros l' s' o E; apply (pre_pop c a pc q l (mk_mconf s' l')); cbn [mc_s]; rewrite (proj1 (line_keep _ _ _ _ _ _ E)) by assumption; exact H.
  - destruct k as [s p]. cbn [mc_s mc_pc] in *. destruct p as [p|]; [|cbn [m_act mc_pc mc_s sim]; split; [reflexivity|]; apply (pre_held c a pc i m M0 q q2 (mk_mconf s _)); assumption].
    unfold mloc in M. cbn [mc_pc mc_s] in M. destruct (Minv_bufs _ _ _ _ M) as (free & pend & B & L). destruct (held_first _ _ _ _ _ _ _ B P) as (free' & -> & Cu & Ni).
    destruct (mpc_eq p) as [[-> |[-> | ->]]|(N1 & N2 & N3)].
    + assert (A : check_data_to_send_availability q2 = check_data_to_send_availability (mm_txq s)).
      { destruct pc; try contradiction; cbn [txrel] in Tx; try (subst; reflexivity). destruct Tx as (l & Tx). apply (avail_early _ _ _ _ _ _ _ Tx). cbn [r_fine] in Fi. change (mm_txq (hid i M0 q q2 s)) with q2 in Fi. destruct (taken_early pc q2); auto; discriminate. }
      cbn [m_act mc_pc mc_s m_line]. change (mm_txq (hid i M0 q q2 s)) with q2. rewrite A. destruct (check_data_to_send_availability (mm_txq s)); cbn [bind sim map]; (split; [reflexivity|]); apply (pre_held c a pc i m M0 q q2 (mk_mconf s _)); assumption.
    + assert (A : exists r q2' qs', modbus_queue_pop (c_queue c) q2 = Ok (r, q2') /\ modbus_queue_pop (c_queue c) (mm_txq s) = Ok (r, qs') /\ txrel (c_queue c) pc q2' qs').
      { destruct pc as [|?|?|j pc|]; try contradiction; cbn [txrel] in *.
        1,2: subst q2; destruct (rep_pop _ _ _ (mb_pend _ _ _ _ _ B)) as (q' & E & _); eauto 6.
        destruct Tx as (l & Tx). cbn [r_fine] in Fi. destruct (push_sim_pop _ _ _ _ _ _ _ Tx) as (q' & qs' & P1 & P2 & P3); [destruct (push_in_count pc); auto; discriminate| |eauto 7].
        intros Bt. destruct Tx as (_ & Tx). destruct pc; try discriminate Bt; contradiction. }
      destruct A as (r & q2' & qs' & P1 & P2 & P3). cbn [m_act mc_pc mc_s m_line]. change (mm_txq (hid i M0 q q2 s)) with q2. rewrite P1, P2. cbn [bind sim map]. split; [reflexivity|].
      apply (pre_held c a pc i m M0 q q2' (mk_mconf (m_set_cur (m_set_txq s qs') r) (Some M404))); assumption.
    + destruct (room_901 c t s M Hc) as (free & x & Rf & C & Lf). destruct (pop_then_push _ _ _ _ _ x Rf P Lf) as (q' & qs' & P1 & P2 & P3).
      cbn [m_act mc_pc mc_s m_line]. change (mm_free (hid i M0 q q2 s)) with q. change (mm_cur (hid i M0 q q2 s)) with (mm_cur s). rewrite C, P1, P2. cbn [bind sim map]. split; [reflexivity|].
      apply (pre_held c a pc i m M0 q' q2 (mk_mconf (m_set_cur (m_set_free s qs') None) (Some M902))); assumption.
    + apply (sim_line c (hid i M0 q q2)); [apply hid_line; assumption|]. intros l' s' o E. destruct (line_keep _ _ _ _ _ _ E) as (K1 & K2 & K3).
      apply (pre_held c a pc i m M0 q q2 (mk_mconf s' l')); cbn [mc_s]; auto; [rewrite K1|rewrite K3|rewrite K2]; assumption.
Qed.
Lemma post_mgr c pc ck k t : cfg_master_ok c -> Minv c t (mloc k) (mc_s k) -> post c pc ck k -> r_fine (mc_pc ck) pc (mc_s ck) = true ->
  sim (post c pc) (m_act c MStep ck) (m_act c MStep k).
Proof.
  intros Hc M H Fi. destruct H as [i pc q l k H|r k].
  - destruct k as [s p]. cbn [mc_s mc_pc] in *. destruct p as [p|]; [|cbn [m_act mc_pc mc_s sim]; split; [reflexivity|]; apply (post_push c i pc q l (mk_mconf s _)); exact H].
    unfold mloc in M. cbn [mc_pc mc_s] in M. destruct (Minv_bufs _ _ _ _ M) as (free & pend & B & L). destruct (mpc_eq p) as [[-> |[-> | ->]]|(N1 & N2 & N3)].
    + cbn [m_act mc_pc mc_s m_line]. cbn [r_fine] in Fi. mprj. assert (A := avail_early _ _ _ _ _ _ _ H). rewrite A by (destruct (taken_early pc q); auto; discriminate).
      destruct (check_data_to_send_availability (mm_txq s)); cbn [bind sim map]; (split; [reflexivity|]); apply (post_push c i pc q l (mk_mconf s _)); exact H.
    + cbn [r_fine] in Fi. destruct (push_sim_pop _ _ _ _ _ _ _ H) as (q' & qs' & P1 & P2 & P3); [destruct (push_in_count pc); auto; discriminate| |].
      { intros _ ->. assert (X := same_len _ _ _ _ (proj1 H) (mb_pend _ _ _ _ _ B)). destruct pend; [|discriminate]. exact (mb_651 _ _ _ _ _ B eq_refl eq_refl). }
      cbn [m_act mc_pc mc_s m_line]. mprj. rewrite P1, P2. cbn [bind sim map]. split; [reflexivity|]. apply (post_push c i pc q' (tl l) (mk_mconf (m_set_cur (m_set_txq s qs') (hd_error l)) (Some M404))). exact P3.
    + apply (sim_line c (fun s => m_set_txq s q)); [apply txq_line; discriminate|]; intros l' s' o E; apply (post_push c i pc q l (mk_mconf s' l')); cbn [mc_s]; rewrite (proj1 (proj2 (line_keep _ _ _ _ _ _ E))) by discriminate; exact H.
    + apply (sim_line c (fun s => m_set_txq s q)); [apply txq_line; assumption|]; intros l' s' o E; apply (post_push c i pc q l (mk_mconf s' l')); cbn [mc_s]; rewrite (proj1 (proj2 (line_keep _ _ _ _ _ _ E))) by assumption; exact H.
  - unfold sim. destruct (m_act c MStep k) as [[k' o]| |]; auto. split; [reflexivity|constructor].
Qed.
Lemma built_same p pc i m M : built p pc i m M -> m_resp M = m_resp m.
Proof.
  destruct pc; cbn [built]; try contradiction; intros (_ & H); [subst; reflexivity|destruct H as (st & E & _); exact (gen_resp _ _ _ _ E)|].
  destruct H as (st & m' & st2 & r & E & _ & _ & _ & ->). exact (gen_resp _ _ _ _ E).
Qed.
Lemma built_resp p pc i m M r : built p pc i m M -> rr_ptr r = rr_ptr (m_resp m) -> built p pc i (set_resp m r) (set_resp M r).
Proof.
  intros B E. assert (G := gen_w r p m E). destruct pc; cbn [built] in *; try contradiction; destruct B as (-> & H); (split; [reflexivity|]).
  - subst; reflexivity.
  - destruct H as (st & H & H2). exists st. rewrite G, H. auto.
  - destruct H as (st & m' & st2 & r2 & H & H2 & H3 & H4 & ->). exists st, (set_resp m' r), st2, r2. rewrite G, H. auto.
Qed.
Lemma wr_ptr r i v r' : wr r i v = Ok r' -> rr_ptr r' = rr_ptr r.
Proof. unfold wr. intros H. destruct (rr_ptr r) eqn:E; [|discriminate]. destruct (aset (rr_buf r) i v); try discriminate. injection H as <-. exact E || reflexivity. Qed.
Lemma pre_ev c a pc ck k t e : cfg_master_ok c -> Minv c t (mloc k) (mc_s k) -> is_req e = false -> pre c a pc ck k -> sim (pre c a pc) (m_act c (MEv e) ck) (m_act c (MEv e) k).
Proof.
  intros Hc M Nr H. destruct H as [pc q l k H|pc i m M0 q q2 k P Nm Bu Tx].
  - destruct k as [s p]. cbn [mc_s mc_pc m_act] in *. destruct (ev_on_free c e s q Nr) as (E1 & E2). rewrite E1. destruct (m_event c e s) as [[s' o]| |] eqn:E; cbn [om bind fst snd sim]; auto.
    split; [reflexivity|]. apply (pre_pop c a pc q l (mk_mconf s' p)). cbn [mc_s]. rewrite (E2 _ _ eq_refl). exact H.
  - destruct k as [s p]. cbn [mc_s mc_pc m_act] in *.
    assert (Easy : forall s', mm_free s' = mm_free s -> mm_txq s' = mm_txq s -> mm_msgs s' = mm_msgs s -> pre c a pc (mk_mconf (hid i M0 q q2 s') p) (mk_mconf s' p)).
    { intros s' A1 A2 A3. apply (pre_held c a pc i m M0 q q2 (mk_mconf s' p)); cbn [mc_s]; auto; [rewrite A1|rewrite A3|rewrite A2]; assumption. }
    destruct e; try discriminate Nr; cbn [m_event].
    1-4: cbn [bind sim]; split; [reflexivity|]; change (mm_sub (hid i M0 q q2 s)) with (mm_sub s); destruct (mm_sub s); [match goal with |- pre _ _ _ _ (mk_mconf ?s' _) => apply (Easy s') end|apply Easy]; reflexivity.
    + change (mm_rx (hid i M0 q q2 s)) with (mm_rx s). destruct (mm_rx s) as [j|] eqn:Rx; [|cbn [bind sim]; split; [reflexivity|apply Easy; reflexivity]].
      destruct (Nat.eq_dec i j) as [<-|D].
      * assert (Li : (i < length (mm_msgs s))%nat) by (apply nth_error_Some; congruence).
        assert (G1 : get_msg s i = Ok m) by (apply get_msg_some; exact Nm). assert (G2 : get_msg (hid i M0 q q2 s) i = Ok M0) by (apply get_msg_some; unfold hid; mprj; apply upd_nth_error_same; exact Li).
        rewrite G1, G2. cbn [bind]. rewrite (built_same _ _ _ _ _ Bu). destruct (wr (m_resp m) (rr_len (m_resp m)) (u8 b)) as [r| |] eqn:W; cbn [bind sim]; auto. apply wr_ptr in W. cbn zeta.
        set (r' := set_len r (u8 (rr_len r + 1))). rewrite !put_msg_ok by (try (unfold hid; mprj; rewrite upd_length); exact Li). cbn [bind sim]. split; [reflexivity|].
        set (s' := m_set_msgs s (upd (mm_msgs s) i (set_resp m r'))).
        assert (X : m_set_msgs (hid i M0 q q2 s) (upd (mm_msgs (hid i M0 q q2 s)) i (set_resp M0 r')) = hid i (set_resp M0 r') q q2 s') by (unfold hid, s'; mprj; rewrite !upd_upd; reflexivity).
        rewrite X. apply (pre_held c a pc i (set_resp m r') (set_resp M0 r') q q2 (mk_mconf s' p)); cbn [mc_s]; auto; [unfold s'; mprj; apply upd_nth_error_same; exact Li|].
        apply built_resp; [exact Bu|]. unfold r'. cbn [set_len rr_ptr]. exact W.
      * rewrite hid_get by auto. destruct (get_msg s j) as [mj| |]; cbn [bind sim]; auto. destruct (wr (m_resp mj) (rr_len (m_resp mj)) (u8 b)) as [r| |]; cbn [bind sim]; auto. rewrite hid_put by auto.
        cbn zeta. match goal with |- context [put_msg s j ?x] => destruct (put_msg s j x) as [s'| |] eqn:Pm end; cbn [om bind sim]; auto. split; [reflexivity|]. apply put_msg_inv in Pm as (-> & _).
        apply (pre_held c a pc i m M0 q q2 (mk_mconf (m_set_msgs s _) p)); auto. cbn [mc_s]. mprj. rewrite upd_nth_error_other by auto. exact Nm.
    + cbn [bind sim]. split; [reflexivity|]. change (mm_timer (hid i M0 q q2 s)) with (mm_timer s). destruct (negb (mm_timer s =? 0)); [match goal with |- pre _ _ _ _ (mk_mconf ?s' _) => apply (Easy s') end|apply Easy]; reflexivity.
Qed.
Lemma post_ev c pc ck k e : is_req e = false -> post c pc ck k -> sim (post c pc) (m_act c (MEv e) ck) (m_act c (MEv e) k).
Proof.
  intros Nr H. destruct H as [i pc q l k H|r k].
  - destruct k as [s p]. cbn [mc_s mc_pc m_act] in *. destruct (ev_on_txq c e s q Nr) as (E1 & E2). rewrite E1. destruct (m_event c e s) as [[s' o]| |] eqn:E; cbn [om bind fst snd sim]; auto.
    split; [reflexivity|]. apply (post_push c i pc q l (mk_mconf s' p)). cbn [mc_s]. rewrite (E2 _ _ eq_refl). exact H.
  - unfold sim. destruct (m_act c (MEv e) k) as [[k' o]| |]; auto. split; [reflexivity|constructor].
Qed.
(** *** the steps of the call *)
Lemma pre_step c a pc ck k t : cfg_master_ok c -> Minv c t (mloc k) (mc_s k) -> req_safe a -> pre c a pc ck k ->
  exists pc' ck', r_act c a RStep (pc, ck) = Ok (pc', ck', []) /\
    (pre c a pc' ck' k \/ exists k' r, m_act c (MEv (MReq a)) k = Ok (k', [MTEv (MReq a); MTOut (MoRet a r)]) /\ post c pc' ck' k' /\ (forall r', pc' = RRet r' -> r' = r) /\ (pc' <> RRet r -> r = REQUEST_SEND_TO_QUEUE)).
Proof.
  intros Hc M Sa H. destruct (Minv_bufs _ _ _ _ M) as (free & pend & B & L). destruct (m_event_total c t _ _ (MReq a) Hc M Sa) as (s1 & o1 & E1).
  assert (Req : exists r, modbus_master_request c a (mc_s k) = Ok (r, s1) /\ m_act c (MEv (MReq a)) k = Ok (mk_mconf s1 (mc_pc k), [MTEv (MReq a); MTOut (MoRet a r)])).
  { cbn [m_event] in E1. apply bind_ok in E1 as ([r s2] & E & H1). injection H1 as -> _. exists r. split; [exact E|]. cbn [m_act m_event]. rewrite E. reflexivity. }
  clear E1. destruct Req as (r & Rq & Ra). unfold modbus_master_request, generate_request in Rq. cbn [r_act fst snd].
  destruct H as [pc q l k H|pc i m M0 q q2 k P Nm Bu Tx]; destruct k as [s p]; cbn [mc_s mc_pc] in *.
  - destruct (pop_sim_step (c_queue c) pc q (mm_free s) l false H) as (pc' & q' & E & S1). cbn [r_step]. mprj. rewrite E. cbn [bind]. change (m_set_free (m_set_free s q) q') with (m_set_free s q').
    do 2 eexists. split; [reflexivity|]. destruct S1 as [(S1 & _)|(_ & x & qs' & -> & P & S1)].
    + left. destruct pc'; try (destruct S1 as [_ S1]; contradiction); apply (pre_pop c a _ q' l (mk_mconf s p)); exact S1.
    + destruct S1 as [_ ->]. destruct x as [i|].
      * left. assert (Li : (i < length (mm_msgs s))%nat).
        { destruct (held_first _ _ _ _ _ _ _ B P) as (free' & -> & _). rewrite (mb_len _ _ _ _ _ B). assert (X := mb_lt _ _ _ _ _ B). rewrite !Forall_app in X. destruct X as (_ & _ & X). inversion X; auto. }
        destruct (nth_error (mm_msgs s) i) as [m|] eqn:Nm; [|apply nth_error_None in Nm; lia].
        replace (m_set_free s qs') with (hid i m qs' (mm_txq s) s) by (unfold hid; mprj; rewrite upd_same by auto; destruct s; reflexivity).
        apply (pre_held c a (RGen i) i m m qs' (mm_txq s) (mk_mconf s p)); cbn [mc_s built txrel]; auto.
      * right. rewrite P in Rq. cbn [bind] in Rq. injection Rq as <- <-. do 2 eexists. split; [exact Ra|]. split; [constructor|]. split; [intros r' [= <-]; reflexivity|congruence].
  - rewrite P in Rq. cbn [bind] in Rq. assert (G1 : get_msg (m_set_free s q) i = Ok m) by (apply get_msg_some; exact Nm). rewrite G1 in Rq. cbn [bind] in Rq.
    assert (Li : (i < length (mm_msgs s))%nat) by (apply nth_error_Some; congruence). assert (G2 : get_msg (hid i M0 q q2 s) i = Ok M0) by (apply get_msg_some; unfold hid; mprj; apply upd_nth_error_same; exact Li).
    destruct (generate_request_PDU_data m (api_param a)) as [[st m']| |] eqn:Eg; cbn [bind] in Rq; try discriminate. rewrite put_msg_ok in Rq by (mprj; exact Li). cbn [bind] in Rq. mprj.
    assert (Hput : forall x, put_msg (hid i M0 q q2 s) i x = Ok (hid i x q q2 s)) by (intros x; rewrite put_msg_ok by (unfold hid; mprj; rewrite upd_length; exact Li); unfold hid; mprj; rewrite upd_upd; reflexivity).
    destruct pc as [|j|j|j pc|]; cbn [built] in Bu; try contradiction; cbn [txrel] in Tx; cbn [r_step].
    + destruct Bu as (-> & ->). rewrite G2. cbn [bind]. rewrite Eg. cbn [bind]. rewrite Hput. cbn [bind]. do 2 eexists. split; [reflexivity|]. subst q2. destruct (st <? 0) eqn:Es.
      * right. injection Rq as <- <-. do 2 eexists. split; [exact Ra|]. split; [|split; [intros r' [= <-]; reflexivity|congruence]].
        replace (hid i m' q (mm_txq s) s) with (m_set_msgs (m_set_free s q) (upd (mm_msgs s) i m')) by (unfold hid; destruct s; reflexivity). constructor.
      * left. apply (pre_held c a (RSend i) i m m' q (mm_txq s) (mk_mconf s p)); cbn [mc_s built txrel]; auto. split; [reflexivity|]. exists st. auto.
    + destruct Bu as (-> & st0 & Eg0 & Es0). assert (st0 = st /\ M0 = m') by (split; congruence). destruct H as (-> & ->). rewrite Es0 in Rq. subst q2. rewrite G2. cbn [bind].
      destruct (modbus_RTU_send (m_req m') (p_id (api_param a))) as [[st2 r2]| |] eqn:Es; cbn [bind] in *; try discriminate. rewrite put_msg_ok in Rq by (mprj; rewrite upd_length; exact Li). cbn [bind] in Rq. mprj. rewrite upd_upd in Rq.
      rewrite Hput. cbn [bind]. do 2 eexists. split; [reflexivity|]. destruct (RET_ERROR =? st2) eqn:E2.
      * right. injection Rq as <- <-. do 2 eexists. split; [exact Ra|]. split; [|split; [intros r' [= <-]; reflexivity|congruence]].
        match goal with |- post _ _ (mk_mconf ?x _) (mk_mconf ?y _) => replace x with y by (unfold hid; destruct s; reflexivity) end. constructor.
      * left. apply (pre_held c a (RPush i P52) i m (set_req m' r2) q (mm_txq s) (mk_mconf s p)); cbn [mc_s built txrel]; auto.
        { split; [reflexivity|]. exists st, m', st2, r2. auto. }
        { exists pend. split; [apply (mb_pend _ _ _ _ _ B)|]. split; [reflexivity|]. destruct (held_first _ _ _ _ _ _ _ B P) as (free' & -> & _). cbn [length] in L. destruct Hc as [Hq _]. lia. }
    + destruct Bu as (-> & st0 & m0 & st2 & r2 & Eg0 & Es0 & Ed & Er & ->). assert (st0 = st /\ m0 = m') by (split; congruence). destruct H as (-> & ->). rewrite Es0, Ed in Rq. cbn [bind] in Rq. rewrite put_msg_ok in Rq by (mprj; rewrite upd_length; exact Li).
      cbn [bind] in Rq. mprj. rewrite upd_upd, Er in Rq. destruct Tx as (l & Tx). destruct (push_sim_step _ _ _ _ _ _ _ Tx) as (pc' & q' & E & S1). change (mm_txq (hid i (set_req m' r2) q q2 s)) with q2. rewrite E. cbn [bind].
      change (m_set_txq (hid i (set_req m' r2) q q2 s) q') with (hid i (set_req m' r2) q q' s). do 2 eexists. split; [reflexivity|]. destruct S1 as [S1|(_ & qs' & Pq & S1)].
      * left. assert (X : pre c a (RPush i pc') (mk_mconf (hid i (set_req m' r2) q q' s) p) (mk_mconf s p)).
        { apply (pre_held c a (RPush i pc') i m (set_req m' r2) q q' (mk_mconf s p)); cbn [mc_s built txrel]; eauto. split; [reflexivity|]. exists st, m', st2, r2. auto. }
        destruct pc'; try exact X. destruct S1 as [_ S1]. contradiction.
      * right. rewrite Pq in Rq. cbn [bind] in Rq. injection Rq as <- <-. do 2 eexists. split; [exact Ra|].
        match goal with |- post _ _ _ (mk_mconf ?y _) /\ _ => set (sy := y) in * end.
        assert (Hy : hid i (set_req m' r2) q q' s = m_set_txq sy q') by (unfold hid, sy; destruct s; reflexivity).
        assert (X : post c (RPush i pc') (mk_mconf (hid i (set_req m' r2) q q' s) p) (mk_mconf sy p)) by (rewrite Hy; apply (post_push c i pc' q' (l ++ [i]) (mk_mconf sy p)); exact S1).
        destruct pc'; try (split; [exact X|split; [intros r' Y; discriminate Y|reflexivity]]). destruct S1 as (_ & Sq & _). split; [|split; [intros r' [= <-]; reflexivity|reflexivity]].
        rewrite Hy, Sq. unfold sy. mprj. constructor.
Qed.
Lemma post_step c a pc ck k : post c pc ck k -> exists pc' ck', r_act c a RStep (pc, ck) = Ok (pc', ck', []) /\ post c pc' ck' k /\ (forall r, pc' = RRet r -> pc = RRet r \/ r = REQUEST_SEND_TO_QUEUE) /\ (forall r, pc = RRet r -> pc' = RRet r).
Proof.
  intros H. cbn [r_act fst snd]. destruct H as [i pc q l k H|r k].
  - destruct k as [s p]. cbn [mc_s mc_pc] in *. destruct (push_sim_step _ _ _ _ _ _ _ H) as (pc' & q' & E & S1). cbn [r_step]. mprj. rewrite E. cbn [bind]. destruct S1 as [S1|(X & _)]; [|discriminate].
    change (m_set_txq (m_set_txq s q) q') with (m_set_txq s q'). do 2 eexists. split; [reflexivity|]. split; [|split; [intros r Y|intros r Y; discriminate Y]].
    + assert (X : post c (RPush i pc') (mk_mconf (m_set_txq s q') p) (mk_mconf s p)) by (apply (post_push c i pc' q' l (mk_mconf s p)); exact S1). destruct pc'; try exact X. destruct S1 as (_ & -> & _). rewrite set_txq_id. constructor.
    + destruct pc'; try discriminate Y. injection Y as <-. auto.
  - cbn [r_step bind]. do 2 eexists. split; [reflexivity|]. split; [destruct k; constructor|]. split; [intros x [= <-]; auto|auto].
Qed.
(** *** whole calls *)
Lemma no_req_cons x l : no_requests (x :: l) -> (x = MStep \/ exists e, x = MEv e /\ is_req e = false) /\ no_requests l.
Proof.
  intros H. split; [|intros a I; apply (H a); right; exact I]. destruct x as [|e]; [auto|]. right. exists e. split; [reflexivity|]. destruct e; auto. exfalso. apply (H a). left. reflexivity.
Qed.
Lemma no_req_safe l : no_requests l -> reqs_safe l. Proof. intros H a I. exfalso. exact (H a I). Qed.
Lemma run_one c x k : m_run c [x] k = m_act c x k.
Proof. cbn [m_run]. destruct (m_act c x k) as [[k' t]| |]; cbn [bind]; rewrite ?app_nil_r; reflexivity. Qed.
Definition fixed_ret (pc pc' : rpc) : Prop := (forall r, pc' = RRet r -> pc = RRet r \/ r = REQUEST_SEND_TO_QUEUE) /\ (forall r, pc = RRet r -> pc' = RRet r).
Lemma fixed_refl pc : fixed_ret pc pc. Proof. split; auto. Qed.
Lemma fixed_trans p1 p2 p3 : fixed_ret p1 p2 -> fixed_ret p2 p3 -> fixed_ret p1 p3.
Proof. intros (A1 & A2) (B1 & B2). split; [|auto]. intros r H. destruct (B1 r H) as [X|X]; auto. Qed.
Lemma post_run c a : cfg_master_ok c -> forall acts pc ck k t, Minv c t (mloc k) (mc_s k) -> no_requests (r_irqs acts) -> r_harmless c a acts (pc, ck) -> post c pc ck k ->
  match r_run c a acts (pc, ck) with
  | Ok (pc', ck', t') => exists k', m_run c (r_irqs acts) k = Ok (k', t') /\ post c pc' ck' k' /\ fixed_ret pc pc'
  | UB => m_run c (r_irqs acts) k = UB
  | Diverge => m_run c (r_irqs acts) k = Diverge
  end.
Proof.
  intros Hc. induction acts as [|x acts IH]; intros pc ck k t M Nr Ha H; [cbn; exists k; auto using fixed_refl|]. destruct Ha as [Ha Hb].
  destruct x as [|x].
  - destruct (post_step c a pc ck k H) as (pc1 & ck1 & E & H1 & Hr). cbn [r_run]. rewrite E. cbn [bind]. cbn [r_irqs flat_map Datatypes.app]. fold (r_irqs acts).
    assert (X := IH pc1 ck1 k t M Nr (Hb _ _ _ E) H1). destruct (r_run c a acts (pc1, ck1)) as [[[pc' ck'] t']| |]; cbn [bind Datatypes.app]; auto.
    destruct X as (k' & X1 & X2 & X3). exists k'. split; [exact X1|]. split; [exact X2|]. eapply fixed_trans; [exact Hr|exact X3].
  - change (r_irqs (RIrq x :: acts)) with (x :: r_irqs acts) in *. destruct (no_req_cons _ _ Nr) as (Hx & Nr').
    assert (Sm : sim (post c pc) (m_act c x ck) (m_act c x k)) by (destruct Hx as [->|(e & -> & He)]; [apply (post_mgr c pc ck k t); auto|apply post_ev; auto]).
    cbn [r_run r_act fst snd m_run]. destruct (m_act c x ck) as [[ck1 o]| |] eqn:E; destruct (m_act c x k) as [[k1 o1]| |] eqn:E1; cbn [sim] in Sm; try contradiction; cbn [bind]; auto.
    destruct Sm as (<- & H1). assert (M1 : Minv c (t ++ o) (mloc k1) (mc_s k1)).
    { apply (Minv_run c [x] t k k1 o Hc); [intros a0 [->|[]]; exfalso; apply (Nr a0); left; reflexivity|exact M|rewrite run_one; exact E1]. }
    assert (E2 : r_act c a (RIrq x) (pc, ck) = Ok (pc, ck1, o)) by (cbn [r_act fst snd]; rewrite E; reflexivity).
    assert (X := IH pc ck1 k1 _ M1 Nr' (Hb _ _ _ E2) H1). destruct (r_run c a acts (pc, ck1)) as [[[pc' ck'] t']| |]; cbn [bind]; [|rewrite X; reflexivity..].
    destruct X as (k' & X1 & X2 & X3). exists k'. rewrite X1. auto.
Qed.
Lemma pre_run c a : cfg_master_ok c -> req_safe a -> forall acts pc ck k t, Minv c t (mloc k) (mc_s k) -> no_requests (r_irqs acts) -> r_harmless c a acts (pc, ck) -> pre c a pc ck k ->
  match r_run c a acts (pc, ck) with
  | Ok (pc', ck', t') => (exists k', m_run c (r_irqs acts) k = Ok (k', t') /\ pre c a pc' ck' k') \/
      exists is1 is2 k1 t1 k2 r k3 t2, r_irqs acts = is1 ++ is2 /\ m_run c is1 k = Ok (k1, t1) /\ m_act c (MEv (MReq a)) k1 = Ok (k2, [MTEv (MReq a); MTOut (MoRet a r)]) /\
        m_run c is2 k2 = Ok (k3, t2) /\ t' = t1 ++ t2 /\ post c pc' ck' k3 /\ (forall r', pc' = RRet r' -> r' = r)
  | UB => m_run c (r_irqs acts) k = UB \/ exists is1 is2, r_irqs acts = is1 ++ is2 /\ m_run c (is1 ++ MEv (MReq a) :: is2) k = UB
  | Diverge => m_run c (r_irqs acts) k = Diverge \/ exists is1 is2, r_irqs acts = is1 ++ is2 /\ m_run c (is1 ++ MEv (MReq a) :: is2) k = Diverge
  end.
Proof.
  intros Hc Sa. induction acts as [|x acts IH]; intros pc ck k t M Nr Ha H; [cbn; left; exists k; auto|]. destruct Ha as [Ha Hb].
  destruct x as [|x].
  - destruct (pre_step c a pc ck k t Hc M Sa H) as (pc1 & ck1 & E & H1). cbn [r_run]. rewrite E. cbn [bind]. cbn [r_irqs flat_map Datatypes.app]. fold (r_irqs acts). destruct H1 as [H1|(k1 & r & E1 & H1 & H2 & H3)].
    + assert (X := IH pc1 ck1 k t M Nr (Hb _ _ _ E) H1). destruct (r_run c a acts (pc1, ck1)) as [[[pc' ck'] t']| |]; cbn [bind Datatypes.app]; auto.
    + assert (M1 : Minv c (t ++ [MTEv (MReq a); MTOut (MoRet a r)]) (mloc k1) (mc_s k1)).
      { apply (Minv_run c [MEv (MReq a)] t k k1 _ Hc); [intros a0 [[= <-]|[]]; exact Sa|exact M|rewrite run_one; exact E1]. }
      assert (X := post_run c a Hc acts pc1 ck1 k1 _ M1 Nr (Hb _ _ _ E) H1). destruct (r_run c a acts (pc1, ck1)) as [[[pc' ck'] t']| |]; cbn [bind Datatypes.app].
      * destruct X as (k' & X1 & X2 & X3 & X4). right. exists [], (r_irqs acts), k, [], k1, r, k', t'. split; [reflexivity|]. split; [reflexivity|]. split; [exact E1|]. split; [exact X1|]. split; [reflexivity|]. split; [exact X2|].
        intros r' Er. assert (D : pc1 = RRet r \/ pc1 <> RRet r) by (destruct pc1; try (right; discriminate); destruct r0, r; (left; reflexivity) || (right; discriminate)).
        destruct D as [D|D]; [rewrite (X4 _ D) in Er; congruence|]. rewrite (H3 D) in *. destruct (X3 _ Er) as [Y|Y]; auto.
      * right. exists [], (r_irqs acts). split; [reflexivity|]. cbn [Datatypes.app m_run]. rewrite E1. cbn [bind]. rewrite X. reflexivity.
      * right. exists [], (r_irqs acts). split; [reflexivity|]. cbn [Datatypes.app m_run]. rewrite E1. cbn [bind]. rewrite X. reflexivity.
  - change (r_irqs (RIrq x :: acts)) with (x :: r_irqs acts) in *. destruct (no_req_cons _ _ Nr) as (Hx & Nr').
    assert (Sm : sim (pre c a pc) (m_act c x ck) (m_act c x k)) by (destruct Hx as [->|(e & -> & He)]; [apply (pre_mgr c a pc ck k t); auto|apply (pre_ev c a pc ck k t); auto]).
    cbn [r_run r_act fst snd m_run]. destruct (m_act c x ck) as [[ck1 o]| |] eqn:E; destruct (m_act c x k) as [[k1 o1]| |] eqn:E1; cbn [sim] in Sm; try contradiction; cbn [bind]; auto.
    destruct Sm as (<- & H1). assert (M1 : Minv c (t ++ o) (mloc k1) (mc_s k1)).
    { apply (Minv_run c [x] t k k1 o Hc); [intros a0 [->|[]]; exfalso; apply (Nr a0); left; reflexivity|exact M|rewrite run_one; exact E1]. }
    assert (E2 : r_act c a (RIrq x) (pc, ck) = Ok (pc, ck1, o)) by (cbn [r_act fst snd]; rewrite E; reflexivity).
    assert (X := IH pc ck1 k1 _ M1 Nr' (Hb _ _ _ E2) H1). destruct (r_run c a acts (pc, ck1)) as [[[pc' ck'] t']| |]; cbn [bind].
    + destruct X as [(k' & X1 & X2)|(is1 & is2 & k2 & t1 & k3 & r & k4 & t2 & X1 & X2 & X3 & X4 & -> & X5)]; [left; exists k'; rewrite X1; auto|right].
      exists (x :: is1), is2, k2, (o ++ t1), k3, r, k4, t2. split; [rewrite X1; reflexivity|]. split; [cbn [m_run]; rewrite E1; cbn [bind]; rewrite X2; reflexivity|]. rewrite app_assoc. auto.
    + destruct X as [X|(is1 & is2 & X1 & X2)]; [left; rewrite X; reflexivity|right]. exists (x :: is1), is2. split; [rewrite X1; reflexivity|]. cbn [Datatypes.app m_run]. rewrite E1. cbn [bind]. rewrite X2. reflexivity.
    + destruct X as [X|(is1 & is2 & X1 & X2)]; [left; rewrite X; reflexivity|right]. exists (x :: is1), is2. split; [rewrite X1; reflexivity|]. cbn [Datatypes.app m_run]. rewrite E1. cbn [bind]. rewrite X2. reflexivity.
Qed.
Lemma history_app c sched k t l k' t' : m_history c sched k t -> reqs_safe l -> m_run c l k = Ok (k', t') -> m_history c (sched ++ l) k' (t ++ t').
Proof.
  intros (s & St & Sf & R) Sl E. exists s. split; [exact St|]. split; [intros a I; apply in_app_or in I as [I|I]; auto|]. rewrite m_run_app, R. cbn [bind fst snd]. rewrite E. reflexivity.
Qed.
Lemma req_sched_safe a is1 is2 : req_safe a -> no_requests (is1 ++ is2) -> reqs_safe (is1 ++ MEv (MReq a) :: is2).
Proof. intros Sa Nr b I. apply in_app_or in I as [I|[[= <-]|I]]; auto; exfalso; apply (Nr b); apply in_or_app; auto. Qed.
Theorem request_interrupted c sched k t a acts : cfg_master_ok c -> m_history c sched k t -> req_safe a -> no_requests (r_irqs acts) -> r_harmless c a acts (RPop Q89, k) ->
  match r_run c a acts (RPop Q89, k) with
  | Ok (RRet r, k', t') => exists is1 is2 t1 t2, r_irqs acts = is1 ++ is2 /\ t' = t1 ++ t2 /\
      m_history c (sched ++ is1 ++ MEv (MReq a) :: is2) k' (t ++ t1 ++ [MTEv (MReq a); MTOut (MoRet a r)] ++ t2) /\ exists k1, m_history c (sched ++ is1) k1 (t ++ t1)
  | Ok _ => True
  | UB => exists is1 is2 l, r_irqs acts = is1 ++ is2 /\ (l = is1 ++ is2 \/ l = is1 ++ MEv (MReq a) :: is2) /\ m_run c l k = UB
  | Diverge => False
  end.
Proof.
  intros Hc Hi Sa Nr Ha. assert (M := ci_inv _ _ _ _ (history_cinv _ _ _ _ Hc Hi)). destruct (Minv_bufs _ _ _ _ M) as (free & pend & B & _).
  assert (P : pre c a (RPop Q89) k k).
  { assert (X : pre c a (RPop Q89) (mk_mconf (m_set_free (mc_s k) (mm_free (mc_s k))) (mc_pc k)) k) by (apply (pre_pop c a Q89 _ free); split; [apply (mb_free _ _ _ _ _ B)|reflexivity]).
    rewrite set_free_id in X. destruct k; exact X. }
  assert (X := pre_run c a Hc Sa acts _ _ _ _ M Nr Ha P). destruct (r_run c a acts (RPop Q89, k)) as [[[pc' k'] t']| |].
  - destruct pc' as [| | | |r]; auto. destruct X as [(k2 & _ & X)|(is1 & is2 & k1 & t1 & k2 & r' & k3 & t2 & X1 & X2 & X3 & X4 & X5 & X6 & X7)].
    + inversion X; subst. match goal with H : built _ _ _ _ _ |- _ => contradiction H end.
    + assert (Ek : k' = k3) by (inversion X6; reflexivity). subst k3. rewrite (X7 r eq_refl). exists is1, is2, t1, t2. split; [exact X1|]. split; [exact X5|]. rewrite X1 in Nr. split.
      * apply (history_app c sched k t _ k' _ Hi (req_sched_safe _ _ _ Sa Nr)). rewrite m_run_app, X2. cbn [bind m_run fst snd]. rewrite X3. cbn [bind]. rewrite X4. reflexivity.
      * exists k1. apply (history_app c sched k t is1 k1 t1 Hi); [|exact X2]. apply no_req_safe. intros b I. apply (Nr b). apply in_or_app. auto.
  - destruct X as [X|(is1 & is2 & X1 & X2)]; [exists [], (r_irqs acts), (r_irqs acts); auto|exists is1, is2, (is1 ++ MEv (MReq a) :: is2); auto].
  - destruct X as [X|(is1 & is2 & X1 & X2)]; [exact (nd_run c Hc _ _ _ (no_req_safe _ Nr) M X)|]. rewrite X1 in Nr. exact (nd_run c Hc _ _ _ (req_sched_safe _ _ _ Sa Nr) M X2).
Qed.
(** *** the call returns after at most 17 of its own steps *)
Definition pop_left (pc : pop_pc nat) : nat := match pc with Q89 => 7 | Q92 => 6 | Q98 => 5 | Q99 _ => 4 | Q100 _ => 3 | Q100s _ _ => 2 | Q101 _ => 1 | QDone _ => 1 end.
Definition push_left (pc : push_pc nat) : nat :=
  match pc with P52 => 8 | P54 _ => 7 | P56 _ => 6 | P62 _ => 5 | P63 _ => 4 | P63s _ _ => 3 | P64 _ => 2 | P65 => 1 | P70 _ => 5 | P71 _ => 4 | P72 => 3 | P72s _ => 2 | P73 => 1 | PDone _ => 1 end.
Definition left (pc : rpc) : nat := match pc with RPop p => 10 + pop_left p | RGen _ => 10 | RSend _ => 9 | RPush _ p => push_left p | RRet _ => 0 end.
Lemma left_step c p pc s pc' s' : r_step c p pc s = Ok (pc', s') -> (left pc' <= left pc - 1)%nat.
Proof.
  destruct pc as [pc|i|i|i pc|r]; cbn [r_step]; intros H.
  - apply bind_ok in H as ([pc1 q] & E & H). injection H as <- _. destruct pc; cbn [pop_step] in E; try (apply bind_ok in E as (? & _ & E)); try (destruct (c_queue c =? 0); [discriminate E|]); injection E as <- _;
      repeat match goal with |- context [if ?b then _ else _] => destruct b end; cbn; try lia; destruct r; cbn; lia.
  - apply bind_ok in H as (m & _ & H). apply bind_ok in H as ([st m'] & _ & H). apply bind_ok in H as (s2 & _ & H). injection H as <- _. destruct (st <? 0); cbn; lia.
  - apply bind_ok in H as (m & _ & H). apply bind_ok in H as ([st m'] & _ & H). apply bind_ok in H as (s2 & _ & H). injection H as <- _. match goal with |- context [if ?b then _ else _] => destruct b end; cbn; lia.
  - apply bind_ok in H as ([pc1 q] & E & H). injection H as <- _. destruct pc; cbn [push_step] in E; try (apply bind_ok in E as (? & _ & E)); try (destruct (c_queue c =? 0); [discriminate E|]); injection E as <- _;
      repeat match goal with |- context [if ?b then _ else _] => destruct b end; cbn; lia.
  - injection H as <- _. cbn. lia.
Qed.
Lemma left_run c a : forall acts pc k pc' k' t, r_run c a acts (pc, k) = Ok (pc', k', t) -> (left pc' <= left pc - own_steps acts)%nat.
Proof.
  induction acts as [|x acts IH]; intros pc k pc' k' t H; cbn [r_run fst snd] in H.
  - injection H as <- _ _. cbn. lia.
  - apply bind_ok in H as ([[pc1 k1] t1] & E & H). apply bind_ok in H as ([[pc2 k2] t2] & E2 & H). injection H as <- _ _. apply IH in E2. destruct x as [|x]; cbn [r_act fst snd] in E.
    + apply bind_ok in E as ([pc3 s] & E & X). injection X as <- _ _. apply left_step in E. unfold own_steps in *. cbn [filter length]. lia.
    + apply bind_ok in E as ([k3 t3] & E & X). injection X as <- _ _. unfold own_steps in *. cbn [filter length]. lia.
Qed.
Lemma own_steps_return c a acts k pc k' t : r_run c a acts (RPop Q89, k) = Ok (pc, k', t) -> (17 <= own_steps acts)%nat -> returned pc.
Proof.
  intros H L. apply left_run in H. assert (X : left (RPop Q89) = 17%nat) by reflexivity. assert (Y : left pc = 0%nat) by lia.
  destruct pc as [p|i|i|i p|r]; cbn [left] in Y; try lia; [|exists r; reflexivity]. destruct p; cbn [push_left] in Y; lia.
Qed.
(** *** no manager in the handlers: every interruption is harmless *)
Lemma no_manager_harmless c a : forall acts k, no_manager acts -> r_harmless c a acts k.
Proof.
  induction acts as [|x acts IH]; intros k H; cbn [r_harmless]; [exact I|]. split.
  - intros ->. exfalso. apply H. left. reflexivity.
  - intros pc' k' t _. apply IH. intros X. apply H. right. exact X.
Qed.
(** *** whole programs *)
Lemma answers_app t1 t2 : answers (t1 ++ t2) = answers t1 ++ answers t2.
Proof. induction t1 as [|x t1 IH]; cbn [Datatypes.app answers]; [reflexivity|]. destruct x as [e|o]; [exact IH|]. destruct o; try exact IH. rewrite IH. reflexivity. Qed.
Lemma other_app t1 t2 : other_items (t1 ++ t2) = other_items t1 ++ other_items t2.
Proof. apply filter_app. Qed.
Lemma cbs_no_call l : answers (map MTOut (map MoCb l)) = [] /\ other_items (map MTOut (map MoCb l)) = map MTOut (map MoCb l).
Proof. unfold other_items. induction l as [|x l [IH1 IH2]]; [split; reflexivity|]. cbn [map answers filter is_call negb]. rewrite IH2. split; [exact IH1|reflexivity]. Qed.
Lemma line_no_call c l s l' s' o : m_line c l s = Ok (l', s', o) -> answers (map MTOut o) = [] /\ other_items (map MTOut o) = map MTOut o.
Proof. intros E. destruct l; mline_inv E; try (split; reflexivity). apply cbs_no_call. Qed.
Lemma act_no_call c x k k' o : (forall a, x <> MEv (MReq a)) -> m_act c x k = Ok (k', o) -> answers o = [] /\ other_items o = o.
Proof.
  intros N. destruct x as [|e]; cbn [m_act]; intros E.
  - destruct (mc_pc k); [|injection E as _ <-; split; reflexivity]. apply bind_ok in E as ([[l' s'] o1] & E & X). injection X as _ <-. apply (line_no_call _ _ _ _ _ _ E).
  - apply bind_ok in E as ([s' o1] & E & X). injection X as _ <-. destruct (event_out _ _ _ _ _ E) as [(Y & ->)|(a & r & -> & _)]; [|destruct (N a eq_refl)].
    destruct e; try discriminate Y; split; reflexivity.
Qed.
Lemma run_no_call c : forall l k k' t, no_requests l -> m_run c l k = Ok (k', t) -> answers t = [] /\ other_items t = t.
Proof.
  induction l as [|x l IH]; intros k k' t N E; cbn [m_run] in E; [injection E as _ <-; split; reflexivity|].
  apply bind_ok in E as ([k1 t1] & E & X). apply bind_ok in X as ([k2 t2] & E2 & X). injection X as _ <-.
  destruct (act_no_call c x k k1 t1) as [A1 A2]; [intros a ->; apply (N a); left; reflexivity|exact E|].
  destruct (IH k1 k2 t2) as [B1 B2]; [intros a I; apply (N a); right; exact I|exact E2|]. rewrite answers_app, other_app, A1, A2, B1, B2. split; reflexivity.
Qed.
Lemma rrun_no_call c a : forall acts pc k pc' k' t, no_requests (r_irqs acts) -> r_run c a acts (pc, k) = Ok (pc', k', t) -> answers t = [] /\ other_items t = t.
Proof.
  induction acts as [|x acts IH]; intros pc k pc' k' t N E; cbn [r_run fst snd] in E; [injection E as _ _ <-; split; reflexivity|].
  apply bind_ok in E as ([[pc1 k1] t1] & E & X). apply bind_ok in X as ([[pc2 k2] t2] & E2 & X). injection X as _ _ <-. destruct x as [|x]; cbn [r_act fst snd] in E.
  - apply bind_ok in E as ([pc3 s] & E & X). injection X as _ _ <-. apply (IH _ _ _ _ _ N E2).
  - change (r_irqs (RIrq x :: acts)) with (x :: r_irqs acts) in N. apply bind_ok in E as ([k3 t3] & E & X). injection X as _ _ <-.
    destruct (act_no_call c x k k3 t3) as [A1 A2]; [intros b ->; apply (N b); left; reflexivity|exact E|].
    destruct (IH pc1 k1 pc2 k2 t2) as [B1 B2]; [intros b I; apply (N b); right; exact I|exact E2|]. rewrite answers_app, other_app, A1, A2, B1, B2. split; reflexivity.
Qed.
Theorem program_interrupted c : cfg_master_ok c -> forall prog sched k t k' t' rs, m_history c sched k t -> p_safe prog -> p_harmless c prog k ->
  p_run c prog k = Ok (k', t', rs) -> Forall (fun x => returned (snd x)) rs ->
  exists sched' t2, m_history c (sched ++ sched') k' (t ++ t2) /\ answers t2 = rs /\ other_items t2 = t'.
Proof.
  intros Hc. induction prog as [|[l|a acts] prog IH]; intros sched k t k' t' rs Hi Sf Ha E Fr; cbn [p_run] in E.
  - injection E as <- <- <-. exists [], []. rewrite !app_nil_r. auto.
  - inversion Sf as [|? ? S1 S2]; subst. apply bind_ok in E as ([k1 t1] & E & X). apply bind_ok in X as ([[k2 t2] rs2] & E2 & X). injection X as <- <- <-.
    cbn [p_harmless] in Ha. assert (H1 := history_app c sched k t l k1 t1 Hi (no_req_safe _ S1) E). destruct (IH _ _ _ _ _ _ H1 S2 (Ha _ _ E) E2 Fr) as (sc & t3 & A & B & C).
    destruct (run_no_call _ _ _ _ _ S1 E) as [D1 D2]. exists (l ++ sc), (t1 ++ t3). rewrite !app_assoc. split; [exact A|]. rewrite answers_app, other_app, D1, D2, B, C. auto.
  - inversion Sf as [|? ? S0 S2]; subst. cbv beta iota in S0. destruct S0 as [S1 S1']. apply bind_ok in E as ([[pc k1] t1] & E & X). apply bind_ok in X as ([[k2 t2] rs2] & E2 & X). injection X as <- <- <-.
    cbn [p_harmless] in Ha. destruct Ha as [Ha Hb]. inversion Fr as [|? ? [r Er] Fr']; subst. cbn [snd] in Er. subst pc.
    assert (H1 := request_interrupted c sched k t a acts Hc Hi S1 S1' Ha). rewrite E in H1. destruct H1 as (is1 & is2 & u1 & u2 & I1 & -> & H1 & k3 & H0).
    destruct (IH _ _ _ _ _ _ H1 S2 (Hb _ _ _ E) E2 Fr') as (sc & t3 & A & B & C). destruct (rrun_no_call _ _ _ _ _ _ _ _ S1' E) as [D1 D2].
    exists (is1 ++ MEv (MReq a) :: is2 ++ sc), (u1 ++ [MTEv (MReq a); MTOut (MoRet a r)] ++ u2 ++ t3). split.
    + replace (sched ++ is1 ++ MEv (MReq a) :: is2 ++ sc) with ((sched ++ is1 ++ MEv (MReq a) :: is2) ++ sc) by (rewrite <- !app_assoc; cbn; reflexivity).
      replace (t ++ u1 ++ [MTEv (MReq a); MTOut (MoRet a r)] ++ u2 ++ t3) with ((t ++ u1 ++ [MTEv (MReq a); MTOut (MoRet a r)] ++ u2) ++ t3) by (rewrite <- !app_assoc; cbn; reflexivity). exact A.
    + rewrite answers_app in D1. apply app_eq_nil in D1 as [D1 D3]. rewrite other_app in D2. rewrite !answers_app, !other_app. cbn [answers Datatypes.app]. rewrite D1, D3, B, C. split; [reflexivity|].
      change (other_items [MTEv (MReq a); MTOut (MoRet a r)]) with (@nil mitem). cbn [Datatypes.app]. rewrite app_assoc, D2. reflexivity.
Qed.
Fixpoint r_harmlessb (c : cfg) (a : api) (acts : list ract) (k : rpc * mconf) : bool :=
  match acts with
  | [] => true
  | x :: l => (match x with RIrq MStep => r_fine (mc_pc (snd k)) (fst k) (mc_s (snd k)) | _ => true end) && match r_act c a x k with Ok (pc', k', _) => r_harmlessb c a l (pc', k') | _ => true end
  end.
Lemma r_harmlessb_ok c a : forall acts k, r_harmlessb c a acts k = true -> r_harmless c a acts k.
Proof.
  induction acts as [|x acts IH]; intros k H; cbn [r_harmlessb r_harmless] in *; [exact I|]. apply andb_true_iff in H as [H1 H2]. split.
  - intros ->. exact H1.
  - intros pc' k' t E. rewrite E in H2. auto.
Qed.
Fixpoint p_harmlessb (c : cfg) (prog : list stage) (k : mconf) : bool :=
  match prog with
  | [] => true
  | Between l :: prog => match m_run c l k with Ok (k', _) => p_harmlessb c prog k' | _ => true end
  | Call a acts :: prog => r_harmlessb c a acts (RPop Q89, k) && match r_run c a acts (RPop Q89, k) with Ok (_, k', _) => p_harmlessb c prog k' | _ => true end
  end.
Lemma p_harmlessb_ok c : forall prog k, p_harmlessb c prog k = true -> p_harmless c prog k.
Proof.
  induction prog as [|[l|a acts] prog IH]; intros k H; cbn [p_harmlessb p_harmless] in *; [exact I| |].
  - intros k' t E. rewrite E in H. auto.
  - apply andb_true_iff in H as [H1 H2]. split; [apply r_harmlessb_ok, H1|]. intros pc k' t E. rewrite E in H2. auto.
Qed.
