(** The interpretation of a request, in a history of the slave. *)
From Verif Require Import Proofs.SlaveRx Spec.Atomic.
From Verif Require Proofs.Atomic.
Local Open Scope Z_scope.

(** *** histories *)
(** from the frame check to the interpretation: the bytes checked are the first of the bytes received *)
Definition after_check (l : spc) : bool := match l with L169 _ | L171 | L173 | L186 | L186b | L188 | L193 | L193b | L195 => true | _ => false end.
Definition kept (c : cfg) (t : list sitem) (l : spc) (s : slave) : Prop :=
  rinv c t l s /\ base l s /\ (after_check l = true -> exists r z, checked t = Some (buffered r) /\ received t = r ++ z).
Lemma kept_run c sched : cfg_tables_ok c -> forall t k k' o, kept c t (loc k) (sc_s k) -> s_run c sched k = Ok (k', o) -> kept c (t ++ o) (loc k') (sc_s k').
Proof.
  intros Hc. apply abs_inv.
  - intros t l s l' s' o (R & B & K) E. assert (B' := base_line c l s l' s' o B E). assert (R' : rinv c (t ++ map TOut o) (next l' s') s').
    { destruct l'; [|].
      - assert (X := rinv_run c [SStep] Hc t (mk_sconf s (Some l)) (mk_sconf s' (Some s0)) (map TOut o)). cbn [loc sc_pc sc_s s_run s_act] in X. rewrite E in X. cbn [bind app] in X. rewrite app_nil_r in X. apply X; auto.
      - assert (X := rinv_run c [SStep] Hc t (mk_sconf s (Some l)) (mk_sconf s' None) (map TOut o)). cbn [loc sc_pc sc_s s_run s_act] in X. rewrite E in X. cbn [bind app] in X. rewrite app_nil_r in X. apply X; auto. }
    split; [exact R'|]. split; [exact B'|]. intros A. destruct R as (_ & RX & _).
    destruct l; line_inv E; cbn [map]; rewrite ?app_nil_r; cbn [next after_check] in *; try discriminate; auto.
    all: try (unfold s_dispatch in A; match type of A with context [s_st ?s] => rewrite (b_st _ _ B) in A end; cbn in A; discriminate).
    all: try (rewrite ?checked_snoc, ?received_snoc; cbn [rx_f]; try (apply K; reflexivity)).
    { exists (received t), []. rewrite app_nil_r. destruct RX as [_ RX]. split; [f_equal; exact RX|reflexivity]. }
    all: exfalso; unfold s_dispatch in A; cbn [s_set_t35 s_set_msg s_st] in A; rewrite (b_st _ _ B) in A; cbn in A; discriminate.
  - intros t l s e s' (R & B & K) E. assert (B' := base_event l s e s' B E). split.
    { assert (X := rinv_run c [SEv e] Hc t (mk_sconf s (Some l)) (mk_sconf s' (Some l)) [TEv e]). cbn [loc sc_pc sc_s s_run s_act] in X. rewrite E in X. cbn [bind app] in X. apply X; auto. }
    split; [exact B'|]. intros A. destruct (K A) as (r & z & K1 & K2). rewrite checked_snoc, received_snoc, K1.
    destruct e; cbn [rx_f]; eauto. exists r, (z ++ [u8 b]). rewrite K2, app_assoc. auto.
Qed.
Lemma kept_start c s : slave_fresh c s -> kept c [] (loc (mk_sconf s None)) s.
Proof.
  intros (R & F1 & F2 & F3 & F4 & F5 & F6). assert (I := sinv_start c s R F1 F2 F3 F4 F5). split; [|split].
  - split; [exact R|]. split; [apply rxb_nil; exact F6|]. intros t1 g t2 W. destruct t1; discriminate.
  - exact (i_base _ _ _ _ _ I).
  - cbn [loc sc_pc sc_s]. unfold s_dispatch. rewrite F1. discriminate.
Qed.
Theorem slave_atomic c s sched k t es g : cfg_tables_ok c -> slave_fresh c s -> s_run c sched (mk_sconf s None) = Ok (k, t) -> sc_pc k = Some L195 ->
  checked t = Some g -> frame_complete g -> Z.of_nat (length (received t)) + s_rx_count es < 256 -> (forall e, In e es -> s_interrupt e) ->
  exists k' r, Refusal.answer_is r (fst (server c (s_data (sc_s k)) g)) /\ s_data (sc_s k') = snd (server c (s_data (sc_s k)) g) /\ m_resp (s_msg (sc_s k')) = r /\ sc_pc k' = Some L196 /\
    forall es1 es2, es1 ++ es2 = es -> s_run c (map SEv es1 ++ SStep :: map SEv es2) k = Ok (k', map TEv es1 ++ TOut SoExec :: map TEv es2).
Proof.
  intros Hc F E P G C L I. destruct (kept_run c sched Hc [] _ _ _ (kept_start c s F) E) as ((R & X & _) & _ & K). destruct k as [s1 pc]. cbn [sc_pc sc_s loc] in *. subst pc.
  destruct (K eq_refl) as (r & z & K1 & K2). cbn [app] in *. assert (N := Atomic.received_nonneg es).
  rewrite K2 in L. rewrite app_length in L. rewrite buffered_short in K1 by lia. assert (r = g) by congruence. subst r.
  assert (Rq : rr_ok (m_req (s_msg s1))) by apply R. destruct X as [X1 X2]. assert (Rq' := Rq). destruct Rq' as (Rp & Rl & Rb & Rn).
  rewrite K2 in X1, X2. rewrite app_length, Nat.mod_small in X1 by lia. rewrite buffered_short in X2 by (rewrite app_length; lia).
  assert (Bg : firstn (length g) (rr_buf (m_req (s_msg s1))) = g).
  { unfold rx_frame in X2. transitivity (firstn (length g) (g ++ z)); [|apply firstn_app_exact; reflexivity]. rewrite <- X2, firstn_firstn. f_equal. lia. }
  apply Atomic.interpretation; auto.
  - rewrite <- Bg. apply Forall_firstn. exact Rb.
  - lia.
  - constructor; [exact R|split; [exact Rp|exact Bg]|left; lia|lia].
Qed.
