(** The master firmware: the bytes on the line, memory safety. *)
From Verif Require Export Proofs.MasterSystem.

Definition opt (o : option Z) : list Z := match o with Some b => [b] | None => [] end.
Definition quiet (u : uart) : Prop := u_tdr u = None /\ u_last u <= u_cur u.
Definition out_loc (l : mpc) (s : master) : Prop :=
  match l with M405 | M406 => True | M407 | M669 => mm_tx s = SET | _ => False end.
Definition flen (a : api) : Z := Z.of_nat (length (request_frame a)).
Definition calls (k : mconf) : Prop := mc_pc k = Some M405.
(** the request [a] in row [i] is the current one *)
Definition cur_req (t : list mitem) (k : mconf) (i : nat) (a : api) : Prop := current t = Some a /\ mm_cur (mc_s k) = Some i.
Definition sending (t : list witem) (k : mconf) (u : uart) : Prop :=
  exists i a off, cur_req (m_lib_of t) k i a /\ u_cur u = 256 * Z.of_nat i + off /\ u_last u = 256 * Z.of_nat i + flen a - 1 /\ 0 <= off < flen a /\
    m_on_line t ++ opt (u_tdr u) ++ skipn (Z.to_nat (off + 1)) (request_frame a) = concat (m_sent (m_lib_of t)).
Definition wire (t : list witem) (w : mfw) : Prop :=
  let u := w_u w in let k := w_lib w in let tr := m_lib_of t in
  match w_sub w with
  | Some (W83 i n) => calls k /\ u_tdr u = None /\ u_txeie u = false /\ u_last u <= u_cur u /\ tx_complete tr = false /\
      exists a, cur_req tr k i a /\ n = flen a /\ m_on_line t ++ request_frame a = concat (m_sent tr)
  | Some (W84 i n) => calls k /\ u_tdr u = None /\ u_txeie u = false /\ tx_complete tr = false /\ u_cur u = 256 * Z.of_nat i /\
      exists a, cur_req tr k i a /\ n = flen a /\ m_on_line t ++ request_frame a = concat (m_sent tr)
  | Some (W85 i) => calls k /\ u_tdr u = None /\ u_txeie u = false /\ tx_complete tr = false /\ u_cur u = 256 * Z.of_nat i /\
      exists a, cur_req tr k i a /\ u_last u = 256 * Z.of_nat i + flen a - 1 /\ m_on_line t ++ request_frame a = concat (m_sent tr)
  | sub => (sub <> None -> calls k) /\
      (quiet u /\ m_on_line t = concat (m_sent tr) \/
       sending t k u /\ out_loc (mloc k) (mc_s k) /\ tx_complete tr = false /\ (sub = Some W86 \/ u_txeie u = true)) /\
      (u_txeie u = true -> out_loc (mloc k) (mc_s k))
  end.
Definition in_send (p : option wpc) : bool := match p with Some (W83 _ _) | Some (W84 _ _) | Some (W85 _) => true | _ => false end.

(** *** events *)
Lemma m_lib1 t l : m_lib_of (t ++ map WLib l) = m_lib_of t ++ l.
Proof. now rewrite m_lib_of_app, m_lib_of_lib. Qed.
Lemma m_line1 t l : m_on_line (t ++ map WLib l) = m_on_line t.
Proof. now rewrite m_on_line_app, m_on_line_lib, app_nil_r. Qed.
Lemma ev_out c e s s' o : m_event c e s = Ok (s', o) -> o = [] \/ exists a r, e = MReq a /\ o = [MoRet a r].
Proof.
  destruct e; cbn [m_event]; intros E; try (inversion E; auto; fail).
  - destruct (mm_rx s); [|inversion E; auto]. bnd E. bnd E. bnd E. inversion E; auto.
  - bnd E. inversion E; subst. right. eauto.
Qed.
Lemma m_sent_app a b : m_sent (a ++ b) = m_sent a ++ m_sent b.
Proof. induction a as [|[|[]] a IH]; cbn [m_sent app]; auto. now rewrite IH. Qed.
Lemma ev_fields c e s s' o : m_event c e s = Ok (s', o) -> mm_cur s' = mm_cur s /\ mm_rx s' = mm_rx s /\ mm_sub s' = mm_sub s /\ (e <> MTxDone -> mm_tx s' = mm_tx s).
Proof.
  destruct e; cbn [m_event]; intros E.
  1-4: inversion E; subst; destruct (mm_sub s) eqn:Q; mprj; rewrite ?Q; repeat split; auto; congruence.
  - destruct (mm_rx s) eqn:R; [|inversion E; subst; auto]. bnd E. bnd E. bnd E. inversion E; subst. unfold put_msg in *. bnd Y1. inversion Y1; subst. mprj. auto.
  - inversion E; subst. destruct (negb _); mprj; auto.
  - bnd E. inversion E; subst. unfold modbus_master_request, generate_request in Y. bnd Y. destruct o; [|inversion Y; subst; mprj; auto].
    bnd Y. bnd Y. bnd Y. assert (X : forall s1 s2 i m, put_msg s1 i m = Ok s2 -> mm_cur s2 = mm_cur s1 /\ mm_rx s2 = mm_rx s1 /\ mm_sub s2 = mm_sub s1 /\ mm_tx s2 = mm_tx s1).
    { clear. intros s1 s2 i m E. unfold put_msg in E. bnd E. inversion E; subst. mprj. auto. }
    apply X in Y3. mprj. destruct Y3 as (A1 & A2 & A3 & A4). mifs Y; [inversion Y; subst; auto|]. bnd Y. bnd Y. apply X in Y4. mprj. destruct Y4 as (B1 & B2 & B3 & B4).
    mifs Y; [inversion Y; subst; repeat split; try congruence|]. bnd Y. inversion Y; subst. mprj. repeat split; congruence.
Qed.
Record same_tx (t : list mitem) (t' : list mitem) : Prop := {
  sx_sent : m_sent (t ++ t') = m_sent t; sx_fin : finished t' = 0%nat; sx_tx : tx_complete (t ++ t') = tx_complete t }.
Lemma ev_same c e s s' o t : m_event c e s = Ok (s', o) -> e <> MTxDone -> same_tx t (MTEv e :: map MTOut o).
Proof.
  intros E H. destruct (ev_out _ _ _ _ _ E) as [->|(a & r & -> & ->)]; split.
  - rewrite m_sent_app. cbn. apply app_nil_r.
  - reflexivity.
  - unfold tx_complete. rewrite fold_left_app. cbn [map fold_left]. destruct e; congruence.
  - rewrite m_sent_app. cbn. apply app_nil_r.
  - reflexivity.
  - unfold tx_complete. rewrite fold_left_app. cbn [map fold_left]. auto.
Qed.
Lemma w_event_inv c e k k' t' : w_event c e k = Ok (k', t') -> exists s' o, m_event c e (mc_s k) = Ok (s', o) /\ k' = mk_mconf s' (mc_pc k) /\ t' = map WLib (MTEv e :: map MTOut o) /\ mloc k' = mloc k.
Proof.
  unfold w_event. intros E. bnd E. cbn [m_act] in Y. bnd Y. inversion Y; subst. inversion E; subst. do 2 eexists. split; [eauto|]. split; [reflexivity|]. split; [reflexivity|].
  unfold mloc. cbn [mc_pc mc_s]. destruct (mc_pc k); auto. unfold m_dispatch. now rewrite (m_event_st _ _ _ _ _ Y0).
Qed.
Lemma cur_keep t t' k k' i a : finished t' = 0%nat -> mm_cur (mc_s k') = mm_cur (mc_s k) -> cur_req t k i a -> cur_req (t ++ t') k' i a.
Proof. intros F E [A B]. split; [apply current_app; auto|congruence]. Qed.
Lemma out_loc_tx l s s' : mm_tx s' = mm_tx s -> out_loc l s -> out_loc l s'.
Proof. intros E. destruct l; cbn; congruence. Qed.

(** library steps that leave the transmission alone *)
Lemma wire_lib t k u sub k' o : wire t (mk_mfw k u sub) -> same_tx (m_lib_of t) o -> mm_cur (mc_s k') = mm_cur (mc_s k) -> mc_pc k' = mc_pc k ->
  (out_loc (mloc k) (mc_s k) -> out_loc (mloc k') (mc_s k')) -> wire (t ++ map WLib o) (mk_mfw k' u sub).
Proof.
  intros W [S1 S2 S3] C P O. unfold wire in *. cbn [w_u w_lib w_sub] in *. unfold calls, sending in *. rewrite m_lib1, m_line1, P, S1, S3.
  destruct sub as [[i n|i n|i| | | |]|].
  1-3: decompose [and ex] W; repeat (split; auto); eexists; (split; [eapply cur_keep; eauto|]); auto.
  all: destruct W as (A1 & A2 & A3); (split; [exact A1|]); (split; [|auto]);
    (destruct A2 as [A2|((i & a & off & B1 & B2) & B3)]; [left; auto|right]); (split; [exists i, a, off; split; [eapply cur_keep; eauto|exact B2]|]); intuition auto.
Qed.
Lemma wire_event c t k u sub e k' t' : wire t (mk_mfw k u sub) -> w_event c e k = Ok (k', t') -> e <> MTxDone -> wire (t ++ t') (mk_mfw k' u sub).
Proof.
  intros W E H. destruct (w_event_inv _ _ _ _ _ E) as (s' & o & Ev & -> & -> & L). destruct (ev_fields _ _ _ _ _ Ev) as (F1 & _ & _ & F4).
  eapply wire_lib; eauto; [eapply ev_same; eauto|]. cbn [mc_s]. rewrite L. apply out_loc_tx; auto.
Qed.
(** the receiver's registers *)
Lemma wire_rx t k u sub d r f cen uif : wire t (mk_mfw k u sub) -> wire t (mk_mfw k (mk_uart (u_cur u) (u_last u) d (u_tdr u) r (u_txeie u) f cen uif) sub).
Proof. intros W. exact W. Qed.
Lemma wire_usart_rx c t k u sub k' u' t' : wire t (mk_mfw k u sub) -> w_usart_rx c k u = Ok (k', u', t') -> wire (t ++ t') (mk_mfw k' u' sub).
Proof.
  unfold w_usart_rx. intros W E. destruct (u_rdr u) as [b|]; [|inversion E; subst; now rewrite app_nil_r].
  destruct (mm_rx (mc_s k)); [|discriminate]. bnd E. assert (W1 := wire_event _ _ _ _ _ _ _ _ W Y ltac:(discriminate)). destruct (u_det u) eqn:Q.
  - destruct (mm_sub (mc_s k)); [|discriminate]. bnd E. inversion E; subst. rewrite app_assoc. eapply wire_event; [apply wire_rx; exact W1|eassumption|discriminate].
  - inversion E; subst. now apply wire_rx.
Qed.
Lemma wire_usart_rto c t k u sub k' u' t' : wire t (mk_mfw k u sub) -> w_usart_rto c k u = Ok (k', u', t') -> wire (t ++ t') (mk_mfw k' u' sub).
Proof.
  unfold w_usart_rto. intros W E. destruct (u_rtof u) eqn:Q; [|inversion E; subst; now rewrite app_nil_r].
  destruct (mm_sub (mc_s k)).
  - bnd E. inversion E; subst. apply wire_rx. eapply wire_event; eauto. discriminate.
  - inversion E; subst. rewrite app_nil_r. now apply wire_rx.
Qed.

(** *** fetching a byte of the request *)
Lemma skipn_step {A} (l : list A) i d : (i < length l)%nat -> skipn i l = nth i l d :: skipn (i+1) l.
Proof.
  revert i. induction l as [|x l IH]; intros [|i] H; cbn [length] in *; try lia; cbn [skipn nth Nat.add]; auto. apply IH. lia.
Qed.
Lemma has_req_byte m a i : msg_ok m -> has_req m a -> 0 <= i < flen a -> rd (m_req m) i = Ok (nth (Z.to_nat i) (request_frame a) 0) /\ flen a = rr_len (m_req m) /\ flen a <= 255.
Proof.
  intros [(P & L & B & Hl) _] H Hi. unfold has_req, rx_frame, byte, flen in *.
  assert (X : length (request_frame a) = Z.to_nat (rr_len (m_req m))) by (rewrite <- H, firstn_length; lia).
  split; [|lia]. unfold rd. rewrite P. rewrite (aget_ok _ _ 0) by lia. f_equal. rewrite <- H. symmetry. apply nth_firstn. lia.
Qed.
Lemma cur_fetch c t k i a : Minv c t (mloc k) (mc_s k) -> fly_line (mloc k) = true -> cur_req t k i a ->
  exists m, nth_error (mm_msgs (mc_s k)) i = Some m /\ get_msg (mc_s k) i = Ok m /\ msg_ok m /\ has_req m a.
Proof.
  intros I F [A B]. destruct (Minv_current _ _ _ _ I F) as (i' & a' & m & C & Cu & N & Hm & H & _). assert (i' = i) by congruence. assert (a' = a) by congruence. subst.
  exists m. repeat split; auto; try apply Hm. apply get_msg_some; auto.
Qed.
Lemma out_fly l s : out_loc l s -> fly_line l = true.
Proof. destruct l; cbn; auto; contradiction. Qed.
Lemma sending_fetch c t k u : Minv c (m_lib_of t) (mloc k) (mc_s k) -> out_loc (mloc k) (mc_s k) -> sending t k u -> u_cur u < u_last u ->
  exists i a off, cur_req (m_lib_of t) k i a /\ u_cur u = 256 * Z.of_nat i + off /\ u_last u = 256 * Z.of_nat i + flen a - 1 /\ 0 <= off /\ off + 1 < flen a /\
    m_on_line t ++ opt (u_tdr u) ++ skipn (Z.to_nat (off + 1)) (request_frame a) = concat (m_sent (m_lib_of t)) /\
    req_byte k (u_cur u + 1) = Ok (nth (Z.to_nat (off + 1)) (request_frame a) 0).
Proof.
  intros I O (i & a & off & R & C1 & C2 & C3 & C4) L. exists i, a, off. split; auto. split; auto. split; auto. split; [lia|]. split; [lia|]. split; auto.
  destruct (cur_fetch _ _ _ _ _ I (out_fly _ _ O) R) as (m & N & G & Hm & H). destruct (has_req_byte m a (off+1) Hm H ltac:(lia)) as (X1 & X2 & X3).
  unfold req_byte. rewrite C1. replace (256 * Z.of_nat i + off + 1) with (off + 1 + Z.of_nat i * 256) by lia.
  rewrite Z.mod_add by lia. rewrite Z.div_add by lia. rewrite Z.mod_small by lia. rewrite Z.div_small by lia. replace (off + 1 =? 0) with false by lia.
  rewrite Z.add_0_l, Nat2Z.id, G. cbn [bind]. exact X1.
Qed.
Lemma wire_usart_tx c t k u sub k' u' t' : Minv c (m_lib_of t) (mloc k) (mc_s k) -> wire t (mk_mfw k u sub) -> in_send sub = false -> w_usart_tx c k u = Ok (k', u', t') -> wire (t ++ t') (mk_mfw k' u' sub).
Proof.
  unfold w_usart_tx. intros I W HS E. destruct (u_tdr u) as [b|] eqn:Q; [inversion E; subst; now rewrite app_nil_r|].
  assert (W0 : (sub <> None -> calls k) /\
      (quiet u /\ m_on_line t = concat (m_sent (m_lib_of t)) \/
       sending t k u /\ out_loc (mloc k) (mc_s k) /\ tx_complete (m_lib_of t) = false /\ (sub = Some W86 \/ u_txeie u = true)) /\
      (u_txeie u = true -> out_loc (mloc k) (mc_s k))).
  { destruct sub as [[i n|i n|i| | | |]|]; try discriminate HS; exact W. }
  destruct W0 as (A1 & A2 & A3).
  destruct (u_cur u <? u_last u) eqn:C.
  - bnd E. inversion E; subst. rewrite app_nil_r. destruct A2 as [[[_ A2] _]|(B1 & B2 & B3 & B4)]; [lia|].
    destruct (sending_fetch _ _ _ _ I B2 B1 ltac:(lia)) as (i & f & off & R & C1 & C2 & C3 & C5 & C4 & F). rewrite F in Y. inversion Y; subst a.
    assert (W' : (sub <> None -> calls k') /\
      (quiet (mk_uart (u_cur u + 1) (u_last u) (u_det u) (Some (nth (Z.to_nat (off + 1)) (request_frame f) 0)) (u_rdr u) (u_txeie u) (u_rtof u) (u_cen u) (u_uif u)) /\ m_on_line t = concat (m_sent (m_lib_of t)) \/
       sending t k' (mk_uart (u_cur u + 1) (u_last u) (u_det u) (Some (nth (Z.to_nat (off + 1)) (request_frame f) 0)) (u_rdr u) (u_txeie u) (u_rtof u) (u_cen u) (u_uif u)) /\ out_loc (mloc k') (mc_s k') /\ tx_complete (m_lib_of t) = false /\ (sub = Some W86 \/ u_txeie u = true)) /\
      (u_txeie u = true -> out_loc (mloc k') (mc_s k'))).
    { split; auto. split; auto. right. split; [|auto]. exists i, f, (off + 1). split; auto. cbn [u_cur u_last u_tdr opt app]. split; [lia|]. split; auto. split; [lia|].
      rewrite <- C4, Q. cbn [opt app]. f_equal. unfold flen in *. rewrite (skipn_step (request_frame f) (Z.to_nat (off + 1)) 0) by lia. f_equal. f_equal. lia. }
    destruct sub as [[? ?|? ?|?| | | |]|]; try discriminate HS; exact W'.
  - destruct (mm_sub (mc_s k)) eqn:HSub; [|discriminate]. bnd E. inversion E; subst.
    destruct (w_event_inv _ _ _ _ _ Y) as (s' & o & Ev & -> & -> & L). destruct (ev_fields _ _ _ _ _ Ev) as (F1 & _ & _ & F4).
    destruct (ev_out _ _ _ _ _ Ev) as [->|(? & ? & ? & ?)]; [|discriminate]. cbn [map].
    assert (QL : m_on_line t = concat (m_sent (m_lib_of t))).
    { destruct A2 as [[_ A2]|((i & f & off & R & C1 & C2 & C3 & C4) & _)]; auto. rewrite <- C4, Q. cbn [opt app]. rewrite skipn_all2; [now rewrite app_nil_r|]. unfold flen in *. lia. }
    assert (W' : (sub <> None -> calls (mk_mconf s' (mc_pc k))) /\
      (quiet (mk_uart (u_cur u) (u_last u) (u_det u) (u_tdr u) (u_rdr u) false (u_rtof u) (u_cen u) (u_uif u)) /\ m_on_line (t ++ [WLib (MTEv MTxDone)]) = concat (m_sent (m_lib_of (t ++ [WLib (MTEv MTxDone)]))))).
    { split; auto. split; [split; cbn; auto; lia|]. change ([WLib (MTEv MTxDone)]) with (map WLib [MTEv MTxDone]). rewrite m_lib1, m_line1, m_sent_app. cbn [m_sent]. now rewrite app_nil_r. }
    destruct W' as (W1 & W2). rewrite <- Q. destruct sub as [[? ?|? ?|?| | | |]|]; try discriminate HS; (split; [exact W1|]); (split; [left; exact W2|]); discriminate.
Qed.

(** *** the library's lines *)
Lemma line_out c l s l' s' o : mctl c l s -> m_line c l s = Ok (l', s', o) -> out_loc l s -> out_loc (m_next l' s') s' /\ mm_cur s' = mm_cur s.
Proof.
  intros K E H. assert (BS := mc_st _ _ _ K). destruct l; cbn [out_loc] in H; try easy; mline_inv E; cbn [m_next out_loc]; mprj; auto.
  - rewrite H in X. discriminate.
  - cbn [mst_ok] in BS. unfold m_dispatch. rewrite BS. auto.
Qed.
Lemma line_same c l s l' s' o t : m_line c l s = Ok (l', s', o) -> l <> M404 -> l <> M901 -> same_tx t (map MTOut o).
Proof.
  intros E H1 H2. destruct l; try congruence; try (mline_inv E; cbn [map]; split; rewrite ?app_nil_r; auto; rewrite ?m_sent_app; cbn; rewrite ?app_nil_r; auto; unfold tx_complete; rewrite fold_left_app; reflexivity).
  mline_inv E. destruct (cbs_folds t l) as (A & _). split; [|clear; induction l; cbn; auto|exact A].
  rewrite m_sent_app. assert (X : m_sent (map MTOut (map MoCb l)) = []) by (clear; induction l; cbn; auto). now rewrite X, app_nil_r.
Qed.
Lemma request_frame_pos a : 0 < flen a.
Proof. unfold flen, request_frame, rtu_frame. rewrite app_length. cbn. lia. Qed.
Lemma wire_line c t k u k' o p : cfg_master_ok c -> Minv c (m_lib_of t) (mloc k) (mc_s k) -> wire t (mk_mfw k u None) -> m_act c MStep k = Ok (k', o) ->
  (match mc_pc k with Some M404 => w_call_send k | _ => Ok None end) = Ok p -> wire (t ++ map WLib o) (mk_mfw k' u p).
Proof.
  intros Hc I W E HP. cbn [m_act] in E. destruct (mc_pc k) as [l|] eqn:P.
  2:{ inversion E; subst. inversion HP; subst. cbn [map]. rewrite app_nil_r. destruct W as (A1 & A2 & A3). split; [congruence|].
      cbn [w_u w_lib w_sub] in *. unfold mloc, sending, cur_req in *. rewrite P in A2, A3. cbn [mc_s mc_pc]. auto. }
  bnd E. inversion E; subst. clear E. rename l0 into o1. assert (LK : mloc k = l) by (unfold mloc; now rewrite P). rewrite LK in I.
  assert (K := Minv_ctl _ _ _ _ I). destruct W as (_ & A2 & A3). cbn [w_u w_lib w_sub] in *. rewrite LK in *.
  assert (OUT := line_out _ _ _ _ _ _ K Y).
  destruct (match l with M404 => true | _ => false end) eqn:C4.
  - destruct l; try discriminate C4. cbn [out_loc] in *.
    assert (TE : u_txeie u = false) by (destruct (u_txeie u); auto; exfalso; auto).
    destruct A2 as [[QU OL]|(_ & [] & _)].
    destruct (Minv_current _ _ _ _ I eq_refl) as (i & a & m1 & C & Cu & N & Hm & H & _).
    assert (CM : cur_msg (mc_s k) = Ok (i, m1)) by (apply cur_msg_inv; auto). cbn [m_line] in Y. rewrite CM in Y. cbn [bind] in Y. rewrite (mc_drv _ _ _ K) in Y. inversion Y; subst. cbn [map].
    unfold w_call_send in HP. rewrite CM in HP. cbn [bind] in HP.
    assert (Pos := request_frame_pos a). destruct (has_req_byte m1 a 0 Hm H ltac:(lia)) as (_ & X2 & X3). destruct (Hm) as [(RP & _) _]. rewrite RP, <- X2 in HP.
    cbn [andb] in HP. replace (0 <? flen a) with true in HP by lia. inversion HP; subst p. destruct QU as [Q1 Q2].
    change ([WLib (MTOut (MoSend (firstn (Z.to_nat (rr_len (m_req m1))) (rr_buf (m_req m1)))))]) with (map WLib [MTOut (MoSend (firstn (Z.to_nat (rr_len (m_req m1))) (rr_buf (m_req m1))))]).
    unfold wire. cbn [w_sub w_u w_lib]. rewrite m_lib1, m_line1. split; [reflexivity|]. split; auto. split; auto. split; auto. split; [unfold tx_complete; rewrite fold_left_app; reflexivity|].
    exists a. split; [split; [apply current_app; auto|exact C]|]. split; auto. rewrite m_sent_app, concat_app, OL. cbn [m_sent concat]. rewrite app_nil_r. f_equal. symmetry. exact H.
  - assert (p = None) by (destruct l; inversion HP; auto; discriminate C4). subst p. clear HP. split; [congruence|]. cbn [w_u w_lib w_sub]. rewrite m_lib1, m_line1.
    change (mloc (mk_mconf m o0)) with (m_next o0 m). cbn [mc_s].
    assert (SS : m_sent (m_lib_of t ++ map MTOut o1) = m_sent (m_lib_of t)).
    { destruct (match l with M901 => true | _ => false end) eqn:C9.
      - destruct l; try discriminate C9. mline_inv Y. rewrite m_sent_app. cbn. apply app_nil_r.
      - apply (sx_sent _ _ (line_same _ _ _ _ _ _ (m_lib_of t) Y ltac:(intros ->; discriminate) ltac:(intros ->; discriminate))). }
    rewrite SS. split; [|intros T; apply OUT; auto]. destruct A2 as [A2|(B1 & B2 & B3 & B4)]; [left; auto|right]. destruct (OUT B2) as (O1 & O2).
    assert (ST : same_tx (m_lib_of t) (map MTOut o1)) by (apply (line_same _ _ _ _ _ _ (m_lib_of t) Y); intros ->; [discriminate|contradiction]).
    destruct ST as [_ S2 S3]. destruct B1 as (i & a & off & R & B1). split; [|rewrite S3; auto].
    exists i, a, off. rewrite m_lib1, m_line1, SS. split; [|exact B1]. eapply cur_keep; eauto.
Qed.
Lemma wire_act c a w w' t t' : cfg_master_ok c -> Minv c (m_lib_of t) (mloc (w_lib w)) (mc_s (w_lib w)) -> wire t w ->
  (forall q, a = WReq q -> req_safe q) -> (a = WUsart -> in_send (w_sub w) = false) -> w_act c a w = Ok (w', t') -> wire (t ++ t') w'.
Proof.
  intros Hc I W HR HS E. destruct w as [k u sub]. cbn [w_lib w_u w_sub] in *. destruct a; cbn [w_act w_lib w_u w_sub] in E.
  - destruct sub as [p|].
    2:{ bnd E. bnd E. inversion E; subst. eapply wire_line; eauto. }
    bnd E. inversion E; subst. clear E. rewrite app_nil_r. destruct p as [i n|i n|i| | | |]; cbn [w_send_line] in Y.
    + inversion Y; subst. destruct W as (A1 & A2 & A3 & A4 & A5 & A6). cbn in *. repeat (split; auto).
    + inversion Y; subst. destruct W as (A1 & A2 & A3 & A4 & A5 & a & A6 & -> & A7). cbn in *. repeat (split; auto). exists a. auto.
    + bnd Y. bnd Y. inversion Y; subst. destruct W as (A1 & A2 & A3 & A4 & A5 & a1 & A6 & A7 & A8). cbn [w_lib w_u w_sub] in *.
      assert (LK : mloc k = M405) by (unfold mloc, calls in *; now rewrite A1).
      destruct (cur_fetch _ _ _ _ _ I ltac:(rewrite LK; reflexivity) A6) as (m & N & G & Hm & H). rewrite G in Y0. inversion Y0; subst a.
      assert (Pos := request_frame_pos a1). destruct (has_req_byte m a1 0 Hm H ltac:(lia)) as (F & _). rewrite F in Y1. inversion Y1; subst a0.
      split; [auto|]. cbn [w_lib w_u w_sub]. rewrite LK. cbn [out_loc]. split; [right|auto]. split; [|auto]. exists i, a1, 0. split; auto. cbn [u_cur u_last u_tdr opt].
      split; [lia|]. split; auto. split; [lia|]. rewrite <- A8. reflexivity.
    + inversion Y; subst. destruct W as (A1 & A2 & A3). cbn [w_lib w_u w_sub] in *. specialize (A1 ltac:(discriminate)).
      assert (LK : mloc k = M405) by (unfold mloc, calls in *; now rewrite A1). split; auto. cbn [w_lib w_u w_sub u_txeie]. rewrite LK. cbn [out_loc]. split; auto.
      destruct A2 as [A2|(B1 & B2 & B3 & B4)]; [left; exact A2|right]. split; [exact B1|]. auto.
    + inversion Y; subst. destruct W as (A1 & A2 & A3). cbn [w_lib w_u w_sub] in *. split; [intros _; apply A1; discriminate|]. cbn [w_lib w_u w_sub u_txeie]. split; auto.
      destruct A2 as [A2|(B1 & B2 & B3 & [B4|B4])]; [left; exact A2|discriminate|right]. split; [exact B1|]. auto.
    + inversion Y; subst. destruct W as (A1 & A2 & A3). cbn [w_lib w_u w_sub] in *. split; [intros _; apply A1; discriminate|]. cbn [w_lib w_u w_sub u_txeie]. split; auto.
      destruct A2 as [A2|(B1 & B2 & B3 & [B4|B4])]; [left; exact A2|discriminate|right]. split; [exact B1|]. auto.
    + inversion Y; subst. destruct W as (A1 & A2 & A3). cbn [w_lib w_u w_sub] in *. split; [intros _; apply A1; discriminate|]. cbn [w_lib w_u w_sub u_txeie]. split; auto.
      destruct A2 as [A2|(B1 & B2 & B3 & [B4|B4])]; [left; exact A2|discriminate|right]. split; [exact B1|]. auto.
  - destruct (w_pending k u); [|inversion E; subst; now rewrite app_nil_r]. bnd E. inversion E; subst. clear E.
    unfold w_usart in Y. bnd Y. bnd Y. bnd Y. inversion Y; subst. rewrite !app_assoc.
    eapply wire_usart_rto; [|eauto]. eapply wire_usart_tx; [|eapply wire_usart_rx; eauto|auto|eauto].
    destruct (piece_rx _ [] _ _ _ _ _ Y0) as (sched & ES & HSr). rewrite m_lib_of_app. eapply Minv_run; [exact Hc| |exact I|exact ES].
    intros q Hq. destruct (HSr q Hq).
  - bnd E. inversion E; subst. clear E. unfold w_timer in Y. destruct (u_uif u); [|inversion Y; subst; now rewrite app_nil_r].
    destruct (mm_sub _); [|discriminate]. bnd Y. inversion Y; subst. apply wire_rx. eapply wire_event; eauto. discriminate.
  - bnd E. inversion E; subst. eapply wire_event; eauto. discriminate.
  - bnd E. inversion E; subst. eapply wire_event; eauto. discriminate.
  - inversion E; subst. rewrite app_nil_r. now apply wire_rx.
  - destruct (u_tdr u) as [b|] eqn:Q; inversion E; subst; [|now rewrite app_nil_r].
    assert (LO : m_lib_of (t ++ [WLine b]) = m_lib_of t) by (rewrite m_lib_of_app; cbn; apply app_nil_r).
    assert (OL : m_on_line (t ++ [WLine b]) = m_on_line t ++ [b]) by (now rewrite m_on_line_app).
    assert (W0 : in_send sub = false /\ (sub <> None -> calls k) /\
      (quiet u /\ m_on_line t = concat (m_sent (m_lib_of t)) \/
       sending t k u /\ out_loc (mloc k) (mc_s k) /\ tx_complete (m_lib_of t) = false /\ (sub = Some W86 \/ u_txeie u = true)) /\
      (u_txeie u = true -> out_loc (mloc k) (mc_s k))).
    { destruct sub as [[i n|i n|i| | | |]|]; try (split; [reflexivity|exact W]); exfalso; destruct W as (_ & W & _); cbn in W; congruence. }
    destruct W0 as (NS & A1 & A2 & A3). destruct A2 as [[[A2 _] _]|((i & a & off & R & C1 & C2 & C3 & C4) & B2)]; [congruence|].
    assert (SN : sending (t ++ [WLine b]) k (mk_uart (u_cur u) (u_last u) (u_det u) None (u_rdr u) (u_txeie u) (u_rtof u) (u_cen u) (u_uif u))).
    { exists i, a, off. rewrite LO, OL. split; auto. cbn [u_cur u_last u_tdr]. split; auto. split; auto. split; auto. rewrite <- C4, Q, <- app_assoc. reflexivity. }
    destruct sub as [[? ?|? ?|?| | | |]|]; try discriminate NS; (split; [exact A1|]); cbn [w_lib w_u w_sub u_txeie]; rewrite LO; (split; [right; split; [exact SN|exact B2]|exact A3]).
  - inversion E; subst. rewrite app_nil_r. now apply wire_rx.
  - destruct (u_cen u); inversion E; subst; rewrite app_nil_r; auto.
Qed.
Lemma wire_start c w : mfw_started c w -> wire [] w.
Proof.
  intros (_ & P & (HS & U1 & U2 & U3) & _). unfold wire. rewrite HS, U3. split; [congruence|]. split; [left; split; [split; cbn; auto; lia|reflexivity]|discriminate].
Qed.
Lemma always_app c w l1 l2 P : always_at c w (l1 ++ l2) P -> always_at c w l1 P.
Proof. intros H a x b w1 t1 E R. apply (H a x (b ++ l2) w1 t1); auto. rewrite E, <- app_assoc. reflexivity. Qed.
Lemma undisturbed_at c w l1 x l2 w1 t1 : m_send_undisturbed c w (l1 ++ x :: l2) -> w_run c l1 w = Ok (w1, t1) -> x = WUsart -> in_send (w_sub w1) = false.
Proof. intros H R E. specialize (H l1 x l2 w1 t1 eq_refl R E). destruct (w_sub w1) as [[]|]; auto; contradiction. Qed.
Lemma w_snoc c l x w w' t : w_run c (l ++ [x]) w = Ok (w', t) -> exists w1 t1 t2, w_run c l w = Ok (w1, t1) /\ w_act c x w1 = Ok (w', t2) /\ t = t1 ++ t2.
Proof.
  rewrite w_run_app. intros E. bnd E. bnd E. inversion E; subst. cbn [w_run] in Y0. bnd Y0. inversion Y0; subst. rewrite app_nil_r. eauto 10.
Qed.
Lemma safe_app l1 l2 : w_reqs_safe (l1 ++ l2) -> w_reqs_safe l1.
Proof. intros H a Ha. apply H, in_or_app. auto. Qed.
Lemma wire_run c w : cfg_master_ok c -> mfw_started c w -> forall l w' t, w_reqs_safe l -> m_send_undisturbed c w l -> w_run c l w = Ok (w', t) -> wire t w'.
Proof.
  intros Hc HW. induction l as [|x l IH] using rev_ind; intros w' t HR HU E.
  - inversion E; subst. eapply wire_start; eauto.
  - destruct (w_snoc _ _ _ _ _ _ E) as (w1 & t1 & t2 & R & A & ->). assert (HR1 := safe_app _ _ HR).
    eapply wire_act; [exact Hc| |apply (IH w1 t1); auto; eapply always_app; eauto| | |exact A].
    + apply ci_inv. eapply mfw_cinv; eauto.
    + intros q ->. apply HR, in_or_app. right. now left.
    + intros Hx. eapply undisturbed_at; eauto.
Qed.
(** what it says *)
Lemma wire_out t w : wire t w -> exists r, m_on_line t ++ r = concat (m_sent (m_lib_of t)) /\ (tx_complete (m_lib_of t) = true -> r = []).
Proof.
  intros W. unfold wire in W. destruct (w_sub w) as [[i n|i n|i| | | |]|].
  1-3: decompose [and ex] W; eexists; (split; [eassumption|congruence]).
  all: destruct W as (_ & [[_ W]|((i & a & off & _ & _ & _ & _ & W) & _ & X & _)] & _); [exists []; rewrite app_nil_r; auto|eexists; split; [exact W|congruence]].
Qed.

(** *** no undefined behaviour *)
Definition rx_given (w : mfw) : Prop := u_rdr (w_u w) <> None -> mm_rx (mc_s (w_lib w)) <> None.
Lemma line_rx c l s l' s' o : m_line c l s = Ok (l', s', o) -> mm_rx s <> None -> mm_rx s' <> None.
Proof. intros E H. destruct l; mline_inv E; mprj; auto. discriminate. Qed.
Lemma run_rx c sched : forall k k' o, m_run c sched k = Ok (k', o) -> mm_rx (mc_s k) <> None -> mm_rx (mc_s k') <> None.
Proof.
  induction sched as [|a sched IH]; intros k k' o E H; cbn [m_run] in E; [inversion E; subst; auto|]. bnd E. bnd E. inversion E; subst. eapply IH; eauto.
  destruct a as [|e]; cbn [m_act] in Y.
  - destruct (mc_pc k); [|inversion Y; subst; auto]. bnd Y. inversion Y; subst. eapply line_rx; eauto.
  - bnd Y. inversion Y; subst. cbn [mc_s]. destruct (ev_fields _ _ _ _ _ Y1) as (_ & F & _). congruence.
Qed.
Lemma usart_rdr c k u k' u' t : w_usart c k u = Ok (k', u', t) -> u_rdr u' = None.
Proof.
  unfold w_usart. intros E. bnd E. bnd E. bnd E. inversion E; subst.
  assert (A : u_rdr u0 = None).
  { unfold w_usart_rx in Y. destruct (u_rdr u) eqn:Q; [|inversion Y; subst; auto]. destruct (mm_rx _); [|discriminate]. bnd Y. destruct (u_det u); [|inversion Y; auto]. destruct (mm_sub _); [|discriminate]. bnd Y. inversion Y; auto. }
  assert (B : u_rdr u1 = None).
  { unfold w_usart_tx in Y0. destruct (u_tdr u0); [inversion Y0; subst; auto|]. destruct (_ <? _); [bnd Y0; inversion Y0; auto|]. destruct (mm_sub _); [|discriminate]. bnd Y0. inversion Y0; auto. }
  unfold w_usart_rto in Y1. destruct (u_rtof u1); [|inversion Y1; subst; auto]. destruct (mm_sub _); [bnd Y1|]; inversion Y1; auto.
Qed.
Lemma given_act c x w w' t : rx_given w -> (forall b, x = WRx b -> mm_rx (mc_s (w_lib w)) <> None) -> w_act c x w = Ok (w', t) -> rx_given w'.
Proof.
  intros G HX E H'. assert (A := act_piece _ _ _ _ _ E). destruct A as (sched & R & _). eapply run_rx; [exact R|].
  destruct x; cbn [w_act] in E; try (exact (HX _ eq_refl)); apply G.
  - destruct (w_sub w) as [p|]; [|bnd E; bnd E; inversion E; subst; exact H']. bnd E. inversion E; subst. cbn [w_u] in H'.
    destruct p; cbn [w_send_line] in Y; try (inversion Y; subst; exact H'). bnd Y. bnd Y. inversion Y; subst. exact H'.
  - destruct (w_pending _ _); [|inversion E; subst; exact H']. bnd E. inversion E; subst. cbn [w_u] in H'. apply usart_rdr in Y. congruence.
  - bnd E. inversion E; subst. cbn [w_u] in H'. unfold w_timer in Y. destruct (u_uif _); [|inversion Y; subst; exact H']. destruct (mm_sub _); [|discriminate]. bnd Y. inversion Y; subst. exact H'.
  - bnd E. inversion E; subst. exact H'.
  - bnd E. inversion E; subst. exact H'.
  - destruct (u_tdr _); inversion E; subst; exact H'.
  - inversion E; subst. exact H'.
  - destruct (u_cen _); inversion E; subst; exact H'.
Qed.
Lemma given_run c w : mfw_started c w -> forall l w' t, no_early_rx c w l -> w_run c l w = Ok (w', t) -> rx_given w'.
Proof.
  intros HW. induction l as [|x l IH] using rev_ind; intros w' t HN E.
  - inversion E; subst. exact (proj2 (proj2 (proj2 HW))).
  - destruct (w_snoc _ _ _ _ _ _ E) as (w1 & t1 & t2 & R & A & ->). eapply given_act; [eapply IH; [eapply always_app; eauto|exact R]| |exact A].
    intros b Hb. exact (HN l x [] w1 t1 eq_refl R b Hb).
Qed.
Lemma w_event_total c t k e : cfg_master_ok c -> Minv c t (mloc k) (mc_s k) -> ev_safe e ->
  exists k' t', w_event c e k = Ok (k', t') /\ Minv c (t ++ m_lib_of t') (mloc k') (mc_s k') /\ mm_rx (mc_s k') = mm_rx (mc_s k) /\ mm_sub (mc_s k') = mm_sub (mc_s k).
Proof.
  intros Hc I H. destruct (m_event_total c t _ _ e Hc I H) as (s' & o & E). assert (I' := Minv_event _ _ _ _ _ _ _ Hc H I E).
  assert (X : w_event c e k = Ok (mk_mconf s' (mc_pc k), map WLib (MTEv e :: map MTOut o))) by (unfold w_event; cbn [m_act]; rewrite E; reflexivity).
  do 2 eexists. split; [exact X|]. destruct (w_event_inv _ _ _ _ _ X) as (_ & _ & _ & _ & _ & L). rewrite L, m_lib_of_lib. split; [exact I'|].
  destruct (ev_fields _ _ _ _ _ E) as (_ & F2 & F3 & _). auto.
Qed.
Lemma act_total0 c w t x : cfg_master_ok c -> cinv c (m_lib_of t) (mloc (w_lib w)) (mc_s (w_lib w)) ->
  (mloc (w_lib w) = M813 -> forall i a m, mm_cur (mc_s (w_lib w)) = Some i -> current (m_lib_of t) = Some a -> nth_error (mm_msgs (mc_s (w_lib w))) i = Some m -> delivered a (rr_buf (m_resp m)) <> None) ->
  wire t w -> rx_given w ->
  (forall q, x = WReq q -> req_safe q) -> (x = WUsart -> in_send (w_sub w) = false) -> exists w' t', w_act c x w = Ok (w', t').
Proof.
  intros Hc CI P W G HR HS. assert (I := ci_inv _ _ _ _ CI). assert (K := Minv_ctl _ _ _ _ I). destruct w as [k u sub]. cbn [w_lib w_u w_sub] in *.
  destruct x; cbn [w_act w_lib w_u w_sub].
  - destruct sub as [p|].
    + destruct p as [i n|i n|i| | | |]; cbn [w_send_line bind]; eauto. destruct W as (A1 & A2 & A3 & A4 & A5 & a1 & A6 & A7 & A8). cbn [w_lib w_u w_sub] in *.
      assert (LK : mloc k = M405) by (unfold mloc, calls in *; now rewrite A1).
      destruct (cur_fetch _ _ _ _ _ I ltac:(rewrite LK; reflexivity) A6) as (m & N & Gm & Hm & H). rewrite Gm. cbn [bind].
      assert (Pos := request_frame_pos a1). destruct (has_req_byte m a1 0 Hm H ltac:(lia)) as (F & _). rewrite F. cbn [bind]. eauto.
    + assert (X : exists k' o, m_act c MStep k = Ok (k', o)).
      { cbn [m_act]. unfold mloc in CI, I. destruct (mc_pc k) as [l|] eqn:PC; [|eauto]. destruct (m_line_total c (m_lib_of t) l (mc_s k) I) as (l' & s' & o & E').
        { intros -> i a m C Cu N. unfold mloc in P. rewrite PC in P. eapply P; eauto. }
        rewrite E'. cbn [bind]. eauto. }
      destruct X as (k' & o & ->). cbn [bind]. assert (X : exists p, (match mc_pc k with Some M404 => w_call_send k | _ => Ok None end) = Ok p).
      { destruct (mc_pc k) as [l|] eqn:PC; [|eauto]. destruct l; eauto. unfold mloc in I. rewrite PC in I. destruct (Minv_current _ _ _ _ I eq_refl) as (i & a & m1 & C & Cu & N & _).
        unfold w_call_send. assert (CM : cur_msg (mc_s k) = Ok (i, m1)) by (apply cur_msg_inv; auto). rewrite CM. cbn [bind]. eauto. }
      destruct X as (p & ->). cbn [bind]. eauto.
  - destruct (w_pending k u); [|eauto]. specialize (HS eq_refl).
    assert (X1 : exists k1 u1 t1, w_usart_rx c k u = Ok (k1, u1, t1) /\ Minv c (m_lib_of t ++ m_lib_of t1) (mloc k1) (mc_s k1) /\ mm_sub (mc_s k1) = true).
    { unfold w_usart_rx. destruct (u_rdr u) as [b|] eqn:Q; [|do 3 eexists; split; [reflexivity|]; cbn; rewrite app_nil_r; split; auto; apply (mc_sub _ _ _ K)].
      destruct (mm_rx (mc_s k)) eqn:R; [|exfalso; apply G; cbn; congruence].
      destruct (w_event_total c _ k (MRx b) Hc I Logic.I) as (k1 & t1 & E1 & I1 & R1 & S1). rewrite E1. cbn [bind]. rewrite (mc_sub _ _ _ K).
      assert (S1' : mm_sub (mc_s k1) = true) by (rewrite S1; apply (mc_sub _ _ _ K)).
      destruct (u_det u); [|eauto 10].
      destruct (w_event_total c _ k1 MFrameErr Hc I1 Logic.I) as (k2 & t2 & E2 & I2 & R2 & S2). rewrite E2. cbn [bind]. do 3 eexists. split; [reflexivity|].
      rewrite m_lib_of_app, app_assoc. split; auto. congruence. }
    destruct X1 as (k1 & u1 & t1 & E1 & I1 & S1). unfold w_usart. rewrite E1. cbn [bind].
    assert (W1 := wire_usart_rx _ _ _ _ _ _ _ _ W E1). rewrite <- m_lib_of_app in I1.
    assert (X2 : exists k2 u2 t2, w_usart_tx c k1 u1 = Ok (k2, u2, t2) /\ Minv c (m_lib_of (t ++ t1) ++ m_lib_of t2) (mloc k2) (mc_s k2) /\ mm_sub (mc_s k2) = true).
    { unfold w_usart_tx. destruct (u_tdr u1) as [b|] eqn:Q; [do 3 eexists; split; [reflexivity|]; cbn [m_lib_of flat_map]; rewrite app_nil_r; split; auto|].
      destruct (u_cur u1 <? u_last u1) eqn:C.
      - assert (SN : sending (t ++ t1) k1 u1 /\ out_loc (mloc k1) (mc_s k1)).
        { destruct sub as [[i n|i n|i| | | |]|]; try discriminate HS; destruct W1 as (_ & [[[_ A2] _]|(B1 & B2 & _)] & _); cbn [w_lib w_u w_sub] in *; try lia; auto. }
        destruct SN as [SN O]. destruct (sending_fetch _ _ _ _ I1 O SN ltac:(lia)) as (i & a & off & _ & _ & _ & _ & _ & _ & F). rewrite F. cbn [bind].
        do 3 eexists. split; [reflexivity|]. cbn [m_lib_of flat_map]. rewrite app_nil_r. auto.
      - rewrite S1. destruct (w_event_total c _ k1 MTxDone Hc I1 Logic.I) as (k2 & t2 & E2 & I2 & R2 & S2). rewrite E2. cbn [bind]. do 3 eexists. split; [reflexivity|]. split; auto. congruence. }
    destruct X2 as (k2 & u2 & t2 & E2 & I2 & S2). rewrite E2. cbn [bind].
    assert (X3 : exists k3 u3 t3, w_usart_rto c k2 u2 = Ok (k3, u3, t3)).
    { unfold w_usart_rto. destruct (u_rtof u2); [|eauto]. rewrite S2. destruct (w_event_total c _ k2 MT15 Hc I2 Logic.I) as (k3 & t3 & E3 & _). rewrite E3. cbn [bind]. eauto. }
    destruct X3 as (k3 & u3 & t3 & E3). rewrite E3. cbn [bind]. eauto.
  - unfold w_timer. destruct (u_uif u); [|cbn [bind]; eauto]. rewrite (mc_sub _ _ _ K). destruct (w_event_total c _ k MT35 Hc I Logic.I) as (k1 & t1 & E1 & _). rewrite E1. cbn [bind]. eauto.
  - destruct (w_event_total c _ k MTick Hc I Logic.I) as (k1 & t1 & E1 & _). rewrite E1. cbn [bind]. eauto.
  - destruct (w_event_total c _ k (MReq a) Hc I) as (k1 & t1 & E1 & _). { cbn. auto. } rewrite E1. cbn [bind]. eauto.
  - eauto.
  - destruct (u_tdr u); eauto.
  - eauto.
  - destruct (u_cen u); eauto.
Qed.
Lemma act_total c w t x : cfg_master_ok c -> cinv c (m_lib_of t) (mloc (w_lib w)) (mc_s (w_lib w)) -> polite (m_lib_of t) -> wire t w -> rx_given w ->
  (forall q, x = WReq q -> req_safe q) -> (x = WUsart -> in_send (w_sub w) = false) -> exists w' t', w_act c x w = Ok (w', t').
Proof. intros Hc CI P W G HR HS. eapply act_total0; eauto. intros E i a m C Cu N. rewrite E in CI. eapply polite_delivered; eauto. Qed.
Lemma w_run_total c w : cfg_master_ok c -> mfw_started c w -> forall l, w_reqs_safe l -> m_send_undisturbed c w l -> no_early_rx c w l ->
  always_at c w l (fun _ _ t => polite (m_lib_of t)) -> exists w' t, w_run c l w = Ok (w', t).
Proof.
  intros Hc HW. induction l as [|x l IH] using rev_ind; intros HR HU HN HP; [cbn; eauto|].
  destruct IH as (w1 & t1 & R). { eapply safe_app; eauto. } { eapply always_app; eauto. } { eapply always_app; eauto. } { eapply always_app; eauto. }
  assert (HR1 := safe_app _ _ HR). rewrite w_run_app, R. cbn [bind w_run].
  destruct (act_total c w1 t1 x Hc) as (w' & t' & E).
  - eapply mfw_cinv; eauto.
  - exact (HP l x [] w1 t1 eq_refl R).
  - apply (wire_run c w Hc HW l); auto. eapply always_app; exact HU.
  - apply (given_run c w HW l w1 t1); auto. eapply always_app; exact HN.
  - intros q ->. apply HR, in_or_app. right. now left.
  - intros Hx. eapply undisturbed_at; eauto.
  - rewrite E. cbn [bind]. eauto.
Qed.
