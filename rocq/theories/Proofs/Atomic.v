(** What happens during the interpretation of a request. *)
From Verif Require Import Proofs.Lib Proofs.Rtu Model.SlavePDU Model.Slave Spec.Refusal Spec.Buf Proofs.SlaveMain Proofs.Prefix Spec.SlaveTrace Spec.Atomic.
Local Open Scope Z_scope.

Lemma begins_rd r g i : begins r g -> 0 <= i < Z.of_nat (length g) -> rd r i = Ok (nth (Z.to_nat i) g 0).
Proof.
  intros [P F] H. unfold rd, aget. rewrite P. destruct (i <? 0) eqn:X; [lia|]. rewrite <- F at 1.
  assert (L : (length g <= length (rr_buf r))%nat). { rewrite <- F at 1. rewrite firstn_length. lia. }
  rewrite (nth_error_nth' (rr_buf r) 0) by lia. rewrite nth_firstn by lia. reflexivity.
Qed.
Lemma begins_agree q r g : begins q g -> begins r g -> agree q (Z.of_nat (length g)) r.
Proof. intros A B i H. rewrite (begins_rd q g), (begins_rd r g) by auto. reflexivity. Qed.
(** the ordinary buffer that holds [g] *)
Definition plain (g : list Z) : rr := mk_rr true (g ++ repeat 0 (256 - length g)) (Z.of_nat (length g)).
Lemma plain_ok g : bytes g -> (length g < 256)%nat -> rr_ok (plain g) /\ rx_frame (plain g) = g /\ begins (plain g) g.
Proof.
  intros B L. assert (F : firstn (length g) (g ++ repeat 0 (256 - length g)) = g) by (apply firstn_app_exact; reflexivity).
  repeat split; cbn [plain rr_ptr rr_buf rr_len]; auto; try lia.
  - rewrite app_length, repeat_length. lia.
  - apply Forall_app. split; auto. apply Forall_forall. intros x Hx. apply repeat_spec in Hx. subst. unfold byte. lia.
  - unfold rx_frame. cbn [plain rr_buf rr_len]. rewrite Nat2Z.id. exact F.
Qed.
Lemma complete_reads g : bytes g -> frame_complete g -> forall r, begins r g -> 6 <= Z.of_nat (length g) /\
  forall fc, rd r 1 = Ok fc -> fc = 15 \/ fc = 16 -> exists bc, rd r 6 = Ok bc /\ 0 <= bc /\ 7 + bc <= Z.of_nat (length g).
Proof.
  intros B [L C] r H. split; [lia|]. intros fc E D. rewrite (begins_rd r g) in E by (auto; lia). injection E as E.
  assert (X : byte_at g 1 = 15 \/ byte_at g 1 = 16). { unfold byte_at. change (Z.to_nat 1) with 1%nat in E. rewrite E. exact D. }
  apply C in X. assert (B6 : byte (nth 6 g 0)) by (apply bytes_nth; auto). unfold byte_at in X. unfold byte in B6.
  exists (nth 6 g 0). rewrite (begins_rd r g) by (auto; lia). repeat split; auto; lia.
Qed.
Theorem parse_begins c d m g : cfg_tables_ok c -> data_ok c d -> rr_ok (m_resp m) -> bytes g -> (length g < 256)%nat -> frame_complete g -> begins (m_req m) g ->
  exists st r, parse_master_request_and_prepare_resp c m d = Ok (st, mk_msg (m_req m) r, snd (server c d g)) /\ answer_is r (fst (server c d g)).
Proof.
  intros Hc Hd Hr B L C H. destruct (plain_ok g B L) as (P1 & P2 & P3).
  destruct (parse_frame c d (mk_msg (plain g) (m_resp m)) Hc Hd (conj P1 Hr)) as (st & r & E & A). { cbn [m_req]. rewrite P2. exact C. }
  cbn [m_req] in E, A. rewrite P2 in E, A. apply holds_answer in A.
  destruct (complete_reads g B C (plain g) P3) as (L6 & M).
  assert (X := parse_w (m_req m) c (mk_msg (plain g) (m_resp m)) d (Z.of_nat (length g)) (proj1 H) eq_refl (begins_agree _ _ g H P3) L6 M).
  replace (wm (m_req m) (mk_msg (plain g) (m_resp m))) with m in X by (destruct m; reflexivity). rewrite E in X. cbn in X. exists st, r. split; auto.
Qed.

(** the check *)
Lemma crc_begins buf g : firstn (length g) buf = g -> forall n p acc, 0 <= p -> p + Z.of_nat n <= Z.of_nat (length g) ->
  forall buf', firstn (length g) buf' = g -> crc_loop n buf p acc = crc_loop n buf' p acc.
Proof.
  intros F. induction n as [|n IH]; intros p acc Hp L buf' F'; cbn [crc_loop]; [reflexivity|].
  assert (X : aget buf p = aget buf' p).
  { assert (A := begins_rd (mk_rr true buf 0) g p (conj eq_refl F)). assert (A' := begins_rd (mk_rr true buf' 0) g p (conj eq_refl F')).
    unfold rd in A, A'. cbn [rr_ptr rr_buf] in A, A'. rewrite A, A' by lia. reflexivity. }
  rewrite X. apply bind_ext; intros b. cbn zeta. apply bind_ext; intros t. apply IH; auto; lia.
Qed.
Theorem recv_begins r g id : bytes g -> (0 < length g < 256)%nat -> begins r g ->
  modbus_RTU_recv (set_len r (Z.of_nat (length g))) id = modbus_RTU_recv (plain g) id.
Proof.
  intros B L H. destruct (plain_ok g B (proj2 L)) as (_ & _ & P). unfold modbus_RTU_recv. cbn [set_len rr_buf rr_len plain].
  change (rd (set_len r (Z.of_nat (length g)))) with (rd r). change MODBUS_SLAVE_ADR_IDX with 0. rewrite (begins_rd r g), (begins_rd (plain g) g) by (auto; lia).
  cbn [bind]. destruct (negb _); [reflexivity|]. unfold calculate_CRC. rewrite Nat2Z.id.
  rewrite (crc_begins (rr_buf r) g (proj2 H) _ 0 _ (Z.le_refl 0)) with (buf' := g ++ repeat 0 (256 - length g)); [reflexivity|lia|]. apply P.
Qed.

(** *** the machine *)
(** what is true while the request [g] is interpreted and [n] more bytes may arrive *)
Record busy (c : cfg) (g : list Z) (n : Z) (s : slave) : Prop := {
  bz_ready : slave_ready c s; bz_begins : begins (m_req (s_msg s)) g;
  bz_len : Z.of_nat (length g) <= rr_len (m_req (s_msg s)) \/ n = 0; bz_room : rr_len (m_req (s_msg s)) + n <= 256 }.
Ltac sprj := cbn [s_set_id s_set_st s_set_drv s_set_mptr s_set_msg s_set_t15 s_set_t35 s_set_fe s_set_tx s_set_data s_set_sub s_set_rx
  s_id s_st s_drv s_mptr s_msg s_t15 s_t35 s_fe s_tx s_data s_sub s_rx m_req m_resp set_req set_resp set_len rr_ptr rr_buf rr_len].
Definition ev_of (e : Slave.sev) (s : slave) : slave :=
  match e with
  | STxDone => s_set_tx s CLEARED | ST15 => s_set_t15 s SET | ST35 => s_set_t35 s SET | SFrameErr => s_set_fe s SET
  | SRx b => let r := m_req (s_msg s) in s_set_msg s (set_req (s_msg s) (mk_rr true (upd (rr_buf r) (Z.to_nat (rr_len r)) (u8 b)) (u8 (rr_len r + 1))))
  | SApp _ _ => s
  end.
Lemma ev_of_ok c e s : slave_ready c s -> s_interrupt e -> s_event e s = Ok (ev_of e s).
Proof.
  intros (R1 & R2 & R3 & R4 & R5 & R6 & R7) I. destruct e; cbn [s_event ev_of]; rewrite ?R3, ?R4; auto; [|contradiction].
  destruct R6 as [(P & Lb & B & N) _]. unfold byte in N. unfold wr. rewrite P. unfold aset.
  destruct (_ || _) eqn:X; [lia|]. reflexivity.
Qed.
Lemma ev_of_ready c e s : slave_ready c s -> s_interrupt e -> slave_ready c (ev_of e s).
Proof.
  intros (R1 & R2 & R3 & R4 & R5 & R6 & R7) I. destruct e; cbn [ev_of]; try contradiction; unfold slave_ready; sprj; repeat (split; [assumption|]); auto.
  destruct R6 as [(P & Lb & B & N) R6]. split; [|exact R7]. split; [|exact R6]. sprj. unfold rr_ok. sprj. rewrite upd_length.
  repeat split; auto; unfold u8; try lia. apply Forall_upd; auto. unfold byte. lia.
Qed.
Lemma busy_ev c g n e l s : busy c g (s_rx_count (e :: l) + n) s -> 0 <= n -> 0 <= s_rx_count l -> s_interrupt e -> busy c g (s_rx_count l + n) (ev_of e s).
Proof.
  intros [R H L M] N0 N1 I. assert (R' := ev_of_ready c e s R I). destruct e; try contradiction; try (constructor; cbn [ev_of]; sprj; cbn [s_rx_count] in *; auto; fail).
  cbn [s_rx_count] in *. destruct R as (_ & _ & _ & _ & _ & [(P & Lb & B & N) _] & _). unfold byte in N.
  constructor; auto; cbn [ev_of]; sprj.
  - destruct H as [H1 H2]. split; auto. sprj. rewrite firstn_upd_ge; auto. lia.
  - unfold u8. destruct (Z.eq_dec (rr_len (m_req (s_msg s))) 255) as [E|E]; [right; lia|left; rewrite Z.mod_small by lia; lia].
  - unfold u8. destruct (Z.eq_dec (rr_len (m_req (s_msg s))) 255) as [E|E]; [rewrite E; change ((255 + 1) mod 256) with 0; lia|rewrite Z.mod_small by lia; lia].
Qed.
Lemma received_nonneg l : 0 <= s_rx_count l.
Proof. induction l as [|[]]; cbn [s_rx_count]; lia. Qed.


(** the interpretation does not notice an interrupt *)
Lemma exec_ev c g n e l s s1 o : cfg_tables_ok c -> bytes g -> (length g < 256)%nat -> frame_complete g -> busy c g (s_rx_count (e :: l) + n) s -> 0 <= n -> s_interrupt e ->
  s_line c L195 s = Ok (Some L196, s1, o) -> s_line c L195 (ev_of e s) = Ok (Some L196, ev_of e s1, o).
Proof.
  intros Hc B Lg C Bz N I E. assert (Bz' := busy_ev c g n e l s Bz N (received_nonneg l) I).
  destruct Bz as [R H _ _]. destruct Bz' as [R' H' _ _].
  assert (M : s_mptr s = true) by apply R. assert (M' : s_mptr (ev_of e s) = true) by apply R'.
  cbn [s_line] in *. rewrite M in E. rewrite M'.
  assert (X : s_msg (ev_of e s) = wm (m_req (s_msg (ev_of e s))) (s_msg s)). { destruct (s_msg s) eqn:Em. destruct e; try contradiction; cbn [ev_of]; sprj; rewrite ?Em; reflexivity. }
  assert (D : s_data (ev_of e s) = s_data s) by (destruct e; reflexivity).
  destruct (complete_reads g B C (m_req (s_msg s)) H) as (L6 & Q).
  rewrite X, D, (parse_w _ c (s_msg s) (s_data s) (Z.of_nat (length g)) (proj1 H') (proj1 H) (begins_agree _ _ g H' H) L6 Q).
  destruct (parse_begins c (s_data s) (s_msg s) g Hc (proj2 (proj2 (proj2 (proj2 (proj2 (proj2 R)))))) (proj2 (proj1 (proj2 (proj2 (proj2 (proj2 (proj2 R))))))) B Lg C H) as (st & r & Ep & _).
  rewrite Ep in *. cbn [bind om] in *. injection E as <- <-. cbn [w3 fst snd]. do 3 f_equal.
  destruct e; try contradiction; reflexivity.
Qed.

Lemma exec_begins c g n s : cfg_tables_ok c -> bytes g -> (length g < 256)%nat -> frame_complete g -> busy c g n s ->
  exists r, answer_is r (fst (server c (s_data s) g)) /\
    s_line c L195 s = Ok (Some L196, s_set_data (s_set_msg s (mk_msg (m_req (s_msg s)) r)) (snd (server c (s_data s) g)), [SoExec]).
Proof.
  intros Hc B L C [(R1 & R2 & R3 & R4 & R5 & R6 & R7) H Lg M]. cbn [s_line]. rewrite R2.
  destruct (parse_begins c (s_data s) (s_msg s) g Hc R7 (proj2 R6) B L C H) as (st & r & E & A). rewrite E. cbn [bind]. eauto.
Qed.
Lemma run_evs c pc : forall l s, slave_ready c s -> (forall e, In e l -> s_interrupt e) ->
  s_run c (map SEv l) (mk_sconf s pc) = Ok (mk_sconf (fold_left (fun s e => ev_of e s) l s) pc, map TEv l) /\ slave_ready c (fold_left (fun s e => ev_of e s) l s).
Proof.
  induction l as [|e l IH]; intros s R I; cbn [map s_run fold_left]. { split; [reflexivity|exact R]. }
  assert (Ie : s_interrupt e) by (apply I; left; reflexivity). cbn [s_act sc_s sc_pc]. rewrite (ev_of_ok c) by auto. cbn [bind].
  destruct (IH (ev_of e s)) as (E & R'). { apply ev_of_ready; auto. } { intros x Hx. apply I. right. exact Hx. }
  rewrite E. cbn [bind app]. split; [reflexivity|exact R'].
Qed.
Lemma exec_evs c g : cfg_tables_ok c -> bytes g -> (length g < 256)%nat -> frame_complete g -> forall l s s1, (forall e, In e l -> s_interrupt e) -> busy c g (s_rx_count l) s ->
  s_line c L195 s = Ok (Some L196, s1, [SoExec]) ->
  s_line c L195 (fold_left (fun s e => ev_of e s) l s) = Ok (Some L196, fold_left (fun s e => ev_of e s) l s1, [SoExec]).
Proof.
  intros Hc B Lg C. induction l as [|e l IH]; intros s s1 I Bz E; cbn [fold_left]. { exact E. }
  assert (Ie : s_interrupt e) by (apply I; left; reflexivity). assert (Bz0 : busy c g (s_rx_count (e :: l) + 0) s) by (rewrite Z.add_0_r; exact Bz).
  apply IH. { intros x Hx. apply I. right. exact Hx. }
  - rewrite <- (Z.add_0_r (s_rx_count l)). apply (busy_ev c g 0 e l s Bz0); [lia|apply received_nonneg|exact Ie].
  - apply (exec_ev c g 0 e l s s1); auto. lia.
Qed.
Lemma s_run_app c a b k : s_run c (a ++ b) k = bind (s_run c a k) (fun x => bind (s_run c b (fst x)) (fun y => Ok (fst y, snd x ++ snd y))).
Proof.
  revert k; induction a as [|x a IH]; intros k; cbn [app s_run bind fst snd].
  - destruct (s_run c b k) as [[? ?]| |]; reflexivity.
  - destruct (s_act c x k) as [[k1 t1]| |]; cbn [bind]; auto. rewrite IH. destruct (s_run c a k1) as [[k2 t2]| |]; cbn [bind fst snd]; auto.
    destruct (s_run c b k2) as [[k3 t3]| |]; cbn [bind fst snd]; auto. rewrite app_assoc. reflexivity.
Qed.
Lemma received_app a b : s_rx_count (a ++ b) = s_rx_count a + s_rx_count b.
Proof. induction a as [|[]]; cbn [app s_rx_count]; lia. Qed.
Lemma busy_le c g n n' s : busy c g n s -> 0 <= n' <= n -> busy c g n' s.
Proof. intros [R H L M] N. constructor; auto; lia. Qed.
Theorem interpretation c g s es : cfg_tables_ok c -> bytes g -> (length g < 256)%nat -> frame_complete g -> busy c g (s_rx_count es) s -> (forall e, In e es -> s_interrupt e) ->
  exists k' r, answer_is r (fst (server c (s_data s) g)) /\ s_data (sc_s k') = snd (server c (s_data s) g) /\ m_resp (s_msg (sc_s k')) = r /\ sc_pc k' = Some L196 /\
    forall es1 es2, es1 ++ es2 = es -> s_run c (map SEv es1 ++ SStep :: map SEv es2) (mk_sconf s (Some L195)) = Ok (k', map TEv es1 ++ TOut SoExec :: map TEv es2).
Proof.
  intros Hc B Lg C Bz I. destruct (exec_begins c g _ s Hc B Lg C Bz) as (r & A & E).
  set (s1 := s_set_data (s_set_msg s (mk_msg (m_req (s_msg s)) r)) (snd (server c (s_data s) g))) in *.
  exists (mk_sconf (fold_left (fun s e => ev_of e s) es s1) (Some L196)), r. split; [exact A|].
  assert (D : forall l x, (forall e, In e l -> s_interrupt e) -> s_data (fold_left (fun s e => ev_of e s) l x) = s_data x /\ m_resp (s_msg (fold_left (fun s e => ev_of e s) l x)) = m_resp (s_msg x)).
  { induction l as [|e l IH]; intros x Ix; cbn [fold_left]; [auto|]. destruct (IH (ev_of e x)) as [-> ->]. { intros y Hy. apply Ix. right. exact Hy. } destruct e; split; reflexivity. }
  destruct (D es s1 I) as [D1 D2]. cbn [sc_s sc_pc]. split; [rewrite D1; reflexivity|]. split; [rewrite D2; reflexivity|]. split; [reflexivity|].
  intros es1 es2 <-. rewrite s_run_app. destruct (run_evs c (Some L195) es1 s (bz_ready _ _ _ _ Bz)) as (E1 & R1). { intros e He. apply I. apply in_or_app. auto. }
  rewrite E1. cbn [bind fst snd s_run s_act sc_pc sc_s].
  assert (E2 := exec_evs c g Hc B Lg C es1 s s1). rewrite E2; auto.
  2:{ intros e He. apply I. apply in_or_app. auto. }
  2:{ apply (busy_le c g (s_rx_count (es1 ++ es2))); auto. rewrite received_app. assert (X := received_nonneg es1). assert (Y := received_nonneg es2). lia. }
  cbn [bind map app]. rewrite fold_left_app.
  assert (R2 : slave_ready c (fold_left (fun s e => ev_of e s) es1 s1)).
  { assert (X : slave_ready c s1). { destruct (bz_ready _ _ _ _ Bz) as (Q1 & Q2 & Q3 & Q4 & Q5 & Q6 & Q7). unfold s1, slave_ready. sprj. repeat (split; [assumption|]). split.
      - split; [apply Q6|]. sprj. destruct A as (A1 & A2 & A3 & A4 & _). split; [exact A1|]. split; [exact A2|]. split; [exact A3|]. assert (SL := server_pdu_len c (s_data s) g). unfold byte. lia.
      - apply server_data_ok; auto. }
    apply (proj2 (run_evs c (Some L195) es1 s1 X (fun e He => I e (in_or_app _ _ _ (or_introl He))))). }
  destruct (run_evs c (Some L196) es2 _ R2) as (E3 & _). { intros e He. apply I. apply in_or_app. auto. }
  rewrite E3. reflexivity.
Qed.
