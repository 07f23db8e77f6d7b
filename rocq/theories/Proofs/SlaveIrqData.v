From Verif Require Import Model.SlaveIrqData Spec.SlaveIrqData Spec.Refusal Proofs.Lib Proofs.ServerP Proofs.ServerMain.
Import ListNotations.
Local Open Scope Z_scope.

Lemma at_put_put {A} (l : list A) i v : at_put l i v = put l i v.
Proof. revert i; induction l as [|x l IH]; intros [|i]; cbn; congruence. Qed.
Lemma aw_run_app d l l' : aw_run d (l ++ l') = aw_run (aw_run d l) l'.
Proof. apply fold_left_app. Qed.
Lemma aw_do_tabs d w : t_coils (aw_do d w) = t_coils d /\ t_din (aw_do d w) = t_din d /\ t_ireg (aw_do d w) = t_ireg d /\ t_hreg (aw_do d w) = t_hreg d /\
  length (v_bits (aw_do d w)) = length (v_bits d) /\ length (v_regs (aw_do d w)) = length (v_regs d).
Proof. destruct w; cbn [aw_do set_bits set_regs t_coils t_din t_ireg t_hreg v_bits v_regs]; rewrite ?at_put_put, ?put_length; auto 10. Qed.
Lemma aw_tabs l : forall d, t_coils (aw_run d l) = t_coils d /\ t_din (aw_run d l) = t_din d /\ t_ireg (aw_run d l) = t_ireg d /\ t_hreg (aw_run d l) = t_hreg d /\
  length (v_bits (aw_run d l)) = length (v_bits d) /\ length (v_regs (aw_run d l)) = length (v_regs d).
Proof.
  induction l as [|w l IH]; intros d; [cbn; auto 10|]. cbn [aw_run fold_left]. destruct (IH (aw_do d w)) as (A & B & C & D & E & F). fold (aw_run (aw_do d w) l).
  rewrite A, B, C, D, E, F. apply aw_do_tabs.
Qed.
Lemma put_Forall {A} (P : A -> Prop) (l : list A) i v : Forall P l -> P v -> Forall P (put l i v).
Proof. intros F. revert i. induction F as [|x l H F IH]; intros [|i] Pv; cbn; auto. Qed.
Lemma aw_words l : forall d, (forall x v, In (WReg x v) l -> word v) -> Forall word (v_regs d) -> Forall word (v_regs (aw_run d l)).
Proof.
  induction l as [|w l IH]; intros d H F; [exact F|]. apply (IH (aw_do d w)); [intros; eapply H; right; eauto|].
  destruct w; cbn [aw_do set_bits set_regs v_regs]; [exact F|]. rewrite at_put_put. apply put_Forall; [exact F|]. eapply H. left. reflexivity.
Qed.
Lemma aw_data c d l : data_ok c d -> (forall x v, In (WReg x v) l -> word v) -> data_ok c (aw_run d l).
Proof.
  intros (D1 & D2 & D3 & D4 & P1 & P2 & P3 & P4 & W) H. destruct (aw_tabs l d) as (A & B & C & D & E & F). unfold data_ok. rewrite A, B, C, D.
  repeat (split; [assumption|]). unfold ptrs_ok. rewrite E, F. repeat (split; [assumption|]). apply aw_words; assumption.
Qed.
Lemma until_words app k : app_words app -> forall x v, In (WReg x v) (writes_until app k) -> word v.
Proof. intros H x v I. apply in_flat_map in I. destruct I as (j & _ & I). eapply H; eauto. Qed.

(** every address its own variable, with the value at the moment of the access *)
Definition own (tab : list (option nat)) : list (option nat) :=
  map (fun k => match nth_error tab k with Some (Some _) => Some k | _ => None end) (seq 0 (length tab)).
Definition frozen {A} (dflt : A) (tab : list (option nat)) (val : nat -> option A) : list A :=
  map (fun k => match val k with Some v => v | None => dflt end) (seq 0 (length tab)).
Lemma nth_error_seq s n k : (k < n)%nat -> nth_error (seq s n) k = Some (s + k)%nat.
Proof. revert s k. induction n as [|n IH]; intros s k H; [lia|]. destruct k as [|k]; cbn; [f_equal; lia|]. rewrite IH by lia. f_equal. lia. Qed.
Lemma own_len tab : length (own tab) = length tab.
Proof. unfold own. rewrite map_length, seq_length. reflexivity. Qed.
Lemma own_nth tab k : (k < length tab)%nat -> nth_error (own tab) k = Some (match nth_error tab k with Some (Some _) => Some k | _ => None end).
Proof. intros H. unfold own. rewrite nth_error_map, nth_error_seq by exact H. reflexivity. Qed.
Lemma frozen_ptrs {A} (dflt : A) tab val : ptrs_ok (own tab) (frozen dflt tab val).
Proof.
  intros k c E. unfold frozen. rewrite map_length, seq_length. assert (K : (k < length (own tab))%nat) by (apply nth_error_Some; congruence). rewrite own_len in K.
  rewrite own_nth in E by exact K. destruct (nth_error tab k) as [[x|]|]; inversion E; subst; exact K.
Qed.
Lemma frozen_var {A} (dflt : A) tab val k : (k < length tab)%nat -> (val k = None <-> nth_error tab k = Some None) -> var_at (own tab) (frozen dflt tab val) k = val k.
Proof.
  intros K H. unfold var_at. rewrite own_nth by exact K. destruct (nth_error tab k) as [[x|]|] eqn:E.
  - unfold frozen. rewrite nth_error_map, nth_error_seq by exact K. cbn. destruct (val k) as [v|]; [reflexivity|]. destruct H as [H _]. specialize (H eq_refl). discriminate H.
  - symmetry. apply H. reflexivity.
  - apply nth_error_None in E. lia.
Qed.

Section Loops.
Context (app : nat -> list aw).
Lemma run_seq d i n : aw_run d (flat_map app (seq i (S n))) = aw_run (before app (Z.of_nat i) d) (flat_map app (seq (S i) n)).
Proof. cbn [seq flat_map]. rewrite aw_run_app. unfold before. rewrite Nat2Z.id. reflexivity. Qed.
Lemma before_tab d i : t_coils (before app i d) = t_coils d /\ t_din (before app i d) = t_din d /\ t_ireg (before app i d) = t_ireg d /\ t_hreg (before app i d) = t_hreg d.
Proof. unfold before. destruct (aw_tabs (app (Z.to_nat i)) d) as (A & B & C & D & _). auto. Qed.

(** the values the loop gets, with the interrupts and without *)
Definition same_gets {A} (get : list (option nat) -> list A -> Z -> outcome Z) (tab : list (option nat)) (cells : sdata -> list A) (tab' : list (option nat)) (cells' : list A)
  (d : sdata) (adr : Z) (i n : nat) : Prop :=
  forall j, (j < n)%nat -> exists v, get tab (cells (aw_run d (flat_map app (seq i (S j))))) (adr + Z.of_nat (i + j)) = Ok v /\ get tab' cells' (adr + Z.of_nat (i + j)) = Ok v /\
    (RET_ERROR =? v) = (match nth_error tab (Z.to_nat adr + i + j) with Some (Some _) => false | _ => true end).
Lemma same_gets_next {A} get tab (cells : sdata -> list A) tab' cells' d adr i n :
  same_gets get tab cells tab' cells' d adr i (S n) -> same_gets get tab cells tab' cells' (before app (Z.of_nat i) d) adr (S i) n.
Proof.
  intros H j J. destruct (H (S j) ltac:(lia)) as (v & A1 & A2 & A3). exists v. rewrite run_seq in A1.
  replace (S i + j)%nat with (i + S j)%nat by lia. replace (Z.to_nat adr + S i + j)%nat with (Z.to_nat adr + i + S j)%nat by lia. split; [exact A1|]. split; assumption.
Qed.

Lemma coil_loop n tab' cells' adr : forall i d m last, same_gets get_coil_din_state (t_coils d) v_bits tab' cells' d adr i n ->
  read_coil_loop_i app n d m adr (Z.of_nat i) last =
  let* e := read_coil_loop n tab' cells' m adr (Z.of_nat i) last in Ok (e, aw_run d (flat_map app (seq i (accesses (t_coils d) (Z.to_nat adr + i) n)))).
Proof.
  induction n as [|n IH]; intros i d m last H; [reflexivity|]. cbn [read_coil_loop_i read_coil_loop accesses].
  destruct (H 0%nat ltac:(lia)) as (v & A1 & A2 & A3). rewrite Nat.add_0_r in A1, A2, A3.
  cbn [seq flat_map] in A1. rewrite app_nil_r in A1. destruct (before_tab d (Z.of_nat i)) as (T & _). rewrite T.
  replace (aw_run d (app i)) with (before app (Z.of_nat i) d) in A1 by (unfold before; rewrite Nat2Z.id; reflexivity). rewrite A1, A2. cbn [bind]. rewrite A3.
  destruct (nth_error (t_coils d) (Z.to_nat adr + i)) as [[x|]|].
  - destruct (rd _ _) as [old| |]; cbn [bind]; auto. destruct (wr _ _ _) as [r| |]; cbn [bind]; auto.
    replace (Z.of_nat i + 1) with (Z.of_nat (S i)) by lia. rewrite IH by (rewrite T; apply same_gets_next; exact H). rewrite T, run_seq, <- plus_n_Sm. reflexivity.
  - destruct (set_exception_code_resp m _) as [m'| |]; cbn [bind]; auto. rewrite run_seq. reflexivity.
  - destruct (set_exception_code_resp m _) as [m'| |]; cbn [bind]; auto. rewrite run_seq. reflexivity.
Qed.
Lemma din_loop n tab' cells' adr : forall i d m last, same_gets get_coil_din_state (t_din d) v_bits tab' cells' d adr i n ->
  read_din_loop_i app n d m adr (Z.of_nat i) last =
  let* e := read_din_loop n tab' cells' m adr (Z.of_nat i) last in Ok (e, aw_run d (flat_map app (seq i (accesses (t_din d) (Z.to_nat adr + i) n)))).
Proof.
  induction n as [|n IH]; intros i d m last H; [reflexivity|]. cbn [read_din_loop_i read_din_loop accesses].
  destruct (H 0%nat ltac:(lia)) as (v & A1 & A2 & A3). rewrite Nat.add_0_r in A1, A2, A3.
  cbn [seq flat_map] in A1. rewrite app_nil_r in A1. destruct (before_tab d (Z.of_nat i)) as (_ & T & _). rewrite T.
  replace (aw_run d (app i)) with (before app (Z.of_nat i) d) in A1 by (unfold before; rewrite Nat2Z.id; reflexivity). rewrite A1, A2. cbn [bind]. rewrite A3.
  destruct (nth_error (t_din d) (Z.to_nat adr + i)) as [[x|]|].
  - destruct (rd _ _) as [old| |]; cbn [bind]; auto. destruct (wr _ _ _) as [r| |]; cbn [bind]; auto.
    replace (Z.of_nat i + 1) with (Z.of_nat (S i)) by lia. rewrite IH by (rewrite T; apply same_gets_next; exact H). rewrite T, run_seq, <- plus_n_Sm. reflexivity.
  - destruct (set_exception_code_resp m _) as [m'| |]; cbn [bind]; auto. rewrite run_seq. reflexivity.
  - destruct (set_exception_code_resp m _) as [m'| |]; cbn [bind]; auto. rewrite run_seq. reflexivity.
Qed.
Lemma reg_loop tb n tab' cells' adr : (forall i d, tb (before app i d) = tb d) -> forall i d m last, same_gets get_register_state (tb d) v_regs tab' cells' d adr i n ->
  read_reg_loop_i app tb n d m adr (Z.of_nat i) last =
  let* e := read_reg_loop n tab' cells' m adr (Z.of_nat i) last in Ok (e, aw_run d (flat_map app (seq i (accesses (tb d) (Z.to_nat adr + i) n)))).
Proof.
  intros T. induction n as [|n IH]; intros i d m last H; [reflexivity|]. cbn [read_reg_loop_i read_reg_loop accesses].
  destruct (H 0%nat ltac:(lia)) as (v & A1 & A2 & A3). rewrite Nat.add_0_r in A1, A2, A3.
  cbn [seq flat_map] in A1. rewrite app_nil_r in A1. rewrite T.
  replace (aw_run d (app i)) with (before app (Z.of_nat i) d) in A1 by (unfold before; rewrite Nat2Z.id; reflexivity). rewrite A1, A2. cbn [bind]. rewrite A3.
  destruct (nth_error (tb d) (Z.to_nat adr + i)) as [[x|]|].
  - destruct (write_u16_to_buf _ _ _) as [r| |]; cbn [bind]; auto.
    replace (Z.of_nat i + 1) with (Z.of_nat (S i)) by lia. rewrite IH by (rewrite T; apply same_gets_next; exact H). rewrite T, run_seq, <- plus_n_Sm. reflexivity.
  - destruct (set_exception_code_resp m _) as [m'| |]; cbn [bind]; auto. rewrite run_seq. reflexivity.
  - destruct (set_exception_code_resp m _) as [m'| |]; cbn [bind]; auto. rewrite run_seq. reflexivity.
Qed.
End Loops.

(** writes *)
Section Writes.
Context (app : nat -> list aw).
Lemma store_asked {A} (mk : nat -> A -> aw) tab vals : forall cells k, snd (store tab cells k vals) = snd (asked mk tab k vals).
Proof.
  induction vals as [|v vs IH]; intros cells k; [reflexivity|]. cbn [store asked]. destruct (nth_error tab k) as [[x|]|]; [|reflexivity|reflexivity].
  rewrite IH. destruct (asked mk tab (S k) vs). reflexivity.
Qed.
Lemma before_len d i : length (v_bits (before app i d)) = length (v_bits d) /\ length (v_regs (before app i d)) = length (v_regs d).
Proof. unfold before. destruct (aw_tabs (app (Z.to_nat i)) d) as (_ & _ & _ & _ & E & F). auto. Qed.
Lemma set_bits_loop_i req adr n : rr_ok req -> 0 <= adr -> forall i d, ptrs_ok (t_coils d) (v_bits d) -> (i + n <= 1992)%nat ->
  adr + Z.of_nat (i + n) <= Z.of_nat (length (t_coils d)) -> adr + Z.of_nat (i + n) <= 65535 ->
  set_coil_din_value_loop_i app n req 7 adr (Z.of_nat i) d RET_OK =
    let a := asked WBit (t_coils d) (Z.to_nat adr + i) (map (fun k => Z.testbit (byte_at (rr_buf req) (7 + k / 8)) (Z.of_nat (k mod 8))) (seq i n)) in
    Ok (store_ret (snd a), aw_run d (mixed app i (fst a) (snd a))).
Proof.
  intros R Ha. induction n as [|n IH]; intros i d P Hi Hsz H16; cbn [set_coil_din_value_loop_i seq map asked].
  - reflexivity.
  - assert (R' := R). destruct R as (Pt & L & B & Hl).
    replace (Z.of_nat i / 8) with (Z.of_nat (i / 8)) by (rewrite Nat2Z.inj_div; reflexivity).
    replace (Z.of_nat i mod 8) with (Z.of_nat (i mod 8)) by (rewrite Nat2Z.inj_mod; reflexivity).
    assert (D : (i / 8 < 249)%nat) by (apply Nat.div_lt_upper_bound; lia).
    rewrite rd_ok by (auto; lia). cbn [bind].
    replace (Z.to_nat (7 + Z.of_nat (i / 8))) with (7 + i / 8)%nat by lia.
    fold (byte_at (rr_buf req) (7 + i / 8)).
    assert (B0 := bytes_nth (rr_buf req) (7 + i / 8) B). fold (byte_at (rr_buf req) (7 + i / 8)) in B0. unfold byte in B0.
    rewrite land_bit' by lia.
    set (v := Z.testbit _ _). set (d1 := before app (Z.of_nat i) d).
    destruct (before_tab app d (Z.of_nat i)) as (T & _). fold d1 in T. destruct (before_len d (Z.of_nat i)) as (Lb & _). fold d1 in Lb.
    assert (P1 : ptrs_ok (t_coils d1) (v_bits d1)) by (unfold ptrs_ok; rewrite T, Lb; exact P).
    replace (if v then set_coil_state (t_coils d1) (v_bits d1) (adr + Z.of_nat i) true else set_coil_state (t_coils d1) (v_bits d1) (adr + Z.of_nat i) false)
      with (set_coil_state (t_coils d1) (v_bits d1) (adr + Z.of_nat i) v) by (destruct v; reflexivity).
    rewrite set_coil_ok by (auto; rewrite ?T; lia). replace (Z.to_nat (adr + Z.of_nat i)) with (Z.to_nat adr + i)%nat by lia.
    cbn [bind]. unfold set_at. rewrite T. destruct (nth_error (t_coils d) (Z.to_nat adr + i)) as [[c|]|] eqn:E; cbn [bind].
    + change (RET_OK =? RET_ERROR) with false. cbn iota.
      replace (Z.of_nat i + 1) with (Z.of_nat (S i)) by lia.
      assert (ED : set_bits d1 (put (v_bits d1) c v) = aw_run d (app i ++ [WBit c v])).
      { rewrite aw_run_app. unfold d1, before. rewrite Nat2Z.id. reflexivity. }
      rewrite IH; [|cbn [set_bits t_coils v_bits]; apply ptrs_put; exact P1|lia|cbn [set_bits t_coils]; rewrite T; lia|lia].
      cbv zeta. cbn [set_bits t_coils]. rewrite T. replace (Z.to_nat adr + S i)%nat with (S (Z.to_nat adr + i)) by lia. fold (set_bits d1 (put (v_bits d1) c v)).
      destruct (asked WBit (t_coils d) (S (Z.to_nat adr + i)) _) as [l bb]. cbn [fst snd mixed]. fold (set_bits d1 (put (v_bits d1) c v)).
      rewrite ED, <- aw_run_app, <- app_assoc. reflexivity.
    + cbn [fst snd mixed store_ret]. change (RET_ERROR =? RET_ERROR) with true. cbn iota. do 2 f_equal.
      transitivity d1; [destruct d1; reflexivity|]. unfold d1, before. rewrite Nat2Z.id. reflexivity.
    + cbn [fst snd mixed store_ret]. change (RET_ERROR =? RET_ERROR) with true. cbn iota. do 2 f_equal.
      transitivity d1; [destruct d1; reflexivity|]. unfold d1, before. rewrite Nat2Z.id. reflexivity.
Qed.
Lemma write_regs_loop_i req adr n : rr_ok req -> 0 <= adr -> forall i d, ptrs_ok (t_hreg d) (v_regs d) -> (i + n <= 124)%nat ->
  adr + Z.of_nat (i + n) <= Z.of_nat (length (t_hreg d)) -> adr + Z.of_nat (i + n) <= 65535 ->
  write_multi_reg_loop_i app n req adr (Z.of_nat i) d RET_OK =
    let a := asked WReg (t_hreg d) (Z.to_nat adr + i) (map (fun k => word_at (rr_buf req) (7 + 2 * k)) (seq i n)) in
    Ok (store_ret (snd a), aw_run d (mixed app i (fst a) (snd a))).
Proof.
  intros R Ha. induction n as [|n IH]; intros i d P Hi Hsz H16; cbn [write_multi_reg_loop_i seq map asked].
  - reflexivity.
  - assert (R' := R). destruct R as (Pt & L & B & Hl). unfold MODBUS_REQUEST_WRITE_MULTI_DATA_IDX.
    rewrite read_u16_ok by (auto; lia). cbn [bind].
    replace (Z.to_nat (7 + Z.of_nat i * 2)) with (7 + 2 * i)%nat by lia.
    fold (byte_at (rr_buf req) (7 + 2 * i)) (byte_at (rr_buf req) (S (7 + 2 * i))). fold (word_at (rr_buf req) (7 + 2 * i)).
    set (v := word_at _ _). set (d1 := before app (Z.of_nat i) d).
    destruct (before_tab app d (Z.of_nat i)) as (_ & _ & _ & T). fold d1 in T. destruct (before_len d (Z.of_nat i)) as (_ & Lb). fold d1 in Lb.
    assert (P1 : ptrs_ok (t_hreg d1) (v_regs d1)) by (unfold ptrs_ok; rewrite T, Lb; exact P).
    rewrite set_reg_ok by (auto; rewrite ?T; lia). replace (Z.to_nat (adr + Z.of_nat i)) with (Z.to_nat adr + i)%nat by lia.
    cbn [bind]. unfold set_at. rewrite T. destruct (nth_error (t_hreg d) (Z.to_nat adr + i)) as [[c|]|] eqn:E; cbn [bind].
    + change (RET_ERROR =? RET_OK) with false. cbn iota.
      replace (Z.of_nat i + 1) with (Z.of_nat (S i)) by lia.
      assert (ED : set_regs d1 (put (v_regs d1) c v) = aw_run d (app i ++ [WReg c v])).
      { rewrite aw_run_app. unfold d1, before. rewrite Nat2Z.id. reflexivity. }
      rewrite IH; [|cbn [set_regs t_hreg v_regs]; apply ptrs_put; exact P1|lia|cbn [set_regs t_hreg]; rewrite T; lia|lia].
      cbv zeta. cbn [set_regs t_hreg]. rewrite T. replace (Z.to_nat adr + S i)%nat with (S (Z.to_nat adr + i)) by lia. fold (set_regs d1 (put (v_regs d1) c v)).
      destruct (asked WReg (t_hreg d) (S (Z.to_nat adr + i)) _) as [l bb]. cbn [fst snd mixed]. fold (set_regs d1 (put (v_regs d1) c v)).
      rewrite ED, <- aw_run_app, <- app_assoc. reflexivity.
    + cbn [fst snd mixed store_ret]. change (RET_ERROR =? RET_ERROR) with true. cbn iota. do 2 f_equal.
      transitivity d1; [destruct d1; reflexivity|]. unfold d1, before. rewrite Nat2Z.id. reflexivity.
    + cbn [fst snd mixed store_ret]. change (RET_ERROR =? RET_ERROR) with true. cbn iota. do 2 f_equal.
      transitivity d1; [destruct d1; reflexivity|]. unfold d1, before. rewrite Nat2Z.id. reflexivity.
Qed.
End Writes.

Lemma registered_own tab k : registered (own tab) k = registered tab k.
Proof.
  unfold registered. destruct (Nat.ltb_spec k (length tab)) as [H|H].
  - rewrite own_nth by exact H. destruct (nth_error tab k) as [[x|]|]; reflexivity.
  - replace (nth_error (own tab) k) with (@None (option nat)) by (symmetry; apply nth_error_None; rewrite own_len; exact H). replace (nth_error tab k) with (@None (option nat)) by (symmetry; apply nth_error_None; exact H). reflexivity.
Qed.
Lemma unregistered_own tab a n : unregistered (own tab) a n = unregistered tab a n.
Proof. unfold unregistered. f_equal. generalize (seq (Z.to_nat a) (Z.to_nat n)) as l. induction l as [|k l IH]; [reflexivity|]. cbn [forallb]. rewrite IH, registered_own. reflexivity. Qed.

Definition redata (o : outcome (Z * msg * sdata)) (d : sdata) : outcome (Z * msg * sdata) := let* '(st, m, _) := o in Ok (st, m, d).
Definition nones (l : list (option nat)) : list (option nat) := map (fun _ => None) l.
Lemma nones_ptrs {A} l (cells : list A) : ptrs_ok (nones l) cells.
Proof. intros k c E. unfold nones in E. rewrite nth_error_map in E. destruct (nth_error l k); discriminate E. Qed.
Lemma nones_len l : length (nones l) = length l. Proof. apply map_length. Qed.

Section Handlers.
Context (app : nat -> list aw) (c : cfg) (d : sdata) (m : msg) (Hc : cfg_tables_ok c) (Hd : data_ok c d) (Hm : msg_ok m) (Ha : app_words app).
Let b := rr_buf (m_req m).
Let adr := word_at b 2.
Let qty := word_at b 4.
Let cnt := byte_at b 6.
Let fcode := byte_at b 1.
Let Hq : rr_ok (m_req m) := proj1 Hm.

Lemma i_word i : word (word_at b i). Proof. apply (q_word (m_req m) b (repeat 0 253) Hq eq_refl eq_refl). Qed.
Lemma i_adr : read_u16_from_buf (m_req m) MODBUS_REQUEST_ADR_IDX = Ok adr. Proof. apply (q_adr (m_req m) b (repeat 0 253) Hq eq_refl eq_refl). Qed.
Lemma i_qty : read_u16_from_buf (m_req m) MODBUS_REQUEST_QTY_IDX = Ok qty. Proof. apply (q_qty (m_req m) b (repeat 0 253) Hq eq_refl eq_refl). Qed.
Lemma i_fc : rd (m_req m) MODBUS_FUNCTION_CODE_IDX = Ok fcode. Proof. apply (q_fc (m_req m) b (repeat 0 253) Hq eq_refl eq_refl). Qed.

Lemma set_exc_req m1 code m2 : set_exception_code_resp m1 code = Ok m2 -> m_req m2 = m_req m1.
Proof. unfold set_exception_code_resp. intros E. apply bind_ok in E. destruct E as (x & _ & E). apply bind_ok in E. destruct E as (y & _ & E). apply bind_ok in E. destruct E as (z & _ & E). inversion E. reflexivity. Qed.
Lemma check_cases m1 max size st m2 : m_req m1 = m_req m -> check_read_req_data_correcntess m1 max size = Ok (st, m2) ->
  (st = RET_OK /\ m2 = m1 /\ (1 <=? qty) && (qty <=? max) && (adr + qty <=? size) = true) \/
  (st = RET_ERROR /\ (1 <=? qty) && (qty <=? max) && (adr + qty <=? size) = false).
Proof.
  intros E H. unfold check_read_req_data_correcntess in H. rewrite E, i_adr, i_qty in H. cbn [bind] in H. pose proof (i_word 4) as W. fold qty in W. unfold word in W.
  destruct ((0 =? qty) || (max <? qty)) eqn:E1.
  - right. apply bind_ok in H. destruct H as (x & _ & H). inversion H. split; [reflexivity|]. destruct (1 <=? qty) eqn:F1, (qty <=? max) eqn:F2; try reflexivity. exfalso. clear - E1 F1 F2. lia.
  - unfold range_exceeded in H. destruct (size <? adr + qty) eqn:E2.
    + right. apply bind_ok in H. destruct H as (x & _ & H). inversion H. split; [reflexivity|]. replace (adr + qty <=? size) with false by lia. apply andb_false_r.
    + left. inversion H. split; [reflexivity|]. split; [reflexivity|]. clear - E1 E2 W. lia.
Qed.

(** reads *)
Definition val_at {A} (cells : sdata -> list A) (tab : list (option nat)) (k : nat) : option A := var_at tab (cells (at_access app d (k - Z.to_nat adr))) k.
Lemma val_none {A} (cells : sdata -> list A) tab k : (forall l, ptrs_ok tab (cells (aw_run d l))) -> (k < length tab)%nat -> (val_at cells tab k = None <-> nth_error tab k = Some None).
Proof.
  intros P K. unfold val_at. destruct (var_at_cases tab (cells (at_access app d (k - Z.to_nat adr))) k (P _) K) as [(x & v & E1 & _ & E3)|(E1 & E3)]; rewrite E1, E3; split; congruence.
Qed.
Lemma fetch_frozen {A} (dflt : A) (cells : sdata -> list A) tab : (forall l, ptrs_ok tab (cells (aw_run d l))) -> 0 <= qty -> adr + qty <= Z.of_nat (length tab) ->
  fetch (own tab) (frozen dflt tab (val_at cells tab)) adr qty = fetch_i app d tab cells adr qty.
Proof.
  intros P Q L. pose proof (i_word 2) as W. fold adr in W. unfold word in W. unfold fetch, fetch_i. f_equal.
  assert (S0 : seq (Z.to_nat adr) (Z.to_nat qty) = map (fun k => (Z.to_nat adr + k)%nat) (seq 0 (Z.to_nat qty))).
  { clear. generalize (Z.to_nat adr) as s, (Z.to_nat qty) as n. intros s n. revert s. induction n as [|n IH]; intros s; [reflexivity|]. cbn [seq map]. f_equal; [lia|].
    rewrite IH. rewrite <- seq_shift, map_map. apply map_ext. intros a. lia. }
  rewrite S0, map_map. apply map_ext_in. intros k I. apply in_seq in I. rewrite frozen_var; [|lia|apply val_none; [exact P|lia]].
  unfold val_at. replace (Z.to_nat adr + k - Z.to_nat adr)%nat with k by lia. reflexivity.
Qed.
Lemma gets_frozen {A} (dflt : A) (get : list (option nat) -> list A -> Z -> outcome Z) (f : A -> Z) (cells : sdata -> list A) tab : (forall l, ptrs_ok tab (cells (aw_run d l))) ->
  (forall tb cl k, ptrs_ok tb cl -> 0 <= k < 65536 -> k < Z.of_nat (length tb) -> get tb cl k = Ok (match var_at tb cl (Z.to_nat k) with Some v => f v | None => RET_ERROR end)) ->
  (forall j k v, var_at tab (cells (at_access app d j)) k = Some v -> (RET_ERROR =? f v) = false) ->
  0 <= qty -> adr + qty <= Z.of_nat (length tab) -> Z.of_nat (length tab) <= 65535 ->
  same_gets app get tab cells (own tab) (frozen dflt tab (val_at cells tab)) d adr 0 (Z.to_nat qty).
Proof.
  intros P G F Q L L2 j J. pose proof (i_word 2) as W. fold adr in W. unfold word in W. cbn [plus].
  rewrite (G tab) by (first [apply P | lia]). rewrite (G (own tab)) by (first [apply frozen_ptrs | rewrite ?own_len; lia]).
  replace (Z.to_nat (adr + Z.of_nat j)) with (Z.to_nat adr + j)%nat by lia. rewrite Nat.add_0_r.
  rewrite frozen_var; [|lia|apply val_none; [exact P|lia]]. unfold val_at. replace (Z.to_nat adr + j - Z.to_nat adr)%nat with j by lia.
  fold (writes_until app (S j)). fold (at_access app d j).
  destruct (var_at_cases tab (cells (at_access app d j)) (Z.to_nat adr + j) (P _) ltac:(lia)) as [(x & v & E1 & _ & E3)|(E1 & E3)]; rewrite E1, E3; eexists; (split; [reflexivity|split; [reflexivity|]]).
  - exact (F _ _ _ E3).
  - reflexivity.
Qed.
Lemma ptr_bits tab : ptrs_ok tab (v_bits d) -> forall l, ptrs_ok tab (v_bits (aw_run d l)).
Proof. intros P l. unfold ptrs_ok. destruct (aw_tabs l d) as (_ & _ & _ & _ & -> & _). exact P. Qed.
Lemma ptr_regs tab : ptrs_ok tab (v_regs d) -> forall l, ptrs_ok tab (v_regs (aw_run d l)).
Proof. intros P l. unfold ptrs_ok. destruct (aw_tabs l d) as (_ & _ & _ & _ & _ & ->). exact P. Qed.

Definition after_read (max size : Z) (tab : list (option nat)) : sdata :=
  if (1 <=? qty) && (qty <=? max) && (adr + qty <=? size) then aw_run d (writes_until app (accesses tab (Z.to_nat adr) (Z.to_nat qty))) else d.
Lemma u16_tabs : u16 (c_coils c) = c_coils c /\ u16 (c_din c) = c_din c /\ u16 (c_ireg c) = c_ireg c /\ u16 (c_hreg c) = c_hreg c.
Proof. exact (tabs c [] (repeat 0 253) Hc eq_refl). Qed.

Definition fr_bits tab := frozen false tab (val_at v_bits tab).
Definition fr_regs tab := frozen 0 tab (val_at v_regs tab).
Definition dx_coils := mk_sdata (own (t_coils d)) (nones (t_din d)) (nones (t_ireg d)) (nones (t_hreg d)) (fr_bits (t_coils d)) [].
Definition dx_din := mk_sdata (nones (t_coils d)) (own (t_din d)) (nones (t_ireg d)) (nones (t_hreg d)) (fr_bits (t_din d)) [].
Definition dx_ireg := mk_sdata (nones (t_coils d)) (nones (t_din d)) (own (t_ireg d)) (nones (t_hreg d)) [] (fr_regs (t_ireg d)).
Definition dx_hreg := mk_sdata (nones (t_coils d)) (nones (t_din d)) (nones (t_ireg d)) (own (t_hreg d)) [] (fr_regs (t_hreg d)).
Lemma fr_words tab : Forall word (fr_regs tab).
Proof.
  apply Forall_forall. intros x I. apply in_map_iff in I. destruct I as (k & <- & _). unfold val_at. destruct (var_at tab _ k) as [v|] eqn:E; [|unfold word; lia].
  assert (W : Forall word (v_regs (at_access app d (k - Z.to_nat adr)))). { apply aw_words; [apply until_words; exact Ha|]. apply Hd. }
  rewrite Forall_forall in W. apply W. unfold var_at in E. destruct (nth_error tab k) as [[x|]|]; try discriminate E. eapply nth_error_In, E.
Qed.
Lemma dx_ok : data_ok c dx_coils /\ data_ok c dx_din /\ data_ok c dx_ireg /\ data_ok c dx_hreg.
Proof.
  destruct Hd as (D1 & D2 & D3 & D4 & _). unfold data_ok, dx_coils, dx_din, dx_ireg, dx_hreg. cbn [t_coils t_din t_ireg t_hreg v_bits v_regs]. rewrite !own_len, !nones_len.
  repeat split; auto using nones_ptrs, frozen_ptrs, fr_words; try apply frozen_ptrs.
Qed.

Lemma read_coils_i : modbus_slave_read_coils_i app c m d = redata (modbus_slave_read_coils c m dx_coils) (after_read 2000 (c_coils c) (t_coils d)).
Proof.
  unfold modbus_slave_read_coils_i, modbus_slave_read_coils, redata. destruct u16_tabs as (-> & _). destruct (wr (m_resp m) _ _) as [r| |]; cbn [bind]; auto.
  destruct (check_read_req_data_correcntess _ _ _) as [[st m1]| |] eqn:E; cbn [bind]; auto.
  apply check_cases in E; [|reflexivity]. unfold after_read. destruct E as [(-> & -> & K)|(-> & K)]; change MODBUS_MAX_READ_COILS_QTY with 2000 in K; rewrite K; [|reflexivity].
  change (negb (RET_ERROR =? RET_OK)) with true. cbn iota. unfold handle_slave_read_coil_service_i, handle_slave_read_coil_service. cbn [set_resp m_req]. rewrite i_adr, i_qty. cbn [bind].
  destruct (wr (m_resp (set_resp m r)) _ _) as [r1| |]; cbn [bind]; auto. destruct (clear_coil_din_status_byte _ _ _) as [r2| |]; cbn [bind]; auto.
  destruct Hd as (D1 & D2 & D3 & D4 & P1 & P2 & P3 & P4 & W). destruct Hc as (C1 & C2 & C3 & C4).
  change 0 with (Z.of_nat 0) at 1 2. rewrite (coil_loop app _ (t_coils dx_coils) (v_bits dx_coils)).
  2:{ apply (gets_frozen false get_coil_din_state b2z v_bits); [apply ptr_bits; exact P1|exact get_coil_ok|intros; apply b2z_not_err|lia|lia|lia]. }
  rewrite Nat.add_0_r. destruct (read_coil_loop _ _ _ _ _ _ _) as [[m2|[m2 v]]| |]; cbn [bind]; auto.
  unfold update_msg_len_and_ret_status. destruct (negb _); reflexivity.
Qed.
Lemma read_din_i : modbus_slave_read_discrete_inputs_i app c m d = redata (modbus_slave_read_discrete_inputs c m dx_din) (after_read 2000 (c_din c) (t_din d)).
Proof.
  unfold modbus_slave_read_discrete_inputs_i, modbus_slave_read_discrete_inputs, redata. destruct u16_tabs as (_ & -> & _). destruct (wr (m_resp m) _ _) as [r| |]; cbn [bind]; auto.
  destruct (check_read_req_data_correcntess _ _ _) as [[st m1]| |] eqn:E; cbn [bind]; auto.
  apply check_cases in E; [|reflexivity]. unfold after_read. destruct E as [(-> & -> & K)|(-> & K)]; change MODBUS_MAX_READ_DISCRETE_INPUTS_QTY with 2000 in K; rewrite K; [|reflexivity].
  change (RET_OK =? RET_OK) with true. cbn iota. unfold handle_slave_read_discrete_inputs_service_i, handle_slave_read_discrete_inputs_service. cbn [set_resp m_req]. rewrite i_adr, i_qty. cbn [bind].
  destruct (wr (m_resp (set_resp m r)) _ _) as [r1| |]; cbn [bind]; auto. destruct (clear_coil_din_status_byte _ _ _) as [r2| |]; cbn [bind]; auto.
  destruct Hd as (D1 & D2 & D3 & D4 & P1 & P2 & P3 & P4 & W). destruct Hc as (C1 & C2 & C3 & C4).
  change 0 with (Z.of_nat 0) at 1 2. rewrite (din_loop app _ (t_din dx_din) (v_bits dx_din)).
  2:{ apply (gets_frozen false get_coil_din_state b2z v_bits); [apply ptr_bits; exact P2|exact get_coil_ok|intros; apply b2z_not_err|lia|lia|lia]. }
  rewrite Nat.add_0_r. destruct (read_din_loop _ _ _ _ _ _ _) as [[m2 v]| |]; cbn [bind]; auto.
  unfold update_msg_len_and_ret_status. destruct (negb _); reflexivity.
Qed.
Lemma reg_not_err tab l k v : var_at tab (v_regs (aw_run d l)) k = Some v -> (forall x w, In (WReg x w) l -> word w) -> (RET_ERROR =? v) = false.
Proof.
  intros E H. assert (W : Forall word (v_regs (aw_run d l))) by (apply aw_words; [exact H|apply Hd]). rewrite Forall_forall in W.
  assert (In v (v_regs (aw_run d l))). { unfold var_at in E. destruct (nth_error tab k) as [[x|]|]; try discriminate E. eapply nth_error_In, E. }
  specialize (W _ H0). unfold word in W. unfold RET_ERROR. lia.
Qed.
Lemma read_hreg_i : modbus_slave_read_holding_reg_i app c m d = redata (modbus_slave_read_holding_reg c m dx_hreg) (after_read 125 (c_hreg c) (t_hreg d)).
Proof.
  unfold modbus_slave_read_holding_reg_i, modbus_slave_read_holding_reg, redata. destruct u16_tabs as (_ & _ & _ & ->). destruct (wr (m_resp m) _ _) as [r| |]; cbn [bind]; auto.
  destruct (check_read_req_data_correcntess _ _ _) as [[st m1]| |] eqn:E; cbn [bind]; auto.
  apply check_cases in E; [|reflexivity]. unfold after_read. destruct E as [(-> & -> & K)|(-> & K)]; change MODBUS_MAX_READ_REG_QTY with 125 in K; rewrite K; [|reflexivity].
  change (RET_OK =? RET_OK) with true. cbn iota. unfold handle_slave_read_reg_service_i, handle_slave_read_holding_reg_service, handle_slave_read_input_reg_service. cbn [set_resp m_req]. rewrite i_adr, i_qty. cbn [bind].
  destruct (wr (m_resp (set_resp m r)) _ _) as [r1| |]; cbn [bind]; auto.
  destruct Hd as (D1 & D2 & D3 & D4 & P1 & P2 & P3 & P4 & W). destruct Hc as (C1 & C2 & C3 & C4).
  change 0 with (Z.of_nat 0) at 1 2. rewrite (reg_loop app t_hreg _ (t_hreg dx_hreg) (v_regs dx_hreg)).
  2:{ intros i d0. apply before_tab. }
  2:{ apply (gets_frozen 0 get_register_state (fun v => v) v_regs); [apply ptr_regs; exact P4|exact get_reg_ok| |lia|lia|lia].
      intros j k v V. eapply reg_not_err; [exact V|]. apply until_words. exact Ha. }
  rewrite Nat.add_0_r. destruct (read_reg_loop _ _ _ _ _ _ _) as [[m2 v]| |]; cbn [bind]; auto.
  unfold update_msg_len_and_ret_status. destruct (negb _); reflexivity.
Qed.
Lemma read_ireg_i : modbus_slave_read_input_reg_i app c m d = redata (modbus_slave_read_input_reg c m dx_ireg) (after_read 125 (c_ireg c) (t_ireg d)).
Proof.
  unfold modbus_slave_read_input_reg_i, modbus_slave_read_input_reg, redata. destruct u16_tabs as (_ & _ & -> & _). destruct (wr (m_resp m) _ _) as [r| |]; cbn [bind]; auto.
  destruct (check_read_req_data_correcntess _ _ _) as [[st m1]| |] eqn:E; cbn [bind]; auto.
  apply check_cases in E; [|reflexivity]. unfold after_read. destruct E as [(-> & -> & K)|(-> & K)]; change MODBUS_MAX_READ_REG_QTY with 125 in K; rewrite K; [|reflexivity].
  change (RET_OK =? RET_OK) with true. cbn iota. unfold handle_slave_read_reg_service_i, handle_slave_read_holding_reg_service, handle_slave_read_input_reg_service. cbn [set_resp m_req]. rewrite i_adr, i_qty. cbn [bind].
  destruct (wr (m_resp (set_resp m r)) _ _) as [r1| |]; cbn [bind]; auto.
  destruct Hd as (D1 & D2 & D3 & D4 & P1 & P2 & P3 & P4 & W). destruct Hc as (C1 & C2 & C3 & C4).
  change 0 with (Z.of_nat 0) at 1 2. rewrite (reg_loop app t_ireg _ (t_ireg dx_ireg) (v_regs dx_ireg)).
  2:{ intros i d0. apply before_tab. }
  2:{ apply (gets_frozen 0 get_register_state (fun v => v) v_regs); [apply ptr_regs; exact P3|exact get_reg_ok| |lia|lia|lia].
      intros j k v V. eapply reg_not_err; [exact V|]. apply until_words. exact Ha. }
  rewrite Nat.add_0_r. destruct (read_reg_loop _ _ _ _ _ _ _) as [[m2 v]| |]; cbn [bind]; auto.
  unfold update_msg_len_and_ret_status. destruct (negb _); reflexivity.
Qed.

(** writes *)
Lemma i_qty' : read_u16_from_buf (m_req m) MODBUS_RESP_WRITE_SINGLE_DATA_IDX = Ok qty. Proof. apply (q_qty' (m_req m) b (repeat 0 253) Hq eq_refl eq_refl). Qed.
Lemma i_cnt : rd (m_req m) MODBUS_REQUEST_BYTE_CNT_IDX = Ok cnt. Proof. apply (q_cnt (m_req m) b (repeat 0 253) Hq eq_refl eq_refl). Qed.
Lemma write_coil_i : modbus_slave_write_single_coil_i app c m d = redata (modbus_slave_write_single_coil c m d)
  (if negb ((qty =? 0x0000) || (qty =? 0xFF00)) then d else if c_coils c <=? adr then d else snd (write_i app d 5 adr qty (asked WBit (t_coils d) (Z.to_nat adr) [qty =? 0xFF00]))).
Proof.
  unfold modbus_slave_write_single_coil_i, modbus_slave_write_single_coil, redata. rewrite i_adr, i_qty'. cbn [bind]. destruct (wr (m_resp m) _ _) as [r| |]; cbn [bind]; auto.
  unfold check_write_single_coil_req_data_correctness. change COIL_OFF with 0. change COIL_ON with 0xFF00.
  replace (negb (qty =? 0) && negb (qty =? 65280)) with (negb ((qty =? 0) || (qty =? 65280))) by apply negb_orb.
  destruct (negb ((qty =? 0) || (qty =? 65280))) eqn:E1; [destruct (set_exception_code_resp _ _) as [m1| |]; reflexivity|].
  destruct (c_coils c <=? adr) eqn:E2; [destruct (set_exception_code_resp _ _) as [m1| |]; reflexivity|].
  cbn [bind]. change (RET_OK =? RET_OK) with true. cbn iota. unfold handle_slave_write_single_coil_service.
  destruct Hd as (D1 & D2 & D3 & D4 & P1 & P2 & P3 & P4 & W). destruct Hc as (C1 & C2 & C3 & C4). pose proof (i_word 2) as Wa. fold adr in Wa. unfold word in Wa.
  set (d1 := before app 0 d). assert (T : t_coils d1 = t_coils d) by apply before_tab. assert (P' : ptrs_ok (t_coils d1) (v_bits d1)) by (rewrite T; unfold d1, before; apply ptr_bits; exact P1).
  rewrite (set_coil_ok (t_coils d1)) by (rewrite ?T in *; first [exact P' | lia]). rewrite (set_coil_ok (t_coils d)) by (first [exact P1 | lia]). cbn [bind]. unfold set_at. rewrite T.
  cbn [asked]. replace (negb (qty =? 0)) with (qty =? 0xFF00) by (destruct (qty =? 0) eqn:Q0, (qty =? 65280) eqn:Q1; try reflexivity; exfalso; clear - E1 Q0 Q1; cbn in E1; lia || discriminate E1).
  destruct (nth_error (t_coils d) (Z.to_nat adr)) as [[x|]|].
  - change (RET_OK =? RET_OK) with true. cbn iota. destruct (write_u16_to_buf _ _ _) as [r1| |]; cbn [bind]; auto. destruct (write_u16_to_buf _ _ _) as [r2| |]; cbn [bind]; auto.
    do 2 f_equal. unfold write_i. cbn [fst snd mixed]. rewrite aw_run_app. reflexivity.
  - change (RET_OK =? RET_ERROR) with false. cbn iota. destruct (set_exception_code_resp _ _) as [m1| |]; cbn [bind]; auto. do 2 f_equal. transitivity d1; [destruct d1; reflexivity|reflexivity].
  - change (RET_OK =? RET_ERROR) with false. cbn iota. destruct (set_exception_code_resp _ _) as [m1| |]; cbn [bind]; auto. do 2 f_equal. transitivity d1; [destruct d1; reflexivity|reflexivity].
Qed.
Lemma write_reg_i : modbus_slave_write_single_reg_i app c m d = redata (modbus_slave_write_single_reg c m d)
  (if c_hreg c <=? adr then d else snd (write_i app d 6 adr qty (asked WReg (t_hreg d) (Z.to_nat adr) [qty]))).
Proof.
  unfold modbus_slave_write_single_reg_i, modbus_slave_write_single_reg, redata. rewrite i_adr. cbn [bind]. destruct (wr (m_resp m) _ _) as [r| |]; cbn [bind]; auto.
  destruct (c_hreg c <=? adr) eqn:E2; [destruct (set_exception_code_resp _ _) as [m1| |]; reflexivity|].
  unfold handle_slave_write_single_reg_service. cbn [set_resp m_req]. rewrite i_adr, i_qty. cbn [bind].
  destruct Hd as (D1 & D2 & D3 & D4 & P1 & P2 & P3 & P4 & W). destruct Hc as (C1 & C2 & C3 & C4). pose proof (i_word 2) as Wa. fold adr in Wa. unfold word in Wa.
  set (d1 := before app 0 d). assert (T : t_hreg d1 = t_hreg d) by apply before_tab. assert (P' : ptrs_ok (t_hreg d1) (v_regs d1)) by (rewrite T; unfold d1, before; apply ptr_regs; exact P4).
  rewrite (set_reg_ok (t_hreg d1)) by (rewrite ?T in *; first [exact P' | lia]). rewrite (set_reg_ok (t_hreg d)) by (first [exact P4 | lia]). cbn [bind]. unfold set_at. rewrite T.
  cbn [asked]. destruct (nth_error (t_hreg d) (Z.to_nat adr)) as [[x|]|].
  - change (RET_OK =? RET_OK) with true. cbn iota. destruct (write_u16_to_buf _ _ _) as [r1| |]; cbn [bind]; auto. destruct (write_u16_to_buf _ _ _) as [r2| |]; cbn [bind]; auto.
    do 2 f_equal. unfold write_i. cbn [fst snd mixed]. rewrite aw_run_app. reflexivity.
  - change (RET_OK =? RET_ERROR) with false. cbn iota. destruct (set_exception_code_resp _ _) as [m1| |]; cbn [bind]; auto. do 2 f_equal. transitivity d1; [destruct d1; reflexivity|reflexivity].
  - change (RET_OK =? RET_ERROR) with false. cbn iota. destruct (set_exception_code_resp _ _) as [m1| |]; cbn [bind]; auto. do 2 f_equal. transitivity d1; [destruct d1; reflexivity|reflexivity].
Qed.

Lemma check_w_cases m1 max size count st m2 : m_req m1 = m_req m -> 
  (forall m0, 1 <= qty <= max -> m_req m0 = m_req m -> (if FC_WRITE_MULTIPLE_COILS =? fcode then check_write_req_byte_count_correctenss m0 else check_write_req_reg_byte_count_correctenss m0) =
     if cnt =? count then Ok (RET_OK, m0) else let* m0 := set_exception_code_resp m0 MODBUS_ILLEGAL_DATA_VALUE_ERROR in Ok (RET_ERROR, m0)) ->
  check_write_req_data_correctness m1 max size = Ok (st, m2) ->
  (st = RET_OK /\ m2 = m1 /\ 1 <= qty <= max /\ adr + qty <= size /\ cnt = count) \/
  (st = RET_ERROR /\ ~ (1 <= qty <= max /\ adr + qty <= size /\ cnt = count)).
Proof.
  intros E G H. unfold check_write_req_data_correctness in H. rewrite E, i_fc in H. cbn [bind] in H.
  destruct (check_read_req_data_correcntess m1 max size) as [[s1 m3]| |] eqn:CK; try discriminate H. cbn [bind] in H.
  apply check_cases in CK; [|exact E]. destruct CK as [(-> & -> & K)|(-> & K)].
  - change (RET_OK =? RET_OK) with true in H. cbn iota in H. rewrite G in H by (first [exact E | clear - K; lia]). destruct (cnt =? count) eqn:Q.
    + left. inversion H; subst. split; [reflexivity|]. split; [reflexivity|]. clear - K Q. lia.
    + right. apply bind_ok in H. destruct H as (x & _ & H). inversion H. split; [reflexivity|]. clear - Q. lia.
  - change (RET_OK =? RET_ERROR) with false in H. cbn iota in H. inversion H; subst. right. split; [reflexivity|]. clear - K. lia.
Qed.
Lemma write_coils_i : fcode = 15 -> modbus_slave_write_multiple_coils_i app c m d = redata (modbus_slave_write_multiple_coils c m d)
  (if negb ((1 <=? qty) && (qty <=? 1968)) then d else if c_coils c <? adr + qty then d else if negb (cnt =? coil_bytes qty) then d
   else snd (write_i app d 15 adr qty (asked WBit (t_coils d) (Z.to_nat adr) (req_bits b qty)))).
Proof.
  intros Hf. unfold modbus_slave_write_multiple_coils_i, modbus_slave_write_multiple_coils, redata. destruct u16_tabs as (-> & _). destruct (wr (m_resp m) _ _) as [r| |]; cbn [bind]; auto.
  destruct (check_write_req_data_correctness _ _ _) as [[st m1]| |] eqn:E; cbn [bind]; auto.
  destruct Hd as (D1 & D2 & D3 & D4 & P1 & P2 & P3 & P4 & W). destruct Hc as (C1 & C2 & C3 & C4). pose proof (i_word 2) as Wa. pose proof (i_word 4) as Wq. fold adr in Wa. fold qty in Wq. unfold word in Wa, Wq.
  apply (check_w_cases _ _ _ (coil_bytes qty)) in E; [|reflexivity|].
  2:{ intros m0 E9 E0. rewrite Hf. change (FC_WRITE_MULTIPLE_COILS =? 15) with true. cbn iota. unfold check_write_req_byte_count_correctenss. rewrite E0, i_cnt, i_qty. cbn [bind].
      change MODBUS_MAX_WRITE_COILS_QTY with 1968 in E9. rewrite byte_count_ok by lia. reflexivity. }
  change MODBUS_MAX_WRITE_COILS_QTY with 1968 in E. destruct E as [(-> & -> & K1 & K2 & K3)|(-> & K)].
  2:{ change (RET_OK =? RET_ERROR) with false. cbn iota. destruct (negb ((1 <=? qty) && (qty <=? 1968))) eqn:F1; [reflexivity|]. destruct (c_coils c <? adr + qty) eqn:F2; [reflexivity|].
      destruct (cnt =? coil_bytes qty) eqn:F3; [|reflexivity]. exfalso. apply K. clear - F1 F2 F3. lia. }
  replace (negb ((1 <=? qty) && (qty <=? 1968))) with false by (clear - K1; lia). replace (c_coils c <? adr + qty) with false by (clear - K2; lia). replace (cnt =? coil_bytes qty) with true by (clear - K3; lia).
  change (RET_OK =? RET_OK) with true. cbn iota. cbn [negb]. cbn [set_resp m_req]. rewrite i_adr, i_qty. cbn [bind].
  unfold MODBUS_REQUEST_WRITE_MULTI_DATA_IDX. change 0 with (Z.of_nat 0) at 1 2.
  rewrite set_bits_loop_i by (first [exact Hq | assumption | lia]). rewrite set_bits_loop_ok by (first [exact Hq | assumption | lia]). rewrite Nat.add_0_r. cbv zeta. fold b. fold (req_bits b qty).
  pose proof (store_asked WBit (t_coils d) (req_bits b qty) (v_bits d) (Z.to_nat adr)) as SA.
  destruct (store (t_coils d) (v_bits d) (Z.to_nat adr) (req_bits b qty)) as [cells ok]. cbn [snd] in SA. rewrite <- SA. cbn [bind]. unfold write_i. cbn [snd]. rewrite <- SA.
  destruct ok; cbn [store_ret].
  - change (RET_OK =? RET_OK) with true. cbn iota. destruct (write_u16_to_buf _ _ _) as [r1| |]; cbn [bind]; auto. destruct (write_u16_to_buf _ _ _) as [r2| |]; cbn [bind]; auto.
  - change (RET_OK =? RET_ERROR) with false. cbn iota. destruct (set_exception_code_resp _ _) as [m1| |]; cbn [bind]; auto.
Qed.
Lemma write_regs_i : fcode = 16 -> modbus_slave_write_multiple_reg_i app c m d = redata (modbus_slave_write_multiple_reg c m d)
  (if negb ((1 <=? qty) && (qty <=? 123)) then d else if c_hreg c <? adr + qty then d else if negb (cnt =? 2 * qty) then d
   else snd (write_i app d 16 adr qty (asked WReg (t_hreg d) (Z.to_nat adr) (req_regs b qty)))).
Proof.
  intros Hf. unfold modbus_slave_write_multiple_reg_i, modbus_slave_write_multiple_reg, redata. destruct u16_tabs as (_ & _ & _ & ->). destruct (wr (m_resp m) _ _) as [r| |]; cbn [bind]; auto.
  destruct (check_write_req_data_correctness _ _ _) as [[st m1]| |] eqn:E; cbn [bind]; auto.
  destruct Hd as (D1 & D2 & D3 & D4 & P1 & P2 & P3 & P4 & W). destruct Hc as (C1 & C2 & C3 & C4). pose proof (i_word 2) as Wa. pose proof (i_word 4) as Wq. fold adr in Wa. fold qty in Wq. unfold word in Wa, Wq.
  apply (check_w_cases _ _ _ (2 * qty)) in E; [|reflexivity|].
  2:{ intros m0 E9 E0. rewrite Hf. change (FC_WRITE_MULTIPLE_COILS =? 16) with false. cbn iota. unfold check_write_req_reg_byte_count_correctenss. rewrite E0, i_cnt, i_qty. cbn [bind].
      rewrite (Z.mul_comm qty 2). reflexivity. }
  change MODBUS_MAX_WRITE_REG_QTY with 123 in E. destruct E as [(-> & -> & K1 & K2 & K3)|(-> & K)].
  2:{ change (RET_OK =? RET_ERROR) with false. cbn iota. destruct (negb ((1 <=? qty) && (qty <=? 123))) eqn:F1; [reflexivity|]. destruct (c_hreg c <? adr + qty) eqn:F2; [reflexivity|].
      destruct (cnt =? 2 * qty) eqn:F3; [|reflexivity]. exfalso. apply K. clear - F1 F2 F3. lia. }
  replace (negb ((1 <=? qty) && (qty <=? 123))) with false by (clear - K1; lia). replace (c_hreg c <? adr + qty) with false by (clear - K2; lia). replace (cnt =? 2 * qty) with true by (clear - K3; lia).
  change (RET_OK =? RET_OK) with true. cbn iota. cbn [negb]. unfold handle_slave_write_multiple_reg_service_i, handle_slave_write_multiple_reg_service. cbn [set_resp m_req]. rewrite i_adr, i_qty. cbn [bind].
  change 0 with (Z.of_nat 0) at 1 2.
  rewrite write_regs_loop_i by (first [exact Hq | assumption | lia]). rewrite write_regs_store by (first [exact Hq | assumption | lia]). rewrite Nat.add_0_r. cbv zeta. fold b. fold (req_regs b qty).
  pose proof (store_asked WReg (t_hreg d) (req_regs b qty) (v_regs d) (Z.to_nat adr)) as SA.
  destruct (store (t_hreg d) (v_regs d) (Z.to_nat adr) (req_regs b qty)) as [cells ok]. cbn [snd] in SA. rewrite <- SA. cbn [bind]. unfold write_i. cbn [snd]. rewrite <- SA.
  destruct ok; cbn [store_ret].
  - change (RET_OK =? RET_OK) with true. cbn iota. destruct (write_u16_to_buf _ _ _) as [r1| |]; cbn [bind]; auto. destruct (write_u16_to_buf _ _ _) as [r2| |]; cbn [bind]; auto.
  - change (RET_OK =? RET_ERROR) with false. cbn iota. destruct (set_exception_code_resp _ _) as [m1| |]; cbn [bind]; auto.
Qed.

Lemma read_reply_data fc max size a q x y : (q <=? max = true -> a + q <= size -> x = y) -> read_reply fc max size a q x = read_reply fc max size a q y.
Proof.
  intros H. unfold read_reply. destruct (negb _) eqn:E1; [reflexivity|]. destruct (size <? a + q) eqn:E2; [reflexivity|]. rewrite H; [reflexivity| |clear - E2; lia].
  destruct (q <=? max); [reflexivity|]. rewrite andb_false_r in E1. discriminate E1.
Qed.
Lemma wr_msg : rr_ptr (m_req m) = true /\ rr_ptr (m_resp m) = true.
Proof. pose proof Hm as [(A & _) (B & _)]. auto. Qed.
(** the interrupted request is handled as the undisturbed one on other data *)
Lemma parse_i : exists dx, data_ok c dx /\ parse_master_request_and_prepare_resp_i app c m d = redata (parse_master_request_and_prepare_resp c m dx) (snd (server_i app c d b)) /\
  fst (server c dx b) = fst (server_i app c d b) /\ refusal c dx b = refusal c d b.
Proof.
  unfold parse_master_request_and_prepare_resp_i, parse_master_request_and_prepare_resp. destruct wr_msg as [-> ->]. cbn [negb orb]. rewrite i_fc. cbn [bind].
  assert (Dc : (exists k, In k [1;2;3;4;5;6;15;16] /\ fcode = k) \/ (forall k, In k [1;2;3;4;5;6;15;16] -> fcode <> k)).
  { destruct (existsb (Z.eqb fcode) [1;2;3;4;5;6;15;16]) eqn:X.
    - left. apply existsb_exists in X. destruct X as (k & H1 & H2). exists k. split; auto. lia.
    - right. intros k Hk E. assert (existsb (Z.eqb fcode) [1;2;3;4;5;6;15;16] = true); [|congruence].
      apply existsb_exists. exists k. split; auto. lia. }
  pose proof (i_word 4) as Wq. fold qty in Wq. unfold word in Wq. pose proof dx_ok as (X1 & X2 & X3 & X4).
  pose proof Hd as (D1 & D2 & D3 & D4 & P1 & P2 & P3 & P4 & W).
  unfold server_i, server, refusal. fold adr qty cnt fcode.
  destruct Dc as [(k & Hk & E)|Hno].
  - cbn [In] in Hk. destruct Hk as [<-|[<-|[<-|[<-|[<-|[<-|[<-|[<-|[]]]]]]]]]; rewrite E.
    + exists dx_coils. split; [exact X1|]. split; [exact read_coils_i|]. split. { apply read_reply_data. intros _ L. f_equal. apply fetch_frozen; [apply ptr_bits; exact P1|lia|lia]. }
      { change (table_of 1 dx_coils) with (own (table_of 1 d)). rewrite unregistered_own. reflexivity. }
    + exists dx_din. split; [exact X2|]. split; [exact read_din_i|]. split. { apply read_reply_data. intros _ L. f_equal. apply fetch_frozen; [apply ptr_bits; exact P2|lia|lia]. }
      { change (table_of 2 dx_din) with (own (table_of 2 d)). rewrite unregistered_own. reflexivity. }
    + exists dx_hreg. split; [exact X4|]. split; [exact read_hreg_i|]. split. { apply read_reply_data. intros _ L. f_equal. apply fetch_frozen; [apply ptr_regs; exact P4|lia|lia]. }
      { change (table_of 3 dx_hreg) with (own (table_of 3 d)). rewrite unregistered_own. reflexivity. }
    + exists dx_ireg. split; [exact X3|]. split; [exact read_ireg_i|]. split. { apply read_reply_data. intros _ L. f_equal. apply fetch_frozen; [apply ptr_regs; exact P3|lia|lia]. }
      { change (table_of 4 dx_ireg) with (own (table_of 4 d)). rewrite unregistered_own. reflexivity. }
    + exists d. split; [exact Hd|]. split; [|split; [|reflexivity]].
      * etransitivity; [exact write_coil_i|]. f_equal. destruct (negb _); [reflexivity|]. destruct (_ <=? _); reflexivity.
      * destruct (negb _); [reflexivity|]. destruct (_ <=? _); [reflexivity|]. unfold write_i. cbn [fst]. rewrite <- (store_asked WBit _ _ (v_bits d)). destruct (store _ _ _ _) as [cl [|]]; reflexivity.
    + exists d. split; [exact Hd|]. split; [|split; [|reflexivity]].
      * etransitivity; [exact write_reg_i|]. f_equal. destruct (_ <=? _); reflexivity.
      * destruct (_ <=? _); [reflexivity|]. unfold write_i. cbn [fst]. rewrite <- (store_asked WReg _ _ (v_regs d)). destruct (store _ _ _ _) as [cl [|]]; reflexivity.
    + exists d. split; [exact Hd|]. split; [|split; [|reflexivity]].
      * etransitivity; [exact (write_coils_i E)|]. f_equal. destruct (negb ((1 <=? qty) && (qty <=? 1968))); [reflexivity|]. destruct (_ <? _); [reflexivity|]. destruct (negb _); reflexivity.
      * destruct (negb ((1 <=? qty) && (qty <=? 1968))); [reflexivity|]. destruct (_ <? _); [reflexivity|]. destruct (negb _); [reflexivity|]. unfold write_i. cbn [fst]. rewrite <- (store_asked WBit _ _ (v_bits d)). destruct (store _ _ _ _) as [cl [|]]; reflexivity.
    + exists d. split; [exact Hd|]. split; [|split; [|reflexivity]].
      * etransitivity; [exact (write_regs_i E)|]. f_equal. destruct (negb ((1 <=? qty) && (qty <=? 123))); [reflexivity|]. destruct (_ <? _); [reflexivity|]. destruct (negb _); reflexivity.
      * destruct (negb ((1 <=? qty) && (qty <=? 123))); [reflexivity|]. destruct (_ <? _); [reflexivity|]. destruct (negb _); [reflexivity|]. unfold write_i. cbn [fst]. rewrite <- (store_asked WReg _ _ (v_regs d)). destruct (store _ _ _ _) as [cl [|]]; reflexivity.
  - exists d. split; [exact Hd|].
    assert (F : find_handler fcode (modbus_slave_function_mapper_i app c) = None /\ find_handler fcode (modbus_slave_function_mapper c) = None).
    { assert (N : forall k, In k [1;2;3;4;5;6;15;16] -> (fcode =? k) = false) by (intros k Hk; apply Z.eqb_neq, Hno, Hk). cbn [In] in N.
      unfold modbus_slave_function_mapper_i, modbus_slave_function_mapper, FC_READ_COILS, FC_READ_DISCRETE_INPUTS, FC_READ_HOLDING_REGISTERS, FC_READ_INPUT_REGISTERS, FC_WRITE_SINGLE_COIL, FC_WRITE_SINGLE_REGISTER, FC_WRITE_MULTIPLE_COILS, FC_WRITE_MULTIPLE_REGISTER.
      cbn [find_handler]. rewrite !N by tauto. auto. }
    destruct F as [-> ->].
    match goal with |- _ = redata _ (snd ?s) /\ fst ?s' = fst ?s /\ _ => assert (ES : s = (exc fcode 1, d)); [|assert (ES' : s' = (exc fcode 1, d))] end.
    { clear -Hno. cbn [In] in Hno. destruct fcode as [|p|p]; auto. do 5 (try (destruct p as [p|p|]; try reflexivity; try (exfalso; eapply Hno; [|reflexivity]; tauto))). }
    { clear -Hno. cbn [In] in Hno. destruct fcode as [|p|p]; auto. do 5 (try (destruct p as [p|p|]; try reflexivity; try (exfalso; eapply Hno; [|reflexivity]; tauto))). }
    rewrite ES, ES'. cbn [fst snd]. split; [|split; reflexivity]. unfold redata. destruct (wr _ _ _) as [r| |]; cbn [bind]; auto. destruct (set_exception_code_resp _ _) as [m1| |]; reflexivity.
Qed.
Lemma parse_server_i : exists st r, parse_master_request_and_prepare_resp_i app c m d = Ok (st, mk_msg (m_req m) r, snd (server_i app c d b)) /\ holds r (fst (server_i app c d b)).
Proof.
  destruct parse_i as (dx & X & E & F & _). destruct (parse_server c dx m Hc X Hm) as (st & r & E1 & H). exists st, r. rewrite E, E1. fold b in H. rewrite F in H. split; [reflexivity|exact H].
Qed.
End Handlers.

Lemma all_some_map {A} (f : nat -> option A) (dflt : A) : forall n s l, length l = n -> (forall k, (k < n)%nat -> f (s + k)%nat = Some (nth k l dflt)) -> all_some (map f (seq s n)) = Some l.
Proof.
  induction n as [|n IH]; intros s l L H; [destruct l; [reflexivity|discriminate L]|]. destruct l as [|x l]; [discriminate L|]. cbn [seq map all_some].
  pose proof (H 0%nat ltac:(lia)) as E. rewrite Nat.add_0_r in E. rewrite E. cbn [nth]. rewrite (IH (S s) l); [reflexivity|cbn in L; lia|]. intros k K. specialize (H (S k) ltac:(lia)). cbn [nth] in H. rewrite <- H. f_equal. lia.
Qed.
Lemma accesses_all tab : forall n a, (forall k, (k < n)%nat -> exists x, nth_error tab (a + k) = Some (Some x)) -> accesses tab a n = n.
Proof.
  induction n as [|n IH]; intros a H; [reflexivity|]. cbn [accesses]. destruct (H 0%nat ltac:(lia)) as (x & E). rewrite Nat.add_0_r in E. rewrite E. f_equal. apply IH.
  intros k K. destruct (H (S k) ltac:(lia)) as (y & F). exists y. rewrite <- F. f_equal. lia.
Qed.
Lemma put_same {A} (l : list A) : forall x v u, nth_error l x = Some u -> nth_error (put l x v) x = Some v.
Proof. induction l as [|y l IH]; intros [|x] v u H; cbn in *; try discriminate H; eauto. Qed.
Lemma put_other {A} (l : list A) : forall x y v, x <> y -> nth_error (put l x v) y = nth_error l y.
Proof. induction l as [|z l IH]; intros [|x] [|y] v H; cbn; try reflexivity; try congruence. apply IH. congruence. Qed.
Lemma last_bit_run l : forall d x v, nth_error (v_bits d) x = Some v -> nth_error (v_bits (aw_run d l)) x = Some (last_bit l x v).
Proof.
  induction l as [|w l IH]; intros d x v H; [exact H|]. cbn [aw_run fold_left last_bit]. apply (IH (aw_do d w)). destruct w as [y u|y u]; cbn [aw_do set_bits set_regs v_bits]; [|exact H].
  rewrite at_put_put. destruct (Nat.eqb_spec y x) as [->|N]; [eapply put_same; eauto|rewrite put_other by congruence; exact H].
Qed.
Lemma last_reg_run l : forall d x v, nth_error (v_regs d) x = Some v -> nth_error (v_regs (aw_run d l)) x = Some (last_reg l x v).
Proof.
  induction l as [|w l IH]; intros d x v H; [exact H|]. cbn [aw_run fold_left last_reg]. apply (IH (aw_do d w)). destruct w as [y u|y u]; cbn [aw_do set_bits set_regs v_regs]; [exact H|].
  rewrite at_put_put. destruct (Nat.eqb_spec y x) as [->|N]; [eapply put_same; eauto|rewrite put_other by congruence; exact H].
Qed.
Lemma last_bit_leaves l x v : leaves_bit x l -> last_bit l x v = v.
Proof.
  revert v. induction l as [|w l IH]; intros v H; [reflexivity|]. cbn [last_bit fold_left]. assert (E : (match w with WBit y u => if (y =? x)%nat then u else v | _ => v end) = v).
  { destruct w as [y u|]; [|reflexivity]. destruct (Nat.eqb_spec y x) as [->|]; [|reflexivity]. exfalso. eapply H. left. reflexivity. }
  rewrite E. apply IH. intros u I. eapply H. right. exact I.
Qed.
Lemma last_reg_leaves l x v : leaves_reg x l -> last_reg l x v = v.
Proof.
  revert v. induction l as [|w l IH]; intros v H; [reflexivity|]. cbn [last_reg fold_left]. assert (E : (match w with WReg y u => if (y =? x)%nat then u else v | _ => v end) = v).
  { destruct w as [|y u]; [reflexivity|]. destruct (Nat.eqb_spec y x) as [->|]; [|reflexivity]. exfalso. eapply H. left. reflexivity. }
  rewrite E. apply IH. intros u I. eapply H. right. exact I.
Qed.
Lemma last_bit_app l l' x v : last_bit (l ++ l') x v = last_bit l' x (last_bit l x v). Proof. apply fold_left_app. Qed.
Lemma last_reg_app l l' x v : last_reg (l ++ l') x v = last_reg l' x (last_reg l x v). Proof. apply fold_left_app. Qed.

(** writes of the request; k-th write at the k-th access *)
Lemma asked_all {A} (mk : nat -> A -> aw) tab : forall vals a, (forall k, (k < length vals)%nat -> exists x, nth_error tab (a + k) = Some (Some x)) ->
  snd (asked mk tab a vals) = true /\ length (fst (asked mk tab a vals)) = length vals /\
  forall k x v, nth_error vals k = Some v -> nth_error tab (a + k) = Some (Some x) -> nth_error (fst (asked mk tab a vals)) k = Some (mk x v).
Proof.
  induction vals as [|v vs IH]; intros a H; [split; [reflexivity|split; [reflexivity|]]; intros [|k] x v E; discriminate E|].
  destruct (H 0%nat ltac:(cbn; lia)) as (x & E). rewrite Nat.add_0_r in E. cbn [asked]. rewrite E.
  destruct (IH (S a)) as (I1 & I2 & I3). { intros k K. destruct (H (S k) ltac:(cbn; lia)) as (y & F). exists y. rewrite <- F. f_equal. lia. }
  destruct (asked mk tab (S a) vs) as [l bb]. cbn [fst snd] in *. split; [exact I1|]. split; [cbn; lia|]. intros [|k] y w V F; cbn [nth_error] in *.
  - rewrite Nat.add_0_r in F. congruence.
  - apply I3; [exact V|]. rewrite <- F. f_equal. lia.
Qed.
Lemma asked_targets {A} (mk : nat -> A -> aw) tab : forall vals a k w, nth_error (fst (asked mk tab a vals)) k = Some w -> exists x v, w = mk x v /\ nth_error tab (a + k) = Some (Some x) /\ (k < length vals)%nat.
Proof.
  induction vals as [|v vs IH]; intros a k w H; [destruct k; discriminate H|]. cbn [asked] in H. destruct (nth_error tab a) as [[x|]|] eqn:E; [|destruct k; discriminate H|destruct k; discriminate H].
  specialize (IH (S a)). destruct (asked mk tab (S a) vs) as [l bb]. cbn [fst] in *. destruct k as [|k]; cbn [nth_error] in H.
  - injection H as <-. exists x, v. rewrite Nat.add_0_r. split; [reflexivity|]. split; [exact E|cbn; lia].
  - destruct (IH k w H) as (y & u & A1 & A2 & A3). exists y, u. split; [exact A1|]. split; [rewrite <- A2; f_equal; lia|cbn; lia].
Qed.
Lemma mixed_bit app x : forall ws i v0 k v, nth_error ws k = Some (WBit x v) -> (forall j w, (k < j)%nat -> nth_error ws j = Some w -> forall u, w <> WBit x u) ->
  (forall j, (k < j < length ws)%nat -> leaves_bit x (app (i + j)%nat)) -> last_bit (mixed app i ws true) x v0 = v.
Proof.
  assert (N : forall ws i v0, (forall j w, nth_error ws j = Some w -> forall u, w <> WBit x u) -> (forall j, (j < length ws)%nat -> leaves_bit x (app (i + j)%nat)) -> last_bit (mixed app i ws true) x v0 = v0).
  { induction ws as [|w ws IH]; intros i v0 H G; [reflexivity|]. cbn [mixed]. rewrite last_bit_app. rewrite (last_bit_leaves (app i)).
    2:{ specialize (G 0%nat ltac:(cbn; lia)). rewrite Nat.add_0_r in G. exact G. }
    change (w :: mixed app (S i) ws true) with ([w] ++ mixed app (S i) ws true). rewrite last_bit_app. rewrite (last_bit_leaves [w]).
    2:{ intros u [I|[]]. exact (H 0%nat w eq_refl u I). }
    apply IH; [intros j w' E; exact (H (S j) w' E)|]. intros j J. specialize (G (S j) ltac:(cbn; lia)). replace (S i + j)%nat with (i + S j)%nat by lia. exact G. }
  induction ws as [|w ws IH]; intros i v0 k v E H G; [destruct k; discriminate E|]. cbn [mixed]. rewrite last_bit_app.
  change (w :: mixed app (S i) ws true) with ([w] ++ mixed app (S i) ws true). rewrite last_bit_app. destruct k as [|k]; cbn [nth_error] in E.
  - injection E as ->. rewrite N; [cbn; rewrite Nat.eqb_refl; reflexivity| |]; [intros j w' E'; exact (H (S j) w' ltac:(lia) E')|]. intros j J. specialize (G (S j) ltac:(cbn; lia)). replace (S i + j)%nat with (i + S j)%nat by lia. exact G.
  - apply (IH (S i) _ k v E); [intros j w' J E'; exact (H (S j) w' ltac:(lia) E')|]. intros j J. specialize (G (S j) ltac:(cbn; lia)). replace (S i + j)%nat with (i + S j)%nat by lia. exact G.
Qed.
Lemma mixed_reg app x : forall ws i v0 k v, nth_error ws k = Some (WReg x v) -> (forall j w, (k < j)%nat -> nth_error ws j = Some w -> forall u, w <> WReg x u) ->
  (forall j, (k < j < length ws)%nat -> leaves_reg x (app (i + j)%nat)) -> last_reg (mixed app i ws true) x v0 = v.
Proof.
  assert (N : forall ws i v0, (forall j w, nth_error ws j = Some w -> forall u, w <> WReg x u) -> (forall j, (j < length ws)%nat -> leaves_reg x (app (i + j)%nat)) -> last_reg (mixed app i ws true) x v0 = v0).
  { induction ws as [|w ws IH]; intros i v0 H G; [reflexivity|]. cbn [mixed]. rewrite last_reg_app. rewrite (last_reg_leaves (app i)).
    2:{ specialize (G 0%nat ltac:(cbn; lia)). rewrite Nat.add_0_r in G. exact G. }
    change (w :: mixed app (S i) ws true) with ([w] ++ mixed app (S i) ws true). rewrite last_reg_app. rewrite (last_reg_leaves [w]).
    2:{ intros u [I|[]]. exact (H 0%nat w eq_refl u I). }
    apply IH; [intros j w' E; exact (H (S j) w' E)|]. intros j J. specialize (G (S j) ltac:(cbn; lia)). replace (S i + j)%nat with (i + S j)%nat by lia. exact G. }
  induction ws as [|w ws IH]; intros i v0 k v E H G; [destruct k; discriminate E|]. cbn [mixed]. rewrite last_reg_app.
  change (w :: mixed app (S i) ws true) with ([w] ++ mixed app (S i) ws true). rewrite last_reg_app. destruct k as [|k]; cbn [nth_error] in E.
  - injection E as ->. rewrite N; [cbn; rewrite Nat.eqb_refl; reflexivity| |]; [intros j w' E'; exact (H (S j) w' ltac:(lia) E')|]. intros j J. specialize (G (S j) ltac:(cbn; lia)). replace (S i + j)%nat with (i + S j)%nat by lia. exact G.
  - apply (IH (S i) _ k v E); [intros j w' J E'; exact (H (S j) w' ltac:(lia) E')|]. intros j J. specialize (G (S j) ltac:(cbn; lia)). replace (S i + j)%nat with (i + S j)%nat by lia. exact G.
Qed.
(** a variable the request does not write *)
Lemma mixed_bit_other app x : forall ws i v0, (forall w, In w ws -> forall u, w <> WBit x u) -> last_bit (mixed app i ws true) x v0 = last_bit (flat_map app (seq i (length ws))) x v0.
Proof.
  induction ws as [|w ws IH]; intros i v0 H; [reflexivity|]. cbn [mixed length seq flat_map]. rewrite !last_bit_app. change (w :: mixed app (S i) ws true) with ([w] ++ mixed app (S i) ws true). rewrite last_bit_app.
  rewrite (last_bit_leaves [w]) by (intros u [I|[]]; exact (H w (or_introl eq_refl) u I)). apply IH. intros w' I. apply H. right. exact I.
Qed.
Lemma mixed_reg_other app x : forall ws i v0, (forall w, In w ws -> forall u, w <> WReg x u) -> last_reg (mixed app i ws true) x v0 = last_reg (flat_map app (seq i (length ws))) x v0.
Proof.
  induction ws as [|w ws IH]; intros i v0 H; [reflexivity|]. cbn [mixed length seq flat_map]. rewrite !last_reg_app. change (w :: mixed app (S i) ws true) with ([w] ++ mixed app (S i) ws true). rewrite last_reg_app.
  rewrite (last_reg_leaves [w]) by (intros u [I|[]]; exact (H w (or_introl eq_refl) u I)). apply IH. intros w' I. apply H. right. exact I.
Qed.
