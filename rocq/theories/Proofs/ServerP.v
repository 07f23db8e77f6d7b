(** The slave's request interpreter = the Modbus server of Spec/Server.v *)
From Verif Require Export Proofs.Response Model.SlavePDU Spec.Server.

Lemma put_upd {A} (l : list A) i v : put l i v = upd l i v.
Proof. revert i; induction l as [|x l IH]; intros [|i]; cbn; rewrite ?IH; auto. Qed.

Lemma exc_lor fc : byte fc -> u8 (Z.lor fc 128) = (if fc <? 128 then fc + 128 else fc).
Proof.
  intros H.
  assert (S : forallb (fun k => u8 (Z.lor k 128) =? (if k <? 128 then k + 128 else k)) (map Z.of_nat (seq 0 256)) = true) by (vm_compute; reflexivity).
  rewrite forallb_forall in S. apply Z.eqb_eq, S.
  apply in_map_iff. exists (Z.to_nat fc). split; [unfold byte in H; lia|]. apply in_seq. unfold byte in H; lia.
Qed.

Lemma rd_at1 a b t len : rd (mk_rr true (a :: b :: t) len) 1 = Ok b.
Proof. apply (rd_mid [a]). reflexivity. Qed.
Lemma wr_at1 a b t len v : wr (mk_rr true (a :: b :: t) len) 1 v = Ok (mk_rr true (a :: v :: t) len).
Proof. apply (wr_mid [a]). reflexivity. Qed.
Lemma wr_at2 a b c t len v : wr (mk_rr true (a :: b :: c :: t) len) 2 v = Ok (mk_rr true (a :: b :: v :: t) len).
Proof. apply (wr_mid [a; b]). reflexivity. Qed.

Lemma set_exc_ok req x fc y t len code :
  byte fc -> byte code -> length (x :: fc :: y :: t) = 256%nat -> bytes (x :: fc :: y :: t) ->
  exists r, set_exception_code_resp (mk_msg req (mk_rr true (x :: fc :: y :: t) len)) code = Ok (mk_msg req r) /\ holds r (exc fc code).
Proof.
  intros Hf Hc L B. unfold set_exception_code_resp. cbn [m_resp].
  unfold MODBUS_FUNCTION_CODE_IDX, MODBUS_RESP_EXCEPTION_CODE_IDX, MODBUS_EXCEPTION_CODE_MASK.
  rewrite rd_at1. cbn [bind]. rewrite wr_at1. cbn [bind]. rewrite wr_at2. cbn [bind].
  eexists. split; [reflexivity|].
  rewrite exc_lor by auto. unfold exc.
  exists x, t. split; [reflexivity|]. split; [exact L|].
  assert (B' := B). unfold bytes in B'. rewrite Forall_forall in B'.
  constructor; [apply B'; cbn; tauto|]. cbn [app]. constructor; [|constructor; auto].
  - unfold byte in *. destruct (fc <? 128) eqn:E; lia.
  - exact (Forall_skipn _ 3 _ B).
Qed.

(** table access *)
Section Tables.
Context {A : Type} (tab : list (option nat)) (cells : list A).
Lemma var_at_cases k : ptrs_ok tab cells -> (k < length tab)%nat ->
  (exists c v, nth_error tab k = Some (Some c) /\ nth_error cells c = Some v /\ var_at tab cells k = Some v) \/
  (nth_error tab k = Some None /\ var_at tab cells k = None).
Proof.
  intros P L. unfold var_at. destruct (nth_error tab k) as [[c|]|] eqn:E.
  - left. destruct (nth_error cells c) as [v|] eqn:F.
    + exists c, v. auto.
    + exfalso. apply P in E. apply nth_error_None in F. lia.
  - right. auto.
  - exfalso. apply nth_error_None in E. lia.
Qed.
End Tables.

Lemma get_coil_ok tab cells k : ptrs_ok tab cells -> 0 <= k < 65536 -> k < Z.of_nat (length tab) ->
  get_coil_din_state tab cells k = Ok (match var_at tab cells (Z.to_nat k) with Some v => b2z v | None => RET_ERROR end).
Proof.
  intros P H1 H2. unfold get_coil_din_state. rewrite u16_id by lia.
  destruct (var_at_cases tab cells (Z.to_nat k) P ltac:(lia)) as [(c & v & E1 & E2 & ->)|(E & ->)].
  - rewrite (aget_some _ _ (Some c)) by (auto; lia). cbn [bind].
    rewrite (aget_some _ _ v) by (rewrite ?Nat2Z.id; auto; lia). reflexivity.
  - rewrite (aget_some _ _ None) by (auto; lia). reflexivity.
Qed.
Lemma get_reg_ok tab cells k : ptrs_ok tab cells -> 0 <= k < 65536 -> k < Z.of_nat (length tab) ->
  get_register_state tab cells k = Ok (match var_at tab cells (Z.to_nat k) with Some v => v | None => RET_ERROR end).
Proof.
  intros P H1 H2. unfold get_register_state. rewrite u16_id by lia.
  destruct (var_at_cases tab cells (Z.to_nat k) P ltac:(lia)) as [(c & v & E1 & E2 & ->)|(E & ->)].
  - rewrite (aget_some _ _ (Some c)) by (auto; lia). cbn [bind].
    rewrite (aget_some _ _ v) by (rewrite ?Nat2Z.id; auto; lia). reflexivity.
  - rewrite (aget_some _ _ None) by (auto; lia). reflexivity.
Qed.
Definition set_at {A} (tab : list (option nat)) (cells : list A) (k : nat) (v : A) : Z * list A :=
  match nth_error tab k with
  | Some (Some c) => (RET_OK, put cells c v)
  | _ => (RET_ERROR, cells)
  end.
Lemma set_coil_ok tab cells k v : ptrs_ok tab cells -> 0 <= k < 65536 -> k < Z.of_nat (length tab) ->
  set_coil_state tab cells k v = Ok (set_at tab cells (Z.to_nat k) v).
Proof.
  intros P H1 H2. unfold set_coil_state, set_at. rewrite u16_id by lia.
  destruct (var_at_cases tab cells (Z.to_nat k) P ltac:(lia)) as [(c & v' & E1 & E2 & _)|(E & _)].
  - rewrite (aget_some _ _ (Some c)), E1 by (auto; lia). cbn [bind].
    assert ((c < length cells)%nat) by (eapply P; eauto).
    rewrite aset_ok by lia. cbn [bind]. rewrite Nat2Z.id. reflexivity.
  - rewrite (aget_some _ _ None), E by (auto; lia). reflexivity.
Qed.
Lemma set_reg_ok tab cells k v : ptrs_ok tab cells -> 0 <= k < 65536 -> k < Z.of_nat (length tab) ->
  set_register_value tab cells k v = Ok (set_at tab cells (Z.to_nat k) v).
Proof.
  intros P H1 H2. unfold set_register_value, set_at. rewrite u16_id by lia.
  destruct (var_at_cases tab cells (Z.to_nat k) P ltac:(lia)) as [(c & v' & E1 & E2 & _)|(E & _)].
  - rewrite (aget_some _ _ (Some c)), E1 by (auto; lia). cbn [bind].
    assert ((c < length cells)%nat) by (eapply P; eauto).
    rewrite aset_ok by lia. cbn [bind]. rewrite Nat2Z.id. reflexivity.
  - rewrite (aget_some _ _ None), E by (auto; lia). reflexivity.
Qed.
Lemma put_length {A} (l : list A) i v : length (put l i v) = length l.
Proof. rewrite put_upd. apply upd_length. Qed.
Lemma ptrs_put {A} tab (cells : list A) i v : ptrs_ok tab cells -> ptrs_ok tab (put cells i v).
Proof. intros H k c E. rewrite put_length. eapply H; eauto. Qed.
Lemma store_length {A} tab vals : forall (cells : list A) k, length (fst (store tab cells k vals)) = length cells.
Proof.
  induction vals as [|v vs IH]; intros cells k; cbn [store]; auto.
  destruct (nth_error tab k) as [[c|]|]; auto. rewrite IH. apply put_length.
Qed.
Lemma store_Forall (P : Z -> Prop) tab vals : forall cells k, Forall P cells -> Forall P vals -> Forall P (fst (store tab cells k vals)).
Proof.
  induction vals as [|v vs IH]; intros cells k Hc Hv; cbn [store]; auto.
  inversion Hv; subst. destruct (nth_error tab k) as [[c|]|]; auto. apply IH; auto. rewrite put_upd. apply Forall_upd; auto.
Qed.

(** read loops *)
Lemma b2z_not_err v : (RET_ERROR =? b2z v) = false.
Proof. destruct v; reflexivity. Qed.

Definition buf3 (x fc bc : Z) (mid post : list Z) := [x; fc; bc] ++ mid ++ post.

Lemma packed_snoc nb l b : packed nb (length l) (l ++ [b]) = packed nb (length l) l.
Proof. unfold packed. now rewrite firstn_app_exact, firstn_all. Qed.

Lemma buf3_bytes x fc bc mid post : bytes (buf3 x fc bc mid post) <-> byte x /\ byte fc /\ byte bc /\ bytes mid /\ bytes post.
Proof.
  unfold buf3. cbn [app]. split.
  - intros H. inversion H as [|? ? H1 H2]; subst. inversion H2 as [|? ? H3 H4]; subst. inversion H4 as [|? ? H5 H6]; subst.
    apply Forall_app in H6. tauto.
  - intros (H1 & H2 & H3 & H4 & H5). do 3 (constructor; [assumption|]). apply Forall_app; auto.
Qed.

Lemma read_din_loop_ok tab cells req x fc bc post len adr nb : 
  ptrs_ok tab cells -> 0 <= adr -> byte fc -> byte x -> byte bc -> bytes post ->
  length (buf3 x fc bc (repeat 0 nb) post) = 256%nat ->
  forall n done last, (length done + n <= 8 * nb)%nat ->
  adr + Z.of_nat (length done + n) <= Z.of_nat (length tab) -> adr + Z.of_nat (length done + n) <= 65535 ->
  (last <> RET_ERROR) ->
  let m := mk_msg req (mk_rr true (buf3 x fc bc (packed nb (length done) done) post) len) in
  match all_some (map (var_at tab cells) (seq (Z.to_nat adr + length done) n)) with
  | Some rest => exists last', last' <> RET_ERROR /\
       read_din_loop n tab cells m adr (Z.of_nat (length done)) last =
       Ok (mk_msg req (mk_rr true (buf3 x fc bc (packed nb (length (done ++ rest)) (done ++ rest)) post) len), last')
  | None => exists r, holds r (exc fc 4) /\
       read_din_loop n tab cells m adr (Z.of_nat (length done)) last = Ok (mk_msg req r, RET_ERROR)
  end.
Proof.
  intros P Ha Hfc Hx Hbc Hpost L. induction n as [|n IH]; intros done last Hn Hsz H16 Hlast m; cbn [seq map all_some read_din_loop].
  - exists last. split; auto. now rewrite app_nil_r.
  - rewrite get_coil_ok by (auto; lia). cbn [bind].
    replace (Z.to_nat (adr + Z.of_nat (length done))) with (Z.to_nat adr + length done)%nat by lia.
    destruct (var_at tab cells (Z.to_nat adr + length done)) as [b|].
    + rewrite b2z_not_err.
      assert (S := pack_iter true len [x; fc; bc] post nb (length done) (done ++ [b]) MODBUS_RESP_READ_DATA_IDX
         ltac:(rewrite app_length; cbn [length]; lia) ltac:(lia) eq_refl eq_refl).
      cbv zeta in S. rewrite packed_snoc in S. rewrite nth_middle in S.
      apply bind_ok in S. destruct S as [old [S1 S2]]. unfold m, buf3. cbn [m_resp].
      rewrite S1. cbn [bind]. change (b2z b) with (Z.b2z b). rewrite S2. cbn [bind].
      unfold set_resp. cbn [m_req].
      assert (LS : length (done ++ [b]) = S (length done)) by (rewrite app_length; cbn [length]; lia).
      specialize (IH (done ++ [b]) (Z.b2z b)). rewrite LS in IH.
      specialize (IH ltac:(lia) ltac:(lia) ltac:(lia) ltac:(destruct b; discriminate)). cbv zeta in IH.
      replace (Z.of_nat (S (length done))) with (Z.of_nat (length done) + 1) in IH by lia.
      rewrite <- Nat.add_succ_comm in IH. cbn [Nat.add] in IH.
      replace (S (Z.to_nat adr + length done)) with (S (Z.to_nat adr) + length done)%nat by lia.
      cbn [Nat.add]. 
      destruct (all_some (map (var_at tab cells) (seq (S (Z.to_nat adr + length done)) n))) as [rest|]; cbn [option_map].
      * destruct IH as (last' & H1 & H2). exists last'. split; auto. rewrite <- app_assoc in H2. exact H2.
      * destruct IH as (r & H1 & H2). exists r. split; auto.
    + change (RET_ERROR =? RET_ERROR) with true. cbn iota.
      destruct (set_exc_ok req x fc bc (packed nb (length done) done ++ post) len MODBUS_SERVER_DEVICE_FAILURE_ERROR) as (r & E & Hr); auto.
      { unfold byte, MODBUS_SERVER_DEVICE_FAILURE_ERROR; lia. }
      { unfold buf3 in L. cbn [length app] in *. rewrite app_length, ?repeat_length, ?packed_len in *. lia. }
      { change (x :: fc :: bc :: packed nb (length done) done ++ post) with (buf3 x fc bc (packed nb (length done) done) post).
        apply buf3_bytes. repeat split; auto; try apply packed_bytes; unfold byte in *; lia. }
      unfold m, buf3. cbn [app]. rewrite E. cbn [bind]. exists r. split; auto.
Qed.

(** the coil loop does the same *)
Lemma read_coil_din_loop n tab cells : forall m adr i last,
  last <> RET_ERROR -> 
  read_coil_loop n tab cells m adr i last =
  match read_din_loop n tab cells m adr i last with
  | Ok (m', v) => if RET_ERROR =? v then Ok (inl m') else Ok (inr (m', v))
  | UB => UB
  | Diverge => Diverge
  end.
Proof.
  induction n as [|n IH]; intros m adr i last Hl; cbn [read_coil_loop read_din_loop].
  - destruct (RET_ERROR =? last) eqn:E; auto. lia.
  - destruct (get_coil_din_state tab cells (adr + i)) as [v| |]; cbn [bind]; auto.
    destruct (RET_ERROR =? v) eqn:E.
    + destruct (set_exception_code_resp m _) as [m'| |]; cbn [bind]; auto. now rewrite E.
    + destruct (rd _ _) as [o| |]; cbn [bind]; auto. destruct (wr _ _ _) as [r| |]; cbn [bind]; auto.
      rewrite IH; auto. lia.
Qed.

Lemma read_reg_loop_ok tab cells req x fc bc len adr : 
  ptrs_ok tab cells -> Forall word cells -> 0 <= adr -> byte fc -> byte x -> byte bc ->
  forall n done post last, bytes post -> Forall word done -> (2 * n <= length post)%nat ->
  length (buf3 x fc bc (pack_regs done) post) = 256%nat ->
  adr + Z.of_nat (length done + n) <= Z.of_nat (length tab) -> adr + Z.of_nat (length done + n) <= 65535 ->
  (last <> RET_ERROR) ->
  let m := mk_msg req (mk_rr true (buf3 x fc bc (pack_regs done) post) len) in
  match all_some (map (var_at tab cells) (seq (Z.to_nat adr + length done) n)) with
  | Some rest => exists last', last' <> RET_ERROR /\ Forall word rest /\
       read_reg_loop n tab cells m adr (Z.of_nat (length done)) last =
       Ok (mk_msg req (mk_rr true (buf3 x fc bc (pack_regs (done ++ rest)) (skipn (2 * n) post)) len), last')
  | None => exists r, holds r (exc fc 4) /\
       read_reg_loop n tab cells m adr (Z.of_nat (length done)) last = Ok (mk_msg req r, RET_ERROR)
  end.
Proof.
  intros P Hw Ha Hfc Hx Hbc. induction n as [|n IH]; intros done post last Hpost Hdone H2n L Hsz H16 Hlast m; cbn [seq map all_some read_reg_loop].
  - exists last. split; auto. split; auto. now rewrite app_nil_r.
  - rewrite get_reg_ok by (auto; lia). cbn [bind].
    replace (Z.to_nat (adr + Z.of_nat (length done))) with (Z.to_nat adr + length done)%nat by lia.
    destruct (var_at tab cells (Z.to_nat adr + length done)) as [b|] eqn:V.
    + assert (Wb : word b).
      { unfold var_at in V. destruct (nth_error tab _) as [[c|]|]; try discriminate. apply nth_error_In in V. rewrite Forall_forall in Hw. auto. }
      destruct (RET_ERROR =? b) eqn:E. { unfold word in Wb. unfold RET_ERROR in E. lia. }
      destruct post as [|p1 [|p2 post]]; cbn [length] in H2n; try lia.
      assert (S2 := write_u16_mid ([x; fc; bc] ++ pack_regs done) p1 p2 post (u16 b) len (MODBUS_RESP_READ_DATA_IDX + Z.of_nat (length done) * 2)
        ltac:(rewrite app_length, pack_regs_len; cbn [length]; unfold MODBUS_RESP_READ_DATA_IDX; lia) ltac:(apply u16_range)).
      unfold m, buf3. cbn [m_resp]. rewrite app_assoc, S2. cbn [bind].
      unfold set_resp. cbn [m_req]. rewrite u16_id by (unfold word in Wb; lia).
      assert (LS : length (done ++ [b]) = S (length done)) by (rewrite app_length; cbn [length]; lia).
      inversion Hpost as [|? ? Hp1 Hpost']; subst. inversion Hpost' as [|? ? Hp2 Hpost'']; subst.
      specialize (IH (done ++ [b]) post b). rewrite LS in IH.
      assert (PR : pack_regs (done ++ [b]) = pack_regs done ++ be16 b).
      { rewrite pack_regs_app. unfold pack_regs at 2. cbn [flat_map]. now rewrite app_nil_r. }
      specialize (IH ltac:(auto) ltac:(apply Forall_app; auto) ltac:(lia)).
      rewrite PR in IH.
      specialize (IH ltac:(unfold buf3 in *; cbn [length app] in *; rewrite app_length in *; rewrite app_length; cbn [be16 length] in *; lia) ltac:(lia) ltac:(lia) ltac:(unfold word, RET_ERROR in *; lia)).
      cbv zeta in IH. unfold buf3 in IH.
      replace (Z.of_nat (S (length done))) with (Z.of_nat (length done) + 1) in IH by lia.
      replace (Z.to_nat adr + S (length done))%nat with (S (Z.to_nat adr + length done)) in IH by lia.
      rewrite <- app_assoc. rewrite <- !app_assoc in IH.
      destruct (all_some (map (var_at tab cells) (seq (S (Z.to_nat adr + length done)) n))) as [rest|]; cbn [option_map].
      * destruct IH as (last' & H1 & H2 & H3). exists last'. split; auto. split; [constructor; auto|].
        rewrite H3. replace (2 * S n)%nat with (S (S (2 * n))) by lia. rewrite <- (app_assoc done). reflexivity.
      * destruct IH as (r & H1 & H2). exists r. split; auto.
    + change (RET_ERROR =? RET_ERROR) with true. cbn iota.
      destruct (set_exc_ok req x fc bc (pack_regs done ++ post) len MODBUS_SERVER_DEVICE_FAILURE_ERROR) as (r & E & Hr); auto.
      { unfold byte, MODBUS_SERVER_DEVICE_FAILURE_ERROR; lia. }
      { change (x :: fc :: bc :: pack_regs done ++ post) with (buf3 x fc bc (pack_regs done) post).
        apply buf3_bytes. repeat split; auto; try (apply pack_regs_bytes; auto); unfold byte in *; lia. }
      unfold m, buf3. cbn [app]. rewrite E. cbn [bind]. exists r. split; auto.
Qed.

(** write loops *)
Definition store_ret (b : bool) : Z := if b then RET_OK else RET_ERROR.
Lemma set_bits_loop_ok req adr tab n : rr_ok req -> 0 <= adr ->
  forall i cells, ptrs_ok tab cells -> (i + n <= 1992)%nat ->
  adr + Z.of_nat (i + n) <= Z.of_nat (length tab) -> adr + Z.of_nat (i + n) <= 65535 ->
  set_coil_din_value_loop n req 7 adr (Z.of_nat i) tab cells RET_OK =
    let '(cells', b) := store tab cells (Z.to_nat adr + i)
        (map (fun k => Z.testbit (byte_at (rr_buf req) (7 + k / 8)) (Z.of_nat (k mod 8))) (seq i n)) in
    Ok (store_ret b, cells').
Proof.
  intros R Ha. induction n as [|n IH]; intros i cells P Hi Hsz H16; cbn [set_coil_din_value_loop seq map store].
  - reflexivity.
  - assert (R' := R). destruct R as (Pt & L & B & Hl).
    replace (Z.of_nat i / 8) with (Z.of_nat (i / 8)) by (rewrite Nat2Z.inj_div; reflexivity).
    replace (Z.of_nat i mod 8) with (Z.of_nat (i mod 8)) by (rewrite Nat2Z.inj_mod; reflexivity).
    assert (D : (i / 8 < 249)%nat) by (apply Nat.div_lt_upper_bound; lia).
    rewrite rd_ok by (auto; lia). cbn [bind].
    replace (Z.to_nat (7 + Z.of_nat (i / 8))) with (7 + i / 8)%nat by lia.
    fold (byte_at (rr_buf req) (7 + i / 8)).
    assert (B0 := bytes_nth (rr_buf req) (7 + i / 8) B). fold (byte_at (rr_buf req) (7 + i / 8)) in B0. unfold byte in B0.
    rewrite land_bit' by lia.
    set (v := Z.testbit _ _).
    replace (if v then set_coil_state tab cells (adr + Z.of_nat i) true else set_coil_state tab cells (adr + Z.of_nat i) false)
      with (set_coil_state tab cells (adr + Z.of_nat i) v) by (destruct v; reflexivity).
    rewrite set_coil_ok by (auto; lia). replace (Z.to_nat (adr + Z.of_nat i)) with (Z.to_nat adr + i)%nat by lia.
    cbn [bind]. unfold set_at. destruct (nth_error tab (Z.to_nat adr + i)) as [[c|]|] eqn:E; cbn [bind].
    + change (RET_OK =? RET_ERROR) with false. cbn iota.
      replace (Z.of_nat i + 1) with (Z.of_nat (S i)) by lia.
      rewrite IH by (auto using ptrs_put; lia). rewrite <- plus_n_Sm. reflexivity.
    + reflexivity.
    + reflexivity.
Qed.
Lemma write_regs_store req adr tab n : rr_ok req -> 0 <= adr ->
  forall i cells, ptrs_ok tab cells -> (i + n <= 124)%nat ->
  adr + Z.of_nat (i + n) <= Z.of_nat (length tab) -> adr + Z.of_nat (i + n) <= 65535 ->
  write_multi_reg_loop n req adr (Z.of_nat i) tab cells RET_OK =
    let '(cells', b) := store tab cells (Z.to_nat adr + i)
        (map (fun k => word_at (rr_buf req) (7 + 2 * k)) (seq i n)) in
    Ok (store_ret b, cells').
Proof.
  intros R Ha. induction n as [|n IH]; intros i cells P Hi Hsz H16; cbn [write_multi_reg_loop seq map store].
  - reflexivity.
  - assert (R' := R). destruct R as (Pt & L & B & Hl). unfold MODBUS_REQUEST_WRITE_MULTI_DATA_IDX.
    rewrite read_u16_ok by (auto; lia). cbn [bind].
    replace (Z.to_nat (7 + Z.of_nat i * 2)) with (7 + 2 * i)%nat by lia.
    fold (byte_at (rr_buf req) (7 + 2 * i)) (byte_at (rr_buf req) (S (7 + 2 * i))). fold (word_at (rr_buf req) (7 + 2 * i)).
    rewrite set_reg_ok by (auto; lia). replace (Z.to_nat (adr + Z.of_nat i)) with (Z.to_nat adr + i)%nat by lia.
    cbn [bind]. unfold set_at. destruct (nth_error tab (Z.to_nat adr + i)) as [[c|]|] eqn:E; cbn [bind].
    + change (RET_ERROR =? RET_OK) with false. cbn iota.
      replace (Z.of_nat i + 1) with (Z.of_nat (S i)) by lia.
      rewrite IH by (auto using ptrs_put; lia). rewrite <- plus_n_Sm. reflexivity.
    + reflexivity.
    + reflexivity.
Qed.
