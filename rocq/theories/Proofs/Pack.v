(** Bit packing loops. *)
From Verif Require Export Proofs.Rtu.

(** after i coils of l: nb bytes *)
Definition packed (nb i : nat) (l : list bool) : list Z :=
  map (fun j => byte_of_bits (firstn 8 (skipn (8 * j) (firstn i l)))) (seq 0 nb).

Lemma packed_len nb i l : length (packed nb i l) = nb.
Proof. unfold packed. now rewrite map_length, seq_length. Qed.
Lemma packed_nth nb i l j : (j < nb)%nat ->
  nth j (packed nb i l) 0 = byte_of_bits (firstn 8 (skipn (8 * j) (firstn i l))).
Proof.
  intros H. unfold packed.
  rewrite (nth_indep _ 0 (byte_of_bits (firstn 8 (skipn (8 * 0) (firstn i l))))) by (rewrite map_length, seq_length; lia).
  rewrite (map_nth (fun j => byte_of_bits (firstn 8 (skipn (8 * j) (firstn i l))))).
  rewrite seq_nth by lia. reflexivity.
Qed.
Lemma packed_0 nb l : packed nb 0 l = repeat 0 nb.
Proof.
  unfold packed. cbn [firstn].
  transitivity (map (fun _ : nat => 0) (seq 0 nb)).
  - apply map_ext. intros j. rewrite skipn_nil. reflexivity.
  - generalize 0%nat. induction nb as [|n IH]; intros s; cbn [seq map repeat]; auto. now rewrite IH.
Qed.
Lemma packed_all l : packed ((length l + 7) / 8) (length l) l = pack_bits l.
Proof. unfold packed, pack_bits. now rewrite firstn_all. Qed.

Lemma byte_of_bits_byte l : (length l <= 8)%nat -> byte (byte_of_bits l).
Proof.
  intros H. unfold byte. split; [apply byte_of_bits_nonneg|].
  eapply Z.lt_le_trans; [apply byte_of_bits_bound|].
  change 256 with (2 ^ 8). apply Z.pow_le_mono_r; lia.
Qed.
Lemma packed_bytes nb i l : bytes (packed nb i l).
Proof.
  unfold packed. apply Forall_forall. intros x Hx. apply in_map_iff in Hx. destruct Hx as [j [<- _]].
  apply byte_of_bits_byte. rewrite firstn_length. lia.
Qed.
Lemma pack_bits_bytes l : bytes (pack_bits l).
Proof. rewrite <- packed_all. apply packed_bytes. Qed.
Lemma pack_bits_len l : length (pack_bits l) = ((length l + 7) / 8)%nat.
Proof. rewrite <- packed_all. apply packed_len. Qed.

Lemma lor_append a b k : k = Z.of_nat (length a) ->
  Z.lor (byte_of_bits a) (Z.shiftl (Z.b2z b) k) = byte_of_bits (a ++ [b]).
Proof.
  intros ->. rewrite byte_of_bits_app. cbn [byte_of_bits].
  assert (N : Z.land (byte_of_bits a) (Z.shiftl (Z.b2z b) (Z.of_nat (length a))) = 0).
  { apply Z.bits_inj'. intros k Hk. rewrite Z.land_spec, Z.bits_0.
    destruct (Z.ltb_spec k (Z.of_nat (length a))).
    - rewrite Z.shiftl_spec_low by lia. apply andb_false_r.
    - rewrite <- (Z.mod_small (byte_of_bits a) (2 ^ Z.of_nat (length a))).
      2: split; [apply byte_of_bits_nonneg|apply byte_of_bits_bound].
      rewrite Z.mod_pow2_bits_high by lia. reflexivity. }
  rewrite <- Z.lxor_lor, <- Z.add_nocarry_lxor by auto.
  rewrite Z.shiftl_mul_pow2 by lia. lia.
Qed.

Lemma skipn_firstn_snoc {A} (l : list A) n i d : (n <= i)%nat -> (i < length l)%nat ->
  skipn n (firstn (S i) l) = skipn n (firstn i l) ++ [nth i l d].
Proof.
  intros H1 H2. rewrite (firstn_S_nth l i d) by auto. rewrite skipn_app.
  f_equal. rewrite firstn_length. replace (n - Nat.min i (length l))%nat with 0%nat by lia. reflexivity.
Qed.

Lemma packed_step nb i l : (i < length l)%nat -> (i < 8 * nb)%nat ->
  upd (packed nb i l) (i / 8)
    (Z.lor (nth (i / 8) (packed nb i l) 0) (Z.shiftl (Z.b2z (nth i l false)) (Z.of_nat (i mod 8)))) = packed nb (S i) l.
Proof.
  intros Hl Hn.
  apply nth_ext with (d := 0) (d' := 0).
  - now rewrite upd_length, !packed_len.
  - intros j Hj. rewrite upd_length, packed_len in Hj.
    assert (I8 : (i / 8 < nb)%nat) by (apply Nat.div_lt_upper_bound; lia).
    assert (DM := Nat.div_mod i 8 ltac:(lia)).
    assert (ML := Nat.mod_upper_bound i 8 ltac:(lia)).
    rewrite upd_nth by (rewrite packed_len; auto).
    destruct (Nat.eqb_spec (i / 8) j) as [E|E].
    + subst j. rewrite !packed_nth by auto.
      rewrite (skipn_firstn_snoc l (8 * (i / 8)) i false) by lia.
      assert (L : length (skipn (8 * (i / 8)) (firstn i l)) = (i mod 8)%nat) by (rewrite skipn_length, firstn_length; lia).
      rewrite !(firstn_all2 (n := 8)) by (rewrite ?app_length, ?L; cbn [length]; lia).
      apply lor_append. now rewrite L.
    + rewrite !packed_nth by auto. f_equal.
      destruct (Nat.lt_ge_cases j (i / 8)) as [C|C].
      * rewrite !firstn_skipn_comm, !firstn_firstn. do 2 f_equal. lia.
      * rewrite !skipn_all2; auto; rewrite firstn_length; lia.
Qed.

(** one iteration on a buffer *)
Lemma pack_iter ptr len pre post nb i l base :
  (i < length l)%nat -> (i < 8 * nb)%nat -> base = Z.of_nat (length pre) -> ptr = true ->
  let r := mk_rr ptr (pre ++ packed nb i l ++ post) len in
  bind (rd r (base + Z.of_nat i / 8)) (fun old =>
     wr r (base + Z.of_nat i / 8) (u8 (Z.lor old (Z.shiftl (Z.b2z (nth i l false)) (Z.of_nat i mod 8)))))
  = Ok (mk_rr ptr (pre ++ packed nb (S i) l ++ post) len).
Proof.
  intros Hl Hn -> -> r.
  assert (I8 : (i / 8 < nb)%nat) by (apply Nat.div_lt_upper_bound; lia).
  assert (ML := Nat.mod_upper_bound i 8 ltac:(lia)).
  replace (Z.of_nat i / 8) with (Z.of_nat (i / 8)) by (rewrite Nat2Z.inj_div; reflexivity).
  replace (Z.of_nat i mod 8) with (Z.of_nat (i mod 8)) by (rewrite Nat2Z.inj_mod; reflexivity).
  assert (IX : Z.to_nat (Z.of_nat (length pre) + Z.of_nat (i / 8)) = (length pre + i / 8)%nat) by lia.
  assert (R : 0 <= Z.of_nat (length pre) + Z.of_nat (i / 8) < Z.of_nat (length (rr_buf r))).
  { unfold r. cbn [rr_buf]. rewrite !app_length, packed_len. lia. }
  rewrite rd_ok by auto. cbn [bind]. rewrite wr_ok by auto. rewrite IX.
  unfold r. cbn [rr_buf rr_len]. do 2 f_equal.
  rewrite app_nth2 by lia. replace (length pre + i / 8 - length pre)%nat with (i / 8)%nat by lia.
  rewrite app_nth1 by (rewrite packed_len; auto).
  rewrite upd_app_right by lia. replace (length pre + i / 8 - length pre)%nat with (i / 8)%nat by lia.
  rewrite upd_app_left by (rewrite packed_len; auto).
  rewrite u8_id.
  - now rewrite packed_step.
  - rewrite packed_nth by auto.
    assert (L : length (skipn (8 * (i / 8)) (firstn i l)) = (i mod 8)%nat).
    { assert (DM := Nat.div_mod i 8 ltac:(lia)). rewrite skipn_length, firstn_length; lia. }
    rewrite firstn_all2 by lia. rewrite lor_append by (now rewrite L).
    apply byte_of_bits_byte. rewrite app_length, L. cbn [length]. lia.
Qed.

(** clearing *)
Lemma clear_loop_ok fuel pre done todo post len base i qty :
  (length todo <= fuel)%nat -> base = Z.of_nat (length pre) -> i = Z.of_nat (length done) ->
  qty = i + Z.of_nat (length todo) -> qty <= 255 ->
  clear_loop fuel (mk_rr true (pre ++ done ++ todo ++ post) len) base i qty =
    Ok (mk_rr true (pre ++ done ++ repeat 0 (length todo) ++ post) len).
Proof.
  revert done todo i. induction fuel as [|f IH]; intros done todo i Hf Hb Hi Hq H255; cbn [clear_loop].
  - destruct todo; [|cbn [length] in Hf; lia]. cbn [length] in Hq.
    destruct (i <? qty) eqn:E; [lia|]. reflexivity.
  - destruct todo as [|x t].
    + cbn [length] in Hq. destruct (i <? qty) eqn:E; [lia|]. reflexivity.
    + cbn [length] in Hq, Hf. destruct (i <? qty) eqn:E; [|lia].
      rewrite wr_ok; cbn [rr_ptr rr_buf rr_len]; auto.
      2:{ rewrite !app_length. cbn [length]. lia. }
      cbn [bind].
      replace (upd (pre ++ done ++ (x :: t) ++ post) (Z.to_nat (base + i)) 0) with (pre ++ (done ++ [0]) ++ t ++ post).
      2:{ rewrite upd_app_right by lia. f_equal. cbn [app]. rewrite upd_app_mid by lia. rewrite <- app_assoc. reflexivity. }
      rewrite u8_id by lia. rewrite IH; auto; try lia.
      * rewrite <- app_assoc. reflexivity.
      * rewrite app_length. cbn [length]. lia.
Qed.
Lemma clear_ok pre todo post len base qty :
  base = Z.of_nat (length pre) -> qty = Z.of_nat (length todo) -> qty <= 255 ->
  clear_coil_din_status_byte (mk_rr true (pre ++ todo ++ post) len) base qty =
    Ok (mk_rr true (pre ++ repeat 0 (length todo) ++ post) len).
Proof.
  intros Hb Hq H. unfold clear_coil_din_status_byte.
  apply (clear_loop_ok 256 pre [] todo post len base 0 qty); auto; cbn [length]; lia.
Qed.

(** byte counts *)
Lemma byte_count_ok q : 0 <= q <= 2040 -> get_coil_din_byte_count q = (q + 7) / 8.
Proof.
  intros H. unfold get_coil_din_byte_count.
  rewrite (u8_id (q / 8)) by lia.
  destruct (q mod 8 =? 0) eqn:E; [lia|]. rewrite u8_id by lia. lia.
Qed.

Lemma split_at {A} (l : list A) n : (n <= length l)%nat -> exists a b, l = a ++ b /\ length a = n.
Proof. intros H. exists (firstn n l), (skipn n l). rewrite firstn_skipn, firstn_length. split; auto; lia. Qed.
