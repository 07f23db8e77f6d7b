(** Unpacking what was packed. *)
From Verif Require Export Proofs.RespMain.

Lemma byte_of_bits_testbit l : forall k, Z.testbit (byte_of_bits l) (Z.of_nat k) = nth k l false.
Proof.
  induction l as [|b l IH]; intros k.
  - cbn [byte_of_bits]. rewrite Z.testbit_0_l. destruct k; reflexivity.
  - cbn [byte_of_bits]. rewrite Z.add_comm. destruct k as [|k].
    + change (Z.of_nat 0) with 0. rewrite Z.testbit_0_r. reflexivity.
    + rewrite Nat2Z.inj_succ, Z.testbit_succ_r by lia. cbn [nth]. apply IH.
Qed.
Lemma nth_skipn {A} (l : list A) n k d : nth k (skipn n l) d = nth (n + k) l d.
Proof. revert l. induction n as [|n IH]; intros [|x l]; cbn; auto. destruct k; auto. Qed.
Lemma nth_firstn {A} (l : list A) n k d : (k < n)%nat -> nth k (firstn n l) d = nth k l d.
Proof. revert l k. induction n as [|n IH]; intros [|x l] [|k] H; cbn; auto; try lia. apply IH. lia. Qed.

Lemma unpack_bit l k : (k < length l)%nat -> Z.testbit (byte_at (pack_bits l) (k / 8)) (Z.of_nat (k mod 8)) = nth k l false.
Proof.
  intros H. unfold byte_at, pack_bits.
  assert (Hk : (k / 8 < (length l + 7) / 8)%nat).
  { assert (k mod 8 < 8)%nat by (apply Nat.mod_upper_bound; lia). assert (E := Nat.div_mod k 8 ltac:(lia)).
    apply Nat.div_le_lower_bound; lia. }
  set (f := fun k => byte_of_bits (firstn 8 (skipn (8 * k) l))).
  rewrite (nth_indep _ 0 (f 0%nat)) by (rewrite map_length, seq_length; auto).
  rewrite map_nth, seq_nth by auto. unfold f. rewrite byte_of_bits_testbit.
  assert (k mod 8 < 8)%nat by (apply Nat.mod_upper_bound; lia).
  rewrite nth_firstn, nth_skipn by auto. f_equal. rewrite (Nat.div_mod k 8) at 3 by lia. reflexivity.
Qed.
Lemma unpack_reg l k : (k < length l)%nat -> word_at (pack_regs l) (2 * k) = nth k l 0.
Proof.
  revert k. induction l as [|v l IH]; intros k H; cbn [length] in H; [lia|].
  destruct k as [|k].
  - unfold word_at, byte_at. change (pack_regs (v :: l)) with (v / 256 :: v mod 256 :: pack_regs l). cbn [nth Nat.mul Nat.add]. lia.
  - change (pack_regs (v :: l)) with (v / 256 :: v mod 256 :: pack_regs l).
    replace (2 * S k)%nat with (S (S (2 * k))) by lia. cbn [nth]. rewrite <- IH by lia. reflexivity.
Qed.
Lemma byte_at_app_r p l n k : n = length p -> byte_at (p ++ l) (n + k) = byte_at l k.
Proof. intros ->. unfold byte_at. rewrite app_nth2 by lia. f_equal. lia. Qed.
Lemma byte_at_app_l p l k : (k < length p)%nat -> byte_at (p ++ l) k = byte_at p k.
Proof. intros. apply app_nth1. auto. Qed.

(** the data of a well-formed read response *)
Lemma bit_callbacks_pack mk id adr q x y z l rest : length l = Z.to_nat q ->
  bit_callbacks mk id adr q ([x; y; z] ++ pack_bits l ++ rest) =
  map (fun k => mk id ((adr + Z.of_nat k) mod 65536) (nth k l false)) (seq 0 (length l)).
Proof.
  intros E. unfold bit_callbacks. rewrite <- E. apply map_ext_in. intros k Hk. apply in_seq in Hk. f_equal.
  rewrite byte_at_app_r by reflexivity. rewrite byte_at_app_l.
  - apply unpack_bit. lia.
  - rewrite pack_bits_len. assert (k mod 8 < 8)%nat by (apply Nat.mod_upper_bound; lia). assert (D := Nat.div_mod k 8 ltac:(lia)).
    apply Nat.div_le_lower_bound; lia.
Qed.
Lemma reg_callbacks_pack mk id adr q x y z l rest : length l = Z.to_nat q ->
  reg_callbacks mk id adr q ([x; y; z] ++ pack_regs l ++ rest) =
  map (fun k => mk id ((adr + Z.of_nat k) mod 65536) (nth k l 0)) (seq 0 (length l)).
Proof.
  intros E. unfold reg_callbacks. rewrite <- E. apply map_ext_in. intros k Hk. apply in_seq in Hk. f_equal.
  unfold word_at. replace (S (3 + 2 * k))%nat with (3 + S (2 * k))%nat by lia.
  rewrite !byte_at_app_r by reflexivity. rewrite !byte_at_app_l by (rewrite pack_regs_len; lia).
  apply unpack_reg. lia.
Qed.
