(** Bits damaged on the line are caught by the CRC. *)
From Verif Require Import Proofs.Lib Proofs.Crc Spec.Frame Spec.Flips Props.Line.
Local Open Scope Z_scope.

(** *** subsequences *)
Inductive sub {A} : list A -> list A -> Prop := s_nil : sub [] [] | s_keep x a b : sub a b -> sub (x :: a) (x :: b) | s_drop x a b : sub a b -> sub a (x :: b).
Lemma sub_refl {A} (l : list A) : sub l l. Proof. induction l; constructor; auto. Qed.
Lemma sub_none {A} (l : list A) : sub [] l. Proof. induction l; constructor; auto. Qed.
Lemma sub_app {A} (a b a' b' : list A) : sub a b -> sub a' b' -> sub (a ++ a') (b ++ b').
Proof. intros H H'. induction H; cbn [app]; [exact H'|constructor; auto|constructor; auto]. Qed.
Lemma sub_split {A} (b b' : list A) : forall a, sub a (b ++ b') -> exists c c', a = c ++ c' /\ sub c b /\ sub c' b'.
Proof.
  induction b as [|x b IH]; intros a H; cbn [app] in H. { exists [], a. split; auto. split; [constructor|exact H]. }
  inversion H as [|y a0 b0 H0|y a0 b0 H0]; subst.
  - destruct (IH _ H0) as (c & c' & -> & H1 & H2). exists (x :: c), c'. split; auto. split; [constructor; auto|auto].
  - destruct (IH _ H0) as (c & c' & -> & H1 & H2). exists c, c'. split; auto. split; [constructor; auto|auto].
Qed.
Lemma sub_len {A} (a b : list A) : sub a b -> (length a <= length b)%nat.
Proof. induction 1; cbn [length]; lia. Qed.
Lemma sub_weight a b : sub a b -> (weight a <= weight b)%nat.
Proof. unfold weight. induction 1 as [|x a b _ IH|x a b _ IH]; cbn [filter]; [lia| |]; destruct x; cbn [length]; lia. Qed.
Lemma sub_false a b : sub a b -> (forall x, In x b -> x = false) -> forall x, In x a -> x = false.
Proof. induction 1; intros F y Hy; [destruct Hy| |]. - destruct Hy as [->|Hy]; [apply F; left; auto|apply IHsub; auto; intros; apply F; right; auto]. - apply IHsub; auto. intros; apply F; right; auto. Qed.
(** a window *)
Definition window (e : list bool) : Prop := exists a m b, e = a ++ m ++ b /\ (length m <= 16)%nat /\ (forall x, In x a -> x = false) /\ (forall x, In x b -> x = false).
Lemma window_of e i : (forall k, nth k e false = true -> (i <= k < i + 16)%nat) -> window e.
Proof.
  intros H. exists (firstn i e), (firstn 16 (skipn i e)), (skipn 16 (skipn i e)). split; [rewrite firstn_skipn, firstn_skipn; auto|]. split; [rewrite firstn_length; lia|].
  split; intros x Hx.
  - apply (In_nth _ _ false) in Hx as (k & L & <-). rewrite firstn_length in L. rewrite nth_firstn by lia. destruct (nth k e false) eqn:E; auto. apply H in E. lia.
  - rewrite skipn_skipn in Hx. apply (In_nth _ _ false) in Hx as (k & L & <-). rewrite nth_skipn. destruct (nth _ e false) eqn:E; auto. apply H in E. lia.
Qed.
Lemma window_sub a b : sub a b -> window b -> window a.
Proof.
  intros H (x & m & y & -> & L & X & Y). apply sub_split in H as (x' & r & -> & H1 & H). apply sub_split in H as (m' & y' & -> & H2 & H3).
  exists x', m', y'. split; auto. split; [apply sub_len in H2; lia|]. split; eapply sub_false; eauto.
Qed.
Lemma window_nth e : window e -> exists i, forall k, nth k e false = true -> (i <= k < i + 16)%nat.
Proof.
  intros (a & m & b & -> & L & X & Y). exists (length a). intros k E. destruct (Nat.lt_ge_cases k (length a)) as [Q|Q].
  { rewrite app_nth1 in E by auto. assert (Z := X _ (nth_In _ false Q)). congruence. }
  destruct (Nat.lt_ge_cases k (length a + length m)) as [Q2|Q2]; [lia|]. exfalso. rewrite app_nth2, app_nth2 in E by lia.
  destruct (Nat.lt_ge_cases (k - length a - length m) (length b)) as [Q3|Q3].
  - assert (Z := Y _ (nth_In _ false Q3)). congruence.
  - rewrite nth_overflow in E by lia. discriminate.
Qed.

(** *** xor *)
Lemma xor_app a b a' b' : length a = length a' -> xor_bits (a ++ b) (a' ++ b') = xor_bits a a' ++ xor_bits b b'.
Proof.
  unfold xor_bits. revert a'. induction a as [|x a IH]; intros [|x' a'] L; try discriminate; cbn [app combine map]; [reflexivity|]. f_equal. apply IH. injection L. auto.
Qed.
Lemma xor_zero a : forall b, length a = length b -> weight (xor_bits a b) = 0%nat -> a = b.
Proof.
  unfold weight, xor_bits. induction a as [|x a IH]; intros [|y b] L W; try discriminate; auto. cbn [combine map filter fst snd] in W. injection L as L. destruct x, y; cbn in W; try discriminate; f_equal; auto.
Qed.
Lemma byte_bits_data b : byte_bits b = data_bits 8 b. Proof. reflexivity. Qed.
Lemma bits_inj a b : bytes a -> bytes b -> bits_of a = bits_of b -> a = b.
Proof.
  intros A. revert b. induction A as [|x a Hx A IH]; intros b B E.
  - destruct b as [|y b]; auto. apply (f_equal (@length bool)) in E. rewrite !bits_of_len in E. cbn [length] in E. lia.
  - destruct B as [|y b Hy B]. { apply (f_equal (@length bool)) in E. rewrite !bits_of_len in E. cbn [length] in E. lia. }
    cbn [bits_of flat_map] in E. assert (L : length (byte_bits x) = length (byte_bits y)) by reflexivity. 
    assert (E1 := f_equal (firstn 8) E). assert (E2 := f_equal (skipn 8) E).
    assert (F8 : forall z l, firstn 8 (byte_bits z ++ l) = byte_bits z) by reflexivity. rewrite !F8 in E1.
    assert (S8 : forall z l, skipn 8 (byte_bits z ++ l) = l) by reflexivity. rewrite !S8 in E2. f_equal.
    + rewrite !byte_bits_data in E1. rewrite <- (data_value x Hx), <- (data_value y Hy), E1. reflexivity.
    + apply IH; auto.
Qed.

(** *** the reception of a disturbed line *)
Lemma value_bits w : data_bits (length w) (bits_value w) = w.
Proof.
  induction w as [|x w IH]; [reflexivity|]. cbn [length bits_value]. unfold data_bits in *. cbn [seq map]. f_equal.
  - destruct x; [replace (1 + 2 * bits_value w) with (2 * bits_value w + 1) by lia; apply Z.testbit_odd_0|rewrite Z.add_0_l; apply Z.testbit_even_0].
  - rewrite <- seq_shift, map_map. rewrite <- IH at 2. apply map_ext. intros i. rewrite Nat2Z.inj_succ.
    destruct x; [replace (1 + 2 * bits_value w) with (2 * bits_value w + 1) by lia; apply Z.testbit_odd_succ; lia|rewrite Z.add_0_l; apply Z.testbit_even_succ; lia].
Qed.
Lemma value_range w : 0 <= bits_value w < 2 ^ Z.of_nat (length w).
Proof. induction w as [|x w IH]; [cbn; lia|]. cbn [bits_value length]. rewrite Nat2Z.inj_succ, Z.pow_succ_r by lia. destruct x; lia. Qed.
Lemma word_stored par w : length w = word_bits (modbus_format par) -> u8 (bits_value w) = bits_value (firstn 8 w).
Proof.
  intros L. rewrite <- (firstn_skipn 8 w) at 1. rewrite value_app. assert (L8 : length (firstn 8 w) = 8%nat) by (rewrite firstn_length; destruct par; cbn in L; lia).
  rewrite L8. change (2 ^ Z.of_nat 8) with 256. assert (R := value_range (firstn 8 w)). rewrite L8 in R. change (2 ^ Z.of_nat 8) with 256 in R. unfold u8. rewrite (Z.mul_comm 256), Z.mod_add by lia. apply Z.mod_small. lia.
Qed.
Definition taken (l : list (nat * list bool)) : list Z := map (fun x => bits_value (firstn 8 (snd x))) l.
Lemma received_words par l : Forall (fun x => length (snd x) = word_bits (modbus_format par)) l ->
  map stored (received (modbus_format par) (words_on_line (modbus_format par) l)) = taken l.
Proof.
  unfold received. induction 1 as [|[k w] l Hw Hl IH]; [reflexivity|]. cbn [words_on_line flat_map fst snd]. fold (words_on_line (modbus_format par) l). cbn [snd] in Hw.
  rewrite <- !app_assoc, rx_app, rx_idle. set (rest := words_on_line (modbus_format par) l) in *.
  assert (Hun : forall l0, rx_bits (modbus_format par) RHunt (true :: l0) = rx_bits (modbus_format par) RHunt l0) by (intros l0; cbn [rx_bits rx_bit]; destruct (rx_bits (modbus_format par) RHunt l0); reflexivity).
  assert (Q : exists tl, repeat true (f_stop2 (modbus_format par) / 2) ++ rest = [true] ++ tl ++ rest /\ rx_bits (modbus_format par) RHunt (tl ++ rest) = rx_bits (modbus_format par) RHunt rest).
  { destruct par; [exists [true]|exists []|exists []]; (split; [reflexivity|]); cbn [app]; auto. }
  destruct Q as (tl & Q1 & Q2). rewrite Q1, rx_char by exact Hw. rewrite Q2. destruct (rx_bits (modbus_format par) RHunt rest) as [s cs]. cbn [snd app map taken].
  cbn [snd] in IH. rewrite IH. f_equal. unfold stored, rdr. cbn [c_word]. apply (word_stored par). exact Hw.
Qed.
Lemma taken_bytes par l : Forall (fun x => length (snd x) = word_bits (modbus_format par)) l -> bytes (taken l) /\ bits_of (taken l) = flat_map (fun x => firstn 8 (snd x)) l.
Proof.
  induction 1 as [|[k w] l Hw Hl [I1 I2]]; [split; [constructor|reflexivity]|]. cbn [snd] in Hw. assert (L8 : length (firstn 8 w) = 8%nat) by (rewrite firstn_length; destruct par; cbn in Hw; lia).
  cbn [taken map snd flat_map]. split.
  - constructor; auto. assert (R := value_range (firstn 8 w)). rewrite L8 in R. exact R.
  - cbn [bits_of flat_map]. rewrite byte_bits_data. rewrite <- L8 at 1. rewrite value_bits. f_equal. exact I2.
Qed.
(** the damaged data bits are a subsequence of the damaged bits *)
Lemma damage_sub par : forall l l', map fst l' = map fst l -> Forall (fun x => length (snd x) = word_bits (modbus_format par)) l' ->
  sub (xor_bits (bits_of (map snd l)) (flat_map (fun x => firstn 8 (snd x)) l')) (flipped (on_the_line (modbus_format par) l) (words_on_line (modbus_format par) l')) /\ length (map snd l) = length l'.
Proof.
  unfold flipped. induction l as [|[k b] l IH]; intros [|[k' w] l'] E H; try discriminate. { split; [constructor|reflexivity]. }
  cbn [map fst snd] in *. assert (Ek : k' = k) by congruence. assert (El : map fst l' = map fst l) by congruence. subst k'. inversion H as [|? ? Hw Hl]; subst. cbn [snd] in Hw. destruct (IH l' El Hl) as [IH1 IH2].
  split; [|cbn [length]; congruence]. cbn [bits_of flat_map on_the_line words_on_line fst snd]. fold (bits_of (map snd l)) (on_the_line (modbus_format par) l) (words_on_line (modbus_format par) l').
  assert (L8 : length (firstn 8 w) = 8%nat) by (rewrite firstn_length; destruct par; cbn in Hw; lia).
  rewrite xor_app by (rewrite L8; reflexivity). rewrite <- !app_assoc. rewrite xor_app by reflexivity.
  change (sub ([] ++ xor_bits (byte_bits b) (firstn 8 w) ++ xor_bits (bits_of (map snd l)) (flat_map (fun x => firstn 8 (snd x)) l')) (xor_bits (repeat true k) (repeat true k) ++ xor_bits (char_on_line (modbus_format par) b ++ on_the_line (modbus_format par) l) ([false] ++ w ++ repeat true (f_stop2 (modbus_format par) / 2) ++ words_on_line (modbus_format par) l'))).
  apply sub_app; [apply sub_none|]. rewrite <- (firstn_skipn 8 w) at 2.
  assert (Q : exists p st, char_on_line (modbus_format par) b = [false] ++ byte_bits b ++ p ++ st /\ length p = length (skipn 8 w) /\ st = repeat true (f_stop2 (modbus_format par) / 2)).
  { unfold char_on_line. rewrite skipn_length. rewrite Hw. destruct par; do 2 eexists; (split; [reflexivity|]); split; reflexivity. }
  destruct Q as (p & st & -> & Lp & ->). rewrite <- !app_assoc. rewrite !xor_app; auto; try (rewrite L8; reflexivity).
  change (sub ([] ++ xor_bits (byte_bits b) (firstn 8 w) ++ xor_bits (bits_of (map snd l)) (flat_map (fun x => firstn 8 (snd x)) l')) (xor_bits [false] [false] ++ xor_bits (byte_bits b) (firstn 8 w) ++
     xor_bits p (skipn 8 w) ++ xor_bits (repeat true (f_stop2 (modbus_format par) / 2)) (repeat true (f_stop2 (modbus_format par) / 2)) ++ xor_bits (on_the_line (modbus_format par) l) (words_on_line (modbus_format par) l'))).
  apply sub_app; [apply sub_none|]. apply sub_app; [apply sub_refl|].
  apply (sub_app []); [apply sub_none|]. apply (sub_app []); [apply sub_none|exact IH1].
Qed.
Theorem flips_caught par l w : Forall (fun x => byte (snd x)) l -> (length l < 256)%nat -> crc_ok (map snd l) -> disturbed (modbus_format par) l w ->
  few_or_close (flipped (on_the_line (modbus_format par) l) w) ->
  let g := map stored (received (modbus_format par) w) in bytes g /\ length g = length l /\ (g = map snd l \/ ~ crc_ok g).
Proof.
  intros B L C (l' & E & H & ->) F g. assert (G : g = taken l') by (apply received_words; exact H). destruct (taken_bytes par l' H) as (Tb & Ts).
  destruct (damage_sub par l l' E H) as (Sb & Ln). rewrite <- Ts in Sb. rewrite map_length in Ln. rewrite G. split; [exact Tb|].
  assert (Lt : length (taken l') = length l) by (unfold taken; rewrite map_length; auto). split; [exact Lt|].
  assert (B2 : bytes (map snd l)) by (apply Forall_map; exact B). assert (Ll : length (map snd l) = length (taken l')) by (rewrite map_length; auto).
  set (e := xor_bits (bits_of (map snd l)) (bits_of (taken l'))) in *.
  destruct (Nat.eq_dec (weight e) 0) as [W|W]. { left. apply bits_inj; auto. symmetry. apply xor_zero; auto. rewrite !bits_of_len, Ll. reflexivity. }
  right. intros C'. apply crc_ok_iff in C; auto. apply crc_ok_iff in C'; auto. rewrite (altered_crc (map snd l) (taken l') B2 Tb Ll C) in C'. fold e in C'.
  destruct F as [F|[i F]].
  - apply sub_weight in Sb. assert (D : weight e = 1%nat \/ weight e = 2%nat \/ weight e = 3%nat) by lia.
    destruct D as [D|[D|D]]; [apply (run_detect_odd e); [rewrite D; reflexivity|exact C']| |apply (run_detect_odd e); [rewrite D; reflexivity|exact C']].
    apply (run_detect_two e); auto. unfold e, xor_bits. rewrite map_length, combine_length, !bits_of_len, Ll, Lt. lia.
  - assert (We := window_sub _ _ Sb (window_of _ _ F)). apply window_nth in We as (j & J). apply (run_detect_burst e j); auto.
Qed.
