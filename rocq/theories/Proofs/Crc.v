(** CRC: table-driven code = bit-serial specification; error detection. *)
From Verif Require Export Proofs.Lib Model.Common Spec.Frame.

(** one step of the shift register without input *)
Definition T (x : Z) : Z := Z.lxor (x / 2) (if Z.odd x then 0xA001 else 0).
Definition Tn (n : nat) (x : Z) : Z := Nat.iter n T x.

Lemma T_spec x : T x = if Z.odd x then Z.lxor (x / 2) 0xA001 else x / 2.
Proof. unfold T. destruct (Z.odd x); auto. apply Z.lxor_0_r. Qed.
Lemma crc_bit_T r b : crc_bit r b = T (Z.lxor r (Z.b2z b)).
Proof. unfold crc_bit. now rewrite T_spec. Qed.

Lemma lxor_div2 x y : Z.lxor x y / 2 = Z.lxor (x / 2) (y / 2).
Proof.
  change 2 with (2 ^ 1). rewrite <- !Z.shiftr_div_pow2 by lia. apply Z.shiftr_lxor.
Qed.
Lemma odd_lxor x y : Z.odd (Z.lxor x y) = xorb (Z.odd x) (Z.odd y).
Proof. rewrite <- !Z.bit0_odd. apply Z.lxor_spec. Qed.
Lemma T_lxor x y : T (Z.lxor x y) = Z.lxor (T x) (T y).
Proof.
  unfold T. rewrite lxor_div2, odd_lxor.
  destruct (Z.odd x), (Z.odd y); cbn [xorb];
    rewrite ?Z.lxor_0_r; Z.bitwise; repeat match goal with |- context [Z.testbit ?a ?b] => destruct (Z.testbit a b) end; auto.
Qed.
Lemma Tn_S n x : Tn (S n) x = Tn n (T x).
Proof. unfold Tn. induction n as [|n IH]; simpl in *; auto. now rewrite IH. Qed.
Lemma Tn_S' n x : Tn (S n) x = T (Tn n x).
Proof. reflexivity. Qed.
Lemma Tn_add n m x : Tn (n + m) x = Tn n (Tn m x).
Proof. unfold Tn. induction n as [|n IH]; simpl; auto. now rewrite IH. Qed.
Lemma Tn_lxor n x y : Tn n (Z.lxor x y) = Z.lxor (Tn n x) (Tn n y).
Proof. induction n as [|n IH]; [reflexivity|]. rewrite !Tn_S', IH. apply T_lxor. Qed.
Lemma T_double v : T (2 * v) = v.
Proof.
  unfold T. rewrite Z.odd_mul. simpl. rewrite Z.lxor_0_r.
  rewrite Z.mul_comm. apply Z.div_mul. lia.
Qed.
Lemma T_0 : T 0 = 0. Proof. reflexivity. Qed.
Lemma Tn_0 n : Tn n 0 = 0.
Proof. induction n; [reflexivity|]. rewrite Tn_S', IHn. reflexivity. Qed.
Lemma Tn_pow n v : 0 <= v -> Tn n (2 ^ Z.of_nat n * v) = v.
Proof.
  revert v. induction n as [|n IH]; intros v Hv.
  - change (Z.of_nat 0) with 0. simpl. lia.
  - rewrite Tn_S. rewrite Nat2Z.inj_succ, Z.pow_succ_r by lia.
    rewrite <- Z.mul_assoc, T_double. apply IH; auto.
Qed.

(** ranges *)
Definition w16 (x : Z) : Prop := 0 <= x < 65536.
Lemma lxor_nonneg2 x y : 0 <= x -> 0 <= y -> 0 <= Z.lxor x y.
Proof. intros. apply Z.lxor_nonneg. lia. Qed.
Lemma lxor_bound n x y : 0 <= n -> 0 <= x < 2 ^ n -> 0 <= y < 2 ^ n -> 0 <= Z.lxor x y < 2 ^ n.
Proof.
  intros Hn Hx Hy. split; [apply lxor_nonneg2; lia|].
  assert (E : Z.lxor x y = Z.lxor x y mod 2 ^ n).
  { apply Z.bits_inj'. intros k Hk.
    destruct (Z.ltb_spec k n) as [L|L].
    - now rewrite Z.mod_pow2_bits_low by lia.
    - rewrite Z.mod_pow2_bits_high by lia. rewrite Z.lxor_spec.
      rewrite <- (Z.mod_small x (2 ^ n)), <- (Z.mod_small y (2 ^ n)) by lia.
      now rewrite !Z.mod_pow2_bits_high by lia. }
  rewrite E. apply Z.mod_pos_bound. lia.
Qed.
Lemma lxor_w16 x y : w16 x -> w16 y -> w16 (Z.lxor x y).
Proof. unfold w16. intros. apply (lxor_bound 16); lia. Qed.
Lemma lxor_byte x y : byte x -> byte y -> byte (Z.lxor x y).
Proof. unfold byte. intros. apply (lxor_bound 8); lia. Qed.
Lemma T_w16 x : w16 x -> w16 (T x).
Proof.
  intros H. unfold T. apply lxor_w16; unfold w16 in *.
  - lia.
  - destruct (Z.odd x); lia.
Qed.
Lemma Tn_w16 n x : w16 x -> w16 (Tn n x).
Proof. intros H. induction n; [exact H|]. rewrite Tn_S'. apply T_w16; auto. Qed.

(** bits as a number, least significant first *)
Lemma byte_of_bits_nonneg l : 0 <= byte_of_bits l.
Proof. induction l as [|b l IH]; cbn [byte_of_bits]; [lia|]. destruct b; cbn [Z.b2z]; lia. Qed.
Lemma byte_of_bits_bound l : byte_of_bits l < 2 ^ Z.of_nat (length l).
Proof.
  induction l as [|b l IH]; cbn [byte_of_bits length]; [reflexivity|].
  rewrite Nat2Z.inj_succ, Z.pow_succ_r by lia. destruct b; cbn [Z.b2z]; lia.
Qed.
Lemma b2z_plus_double b v : Z.b2z b + 2 * v = Z.lxor (Z.b2z b) (2 * v).
Proof.
  rewrite Z.add_nocarry_lxor; [reflexivity|].
  apply Z.bits_inj'. intros k Hk. rewrite Z.land_spec, Z.bits_0.
  destruct (Z.eq_dec k 0) as [->|N].
  - rewrite Z.testbit_even_0. apply andb_false_r.
  - destruct b; cbn [Z.b2z]; [|now rewrite Z.bits_0].
    change 1 with (2 ^ 0). rewrite Z.pow2_bits_false by lia. reflexivity.
Qed.

Definition run (r : Z) (l : list bool) : Z := fold_left crc_bit l r.
Lemma run_Tn l : forall r, run r l = Tn (length l) (Z.lxor r (byte_of_bits l)).
Proof.
  induction l as [|b l IH]; intros r; cbn [run fold_left length byte_of_bits].
  - now rewrite Z.lxor_0_r.
  - fold (run (crc_bit r b) l). rewrite IH, Tn_S, crc_bit_T. f_equal.
    rewrite b2z_plus_double, <- Z.lxor_assoc, (T_lxor (Z.lxor r (Z.b2z b))), T_double. reflexivity.
Qed.
Lemma run_app r a b : run r (a ++ b) = run (run r a) b.
Proof. unfold run. apply fold_left_app. Qed.
Lemma crc_bit_w16 r b : w16 r -> w16 (crc_bit r b).
Proof. intros H. rewrite crc_bit_T. apply T_w16, lxor_w16; auto. unfold w16; destruct b; cbn [Z.b2z]; lia. Qed.
Lemma run_w16 l : forall r, w16 r -> w16 (run r l).
Proof. induction l as [|b l IH]; intros r H; cbn [run fold_left]; auto. apply IH, crc_bit_w16, H. Qed.

Lemma byte_bits_val b : byte b -> byte_of_bits (byte_bits b) = b.
Proof.
  intros H.
  assert (S : forallb (fun k => byte_of_bits (byte_bits k) =? k) (map Z.of_nat (seq 0 256)) = true) by (vm_compute; reflexivity).
  rewrite forallb_forall in S. apply Z.eqb_eq, S.
  apply in_map_iff. exists (Z.to_nat b). split; [unfold byte in H; lia|]. apply in_seq. unfold byte in H; lia.
Qed.
Lemma byte_bits_len b : length (byte_bits b) = 8%nat. Proof. reflexivity. Qed.

Lemma table_sweep l : byte l -> nth (Z.to_nat l) CRC_loock_up_table 0 = Tn 8 l.
Proof.
  intros H.
  assert (S : forallb (fun k => nth (Z.to_nat k) CRC_loock_up_table 0 =? Tn 8 k) (map Z.of_nat (seq 0 256)) = true) by (vm_compute; reflexivity).
  rewrite forallb_forall in S. apply Z.eqb_eq, S.
  apply in_map_iff. exists (Z.to_nat l). split; [unfold byte in H; lia|]. apply in_seq. unfold byte in H; lia.
Qed.
Lemma table_length : length CRC_loock_up_table = 256%nat. Proof. reflexivity. Qed.

Lemma lxor_mod256 x y : Z.lxor x y mod 256 = Z.lxor (x mod 256) (y mod 256).
Proof.
  apply Z.bits_inj'. intros k Hk. change 256 with (2 ^ 8).
  destruct (Z.ltb_spec k 8).
  - rewrite !Z.mod_pow2_bits_low by lia. rewrite !Z.lxor_spec. now rewrite !Z.mod_pow2_bits_low by lia.
  - rewrite Z.lxor_spec. now rewrite !Z.mod_pow2_bits_high by lia.
Qed.
Lemma lxor_div256 x y : Z.lxor x y / 256 = Z.lxor (x / 256) (y / 256).
Proof. change 256 with (2 ^ 8). rewrite <- !Z.shiftr_div_pow2 by lia. apply Z.shiftr_lxor. Qed.

Lemma split_lxor x : 0 <= x -> x = Z.lxor (x mod 256) (256 * (x / 256)).
Proof.
  intros H. rewrite <- Z.add_nocarry_lxor; [lia|].
  apply Z.bits_inj'. intros k Hk. rewrite Z.land_spec, Z.bits_0.
  change 256 with (2 ^ 8). destruct (Z.ltb_spec k 8).
  - rewrite Z.mul_comm, Z.mul_pow2_bits_low by lia. apply andb_false_r.
  - rewrite Z.mod_pow2_bits_high by lia. reflexivity.
Qed.

(** one byte: table step = eight bit steps *)
Lemma byte_step r b : w16 r -> byte b ->
  run r (byte_bits b) = u16 (Z.lxor (Z.shiftr r 8) (nth (Z.to_nat (u8 (Z.lxor b r))) CRC_loock_up_table 0)).
Proof.
  intros Hr Hb.
  rewrite table_sweep by apply u8_range.
  rewrite run_Tn, byte_bits_val, byte_bits_len by auto.
  set (x := Z.lxor r b).
  assert (Hx : 0 <= x) by (apply lxor_nonneg2; unfold w16, byte in *; lia).
  rewrite (split_lxor x Hx) at 1. rewrite Tn_lxor.
  change 256 with (2 ^ Z.of_nat 8) at 2. rewrite Tn_pow by lia.
  replace (u8 (Z.lxor b r)) with (x mod 256) by (unfold u8, x; now rewrite Z.lxor_comm).
  replace (x / 256) with (Z.shiftr r 8).
  2:{ unfold x. rewrite lxor_div256, Z.shiftr_div_pow2 by lia. change (2 ^ 8) with 256.
      rewrite (Z.div_small b) by (unfold byte in Hb; lia). now rewrite Z.lxor_0_r. }
  rewrite Z.lxor_comm. symmetry. apply u16_id.
  apply lxor_w16.
  - rewrite Z.shiftr_div_pow2 by lia. unfold w16 in *. change (2 ^ 8) with 256. lia.
  - apply Tn_w16. unfold w16. lia.
Qed.

Lemma crc_loop_spec n : forall buf p r,
  bytes (firstn n (skipn p buf)) -> (p + n <= length buf)%nat -> w16 r ->
  crc_loop n buf (Z.of_nat p) r = Ok (run r (bits_of (firstn n (skipn p buf)))).
Proof.
  induction n as [|n IH]; intros buf p r Hb Hl Hr; cbn [crc_loop].
  - reflexivity.
  - assert (E : firstn (S n) (skipn p buf) = nth p buf 0 :: firstn n (skipn (S p) buf)).
    { clear -Hl. revert buf Hl. induction p as [|p IHp]; intros [|x buf] Hl; cbn [length] in Hl; try lia; auto.
      cbn [skipn nth]. rewrite IHp by lia. reflexivity. }
    rewrite E in *. inversion Hb as [|? ? H1 H2]; subst.
    rewrite (aget_ok _ _ 0) by lia. cbn [bind]. rewrite Nat2Z.id.
    rewrite (aget_ok CRC_loock_up_table _ 0).
    2:{ rewrite table_length. generalize (u8_range (Z.lxor (nth p buf 0) r)). lia. }
    cbn [bind]. replace (Z.of_nat p + 1) with (Z.of_nat (S p)) by lia.
    rewrite <- byte_step by auto.
    rewrite IH; [|exact H2|lia|apply run_w16; auto].
    cbn [bits_of flat_map]. rewrite run_app. reflexivity.
Qed.

Lemma calculate_CRC_spec buf len :
  0 <= len <= Z.of_nat (length buf) -> bytes (firstn (Z.to_nat len) buf) ->
  calculate_CRC buf len = Ok (crc16 (firstn (Z.to_nat len) buf)).
Proof.
  intros Hl Hb. unfold calculate_CRC. change 0 with (Z.of_nat 0) at 1.
  rewrite crc_loop_spec; cbn [skipn].
  - reflexivity.
  - exact Hb.
  - lia.
  - unfold w16; lia.
Qed.

Lemma crc16_run l : crc16 l = run 0xFFFF (bits_of l).
Proof. reflexivity. Qed.
Lemma crc16_w16 l : w16 (crc16 l).
Proof. unfold crc16. apply (run_w16 (bits_of l)). unfold w16; lia. Qed.

(** injectivity *)
Lemma T_high x : w16 x -> Z.testbit (T x) 15 = Z.odd x.
Proof.
  intros H. unfold T. rewrite Z.lxor_spec.
  replace (Z.testbit (x / 2) 15) with false.
  - destruct (Z.odd x); reflexivity.
  - symmetry. change 2 with (2 ^ 1). rewrite Z.div_pow2_bits by lia.
    rewrite <- (Z.mod_small x (2 ^ 16)) by (unfold w16 in H; lia). apply Z.mod_pow2_bits_high. lia.
Qed.
Lemma T_inj0 x : w16 x -> T x = 0 -> x = 0.
Proof.
  intros H E. generalize (T_high x H). rewrite E, Z.bits_0. intros O.
  rewrite T_spec, <- O in E.
  assert (M : x mod 2 = 0). { rewrite Zmod_odd, <- O. reflexivity. } lia.
Qed.
Lemma Tn_inj0 n x : w16 x -> Tn n x = 0 -> x = 0.
Proof.
  revert x. induction n as [|n IH]; intros x H E; [exact E|].
  rewrite Tn_S in E. apply T_inj0; auto. apply IH; auto. apply T_w16; auto.
Qed.

(** a frame has checksum 0 iff it ends with the checksum of its body *)
Lemma bits_of_app a b : bits_of (a ++ b) = bits_of a ++ bits_of b.
Proof. unfold bits_of. apply flat_map_app. Qed.
Lemma bits_of_len l : length (bits_of l) = (8 * length l)%nat.
Proof. induction l as [|x l IH]; auto. cbn [bits_of flat_map]. rewrite app_length. unfold bits_of in IH. rewrite IH, byte_bits_len. cbn [length]. lia. Qed.
Lemma crc16_app a b : crc16 (a ++ b) = run (crc16 a) (bits_of b).
Proof. unfold crc16. rewrite bits_of_app. apply run_app. Qed.

Lemma byte_of_bits_app a b : byte_of_bits (a ++ b) = byte_of_bits a + 2 ^ Z.of_nat (length a) * byte_of_bits b.
Proof.
  induction a as [|x a IH].
  - cbn [app length byte_of_bits]. change (2 ^ Z.of_nat 0) with 1. lia.
  - cbn [app length byte_of_bits]. rewrite IH, Nat2Z.inj_succ, Z.pow_succ_r by lia. lia.
Qed.

Lemma crc16_two body a b : byte a -> byte b ->
  (crc16 (body ++ [a; b]) = 0 <-> crc16 body = a + 256 * b).
Proof.
  intros Ha Hb. rewrite crc16_app. change [a; b] with ([a] ++ [b]).
  rewrite bits_of_app. rewrite run_Tn.
  assert (E : byte_of_bits (bits_of [a] ++ bits_of [b]) = a + 256 * b).
  { rewrite byte_of_bits_app. cbn [bits_of flat_map]. rewrite !app_nil_r, !byte_bits_val, byte_bits_len by auto. reflexivity. }
  rewrite E. set (n := length _). clearbody n.
  assert (W : w16 (a + 256 * b)) by (unfold w16, byte in *; lia).
  split; intros H.
  - apply Tn_inj0 in H; [|apply lxor_w16; auto; apply crc16_w16].
    apply Z.lxor_eq in H. exact H.
  - rewrite H, Z.lxor_nilpotent. apply Tn_0.
Qed.

Lemma crc_field_bytes l : bytes (crc_field l).
Proof.
  generalize (crc16_w16 l). unfold w16. intros. unfold crc_field, bytes, byte.
  repeat constructor; lia.
Qed.
Lemma crc16_own body : crc16 (body ++ crc_field body) = 0.
Proof.
  generalize (crc16_w16 body). unfold w16. intros.
  unfold crc_field. apply crc16_two; unfold byte; lia.
Qed.
Lemma crc16_nil : crc16 [] = 0xFFFF. Proof. reflexivity. Qed.
Lemma crc16_one a : byte a -> crc16 [a] <> 0.
Proof.
  intros H E. rewrite crc16_run in E. unfold bits_of in E. cbn [flat_map] in E. rewrite app_nil_r in E.
  rewrite run_Tn, byte_bits_val in E by auto.
  apply Tn_inj0 in E; [|apply lxor_w16; unfold w16, byte in *; lia].
  apply Z.lxor_eq in E. unfold byte in H; lia.
Qed.

Lemma crc_ok_iff f : bytes f -> (crc16 f = 0 <-> crc_ok f).
Proof.
  intros Hf. split.
  - intros E.
    destruct (le_lt_dec 2 (length f)) as [L|L].
    + destruct (exists_last (l := f)) as [f1 [b ->]]; [destruct f; cbn in L; [lia|discriminate]|].
      rewrite app_length in L; cbn in L.
      destruct (exists_last (l := f1)) as [f2 [a ->]]; [destruct f1; cbn in L; [lia|discriminate]|].
      rewrite <- app_assoc in *. cbn [app] in *.
      apply Forall_app in Hf. destruct Hf as [_ Hf]. inversion Hf as [|? ? Ha Hf']; subst. inversion Hf' as [|? ? Hb _]; subst.
      exists f2. apply crc16_two in E; auto. f_equal. unfold crc_field. rewrite E.
      unfold byte in *. f_equal; [|f_equal]; lia.
    + exfalso. destruct f as [|a [|b f]]; cbn in L; try lia.
      * rewrite crc16_nil in E; discriminate.
      * inversion Hf; subst. now apply (crc16_one a).
  - intros [body ->]. apply crc16_own.
Qed.

(** error detection *)
Lemma run_xor a : forall b r s, length a = length b ->
  Z.lxor (run r a) (run s b) = run (Z.lxor r s) (xor_bits a b).
Proof.
  induction a as [|x a IH]; intros [|y b] r s H; cbn [length] in H; try lia; auto.
  cbn [run fold_left xor_bits combine map fst snd].
  fold (run (crc_bit r x) a) (run (crc_bit s y) b) (xor_bits a b).
  rewrite IH by lia. unfold run. f_equal. rewrite !crc_bit_T, <- T_lxor. f_equal.
  destruct x, y; cbn [xorb Z.b2z]; rewrite ?Z.lxor_0_r; auto.
  - rewrite Z.lxor_assoc, (Z.lxor_comm 1), Z.lxor_assoc, Z.lxor_nilpotent, Z.lxor_0_r. reflexivity.
  - rewrite !Z.lxor_assoc, (Z.lxor_comm 1). reflexivity.
  - now rewrite Z.lxor_assoc.
Qed.

(** parity *)
Definition par (x : Z) : bool := fold_left (fun a k => xorb a (Z.testbit x k)) (map Z.of_nat (seq 0 16)) false.
Lemma fold_xorb_shift (f : Z -> bool) l a c :
  fold_left (fun a k => xorb a (f k)) l (xorb a c) = xorb (fold_left (fun a k => xorb a (f k)) l a) c.
Proof.
  revert a. induction l as [|k l IH]; intros a; cbn [fold_left]; auto.
  rewrite <- IH. f_equal. destruct a, c, (f k); reflexivity.
Qed.
Lemma par_lxor x y : par (Z.lxor x y) = xorb (par x) (par y).
Proof.
  unfold par.
  assert (G : forall l a b, fold_left (fun a k => xorb a (Z.testbit (Z.lxor x y) k)) l (xorb a b) =
     xorb (fold_left (fun a k => xorb a (Z.testbit x k)) l a) (fold_left (fun a k => xorb a (Z.testbit y k)) l b)).
  { induction l as [|k l IH]; intros a b; cbn [fold_left]; auto. rewrite <- IH. f_equal.
    rewrite Z.lxor_spec. destruct a, b, (Z.testbit x k), (Z.testbit y k); reflexivity. }
  change false with (xorb false false) at 1. apply G.
Qed.
Lemma par_half x : w16 x -> par (x / 2) = xorb (par x) (Z.odd x).
Proof.
  intros H. unfold par.
  transitivity (fold_left (fun a k => xorb a (Z.testbit x k)) (map Z.of_nat (seq 1 16)) false).
  { change 2 with (2 ^ 1). cbn [seq map fold_left]. rewrite !Z.div_pow2_bits by lia. reflexivity. }
  change (seq 1 16) with (seq 1 15 ++ [16%nat]). change (seq 0 16) with (0%nat :: seq 1 15).
  rewrite map_app, fold_left_app. cbn [map]. cbn [fold_left].
  replace (Z.testbit x (Z.of_nat 16)) with false.
  2:{ symmetry. rewrite <- (Z.mod_small x (2 ^ 16)) by (unfold w16 in H; lia). apply Z.mod_pow2_bits_high. lia. }
  change (Z.of_nat 0) with 0. rewrite Z.bit0_odd, fold_xorb_shift.
  rewrite xorb_assoc, xorb_nilpotent. reflexivity.
Qed.
Lemma par_T x : w16 x -> par (T x) = par x.
Proof.
  intros H. unfold T. rewrite par_lxor, par_half by auto.
  replace (par (if Z.odd x then 40961 else 0)) with (Z.odd x) by (destruct (Z.odd x); reflexivity).
  rewrite xorb_assoc, xorb_nilpotent. apply xorb_false_r.
Qed.
Definition parity (l : list bool) : bool := fold_right xorb false l.
Lemma par_run l : forall r, w16 r -> par (run r l) = xorb (par r) (parity l).
Proof.
  induction l as [|b l IH]; intros r H; cbn [run fold_left parity fold_right].
  - now rewrite xorb_false_r.
  - fold (run (crc_bit r b) l) (parity l). rewrite IH by (apply crc_bit_w16; auto).
    rewrite crc_bit_T, par_T, par_lxor, <- xorb_assoc.
    + replace (par (Z.b2z b)) with b by (destruct b; reflexivity). reflexivity.
    + apply lxor_w16; auto. unfold w16; destruct b; cbn [Z.b2z]; lia.
Qed.
Lemma run_zero l : Forall (fun b => b = false) l -> forall r, run r l = Tn (length l) r.
Proof.
  intros H r. rewrite run_Tn. f_equal.
  replace (byte_of_bits l) with 0; [apply Z.lxor_0_r|].
  induction H as [|b l E _ IH]; auto. cbn [byte_of_bits]. rewrite E, <- IH. reflexivity.
Qed.

(** order: T^d 1 <> 1 for 1 <= d <= 2040 *)
Fixpoint no_return (n : nat) (x : Z) : bool :=
  match n with O => true | S n' => negb (T x =? 1) && no_return n' (T x) end.
Lemma no_return_spec n : forall x, no_return n x = true -> forall d, (1 <= d <= n)%nat -> Tn d x <> 1.
Proof.
  induction n as [|n IH]; intros x H d Hd; [lia|].
  cbn [no_return] in H. apply andb_prop in H. destruct H as [H1 H2].
  destruct d as [|d]; [lia|]. rewrite Tn_S.
  destruct d as [|d].
  - change (Tn 0 (T x)) with (T x). lia.
  - apply IH; auto. lia.
Qed.
Lemma order_sweep d : (1 <= d <= 2040)%nat -> Tn d 1 <> 1.
Proof. apply no_return_spec. vm_compute. reflexivity. Qed.

Lemma weight_parity l : parity l = Nat.odd (weight l).
Proof.
  induction l as [|b l IH]; auto. unfold weight in *. cbn [parity fold_right filter]. fold (parity l). rewrite IH.
  destruct b; cbn [length].
  - rewrite Nat.odd_succ, <- Nat.negb_odd. destruct (Nat.odd _); reflexivity.
  - destruct (Nat.odd _); reflexivity.
Qed.
Lemma weight_0 l : weight l = 0%nat -> Forall (fun b => b = false) l.
Proof.
  unfold weight. induction l as [|b l IH]; intros H; auto. cbn [filter] in H. destruct b; [discriminate|auto].
Qed.
Lemma weight_S l n : weight l = S n -> exists a b, l = a ++ true :: b /\ Forall (fun b => b = false) a /\ weight b = n.
Proof.
  unfold weight. induction l as [|b l IH]; intros H; [discriminate|].
  cbn [filter] in H. destruct b.
  - exists [], l. cbn in H. repeat split; auto; lia.
  - destruct (IH H) as [a [b [-> [Ha Hb]]]]. exists (false :: a), b. repeat split; auto.
Qed.

Lemma run_detect_odd e : Nat.odd (weight e) = true -> run 0 e <> 0.
Proof.
  intros H E. assert (P : par (run 0 e) = parity e) by (rewrite par_run by (unfold w16; lia); apply xorb_false_l).
  rewrite E, weight_parity, H in P. discriminate.
Qed.
Lemma run_detect_two e : weight e = 2%nat -> (length e <= 2040)%nat -> run 0 e <> 0.
Proof.
  intros H L E. apply weight_S in H. destruct H as [a [e1 [-> [Ha H]]]].
  apply weight_S in H. destruct H as [m [z [-> [Hm Hz]]]]. apply weight_0 in Hz.
  rewrite !app_length in L. cbn [length] in L. rewrite app_length in L. cbn [length] in L.
  rewrite run_app in E. change (true :: m ++ true :: z) with ([true] ++ m ++ [true] ++ z) in E.
  rewrite !run_app in E. rewrite (run_zero a), Tn_0 in E by auto.
  change (run 0 [true]) with (Tn 1 1) in E.
  rewrite (run_zero m) in E by auto. rewrite <- Tn_add in E.
  rewrite (run_zero z) in E by auto.
  set (d := (length m + 1)%nat) in *.
  assert (W : w16 (Tn d 1)) by (apply Tn_w16; unfold w16; lia).
  apply Tn_inj0 in E; [|apply run_w16; auto].
  cbn [run fold_left] in E. rewrite crc_bit_T in E.
  apply T_inj0 in E; [|apply lxor_w16; auto; unfold w16; cbn; lia].
  apply Z.lxor_eq in E. cbn in E. revert E. apply order_sweep. lia.
Qed.
Lemma run_detect_burst e i : weight e <> 0%nat ->
  (forall k, nth k e false = true -> (i <= k < i + 16)%nat) -> run 0 e <> 0.
Proof.
  intros Hw Hb E.
  assert (S : e = firstn i e ++ firstn 16 (skipn i e) ++ skipn 16 (skipn i e)).
  { now rewrite !firstn_skipn. }
  assert (A : Forall (fun b => b = false) (firstn i e)).
  { apply Forall_forall. intros x Hx. apply In_nth with (d := false) in Hx. destruct Hx as [k [Hk <-]].
    rewrite firstn_length in Hk. rewrite nth_firstn by lia.
    destruct (nth k e false) eqn:F; auto. apply Hb in F. lia. }
  assert (Z0 : Forall (fun b => b = false) (skipn 16 (skipn i e))).
  { apply Forall_forall. intros x Hx. apply In_nth with (d := false) in Hx. destruct Hx as [k [Hk <-]].
    rewrite !nth_skipn. destruct (nth _ e false) eqn:F; auto. apply Hb in F. lia. }
  set (w := firstn 16 (skipn i e)) in *. set (a := firstn i e) in *. set (z := skipn 16 (skipn i e)) in *.
  assert (Lw : (length w <= 16)%nat) by (unfold w; rewrite firstn_length; lia).
  rewrite S, !run_app in E. rewrite (run_zero a), Tn_0 in E by auto. rewrite (run_zero z) in E by auto.
  apply Tn_inj0 in E; [|apply run_w16; unfold w16; lia].
  rewrite run_Tn, Z.lxor_0_l in E.
  assert (W : w16 (byte_of_bits w)).
  { unfold w16. generalize (byte_of_bits_nonneg w) (byte_of_bits_bound w). intros B1 B2.
    assert (2 ^ Z.of_nat (length w) <= 2 ^ 16) by (apply Z.pow_le_mono_r; lia). lia. }
  apply Tn_inj0 in E; auto.
  apply Hw. rewrite S. unfold weight. rewrite !filter_app, !app_length.
  assert (F : forall l, Forall (fun b => b = false) l -> length (filter (fun b : bool => b) l) = 0%nat).
  { induction 1 as [|x l Hx _ IH]; auto. now rewrite Hx. }
  rewrite (F a), (F z) by auto.
  cut (Forall (fun b => b = false) w); [intros G; rewrite (F w) by auto; reflexivity|].
  clear -E. induction w as [|b w IH]; auto. cbn [byte_of_bits] in E.
  generalize (byte_of_bits_nonneg w). destruct b; cbn [Z.b2z] in E; intros; [lia|]. constructor; auto. apply IH. lia.
Qed.

Lemma altered_crc f g : bytes f -> bytes g -> length f = length g -> crc16 f = 0 ->
  crc16 g = run 0 (xor_bits (bits_of f) (bits_of g)).
Proof.
  intros Hf Hg L E.
  transitivity (Z.lxor (crc16 f) (crc16 g)); [rewrite E; now rewrite Z.lxor_0_l|].
  rewrite !crc16_run, run_xor by (rewrite !bits_of_len; lia).
  now rewrite Z.lxor_nilpotent.
Qed.
