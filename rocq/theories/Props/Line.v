(** C81-C84: the drivers' line settings. *)
From Coq Require Import ZifyBool.
From Verif Require Import Spec.Line Spec.Frame.
Ltac Zify.zify_post_hook ::= Z.to_euclidean_division_equations.

(** ** initialisation from reset *)
Definition rtor (baud : Z) : Z := if baud <=? 19200 then 17 else u32 (baud / 9600 * 83) / 10.
Definition arr (baud : Z) : Z := if baud <=? 19200 then 16042 / (baud / 2400) else 1750.
Lemma up_regs baud par : 2400 <= baud < 2 ^ 32 ->
  exists cr1 cr2, usart_init baud par periph_reset = Ok (mk_periph cr1 cr2 0x5000 (64000000 / baud mod 65536) (rtor baud) 0xC 1 63 (arr baud)) /\
    (forall b r, format_of (mk_periph cr1 cr2 0x5000 b r 0xC 1 63 (arr baud)) = modbus_format par) /\
    Z.testbit cr1 0 = true /\ Z.testbit cr1 2 = true /\ Z.testbit cr1 3 = true /\ Z.testbit cr1 26 = true /\ Z.testbit cr2 23 = true.
Proof.
  intros Hb. assert (R : get_RTOR_value baud = Ok (rtor baud)).
  { unfold get_RTOR_value, rtor. destruct (baud <=? 19200); auto. destruct (16777215 <? _) eqn:E; auto. exfalso. revert E. unfold u32. lia. }
  assert (A : get_ARR_value baud = Ok (arr baud)).
  { unfold get_ARR_value, arr. destruct (baud <=? 19200) eqn:E; auto. destruct (baud / 2400 =? 0) eqn:E2; auto. exfalso. lia. }
  assert (Rr : u32 (Z.lor 0 (rtor baud)) = rtor baud). { rewrite Z.lor_0_l. unfold rtor, u32. destruct (baud <=? 19200); [reflexivity|]. lia. }
  assert (Ar : arr baud mod 65536 = arr baud). { unfold arr. destruct (baud <=? 19200) eqn:E; [|reflexivity]. assert (baud / 2400 >= 1) by lia. assert (0 <= 16042 / (baud / 2400) <= 16042) by (split; [apply Z.div_pos; lia|apply Z.div_le_upper_bound; nia]). lia. }
  assert (Z0 : baud =? 0 = false) by lia.
  unfold usart_init, USART_module_config, TIMER7_init.
  destruct par.
  all: match goal with |- context [USART_set_CR ?x ?y] => let v := eval vm_compute in (USART_set_CR x y) in change (USART_set_CR x y) with v end.
  all: rewrite Z0, R, A; cbn [bind]; unfold set_timer, set_CR1, set_BRR, set_RTOR; cbn [CR1 CR2 CR3 BRR RTOR T_CR1 T_DIER T_PSC T_ARR]; rewrite Rr, Ar.
  all: do 2 eexists; split; [reflexivity|split; [intros; reflexivity|repeat split]].
Qed.

(** ** C81: the settings *)
Theorem C81_settings_partial : forall baud par, 2400 <= baud < 2 ^ 32 ->
  exists p, line_up baud par p /\ format_of p = modbus_format par /\
    Z.testbit (CR1 p) 0 = true /\ Z.testbit (CR1 p) 2 = true /\ Z.testbit (CR1 p) 3 = true /\ (* USART, receiver, transmitter enabled *)
    Z.testbit (CR1 p) 26 = true /\ Z.testbit (CR2 p) 23 = true /\ Z.testbit (T_DIER p) 0 = true /\ Z.testbit (T_CR1 p) 3 = true. (* time-out and timer interrupts enabled; one-shot timer *)
Proof.
  intros baud par Hb. destruct (up_regs baud par Hb) as (c1 & c2 & E & F & H0 & H2 & H3 & H26 & H23). eexists. split; [exact E|]. cbn [CR1 CR2 T_DIER T_CR1]. repeat split; auto.
Qed.
Print Assumptions C81_settings_partial.
Theorem C81_eleven_bits : forall par b, length (char_on_line (modbus_format par) b) = 11%nat.
Proof. intros [| |] b; reflexivity. Qed.
Print Assumptions C81_eleven_bits.
(** a second initialisation (without a reset) does not change format and bit rate *)
Lemma write_keeps m p old new i : enabled p = true -> 0 <= i -> Z.testbit m i = true -> Z.testbit (write_bits m p old new) i = Z.testbit old i.
Proof. intros E Hi M. unfold write_bits. rewrite E, Z.lor_spec, !Z.land_spec, Z.lnot_spec, M by auto. now rewrite andb_false_r, andb_true_r. Qed.
Lemma write_free m p old new i : 0 <= i < 32 -> Z.testbit m i = false -> Z.testbit (write_bits m p old new) i = Z.testbit new i.
Proof.
  intros Hi M. unfold write_bits. assert (U : Z.testbit (u32 new) i = Z.testbit new i) by (unfold u32; change 4294967296 with (2 ^ 32); apply Z.mod_pow2_bits_low; lia).
  destruct (enabled p); auto. rewrite Z.lor_spec, !Z.land_spec, Z.lnot_spec, M, U by lia. cbn. now rewrite andb_true_r, andb_false_r, orb_false_r.
Qed.
(** same format and rate, still enabled *)
Definition kept (p q : periph) : Prop :=
  enabled q = true /\ Z.testbit (CR1 q) 28 = Z.testbit (CR1 p) 28 /\ Z.testbit (CR1 q) 12 = Z.testbit (CR1 p) 12 /\ Z.testbit (CR1 q) 10 = Z.testbit (CR1 p) 10 /\ Z.testbit (CR1 q) 9 = Z.testbit (CR1 p) 9 /\
  Z.testbit (CR2 q) 13 = Z.testbit (CR2 p) 13 /\ Z.testbit (CR2 q) 12 = Z.testbit (CR2 p) 12 /\ BRR q = BRR p.
Lemma kept_refl p : enabled p = true -> kept p p.
Proof. unfold kept. auto 10. Qed.
Lemma kept_CR1 p q v : kept p q -> Z.testbit v 0 = true -> kept p (set_CR1 q v).
Proof.
  intros (K0 & K1 & K2 & K3 & K4 & K5 & K6 & K7) V. unfold kept, set_CR1, enabled. cbn [CR1 CR2 BRR].
  rewrite write_free by (lia || reflexivity). rewrite !write_keeps by (auto; lia || reflexivity). auto 10.
Qed.
Lemma kept_CR2 p q v : kept p q -> kept p (set_CR2 q v).
Proof.
  intros (K0 & K1 & K2 & K3 & K4 & K5 & K6 & K7). unfold kept, set_CR2, enabled. cbn [CR1 CR2 BRR].
  rewrite !write_keeps by (auto; lia || reflexivity). unfold enabled in K0. auto 10.
Qed.
Lemma kept_CR3 p q v : kept p q -> kept p (set_CR3 q v).
Proof. unfold kept, set_CR3, enabled. cbn [CR1 CR2 BRR]. auto. Qed.
Lemma kept_BRR p q v : kept p q -> kept p (set_BRR q v).
Proof. unfold kept, set_BRR. intros K. destruct K as (K0 & K). rewrite K0. unfold enabled in *. cbn [CR1 CR2 BRR]. auto. Qed.
Lemma kept_en p q : kept p q -> Z.testbit (CR1 q) 0 = true.
Proof. intros K. apply K. Qed.
Lemma kept_or p q b : kept p q -> kept p (set_CR1 q (CR1 q |' b)).
Proof. intros K. apply kept_CR1; auto. rewrite Z.lor_spec, (kept_en _ _ K). reflexivity. Qed.
Lemma kept_and p q b : Z.testbit b 0 = false -> kept p q -> kept p (set_CR1 q (CR1 q &~ b)).
Proof. intros B K. apply kept_CR1; auto. rewrite Z.land_spec, Z.lnot_spec, (kept_en _ _ K), B by lia. reflexivity. Qed.
Lemma kept_config p par : enabled p = true -> kept p (USART_set_CR par p).
Proof.
  intros En. unfold USART_set_CR. cbv zeta. apply kept_CR3, kept_CR2, kept_or.
  destruct par; [apply kept_CR2, kept_and; [reflexivity|]|apply kept_or|apply kept_or, kept_and; [reflexivity|]]; apply kept_or, kept_refl; exact En.
Qed.
Theorem C81_second_init_ignored : forall baud par p p', enabled p = true -> usart_init baud par p = Ok p' -> format_of p' = format_of p /\ BRR p' = BRR p.
Proof.
  intros baud par p p' En E. unfold usart_init in E. destruct (USART_module_config baud par p) as [q| |] eqn:Q; try discriminate. cbn [bind] in E.
  assert (K : kept p q).
  { unfold USART_module_config in Q. cbv zeta in Q. assert (K0 := kept_config p par En). generalize dependent (USART_set_CR par p). intros p1 Q K1. destruct (baud =? 0); [discriminate|]. destruct (get_RTOR_value baud) as [r| |]; try discriminate. cbn [bind] in Q.
    assert (Kr : forall q v, kept p q -> kept p (set_RTOR q v)) by (intros q0 v K; exact K). assert (Q' : set_CR1 (set_RTOR (set_BRR p1 (64000000 / baud)) (RTOR (set_BRR p1 (64000000 / baud)) |' r)) (CR1 (set_RTOR (set_BRR p1 (64000000 / baud)) (RTOR (set_BRR p1 (64000000 / baud)) |' r)) |' CR1_UE) = q) by (injection Q; auto).
    rewrite <- Q'. apply kept_or, Kr, kept_BRR, K1. }
  unfold TIMER7_init in E. destruct (get_ARR_value baud) as [a| |]; try discriminate. cbn [bind] in E. inversion E; subst p'. unfold set_timer, format_of, word_length. cbn [CR1 CR2 BRR].
  destruct K as (_ & -> & -> & -> & -> & -> & -> & ->). auto.
Qed.
Print Assumptions C81_second_init_ignored.
Theorem C81_refuted : exists p p', line_up 9600 NONE p /\ usart_init 19200 EVEN p = Ok p' /\ format_of p' <> modbus_format EVEN /\ BRR p' = 64000000 / 9600.
Proof. do 2 eexists. split; [vm_compute; reflexivity|]. split; [vm_compute; reflexivity|]. split; [vm_compute; discriminate|]. reflexivity. Qed.
Print Assumptions C81_refuted.

(** ** C82: bytes on the line *)
Lemma rx_app f l1 l2 : forall s, rx_bits f s (l1 ++ l2) = let '(s1, c1) := rx_bits f s l1 in let '(s2, c2) := rx_bits f s1 l2 in (s2, c1 ++ c2).
Proof.
  induction l1 as [|x l1 IH]; intros s; cbn [app rx_bits]; [destruct (rx_bits f s l2); reflexivity|]. destruct (rx_bit f s x) as [s1 c1]. rewrite IH. destruct (rx_bits f s1 l1) as [s2 c2]. destruct (rx_bits f s2 l2) as [s3 c3].
  now rewrite app_assoc.
Qed.
Lemma rx_idle f k : rx_bits f RHunt (repeat true k) = (RHunt, []).
Proof. induction k as [|k IH]; [reflexivity|]. cbn [repeat rx_bits rx_bit]. rewrite IH. reflexivity. Qed.
Lemma rx_word f w : forall acc, (length acc + length w <= word_bits f)%nat -> rx_bits f (RWord acc) w = (RWord (acc ++ w), []).
Proof.
  induction w as [|x w IH]; intros acc H; cbn [rx_bits]; [now rewrite app_nil_r|]. cbn [length] in H. cbn [rx_bit]. replace (length acc <? word_bits f)%nat with true by (symmetry; apply Nat.ltb_lt; lia).
  rewrite IH by (rewrite app_length; cbn; lia). now rewrite <- app_assoc.
Qed.
Definition perr (f : fmt) (w : list bool) : bool := match f_parity f with Some odd => negb (Bool.eqb (ones w) odd) | None => false end.
Lemma rx_char f w x l : length w = word_bits f -> rx_bits f RHunt ([false] ++ w ++ [x] ++ l) = (let '(s, c) := rx_bits f (if x then RHunt else RLow) l in (s, mk_rchar w (perr f w) (negb x) :: c)).
Proof.
  intros H. cbn [app rx_bits rx_bit]. rewrite rx_app, rx_word by (cbn; lia). cbn [app rx_bits rx_bit]. replace (length w <? word_bits f)%nat with false by (symmetry; apply Nat.ltb_ge; lia).
  fold (perr f w). destruct (rx_bits f _ l). reflexivity.
Qed.
Lemma value_app a b : bits_value (a ++ b) = bits_value a + 2 ^ Z.of_nat (length a) * bits_value b.
Proof. induction a as [|x a IH]; cbn [app bits_value length]; [lia|]. rewrite IH, Nat2Z.inj_succ, Z.pow_succ_r by lia. lia. Qed.
Lemma data_bits_len n b : length (data_bits n b) = n.
Proof. unfold data_bits. now rewrite map_length, seq_length. Qed.
Lemma data_value b : byte b -> bits_value (data_bits 8 b) = b.
Proof.
  intros H. assert (G : forall n k, 0 <= k -> bits_value (map (fun i => Z.testbit b (Z.of_nat i)) (seq (Z.to_nat k) n)) = (b / 2 ^ k) mod 2 ^ Z.of_nat n).
  { induction n as [|n IH]; intros k Hk; [cbn; now rewrite Z.mod_1_r|]. cbn [seq map bits_value]. replace (S (Z.to_nat k)) with (Z.to_nat (k + 1)) by lia. rewrite IH by lia.
    rewrite Z2Nat.id by lia. rewrite Nat2Z.inj_succ, Z.pow_succ_r by lia. rewrite Z.pow_add_r, Z.pow_1_r, <- Z.div_div by lia.
    rewrite Z.testbit_eqb by lia. rewrite (Z.rem_mul_r (b / 2 ^ k) 2 (2 ^ Z.of_nat n)) by lia. destruct ((b / 2 ^ k) mod 2 =? 1) eqn:Q; lia. }
  change (bits_value (data_bits 8 b)) with (bits_value (map (fun i => Z.testbit b (Z.of_nat i)) (seq (Z.to_nat 0) 8))). rewrite G by lia. cbn [Z.pow Z.of_nat]. rewrite Z.div_1_r. unfold byte in H. change (2 ^ Z.of_nat 8) with 256. lia.
Qed.
Lemma ones_app a b : ones (a ++ b) = xorb (ones a) (ones b).
Proof. unfold ones. induction a as [|x a IH]; cbn [app fold_right]; [destruct (fold_right xorb false b); reflexivity|]. rewrite IH. symmetry. apply xorb_assoc. Qed.

Lemma u8_id b : byte b -> u8 b = b.
Proof. unfold byte, u8. lia. Qed.
Lemma one_char a b x l : byte x -> exists c, rx_bits (modbus_format b) RHunt (char_on_line (modbus_format a) x ++ l) = (let '(s, cs) := rx_bits (modbus_format b) RHunt l in (s, c :: cs)) /\
  stored c = x /\ (a = b -> c_pe c = false /\ c_fe c = false).
Proof.
  intros H. unfold char_on_line. cbn [modbus_format]. set (d := data_bits 8 x).
  assert (V : bits_value d = x) by (apply data_value; auto). assert (Ld : length d = 8%nat) by apply data_bits_len.
  assert (V9 : forall y, u8 (bits_value (d ++ [y])) = x) by (intros y; rewrite value_app, V, Ld; cbn [bits_value Z.of_nat]; change (2 ^ Z.of_nat 8) with 256; unfold u8, byte in *; destruct y; lia).
  assert (Low : forall f, rx_bits f RLow (true :: l) = rx_bits f RHunt l) by (intros f; cbn [rx_bits rx_bit]; destruct (rx_bits f RHunt l); reflexivity).
  assert (Hun : forall f, rx_bits f RHunt (true :: l) = rx_bits f RHunt l) by (intros f; cbn [rx_bits rx_bit]; destruct (rx_bits f RHunt l); reflexivity).
  destruct b.
  - (* the receiver takes the bit after the data for a stop bit *)
    assert (Q : exists y, char_on_line (modbus_format a) x = [false] ++ d ++ [y] ++ [true] /\ (a = NONE -> y = true)) by (unfold char_on_line; destruct a; cbn [modbus_format f_data f_parity f_stop2]; fold d; eexists; (split; [reflexivity|]); congruence).
    destruct Q as (y & Q & Qn). unfold char_on_line in Q. rewrite Q. rewrite <- !app_assoc, rx_char by (rewrite Ld; reflexivity).
    exists (mk_rchar d (perr (modbus_format NONE) d) (negb y)). split; [|split; [unfold stored, rdr; cbn [c_word]; rewrite V; apply u8_id; auto|intros ->; cbn [c_pe c_fe]; rewrite (Qn eq_refl); auto]].
    cbn [app]. destruct y; [rewrite Hun|rewrite Low]; reflexivity.
  - assert (Q : exists y, char_on_line (modbus_format a) x = [false] ++ (d ++ [y]) ++ [true] ++ [] /\ (a = ODD -> y = xorb true (ones d))) by (unfold char_on_line; destruct a; cbn [modbus_format f_data f_parity f_stop2]; fold d; eexists; (split; [rewrite <- app_assoc; reflexivity|]); congruence).
    destruct Q as (y & Q & Qn). unfold char_on_line in Q. rewrite Q. replace (([false] ++ (d ++ [y]) ++ [true] ++ []) ++ l) with ([false] ++ (d ++ [y]) ++ [true] ++ l) by (rewrite <- !app_assoc; reflexivity). rewrite rx_char by (rewrite app_length, Ld; reflexivity).
    eexists. split; [reflexivity|]. split; [apply V9|]. intros E. cbn [c_pe c_fe]. split; auto. unfold perr. cbn [f_parity modbus_format]. rewrite ones_app, (Qn E). cbn [ones fold_right]. destruct (ones d); reflexivity.
  - assert (Q : exists y, char_on_line (modbus_format a) x = [false] ++ (d ++ [y]) ++ [true] ++ [] /\ (a = EVEN -> y = xorb false (ones d))) by (unfold char_on_line; destruct a; cbn [modbus_format f_data f_parity f_stop2]; fold d; eexists; (split; [rewrite <- app_assoc; reflexivity|]); congruence).
    destruct Q as (y & Q & Qn). unfold char_on_line in Q. rewrite Q. replace (([false] ++ (d ++ [y]) ++ [true] ++ []) ++ l) with ([false] ++ (d ++ [y]) ++ [true] ++ l) by (rewrite <- !app_assoc; reflexivity). rewrite rx_char by (rewrite app_length, Ld; reflexivity).
    eexists. split; [reflexivity|]. split; [apply V9|]. intros E. cbn [c_pe c_fe]. split; auto. unfold perr. cbn [f_parity modbus_format]. rewrite ones_app, (Qn E). cbn [ones fold_right]. destruct (ones d); reflexivity.
Qed.
(** whatever is sent arrives, byte for byte, for every pair of settings (the receiver's error flags are not looked at); with equal settings no error flag is set *)
Theorem C82_bytes_arrive : forall baud pa pb p q l, baud_ok baud -> line_up baud pa p -> line_up baud pb q -> Forall (fun x => byte (snd x)) l ->
  map stored (received (format_of q) (on_the_line (format_of p) l)) = map snd l /\
  (pa = pb -> forallb (fun c => negb (c_pe c || c_fe c)) (received (format_of q) (on_the_line (format_of p) l)) = true).
Proof.
  intros baud pa pb p q l Hb Hp Hq Hl. unfold baud_ok in Hb.
  destruct (C81_settings_partial baud pa ltac:(lia)) as (p' & Hp' & Fp & _). unfold line_up in Hp, Hp'. rewrite Hp in Hp'. inversion Hp'; subst p'.
  destruct (C81_settings_partial baud pb ltac:(lia)) as (q' & Hq' & Fq & _). unfold line_up in Hq, Hq'. rewrite Hq in Hq'. inversion Hq'; subst q'. rewrite Fp, Fq. clear - Hl. unfold received.
  induction Hl as [|[k x] l Hx Hl IH]; [split; reflexivity|]. unfold on_the_line. cbn [flat_map fst snd]. fold (on_the_line (modbus_format pa) l). rewrite <- app_assoc, rx_app, rx_idle.
  destruct (one_char pa pb x (on_the_line (modbus_format pa) l) Hx) as (c & -> & Sc & Ec). destruct (rx_bits (modbus_format pb) RHunt (on_the_line (modbus_format pa) l)) as [s cs]. cbn [snd app] in *. destruct IH as [I1 I2].
  split; [cbn [map snd]; rewrite Sc, I1; reflexivity|]. intros E. cbn [forallb]. destruct (Ec E) as [-> ->]. rewrite (I2 E). reflexivity.
Qed.
Print Assumptions C82_bytes_arrive.
(** the settings of the two example applications differ (master ODD, slave NONE); the slave's receiver reports framing errors, nobody looks at them *)
Example C82_case : exists p q, line_up 115200 ODD p /\ line_up 115200 NONE q /\
  map stored (received (format_of q) (on_the_line (format_of p) [(5%nat, 1); (0%nat, 5); (2%nat, 255)])) = [1; 5; 255] /\
  map c_fe (received (format_of q) (on_the_line (format_of p) [(5%nat, 1); (0%nat, 5); (2%nat, 255)])) = [true; false; false].
Proof. do 2 eexists. split; [vm_compute; reflexivity|]. split; [vm_compute; reflexivity|]. vm_compute. auto. Qed.

(** ** C83: damaged characters *)
(** every parity bit may be wrong: the bytes stored are the same *)
Theorem C83_parity_ignored : forall par l xs, par <> NONE -> bytes l -> length xs = length l ->
  map stored (received (modbus_format par) (flat_map (fun x => char_with_parity (fst x) (snd x)) (combine xs l))) = l /\
  map c_pe (received (modbus_format par) (flat_map (fun x => char_with_parity (fst x) (snd x)) (combine xs l))) =
    map (fun x => negb (Bool.eqb (fst x) (xorb (match par with ODD => true | _ => false end) (ones (data_bits 8 (snd x)))))) (combine xs l).
Proof.
  intros par l xs Hp Hl. revert xs. unfold received. induction Hl as [|b l Hb Hl IH]; intros xs L; [destruct xs; [split; reflexivity|discriminate]|]. destruct xs as [|x xs]; [discriminate|]. injection L as L. destruct (IH xs L) as [I1 I2]. clear IH.
  cbn [combine flat_map fst snd]. unfold char_with_parity at 1 3. set (rest := flat_map _ _) in *. set (d := data_bits 8 b).
  replace (([false] ++ d ++ [x] ++ [true]) ++ rest) with ([false] ++ (d ++ [x]) ++ [true] ++ rest) by (rewrite <- !app_assoc; reflexivity).
  rewrite rx_char by (rewrite app_length; unfold d; rewrite data_bits_len; destruct par; [congruence|reflexivity|reflexivity]). destruct (rx_bits (modbus_format par) RHunt rest) as [s cs]. cbn [snd map] in *. rewrite I1, I2.
  split; f_equal.
  - unfold stored, rdr. cbn [c_word]. rewrite value_app. unfold d at 1 2. rewrite data_value by auto. rewrite data_bits_len. change (2 ^ Z.of_nat 8) with 256. unfold u8, byte in *. cbn [bits_value]. destruct x; lia.
  - cbn [c_pe fst snd]. unfold perr. rewrite ones_app. fold d. clearbody d. destruct par; [congruence| |]; cbn [modbus_format f_parity]; destruct (ones d), x; reflexivity.
Qed.
Print Assumptions C83_parity_ignored.

(** with parity, the hardware notices any one wrong bit of a character (data, parity or stop bit) ... *)
Definition flip (i : nat) (l : list bool) : list bool := firstn i l ++ [negb (nth i l false)] ++ skipn (S i) l.
Lemma ones_flip i : forall l, (i < length l)%nat -> ones (flip i l) = negb (ones l).
Proof.
  induction i as [|i IH]; intros [|x l] H; cbn [length] in H; try lia.
  - cbn. destruct x, (fold_right xorb false l); reflexivity.
  - change (flip (S i) (x :: l)) with (x :: flip i l). change (xorb x (ones (flip i l)) = negb (xorb x (ones l))). rewrite IH by lia. destruct x, (ones l); reflexivity.
Qed.
Lemma flip_length i l : (i < length l)%nat -> length (flip i l) = length l.
Proof. intros H. unfold flip. rewrite !app_length, firstn_length, skipn_length. cbn [length]. lia. Qed.
Theorem C83_hardware_notices : forall par b i, par <> NONE -> byte b -> (1 <= i <= 10)%nat ->
  exists c, received (modbus_format par) (flip i (char_on_line (modbus_format par) b)) = [c] /\ (c_pe c || c_fe c) = true.
Proof.
  intros par b i Hp Hb Hi. set (d := data_bits 8 b). set (odd := match par with ODD => true | _ => false end).
  assert (E : char_on_line (modbus_format par) b = [false] ++ (d ++ [xorb odd (ones d)]) ++ [true] ++ []) by (destruct par; [congruence|reflexivity|reflexivity]). rewrite E. set (w := d ++ [xorb odd (ones d)]).
  assert (Lw : length w = 9%nat) by (unfold w, d; rewrite app_length, data_bits_len; reflexivity). assert (Wb : word_bits (modbus_format par) = 9%nat) by (destruct par; [congruence|reflexivity|reflexivity]).
  assert (Ow : ones w = odd) by (unfold w; rewrite ones_app; cbn [ones fold_right]; destruct odd, (ones d); reflexivity). unfold received.
  assert (Ci : i = 10%nat \/ (i - 1 < 9)%nat) by lia. destruct Ci as [-> |Ci].
  - assert (F : flip 10 ([false] ++ w ++ [true] ++ []) = [false] ++ w ++ [false] ++ []) by (unfold flip; clearbody w; do 10 (destruct w as [|? w]; try discriminate Lw); reflexivity).
    rewrite F, rx_char by congruence. cbn [rx_bits snd]. eexists. split; [reflexivity|]. cbn. apply orb_true_r.
  - assert (F : flip i ([false] ++ w ++ [true] ++ []) = [false] ++ flip (i - 1) w ++ [true] ++ []).
    { destruct i as [|i]; [lia|]. replace (S i - 1)%nat with i in * by lia. change (flip (S i) ([false] ++ w ++ [true] ++ [])) with (false :: flip i (w ++ [true])). cbn [app]. f_equal. unfold flip. rewrite firstn_app, skipn_app, app_nth1 by lia. replace (i - length w)%nat with 0%nat by lia. replace (S i - length w)%nat with 0%nat by lia. cbn [firstn skipn]. rewrite <- !app_assoc. reflexivity. }
    rewrite F, rx_char by (rewrite flip_length; lia). cbn [rx_bits snd]. eexists. split; [reflexivity|]. cbn [c_pe c_fe]. unfold perr. destruct par; [congruence| |]; cbn [modbus_format f_parity]; rewrite ones_flip by lia; rewrite Ow; reflexivity.
Qed.
Print Assumptions C83_hardware_notices.
(** ... but the driver does not: the wrong byte is stored like any other, no frame error is reported *)
Theorem C83_refuted : exists (c : rchar) (d d' : drv) o, byte 3 /\
  received (modbus_format EVEN) (flip 1 (char_on_line (modbus_format EVEN) 3)) = [c] /\ c_pe c = true /\ rr_ptr (d_rx d) = true /\ rr_len (d_rx d) = 0 /\
  usart_irq (mk_irq (Some (rdr c)) false false) d = Ok (d', o) /\ o = [] /\ rr_len (d_rx d') = 1 /\ nth 0 (rr_buf (d_rx d')) 0 = 2.
Proof.
  eexists. exists (mk_drv [0] 0 0 false false (mk_rr true (repeat 0 256) 0)). do 2 eexists. split; [unfold byte; lia|]. split; [vm_compute; reflexivity|]. split; [reflexivity|]. split; [reflexivity|]. split; [reflexivity|]. split; [vm_compute; reflexivity|]. vm_compute. auto.
Qed.
Print Assumptions C83_refuted.

(** ** C84: times *)
Lemma up_is baud par p : 2400 <= baud < 2 ^ 32 -> line_up baud par p -> BRR p = 64000000 / baud mod 65536 /\ RTOR p = rtor baud /\ T_PSC p = 63 /\ T_ARR p = arr baud.
Proof. intros Hb H. destruct (up_regs baud par Hb) as (c1 & c2 & E & _). unfold line_up in H. rewrite H in E. inversion E; subst. auto. Qed.
(** the bit rate is the one asked for, rounded up to a divisor of the clock: never slower, at most one clock per bit faster *)
Theorem C84_bit_rate : forall baud par p, baud_ok baud -> line_up baud par p -> 16 <= t_bit p < 65536 /\ t_bit p * baud <= 64000000 < (t_bit p + 1) * baud.
Proof.
  intros baud par p Hb H. unfold baud_ok in Hb. destruct (up_is baud par p ltac:(lia) H) as (B & _). unfold t_bit. rewrite B.
  assert (16 <= 64000000 / baud) by (apply Z.div_le_lower_bound; lia). assert (64000000 / baud < 65536) by (apply Z.div_lt_upper_bound; lia).
  rewrite Z.mod_small by lia. split; [lia|]. assert (X := Z.mul_div_le 64000000 baud ltac:(lia)). assert (Y := Z.mul_succ_div_gt 64000000 baud ltac:(lia)). lia.
Qed.
Print Assumptions C84_bit_rate.
Lemma arr_low baud : 2400 <= baud <= 19200 -> 38500000 < (arr baud + 1) * baud <= 77020800 /\ (baud mod 2400 = 0 -> (arr baud + 1) * baud <= 38520000).
Proof.
  intros H. unfold arr. replace (baud <=? 19200) with true by lia. set (q := baud / 2400). assert (Q : 2400 * q <= baud < 2400 * (q + 1)) by (unfold q; lia).
  assert (1 <= q <= 8) by lia. set (a := 16042 / q). assert (A : q * a <= 16042 < q * (a + 1)).
  { unfold a. assert (X := Z.mul_div_le 16042 q ltac:(lia)). assert (Y := Z.mul_succ_div_gt 16042 q ltac:(lia)). lia. }
  split; [split; nia|]. intros M. assert (baud = 2400 * q) by lia. nia.
Qed.
(** the pause that ends a frame: at least 3.5 characters (11 bits each) and at most 7.01, for multiples of 2400 bit/s at most 3.51; above 19200 bit/s at least 1750 microseconds, at most 1751 *)
Theorem C84_end_of_frame : forall baud par p, baud_ok baud -> line_up baud par p ->
  (baud <= 19200 -> 7 * 11 * 64000000 < 2 * (t_35 p * baud) /\ 100 * (t_35 p * baud) <= 701 * 11 * 64000000 /\ (baud mod 2400 = 0 -> 100 * (t_35 p * baud) <= 351 * 11 * 64000000) /\ 7 * 11 * t_bit p <= 2 * t_35 p) /\
  (19200 < baud -> 64 * 1750 <= t_35 p <= 64 * 1751).
Proof.
  intros baud par p Hb H. assert (Br := C84_bit_rate baud par p Hb H). unfold baud_ok in Hb. destruct (up_is baud par p ltac:(lia) H) as (B & R & P & A). unfold t_35. rewrite P, A. split; intros L.
  - destruct (arr_low baud ltac:(lia)) as [X Y]. split; [lia|]. split; [lia|]. split; [intros M; specialize (Y M); lia|]. destruct Br as (_ & Br & _). nia.
  - unfold arr. replace (baud <=? 19200) with false by lia. lia.
Qed.
Print Assumptions C84_end_of_frame.
Lemma rtor_up baud : 19200 < baud <= 4000000 -> 96000 * rtor baud <= 83 * baud /\ 0 < rtor baud < 2 ^ 24 /\ rtor baud = baud / 9600 * 83 / 10.
Proof. intros H. unfold rtor, u32. replace (baud <=? 19200) with false by lia. lia. Qed.
(** a gap inside a frame is noticed after at least 1.5 characters (up to 19200 bit/s) or 750 microseconds (above) *)
Theorem C84_gap_partial : forall baud par p, baud_ok baud -> line_up baud par p ->
  (baud <= 19200 -> 3 * 11 * t_bit p <= 2 * t_15 p) /\ (19200 < baud -> baud mod 9600 = 0 -> 64 * 750 <= t_15 p).
Proof.
  intros baud par p Hb H. assert (Br := C84_bit_rate baud par p Hb H). unfold baud_ok in Hb. destruct (up_is baud par p ltac:(lia) H) as (B & R & P & A). unfold t_15, t_bit in *. rewrite R. split; intros L.
  - unfold rtor. replace (baud <=? 19200) with true by lia. change (17 mod 2 ^ 24) with 17. lia.
  - intros M. destruct (rtor_up baud ltac:(lia)) as (X & Y & Z). rewrite Z.mod_small by lia. set (k := baud / 9600) in *. assert (K : baud = 9600 * k) by (unfold k; lia). assert (3 <= k <= 416) by lia.
    assert (R1 : 10 * rtor baud >= 83 * k - 9) by lia. destruct Br as (B1 & _ & B2). clear - K R1 B1 B2 H0. revert B1 B2 R1. generalize (rtor baud) (BRR p). intros r b B1 B2 R1. rewrite K in B2.
    assert (6666 * k * b >= 6666 * 6666 - 6666 * k) by nia. nia.
Qed.
Print Assumptions C84_gap_partial.
(** for all other baud rates it is noticed after at least 555.5 microseconds; that is the exact bound *)
Theorem C84_gap_all_rates : forall baud par p, baud_ok baud -> line_up baud par p -> 19200 < baud -> 2 * t_15 p >= 64 * 1111.
Proof.
  intros baud par p Hb H L. assert (Br := C84_bit_rate baud par p Hb H). unfold baud_ok in Hb. destruct (up_is baud par p ltac:(lia) H) as (B & R & P & A). unfold t_15, t_bit in *. rewrite R.
  destruct (rtor_up baud ltac:(lia)) as (X & Y & Z). rewrite Z.mod_small by lia. set (k := baud / 9600) in *. assert (K : 9600 * k <= baud < 9600 * (k + 1)) by (unfold k; lia). assert (K2 : 2 <= k <= 416) by lia.
  assert (R1 : 83 * k - 9 <= 10 * rtor baud <= 83 * k) by lia. destruct Br as (B1 & B0 & B2). clear - K R1 B1 B0 B2 K2 L. revert B1 B0 B2 R1. generalize (rtor baud) (BRR p). intros r b B1 B0 B2 R1.
  assert (C : k = 2 \/ k = 3 \/ 4 <= k) by lia. destruct C as [-> |[-> |C]].
  - assert (r = 16) by lia. assert (b >= 2222) by nia. lia.
  - assert (r = 24) by lia. assert (b >= 1666) by nia. lia.
  - assert (Q : (k + 1) * b >= 6666 - (k + 1)) by nia. assert ((k + 1) * b * (10 * r) >= (6665 - k) * (83 * k - 9)) by (apply Z.le_ge, Z.mul_le_mono_nonneg; lia).
    assert ((6665 - k) * (83 * k - 9) >= 355520 * (k + 1)) by nia. nia.
Qed.
Print Assumptions C84_gap_all_rates.
Theorem C84_refuted : exists p, baud_ok 28799 /\ line_up 28799 EVEN p /\ 2 * t_15 p = 64 * 1111 /\ t_15 p < 64 * 556.
Proof. eexists. split; [unfold baud_ok; lia|]. split; [vm_compute; reflexivity|]. split; reflexivity. Qed.
Print Assumptions C84_refuted.
(** the gap is signalled before the end of the frame, with two bits to spare *)
Theorem C84_gap_first : forall baud par p, baud_ok baud -> line_up baud par p -> 0 < t_15 p /\ t_15 p + 2 * t_bit p < t_35 p.
Proof.
  intros baud par p Hb H. assert (Br := C84_bit_rate baud par p Hb H). assert (E := C84_end_of_frame baud par p Hb H). unfold baud_ok in Hb. destruct (up_is baud par p ltac:(lia) H) as (B & R & P & A). unfold t_15, t_bit in *. rewrite R.
  destruct (Z.le_gt_cases baud 19200) as [L|L].
  - unfold rtor. replace (baud <=? 19200) with true by lia. change (17 mod 2 ^ 24) with 17. destruct E as [E _]. specialize (E L). lia.
  - destruct (rtor_up baud ltac:(lia)) as (X & Y & Z). rewrite Z.mod_small by lia. destruct E as [_ E]. specialize (E ltac:(lia)). destruct Br as (B1 & B2 & _). clear - X Y E B1 B2 L Hb. revert X Y E B1 B2. generalize (rtor baud) (BRR p) (t_35 p). intros r b t X Y E B1 B2.
    assert (b * 96000 * r <= 83 * 64000000) by nia. assert (b < 3334) by nia. nia.
Qed.
Print Assumptions C84_gap_first.
Example C84_case : exists p, line_up 115200 NONE p /\ t_bit p = 555 /\ t_15 p = 54945 /\ t_35 p = 112064.
Proof. eexists. split; [vm_compute; reflexivity|]. vm_compute. auto. Qed.
