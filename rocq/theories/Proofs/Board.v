(** C97, C98: bit arithmetic of the board set-up. *)
From Coq Require Import ZifyBool.
From Verif Require Import Spec.Board.
From Verif Require Export Model.Board.
Ltac Zify.zify_post_hook ::= Z.to_euclidean_division_equations.
Lemma bits2 w p : 0 <= p -> bits w p 2 = Z.b2z (Z.testbit w p) + 2 * Z.b2z (Z.testbit w (p + 1)).
Proof.
  intros Hp. unfold bits. change (2 ^ 2 - 1) with (Z.ones 2). rewrite Z.land_ones, Z.shiftr_div_pow2 by lia. rewrite !Z.testbit_spec' by lia.
  rewrite Z.pow_add_r, <- Z.div_div by lia. change (2 ^ 1) with 2. change (2 ^ 2) with 4. generalize (w / 2 ^ p). intros. lia.
Qed.
Lemma bits4 w p : 0 <= p -> bits w p 4 = bits w p 2 + 4 * bits w (p + 2) 2.
Proof.
  intros Hp. unfold bits. change (2 ^ 4 - 1) with (Z.ones 4). change (2 ^ 2 - 1) with (Z.ones 2). rewrite !Z.land_ones, !Z.shiftr_div_pow2 by lia.
  rewrite Z.pow_add_r, <- Z.div_div by lia. change (2 ^ 4) with 16. change (2 ^ 2) with 4. generalize (w / 2 ^ p). intros. lia.
Qed.
Lemma tb_u32 w i : 0 <= i < 32 -> Z.testbit (u32 w) i = Z.testbit w i.
Proof. intros. unfold u32. change 4294967296 with (2 ^ 32). apply Z.mod_pow2_bits_low. lia. Qed.
Lemma tb_u32_high w i : 32 <= i -> Z.testbit (u32 w) i = false.
Proof. intros. unfold u32. change 4294967296 with (2 ^ 32). apply Z.mod_pow2_bits_high. lia. Qed.
Lemma tb_lnot w i : 0 <= i -> Z.testbit (Z.lnot w) i = negb (Z.testbit w i). Proof. apply Z.lnot_spec. Qed.
Lemma tb_neg w i : i < 0 -> Z.testbit w i = false. Proof. intros. now apply Z.testbit_neg_r. Qed.
(** testbit of a register expression at a literal position *)
Ltac tb1 := first
  [ rewrite tb_u32 by lia | rewrite Z.lor_spec | rewrite Z.land_spec | rewrite tb_lnot by lia | rewrite Z.shiftl_spec by lia | rewrite tb_neg by lia ].
(** literals *)
Ltac lit := repeat match goal with
  | |- context [Z.testbit (Zpos ?a) ?i] => let v := eval compute in (Z.testbit (Zpos a) i) in lazymatch v with true => idtac | false => idtac end; change (Z.testbit (Zpos a) i) with v
  | |- context [Z.testbit 0 ?i] => rewrite (Z.testbit_0_l i) end.
Ltac bools := rewrite ?andb_true_r, ?andb_false_r, ?orb_true_r, ?orb_false_r, ?andb_true_l, ?andb_false_l, ?orb_true_l, ?orb_false_l; cbn [negb].
Ltac tb := repeat tb1; lit; bools.

(** ** the NVIC's priority bytes *)
Lemma shift_of n : 0 <= n -> n < 2 ^ 32 -> BIT_SHIFT n = 8 * (n mod 4).
Proof. intros H H'. unfold BIT_SHIFT. change 3 with (Z.ones 2). rewrite Z.land_ones by lia. unfold u32. change (2 ^ 2) with 4. rewrite (Z.mod_small n) by lia. lia. Qed.
Lemma idx_of n : 0 <= n < 2 ^ 32 -> IP_IDX n = n / 4.
Proof. intros H. unfold IP_IDX. rewrite Z.shiftr_div_pow2 by lia. unfold u32. rewrite Z.mod_small by lia. reflexivity. Qed.
Definition at_shift (old s prio : Z) : Z := Z.lor (old &~ u32 (Z.shiftl 0xFF s)) (u32 (Z.shiftl (Z.land (u32 (Z.shiftl prio (8 - 2))) 0xFF) s)).
Lemma prio_byte old k j prio : 0 <= k < 4 -> 0 <= j < 4 ->
  bits (Z.land (u32 (at_shift old (8 * k) prio)) PRIO_implemented) (8 * j + 6) 2 = if j =? k then prio mod 4 else bits old (8 * j + 6) 2.
Proof.
  intros Hk Hj. assert (P : prio mod 4 = bits prio 0 2) by (unfold bits; change (2 ^ 2 - 1) with (Z.ones 2); now rewrite Z.land_ones, Z.shiftr_0_r by lia).
  rewrite P. unfold at_shift, PRIO_implemented.
  assert (K : k = 0 \/ k = 1 \/ k = 2 \/ k = 3) by lia. assert (J : j = 0 \/ j = 1 \/ j = 2 \/ j = 3) by lia.
  destruct K as [->|[->|[->| ->]]], J as [->|[->|[->| ->]]]; cbn [Z.eqb Pos.eqb]; rewrite !bits2 by lia;
    (match goal with |- context [Z.mul 8 ?a] => idtac | _ => idtac end);
    cbn [Z.mul Z.add Z.sub Z.opp Pos.mul Pos.add Pos.succ Z.pos_sub Pos.pred_double Z.pred_double Z.succ_double Z.double Pos.add_carry];
    tb; try reflexivity.
Qed.
Lemma tb_at (b : board) w i : 0 <= i < 32 -> Z.testbit (u32 (w |' Z.shiftl 1 i)) i = true.
Proof. intros. tb1. rewrite Z.lor_spec, Z.shiftl_spec, Z.sub_diag by lia. now rewrite orb_true_r. Qed.
Lemma set_prio_irq n prio b m : 0 <= n < 32 -> 0 <= m < 32 -> irq_prio (NVIC_SetPriority n prio b) m = if m =? n then prio mod 4 else irq_prio b m.
Proof.
  intros Hn Hm. unfold irq_prio, NVIC_SetPriority. replace (0 <=? n) with true by lia. unfold set_IP, upd. cbn [IP]. rewrite idx_of by lia.
  change (prio_word (IP b (n / 4)) n prio) with (at_shift (IP b (n / 4)) (BIT_SHIFT n) prio). rewrite shift_of by lia.
  destruct (m / 4 =? n / 4) eqn:E.
  - rewrite prio_byte by lia. replace (m mod 4 =? n mod 4) with (m =? n) by lia. destruct (m =? n) eqn:E2; auto. now replace (m / 4) with (n / 4) by lia.
  - now replace (m =? n) with false by lia.
Qed.
Lemma set_prio_tick prio b : tick_prio (NVIC_SetPriority SysTick_IRQn prio b) = prio mod 4 /\ (forall m, irq_prio (NVIC_SetPriority SysTick_IRQn prio b) m = irq_prio b m).
Proof.
  unfold tick_prio, NVIC_SetPriority, set_SHP, irq_prio, upd. cbn [Z.leb Z.compare SysTick_IRQn SHP IP]. split; [|reflexivity].
  change (SHP_IDX (-1)) with 1. cbn [Z.eqb Pos.eqb]. change (prio_word (SHP b 1) SysTick_IRQn prio) with (at_shift (SHP b 1) (8 * 3) prio).
  exact (prio_byte (SHP b 1) 3 3 prio ltac:(lia) ltac:(lia)).
Qed.
Lemma enable_irq n b m : 0 <= n < 32 -> 0 <= m < 32 -> irq_enabled (NVIC_EnableIRQ n b) m = (m =? n) || irq_enabled b m.
Proof.
  intros Hn Hm. unfold irq_enabled, NVIC_EnableIRQ. replace (0 <=? n) with true by lia. unfold set_ISER. cbn [ISER]. rewrite Z.lor_spec, !tb_u32 by lia.
  change 31 with (Z.ones 5). rewrite Z.land_ones by lia. unfold u32. change (2 ^ 5) with 32. rewrite (Z.mod_small n 4294967296), (Z.mod_small n 32) by lia. rewrite Z.shiftl_spec by lia.
  destruct (m =? n) eqn:E; [replace (m - n) with 0 by lia; cbn; now rewrite orb_true_r|]. destruct (Z.ltb_spec (m - n) 0); [rewrite (Z.testbit_neg_r 1 (m - n)) by lia; now rewrite orb_false_r|].
  replace (Z.testbit 1 (m - n)) with false; [now rewrite orb_false_r|]. symmetry. apply Z.bits_above_log2; cbn; lia.
Qed.

(** ** the sequence of the driver's writes *)
Lemma gpio_eq b : exists m a,
  USART_GPIO_init b = mk_board (u32 (IOPENR b |' GPIOAEN)) (APBENR1 b) (APBENR2 b) m a (ODR b) (CFGR1 b) (ISER b) (IP b) (SHP b) (io b) /\
  m = u32 (u32 (MODER b &~ (MODE2 |' MODE3 |' MODE1)) |' (MODE2_1 |' MODE3_1 |' MODE1_1)) /\
  a = u32 (u32 (AFRL b &~ (AFSEL2 |' AFSEL2 |' AFSEL1)) |' (AFSEL2_0 |' AFSEL3_0 |' AFSEL1_0)).
Proof.
  do 2 eexists. split; [|split; reflexivity]. unfold USART_GPIO_init, set_IOPENR. set (w := u32 (IOPENR b |' GPIOAEN)).
  assert (W : Z.testbit w 0 = true) by (exact (tb_at b (IOPENR b) 0 ltac:(lia))).
  unfold set_MODER, set_AFRL, clocked_A. cbn [IOPENR]. rewrite !W. cbn [IOPENR MODER]. rewrite !W. cbn [IOPENR MODER AFRL]. rewrite !W. cbn [IOPENR MODER AFRL]. rewrite !W. cbn [IOPENR APBENR1 APBENR2 MODER AFRL ODR CFGR1 ISER IP SHP io]. reflexivity.
Qed.
Lemma led_eq b : LED_init b = mk_board (u32 (IOPENR b |' GPIOAEN)) (APBENR1 b) (APBENR2 b) (u32 (u32 (MODER b &~ MODE5) |' MODE5_0)) (AFRL b) (ODR b) (CFGR1 b) (ISER b) (IP b) (SHP b) (io b).
Proof.
  unfold LED_init, set_IOPENR. set (w := u32 (IOPENR b |' GPIOAEN)).
  assert (W : Z.testbit w 0 = true) by (exact (tb_at b (IOPENR b) 0 ltac:(lia))).
  unfold set_MODER, clocked_A. cbn [IOPENR]. rewrite !W. cbn [IOPENR MODER]. rewrite !W. reflexivity.
Qed.
Lemma head_eq b : exists c sp,
  core_init_head b = mk_board (IOPENR b) (APBENR1 b) (u32 (u32 (APBENR2 b |' SYSCFGEN) |' APBENR1_PWREN)) (MODER b) (AFRL b) (ODR b) c (ISER b) (IP b) sp (io b) /\
  c = u32 (CFGR1 b |' (UCPD1_STROBE |' UCPD2_STROBE)) /\ sp = upd (SHP b) 1 (Z.land (u32 (at_shift (SHP b 1) (8 * 3) 3)) PRIO_implemented).
Proof.
  do 2 eexists. split; [|split; reflexivity]. unfold core_init_head, set_APBENR2, NVIC_SetPriority, set_SHP, set_CFGR1. cbn [Z.leb Z.compare SysTick_IRQn IOPENR APBENR1 APBENR2 MODER AFRL ODR CFGR1 ISER IP SHP io].
  change (SHP_IDX (-1)) with 1. replace (Z.testbit (u32 (u32 (APBENR2 b |' SYSCFGEN) |' APBENR1_PWREN)) 0) with true; [reflexivity|]. unfold SYSCFGEN, APBENR1_PWREN. now tb.
Qed.
Lemma init_eq baud par b b' : driver_init baud par b = Ok b' ->
  usart_init baud par (io b) = Ok (io b') /\
  b' = NVIC_EnableIRQ TIM7_IRQn (NVIC_SetPriority TIM7_IRQn 10 (NVIC_EnableIRQ USART2_IRQn (NVIC_SetPriority USART2_IRQn 10
         (set_io (set_APBENR1 (USART_GPIO_init b) (u32 (APBENR1 b |' USART2EN) |' TIM7EN)) (io b'))))).
Proof.
  unfold driver_init. destruct (gpio_eq b) as (m & a & G & _). intros H.
  assert (E1 : io (USART_GPIO_init b) = io b) by now rewrite G. assert (E2 : APBENR1 (USART_GPIO_init b) = APBENR1 b) by now rewrite G.
  set (g := USART_GPIO_init b) in *. clearbody g. unfold USART_module_config_b, on_periph in H. cbn [io set_APBENR1] in H. rewrite E1, E2 in H.
  unfold usart_init. destruct (USART_module_config baud par (io b)) as [p| |] eqn:C; try discriminate. cbn [bind] in *.
  cbn [APBENR1 set_APBENR1] in H. replace (Z.testbit (u32 (APBENR1 b |' USART2EN)) 17) with true in H by (unfold USART2EN; now tb).
  unfold TIMER7_init_b, on_periph, USART_set_and_enable_interrupts in H.
  set (b1 := set_io (set_APBENR1 g (APBENR1 b |' USART2EN)) p) in H.
  assert (Eio : io (NVIC_EnableIRQ USART2_IRQn (NVIC_SetPriority USART2_IRQn 10 b1)) = p) by reflexivity.
  assert (Eap : APBENR1 (NVIC_EnableIRQ USART2_IRQn (NVIC_SetPriority USART2_IRQn 10 b1)) = u32 (APBENR1 b |' USART2EN)) by reflexivity.
  rewrite Eap in H. change (io (set_APBENR1 (NVIC_EnableIRQ USART2_IRQn (NVIC_SetPriority USART2_IRQn 10 b1)) (u32 (APBENR1 b |' USART2EN) |' TIM7EN))) with p in H.
  destruct (TIMER7_init baud p) as [q| |] eqn:T; try discriminate. cbn [bind] in *.
  cbn [APBENR1 set_APBENR1] in H. replace (Z.testbit (u32 (u32 (APBENR1 b |' USART2EN) |' TIM7EN)) 5) with true in H by (unfold USART2EN, TIM7EN; now tb).
  assert (H' : b' = NVIC_EnableIRQ TIM7_IRQn (NVIC_SetPriority TIM7_IRQn 10 (set_io (set_APBENR1 (NVIC_EnableIRQ USART2_IRQn (NVIC_SetPriority USART2_IRQn 10 b1)) (u32 (APBENR1 b |' USART2EN) |' TIM7EN)) q))) by congruence.
  clear H. split; [now rewrite H'|]. assert (Q : io b' = q) by now rewrite H'. rewrite Q, H'. unfold b1. reflexivity.
Qed.
Lemma init_ok baud par b : 2400 <= baud < 2 ^ 32 -> exists b', driver_init baud par b = Ok b'.
Proof.
  intros Hb. unfold driver_init, USART_module_config_b, TIMER7_init_b, on_periph, USART_module_config, TIMER7_init.
  replace (baud =? 0) with false by lia.
  assert (R : exists r, get_RTOR_value baud = Ok r) by (unfold get_RTOR_value; destruct (baud <=? 19200); [|destruct (16777215 <? _)]; eauto). destruct R as (r & ->).
  assert (A : exists r, get_ARR_value baud = Ok r) by (unfold get_ARR_value; destruct (baud <=? 19200); [replace (baud / 2400 =? 0) with false by lia|]; eauto). destruct A as (a & ->).
  cbn [bind]. eexists. reflexivity.
Qed.
