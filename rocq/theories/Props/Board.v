(** C97-C99: the examples' board set-up. *)
From Coq Require Import ZifyBool.
From Verif Require Import Spec.Board Spec.Line Proofs.Board.
Ltac Zify.zify_post_hook ::= Z.to_euclidean_division_equations.

Ltac masks := unfold GPIOAEN, TIM7EN, USART2EN, APBENR1_PWREN, SYSCFGEN, MODE1, MODE1_1, MODE2, MODE2_1, MODE3, MODE3_1, MODE5, MODE5_0, AFSEL1, AFSEL1_0, AFSEL2, AFSEL2_0, AFSEL3_0, OD5, UCPD1_STROBE, UCPD2_STROBE in *.
Ltac nums := cbn [Z.mul Z.add Pos.mul Pos.add Pos.succ Pos.add_carry].
(** literal values of n from 0 to 15 *)
Lemma upto16 (P : Z -> Prop) : P 0 -> P 1 -> P 2 -> P 3 -> P 4 -> P 5 -> P 6 -> P 7 -> P 8 -> P 9 -> P 10 -> P 11 -> P 12 -> P 13 -> P 14 -> P 15 -> forall n, 0 <= n < 16 -> P n.
Proof. intros. assert (D : n = 0 \/ n = 1 \/ n = 2 \/ n = 3 \/ n = 4 \/ n = 5 \/ n = 6 \/ n = 7 \/ n = 8 \/ n = 9 \/ n = 10 \/ n = 11 \/ n = 12 \/ n = 13 \/ n = 14 \/ n = 15) by lia. repeat destruct D as [->|D]; subst; auto. Qed.
Lemma upto8 (P : Z -> Prop) : P 0 -> P 1 -> P 2 -> P 3 -> P 4 -> P 5 -> P 6 -> P 7 -> forall n, 0 <= n < 8 -> P n.
Proof. intros. assert (D : n = 0 \/ n = 1 \/ n = 2 \/ n = 3 \/ n = 4 \/ n = 5 \/ n = 6 \/ n = 7) by lia. repeat destruct D as [->|D]; subst; auto. Qed.

(** ** C97: the driver's initialisation *)
Lemma fields baud par b b' : driver_init baud par b = Ok b' ->
  IOPENR b' = u32 (IOPENR b |' GPIOAEN) /\ APBENR1 b' = u32 (u32 (APBENR1 b |' USART2EN) |' TIM7EN) /\ APBENR2 b' = APBENR2 b /\
  MODER b' = u32 (u32 (MODER b &~ (MODE2 |' MODE3 |' MODE1)) |' (MODE2_1 |' MODE3_1 |' MODE1_1)) /\
  AFRL b' = u32 (u32 (AFRL b &~ (AFSEL2 |' AFSEL2 |' AFSEL1)) |' (AFSEL2_0 |' AFSEL3_0 |' AFSEL1_0)) /\
  ODR b' = ODR b /\ CFGR1 b' = CFGR1 b /\ SHP b' = SHP b.
Proof.
  intros H. destruct (init_eq _ _ _ _ H) as (_ & ->). destruct (gpio_eq b) as (m & a & G & -> & ->). rewrite G. repeat split.
Qed.
Lemma modes_after b b' n : MODER b' = u32 (u32 (MODER b &~ (MODE2 |' MODE3 |' MODE1)) |' (MODE2_1 |' MODE3_1 |' MODE1_1)) -> 0 <= n < 16 ->
  pin_mode b' n = if (1 <=? n) && (n <=? 3) then 2 else pin_mode b n.
Proof.
  intros E. unfold pin_mode. rewrite E. masks. revert n. refine (upto16 _ _ _ _ _ _ _ _ _ _ _ _ _ _ _ _ _); nums; cbn [Z.leb Z.compare Pos.compare Pos.compare_cont andb]; rewrite !bits2 by lia; nums; tb; reflexivity.
Qed.
Lemma afs_after b b' n : AFRL b' = u32 (u32 (AFRL b &~ (AFSEL2 |' AFSEL2 |' AFSEL1)) |' (AFSEL2_0 |' AFSEL3_0 |' AFSEL1_0)) -> 0 <= n < 8 ->
  pin_af b' n = if n =? 3 then pin_af b n - pin_af b n mod 2 + 1 else if (1 <=? n) && (n <=? 2) then 1 else pin_af b n.
Proof.
  intros E. unfold pin_af. rewrite E. masks. revert n. refine (upto8 _ _ _ _ _ _ _ _ _); nums; cbn [Z.leb Z.eqb Pos.eqb Z.compare Pos.compare Pos.compare_cont andb]; rewrite !bits4 by lia; rewrite !bits2 by lia; nums; tb; try reflexivity.
  repeat match goal with |- context [Z.testbit ?w ?i] => generalize (Z.testbit w i); intros [|] end; reflexivity.
Qed.
Lemma enabled_set a p x n : irq_enabled (NVIC_SetPriority a p x) n = irq_enabled x n.
Proof. unfold NVIC_SetPriority. destruct (0 <=? a); reflexivity. Qed.
Lemma prio_enable a x n : irq_prio (NVIC_EnableIRQ a x) n = irq_prio x n.
Proof. unfold NVIC_EnableIRQ. destruct (0 <=? a); reflexivity. Qed.
Lemma irqs baud par b b' : driver_init baud par b = Ok b' -> forall n, 0 <= n < 32 ->
  irq_enabled b' n = (n =? 18) || (n =? 28) || irq_enabled b n /\ irq_prio b' n = (if (n =? 18) || (n =? 28) then 2 else irq_prio b n).
Proof.
  intros H n Hn. destruct (init_eq _ _ _ _ H) as (_ & E). rewrite E. unfold TIM7_IRQn, USART2_IRQn.
  set (c := set_io _ _). assert (Ce : ISER c = ISER b /\ IP c = IP b) by (unfold c; destruct (gpio_eq b) as (m & a & G & _); now rewrite G). clearbody c.
  split.
  - rewrite enable_irq, enabled_set, enable_irq, enabled_set by lia. unfold irq_enabled. rewrite (proj1 Ce). now rewrite orb_assoc.
  - rewrite prio_enable, set_prio_irq, prio_enable, set_prio_irq by lia. change (10 mod 4) with 2. unfold irq_prio. rewrite (proj2 Ce). destruct (n =? 18), (n =? 28); reflexivity.
Qed.
(** whatever the state of the board, if the alternate function of PA3 is still 0 (its reset value) or already 1 *)
Theorem C97_driver_board_partial : forall baud par b b', driver_init baud par b = Ok b' -> pin_af b 3 = 0 \/ pin_af b 3 = 1 ->
  Z.testbit (IOPENR b') 0 = true /\ Z.testbit (APBENR1 b') 17 = true /\ Z.testbit (APBENR1 b') 5 = true /\ (* clocks of port A, USART2, TIM7 *)
  is_USART2_pin b' 1 /\ is_USART2_pin b' 2 /\ is_USART2_pin b' 3 /\
  irq_enabled b' 28 = true /\ irq_enabled b' 18 = true /\
  usart_init baud par (io b) = Ok (io b'). (* the settings of C81-C84 reach the peripherals *)
Proof.
  intros baud par b b' H A. destruct (fields _ _ _ _ H) as (F1 & F2 & F3 & F4 & F5 & F6 & F7 & F8). pose proof (irqs _ _ _ _ H) as I.
  unfold is_USART2_pin. rewrite !(modes_after b b') by (auto; lia). rewrite !(afs_after b b') by (auto; lia). cbn [Z.leb Z.eqb Pos.eqb Z.compare Pos.compare Pos.compare_cont andb].
  assert (P3 : pin_af b 3 - pin_af b 3 mod 2 + 1 = 1) by (destruct A as [-> | ->]; reflexivity).
  rewrite F1, F2, (proj1 (I 28 ltac:(lia))), (proj1 (I 18 ltac:(lia))). masks.
  split; [now tb|]. split; [now tb|]. split; [now tb|]. split; [now split|]. split; [now split|]. split; [now split|]. split; [reflexivity|]. split; [reflexivity|]. exact (proj1 (init_eq _ _ _ _ H)).
Qed.
Print Assumptions C97_driver_board_partial.
Theorem C97_defined : forall baud par b, 2400 <= baud < 2 ^ 32 -> exists b', driver_init baud par b = Ok b'.
Proof. exact init_ok. Qed.
Print Assumptions C97_defined.
(** nothing else on the board changes *)
Theorem C97_rest : forall baud par b b', driver_init baud par b = Ok b' -> words b ->
  (forall n, 0 <= n < 16 -> n <> 1 -> n <> 2 -> n <> 3 -> pin_mode b' n = pin_mode b n) /\
  (forall n, 0 <= n < 8 -> n <> 1 -> n <> 2 -> n <> 3 -> pin_af b' n = pin_af b n) /\
  (forall n, 0 <= n < 32 -> n <> 18 -> n <> 28 -> irq_enabled b' n = irq_enabled b n /\ irq_prio b' n = irq_prio b n) /\
  (forall i, 0 <= i -> i <> 0 -> Z.testbit (IOPENR b') i = Z.testbit (IOPENR b) i) /\
  (forall i, 0 <= i -> i <> 5 -> i <> 17 -> Z.testbit (APBENR1 b') i = Z.testbit (APBENR1 b) i) /\
  APBENR2 b' = APBENR2 b /\ ODR b' = ODR b /\ CFGR1 b' = CFGR1 b /\ tick_prio b' = tick_prio b.
Proof.
  intros baud par b b' H W. destruct (fields _ _ _ _ H) as (F1 & F2 & F3 & F4 & F5 & F6 & F7 & F8). pose proof (irqs _ _ _ _ H) as I.
  assert (Hi : forall w i, word w -> 32 <= i -> Z.testbit w i = false).
  { intros w i (A & B) L. destruct (Z.eq_dec w 0) as [->|]; [apply Z.testbit_0_l|]. apply Z.bits_above_log2; [auto|]. assert (Z.log2 w < 32) by (apply Z.log2_lt_pow2; lia). lia. }
  assert (one : forall k i, 0 <= k -> 0 <= i -> i <> k -> Z.testbit (2 ^ k) i = false) by (intros; apply Z.pow2_bits_false; lia).
  destruct W as (W1 & W2 & _).
  split; [|split; [|split; [|split; [|split]]]].
  - intros n Hn N1 N2 N3. rewrite (modes_after b b') by (auto; lia). replace ((1 <=? n) && (n <=? 3)) with false by lia. reflexivity.
  - intros n Hn N1 N2 N3. rewrite (afs_after b b') by (auto; lia). replace (n =? 3) with false by lia. replace ((1 <=? n) && (n <=? 2)) with false by lia. reflexivity.
  - intros n Hn N1 N2. destruct (I n Hn) as (-> & ->). replace ((n =? 18) || (n =? 28)) with false by lia. auto.
  - intros i Hi0 N. rewrite F1. destruct (Z.ltb_spec i 32).
    + rewrite tb_u32, Z.lor_spec by lia. change GPIOAEN with (2 ^ 0). rewrite one by lia. apply orb_false_r.
    + rewrite tb_u32_high by lia. symmetry. now apply Hi.
  - intros i Hi0 N5 N17. rewrite F2. destruct (Z.ltb_spec i 32).
    + rewrite tb_u32, Z.lor_spec, tb_u32, Z.lor_spec by lia. change USART2EN with (2 ^ 17). change TIM7EN with (2 ^ 5). rewrite !one by lia. now rewrite !orb_false_r.
    + rewrite tb_u32_high by lia. symmetry. now apply Hi.
  - unfold tick_prio. rewrite F8. auto.
Qed.
Print Assumptions C97_rest.
(** PA3's alternate function is not cleared before it is set (the mask of PA2 is named twice): from 2, it becomes 3, and the pin is not USART2's RX *)
Theorem C97_refuted_rx_pin : forall baud par b b', driver_init baud par b = Ok b' -> pin_af b 3 = 2 -> pin_af b' 3 = 3 /\ ~ is_USART2_pin b' 3.
Proof.
  intros baud par b b' H A. destruct (fields _ _ _ _ H) as (F1 & F2 & F3 & F4 & F5 & F6 & F7 & F8).
  assert (E : pin_af b' 3 = 3) by (rewrite (afs_after b b') by (auto; lia); cbn [Z.eqb Pos.eqb]; now rewrite A). split; [exact E|]. unfold is_USART2_pin. rewrite E. intros (_ & X). discriminate.
Qed.
Print Assumptions C97_refuted_rx_pin.
Definition board_af2 : board := mk_board 1 0 0 0xEBFFFFFF 0x2000 0 0 0 (fun _ => 0) (fun _ => 0) periph_reset.
Example C97_case : exists b', driver_init 115200 EVEN board_reset = Ok b' /\ is_USART2_pin b' 3 /\ ~ is_USART2_pin board_reset 3 /\ words board_reset.
Proof.
  destruct (init_ok 115200 EVEN board_reset ltac:(lia)) as (b' & E). exists b'. split; [exact E|].
  destruct (C97_driver_board_partial _ _ _ _ E (or_introl eq_refl)) as (_ & _ & _ & _ & _ & P & _). split; [exact P|]. split; [intros (A & _); discriminate|]. unfold words, word, board_reset; cbn [IOPENR APBENR1 APBENR2 MODER AFRL ODR CFGR1 ISER IP SHP]. repeat split; intros; lia.
Qed.
Example C97_case2 : pin_af board_af2 3 = 2 /\ exists b', driver_init 115200 EVEN board_af2 = Ok b'.
Proof. split; [reflexivity|]. apply init_ok. lia. Qed.

(** ** C98: interrupts do not nest the wrong way *)
(** a priority of any interrupt: only the lower two bits of the number count; other priorities stay *)
Theorem C98_set_priority : forall n prio b m, 0 <= n < 32 -> 0 <= m < 32 -> irq_prio (NVIC_SetPriority n prio b) m = if m =? n then prio mod 4 else irq_prio b m.
Proof. exact set_prio_irq. Qed.
Print Assumptions C98_set_priority.
Lemma head_keeps b : tick_prio (core_init_head b) = 3 /\ io (core_init_head b) = io b /\ MODER (core_init_head b) = MODER b /\ AFRL (core_init_head b) = AFRL b /\ ODR (core_init_head b) = ODR b /\ APBENR1 (core_init_head b) = APBENR1 b /\
  CFGR1 (core_init_head b) = u32 (CFGR1 b |' (UCPD1_STROBE |' UCPD2_STROBE)).
Proof.
  destruct (head_eq b) as (c & sp & E & Ec & Es). rewrite E. cbn [io MODER AFRL ODR APBENR1 CFGR1]. subst c. repeat split. unfold tick_prio. cbn [SHP]. rewrite Es. unfold upd. cbn [Z.eqb Pos.eqb].
  exact (prio_byte (SHP b 1) 3 3 3 ltac:(lia) ltac:(lia)).
Qed.
Definition started (b b' : board) : Prop := slave_start b = Ok b' \/ master_start b = Ok b'.
Lemma started_init b b' : started b b' -> exists par b1, driver_init 115200 par b1 = Ok b' /\ tick_prio b1 = 3 /\ APBENR1 b1 = APBENR1 b /\ AFRL b1 = AFRL b /\ io b1 = io b.
Proof.
  destruct (head_keeps b) as (T & I & M & A & O & P & _). intros [H|H].
  - exists NONE, (LED_init (core_init_head b)). split; [exact H|]. rewrite led_eq. unfold tick_prio in *. cbn [SHP APBENR1 AFRL io]. auto.
  - exists ODD, (core_init_head b). split; [exact H|]. auto.
Qed.
(** after the start of either example, whatever the state before: the handlers of USART2 and TIM7 do not interrupt each other, the tick's handler does not interrupt them *)
Theorem C98_no_nesting : forall b b', started b b' ->
  ~ preempts (irq_prio b' 28) (irq_prio b' 18) /\ ~ preempts (irq_prio b' 18) (irq_prio b' 28) /\
  ~ preempts (tick_prio b') (irq_prio b' 28) /\ ~ preempts (tick_prio b') (irq_prio b' 18).
Proof.
  intros b b' H. destruct (started_init _ _ H) as (par & b1 & E & T & _). destruct (irqs _ _ _ _ E 28 ltac:(lia)) as (_ & P1). destruct (irqs _ _ _ _ E 18 ltac:(lia)) as (_ & P2).
  destruct (fields _ _ _ _ E) as (_ & _ & _ & _ & _ & _ & _ & F). assert (T' : tick_prio b' = 3) by (unfold tick_prio in *; now rewrite F). rewrite P1, P2, T'. unfold preempts. cbn. lia.
Qed.
Print Assumptions C98_no_nesting.
(** the numbers in the source say the opposite for the tick: 3 against 10, but the drivers' handlers are the more urgent ones *)
Theorem C98_refuted_tick_first : forall b b', started b b' -> preempts 3 10 /\ preempts (irq_prio b' 28) (tick_prio b') /\ preempts (irq_prio b' 18) (tick_prio b').
Proof.
  intros b b' H. destruct (started_init _ _ H) as (par & b1 & E & T & _). destruct (irqs _ _ _ _ E 28 ltac:(lia)) as (_ & P1). destruct (irqs _ _ _ _ E 18 ltac:(lia)) as (_ & P2).
  destruct (fields _ _ _ _ E) as (_ & _ & _ & _ & _ & _ & _ & F). assert (T' : tick_prio b' = 3) by (unfold tick_prio in *; now rewrite F). rewrite P1, P2, T'. unfold preempts. cbn. lia.
Qed.
Print Assumptions C98_refuted_tick_first.
Example C98_case : exists b1 b2, slave_start board_reset = Ok b1 /\ master_start board_reset = Ok b2 /\ irq_prio b1 28 = 2 /\ tick_prio b2 = 3.
Proof.
  destruct (init_ok 115200 NONE (LED_init (core_init_head board_reset)) ltac:(lia)) as (b1 & E1). destruct (init_ok 115200 ODD (core_init_head board_reset) ltac:(lia)) as (b2 & E2).
  exists b1, b2. split; [exact E1|]. split; [exact E2|]. split; [exact (proj2 (irqs _ _ _ _ E1 28 ltac:(lia)))|].
  destruct (fields _ _ _ _ E2) as (_ & _ & _ & _ & _ & _ & _ & F). unfold tick_prio. rewrite F. exact (proj1 (head_keeps board_reset)).
Qed.

(** ** C99: the LED's pin, and the start of the examples *)
Lemma u32_or w m i : 0 <= i < 32 -> Z.testbit (u32 (w |' m)) i = Z.testbit w i || Z.testbit m i.
Proof. intros. now rewrite tb_u32, Z.lor_spec by lia. Qed.
Theorem C99_LED_pin : forall b b', slave_start b = Ok b' ->
  pin_mode b' 5 = 1 /\ ODR b' = ODR b /\
  forall s, pin_out (update_LED s b') 5 = (s =? 1) /\
    (forall n, 0 <= n < 16 -> n <> 5 -> pin_out (update_LED s b') n = pin_out b' n) /\
    (exists w, update_LED s b' = mk_board (IOPENR b') (APBENR1 b') (APBENR2 b') (MODER b') (AFRL b') w (CFGR1 b') (ISER b') (IP b') (SHP b') (io b')).
Proof.
  intros b b' H. unfold slave_start in H. destruct (fields _ _ _ _ H) as (F1 & F2 & F3 & F4 & F5 & F6 & F7 & F8). destruct (head_keeps b) as (T & Ii & M & A & O & P & _).
  assert (Ck : clocked_A b' = true). { unfold clocked_A. rewrite F1. unfold GPIOAEN. now tb. }
  split; [|split].
  - rewrite (modes_after _ b' 5 F4) by lia. cbn [Z.leb Z.compare Pos.compare Pos.compare_cont andb]. rewrite led_eq. unfold pin_mode. cbn [MODER]. masks. nums. rewrite !bits2 by lia. nums. tb. reflexivity.
  - rewrite F6, led_eq. cbn [ODR]. exact O.
  - intros s. unfold update_LED, LED_on, LED_off, set_ODR. rewrite Ck. unfold OD5. destruct (s =? 1).
    + split; [|split]. * unfold pin_out. cbn [ODR]. now tb.
      * intros n Hn N. unfold pin_out. cbn [ODR]. change 32 with (2 ^ 5). rewrite u32_or, Z.pow2_bits_false by lia. apply orb_false_r.
      * eexists. reflexivity.
    + split; [|split]. * unfold pin_out. cbn [ODR]. now tb.
      * intros n Hn N. unfold pin_out. cbn [ODR]. change 32 with (2 ^ 5). rewrite tb_u32, Z.land_spec, tb_lnot, Z.pow2_bits_false by lia. apply andb_true_r.
      * eexists. reflexivity.
Qed.
Print Assumptions C99_LED_pin.
(** the start of the examples leaves the line as the driver's initialisation makes it, the dead-battery pull-ups' strobe is given *)
Theorem C99_start_partial : forall b b', started b b' ->
  (exists par, usart_init 115200 par (io b) = Ok (io b')) /\ (forall i, i = 9 \/ i = 10 -> Z.testbit (CFGR1 b') i = true) /\ (pin_af b 3 = 0 \/ pin_af b 3 = 1 -> is_USART2_pin b' 1 /\ is_USART2_pin b' 2 /\ is_USART2_pin b' 3).
Proof.
  intros b b' H. split; [|split].
  - destruct (started_init _ _ H) as (par & b1 & E & _ & _ & _ & I). exists par. rewrite <- I. exact (proj1 (init_eq _ _ _ _ E)).
  - assert (C : CFGR1 b' = u32 (CFGR1 b |' (UCPD1_STROBE |' UCPD2_STROBE))).
    { destruct (head_keeps b) as (_ & _ & _ & _ & _ & _ & C). destruct H as [H|H]; destruct (fields _ _ _ _ H) as (_ & _ & _ & _ & _ & _ & F & _); rewrite F; [rewrite led_eq; cbn [CFGR1]|]; exact C. }
    intros i [-> | ->]; rewrite C; masks; tb; reflexivity.
  - intros A. destruct (started_init _ _ H) as (par & b1 & E & _ & _ & F & _). assert (A' : pin_af b1 3 = 0 \/ pin_af b1 3 = 1) by (unfold pin_af in *; now rewrite F).
    destruct (C97_driver_board_partial _ _ _ _ E A') as (_ & _ & _ & P1 & P2 & P3 & _). auto.
Qed.
Print Assumptions C99_start_partial.
(** core_init means to switch the power controller's clock on (APBENR1 bit 28), but sets that bit in APBENR2: the clock stays as it was, off after reset *)
Theorem C99_refuted_power_clock : forall b b', started b b' -> Z.testbit (APBENR1 b') 28 = Z.testbit (APBENR1 b) 28.
Proof.
  intros b b' H. destruct (started_init _ _ H) as (par & b1 & E & _ & P & _). destruct (fields _ _ _ _ E) as (_ & F & _). rewrite F, P. masks. tb. reflexivity.
Qed.
Print Assumptions C99_refuted_power_clock.
Example C99_case : exists b1, slave_start board_reset = Ok b1 /\ pin_mode board_reset 5 = 3 /\ pin_out (update_LED 1 b1) 5 = true /\ Z.testbit (APBENR1 b1) 28 = false.
Proof.
  destruct C98_case as (b1 & b2 & E1 & _). exists b1. split; [exact E1|]. split; [reflexivity|]. split; [exact (proj1 (proj2 (proj2 (C99_LED_pin _ _ E1)) 1))|]. rewrite (C99_refuted_power_clock _ _ (or_introl E1)). reflexivity.
Qed.
