(** Vocabulary for the board set-up (RM0454; Cortex-M0+ manual). *)
From Coq Require Import List ZArith Bool.
From Verif Require Import Model.Base Model.Line Model.Board.
Open Scope Z_scope.
(** the bits pos .. pos + width - 1 of a register *)
Definition bits (w pos width : Z) : Z := Z.land (Z.shiftr w pos) (2 ^ width - 1).
(** pins of port A: mode 0 input, 1 output, 2 alternate function, 3 analog; alternate function of the pins 0-7 *)
Definition pin_mode (b : board) (n : Z) : Z := bits (MODER b) (2 * n) 2.
Definition pin_af (b : board) (n : Z) : Z := bits (AFRL b) (4 * n) 4.
(** alternate function 1 of PA1, PA2, PA3 is USART2's DE, TX, RX *)
Definition is_USART2_pin (b : board) (n : Z) : Prop := pin_mode b n = 2 /\ pin_af b n = 1.
Definition pin_out (b : board) (n : Z) : bool := Z.testbit (ODR b) n.
(** interrupts 0-31: enabled; priority 0-3, smaller is more urgent; priority of the tick: system handler 15 *)
Definition irq_enabled (b : board) (n : Z) : bool := Z.testbit (ISER b) n.
Definition irq_prio (b : board) (n : Z) : Z := bits (IP b (n / 4)) (8 * (n mod 4) + 6) 2.
Definition tick_prio (b : board) : Z := bits (SHP b 1) 30 2.
(** a handler interrupts a running handler of priority [p] if its own priority is smaller *)
Definition preempts (p q : Z) : Prop := p < q.
(** registers hold 32-bit words *)
Definition word (w : Z) : Prop := 0 <= w < 2 ^ 32.
Definition words (b : board) : Prop :=
  word (IOPENR b) /\ word (APBENR1 b) /\ word (APBENR2 b) /\ word (MODER b) /\ word (AFRL b) /\ word (ODR b) /\ word (CFGR1 b) /\ word (ISER b) /\
  (forall i, word (IP b i)) /\ (forall i, word (SHP b i)).
