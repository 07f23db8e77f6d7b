(** What the registers mean (RM0454): frequencies in Hz, with the internal 16 MHz oscillator. *)
From Coq Require Import List ZArith Bool.
Import ListNotations.
From Verif Require Import Model.Clock.
Open Scope Z_scope.
Definition field (w pos width : Z) : Z := Z.land (Z.shiftr w pos) (2 ^ width - 1).
(** the PLL's output R: input / (M + 1) * N / (R + 1); None: not running *)
Definition pll_hz (p : clk) : option Z :=
  if has (RCR p) PLLON && has (RCR p) PLLRDY && has (PLLCFGR p) PLLREN && has (RCR p) HSION && (field (PLLCFGR p) 0 2 =? 2)
  then Some (16000000 / (field (PLLCFGR p) 4 3 + 1) * field (PLLCFGR p) 8 7 / (field (PLLCFGR p) 29 3 + 1)) else None.
(** system clock: switch status 2: the PLL (other sources: not described) *)
Definition sys_hz (p : clk) : option Z := if field (CFGR p) 3 3 =? 2 then pll_hz p else None.
(** clock of the processor and the SysTick timer; of USART2 and TIM7: only prescalers 1 are described *)
Definition cpu_hz (p : clk) : option Z := if field (CFGR p) 8 4 =? 0 then sys_hz p else None.
Definition periph_hz (p : clk) : option Z := if field (CFGR p) 12 3 =? 0 then cpu_hz p else None.
(** wait states of the flash memory; 3 to 7 are reserved, 64 MHz need 2 *)
Definition wait_states (p : clk) : Z := field (ACR p) 0 3.
(** the PLL is off / on, with the factors that give 64 MHz *)
Definition pll_off (p : clk) : Prop := field (RCR p) 24 1 = 0.
Definition pll_64 (p : clk) : Prop := field (RCR p) 24 1 = 1 /\ field (PLLCFGR p) 0 2 = 2 /\ field (PLLCFGR p) 4 3 = 0 /\ field (PLLCFGR p) 8 7 = 8 /\ field (PLLCFGR p) 29 3 = 1.
(** what the drivers and the applications assume when core_init has returned: 64 MHz, one tick per millisecond, the tick interrupt on or off *)
Definition clock_ok (ticks : bool) (p : clk) : Prop :=
  cpu_hz p = Some 64000000 /\ periph_hz p = Some 64000000 /\ (ST_LOAD p + 1) * 1000 = 64000000 /\
  field (ST_CTRL p) 0 1 = 1 /\ field (ST_CTRL p) 2 1 = 1 /\ field (ST_CTRL p) 1 1 = (if ticks then 1 else 0).
(** at least n times the hardware caught up and the program then took a step *)
Inductive rounds : nat -> list cact -> Prop :=
| rounds_0 l : rounds 0 l
| rounds_S n a l : rounds n l -> rounds (S n) (a ++ CHw :: CStep :: l).
