(** The examples' clock set-up: core_init, examples/STM32G070RB_MODBUS_SLAVE/Core/Src/core_init.c (CI);
    examples/STM32G070RB_MODBUS_MASTER/Drivers/STM32G0_Drivers/core_init/core_init.c differs only in line 60 (tick interrupt on).
    Bit positions: Drivers/CMSIS/Device/stm32g070xx.h, Include/core_cm0plus.h.  What the bits mean, which of them the program
    cannot write, and when the oscillators become ready is hardware, written from ST's reference manual RM0454.
    Lines 11-25 (clock of SYSCFG, wrong register for PWREN, priority, pull-ups), which do not affect these clocks: Model/Board.v. *)
From Coq Require Export List ZArith Bool Lia.
From Verif Require Export Model.Base.
Export ListNotations.
Open Scope Z_scope.

Record clk := mk_clk { ACR : Z; RCR : Z; PLLCFGR : Z; CFGR : Z; ST_LOAD : Z; ST_VAL : Z; ST_CTRL : Z }.
(** stm32g070xx.h:2362-2367 *)
Definition LATENCY := 0x7. Definition LATENCY_2 := 0x4.
(** stm32g070xx.h:4118-4150 *)
Definition HSION := 0x100. Definition HSIRDY := 0x400. Definition PLLON := 0x1000000. Definition PLLRDY := 0x2000000.
(** stm32g070xx.h:4181-4208 *)
Definition SW := 0x7. Definition SW_1 := 0x2. Definition SWS := 0x38. Definition SWS_1 := 0x10. Definition HPRE := 0xF00. Definition PPRE := 0x7000.
(** stm32g070xx.h:4231-4284 *)
Definition PLLSRC := 0x3. Definition PLLSRC_HSI := 0x2. Definition PLLM := 0x70. Definition PLLN := 0x7F00. Definition PLLN_8 := Z.shiftl 8 8.
Definition PLLREN := 0x10000000. Definition PLLR := 0xE0000000. Definition PLLR_0 := 0x20000000.
(** core_cm0plus.h:484-491 *)
Definition CLKSOURCE := 0x4. Definition TICKINT := 0x2. Definition ENABLE := 0x1.

(** Writes.  Flags are read-only; the PLL's factors and source cannot be changed while it is on. *)
Definition has (w m : Z) : bool := Z.land w m =? m.
Definition CR_flags := Z.lor HSIRDY PLLRDY.
Definition PLL_locked := Z.lor (Z.lor PLLSRC PLLM) (Z.lor PLLN PLLR).
Definition put (locked old new : Z) : Z := Z.lor (Z.land (u32 new) (Z.lnot locked)) (Z.land old locked).
Definition set_ACR (p : clk) (v : Z) := mk_clk (u32 v) (RCR p) (PLLCFGR p) (CFGR p) (ST_LOAD p) (ST_VAL p) (ST_CTRL p).
Definition set_RCR (p : clk) (v : Z) := mk_clk (ACR p) (put CR_flags (RCR p) v) (PLLCFGR p) (CFGR p) (ST_LOAD p) (ST_VAL p) (ST_CTRL p).
Definition set_PLLCFGR (p : clk) (v : Z) := mk_clk (ACR p) (RCR p) (put (if has (RCR p) PLLON then PLL_locked else 0) (PLLCFGR p) v) (CFGR p) (ST_LOAD p) (ST_VAL p) (ST_CTRL p).
Definition set_CFGR (p : clk) (v : Z) := mk_clk (ACR p) (RCR p) (PLLCFGR p) (put SWS (CFGR p) v) (ST_LOAD p) (ST_VAL p) (ST_CTRL p).
Definition set_systick (p : clk) (l v c : Z) := mk_clk (ACR p) (RCR p) (PLLCFGR p) (CFGR p) l v c.

(** The hardware catches up: the oscillator and the PLL become ready, the switch follows its setting *)
Definition flag (w m : Z) (b : bool) : Z := if b then Z.lor w m else Z.land w (Z.lnot m).
Definition hw (p : clk) : clk :=
  let hsi := has (RCR p) HSION in
  let pll := has (RCR p) PLLON && (Z.land (PLLCFGR p) PLLSRC =? PLLSRC_HSI) && hsi in
  let cr := flag (flag (RCR p) HSIRDY hsi) PLLRDY pll in
  let to_pll := (Z.land (CFGR p) SW =? SW_1) && pll && has (PLLCFGR p) PLLREN in
  let to_hsi := (Z.land (CFGR p) SW =? 0) && hsi in
  let cf := if to_pll then Z.lor (Z.land (CFGR p) (Z.lnot SWS)) SWS_1 else if to_hsi then Z.land (CFGR p) (Z.lnot SWS) else CFGR p in
  mk_clk (ACR p) cr (PLLCFGR p) cf (ST_LOAD p) (ST_VAL p) (ST_CTRL p).

(** CI:28-60, the line about to be executed; [ticks]: line 60 of the master's file *)
Inductive cpc := C28 | C29 | C30 | C33 | C34 | C37 | C39 | C40 | C41 | C44 | C47 | C48 | C51 | C52 | C53 | C56 | C57 | C58 | C59 | C60 | CEnd.
Definition core_init_line (ticks : bool) (l : cpc) (p : clk) : cpc * clk :=
  match l with
  | C28 => (C29, set_ACR p (Z.land (ACR p) (Z.lnot LATENCY)))
  | C29 => (C30, set_ACR p (Z.lor (ACR p) LATENCY_2))
  | C30 => (if negb (Z.land (ACR p) LATENCY =? LATENCY_2) then C30 else C33, p)
  | C33 => (C34, set_RCR p (Z.lor (RCR p) HSION))
  | C34 => (if negb (Z.land (RCR p) HSIRDY =? HSIRDY) then C34 else C37, p)
  | C37 => (C39, set_PLLCFGR p (Z.land (PLLCFGR p) (Z.lnot (Z.lor (Z.lor (Z.lor PLLSRC PLLM) PLLN) PLLR))))
  | C39 => (C40, set_PLLCFGR p (Z.lor (PLLCFGR p) (Z.lor (Z.lor PLLSRC_HSI PLLN_8) PLLR_0)))
  | C40 => (C41, set_RCR p (Z.lor (RCR p) PLLON))
  | C41 => (C44, set_PLLCFGR p (Z.lor (PLLCFGR p) PLLREN))
  | C44 => (if negb (Z.land (RCR p) PLLRDY =? PLLRDY) then C44 else C47, p)
  | C47 => (C48, set_CFGR p (Z.land (CFGR p) (Z.lnot HPRE)))
  | C48 => (C51, set_CFGR p (Z.lor (CFGR p) 0))
  | C51 => (C52, set_CFGR p (Z.land (CFGR p) (Z.lnot SW)))
  | C52 => (C53, set_CFGR p (Z.lor (CFGR p) SW_1))
  | C53 => (if negb (Z.land (CFGR p) SWS =? SWS_1) then C53 else C56, p)
  | C56 => (C57, set_CFGR p (Z.land (CFGR p) (Z.lnot PPRE)))
  | C57 => (C58, set_CFGR p (Z.lor (CFGR p) 0))
  | C58 => (C59, set_systick p (64000000 / 1000 - 1) (ST_VAL p) (ST_CTRL p))
  | C59 => (C60, set_systick p (ST_LOAD p) 0 (ST_CTRL p))
  | C60 => (CEnd, set_systick p (ST_LOAD p) (ST_VAL p) (if ticks then Z.lor (Z.lor CLKSOURCE ENABLE) TICKINT else Z.lor CLKSOURCE ENABLE))
  | CEnd => (CEnd, p)
  end.
(** the program and the hardware take turns in any way *)
Inductive cact := CStep | CHw.
Definition core_act (ticks : bool) (a : cact) (k : cpc * clk) : cpc * clk := match a with CStep => core_init_line ticks (fst k) (snd k) | CHw => (fst k, hw (snd k)) end.
Definition core_run (ticks : bool) (l : list cact) (k : cpc * clk) : cpc * clk := fold_left (fun k a => core_act ticks a k) l k.
