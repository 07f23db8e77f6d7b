(** C92: after core_init, called with the PLL off, processor, USART2 and TIM7 run at the 64 MHz the drivers compute with, and SysTick counts milliseconds. *)
From Verif Require Import Model.Clock Spec.Clock Proofs.Clock.
Local Open Scope Z_scope.

Lemma ctrl_fields (ticks : bool) : field (if ticks then 7 else 5) 0 1 = 1 /\ field (if ticks then 7 else 5) 2 1 = 1 /\ field (if ticks then 7 else 5) 1 1 = (if ticks then 1 else 0).
Proof. destruct ticks; repeat split. Qed.
Lemma start_cinv ticks p : pll_off p \/ pll_64 p -> exists ag, cinv ticks ag C28 p.
Proof.
  intros [H|(H1 & H2 & H3 & H4 & H5)].
  - exists false. apply cinv_off. exact (land_of _ 24 1 _ _ ltac:(lia) ltac:(lia) eq_refl H).
  - exists true. apply cinv_on; [exact (land_of _ 24 1 _ _ ltac:(lia) ltac:(lia) eq_refl H1)|exact (land_of _ 0 2 _ _ ltac:(lia) ltac:(lia) eq_refl H2)|exact (land_of _ 4 3 _ _ ltac:(lia) ltac:(lia) eq_refl H3)
      |exact (land_of _ 8 7 _ _ ltac:(lia) ltac:(lia) eq_refl H4)|exact (land_of _ 29 3 _ _ ltac:(lia) ltac:(lia) eq_refl H5)].
Qed.

(** whatever the registers held before and however the hardware and the program take turns, also afterwards *)
Theorem C92_clock_partial : forall ticks p l, pll_off p \/ pll_64 p -> fst (core_run ticks l (C28, p)) = CEnd -> clock_ok ticks (snd (core_run ticks l (C28, p))).
Proof.
  intros ticks p l H E. destruct (start_cinv ticks p H) as (ag & V). pose proof (run_cinv ticks ag l (C28, p) V) as W. rewrite E in W. destruct (cinv_end _ _ _ W) as (A & B & _ & C & D & _).
  unfold clock_ok. rewrite A, B, C, D. repeat (split; [reflexivity|]). apply ctrl_fields.
Qed.
(** ... and core_init returns: it waits only for what the hardware will do *)
Theorem C92_returns : forall ticks p l, pll_off p \/ pll_64 p -> rounds 20 l -> fst (core_run ticks l (C28, p)) = CEnd.
Proof.
  intros ticks p l H R. destruct (start_cinv ticks p H) as (ag & V).
  assert (G : forall n l k, rounds n l -> cinv ticks ag (fst k) (snd k) -> (20 <= no (fst k) + n)%nat -> fst (core_run ticks l k) = CEnd).
  { clear. induction n as [|n IH]; intros l k R V N.
    - destruct k as [c p]. cbn [fst] in N. assert (c = CEnd) as -> by (destruct c; cbn [no] in N; first [reflexivity | lia]). apply end_run.
    - inversion R as [|n0 a l' R' Hn Hl]; subst. rewrite core_run_app. pose proof (run_cinv ticks ag a k V) as W. pose proof (no_rk _ _ (run_rk ticks a k)) as M.
      destruct (core_run ticks a k) as [c q]. cbn [fst snd] in *. change (CHw :: CStep :: l') with ([CHw; CStep] ++ l'). rewrite core_run_app.
      assert (D : {c = CEnd} + {c <> CEnd}) by (destruct c; first [left; reflexivity | right; discriminate]). destruct D as [->|D]; [rewrite <- core_run_app; apply end_run|].
      pose proof (pair_step ticks ag c q W D) as P. apply IH; [exact R'|apply (run_cinv ticks ag [CHw; CStep] (c, q)); exact W|]. lia. }
  apply (G 20%nat); [exact R|exact V|cbn; lia].
Qed.
(** a second call leaves the clock as it is *)
Theorem C92_again : forall ticks p l, pll_off p \/ pll_64 p -> fst (core_run ticks l (C28, p)) = CEnd -> pll_64 (snd (core_run ticks l (C28, p))).
Proof.
  intros ticks p l H E. destruct (start_cinv ticks p H) as (ag & V). pose proof (run_cinv ticks ag l (C28, p) V) as W. rewrite E in W. destruct (cinv_end _ _ _ W) as (_ & _ & _ & _ & _ & A1 & A2 & A3 & A4 & A5).
  unfold pll_64. rewrite (field_of _ 24 1 _ _ ltac:(lia) eq_refl A1), (field_of _ 0 2 _ _ ltac:(lia) eq_refl A2), (field_of _ 4 3 _ _ ltac:(lia) eq_refl A3), (field_of _ 8 7 _ _ ltac:(lia) eq_refl A4), (field_of _ 29 3 _ _ ltac:(lia) eq_refl A5).
  repeat split.
Qed.
(** reset values (RM0454: RCC_CR 0x500, PLLCFGR 0x1000, CFGR 0, FLASH_ACR 0x40600) *)
Definition clk_reset := mk_clk 0x40600 0x500 0x1000 0 0 0 0.
Definition turns (n : nat) : list cact := flat_map (fun _ => [CHw; CStep]) (seq 0 n).
Example C92_case : pll_off clk_reset /\ rounds 20 (turns 20) /\ clock_ok true (snd (core_run true (turns 20) (C28, clk_reset))) /\
  exists l, (length l > 60)%nat /\ fst (core_run false l (C28, clk_reset)) = CEnd.
Proof.
  split; [vm_compute; reflexivity|]. split; [|split].
  - assert (G : forall n s, rounds n (flat_map (fun _ : nat => [CHw; CStep]) (seq s n))).
    { clear. induction n as [|n IH]; intros s; [constructor|]. cbn [seq flat_map app]. exact (rounds_S n [] _ (IH (S s))). }
    apply G.
  - vm_compute. repeat split.
  - exists (repeat CStep 10 ++ [CHw] ++ repeat CStep 40 ++ turns 20). split; [vm_compute; lia|vm_compute; reflexivity].
Qed.

(** "set flash latency for 64Mhz" (line 27): it sets bit 2 of the field, value 4, which is reserved; two wait states are value 2. *)
Theorem C92_refuted_wait_states : forall ticks p l, pll_off p \/ pll_64 p -> fst (core_run ticks l (C28, p)) = CEnd -> wait_states (snd (core_run ticks l (C28, p))) <> 2.
Proof.
  intros ticks p l H E. destruct (start_cinv ticks p H) as (ag & V). pose proof (run_cinv ticks ag l (C28, p) V) as W. rewrite E in W. destruct (cinv_end _ _ _ W) as (_ & _ & C & _). rewrite C. discriminate.
Qed.
(** Called with the PLL running with other factors (a boot loader), core_init returns with another clock: the factors cannot be written, and it does not stop the PLL *)
Definition clk_boot := mk_clk 0x40600 0x3000500 0x70000802 0x12 0 0 0.
Theorem C92_refuted_pll_on : hw clk_boot = clk_boot /\ fst (core_run true (turns 20) (C28, clk_boot)) = CEnd /\ ~ clock_ok true (snd (core_run true (turns 20) (C28, clk_boot))) /\
  periph_hz (snd (core_run true (turns 20) (C28, clk_boot))) = Some 32000000.
Proof.
  split; [vm_compute; reflexivity|]. split; [vm_compute; reflexivity|]. split; [|vm_compute; reflexivity]. intros (A & _). vm_compute in A. discriminate A.
Qed.
Print Assumptions C92_clock_partial.
Print Assumptions C92_returns.
Print Assumptions C92_again.
