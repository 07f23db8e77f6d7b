From Verif Require Import Model.Clock Spec.Clock.
Local Open Scope Z_scope.
Definition F32 := 4294967295.
Lemma land_u32 y F : Z.land F32 F = F -> Z.land (u32 y) F = Z.land y F.
Proof. intros H. unfold u32. change 4294967296 with (2 ^ 32). rewrite <- Z.land_ones by lia. change (Z.ones 32) with F32. rewrite <- Z.land_assoc, H. reflexivity. Qed.
Lemma land_put L o n F : Z.land F32 F = F -> Z.land (put L o n) F = Z.lor (Z.land n (Z.land (Z.lnot L) F)) (Z.land o (Z.land L F)).
Proof.
  intros H. unfold put. rewrite Z.land_lor_distr_l, <- !Z.land_assoc. f_equal. apply land_u32. rewrite Z.land_assoc, (Z.land_comm F32), <- Z.land_assoc, H. reflexivity.
Qed.

(** constants *)
Ltac isk t := lazymatch t with Z0 => idtac | Zpos _ => idtac | Zneg _ => idtac | Z.land ?a ?b => isk a; isk b | Z.lor ?a ?b => isk a; isk b | Z.lnot ?a => isk a | _ => is_const t end.
Ltac konst t := let c := eval vm_compute in t in constr:(c).
Ltac kfold := repeat match goal with
  | |- context [Z.land ?a ?b] => isk a; isk b; let c := konst (Z.land a b) in change (Z.land a b) with c
  | |- context [Z.lor ?a ?b] => isk a; isk b; let c := konst (Z.lor a b) in change (Z.lor a b) with c
  | |- context [Z.lnot ?a] => isk a; let c := konst (Z.lnot a) in change (Z.lnot a) with c
  end.
Ltac norm := repeat (kfold; first [ rewrite land_u32 by (vm_compute; reflexivity) | rewrite land_put by (vm_compute; reflexivity) | rewrite Z.land_lor_distr_l | rewrite <- Z.land_assoc | rewrite Z.land_0_r | rewrite Z.lor_0_r | rewrite Z.lor_0_l ]); kfold.

Definition rk (l : cpc) : Z :=
  match l with C28 => 28 | C29 => 29 | C30 => 30 | C33 => 33 | C34 => 34 | C37 => 37 | C39 => 39 | C40 => 40 | C41 => 41 | C44 => 44 | C47 => 47 | C48 => 48
  | C51 => 51 | C52 => 52 | C53 => 53 | C56 => 56 | C57 => 57 | C58 => 58 | C59 => 59 | C60 => 60 | CEnd => 61 end.
(** what holds from a line on; [ag]: the PLL was on with the right factors from the beginning *)
Record cinv (ticks ag : bool) (l : cpc) (p : clk) : Prop := {
  v_off : ag = false -> rk l <= 40 -> Z.land (RCR p) 0x1000000 = 0;
  v_acr0 : rk l = 29 -> Z.land (ACR p) 7 = 0;
  v_acr : 29 < rk l -> Z.land (ACR p) 7 = 4;
  v_hsi : 33 < rk l -> Z.land (RCR p) 0x100 = 0x100;
  v_hrd : 34 < rk l -> Z.land (RCR p) 0x400 = 0x400;
  v_c0 : ag = false -> rk l = 39 -> Z.land (PLLCFGR p) 0x3 = 0 /\ Z.land (PLLCFGR p) 0x70 = 0 /\ Z.land (PLLCFGR p) 0x7F00 = 0 /\ Z.land (PLLCFGR p) 0xE0000000 = 0;
  v_src : (if ag then true else 39 <? rk l) = true -> Z.land (PLLCFGR p) 0x3 = 2;
  v_m : (if ag then true else 39 <? rk l) = true -> Z.land (PLLCFGR p) 0x70 = 0;
  v_n : (if ag then true else 39 <? rk l) = true -> Z.land (PLLCFGR p) 0x7F00 = 0x800;
  v_r : (if ag then true else 39 <? rk l) = true -> Z.land (PLLCFGR p) 0xE0000000 = 0x20000000;
  v_on : (if ag then true else 40 <? rk l) = true -> Z.land (RCR p) 0x1000000 = 0x1000000;
  v_ren : 41 < rk l -> Z.land (PLLCFGR p) 0x10000000 = 0x10000000;
  v_rdy : 44 < rk l -> Z.land (RCR p) 0x2000000 = 0x2000000;
  v_hpre : 47 < rk l -> Z.land (CFGR p) 0xF00 = 0;
  v_sw0 : rk l = 52 -> Z.land (CFGR p) 7 = 0;
  v_sw : 52 < rk l -> Z.land (CFGR p) 7 = 2;
  v_sws : 53 < rk l -> Z.land (CFGR p) 0x38 = 0x10;
  v_ppre : 56 < rk l -> Z.land (CFGR p) 0x7000 = 0;
  v_load : 58 < rk l -> ST_LOAD p = 63999;
  v_val : 59 < rk l -> ST_VAL p = 0;
  v_ctrl : 60 < rk l -> ST_CTRL p = (if ticks then 7 else 5) }.

Lemma has_true w m : Z.land w m = m -> has w m = true.
Proof. intros H. unfold has. rewrite H. apply Z.eqb_refl. Qed.
Lemma has_zero w m : Z.land w m = 0 -> m <> 0 -> has w m = false.
Proof. intros H N. unfold has. rewrite H. apply Z.eqb_neq. congruence. Qed.

Ltac fin H := repeat match goal with |- context [Z.land ?w ?c] => rewrite H end.
Lemma flag_other w m b F : Z.land m F = 0 -> Z.land (Z.lnot m) F = F -> Z.land (flag w m b) F = Z.land w F.
Proof. intros A B. unfold flag. destruct b; [rewrite Z.land_lor_distr_l, A, Z.lor_0_r|rewrite <- Z.land_assoc, B]; reflexivity. Qed.
Lemma lor_land w m : Z.lor (Z.land w m) m = m.
Proof. apply Z.bits_inj'. intros n Hn. rewrite Z.lor_spec, Z.land_spec. destruct (Z.testbit w n), (Z.testbit m n); reflexivity. Qed.
Lemma flag_set w m F : Z.land m F = F -> Z.land (flag w m true) F = F.
Proof. intros A. unfold flag. rewrite Z.land_lor_distr_l, A. apply Z.bits_inj'. intros n Hn. rewrite Z.lor_spec, Z.land_spec. destruct (Z.testbit w n), (Z.testbit F n); reflexivity. Qed.

Opaque Z.land Z.lor Z.lnot.
Ltac known K := match goal with
  | H : _ -> ?a = ?b |- ?a = ?b => exact (H K)
  | H : _ -> _ -> ?a = ?b |- ?a = ?b => exact (H K ltac:(assumption))
  | H : _ -> _ -> _ /\ _ |- _ /\ _ => exact (H K ltac:(assumption)) end.
Lemma hw_cinv ticks ag l p : cinv ticks ag l p -> cinv ticks ag l (hw p).
Proof.
  intros V.
  assert (CRo : forall F, Z.land F32 F = F -> Z.land 0x2000400 F = 0 -> Z.land (RCR (hw p)) F = Z.land (RCR p) F).
  { intros F HF H0. unfold hw, RCR at 1.
    assert (X : forall m, Z.land m 0x2000400 = m -> Z.land m F = 0).
    { intros m Hm. rewrite <- Hm, <- Z.land_assoc, H0. apply Z.land_0_r. }
    assert (Y : forall m, Z.land m 0x2000400 = m -> Z.land (Z.lnot m) F = F).
    { intros m Hm. apply Z.bits_inj'. intros n Hn. rewrite Z.land_spec, Z.lnot_spec by lia. pose proof (f_equal (fun z => Z.testbit z n) (X m Hm)) as E. cbv beta in E. rewrite Z.land_spec, Z.bits_0 in E. clear - E. destruct (Z.testbit m n), (Z.testbit F n); try reflexivity; discriminate E. }
    rewrite flag_other by (first [apply X|apply Y]; vm_compute; reflexivity). apply flag_other; (first [apply X|apply Y]; vm_compute; reflexivity). }
  assert (CFo : forall F, Z.land (Z.lnot 0x38) F = F -> Z.land 0x10 F = 0 -> Z.land (CFGR (hw p)) F = Z.land (CFGR p) F).
  { intros F HF H0. unfold hw, CFGR at 1. destruct (_ && _ && _); [|destruct (_ && _); [|reflexivity]].
    - rewrite Z.land_lor_distr_l, <- Z.land_assoc. unfold SWS, SWS_1. rewrite HF, H0. apply Z.lor_0_r.
    - rewrite <- Z.land_assoc. unfold SWS. rewrite HF. reflexivity. }
  pose proof V as V0. destruct V0 as [v1 v2 v3 v4 v5 v6 v7 v8 v9 v10 v11 v12 v13 v14 v15 v16 v17 v18 v19 v20 v21].
  constructor; intros K; try intros K2; try match goal with |- Z.land (RCR (hw p)) 0x400 = _ => idtac | |- Z.land (RCR (hw p)) 0x2000000 = _ => idtac
    | |- Z.land (RCR (hw p)) ?F = _ => rewrite CRo by (vm_compute; reflexivity); known K
    | |- Z.land (CFGR (hw p)) 0x38 = _ => idtac | |- Z.land (CFGR (hw p)) ?F = _ => rewrite CFo by (vm_compute; reflexivity); known K
    | |- context [PLLCFGR (hw p)] => change (PLLCFGR (hw p)) with (PLLCFGR p); known K 
    | |- context [ACR (hw p)] => change (ACR (hw p)) with (ACR p); known K 
    | |- context [ST_LOAD (hw p)] => change (ST_LOAD (hw p)) with (ST_LOAD p); known K 
    | |- context [ST_VAL (hw p)] => change (ST_VAL (hw p)) with (ST_VAL p); known K 
    | |- context [ST_CTRL (hw p)] => change (ST_CTRL (hw p)) with (ST_CTRL p); known K end.
  - (* HSIRDY *) clear - V K. assert (ag = true \/ 40 < rk l -> (if ag then true else 39 <? rk l) = true /\ (if ag then true else 40 <? rk l) = true) as KA by (destruct ag; [tauto|intros [|Q]; [discriminate|]]; split; apply Z.ltb_lt; lia). unfold hw, RCR at 1. rewrite flag_other by (vm_compute; reflexivity). rewrite (has_true (RCR p) HSION) by (apply (v_hsi _ _ _ _ V); lia). apply flag_set. vm_compute; reflexivity.
  - (* PLLRDY *) clear - V K. assert (ag = true \/ 40 < rk l -> (if ag then true else 39 <? rk l) = true /\ (if ag then true else 40 <? rk l) = true) as KA by (destruct ag; [tauto|intros [|Q]; [discriminate|]]; split; apply Z.ltb_lt; lia). unfold hw, RCR at 1. rewrite (has_true (RCR p) HSION) by (apply (v_hsi _ _ _ _ V); lia). rewrite (has_true (RCR p) PLLON) by (apply (v_on _ _ _ _ V); apply KA; lia).
    unfold PLLSRC at 1. rewrite (v_src _ _ _ _ V) by (apply KA; lia). change (true && (2 =? PLLSRC_HSI) && true) with true. apply flag_set. vm_compute; reflexivity.
  - (* SWS *) clear - V K. assert (ag = true \/ 40 < rk l -> (if ag then true else 39 <? rk l) = true /\ (if ag then true else 40 <? rk l) = true) as KA by (destruct ag; [tauto|intros [|Q]; [discriminate|]]; split; apply Z.ltb_lt; lia). unfold hw, CFGR at 1. unfold SW at 1. rewrite (v_sw _ _ _ _ V) by lia. rewrite (has_true (RCR p) HSION) by (apply (v_hsi _ _ _ _ V); lia). rewrite (has_true (RCR p) PLLON) by (apply (v_on _ _ _ _ V); apply KA; lia).
    unfold PLLSRC at 1. rewrite (v_src _ _ _ _ V) by (apply KA; lia). rewrite (has_true (PLLCFGR p) PLLREN) by (apply (v_ren _ _ _ _ V); lia). cbn [andb Z.eqb Pos.eqb SW_1 PLLSRC_HSI].
    unfold SWS, SWS_1. norm. reflexivity.
Qed.


Lemma step_cinv ticks ag l p : cinv ticks ag l p -> cinv ticks ag (fst (core_init_line ticks l p)) (snd (core_init_line ticks l p)).
Proof.
  intros V. destruct V as [v1 v2 v3 v4 v5 v6 v7 v8 v9 v10 v11 v12 v13 v14 v15 v16 v17 v18 v19 v20 v21]. destruct p as [acr rcr pcf cfg ld vl ct].
  destruct ag, l; cbn [core_init_line fst snd ACR RCR PLLCFGR CFGR ST_LOAD ST_VAL ST_CTRL rk] in *.
  all: repeat match goal with H : ?a = ?a -> _ |- _ => specialize (H eq_refl) | H : (?a <= ?b) -> _ |- _ => first [specialize (H ltac:(lia)) | clear H] | H : (?a < ?b) -> _ |- _ => first [specialize (H ltac:(reflexivity)) | clear H]
     | H : (?a = ?b) -> _ |- _ => first [specialize (H eq_refl) | clear H] end.
  all: try (match goal with |- context [if negb (?a =? ?b) then _ else _] => destruct (a =? b) eqn:Q; cbn [negb]; [apply Z.eqb_eq in Q|] end).
  all: constructor; cbn [rk]; intros K; try intros K2; unfold set_ACR, set_RCR, set_PLLCFGR, set_CFGR, set_systick; cbn [ACR RCR PLLCFGR CFGR ST_LOAD ST_VAL ST_CTRL].
  all: try (exfalso; clear - K; discriminate K). all: try (exfalso; clear - K; lia). all: try (exfalso; clear - K2; lia). all: try assumption.
  all: try match goal with |- context [Z.land] => idtac | |- _ => try destruct ticks; vm_compute; reflexivity end.
  all: try match goal with |- (if _ then _ else _) = _ => destruct ticks; vm_compute; reflexivity end.
  all: try (rewrite (has_true rcr PLLON) by assumption).
  all: try (rewrite (has_zero rcr PLLON) by (first [assumption|discriminate])).
  all: repeat match goal with H : _ /\ _ |- _ => destruct H end. all: repeat match goal with |- _ /\ _ => split end.
  all: try destruct (has rcr PLLON).
  all: norm.
  all: repeat match goal with H : Z.land ?w ?c = ?v |- context [Z.land ?w ?c] => rewrite H end. all: kfold. all: try reflexivity.
  all: try match goal with |- Z.lor (Z.land ?w ?m) ?m = ?m => apply lor_land end.
Qed.

Lemma run_cinv ticks ag l : forall k, cinv ticks ag (fst k) (snd k) -> cinv ticks ag (fst (core_run ticks l k)) (snd (core_run ticks l k)).
Proof.
  induction l as [|a l IH]; intros k V; [exact V|]. apply (IH (core_act ticks a k)). destruct k as [c p], a; [apply step_cinv|apply hw_cinv]; exact V.
Qed.
Lemma cinv_off ticks p : Z.land (RCR p) 0x1000000 = 0 -> cinv ticks false C28 p.
Proof. intros H. constructor; cbn [rk]; intros K; try (exfalso; clear - K; discriminate K); try (exfalso; clear - K; lia). intros _. exact H. all: intros; exfalso; clear - H0; lia. Qed.
Lemma cinv_on ticks p : Z.land (RCR p) 0x1000000 = 0x1000000 -> Z.land (PLLCFGR p) 0x3 = 2 -> Z.land (PLLCFGR p) 0x70 = 0 -> Z.land (PLLCFGR p) 0x7F00 = 0x800 ->
  Z.land (PLLCFGR p) 0xE0000000 = 0x20000000 -> cinv ticks true C28 p.
Proof. intros. constructor; cbn [rk]; intros K; try (exfalso; clear - K; discriminate K); try (exfalso; clear - K; lia); assumption. Qed.

Lemma field_land w pos wd : 0 <= pos -> field w pos wd = Z.shiftr (Z.land w (Z.shiftl (2 ^ wd - 1) pos)) pos.
Proof. intros H. unfold field. rewrite Z.shiftr_land, Z.shiftr_shiftl_l, Z.sub_diag, Z.shiftl_0_r by lia. reflexivity. Qed.
Lemma field_of w pos wd c v : 0 <= pos -> Z.shiftl (2 ^ wd - 1) pos = c -> Z.land w c = v -> field w pos wd = Z.shiftr v pos.
Proof. intros H <- <-. apply field_land, H. Qed.
Lemma land_of w pos wd c v : 0 <= pos -> 0 <= wd -> Z.shiftl (2 ^ wd - 1) pos = c -> field w pos wd = v -> Z.land w c = Z.shiftl v pos.
Proof.
  intros H Hw <- <-. unfold field. rewrite Z.shiftl_land. apply Z.bits_inj'. intros n Hn. rewrite !Z.land_spec, !Z.shiftl_spec by lia.
  destruct (Z.ltb_spec (n - pos) 0) as [Q|Q]; [rewrite !(Z.testbit_neg_r _ (n - pos)), !andb_false_r by lia; reflexivity|]. rewrite Z.shiftr_spec by lia. rewrite Z.sub_add. reflexivity.
Qed.

Lemma cinv_end ticks ag p : cinv ticks ag CEnd p ->
  cpu_hz p = Some 64000000 /\ periph_hz p = Some 64000000 /\ wait_states p = 4 /\ ST_LOAD p = 63999 /\ ST_CTRL p = (if ticks then 7 else 5) /\
  Z.land (RCR p) 0x1000000 = 0x1000000 /\ Z.land (PLLCFGR p) 0x3 = 2 /\ Z.land (PLLCFGR p) 0x70 = 0 /\ Z.land (PLLCFGR p) 0x7F00 = 0x800 /\ Z.land (PLLCFGR p) 0xE0000000 = 0x20000000.
Proof.
  intros V. destruct V as [v1 v2 v3 v4 v5 v6 v7 v8 v9 v10 v11 v12 v13 v14 v15 v16 v17 v18 v19 v20 v21]. cbn [rk] in *.
  assert (K : (if ag then true else 39 <? 61) = true) by (destruct ag; reflexivity). assert (K' : (if ag then true else 40 <? 61) = true) by (destruct ag; reflexivity).
  specialize (v7 K). specialize (v8 K). specialize (v9 K). specialize (v10 K). specialize (v11 K').
  repeat match goal with H : (?a < ?b) -> _ |- _ => specialize (H ltac:(reflexivity)) end.
  assert (PL : pll_hz p = Some 64000000).
  { unfold pll_hz. rewrite (has_true (RCR p) PLLON v11), (has_true (RCR p) PLLRDY v13), (has_true (PLLCFGR p) PLLREN v12), (has_true (RCR p) HSION v4).
    rewrite (field_of _ 0 2 0x3 2), (field_of _ 4 3 0x70 0), (field_of _ 8 7 0x7F00 0x800), (field_of _ 29 3 0xE0000000 0x20000000) by (first [assumption | lia | vm_compute; reflexivity]). vm_compute. reflexivity. }
  assert (SY : sys_hz p = Some 64000000). { unfold sys_hz. rewrite (field_of _ 3 3 0x38 0x10) by (first [assumption | lia | vm_compute; reflexivity]). exact PL. }
  assert (CP : cpu_hz p = Some 64000000). { unfold cpu_hz. rewrite (field_of _ 8 4 0xF00 0) by (first [assumption | lia | vm_compute; reflexivity]). exact SY. }
  assert (PE : periph_hz p = Some 64000000). { unfold periph_hz. rewrite (field_of _ 12 3 0x7000 0) by (first [assumption | lia | vm_compute; reflexivity]). exact CP. }
  assert (WS : wait_states p = 4). { unfold wait_states. rewrite (field_of _ 0 3 7 4) by (first [assumption | lia | vm_compute; reflexivity]). reflexivity. }
  repeat (split; [assumption|]). assumption.
Qed.

(** progress *)
Lemma act_rk ticks a k : rk (fst k) <= rk (fst (core_act ticks a k)).
Proof. destruct k as [l p], a; cbn [core_act fst snd]; [|lia]. destruct l; cbn [core_init_line fst]; try destruct (negb _); cbn [rk]; lia. Qed.
Lemma run_rk ticks l : forall k, rk (fst k) <= rk (fst (core_run ticks l k)).
Proof. induction l as [|a l IH]; intros k; [cbn; lia|]. pose proof (IH (core_act ticks a k)). pose proof (act_rk ticks a k). cbn. unfold core_run in H. lia. Qed.
Definition no (l : cpc) : nat := match l with C28 => 0 | C29 => 1 | C30 => 2 | C33 => 3 | C34 => 4 | C37 => 5 | C39 => 6 | C40 => 7 | C41 => 8 | C44 => 9 | C47 => 10 | C48 => 11
  | C51 => 12 | C52 => 13 | C53 => 14 | C56 => 15 | C57 => 16 | C58 => 17 | C59 => 18 | C60 => 19 | CEnd => 20 end.
Lemma no_rk l l' : rk l <= rk l' -> (no l <= no l')%nat.
Proof. destruct l, l'; cbn [rk no]; intros H; try lia; exfalso; lia. Qed.
Lemma pair_step ticks ag l p : cinv ticks ag l p -> l <> CEnd -> (no l < no (fst (core_run ticks [CHw; CStep] (l, p))))%nat.
Proof.
  intros V N. pose proof (hw_cinv _ _ _ _ V) as W. unfold core_run. cbn [fold_left core_act fst snd].
  destruct l; cbn [core_init_line fst]; try (cbn [no]; lia); try congruence.
  - unfold LATENCY, LATENCY_2. rewrite (v_acr _ _ _ _ W) by reflexivity. cbn. lia.
  - unfold HSIRDY. unfold hw, RCR. rewrite flag_other by (vm_compute; reflexivity). rewrite has_true by exact (v_hsi _ _ _ _ V eq_refl).
    change (Z.land (flag (Model.Clock.RCR p) HSIRDY true) 1024) with (Z.land (flag (RCR p) HSIRDY true) 1024). rewrite flag_set by (vm_compute; reflexivity). cbn. lia.
  - assert (K : (if ag then true else 39 <? 44) = true /\ (if ag then true else 40 <? 44) = true) by (destruct ag; split; reflexivity). destruct K as [K K'].
    unfold PLLRDY. unfold hw. cbn [RCR]. rewrite (has_true (RCR p) HSION) by exact (v_hsi _ _ _ _ V eq_refl). rewrite (has_true (RCR p) PLLON) by exact (v_on _ _ _ _ V K').
    unfold PLLSRC at 1. rewrite (v_src _ _ _ _ V K). change (true && (2 =? PLLSRC_HSI) && true) with true. rewrite flag_set by (vm_compute; reflexivity). cbn. lia.
  - assert (K : (if ag then true else 39 <? 53) = true /\ (if ag then true else 40 <? 53) = true) by (destruct ag; split; reflexivity). destruct K as [K K'].
    unfold hw. cbn [CFGR]. unfold SW at 1. rewrite (v_sw _ _ _ _ V eq_refl). rewrite (has_true (RCR p) HSION) by exact (v_hsi _ _ _ _ V eq_refl). rewrite (has_true (RCR p) PLLON) by exact (v_on _ _ _ _ V K').
    unfold PLLSRC at 1. rewrite (v_src _ _ _ _ V K). rewrite (has_true (PLLCFGR p) PLLREN) by exact (v_ren _ _ _ _ V eq_refl). cbn [andb Z.eqb Pos.eqb SW_1 PLLSRC_HSI].
    unfold SWS, SWS_1. norm. cbn. lia.
Qed.
Lemma core_run_app ticks l l' k : core_run ticks (l ++ l') k = core_run ticks l' (core_run ticks l k).
Proof. apply fold_left_app. Qed.
Lemma end_run ticks l p : fst (core_run ticks l (CEnd, p)) = CEnd.
Proof. pose proof (run_rk ticks l (CEnd, p)) as H. cbn [fst rk] in H. destruct (fst (core_run ticks l (CEnd, p))); cbn [rk] in H; try lia. reflexivity. Qed.
