(** The slave's answer to the master's request, as the master delivers it. *)
From Verif Require Import Proofs.SlaveMain.
From Verif Require Proofs.SlaveExchange.
From Verif Require Export Proofs.MasterGood.
From Verif Require Export Spec.EndToEnd.

Lemma frame_fields a : api_ok a -> api_valid a = true -> let f := request_frame a in
  byte_at f 0 = api_id a /\ byte_at f 1 = api_fc a /\ word_at f 2 = api_adr a /\ word_at f 4 = api_field a.
Proof.
  intros Hok V. cbv zeta. assert (L : (5 <= length (request_pdu a))%nat) by (apply request_pdu_len; auto).
  assert (G : forall k, (k < 6)%nat -> byte_at (request_frame a) k = byte_at (api_id a :: request_pdu a) k).
  { intros k Hk. unfold request_frame, rtu_frame, byte_at. apply app_nth1. cbn [length]. lia. }
  unfold word_at. rewrite !G by lia. clear G.
  assert (W : forall v, 256 * (v / 256) + v mod 256 = v) by (intros v; rewrite (Z.div_mod v 256) at 3 by lia; reflexivity).
  destruct a as [adr q id|adr q id|adr q id|adr q id|adr id v|adr id v|adr q id d|adr q id d]; cbn in *; rewrite !W; repeat split; auto.
Qed.
Lemma frame_count a : match a with WriteMultipleCoils _ q _ _ => byte_at (request_frame a) 6 = coil_bytes q | WriteMultipleReg _ q _ _ => byte_at (request_frame a) 6 = 2 * q | _ => True end.
Proof. destruct a; auto. Qed.
Lemma frame_bits adr q id l : 0 <= q -> q <= Z.of_nat (length l) -> req_bits (request_frame (WriteMultipleCoils adr q id (Some l))) q = firstn (Z.to_nat q) l.
Proof.
  intros H0 H. unfold req_bits. set (v := firstn (Z.to_nat q) l). assert (Lv : length v = Z.to_nat q) by (unfold v; rewrite firstn_length; lia). rewrite <- Lv.
  apply nth_ext with (d := false) (d' := false); [rewrite map_length, seq_length; auto|]. intros k Hk. rewrite map_length, seq_length in Hk.
  match goal with |- nth k (map ?g _) _ = _ => rewrite (nth_indep _ false (g 0%nat)) by (rewrite map_length, seq_length; auto); rewrite (map_nth g) end. rewrite seq_nth by auto. cbn [Nat.add].
  unfold request_frame, rtu_frame, request_pdu. fold v. cbn [be16 app].
  match goal with |- Z.testbit (byte_at (?x0 :: ?x1 :: ?x2 :: ?x3 :: ?x4 :: ?x5 :: ?x6 :: ?r) _) _ = _ => change (byte_at (x0 :: x1 :: x2 :: x3 :: x4 :: x5 :: x6 :: r) (S (S (S (S (S (S (S (k / 8))))))))) with (byte_at r (k / 8)) end.
  rewrite byte_at_app_l. 2:{ rewrite pack_bits_len. assert (k mod 8 < 8)%nat by (apply Nat.mod_upper_bound; lia). assert (E := Nat.div_mod k 8 ltac:(lia)). assert (E2 := Nat.div_mod (length v + 7) 8 ltac:(lia)). assert ((length v + 7) mod 8 < 8)%nat by (apply Nat.mod_upper_bound; lia). lia. }
  now apply unpack_bit.
Qed.
Lemma frame_regs adr q id l : 0 <= q -> q <= Z.of_nat (length l) -> req_regs (request_frame (WriteMultipleReg adr q id (Some l))) q = firstn (Z.to_nat q) l.
Proof.
  intros H0 H. unfold req_regs. set (v := firstn (Z.to_nat q) l). assert (Lv : length v = Z.to_nat q) by (unfold v; rewrite firstn_length; lia). rewrite <- Lv.
  apply nth_ext with (d := 0) (d' := 0); [rewrite map_length, seq_length; auto|]. intros k Hk. rewrite map_length, seq_length in Hk.
  match goal with |- nth k (map ?g _) _ = _ => rewrite (nth_indep _ 0 (g 0%nat)) by (rewrite map_length, seq_length; auto); rewrite (map_nth g) end. rewrite seq_nth by auto. cbn [Nat.add].
  unfold request_frame, rtu_frame, request_pdu. fold v. cbn [be16 app].
  match goal with |- word_at (?x0 :: ?x1 :: ?x2 :: ?x3 :: ?x4 :: ?x5 :: ?x6 :: ?r) _ = _ => change (word_at (x0 :: x1 :: x2 :: x3 :: x4 :: x5 :: x6 :: r) (S (S (S (S (S (S (S (2 * k))))))))) with (word_at r (2 * k)) end.
  unfold word_at. rewrite !byte_at_app_l by (rewrite pack_regs_len; lia). exact (unpack_reg v k Hk).
Qed.
Lemma coil_bytes_nat q : 0 <= q -> coil_bytes q = Z.of_nat ((Z.to_nat q + 7) / 8).
Proof. intros H. unfold coil_bytes. rewrite Nat2Z.inj_div, Nat2Z.inj_add, Z2Nat.id by lia. reflexivity. Qed.
Lemma frame_is_complete a : api_ok a -> api_valid a = true -> frame_complete (request_frame a).
Proof.
  intros Hok V. assert (L := request_pdu_len a V Hok). split; [unfold request_frame; rewrite rtu_frame_len; lia|].
  destruct (frame_fields a Hok V) as (_ & -> & _). intros H. assert (C := frame_count a). unfold request_frame in *. rewrite rtu_frame_len. destruct Hok as [Ty Ar].
  destruct a as [adr q id|adr q id|adr q id|adr q id|adr id v|adr id v|adr q id d|adr q id d]; cbn [api_fc] in H; try lia; rewrite C; destruct Ar as (l & -> & Hl); cbn [request_pdu be16 app length]; cbn in V.
  - rewrite pack_regs_len, firstn_length. lia.
  - rewrite pack_bits_len, firstn_length. rewrite Nat.min_l by lia. rewrite coil_bytes_nat by lia. lia.
Qed.

(** *** reading *)
Lemma rtu_0 id r : byte_at (rtu_frame id r) 0 = id. Proof. reflexivity. Qed.
Lemma rtu_1 id x r : byte_at (rtu_frame id (x :: r)) 1 = x. Proof. reflexivity. Qed.
Lemma rtu_2 id x z r : byte_at (rtu_frame id (x :: z :: r)) 2 = z. Proof. reflexivity. Qed.
Opaque rtu_frame.
Lemma all_some_nth {A} (o : list (option A)) l : all_some o = Some l -> forall k dflt, (k < length o)%nat -> nth_error o k = Some (Some (nth k l dflt)).
Proof.
  revert l. induction o as [|[y|] o IH]; intros l H k dflt Hk; cbn in H, Hk; try discriminate; [lia|].
  destruct (all_some o) as [l'|]; [|discriminate]. inversion H; subst. destruct k as [|k]; [reflexivity|]. cbn [nth_error nth]. apply IH; auto. lia.
Qed.
Lemma fetch_nth {A} tab (cells : list A) adr n l k dflt : fetch tab cells adr n = Some l -> (k < Z.to_nat n)%nat -> var_at tab cells (Z.to_nat adr + k) = Some (nth k l dflt).
Proof.
  intros H Hk. unfold fetch in H. apply all_some_nth with (k := k) (dflt := dflt) in H; [|rewrite map_length, seq_length; auto].
  rewrite nth_error_map, (nth_error_nth' _ 0%nat) in H by (rewrite seq_length; auto). rewrite seq_nth in H by auto. cbn in H. congruence.
Qed.
Lemma all_some_none {A} (o : list (option A)) : all_some o = None -> exists k, nth_error o k = Some None.
Proof.
  induction o as [|[y|] o IH]; cbn; intros H; try discriminate.
  - destruct (all_some o); [discriminate|]. destruct IH as [k Hk]; auto. exists (S k). auto.
  - exists 0%nat. auto.
Qed.
Lemma fetch_gap {A} tab (cells : list A) adr n : fetch tab cells adr n = None -> exists k, (k < Z.to_nat n)%nat /\ var_at tab cells (Z.to_nat adr + k) = None.
Proof.
  intros H. apply all_some_none in H as [k Hk]. rewrite nth_error_map in Hk. destruct (nth_error (seq _ _) k) eqn:E; [|discriminate].
  assert (L : (k < Z.to_nat n)%nat) by (rewrite <- (seq_length (Z.to_nat n) (Z.to_nat adr)); apply nth_error_Some; congruence). exists k. split; auto.
  rewrite (nth_error_nth' _ 0%nat), seq_nth in E by (rewrite ?seq_length; auto). inversion E; subst. cbn in Hk. congruence.
Qed.
Lemma exc_delivered a code : api_valid a = true -> delivered a (rtu_frame (api_id a) (exc (api_fc a) code)) = Some [exception_cb a code] /\ complete_answer a (rtu_frame (api_id a) (exc (api_fc a) code)).
Proof.
  intros V. unfold exc. split.
  - unfold delivered. rewrite rtu_0, rtu_1, rtu_2. destruct a; reflexivity.
  - left. rewrite rtu_1. split; [destruct a; cbn; lia|]. rewrite rtu_frame_len. cbn [length]. lia.
Qed.
Definition is_bits (a : api) : bool := match a with ReadCoils _ _ _ | ReadDiscreteInputs _ _ _ => true | _ => false end.
Lemma bits_delivered (a : api) mk tab cells l : is_read a = true -> api_ok a -> api_valid a = true -> is_bits a = true ->
  (forall adr q id f, a = ReadCoils adr q id \/ a = ReadDiscreteInputs adr q id -> normal_callbacks (api_fc a) id adr q f = bit_callbacks mk id adr q f) ->
  fetch tab cells (api_adr a) (api_qty a) = Some l -> api_adr a + api_qty a <= 65535 ->
  let f := rtu_frame (api_id a) (api_fc a :: Z.of_nat (length (pack_bits l)) :: pack_bits l) in
  complete_answer a f /\ exists cbs, delivered a f = Some cbs /\
   map Some cbs = map (fun k => option_map (mk (api_id a) (api_adr a + Z.of_nat k)) (var_at tab cells (Z.to_nat (api_adr a) + k))) (seq 0 (Z.to_nat (api_qty a))).
Proof.
  intros R Hok V Bi Nc Fe Sz. cbv zeta. assert (Ll := fetch_length _ _ _ _ _ Fe). destruct Hok as [(T1 & T2 & T3 & _) _]. unfold word in *.
  assert (Lp : Z.of_nat (length (pack_bits l)) = (api_qty a + 7) / 8). { rewrite pack_bits_len, Ll, <- coil_bytes_nat by lia. reflexivity. }
  split.
  - right. split; [apply rtu_1|]. split; [rewrite rtu_frame_len; cbn [length]; lia|]. intros _. rewrite rtu_frame_len. cbn [length]. destruct a; cbn in Bi; try discriminate; cbn [api_fc api_qty] in *;
    change (1 <=? 2) with true; change (2 <=? 2) with true; cbv iota; lia.
  - eexists. split.
    + unfold delivered. rewrite R, rtu_0, rtu_1. destruct a; cbn in Bi; try discriminate; reflexivity.
    + assert (X : forall id adr q, api_id a = id -> api_adr a = adr -> api_qty a = q -> normal_callbacks (api_fc a) id adr q (rtu_frame id (api_fc a :: Z.of_nat (length (pack_bits l)) :: pack_bits l)) =
        map (fun k => mk id ((adr + Z.of_nat k) mod 65536) (nth k l false)) (seq 0 (length l))).
      { intros id adr q <- <- <-. rewrite Nc by (destruct a; cbn in Bi; try discriminate; auto). Transparent rtu_frame. unfold rtu_frame. cbn [app].
        match goal with |- bit_callbacks _ _ _ _ (?x :: ?y :: ?z :: ?r ++ ?w) = _ => change (x :: y :: z :: r ++ w) with ([x; y; z] ++ r ++ w) end. apply bit_callbacks_pack. auto. }
      destruct a; cbn in Bi; try discriminate; cbn [api_fc api_id api_adr api_qty] in *;
      rewrite X by reflexivity; rewrite map_map, Ll; apply map_ext_in; intros k Hk; apply in_seq in Hk; rewrite (fetch_nth _ _ _ _ _ k false Fe) by lia; cbn [option_map]; rewrite Z.mod_small by lia; reflexivity.
Qed.
Definition is_regs (a : api) : bool := match a with ReadInputReg _ _ _ | ReadHoldingReg _ _ _ => true | _ => false end.
Lemma regs_delivered (a : api) mk tab cells l : is_read a = true -> api_ok a -> api_valid a = true -> is_regs a = true ->
  (forall adr q id f, a = ReadInputReg adr q id \/ a = ReadHoldingReg adr q id -> normal_callbacks (api_fc a) id adr q f = reg_callbacks mk id adr q f) ->
  fetch tab cells (api_adr a) (api_qty a) = Some l -> api_adr a + api_qty a <= 65535 ->
  let f := rtu_frame (api_id a) (api_fc a :: Z.of_nat (length (pack_regs l)) :: pack_regs l) in
  complete_answer a f /\ exists cbs, delivered a f = Some cbs /\
   map Some cbs = map (fun k => option_map (mk (api_id a) (api_adr a + Z.of_nat k)) (var_at tab cells (Z.to_nat (api_adr a) + k))) (seq 0 (Z.to_nat (api_qty a))).
Proof.
  intros R Hok V Bi Nc Fe Sz. cbv zeta. assert (Ll := fetch_length _ _ _ _ _ Fe). destruct Hok as [(T1 & T2 & T3 & _) _]. unfold word in *.
  assert (Lp : Z.of_nat (length (pack_regs l)) = 2 * api_qty a). { rewrite pack_regs_len, Ll. lia. }
  assert (Q : (126 <? api_qty a) = false) by (destruct a; cbn in Bi; try discriminate; cbn in V |- *; lia).
  split.
  - right. split; [apply rtu_1|]. split; [rewrite rtu_frame_len; cbn [length]; lia|]. intros _. rewrite rtu_frame_len. cbn [length]. destruct a; cbn in Bi; try discriminate; cbn [api_fc api_qty] in *;
    change (3 <=? 2) with false; change (4 <=? 2) with false; cbv iota; lia.
  - eexists. split.
    + unfold delivered. rewrite R, Q, rtu_0, rtu_1. destruct a; cbn in Bi; try discriminate; reflexivity.
    + assert (X : forall id adr q, api_id a = id -> api_adr a = adr -> api_qty a = q -> normal_callbacks (api_fc a) id adr q (rtu_frame id (api_fc a :: Z.of_nat (length (pack_regs l)) :: pack_regs l)) =
        map (fun k => mk id ((adr + Z.of_nat k) mod 65536) (nth k l 0)) (seq 0 (length l))).
      { intros id adr q <- <- <-. rewrite Nc by (destruct a; cbn in Bi; try discriminate; auto). Transparent rtu_frame. unfold rtu_frame. cbn [app].
        match goal with |- reg_callbacks _ _ _ _ (?x :: ?y :: ?z :: ?r ++ ?w) = _ => change (x :: y :: z :: r ++ w) with ([x; y; z] ++ r ++ w) end. apply reg_callbacks_pack. auto. }
      destruct a; cbn in Bi; try discriminate; cbn [api_fc api_id api_adr api_qty] in *;
      rewrite X by reflexivity; rewrite map_map, Ll; apply map_ext_in; intros k Hk; apply in_seq in Hk; rewrite (fetch_nth _ _ _ _ _ k 0 Fe) by lia; cbn [option_map]; rewrite Z.mod_small by lia; reflexivity.
Qed.
Lemma read_answer c d a : cfg_tables_ok c -> api_ok a -> api_valid a = true -> is_read a = true ->
  let r := server c d (request_frame a) in let f := rtu_frame (api_id a) (fst r) in
  snd r = d /\ complete_answer a f /\ exists l, delivered a f = Some l /\ read_result c d a l.
Proof.
  intros (C1 & C2 & C3 & C4) Hok V R. cbv zeta. destruct (frame_fields a Hok V) as (_ & F1 & F2 & F4). rewrite read_field in F4 by auto.
  assert (T : api_adr a + api_qty a = api_adr a + api_qty a) by auto.
  unfold server. rewrite F1, F2, F4. clear F1 F2 F4.
  assert (Ex : forall code, read_result c d a [exception_cb a code] -> complete_answer a (rtu_frame (api_id a) (exc (api_fc a) code)) /\ exists l, delivered a (rtu_frame (api_id a) (exc (api_fc a) code)) = Some l /\ read_result c d a l).
  { intros code H. destruct (exc_delivered a code V) as [H1 H2]. split; auto. eexists; split; eauto. }
  destruct a as [adr q id|adr q id|adr q id|adr q id|adr id v|adr id v|adr q id w|adr q id w]; try discriminate R; cbn [api_fc]; cbv iota zeta; cbn [fst snd]; (split; [reflexivity|]); unfold read_reply; cbn [api_valid] in V; cbn [api_adr api_qty] in *; rewrite V; cbn [negb];
  match goal with |- context [?x <? ?y] => destruct (x <? y) eqn:Sz end;
  try (apply (Ex 2); constructor 2; unfold range_ok; cbn; lia);
  match goal with |- context [option_map _ (fetch ?t ?cl ?x ?y)] => destruct (fetch t cl x y) as [l|] eqn:Fe end; cbn [option_map];
  try (apply (Ex 4); destruct (fetch_gap _ _ _ _ Fe) as (k & K1 & K2); apply (read_unregistered _ _ _ k); [unfold range_ok; cbn; lia|cbn; lia|cbn [value_cb]; rewrite K2; reflexivity]).
  - destruct (bits_delivered _ CoilRead _ _ l R Hok V eq_refl (fun _ _ _ _ _ => eq_refl) Fe) as (K1 & cbs & K2 & K3); [cbn; lia|]. split; [exact K1|]. exists cbs. split; [exact K2|]. constructor 1; [unfold range_ok; cbn; lia|exact K3].
  - destruct (bits_delivered _ DisinRead _ _ l R Hok V eq_refl (fun _ _ _ _ _ => eq_refl) Fe) as (K1 & cbs & K2 & K3); [cbn; lia|]. split; [exact K1|]. exists cbs. split; [exact K2|]. constructor 1; [unfold range_ok; cbn; lia|exact K3].
  - destruct (regs_delivered _ InregRead _ _ l R Hok V eq_refl (fun _ _ _ _ _ => eq_refl) Fe) as (K1 & cbs & K2 & K3); [cbn; lia|]. split; [exact K1|]. exists cbs. split; [exact K2|]. constructor 1; [unfold range_ok; cbn; lia|exact K3].
  - destruct (regs_delivered _ HregRead _ _ l R Hok V eq_refl (fun _ _ _ _ _ => eq_refl) Fe) as (K1 & cbs & K2 & K3); [cbn; lia|]. split; [exact K1|]. exists cbs. split; [exact K2|]. constructor 1; [unfold range_ok; cbn; lia|exact K3].
Qed.

(** *** writing *)
Lemma conf_delivered a x : is_read a = false -> api_ok a ->
  let f := rtu_frame (api_id a) ([api_fc a] ++ be16 (api_adr a) ++ be16 x) in
  complete_answer a f /\ delivered a f = Some [confirm_cb a].
Proof.
  intros R [Ty Ar]. cbv zeta. split.
  - right. split; [apply rtu_1|]. split; [rewrite rtu_frame_len; cbn [length app be16]; lia|]. intros H. rewrite R in H. discriminate.
  - cbn [app be16]. unfold delivered. rewrite R, rtu_0, rtu_1. destruct a; cbn in R; try discriminate; reflexivity.
Qed.
Lemma store_cases {A} (tab : list (option nat)) (cells : list A) k vals cells' b : ptrs_ok tab cells -> store tab cells k vals = (cells', b) ->
  if b then (forall i, (i < length vals)%nat -> registered tab (k + i) = true) /\ written tab cells cells' k vals
  else exists n, (n < length vals)%nat /\ (forall i, (i < n)%nat -> registered tab (k + i) = true) /\ registered tab (k + n) = false /\ written tab cells cells' k (firstn n vals).
Proof.
  intros P E. assert (S1 := store_ok_iff tab vals cells k). rewrite E in S1. cbn [snd] in S1. subst b.
  destruct (forallb (registered tab) (seq k (length vals))) eqn:Fa.
  - split.
    + intros i Hi. rewrite forallb_forall in Fa. apply Fa. apply in_seq. lia.
    + assert (X := store_effect tab cells k vals P Fa). rewrite E in X. exact X.
  - destruct (store_prefix tab cells k vals P) as (n & L & G1 & G2 & W). rewrite E in W. cbn [fst] in W. exists n.
    assert (L' : (n < length vals)%nat).
    { destruct (Nat.eq_dec n (length vals)) as [->|N]; [|lia]. exfalso. assert (Y : forallb (registered tab) (seq k (length vals)) = true); [|congruence].
      apply forallb_forall. intros x Hx. apply in_seq in Hx. replace x with (k + (x - k))%nat by lia. apply G1. lia. }
    auto.
Qed.
Lemma write_answer c d a : cfg_tables_ok c -> data_ok c d -> api_ok a -> api_valid a = true -> is_read a = false ->
  let r := server c d (request_frame a) in let f := rtu_frame (api_id a) (fst r) in
  complete_answer a f /\ exists l, delivered a f = Some l /\ write_result c d a (snd r) l.
Proof.
  intros (C1 & C2 & C3 & C4) (D1 & D2 & D3 & D4 & P1 & P2 & P3 & P4 & W) Hok V R. cbv zeta. destruct (frame_fields a Hok V) as (_ & F1 & F2 & F4).
  assert (Fc := frame_count a).
  assert (Ex : forall code d', write_result c d a d' [exception_cb a code] -> complete_answer a (rtu_frame (api_id a) (exc (api_fc a) code)) /\ exists l, delivered a (rtu_frame (api_id a) (exc (api_fc a) code)) = Some l /\ write_result c d a d' l).
  { intros code d' H. destruct (exc_delivered a code V) as [H1 H2]. split; auto. eexists; split; eauto. }
  assert (Nz : forall d' x, write_result c d a d' [confirm_cb a] -> complete_answer a (rtu_frame (api_id a) ([api_fc a] ++ be16 (api_adr a) ++ be16 x)) /\ exists l, delivered a (rtu_frame (api_id a) ([api_fc a] ++ be16 (api_adr a) ++ be16 x)) = Some l /\ write_result c d a d' l).
  { intros d' x H. destruct (conf_delivered a x R Hok) as [H1 H2]. split; auto. eexists; split; eauto. }
  destruct a as [adr q id|adr q id|adr q id|adr q id|adr id v|adr id v|adr q id w|adr q id w]; try discriminate R.
  - unfold server. rewrite F1, F2, F4. cbn [api_fc api_adr api_field]. cbv iota zeta.
    replace (negb _) with false by (destruct v; reflexivity). destruct (c_coils c <=? adr) eqn:Sz.
    { apply (Ex 2). constructor 2. unfold range_ok. cbn. lia. }
    replace ((if v then 65280 else 0) =? 65280) with v by (destruct v; reflexivity).
    destruct (store (t_coils d) (v_bits d) (Z.to_nat adr) [v]) as [cells b] eqn:St. apply store_cases in St; auto. destruct b; cbn [fst snd].
    + destruct St as [G We]. apply Nz. constructor 1; [unfold range_ok; cbn; lia|exact G|]. exists cells. auto.
    + destruct St as (n & Ln & G1 & G2 & We). apply (Ex 4). cbn [length] in Ln. assert (n = 0%nat) by lia. subst n. apply (write_prefix _ _ _ 0); [unfold range_ok; cbn; lia|cbn; lia|lia|unfold item_registered; cbn [api_fc api_adr table_of existsb]; intros X; change (table_of 5 d) with (t_coils d) in X; congruence|]. exists cells. auto.
  - unfold server. rewrite F1, F2, F4. cbn [api_fc api_adr api_field]. cbv iota zeta.
    destruct (c_hreg c <=? adr) eqn:Sz.
    { apply (Ex 2). constructor 2. unfold range_ok. cbn. lia. }
    destruct (store (t_hreg d) (v_regs d) (Z.to_nat adr) [v]) as [cells b] eqn:St. apply store_cases in St; auto. destruct b; cbn [fst snd].
    + destruct St as [G We]. apply Nz. constructor 1; [unfold range_ok; cbn; lia|exact G|]. exists cells. auto.
    + destruct St as (n & Ln & G1 & G2 & We). apply (Ex 4). cbn [length] in Ln. assert (n = 0%nat) by lia. subst n. apply (write_prefix _ _ _ 0); [unfold range_ok; cbn; lia|cbn; lia|lia|unfold item_registered; intros X; change (table_of _ d) with (t_hreg d) in X; cbn [api_adr] in X; congruence|]. exists cells. auto.
  - destruct Hok as [(T1 & T2 & T3 & T4) (l & -> & Hl)]. cbn in T3. unfold word in T3. assert (Rb := frame_regs adr q id l ltac:(lia) Hl).
    unfold server. rewrite F1, F2, F4, Fc. cbn [api_fc api_adr api_field]. cbv iota zeta. cbn [api_valid] in V. cbn [api_qty]. rewrite V. cbn [negb]. rewrite Rb. clear Rb F1 F2 F4 Fc.
    destruct (c_hreg c <? adr + q) eqn:Sz.
    { apply (Ex 2). constructor 2. unfold range_ok. cbn. lia. }
    rewrite Z.eqb_refl. cbn [negb]. assert (Lv : length (firstn (Z.to_nat q) l) = Z.to_nat q) by (rewrite firstn_length; lia).
    destruct (store (t_hreg d) (v_regs d) (Z.to_nat adr) (firstn (Z.to_nat q) l)) as [cells b] eqn:St. apply store_cases in St; auto. rewrite Lv in St. destruct b; cbn [fst snd].
    + destruct St as [G We]. apply Nz. constructor 1; [unfold range_ok; cbn; lia|exact G|]. exists cells. split; auto. cbn [api_regs api_qty]. rewrite <- Lv at 1. rewrite firstn_all. auto.
    + destruct St as (n & Ln & G1 & G2 & We). apply (Ex 4). apply (write_prefix _ _ _ n); [unfold range_ok; cbn; lia|exact Ln|exact G1|unfold item_registered; intros X; change (table_of _ d) with (t_hreg d) in X; cbn [api_adr] in X; congruence|]. exists cells. auto.
  - destruct Hok as [(T1 & T2 & T3 & T4) (l & -> & Hl)]. cbn in T3. unfold word in T3. assert (Rb := frame_bits adr q id l ltac:(lia) Hl).
    unfold server. rewrite F1, F2, F4, Fc. cbn [api_fc api_adr api_field]. cbv iota zeta. cbn [api_valid] in V. cbn [api_qty]. rewrite V. cbn [negb]. rewrite Rb. clear Rb F1 F2 F4 Fc.
    destruct (c_coils c <? adr + q) eqn:Sz.
    { apply (Ex 2). constructor 2. unfold range_ok. cbn. lia. }
    rewrite Z.eqb_refl. cbn [negb]. assert (Lv : length (firstn (Z.to_nat q) l) = Z.to_nat q) by (rewrite firstn_length; lia).
    destruct (store (t_coils d) (v_bits d) (Z.to_nat adr) (firstn (Z.to_nat q) l)) as [cells b] eqn:St. apply store_cases in St; auto. rewrite Lv in St. destruct b; cbn [fst snd].
    + destruct St as [G We]. apply Nz. constructor 1; [unfold range_ok; cbn; lia|exact G|]. exists cells. split; auto. cbn [api_bits api_qty]. rewrite <- Lv at 1. rewrite firstn_all. auto.
    + destruct St as (n & Ln & G1 & G2 & We). apply (Ex 4). apply (write_prefix _ _ _ n); [unfold range_ok; cbn; lia|exact Ln|exact G1|unfold item_registered; intros X; change (table_of _ d) with (t_coils d) in X; cbn [api_adr] in X; congruence|]. exists cells. auto.
Qed.

(** *** both ends *)
Lemma current_ok c t s a : Minv c t M649 s -> current t = Some a -> api_ok a /\ api_valid a = true.
Proof.
  intros I Cu. destruct I as (free & pend & apis & eps & v & [K B Rq Ac Vi Ep Pa Fi Cn]). unfold current in Cu. rewrite Ac, Fi in Cu. unfold fly in Rq. cbn [fly_line app] in Rq.
  rewrite nth_error_app2, map_length, Nat.sub_diag in Cu by (rewrite map_length; lia). destruct apis as [|a' apis]; [discriminate|]. cbn in Cu. inversion Cu; subst a'.
  inversion Rq as [|? ? ? ? (m & _ & _ & H1 & H2)]; subst. auto.
Qed.
Lemma request_frame_ok a : api_ok a -> api_valid a = true -> bytes (request_frame a) /\ (length (request_frame a) < 256)%nat /\ intact (api_id a) (request_frame a).
Proof.
  intros Hok V. assert (L := request_pdu_len a V Hok). split; [apply rtu_frame_bytes; [apply Hok|apply request_pdu_bytes; auto]|]. split; [unfold request_frame; rewrite rtu_frame_len; lia|apply rtu_frame_intact].
Qed.
Section Both.
Context (c : cfg) (Hc : cfg_master_ok c) (cs : cfg) (Hcs : cfg_tables_ok cs) (a : api) (Hok : api_ok a) (V : api_valid a = true).
Lemma send_frame y F W t k : try_timed (u32 (c_timeout c)) y -> reqs_safe (y_send y) -> ready c a F W 0 t k -> mloc k = M649 ->
  exists k1 o1, m_run c (y_send y) k = Ok (k1, o1) /\ m_sent o1 = [request_frame a].
Proof.
  intros Y HS [I Q] L. destruct Y as [Y1 Y2 _ _ _].
  destruct (send_phase c a F W (CLEARED, CLEARED, CLEARED, 0) Hc (y_send y) t k) as (k1 & o1 & R1 & I1 & H1 & L1); auto.
  exists k1, o1. split; auto. destruct H1 as [_ H1]. rewrite L1 in H1. destruct H1 as [(_ & _ & B) _].
  destruct Q as [_ Q]. rewrite L in Q. destruct Q as (_ & _ & <-). unfold sent in B. rewrite visible_app in B. apply app_inv_head in B. rewrite sent_visible, B. reflexivity.
Qed.
Lemma both_phase y ss dn F W t k q : try_timed (u32 (c_timeout c)) y -> reqs_safe (try_sched y) -> ready c a F W 0 t k -> mloc k = M649 ->
  slave_rests cs q -> s_id (sc_s q) = api_id a -> error_free c k y cs q ss -> SlaveTraffic.completion dn ->
  let r := server cs (s_data (sc_s q)) (request_frame a) in
  exists s1 s2 k' o l q1 o1 q2 o2, try_sched y = s1 ++ s2 /\ (forall e, In e (m_events s2) -> sev e) /\ m_run c s1 k = Ok (k', o) /\ done c F (sent a W) (t ++ o) k' l /\ no_leftovers k' /\
    s_run cs ss q = Ok (q1, o1) /\ s_data (sc_s q1) = snd r /\ SlaveTrace.sent o1 = [rtu_frame (api_id a) (fst r)] /\
    s_run cs dn q1 = Ok (q2, o2) /\ s_data (sc_s q2) = snd r /\ s_id (sc_s q2) = api_id a /\ slave_rests cs q2 /\
    (if is_read a then snd r = s_data (sc_s q) /\ read_result cs (s_data (sc_s q)) a l else write_result cs (s_data (sc_s q)) a (snd r) l).
Proof.
  intros Y HS Rd L Rq Id Ef Cd r. destruct Ef as [Ts Tm Ne]. assert (HS' := HS). unfold try_sched in HS'. apply reqs_app in HS' as [HS1 _].
  destruct (send_frame y F W t k Y HS1 Rd L) as (k1 & m1 & R1 & Sm). specialize (Ts _ _ R1). rewrite Sm in Ts. cbn [concat] in Ts. rewrite app_nil_r in Ts.
  destruct (request_frame_ok a Hok V) as (Fb & Fl & Fi). rewrite <- Id in Fi.
  destruct (SlaveExchange.exchange cs q (request_frame a) ss dn Hcs Rq Fb Fl Fi (frame_is_complete a Hok V) Ts Cd) as (q1 & o1 & q2 & o2 & E1 & S1 & D1 & E2 & S2 & D2 & I2 & Rq2).
  fold r in S1, D1. specialize (Tm _ _ E1). rewrite S1, Id in Tm. cbn [concat] in Tm. rewrite app_nil_r in Tm.
  assert (X : complete_answer a (y_frame y) /\ exists l, delivered a (y_frame y) = Some l /\ (if is_read a then snd r = s_data (sc_s q) /\ read_result cs (s_data (sc_s q)) a l else write_result cs (s_data (sc_s q)) a (snd r) l)).
  { rewrite Tm. destruct (is_read a) eqn:Re.
    - destruct (read_answer cs (s_data (sc_s q)) a Hcs Hok V Re) as (A1 & A2 & l & A3 & A4). split; [exact A2|]. exists l. split; [exact A3|]. split; [exact A1|exact A4].
    - destruct (write_answer cs (s_data (sc_s q)) a Hcs) as (A2 & l & A3 & A4); auto. { apply Rq. } split; [exact A2|]. exists l. split; [exact A3|exact A4]. }
  destruct X as (Ca & l & Dl & Rs).
  assert (Ga : good_answer a y).
  { split; [|split; [|split; auto]].
    - split; rewrite Tm; [reflexivity|]. rewrite rtu_frame_len. assert (Z := server_pdu_len cs (s_data (sc_s q)) (request_frame a)). fold r in Z. lia.
    - rewrite Tm. apply rtu_frame_intact. }
  destruct (good_phase c Hc a y F W 0 [] t k Y Ga) as (s1 & s2 & k' & o & l' & Es & Se & R & Dl' & Dn & Nl); auto; [intros e []|]. assert (l' = l) by congruence. subst l'.
  exists s1, s2, k', o, l, q1, o1, q2, o2. split; [exact Es|]. split; auto. split; auto. split; auto. split; auto. split; auto. split; auto. split; [rewrite <- Id; auto|]. split; auto. split; [congruence|]. split; [congruence|]. split; auto.
Qed.
End Both.
