(** Consequences of parse_server: reads, writes, exceptions, registration. *)
From Verif Require Export Proofs.ServerMain Spec.Refusal Proofs.Unpack Model.Slave.

Lemma holds_answer r pdu : holds r pdu -> answer_is r pdu.
Proof.
  intros (x & rest & -> & L & B). unfold answer_is. cbn [rr_ptr rr_buf rr_len]. repeat split; auto.
  exists x. replace (Z.to_nat (1 + Z.of_nat (length pdu))) with (length (x :: pdu)) by (cbn [length]; lia).
  change (x :: pdu ++ rest) with ((x :: pdu) ++ rest). apply firstn_app_exact. reflexivity.
Qed.

Lemma supported_cases fc : supported fc = true -> fc = 1 \/ fc = 2 \/ fc = 3 \/ fc = 4 \/ fc = 5 \/ fc = 6 \/ fc = 15 \/ fc = 16.
Proof. unfold supported. cbn [existsb]. lia. Qed.
Lemma server_unsupported c d b : supported (byte_at b 1) = false -> server c d b = (exc (byte_at b 1) 1, d).
Proof.
  unfold supported, server. cbn [existsb]. set (fc := byte_at b 1). intros H.
  destruct fc as [|p|p]; auto. do 5 (try (destruct p as [p|p|]; try reflexivity; try (exfalso; cbn in H; discriminate))).
Qed.

Lemma fetch_registered {A} tab (cells : list A) adr n : ptrs_ok tab cells ->
  (exists l, fetch tab cells adr n = Some l) <-> unregistered tab adr n = false.
Proof.
  intros P. unfold fetch, unregistered. rewrite negb_false_iff.
  generalize (seq (Z.to_nat adr) (Z.to_nat n)). intros ks. induction ks as [|k ks IH]; cbn [map all_some forallb].
  - split; eauto.
  - rewrite andb_true_iff, <- IH. unfold registered, var_at. destruct (nth_error tab k) as [[x|]|] eqn:E.
    + assert (L := P _ _ E). destruct (nth_error cells x) eqn:F; [|apply nth_error_None in F; lia].
      split.
      * intros [l H]. split; auto. destruct (all_some _); [eauto|discriminate].
      * intros [_ [l H]]. rewrite H. cbn. eauto.
    + split; [intros [l H]; discriminate|intros [H _]; discriminate].
    + split; [intros [l H]; discriminate|intros [H _]; discriminate].
Qed.
Lemma fetch_none {A} tab (cells : list A) adr n : ptrs_ok tab cells ->
  fetch tab cells adr n = None <-> unregistered tab adr n = true.
Proof.
  intros P. assert (H := fetch_registered tab cells adr n P). destruct (fetch tab cells adr n) as [l|], (unregistered tab adr n); split; try discriminate; auto.
  - intros _. destruct H as [H _]. specialize (H ltac:(eauto)). discriminate.
  - intros _. destruct H as [_ H]. destruct H; auto. discriminate.
Qed.

(** store succeeds exactly when all items are registered *)
Lemma store_ok_iff {A} tab vals : forall (cells : list A) k,
  snd (store tab cells k vals) = forallb (registered tab) (seq k (length vals)).
Proof.
  induction vals as [|v vs IH]; intros cells k; cbn [store length seq forallb]; auto.
  unfold registered at 1. destruct (nth_error tab k) as [[x|]|]; auto. rewrite IH. reflexivity.
Qed.

(** the final value of every variable *)
Lemma put_same {A} (l : list A) i v : (i < length l)%nat -> nth_error (put l i v) i = Some v.
Proof. intros. rewrite put_upd. apply upd_nth_error_same. auto. Qed.
Lemma put_other {A} (l : list A) i j v : i <> j -> nth_error (put l i v) j = nth_error l j.
Proof. intros. rewrite put_upd. apply upd_nth_error_other. auto. Qed.

Lemma store_untouched {A} tab vals x : forall (cells : list A) k,
  (forall i, (i < length vals)%nat -> nth_error tab (k + i) <> Some (Some x)) ->
  nth_error (fst (store tab cells k vals)) x = nth_error cells x.
Proof.
  induction vals as [|v vs IH]; intros cells k H; cbn [store]; auto.
  assert (H0 := H 0%nat ltac:(cbn; lia)). rewrite Nat.add_0_r in H0.
  destruct (nth_error tab k) as [[y|]|] eqn:E; auto.
  rewrite IH.
  - apply put_other. congruence.
  - intros i Hi. specialize (H (S i) ltac:(cbn; lia)). replace (S k + i)%nat with (k + S i)%nat by lia. exact H.
Qed.
Lemma store_last {A} tab vals x : forall (cells : list A) k i v, ptrs_ok tab cells ->
  snd (store tab cells k vals) = true ->
  nth_error vals i = Some v -> nth_error tab (k + i) = Some (Some x) ->
  (forall j, (i < j < length vals)%nat -> nth_error tab (k + j) <> Some (Some x)) ->
  nth_error (fst (store tab cells k vals)) x = Some v.
Proof.
  induction vals as [|w vs IH]; intros cells k i v P Hs Hv Ht Hl; [destruct i; discriminate|].
  cbn [store] in *. destruct (nth_error tab k) as [[y|]|] eqn:E; try discriminate.
  destruct i as [|i].
  - rewrite Nat.add_0_r, E in Ht. inversion Ht; subst y. cbn in Hv. inversion Hv; subst w.
    rewrite store_untouched.
    + apply put_same. eapply P; eauto.
    + intros j Hj. specialize (Hl (S j) ltac:(cbn; lia)). replace (S k + j)%nat with (k + S j)%nat by lia. exact Hl.
  - apply IH with (i := i); auto.
    + apply ptrs_put; auto.
    + replace (S k + i)%nat with (k + S i)%nat by lia. exact Ht.
    + intros j Hj. specialize (Hl (S j) ltac:(cbn; lia)). replace (S k + j)%nat with (k + S j)%nat by lia. exact Hl.
Qed.

(** C33 *)
Lemma c33_bits c d m fc adr qty l : cfg_tables_ok c -> data_ok c d -> msg_ok m ->
  let b := rr_buf (m_req m) in
  byte_at b 1 = fc -> fc = 1 \/ fc = 2 -> word_at b 2 = adr -> word_at b 4 = qty ->
  1 <= qty <= 2000 -> adr + qty <= size_of fc c -> fetch (table_of fc d) (v_bits d) adr qty = Some l ->
  exists st r, parse_master_request_and_prepare_resp c m d = Ok (st, mk_msg (m_req m) r, d) /\
    answer_is r (fc :: Z.of_nat (length (pack_bits l)) :: pack_bits l).
Proof.
  intros Hc Hd Hm b Hf Hfc Ha Hq R1 R2 F. destruct (parse_server c d m Hc Hd Hm) as (st & r & E & H). fold b in E, H.
  apply holds_answer in H.
  assert (S : server c d b = (fc :: Z.of_nat (length (pack_bits l)) :: pack_bits l, d)).
  { unfold server. rewrite Hf, Ha, Hq. destruct Hfc as [->| ->]; cbn in R2, F; rewrite F; unfold read_reply; cbn [option_map];
    destruct (negb ((1 <=? qty) && (qty <=? 2000))) eqn:X1; try lia; [destruct (c_coils c <? adr + qty) eqn:X2|destruct (c_din c <? adr + qty) eqn:X2]; try lia; reflexivity. }
  rewrite S in E, H. cbn [fst snd] in E, H. eauto.
Qed.
Lemma c33_regs c d m fc adr qty l : cfg_tables_ok c -> data_ok c d -> msg_ok m ->
  let b := rr_buf (m_req m) in
  byte_at b 1 = fc -> fc = 3 \/ fc = 4 -> word_at b 2 = adr -> word_at b 4 = qty ->
  1 <= qty <= 125 -> adr + qty <= size_of fc c -> fetch (table_of fc d) (v_regs d) adr qty = Some l ->
  exists st r, parse_master_request_and_prepare_resp c m d = Ok (st, mk_msg (m_req m) r, d) /\
    answer_is r (fc :: Z.of_nat (length (pack_regs l)) :: pack_regs l).
Proof.
  intros Hc Hd Hm b Hf Hfc Ha Hq R1 R2 F. destruct (parse_server c d m Hc Hd Hm) as (st & r & E & H). fold b in E, H.
  apply holds_answer in H.
  assert (S : server c d b = (fc :: Z.of_nat (length (pack_regs l)) :: pack_regs l, d)).
  { unfold server. rewrite Hf, Ha, Hq. destruct Hfc as [->| ->]; cbn in R2, F; rewrite F; unfold read_reply; cbn [option_map];
    destruct (negb ((1 <=? qty) && (qty <=? 125))) eqn:X1; try lia; [destruct (c_hreg c <? adr + qty) eqn:X2|destruct (c_ireg c <? adr + qty) eqn:X2]; try lia; reflexivity. }
  rewrite S in E, H. cbn [fst snd] in E, H. eauto.
Qed.

(** "exactly the addressed variables take the values, in order": how a list of cells changes *)
Lemma store_effect {A} tab (cells : list A) k vals : ptrs_ok tab cells ->
  forallb (registered tab) (seq k (length vals)) = true ->
  let cells' := fst (store tab cells k vals) in
  length cells' = length cells /\
  (forall x, (forall i, (i < length vals)%nat -> nth_error tab (k + i) <> Some (Some x)) -> nth_error cells' x = nth_error cells x) /\
  (forall x i v, nth_error vals i = Some v -> nth_error tab (k + i) = Some (Some x) ->
     (forall j, (i < j < length vals)%nat -> nth_error tab (k + j) <> Some (Some x)) -> nth_error cells' x = Some v).
Proof.
  intros P R cells'. split; [apply store_length|]. split.
  - intros x H. apply store_untouched. exact H.
  - intros x i v H1 H2 H3. eapply store_last; eauto. rewrite store_ok_iff. exact R.
Qed.

Lemma req_bits_len b n : length (req_bits b n) = Z.to_nat n.
Proof. unfold req_bits. now rewrite map_length, seq_length. Qed.
Lemma req_regs_len b n : length (req_regs b n) = Z.to_nat n.
Proof. unfold req_regs. now rewrite map_length, seq_length. Qed.

(** the refusal rule *)
Lemma server_refusal c d b : cfg_tables_ok c -> data_ok c d -> 0 <= word_at b 2 -> 0 <= word_at b 4 < 65536 ->
  match refusal c d b with
  | Some code => fst (server c d b) = exc (byte_at b 1) code /\ (code <> 4 -> snd (server c d b) = d)
  | None => exists t, fst (server c d b) = byte_at b 1 :: t
  end.
Proof.
  intros Hc Hd Ha Hq. unfold refusal. destruct (supported (byte_at b 1)) eqn:Hs; cbn [negb].
  2:{ rewrite server_unsupported by auto. cbn. auto. }
  destruct Hd as (D1 & D2 & D3 & D4 & P1 & P2 & P3 & P4 & W).
  apply supported_cases in Hs. unfold server. set (adr := word_at b 2) in *. set (qty := word_at b 4) in *.
  destruct Hs as [->|[->|[->|[->|[->|[->|[->| ->]]]]]]]; cbn [value_bad size_of count_bad table_of item_count existsb Z.eqb Pos.eqb orb].
  1-4: unfold read_reply.
  - replace (negb ((1 <=? qty) && (qty <=? 2000))) with ((qty <? 1) || (2000 <? qty)) by lia.
    destruct ((qty <? 1) || (2000 <? qty)); cbn [fst snd]; auto.
    destruct (c_coils c <? adr + qty); cbn [fst snd]; auto.
    destruct (unregistered (t_coils d) adr qty) eqn:U.
    + apply (fetch_none _ _ _ _ P1) in U. rewrite U. cbn. split; auto; intros; congruence.
    + apply (fetch_registered _ _ _ _ P1) in U. destruct U as [l ->]. cbn. eauto.
  - replace (negb ((1 <=? qty) && (qty <=? 2000))) with ((qty <? 1) || (2000 <? qty)) by lia.
    destruct ((qty <? 1) || (2000 <? qty)); cbn [fst snd]; auto.
    destruct (c_din c <? adr + qty); cbn [fst snd]; auto.
    destruct (unregistered (t_din d) adr qty) eqn:U.
    + apply (fetch_none _ _ _ _ P2) in U. rewrite U. cbn. split; auto; intros; congruence.
    + apply (fetch_registered _ _ _ _ P2) in U. destruct U as [l ->]. cbn. eauto.
  - replace (negb ((1 <=? qty) && (qty <=? 125))) with ((qty <? 1) || (125 <? qty)) by lia.
    destruct ((qty <? 1) || (125 <? qty)); cbn [fst snd]; auto.
    destruct (c_hreg c <? adr + qty); cbn [fst snd]; auto.
    destruct (unregistered (t_hreg d) adr qty) eqn:U.
    + apply (fetch_none _ _ _ _ P4) in U. rewrite U. cbn. split; auto; intros; congruence.
    + apply (fetch_registered _ _ _ _ P4) in U. destruct U as [l ->]. cbn. eauto.
  - replace (negb ((1 <=? qty) && (qty <=? 125))) with ((qty <? 1) || (125 <? qty)) by lia.
    destruct ((qty <? 1) || (125 <? qty)); cbn [fst snd]; auto.
    destruct (c_ireg c <? adr + qty); cbn [fst snd]; auto.
    destruct (unregistered (t_ireg d) adr qty) eqn:U.
    + apply (fetch_none _ _ _ _ P3) in U. rewrite U. cbn. split; auto; intros; congruence.
    + apply (fetch_registered _ _ _ _ P3) in U. destruct U as [l ->]. cbn. eauto.
  - rewrite <- negb_orb. destruct (negb ((qty =? 0) || (qty =? 65280))); cbn [fst snd]; auto.
    replace (c_coils c <=? adr) with (c_coils c <? adr + 1) by lia.
    destruct (c_coils c <? adr + 1); cbn [fst snd]; auto.
    assert (S := store_ok_iff (t_coils d) [qty =? 65280] (v_bits d) (Z.to_nat adr)). cbn [length] in S.
    unfold unregistered. change (Z.to_nat 1) with 1%nat. rewrite <- S.
    destruct (store (t_coils d) (v_bits d) (Z.to_nat adr) [qty =? 65280]) as [cells [|]]; cbn; [eauto|split; auto; congruence].
  - replace (c_hreg c <=? adr) with (c_hreg c <? adr + 1) by lia.
    destruct (c_hreg c <? adr + 1); cbn [fst snd]; auto.
    assert (S := store_ok_iff (t_hreg d) [qty] (v_regs d) (Z.to_nat adr)). cbn [length] in S.
    unfold unregistered. change (Z.to_nat 1) with 1%nat. rewrite <- S.
    destruct (store (t_hreg d) (v_regs d) (Z.to_nat adr) [qty]) as [cells [|]]; cbn; [eauto|split; auto; congruence].
  - replace (negb ((1 <=? qty) && (qty <=? 1968))) with ((qty <? 1) || (1968 <? qty)) by lia.
    destruct ((qty <? 1) || (1968 <? qty)); cbn [fst snd]; auto.
    destruct (c_coils c <? adr + qty); cbn [fst snd]; auto.
    destruct (negb (byte_at b 6 =? coil_bytes qty)); cbn [fst snd]; auto.
    assert (S := store_ok_iff (t_coils d) (req_bits b qty) (v_bits d) (Z.to_nat adr)). rewrite req_bits_len in S.
    unfold unregistered. rewrite <- S.
    destruct (store (t_coils d) (v_bits d) (Z.to_nat adr) (req_bits b qty)) as [cells [|]]; cbn; [eauto|split; auto; congruence].
  - replace (negb ((1 <=? qty) && (qty <=? 123))) with ((qty <? 1) || (123 <? qty)) by lia.
    destruct ((qty <? 1) || (123 <? qty)); cbn [fst snd]; auto.
    destruct (c_hreg c <? adr + qty); cbn [fst snd]; auto.
    destruct (negb (byte_at b 6 =? 2 * qty)); cbn [fst snd]; auto.
    assert (S := store_ok_iff (t_hreg d) (req_regs b qty) (v_regs d) (Z.to_nat adr)). rewrite req_regs_len in S.
    unfold unregistered. rewrite <- S.
    destruct (store (t_hreg d) (v_regs d) (Z.to_nat adr) (req_regs b qty)) as [cells [|]]; cbn; [eauto|split; auto; congruence].
Qed.

Lemma word_bounds b i : bytes b -> 0 <= word_at b i < 65536.
Proof. intros B. unfold word_at, byte_at. assert (B1 := bytes_nth b i B). assert (B2 := bytes_nth b (S i) B). unfold byte in *. lia. Qed.

Lemma c35 c d m : cfg_tables_ok c -> data_ok c d -> msg_ok m ->
  let b := rr_buf (m_req m) in
  exists st r d', parse_master_request_and_prepare_resp c m d = Ok (st, mk_msg (m_req m) r, d') /\
  match refusal c d b with
  | Some code => answer_is r [if byte_at b 1 <? 128 then byte_at b 1 + 128 else byte_at b 1; code] /\ (code <> 4 -> d' = d)
  | None => exists t, answer_is r (byte_at b 1 :: t)
  end.
Proof.
  intros Hc Hd Hm b. destruct (parse_server c d m Hc Hd Hm) as (st & r & E & H). fold b in E, H.
  assert (B : bytes b) by apply Hm.
  apply holds_answer in H. exists st, r, (snd (server c d b)). split; auto.
  assert (R := server_refusal c d b Hc Hd ltac:(apply word_bounds; auto) (word_bounds b 4 B)).
  destruct (refusal c d b) as [code|].
  - destruct R as [R1 R2]. rewrite R1 in H. split; auto.
  - destruct R as [t R]. rewrite R in H. eauto.
Qed.

(** C34 *)
Lemma c34_bits c d m fc adr qty vals : cfg_tables_ok c -> data_ok c d -> msg_ok m ->
  let b := rr_buf (m_req m) in
  byte_at b 1 = fc -> word_at b 2 = adr -> word_at b 4 = qty ->
  (fc = 5 /\ vals = [qty =? 0xFF00]) \/ (fc = 15 /\ vals = req_bits b qty) ->
  refusal c d b = None ->
  exists st r cells', parse_master_request_and_prepare_resp c m d = Ok (st, mk_msg (m_req m) r, set_bits d cells') /\
    answer_is r ([fc] ++ be16 adr ++ be16 qty) /\ written (t_coils d) (v_bits d) cells' (Z.to_nat adr) vals.
Proof.
  intros Hc Hd Hm b Hf Ha Hq Hv Href. destruct (parse_server c d m Hc Hd Hm) as (st & r & E & H). fold b in E, H.
  apply holds_answer in H. destruct Hd as (D1 & D2 & D3 & D4 & P1 & P2 & P3 & P4 & W).
  unfold refusal in Href. rewrite Hf, Ha, Hq in Href.
  assert (R : snd (store (t_coils d) (v_bits d) (Z.to_nat adr) vals) = true /\
     server c d b = ([fc] ++ be16 adr ++ be16 qty, set_bits d (fst (store (t_coils d) (v_bits d) (Z.to_nat adr) vals)))).
  { unfold server. rewrite Hf, Ha, Hq. destruct Hv as [[-> ->]|[-> ->]];
    cbn [supported value_bad size_of count_bad table_of item_count existsb Z.eqb Pos.eqb orb negb] in Href.
    - rewrite <- negb_orb in Href. destruct (negb ((qty =? 0) || (qty =? 65280))) eqn:X1; [discriminate|].
      destruct (c_coils c <? adr + 1) eqn:X2; [discriminate|]. destruct (c_coils c <=? adr) eqn:X3; [lia|].
      assert (S := store_ok_iff (t_coils d) [qty =? 65280] (v_bits d) (Z.to_nat adr)). cbn [length] in S.
      unfold unregistered in Href. change (Z.to_nat 1) with 1%nat in Href. rewrite <- S in Href.
      destruct (store (t_coils d) (v_bits d) (Z.to_nat adr) [qty =? 65280]) as [cells [|]]; cbn in *; [auto|discriminate].
    - replace (negb ((1 <=? qty) && (qty <=? 1968))) with ((qty <? 1) || (1968 <? qty)) by lia.
      destruct ((qty <? 1) || (1968 <? qty)) eqn:X1; [cbn in Href; discriminate|].
      destruct (c_coils c <? adr + qty) eqn:X2; [discriminate|].
      destruct (negb (byte_at b 6 =? coil_bytes qty)) eqn:X3; [discriminate|].
      assert (S := store_ok_iff (t_coils d) (req_bits b qty) (v_bits d) (Z.to_nat adr)). rewrite req_bits_len in S.
      unfold unregistered in Href. rewrite <- S in Href.
      destruct (store (t_coils d) (v_bits d) (Z.to_nat adr) (req_bits b qty)) as [cells [|]]; cbn in *; [auto|discriminate]. }
  destruct R as [R1 R2]. rewrite R2 in E, H. cbn [fst snd] in E, H. exists st, r, (fst (store (t_coils d) (v_bits d) (Z.to_nat adr) vals)).
  split; auto. split; auto. apply store_effect; auto. rewrite store_ok_iff in R1. exact R1.
Qed.
Lemma c34_regs c d m fc adr qty vals : cfg_tables_ok c -> data_ok c d -> msg_ok m ->
  let b := rr_buf (m_req m) in
  byte_at b 1 = fc -> word_at b 2 = adr -> word_at b 4 = qty ->
  (fc = 6 /\ vals = [qty]) \/ (fc = 16 /\ vals = req_regs b qty) ->
  refusal c d b = None ->
  exists st r cells', parse_master_request_and_prepare_resp c m d = Ok (st, mk_msg (m_req m) r, set_regs d cells') /\
    answer_is r ([fc] ++ be16 adr ++ be16 qty) /\ written (t_hreg d) (v_regs d) cells' (Z.to_nat adr) vals.
Proof.
  intros Hc Hd Hm b Hf Ha Hq Hv Href. destruct (parse_server c d m Hc Hd Hm) as (st & r & E & H). fold b in E, H.
  apply holds_answer in H. destruct Hd as (D1 & D2 & D3 & D4 & P1 & P2 & P3 & P4 & W).
  unfold refusal in Href. rewrite Hf, Ha, Hq in Href.
  assert (R : snd (store (t_hreg d) (v_regs d) (Z.to_nat adr) vals) = true /\
     server c d b = ([fc] ++ be16 adr ++ be16 qty, set_regs d (fst (store (t_hreg d) (v_regs d) (Z.to_nat adr) vals)))).
  { unfold server. rewrite Hf, Ha, Hq. destruct Hv as [[-> ->]|[-> ->]];
    cbn [supported value_bad size_of count_bad table_of item_count existsb Z.eqb Pos.eqb orb negb] in Href.
    - destruct (c_hreg c <? adr + 1) eqn:X2; [discriminate|]. destruct (c_hreg c <=? adr) eqn:X3; [lia|].
      assert (S := store_ok_iff (t_hreg d) [qty] (v_regs d) (Z.to_nat adr)). cbn [length] in S.
      unfold unregistered in Href. change (Z.to_nat 1) with 1%nat in Href. rewrite <- S in Href.
      destruct (store (t_hreg d) (v_regs d) (Z.to_nat adr) [qty]) as [cells [|]]; cbn in *; [auto|discriminate].
    - replace (negb ((1 <=? qty) && (qty <=? 123))) with ((qty <? 1) || (123 <? qty)) by lia.
      destruct ((qty <? 1) || (123 <? qty)) eqn:X1; [cbn in Href; discriminate|].
      destruct (c_hreg c <? adr + qty) eqn:X2; [discriminate|].
      destruct (negb (byte_at b 6 =? 2 * qty)) eqn:X3; [discriminate|].
      assert (S := store_ok_iff (t_hreg d) (req_regs b qty) (v_regs d) (Z.to_nat adr)). rewrite req_regs_len in S.
      unfold unregistered in Href. rewrite <- S in Href.
      destruct (store (t_hreg d) (v_regs d) (Z.to_nat adr) (req_regs b qty)) as [cells [|]]; cbn in *; [auto|discriminate]. }
  destruct R as [R1 R2]. rewrite R2 in E, H. cbn [fst snd] in E, H. exists st, r, (fst (store (t_hreg d) (v_regs d) (Z.to_nat adr) vals)).
  split; auto. split; auto. apply store_effect; auto. rewrite store_ok_iff in R1. exact R1.
Qed.

(** data_ok is preserved *)
Lemma set_bits_ok c d cells : data_ok c d -> length cells = length (v_bits d) -> data_ok c (set_bits d cells).
Proof.
  intros (D1 & D2 & D3 & D4 & P1 & P2 & P3 & P4 & W) L. unfold data_ok, set_bits, ptrs_ok in *.
  cbn [t_coils t_din t_ireg t_hreg v_bits v_regs]. rewrite L. repeat split; auto.
Qed.
Lemma set_regs_ok c d cells : data_ok c d -> length cells = length (v_regs d) -> Forall word cells -> data_ok c (set_regs d cells).
Proof.
  intros (D1 & D2 & D3 & D4 & P1 & P2 & P3 & P4 & W) L F. unfold data_ok, set_regs, ptrs_ok in *.
  cbn [t_coils t_din t_ireg t_hreg v_bits v_regs]. rewrite L. repeat split; auto.
Qed.
Lemma word_at_word b i : bytes b -> word (word_at b i).
Proof. intros. apply word_bounds. auto. Qed.
Lemma server_data_ok c d b : data_ok c d -> bytes b -> data_ok c (snd (server c d b)).
Proof.
  intros Hd B. destruct (supported (byte_at b 1)) eqn:Hs.
  2:{ rewrite server_unsupported by auto. exact Hd. }
  assert (W : Forall word (v_regs d)) by apply Hd.
  assert (SB : forall k vals x y, store (t_coils d) (v_bits d) k vals = (x, y) -> data_ok c (set_bits d x)).
  { intros k vals x y E. apply set_bits_ok; auto. change x with (fst (x, y)). rewrite <- E. apply store_length. }
  assert (SR : forall k vals x y, Forall word vals -> store (t_hreg d) (v_regs d) k vals = (x, y) -> data_ok c (set_regs d x)).
  { intros k vals x y F E. apply set_regs_ok; auto; change x with (fst (x, y)); rewrite <- E; [apply store_length|apply store_Forall; auto]. }
  apply supported_cases in Hs. unfold server. set (adr := word_at b 2) in *.
  assert (Wq : word (word_at b 4)) by (apply word_bounds; auto). set (qty := word_at b 4) in *.
  destruct Hs as [->|[->|[->|[->|[->|[->|[->| ->]]]]]]]; cbn [snd]; auto.
  - destruct (negb ((qty =? 0) || (qty =? 65280))); auto. destruct (c_coils c <=? adr); auto.
    destruct (store (t_coils d) (v_bits d) (Z.to_nat adr) [qty =? 65280]) as [x [|]] eqn:E; cbn [snd]; eauto.
  - destruct (c_hreg c <=? adr); auto.
    destruct (store (t_hreg d) (v_regs d) (Z.to_nat adr) [qty]) as [x [|]] eqn:E; cbn [snd]; (eapply SR; [|exact E]); auto.
  - destruct (negb ((1 <=? qty) && (qty <=? 1968))); auto. destruct (c_coils c <? adr + qty); auto. destruct (negb (byte_at b 6 =? coil_bytes qty)); auto.
    destruct (store (t_coils d) (v_bits d) (Z.to_nat adr) (req_bits b qty)) as [x [|]] eqn:E; cbn [snd]; eauto.
  - destruct (negb ((1 <=? qty) && (qty <=? 123))); auto. destruct (c_hreg c <? adr + qty); auto. destruct (negb (byte_at b 6 =? 2 * qty)); auto.
    assert (F : Forall word (req_regs b qty)). { apply Forall_forall. intros v Hv. apply in_map_iff in Hv. destruct Hv as (k & <- & _). apply word_bounds; auto. }
    destruct (store (t_hreg d) (v_regs d) (Z.to_nat adr) (req_regs b qty)) as [x [|]] eqn:E; cbn [snd]; (eapply SR; [|exact E]); auto.
Qed.


(** size of a response *)
Lemma fetch_length {A} tab (cells : list A) adr n l : fetch tab cells adr n = Some l -> length l = Z.to_nat n.
Proof. intros H. apply fetch_len in H. now rewrite map_length, seq_length in H. Qed.
Lemma server_pdu_len c d b : (2 <= length (fst (server c d b)) <= 252)%nat.
Proof.
  destruct (supported (byte_at b 1)) eqn:Hs.
  2:{ rewrite server_unsupported by auto. cbn. lia. }
  assert (RB : forall fc size tab adr qty, (2 <= length (read_reply fc 2000 size adr qty (option_map pack_bits (fetch tab (v_bits d) adr qty))) <= 252)%nat).
  { intros fc size tab adr qty. unfold read_reply. destruct (negb _) eqn:X; [cbn; lia|]. destruct (size <? _); [cbn; lia|].
    destruct (fetch _ _ _ _) eqn:F; [|cbn; lia]. apply fetch_length in F. cbn [option_map length]. rewrite pack_bits_len, F.
    apply Nat2Z.inj_le || idtac. split; [lia|]. assert (Z.to_nat qty + 7 < 8 * 251)%nat by lia.
    apply Nat.div_lt_upper_bound in H; lia. }
  assert (RR : forall fc size tab adr qty, (2 <= length (read_reply fc 125 size adr qty (option_map pack_regs (fetch tab (v_regs d) adr qty))) <= 252)%nat).
  { intros fc size tab adr qty. unfold read_reply. destruct (negb _) eqn:X; [cbn; lia|]. destruct (size <? _); [cbn; lia|].
    destruct (fetch _ _ _ _) eqn:F; [|cbn; lia]. apply fetch_length in F. cbn [option_map length]. rewrite pack_regs_len, F. lia. }
  apply supported_cases in Hs. unfold server. set (adr := word_at b 2) in *. set (qty := word_at b 4) in *.
  destruct Hs as [->|[->|[->|[->|[->|[->|[->| ->]]]]]]]; cbn [fst]; auto.
  all: repeat match goal with
  | |- context [if ?x then _ else _] => destruct x
  | |- context [let (_, _) := ?x in _] => destruct x
  end; cbn; lia.
Qed.

(** C36 *)
Lemma c36 c d m : cfg_tables_ok c -> data_ok c d -> msg_ok m ->
  exists st m' d', parse_master_request_and_prepare_resp c m d = Ok (st, m', d') /\ data_ok c d' /\ m_req m' = m_req m /\
    rr_ok (m_resp m').
Proof.
  intros Hc Hd Hm. destruct (parse_server c d m Hc Hd Hm) as (st & r & E & H).
  do 3 eexists. split; [exact E|]. split; [apply server_data_ok; auto; apply Hm|]. split; auto. cbn [m_resp].
  destruct (holds_answer _ _ H) as (P & L & B & Hl & x & F). assert (SL := server_pdu_len c d (rr_buf (m_req m))).
  unfold rr_ok. repeat split; auto; rewrite Hl; lia.
Qed.

(** C37 *)
Fixpoint first_gap (tab : list (option nat)) (k : nat) (n : nat) : nat :=
  match n with O => O | S n' => if registered tab k then S (first_gap tab (S k) n') else O end.
Lemma first_gap_reg tab n : forall k, forallb (registered tab) (seq k (first_gap tab k n)) = true.
Proof. induction n as [|n IH]; intros k; cbn [first_gap]; auto. destruct (registered tab k) eqn:E; auto. cbn [seq forallb]. now rewrite E, IH. Qed.
Lemma first_gap_le tab n : forall k, (first_gap tab k n <= n)%nat.
Proof. induction n as [|n IH]; intros k; cbn [first_gap]; auto. destruct (registered tab k); [specialize (IH (S k))|]; lia. Qed.
Lemma first_gap_at tab n : forall k, (first_gap tab k n < n)%nat -> registered tab (k + first_gap tab k n) = false.
Proof.
  induction n as [|n IH]; intros k H; cbn [first_gap] in *; [lia|]. destruct (registered tab k) eqn:E.
  - replace (k + S (first_gap tab (S k) n))%nat with (S k + first_gap tab (S k) n)%nat by lia. apply IH. lia.
  - now rewrite Nat.add_0_r.
Qed.
Lemma store_gap {A} tab vals : forall (cells : list A) k,
  fst (store tab cells k vals) = fst (store tab cells k (firstn (first_gap tab k (length vals)) vals)).
Proof.
  induction vals as [|v vs IH]; intros cells k; cbn [store length first_gap firstn]; auto.
  unfold registered at 1. destruct (nth_error tab k) as [[x|]|] eqn:E; cbn [firstn store fst]; auto.
  rewrite E. apply IH.
Qed.
Lemma store_prefix {A} tab (cells : list A) k vals : ptrs_ok tab cells ->
  exists n, (n <= length vals)%nat /\ (forall i, (i < n)%nat -> registered tab (k + i) = true) /\
    ((n < length vals)%nat -> registered tab (k + n) = false) /\
    written tab cells (fst (store tab cells k vals)) k (firstn n vals).
Proof.
  intros P. exists (first_gap tab k (length vals)). assert (L := first_gap_le tab (length vals) k).
  split; auto. split.
  - intros i Hi. assert (R := first_gap_reg tab (length vals) k). rewrite forallb_forall in R. apply R. apply in_seq. lia.
  - split; [apply first_gap_at|]. rewrite store_gap. apply store_effect; auto.
    rewrite firstn_length, Nat.min_l by auto. apply first_gap_reg.
Qed.

Lemma c37_none c d m code : cfg_tables_ok c -> data_ok c d -> msg_ok m ->
  let b := rr_buf (m_req m) in
  refusal c d b = Some code -> code <> 4 \/ (byte_at b 1 <> 15 /\ byte_at b 1 <> 16) ->
  exists st m', parse_master_request_and_prepare_resp c m d = Ok (st, m', d).
Proof.
  intros Hc Hd Hm b Href Hx. destruct (parse_server c d m Hc Hd Hm) as (st & r & E & H). fold b in E, H.
  assert (B : bytes b) by apply Hm.
  assert (R := server_refusal c d b Hc Hd ltac:(apply word_bounds; auto) (word_bounds b 4 B)). rewrite Href in R.
  assert (D : snd (server c d b) = d).
  { destruct (Z.eq_dec code 4) as [E4|N4]; [|tauto]. destruct Hx as [Hx|[N15 N16]]; [congruence|].
    destruct R as [R _]. subst code. clear E H. destruct (supported (byte_at b 1)) eqn:Hs.
    2:{ rewrite server_unsupported by auto. reflexivity. }
    apply supported_cases in Hs. revert R. unfold server. set (adr := word_at b 2) in *. set (qty := word_at b 4) in *.
    destruct Hs as [E|[E|[E|[E|[E|[E|[E|E]]]]]]]; rewrite E in *; try congruence; auto; cbn [store]; intros R.
    - destruct (negb ((qty =? 0) || (qty =? 65280))); auto. destruct (c_coils c <=? adr); auto.
      destruct (nth_error (t_coils d) (Z.to_nat adr)) as [[x|]|]; [discriminate R| |]; destruct d; reflexivity.
    - destruct (c_hreg c <=? adr); auto.
      destruct (nth_error (t_hreg d) (Z.to_nat adr)) as [[x|]|]; [discriminate R| |]; destruct d; reflexivity. }
  rewrite D in E. eauto.
Qed.
Lemma c37_prefix_bits c d m : cfg_tables_ok c -> data_ok c d -> msg_ok m ->
  let b := rr_buf (m_req m) in let adr := Z.to_nat (word_at b 2) in let vals := req_bits b (word_at b 4) in
  byte_at b 1 = 15 -> refusal c d b = Some 4 ->
  exists st m' cells n, parse_master_request_and_prepare_resp c m d = Ok (st, m', set_bits d cells) /\
    (n < length vals)%nat /\ (forall i, (i < n)%nat -> registered (t_coils d) (adr + i) = true) /\
    registered (t_coils d) (adr + n) = false /\ written (t_coils d) (v_bits d) cells adr (firstn n vals).
Proof.
  intros Hc Hd Hm b adr vals Hf Href. destruct (parse_server c d m Hc Hd Hm) as (st & r & E & H). fold b in E, H.
  assert (P : ptrs_ok (t_coils d) (v_bits d)) by apply Hd.
  unfold refusal in Href. rewrite Hf in Href.
  cbn [supported value_bad size_of count_bad table_of item_count existsb Z.eqb Pos.eqb orb negb] in Href.
  assert (K : server c d b = (exc 15 4, set_bits d (fst (store (t_coils d) (v_bits d) adr vals))) /\
     snd (store (t_coils d) (v_bits d) adr vals) = false).
  { unfold server. rewrite Hf. fold adr vals. set (qty := word_at b 4) in *.
    replace (negb ((1 <=? qty) && (qty <=? 1968))) with ((qty <? 1) || (1968 <? qty)) by lia.
    destruct ((qty <? 1) || (1968 <? qty)); [discriminate|]. destruct (c_coils c <? word_at b 2 + qty); [discriminate|].
    destruct (negb (byte_at b 6 =? coil_bytes qty)); [discriminate|].
    assert (Sx := store_ok_iff (t_coils d) vals (v_bits d) adr). unfold vals at 2 in Sx. rewrite req_bits_len in Sx.
    unfold unregistered in Href. fold adr in Href. rewrite <- Sx in Href.
    destruct (store (t_coils d) (v_bits d) adr vals) as [cells [|]]; cbn in *; [discriminate|auto]. }
  destruct K as [K1 K2]. rewrite K1 in E. cbn [snd] in E.
  destruct (store_prefix (t_coils d) (v_bits d) adr vals P) as (n & N1 & N2 & N3 & N4).
  rewrite store_ok_iff in K2.
  assert (NL : (n < length vals)%nat).
  { destruct (Nat.eq_dec n (length vals)) as [X|]; [|lia]. exfalso.
    assert (T : forallb (registered (t_coils d)) (seq adr (length vals)) = true); [|congruence].
    apply forallb_forall. intros i Hi. apply in_seq in Hi. replace i with (adr + (i - adr))%nat by lia. apply N2. lia. }
  exists st, (mk_msg (m_req m) r), (fst (store (t_coils d) (v_bits d) adr vals)), n. auto 6.
Qed.
Lemma c37_prefix_regs c d m : cfg_tables_ok c -> data_ok c d -> msg_ok m ->
  let b := rr_buf (m_req m) in let adr := Z.to_nat (word_at b 2) in let vals := req_regs b (word_at b 4) in
  byte_at b 1 = 16 -> refusal c d b = Some 4 ->
  exists st m' cells n, parse_master_request_and_prepare_resp c m d = Ok (st, m', set_regs d cells) /\
    (n < length vals)%nat /\ (forall i, (i < n)%nat -> registered (t_hreg d) (adr + i) = true) /\
    registered (t_hreg d) (adr + n) = false /\ written (t_hreg d) (v_regs d) cells adr (firstn n vals).
Proof.
  intros Hc Hd Hm b adr vals Hf Href. destruct (parse_server c d m Hc Hd Hm) as (st & r & E & H). fold b in E, H.
  assert (P : ptrs_ok (t_hreg d) (v_regs d)) by apply Hd.
  unfold refusal in Href. rewrite Hf in Href.
  cbn [supported value_bad size_of count_bad table_of item_count existsb Z.eqb Pos.eqb orb negb] in Href.
  assert (K : server c d b = (exc 16 4, set_regs d (fst (store (t_hreg d) (v_regs d) adr vals))) /\
     snd (store (t_hreg d) (v_regs d) adr vals) = false).
  { unfold server. rewrite Hf. fold adr vals. set (qty := word_at b 4) in *.
    replace (negb ((1 <=? qty) && (qty <=? 123))) with ((qty <? 1) || (123 <? qty)) by lia.
    destruct ((qty <? 1) || (123 <? qty)); [discriminate|]. destruct (c_hreg c <? word_at b 2 + qty); [discriminate|].
    destruct (negb (byte_at b 6 =? 2 * qty)); [discriminate|].
    assert (Sx := store_ok_iff (t_hreg d) vals (v_regs d) adr). unfold vals at 2 in Sx. rewrite req_regs_len in Sx.
    unfold unregistered in Href. fold adr in Href. rewrite <- Sx in Href.
    destruct (store (t_hreg d) (v_regs d) adr vals) as [cells [|]]; cbn in *; [discriminate|auto]. }
  destruct K as [K1 K2]. rewrite K1 in E. cbn [snd] in E.
  destruct (store_prefix (t_hreg d) (v_regs d) adr vals P) as (n & N1 & N2 & N3 & N4).
  rewrite store_ok_iff in K2.
  assert (NL : (n < length vals)%nat).
  { destruct (Nat.eq_dec n (length vals)) as [X|]; [|lia]. exfalso.
    assert (T : forallb (registered (t_hreg d)) (seq adr (length vals)) = true); [|congruence].
    apply forallb_forall. intros i Hi. apply in_seq in Hi. replace i with (adr + (i - adr))%nat by lia. apply N2. lia. }
  exists st, (mk_msg (m_req m) r), (fst (store (t_hreg d) (v_regs d) adr vals)), n. auto 6.
Qed.

(** C42 *)
Lemma byte_at_firstn b n i : (i < n)%nat -> byte_at (firstn n b) i = byte_at b i.
Proof. intros. apply nth_firstn. auto. Qed.
Lemma word_at_firstn b n i : (S i < n)%nat -> word_at (firstn n b) i = word_at b i.
Proof. intros. unfold word_at. rewrite !byte_at_firstn by lia. reflexivity. Qed.
Lemma server_frame c d b n : bytes b -> (n <= length b)%nat -> frame_complete (firstn n b) ->
  server c d (firstn n b) = server c d b.
Proof.
  intros B Ln [L C]. rewrite firstn_length in L, C. rewrite Nat.min_l in L, C by auto.
  unfold server. rewrite byte_at_firstn in * by lia. rewrite !word_at_firstn in * by lia.
  assert (HR : byte_at b 1 = 15 \/ byte_at b 1 = 16 -> (7 <= n)%nat /\ 7 + byte_at b 6 <= Z.of_nat n).
  { intros X. specialize (C X). assert (7 <= n)%nat.
    { destruct (Nat.eq_dec n 6) as [->|]; [|lia]. exfalso. unfold byte_at in C. rewrite nth_overflow in C; [lia|]. rewrite firstn_length. lia. }
    rewrite byte_at_firstn in C by lia. auto. }
  clear C. set (qty := word_at b 4) in *. set (adr := word_at b 2) in *.
  destruct (supported (byte_at b 1)) eqn:Hs.
  2:{ unfold supported in Hs. cbn [existsb] in Hs. set (fc := byte_at b 1) in *. clear HR.
      destruct fc as [|p|p]; auto. do 5 (try (destruct p as [p|p|]; try reflexivity; try (exfalso; cbn in Hs; discriminate))). }
  apply supported_cases in Hs. destruct Hs as [E|[E|[E|[E|[E|[E|[E|E]]]]]]]; rewrite E in *; auto.
  - destruct HR as [H7 HC]; auto. rewrite byte_at_firstn by lia.
    destruct (negb ((1 <=? qty) && (qty <=? 1968))) eqn:X1; auto. destruct (c_coils c <? adr + qty); auto.
    destruct (negb (byte_at b 6 =? coil_bytes qty)) eqn:X3; auto.
    replace (req_bits (firstn n b) qty) with (req_bits b qty); auto.
    unfold req_bits. apply map_ext_in. intros k Hk. apply in_seq in Hk. rewrite byte_at_firstn; auto.
    assert (byte_at b 6 = coil_bytes qty) by lia. unfold coil_bytes in *.
    assert (Z.of_nat (k / 8) < (qty + 7) / 8); [|lia].
    rewrite Nat2Z.inj_div. change (Z.of_nat 8) with 8. assert (Z.of_nat k < qty) by lia. clear - H0.
    apply Z.div_lt_upper_bound; [lia|]. assert (qty + 7 = 8 * ((qty + 7) / 8) + (qty + 7) mod 8) by (apply Z.div_mod; lia).
    assert (0 <= (qty + 7) mod 8 < 8) by (apply Z.mod_pos_bound; lia). lia.
  - destruct HR as [H7 HC]; auto. rewrite byte_at_firstn by lia.
    destruct (negb ((1 <=? qty) && (qty <=? 123))) eqn:X1; auto. destruct (c_hreg c <? adr + qty); auto.
    destruct (negb (byte_at b 6 =? 2 * qty)) eqn:X3; auto.
    replace (req_regs (firstn n b) qty) with (req_regs b qty); auto.
    unfold req_regs. apply map_ext_in. intros k Hk. apply in_seq in Hk. rewrite word_at_firstn; auto. lia.
Qed.
Lemma parse_frame c d m : cfg_tables_ok c -> data_ok c d -> msg_ok m -> frame_complete (rx_frame (m_req m)) ->
  exists st r, parse_master_request_and_prepare_resp c m d = Ok (st, mk_msg (m_req m) r, snd (server c d (rx_frame (m_req m)))) /\
    holds r (fst (server c d (rx_frame (m_req m)))).
Proof.
  intros Hc Hd Hm F. destruct (parse_server c d m Hc Hd Hm) as (st & r & E & H).
  assert (Q : server c d (rx_frame (m_req m)) = server c d (rr_buf (m_req m))).
  { destruct Hm as [(P1 & P2 & P3 & P4) _]. apply server_frame; auto. unfold byte in P4. lia. }
  rewrite Q. eauto.
Qed.

(** C45 *)
Lemma register_inside (tab : list (option nat)) adr ptr : 0 <= adr < Z.of_nat (length tab) ->
  exists tab', register_app_data tab adr ptr = Ok tab' /\ length tab' = length tab /\
    nth_error tab' (Z.to_nat adr) = Some ptr /\ forall k, k <> Z.to_nat adr -> nth_error tab' k = nth_error tab k.
Proof.
  intros H. unfold register_app_data. rewrite aset_ok by lia. eexists. split; [reflexivity|].
  split; [apply upd_length|]. split; [apply upd_nth_error_same; lia|]. intros k Hk. apply upd_nth_error_other. auto.
Qed.
Lemma register_outside (tab : list (option nat)) adr ptr : 0 <= adr -> Z.of_nat (length tab) <= adr -> register_app_data tab adr ptr = UB.
Proof. intros. unfold register_app_data, aset. destruct ((adr <? 0) || (Z.of_nat (length tab) <=? adr)) eqn:E; auto. lia. Qed.
