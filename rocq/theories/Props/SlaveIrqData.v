(** C93: the application writes its variables from interrupt handlers while the slave handles a request.
    [app k]: its writes just before the request's k-th access to a variable. *)
From Verif Require Import Model.SlaveIrqData Spec.SlaveIrqData Spec.Refusal Proofs.SlaveMain Proofs.ServerMain Proofs.SlaveIrqData Proofs.SlaveIrqNone Props.SlavePdu.
Import ListNotations.
Local Open Scope Z_scope.

(** answer and variables are those of [server_i]: every access sees and changes the variables as they are at its moment *)
Theorem C93_answer : forall app c d m, cfg_tables_ok c -> data_ok c d -> msg_ok m -> app_words app ->
  exists st r, parse_master_request_and_prepare_resp_i app c m d = Ok (st, mk_msg (m_req m) r, snd (server_i app c d (rr_buf (m_req m)))) /\
    answer_is r (fst (server_i app c d (rr_buf (m_req m)))).
Proof. intros app c d m Hc Hd Hm Ha. destruct (parse_server_i app c d m Hc Hd Hm Ha) as (st & r & E & H). exists st, r. split; [exact E|]. apply holds_answer, H. Qed.

(** with an application that writes nothing, this is the slave of all other properties *)
Theorem C93_no_writes : forall c m d, parse_master_request_and_prepare_resp_i (fun _ => []) c m d = parse_master_request_and_prepare_resp c m d.
Proof. exact parse_none. Qed.
Print Assumptions C93_no_writes.

Lemma at_least_registered {A} app d (cells : sdata -> list A) (dflt : A) tab adr n l : length l = n ->
  (forall k, (k < n)%nat -> var_at tab (cells (at_access app d k)) (adr + k) = Some (nth k l dflt)) -> accesses tab adr n = n.
Proof. intros L H. apply accesses_all. intros k K. specialize (H k K). unfold var_at in H. destruct (nth_error tab (adr + k)) as [[x|]|]; try discriminate H. eauto. Qed.

(** every value of an answer is the value the variable had at the moment it was read; reading changes nothing *)
Theorem C93_read_bits : forall app c d m fc adr qty l,
  cfg_tables_ok c -> data_ok c d -> msg_ok m -> app_words app ->
  let b := rr_buf (m_req m) in
  byte_at b 1 = fc -> fc = 1 \/ fc = 2 -> word_at b 2 = adr -> word_at b 4 = qty -> 1 <= qty <= 2000 -> adr + qty <= size_of fc c ->
  length l = Z.to_nat qty ->
  (forall k, (k < Z.to_nat qty)%nat -> var_at (table_of fc d) (v_bits (at_access app d k)) (Z.to_nat adr + k) = Some (nth k l false)) ->
  exists st r, parse_master_request_and_prepare_resp_i app c m d = Ok (st, mk_msg (m_req m) r, aw_run d (writes_until app (Z.to_nat qty))) /\
    answer_is r (fc :: Z.of_nat (length (pack_bits l)) :: pack_bits l).
Proof.
  intros app c d m fc adr qty l Hc Hd Hm Ha b Ef Hf Ea Eq Hq Hs L V. destruct (C93_answer app c d m Hc Hd Hm Ha) as (st & r & E & A). fold b in E, A. exists st, r.
  assert (K : (1 <=? qty) && (qty <=? 2000) && (adr + qty <=? size_of fc c) = true) by (clear - Hq Hs; lia).
  pose proof (at_least_registered app d v_bits false (table_of fc d) (Z.to_nat adr) (Z.to_nat qty) l L V) as AC.
  assert (F : fetch_i app d (table_of fc d) v_bits adr qty = Some l) by (apply (all_some_map _ false); [exact L|exact V]).
  assert (X : server_i app c d b = (fc :: Z.of_nat (length (pack_bits l)) :: pack_bits l, aw_run d (writes_until app (Z.to_nat qty)))).
  { unfold server_i. rewrite Ef, Ea, Eq. destruct Hf as [-> | ->]; unfold read_i; cbn [size_of table_of existsb Z.eqb Pos.eqb orb] in *;
      change (size_of 1 c) with (c_coils c) in *; change (size_of 2 c) with (c_din c) in *; change (table_of 1 d) with (t_coils d) in *; change (table_of 2 d) with (t_din d) in *;
      rewrite F, K, AC; unfold read_reply; cbn [option_map]; replace (negb ((1 <=? qty) && (qty <=? 2000))) with false by (clear - Hq; lia);
      match goal with |- context [?s <? adr + qty] => replace (s <? adr + qty) with false by (clear - Hs; lia) end; reflexivity. }
  rewrite X in E, A. split; [exact E|exact A].
Qed.
Theorem C93_read_regs : forall app c d m fc adr qty l,
  cfg_tables_ok c -> data_ok c d -> msg_ok m -> app_words app ->
  let b := rr_buf (m_req m) in
  byte_at b 1 = fc -> fc = 3 \/ fc = 4 -> word_at b 2 = adr -> word_at b 4 = qty -> 1 <= qty <= 125 -> adr + qty <= size_of fc c ->
  length l = Z.to_nat qty ->
  (forall k, (k < Z.to_nat qty)%nat -> var_at (table_of fc d) (v_regs (at_access app d k)) (Z.to_nat adr + k) = Some (nth k l 0)) ->
  exists st r, parse_master_request_and_prepare_resp_i app c m d = Ok (st, mk_msg (m_req m) r, aw_run d (writes_until app (Z.to_nat qty))) /\
    answer_is r (fc :: Z.of_nat (length (pack_regs l)) :: pack_regs l).
Proof.
  intros app c d m fc adr qty l Hc Hd Hm Ha b Ef Hf Ea Eq Hq Hs L V. destruct (C93_answer app c d m Hc Hd Hm Ha) as (st & r & E & A). fold b in E, A. exists st, r.
  assert (K : (1 <=? qty) && (qty <=? 125) && (adr + qty <=? size_of fc c) = true) by (clear - Hq Hs; lia).
  pose proof (at_least_registered app d v_regs 0 (table_of fc d) (Z.to_nat adr) (Z.to_nat qty) l L V) as AC.
  assert (F : fetch_i app d (table_of fc d) v_regs adr qty = Some l) by (apply (all_some_map _ 0); [exact L|exact V]).
  assert (X : server_i app c d b = (fc :: Z.of_nat (length (pack_regs l)) :: pack_regs l, aw_run d (writes_until app (Z.to_nat qty)))).
  { unfold server_i. rewrite Ef, Ea, Eq. destruct Hf as [-> | ->]; unfold read_i;
      change (size_of 3 c) with (c_hreg c) in *; change (size_of 4 c) with (c_ireg c) in *; change (table_of 3 d) with (t_hreg d) in *; change (table_of 4 d) with (t_ireg d) in *;
      rewrite F, K, AC; unfold read_reply; cbn [option_map]; replace (negb ((1 <=? qty) && (qty <=? 125))) with false by (clear - Hq; lia);
      match goal with |- context [?s <? adr + qty] => replace (s <? adr + qty) with false by (clear - Hs; lia) end; reflexivity. }
  rewrite X in E, A. split; [exact E|exact A].
Qed.
(** which requests are refused, and how, does not depend on the application's writes *)
Theorem C93_exceptions : forall app c d m, cfg_tables_ok c -> data_ok c d -> msg_ok m -> app_words app ->
  let b := rr_buf (m_req m) in
  exists st r d', parse_master_request_and_prepare_resp_i app c m d = Ok (st, mk_msg (m_req m) r, d') /\
  match refusal c d b with
  | Some code => answer_is r [if byte_at b 1 <? 128 then byte_at b 1 + 128 else byte_at b 1; code]
  | None => exists t, answer_is r (byte_at b 1 :: t)
  end.
Proof.
  intros app c d m Hc Hd Hm Ha b. destruct (parse_i app c d m Hc Hd Hm Ha) as (dx & X & E & _ & R). fold b in E, R. destruct (c35 c dx m Hc X Hm) as (st & r & d' & P & Q). fold b in Q.
  rewrite P in E. cbn [redata bind] in E. do 3 eexists. split; [exact E|]. rewrite R in Q. destruct (refusal c d b) as [code|]; [exact (proj1 Q)|exact Q].
Qed.

Lemma registered_all tab a n : unregistered tab a (Z.of_nat n) = false -> forall k, (k < n)%nat -> exists x, nth_error tab (Z.to_nat a + k) = Some (Some x).
Proof.
  intros H k K. unfold unregistered in H. apply negb_false_iff in H. rewrite forallb_forall in H. rewrite Nat2Z.id in H. specialize (H (Z.to_nat a + k)%nat ltac:(apply in_seq; lia)). unfold registered in H.
  destruct (nth_error tab (Z.to_nat a + k)) as [[x|]|]; try discriminate H. eauto.
Qed.
Definition in_range (tab : list (option nat)) (a n x : nat) : Prop := exists k, (k < n)%nat /\ nth_error tab (a + k) = Some (Some x).

(** After an accepted write request: a variable holds the last value the request has for it unless the application writes it later; the
    variables the request does not write hold the application's last value, or what they held before: no write is lost *)
Theorem C93_write_bits : forall app c d m fc adr qty vals,
  cfg_tables_ok c -> data_ok c d -> msg_ok m -> app_words app ->
  let b := rr_buf (m_req m) in
  byte_at b 1 = fc -> word_at b 2 = adr -> word_at b 4 = qty ->
  (fc = 5 /\ vals = [qty =? 0xFF00]) \/ (fc = 15 /\ vals = req_bits b qty) -> refusal c d b = None ->
  exists st r d', parse_master_request_and_prepare_resp_i app c m d = Ok (st, mk_msg (m_req m) r, d') /\ answer_is r ([fc] ++ be16 adr ++ be16 qty) /\
    (forall k x v, nth_error vals k = Some v -> nth_error (t_coils d) (Z.to_nat adr + k) = Some (Some x) ->
      (forall j, (k < j < length vals)%nat -> nth_error (t_coils d) (Z.to_nat adr + j) <> Some (Some x) /\ leaves_bit x (app j)) -> nth_error (v_bits d') x = Some v) /\
    (forall x v, ~ in_range (t_coils d) (Z.to_nat adr) (length vals) x -> nth_error (v_bits d) x = Some v -> nth_error (v_bits d') x = Some (last_bit (writes_until app (length vals)) x v)) /\
    (forall x v, nth_error (v_regs d) x = Some v -> nth_error (v_regs d') x = Some (last_reg (writes_until app (length vals)) x v)).
Proof.
  intros app c d m fc adr qty vals Hc Hd Hm Ha b Ef Ea Eq Hv Hr. destruct (C93_answer app c d m Hc Hd Hm Ha) as (st & r & E & A). fold b in E, A.
  set (a := asked WBit (t_coils d) (Z.to_nat adr) vals).
  assert (X : server_i app c d b = write_i app d fc adr qty a /\ unregistered (t_coils d) adr (Z.of_nat (length vals)) = false).
  { assert (Wq : word qty) by (rewrite <- Eq; apply (i_word m Hm)). unfold word in Wq.
    unfold refusal in Hr. rewrite Ef, Ea, Eq in Hr. unfold server_i. rewrite Ef, Ea, Eq. unfold a. destruct Hv as [(-> & ->)|(-> & ->)].
    - change (negb (supported 5)) with false in Hr. cbn iota in Hr. unfold value_bad in Hr. cbn [existsb Z.eqb Pos.eqb orb] in Hr. rewrite <- negb_orb in Hr. destruct (negb ((qty =? 0) || (qty =? 65280))); [discriminate Hr|].
      change (size_of 5 c) with (c_coils c) in Hr. change (item_count 5 qty) with 1 in Hr. change (table_of 5 d) with (t_coils d) in Hr. destruct (c_coils c <? adr + 1) eqn:S5; [discriminate Hr|].
      unfold count_bad in Hr. cbn [Z.eqb Pos.eqb] in Hr. replace (c_coils c <=? adr) with false by (clear - S5; lia). split; [reflexivity|]. change (Z.of_nat (length [qty =? 65280])) with 1. destruct (unregistered (t_coils d) adr 1); [discriminate Hr|reflexivity].
    - change (negb (supported 15)) with false in Hr. cbn iota in Hr. unfold value_bad in Hr. cbn [existsb Z.eqb Pos.eqb orb] in Hr. destruct ((qty <? 1) || (1968 <? qty)) eqn:S1; [discriminate Hr|].
      change (size_of 15 c) with (c_coils c) in Hr. change (item_count 15 qty) with qty in Hr. change (table_of 15 d) with (t_coils d) in Hr. destruct (c_coils c <? adr + qty) eqn:S5; [discriminate Hr|].
      unfold count_bad in Hr. cbn [Z.eqb Pos.eqb] in Hr. destruct (negb (byte_at b 6 =? coil_bytes qty)); [discriminate Hr|].
      replace (negb ((1 <=? qty) && (qty <=? 1968))) with false by (clear - S1; lia). split; [reflexivity|]. unfold req_bits. rewrite map_length, seq_length, Z2Nat.id by lia. destruct (unregistered (t_coils d) adr qty); [discriminate Hr|reflexivity]. }
  destruct X as (X & U). rewrite X in E, A. pose proof (registered_all _ _ _ U) as R. destruct (asked_all WBit (t_coils d) vals (Z.to_nat adr) R) as (A1 & A2 & A3). fold a in A1, A2, A3.
  unfold write_i in E, A. rewrite A1 in E, A. cbn [fst snd] in E, A. do 3 eexists. split; [exact E|]. split; [exact A|].
  assert (BD : forall k x, nth_error (t_coils d) k = Some (Some x) -> exists v, nth_error (v_bits d) x = Some v).
  { intros k x T. destruct Hd as (_ & _ & _ & _ & P1 & _). specialize (P1 _ _ T). destruct (nth_error (v_bits d) x) as [v|] eqn:N; [eauto|]. apply nth_error_None in N. lia. }
  split; [|split].
  - intros k x v V T H. destruct (BD _ _ T) as (v0 & B0). rewrite (last_bit_run _ d x v0 B0). f_equal. apply (mixed_bit app x (fst a) 0 v0 k v); [apply A3; assumption| |].
    + intros j w J W u ->. destruct (asked_targets WBit _ _ _ _ _ W) as (y & u' & Y1 & Y2 & Y3). injection Y1 as <- <-. exact (proj1 (H j ltac:(lia)) Y2).
    + intros j J. rewrite A2 in J. exact (proj2 (H j J)).
  - intros x v N B0. rewrite (last_bit_run _ d x v B0). f_equal. rewrite mixed_bit_other; [rewrite A2; reflexivity|]. intros w I u ->. apply In_nth_error in I. destruct I as (j & W).
    destruct (asked_targets WBit _ _ _ _ _ W) as (y & u' & Y1 & Y2 & Y3). injection Y1 as <- <-. apply N. exists j. auto.
  - intros x v B0. rewrite (last_reg_run _ d x v B0). f_equal. rewrite mixed_reg_other; [rewrite A2; reflexivity|]. intros w I u ->. apply In_nth_error in I. destruct I as (j & W).
    destruct (asked_targets WBit _ _ _ _ _ W) as (y & u' & Y1 & _). discriminate Y1.
Qed.
Theorem C93_write_regs : forall app c d m fc adr qty vals,
  cfg_tables_ok c -> data_ok c d -> msg_ok m -> app_words app ->
  let b := rr_buf (m_req m) in
  byte_at b 1 = fc -> word_at b 2 = adr -> word_at b 4 = qty ->
  (fc = 6 /\ vals = [qty]) \/ (fc = 16 /\ vals = req_regs b qty) -> refusal c d b = None ->
  exists st r d', parse_master_request_and_prepare_resp_i app c m d = Ok (st, mk_msg (m_req m) r, d') /\ answer_is r ([fc] ++ be16 adr ++ be16 qty) /\
    (forall k x v, nth_error vals k = Some v -> nth_error (t_hreg d) (Z.to_nat adr + k) = Some (Some x) ->
      (forall j, (k < j < length vals)%nat -> nth_error (t_hreg d) (Z.to_nat adr + j) <> Some (Some x) /\ leaves_reg x (app j)) -> nth_error (v_regs d') x = Some v) /\
    (forall x v, ~ in_range (t_hreg d) (Z.to_nat adr) (length vals) x -> nth_error (v_regs d) x = Some v -> nth_error (v_regs d') x = Some (last_reg (writes_until app (length vals)) x v)) /\
    (forall x v, nth_error (v_bits d) x = Some v -> nth_error (v_bits d') x = Some (last_bit (writes_until app (length vals)) x v)).
Proof.
  intros app c d m fc adr qty vals Hc Hd Hm Ha b Ef Ea Eq Hv Hr. destruct (C93_answer app c d m Hc Hd Hm Ha) as (st & r & E & A). fold b in E, A.
  set (a := asked WReg (t_hreg d) (Z.to_nat adr) vals).
  assert (X : server_i app c d b = write_i app d fc adr qty a /\ unregistered (t_hreg d) adr (Z.of_nat (length vals)) = false).
  { assert (Wq : word qty) by (rewrite <- Eq; apply (i_word m Hm)). unfold word in Wq.
    unfold refusal in Hr. rewrite Ef, Ea, Eq in Hr. unfold server_i. rewrite Ef, Ea, Eq. unfold a. destruct Hv as [(-> & ->)|(-> & ->)].
    - change (negb (supported 6)) with false in Hr. cbn iota in Hr. change (value_bad 6 qty) with false in Hr. cbn iota in Hr.
      change (size_of 6 c) with (c_hreg c) in Hr. change (item_count 6 qty) with 1 in Hr. change (table_of 6 d) with (t_hreg d) in Hr. destruct (c_hreg c <? adr + 1) eqn:S5; [discriminate Hr|].
      unfold count_bad in Hr. cbn [Z.eqb Pos.eqb] in Hr. replace (c_hreg c <=? adr) with false by (clear - S5; lia). split; [reflexivity|]. change (Z.of_nat (length [qty])) with 1. destruct (unregistered (t_hreg d) adr 1); [discriminate Hr|reflexivity].
    - change (negb (supported 16)) with false in Hr. cbn iota in Hr. unfold value_bad in Hr. cbn [existsb Z.eqb Pos.eqb orb] in Hr. destruct ((qty <? 1) || (123 <? qty)) eqn:S1; [discriminate Hr|].
      change (size_of 16 c) with (c_hreg c) in Hr. change (item_count 16 qty) with qty in Hr. change (table_of 16 d) with (t_hreg d) in Hr. destruct (c_hreg c <? adr + qty) eqn:S5; [discriminate Hr|].
      unfold count_bad in Hr. cbn [Z.eqb Pos.eqb] in Hr. destruct (negb (byte_at b 6 =? 2 * qty)); [discriminate Hr|].
      replace (negb ((1 <=? qty) && (qty <=? 123))) with false by (clear - S1; lia). split; [reflexivity|]. unfold req_regs. rewrite map_length, seq_length, Z2Nat.id by lia. destruct (unregistered (t_hreg d) adr qty); [discriminate Hr|reflexivity]. }
  destruct X as (X & U). rewrite X in E, A. pose proof (registered_all _ _ _ U) as R. destruct (asked_all WReg (t_hreg d) vals (Z.to_nat adr) R) as (A1 & A2 & A3). fold a in A1, A2, A3.
  unfold write_i in E, A. rewrite A1 in E, A. cbn [fst snd] in E, A. do 3 eexists. split; [exact E|]. split; [exact A|].
  assert (BD : forall k x, nth_error (t_hreg d) k = Some (Some x) -> exists v, nth_error (v_regs d) x = Some v).
  { intros k x T. destruct Hd as (_ & _ & _ & _ & _ & _ & _ & P1 & _). specialize (P1 _ _ T). destruct (nth_error (v_regs d) x) as [v|] eqn:N; [eauto|]. apply nth_error_None in N. lia. }
  split; [|split].
  - intros k x v V T H. destruct (BD _ _ T) as (v0 & B0). rewrite (last_reg_run _ d x v0 B0). f_equal. apply (mixed_reg app x (fst a) 0 v0 k v); [apply A3; assumption| |].
    + intros j w J W u ->. destruct (asked_targets WReg _ _ _ _ _ W) as (y & u' & Y1 & Y2 & Y3). injection Y1 as <- <-. exact (proj1 (H j ltac:(lia)) Y2).
    + intros j J. rewrite A2 in J. exact (proj2 (H j J)).
  - intros x v N B0. rewrite (last_reg_run _ d x v B0). f_equal. rewrite mixed_reg_other; [rewrite A2; reflexivity|]. intros w I u ->. apply In_nth_error in I. destruct I as (j & W).
    destruct (asked_targets WReg _ _ _ _ _ W) as (y & u' & Y1 & Y2 & Y3). injection Y1 as <- <-. apply N. exists j. auto.
  - intros x v B0. rewrite (last_bit_run _ d x v B0). f_equal. rewrite mixed_bit_other; [rewrite A2; reflexivity|]. intros w I u ->. apply In_nth_error in I. destruct I as (j & W).
    destruct (asked_targets WReg _ _ _ _ _ W) as (y & u' & Y1 & _). discriminate Y1.
Qed.

Lemma var_bits_untouched d l tab k : ptrs_ok tab (v_bits d) -> (forall x, nth_error tab k = Some (Some x) -> leaves_bit x l) -> var_at tab (v_bits (aw_run d l)) k = var_at tab (v_bits d) k.
Proof.
  intros P H. unfold var_at. destruct (nth_error tab k) as [[x|]|] eqn:E; [|reflexivity..]. pose proof (P k x E) as Lx. destruct (nth_error (v_bits d) x) as [v|] eqn:N; [|apply nth_error_None in N; lia].
  rewrite (last_bit_run l d x v N), (last_bit_leaves l x v (H x eq_refl)). reflexivity.
Qed.
Lemma var_regs_untouched d l tab k : ptrs_ok tab (v_regs d) -> (forall x, nth_error tab k = Some (Some x) -> leaves_reg x l) -> var_at tab (v_regs (aw_run d l)) k = var_at tab (v_regs d) k.
Proof.
  intros P H. unfold var_at. destruct (nth_error tab k) as [[x|]|] eqn:E; [|reflexivity..]. pose proof (P k x E) as Lx. destruct (nth_error (v_regs d) x) as [v|] eqn:N; [|apply nth_error_None in N; lia].
  rewrite (last_reg_run l d x v N), (last_reg_leaves l x v (H x eq_refl)). reflexivity.
Qed.
Lemma fetch_untouched {A} (app : nat -> list aw) d tab (cells : sdata -> list A) adr qty : 0 <= adr ->
  (forall k, (k < Z.to_nat qty)%nat -> var_at tab (cells (at_access app d k)) (Z.to_nat adr + k) = var_at tab (cells d) (Z.to_nat adr + k)) ->
  fetch_i app d tab cells adr qty = fetch tab (cells d) adr qty.
Proof.
  intros Ha H. unfold fetch_i, fetch. f_equal. replace (seq (Z.to_nat adr) (Z.to_nat qty)) with (map (fun k => Z.to_nat adr + k)%nat (seq 0 (Z.to_nat qty))).
  - rewrite map_map. apply map_ext_in. intros k K. apply in_seq in K. apply H. lia.
  - generalize (Z.to_nat qty) as n, (Z.to_nat adr) as a. clear. intros n a. replace (seq a n) with (seq (a + 0) n) by (f_equal; lia). generalize 0%nat as s. induction n as [|n IH]; intros s; [reflexivity|]. cbn [seq map]. f_equal. rewrite IH. f_equal. lia.
Qed.
(** The answer is the one of the undisturbed slave (C33-C35) for every request that is not a read, and for every read request unless the application
    writes a variable in its range meanwhile *)
Theorem C93_untouched : forall app c d m fc adr qty,
  cfg_tables_ok c -> data_ok c d -> msg_ok m -> app_words app ->
  let b := rr_buf (m_req m) in
  byte_at b 1 = fc -> word_at b 2 = adr -> word_at b 4 = qty ->
  (fc = 1 \/ fc = 2 -> forall x, in_range (table_of fc d) (Z.to_nat adr) (Z.to_nat qty) x -> forall k, leaves_bit x (app k)) ->
  (fc = 3 \/ fc = 4 -> forall x, in_range (table_of fc d) (Z.to_nat adr) (Z.to_nat qty) x -> forall k, leaves_reg x (app k)) ->
  exists st r d', parse_master_request_and_prepare_resp_i app c m d = Ok (st, mk_msg (m_req m) r, d') /\ answer_is r (fst (server c d b)).
Proof.
  intros app c d m fc adr qty Hc Hd Hm Ha b Ef Ea Eq H1 H2. destruct (C93_answer app c d m Hc Hd Hm Ha) as (st & r & E & A). fold b in E, A. do 3 eexists. split; [exact E|]. 
  assert (X : fst (server c d b) = fst (server_i app c d b)); [|rewrite X; exact A]. clear E A.
  assert (Wa : 0 <= adr) by (rewrite <- Ea; pose proof (i_word m Hm 2) as W; unfold word in W; fold b in W; lia).
  pose proof Hd as (_ & _ & _ & _ & P1 & P2 & P3 & P4 & _).
  assert (LB : forall x (k : nat), (forall k, leaves_bit x (app k)) -> leaves_bit x (writes_until app k)).
  { intros x k L u I. unfold writes_until in I. apply in_flat_map in I. destruct I as (j & _ & I). exact (L j u I). }
  assert (LR : forall x (k : nat), (forall k, leaves_reg x (app k)) -> leaves_reg x (writes_until app k)).
  { intros x k L u I. unfold writes_until in I. apply in_flat_map in I. destruct I as (j & _ & I). exact (L j u I). }
  assert (FB : fc = 1 \/ fc = 2 -> ptrs_ok (table_of fc d) (v_bits d) -> fetch_i app d (table_of fc d) v_bits adr qty = fetch (table_of fc d) (v_bits d) adr qty).
  { intros F P. apply fetch_untouched; [exact Wa|]. intros k K. apply var_bits_untouched; [exact P|]. intros x N. apply LB. apply H1; [exact F|]. exists k. auto. }
  assert (FR : fc = 3 \/ fc = 4 -> ptrs_ok (table_of fc d) (v_regs d) -> fetch_i app d (table_of fc d) v_regs adr qty = fetch (table_of fc d) (v_regs d) adr qty).
  { intros F P. apply fetch_untouched; [exact Wa|]. intros k K. apply var_regs_untouched; [exact P|]. intros x N. apply LR. apply H2; [exact F|]. exists k. auto. }
  clear H1 H2 LB LR.
  assert (Dc : (exists k, In k [1;2;3;4;5;6;15;16] /\ fc = k) \/ (forall k, In k [1;2;3;4;5;6;15;16] -> fc <> k)).
  { destruct (existsb (Z.eqb fc) [1;2;3;4;5;6;15;16]) eqn:Y.
    - left. apply existsb_exists in Y. destruct Y as (k & Y1 & Y2). exists k. split; auto. lia.
    - right. intros k Hk Y2. assert (existsb (Z.eqb fc) [1;2;3;4;5;6;15;16] = true); [|congruence]. apply existsb_exists. exists k. split; auto. lia. }
  unfold server_i, server. rewrite Ef, Ea, Eq. destruct Dc as [(k & Hk & E)|Hno].
  - cbn [In] in Hk. destruct Hk as [<-|[<-|[<-|[<-|[<-|[<-|[<-|[<-|[]]]]]]]]]; rewrite E in *; unfold read_i; cbn [fst].
    + specialize (FB (or_introl eq_refl) P1). change (table_of 1 d) with (t_coils d) in FB. rewrite FB. reflexivity.
    + specialize (FB (or_intror eq_refl) P2). change (table_of 2 d) with (t_din d) in FB. rewrite FB. reflexivity.
    + specialize (FR (or_introl eq_refl) P4). change (table_of 3 d) with (t_hreg d) in FR. rewrite FR. reflexivity.
    + specialize (FR (or_intror eq_refl) P3). change (table_of 4 d) with (t_ireg d) in FR. rewrite FR. reflexivity.
    + destruct (negb _); [reflexivity|]. destruct (_ <=? _); [reflexivity|]. unfold write_i. cbn [fst]. rewrite <- (store_asked WBit _ _ (v_bits d)). destruct (store _ _ _ _) as [cl [|]]; reflexivity.
    + destruct (_ <=? _); [reflexivity|]. unfold write_i. cbn [fst]. rewrite <- (store_asked WReg _ _ (v_regs d)). destruct (store _ _ _ _) as [cl [|]]; reflexivity.
    + destruct (negb ((1 <=? qty) && (qty <=? 1968))); [reflexivity|]. destruct (_ <? _); [reflexivity|]. destruct (negb _); [reflexivity|]. unfold write_i. cbn [fst]. rewrite <- (store_asked WBit _ _ (v_bits d)). destruct (store _ _ _ _) as [cl [|]]; reflexivity.
    + destruct (negb ((1 <=? qty) && (qty <=? 123))); [reflexivity|]. destruct (_ <? _); [reflexivity|]. destruct (negb _); [reflexivity|]. unfold write_i. cbn [fst]. rewrite <- (store_asked WReg _ _ (v_regs d)). destruct (store _ _ _ _) as [cl [|]]; reflexivity.
  - clear -Hno. cbn [In] in Hno. destruct fc as [|p|p]; auto. do 5 (try (destruct p as [p|p|]; try reflexivity; try (exfalso; eapply Hno; [|reflexivity]; tauto))).
Qed.

Definition sample_app (k : nat) : list aw := match k with 1%nat => [WReg 0 7; WReg 1 8; WBit 2 false] | 2%nat => [WReg 0 9] | _ => [] end.
Lemma sample_app_words : app_words sample_app.
Proof. intros [|[|[|k]]] x v H; cbn in H; intuition (try discriminate); match goal with E : WReg _ _ = WReg _ _ |- _ => injection E as <- <- end; unfold word; lia. Qed.
(** holding registers 0, 1, 2 are variables 1, 0, 1; the application sets both between the first and the second access.  The answer has the old
    value of variable 1 first, then the new one of variable 0, then the new one of variable 1 *)
Example C93_case_read :
  let m := sample_msg [9; 3; 0; 0; 0; 3; 0; 0] in
  msg_ok m /\ (forall k, (k < 3)%nat -> var_at (table_of 3 sample_data) (v_regs (at_access sample_app sample_data k)) (Z.to_nat 0 + k) = Some (nth k [0xABCD; 7; 8] 0)) /\
  exists st r, parse_master_request_and_prepare_resp_i sample_app sample_cfg m sample_data = Ok (st, mk_msg (m_req m) r, aw_run sample_data (writes_until sample_app 3)) /\
    answer_is r [3; 6; 0xAB; 0xCD; 0; 7; 0; 8].
Proof.
  assert (M : msg_ok (sample_msg [9; 3; 0; 0; 0; 3; 0; 0])) by (apply sample_msg_ok; [cbn; lia|reflexivity]).
  assert (V : forall k, (k < 3)%nat -> var_at (table_of 3 sample_data) (v_regs (at_access sample_app sample_data k)) (Z.to_nat 0 + k) = Some (nth k [0xABCD; 7; 8] 0)) by (intros [|[|[|k]]] K; [reflexivity..|lia]).
  split; [exact M|]. split; [exact V|].
  exact (C93_read_regs sample_app sample_cfg sample_data _ 3 0 3 [0xABCD; 7; 8] sample_cfg_ok sample_data_ok M sample_app_words eq_refl (or_introl eq_refl) eq_refl eq_refl ltac:(lia) ltac:(cbn; lia) eq_refl V).
Qed.

(** write registers 0, 1, 2 (variables 1, 0, 1) with 1, 2, 3: variable 0, which the application writes again before the third access, keeps 9;
    variable 1 has 3; the bit written meanwhile is not lost *)
Example C93_case_write :
  let m := sample_msg [9; 16; 0; 0; 0; 3; 6; 0; 1; 0; 2; 0; 3; 0; 0] in
  msg_ok m /\ refusal sample_cfg sample_data (rr_buf (m_req m)) = None /\
  exists st r, parse_master_request_and_prepare_resp_i sample_app sample_cfg m sample_data = Ok (st, mk_msg (m_req m) r, set_bits (set_regs sample_data [9; 3]) [true; false; false]) /\
    answer_is r [16; 0; 0; 0; 3].
Proof.
  assert (M : msg_ok (sample_msg [9; 16; 0; 0; 0; 3; 6; 0; 1; 0; 2; 0; 3; 0; 0])) by (apply sample_msg_ok; [cbn; lia|reflexivity]).
  split; [exact M|]. split; [reflexivity|].
  destruct (C93_answer sample_app sample_cfg sample_data _ sample_cfg_ok sample_data_ok M sample_app_words) as (st & r & E & A). exists st, r. split; [exact E|exact A].
Qed.
(** an answer is no snapshot: two registers that the application always changes together, so that they are equal before and after each of its
    interrupt handlers, are reported with different values *)
Theorem C93_no_snapshot : exists app c d m,
  cfg_tables_ok c /\ data_ok c d /\ msg_ok m /\ app_words app /\
  (forall k, nth_error (v_regs (aw_run d (writes_until app k))) 0 = nth_error (v_regs (aw_run d (writes_until app k))) 1) /\
  exists st r d', parse_master_request_and_prepare_resp_i app c m d = Ok (st, mk_msg (m_req m) r, d') /\ answer_is r [3; 4; 0; 5; 0; 6].
Proof.
  set (app := fun k : nat => match k with 1%nat => [WReg 0 6; WReg 1 6] | _ => [] end).
  set (d := set_regs sample_data [5; 5]).
  assert (M : msg_ok (sample_msg [9; 3; 0; 0; 0; 2; 0; 0])) by (apply sample_msg_ok; [cbn; lia|reflexivity]).
  assert (W : app_words app). { intros [|[|k]] x v H; cbn in H; intuition (try discriminate); match goal with E : WReg _ _ = WReg _ _ |- _ => injection E as <- <- end; unfold word; lia. }
  assert (D : data_ok sample_cfg d). { pose proof sample_data_ok as (A1 & A2 & A3 & A4 & A5 & A6 & A7 & A8 & _). unfold d. split; [exact A1|]. split; [exact A2|]. split; [exact A3|]. split; [exact A4|]. split; [exact A5|]. split; [exact A6|]. split; [exact A7|]. split; [exact A8|]. repeat constructor; unfold word; lia. }
  exists app, sample_cfg, d, (sample_msg [9; 3; 0; 0; 0; 2; 0; 0]). split; [exact sample_cfg_ok|]. split; [exact D|]. split; [exact M|]. split; [exact W|]. split.
  - intros [|[|k]]; [reflexivity..|]. unfold writes_until. cbn [seq flat_map]. change (app 0%nat) with (@nil aw). change (app 1%nat) with [WReg 0 6; WReg 1 6]. rewrite app_nil_l.
    assert (N : forall n s, (2 <= s)%nat -> flat_map app (seq s n) = []) by (induction n as [|n IH]; intros s Hs; [reflexivity|]; cbn [seq flat_map]; rewrite IH by lia; destruct s as [|[|s]]; [lia|lia|reflexivity]).
    rewrite N by lia. reflexivity.
  - destruct (C93_answer app sample_cfg d _ sample_cfg_ok D M W) as (st & r & E & A). do 3 eexists. split; [exact E|exact A].
Qed.
Print Assumptions C93_answer. Print Assumptions C93_read_bits. Print Assumptions C93_read_regs. Print Assumptions C93_exceptions.
Print Assumptions C93_write_bits. Print Assumptions C93_write_regs. Print Assumptions C93_untouched. Print Assumptions C93_no_snapshot.
