(** The ring buffer refines the FIFO list. *)
From Verif Require Export Proofs.Lib Model.Queue Spec.QueueRun.

Definition wrap (N x : Z) : Z := if x <? N then x else x - N.
Lemma mod_wrap N x : 0 < N -> 0 <= x < 2 * N -> x mod N = wrap N x.
Proof.
  intros HN Hx. unfold wrap. destruct (x <? N) eqn:E.
  - apply Z.mod_small. lia.
  - replace x with (x - N + 1 * N) at 1 by lia. rewrite Z.mod_add by lia. apply Z.mod_small. lia.
Qed.

Section Rep.
Context {A : Type}.

Record rep (N : Z) (q : queue A) (l : list A) : Prop := {
  rep_N : 1 <= N <= 255;
  rep_slots : length (q_slots q) = Z.to_nat N;
  rep_tail : 0 <= q_tail q < N;
  rep_head : q_head q = wrap N (q_tail q + Z.of_nat (length l));
  rep_items : q_items q = Z.of_nat (length l);
  rep_cap : Z.of_nat (length l) <= N;
  rep_elems : forall i, (i < length l)%nat ->
     nth_error (q_slots q) (Z.to_nat (wrap N (q_tail q + Z.of_nat i))) = Some (nth_error l i)
}.

Lemma rep_init N q : 1 <= N <= 255 -> length (q_slots q) = Z.to_nat N -> rep N (modbus_queue_init q) [].
Proof.
  intros HN HL. constructor; cbn [modbus_queue_init q_slots q_tail q_head q_items length]; auto; try lia.
  - unfold wrap. destruct (0 + Z.of_nat 0 <? N) eqn:E; lia.
Qed.
Lemma rep_zero N : 1 <= N <= 255 -> rep N (queue_zero N) [].
Proof.
  intros HN. constructor; cbn [queue_zero q_slots q_tail q_head q_items length]; auto; try lia.
  - apply repeat_length.
  - unfold wrap. destruct (0 + Z.of_nat 0 <? N) eqn:E; lia.
Qed.

Lemma head_eq_tail N q l : rep N q l -> (q_head q =? q_tail q) = (Z.of_nat (length l) =? 0) || (Z.of_nat (length l) =? N).
Proof.
  intros R. destruct R as [HN HS HT HH HI HC HE]. rewrite HH. unfold wrap.
  destruct (q_tail q + Z.of_nat (length l) <? N) eqn:E; lia.
Qed.

Lemma push_room N q l x : rep N q l -> Z.of_nat (length l) < N ->
  exists q', modbus_queue_push N q (Some x) = Ok (q', None) /\ rep N q' (l ++ [x]) /\ q_tail q' = q_tail q.
Proof.
  intros R Hl. assert (HT := head_eq_tail N q l R). destruct R as [HN HS HTl HH HI HC HE].
  set (h := q_head q) in *.
  assert (Hh : 0 <= h < N) by (rewrite HH; unfold wrap; destruct (_ <? N) eqn:?; lia).
  assert (Hn : u8 ((h + 1) mod N) = wrap N (h + 1)).
  { rewrite mod_wrap by lia. apply u8_id. unfold wrap. destruct (_ <? N) eqn:?; lia. }
  assert (Hi8 : u8 (q_items q + 1) = q_items q + 1) by (apply u8_id; lia).
  exists (mk_queue (wrap N (h + 1)) (q_tail q) (q_items q + 1) (upd (q_slots q) (Z.to_nat h) (Some x))).
  split; [|split; [|reflexivity]].
  - unfold modbus_queue_push. fold h. destruct (N =? 0) eqn:E0; [lia|]. cbv zeta.
    rewrite Hn, Hi8, aset_ok by lia. cbn [bind].
    destruct (h =? q_tail q); auto. destruct (q_items q =? N) eqn:E2; [lia|reflexivity].
  - constructor; cbn [q_slots q_tail q_head q_items]; auto.
    + now rewrite upd_length.
    + rewrite app_length. cbn [length]. rewrite HH. unfold wrap.
      destruct (q_tail q + Z.of_nat (length l) <? N) eqn:E1;
      destruct (q_tail q + Z.of_nat (length l + 1) <? N) eqn:E2; 
      match goal with |- (if ?b then _ else _) = _ => destruct b eqn:E3 end; lia.
    + rewrite app_length. cbn [length]. lia.
    + rewrite app_length. cbn [length]. lia.
    + intros i Hi. rewrite app_length in Hi. cbn [length] in Hi.
      destruct (Nat.eq_dec i (length l)) as [->|Ni].
      * rewrite <- HH. rewrite upd_nth_error_same by (rewrite HS; lia).
        rewrite nth_error_app2, Nat.sub_diag by lia. reflexivity.
      * rewrite upd_nth_error_other.
        -- rewrite HE by lia. rewrite nth_error_app1 by lia. reflexivity.
        -- rewrite HH. unfold wrap.
           destruct (q_tail q + Z.of_nat (length l) <? N) eqn:E1;
           destruct (q_tail q + Z.of_nat i <? N) eqn:E2; lia.
Qed.
Lemma push_full N q l d : rep N q l -> Z.of_nat (length l) = N -> modbus_queue_push N q d = Ok (q, d).
Proof.
  intros R Hl. assert (HT := head_eq_tail N q l R). destruct R as [HN HS HTl HH HI HC HE].
  unfold modbus_queue_push. destruct (N =? 0) eqn:E0; [lia|]. rewrite HT.
  destruct ((Z.of_nat (length l) =? 0) || (Z.of_nat (length l) =? N)) eqn:E; [|lia].
  destruct (q_items q =? N) eqn:E2; [reflexivity|lia].
Qed.
Lemma pop_empty N q : rep N q [] -> modbus_queue_pop N q = Ok (None, q).
Proof.
  intros R. assert (HT := head_eq_tail N q [] R). destruct R as [HN HS HTl HH HI HC HE].
  unfold modbus_queue_pop. destruct (N =? 0) eqn:E0; [lia|]. rewrite HT. cbn [length] in *.
  change (Z.of_nat 0 =? 0) with true. cbn [orb]. rewrite HI. reflexivity.
Qed.
Lemma pop_cons N q x l : rep N q (x :: l) ->
  exists q', modbus_queue_pop N q = Ok (Some x, q') /\ rep N q' l.
Proof.
  intros R. assert (HT := head_eq_tail N q (x :: l) R). destruct R as [HN HS HTl HH HI HC HE].
  set (t := q_tail q) in *. cbn [length] in *.
  assert (Hn : u8 ((t + 1) mod N) = wrap N (t + 1)).
  { rewrite mod_wrap by lia. apply u8_id. unfold wrap. destruct (_ <? N) eqn:?; lia. }
  assert (Hi8 : u8 (q_items q - 1) = q_items q - 1) by (apply u8_id; lia).
  exists (mk_queue (q_head q) (wrap N (t + 1)) (q_items q - 1) (upd (q_slots q) (Z.to_nat t) None)).
  assert (G : aget (q_slots q) t = Ok (Some x)).
  { apply aget_some; [lia|]. specialize (HE 0%nat ltac:(lia)). cbn [nth_error] in HE.
    replace (wrap N (t + Z.of_nat 0)) with t in HE by (unfold wrap; destruct (_ <? N) eqn:?; lia). exact HE. }
  split.
  - unfold modbus_queue_pop. fold t. destruct (N =? 0) eqn:E0; [lia|].
    rewrite G, Hn, Hi8, aset_ok by lia. cbn [bind].
    destruct (q_head q =? t); auto. destruct (q_items q =? 0) eqn:E2; [lia|reflexivity].
  - constructor; cbn [q_slots q_tail q_head q_items]; auto; try lia.
    + now rewrite upd_length.
    + unfold wrap. destruct (_ <? N) eqn:?; lia.
    + rewrite HH. unfold wrap.
      destruct (t + 1 <? N) eqn:E1; destruct (t + Z.of_nat (S (length l)) <? N) eqn:E2;
      match goal with |- _ = (if ?b then _ else _) => destruct b eqn:E3 end; lia.
    + intros i Hi. specialize (HE (S i) ltac:(lia)). cbn [nth_error] in HE.
      rewrite upd_nth_error_other.
      * rewrite <- HE. f_equal. unfold wrap.
        destruct (t + 1 <? N) eqn:E1; destruct (t + Z.of_nat (S i) <? N) eqn:E2;
        match goal with |- context [if ?b then _ else _] => destruct b eqn:E3 end; lia.
      * unfold wrap. destruct (t + 1 <? N) eqn:E1;
        match goal with |- context [if ?b then _ else _] => destruct b eqn:E3 end; lia.
Qed.
Lemma avail_iff N q l : rep N q l -> check_data_to_send_availability q = negb (Nat.eqb (length l) 0).
Proof.
  intros R. assert (HT := head_eq_tail N q l R). destruct R as [HN HS HTl HH HI HC HE].
  unfold check_data_to_send_availability. rewrite HT, HI. lia.
Qed.

(** the queue driven by a sequence of operations, with the caller's observations *)
Lemma q_step_fifo N q l o : rep N q l ->
  exists q', q_step N q o = Ok (q', snd (fifo_step N l o)) /\ rep N q' (fst (fifo_step N l o)).
Proof.
  intros R. destruct o as [x|]; cbn [q_step fifo_step].
  - destruct (Z.of_nat (length l) <? N) eqn:E.
    + destruct (push_room N q l x R ltac:(lia)) as (q' & H1 & H2 & _). rewrite H1. exists q'. split; auto.
    + assert (Z.of_nat (length l) = N) by (destruct R; lia). rewrite (push_full N q l) by auto. exists q. split; auto.
  - destruct l as [|x l].
    + rewrite pop_empty by auto. exists q. split; auto.
    + destruct (pop_cons N q x l R) as (q' & H1 & H2). rewrite H1. exists q'. split; auto.
Qed.
Lemma q_run_fifo N ops : forall q l, rep N q l ->
  exists q', q_run N q ops = Ok (q', snd (fifo_run N l ops)) /\ rep N q' (fst (fifo_run N l ops)).
Proof.
  induction ops as [|o ops IH]; intros q l R; cbn [q_run fifo_run].
  - exists q. auto.
  - destruct (q_step_fifo N q l o R) as (q1 & H1 & R1). rewrite H1. cbn [bind].
    destruct (fifo_step N l o) as [l1 r] eqn:E. cbn [fst snd] in *.
    destruct (IH q1 l1 R1) as (q2 & H2 & R2). rewrite H2. cbn [bind].
    destruct (fifo_run N l1 ops) as [l2 rs]. exists q2. auto.
Qed.
End Rep.
