(** An interrupted queue operation is equivalent to an uninterrupted one at some moment. *)
From Verif Require Import Proofs.QueueP Model.QueueSteps Spec.QueueIrq.
Local Open Scope Z_scope.

Section Sim.
Context {A : Type}.
Implicit Types (q : queue A) (l : list A).

Lemma rep_range N q l : rep N q l -> 0 <= q_head q < N.
Proof. intros [HN HS HT HH HI HC HE]. rewrite HH. unfold wrap. destruct (_ <? N) eqn:?; lia. Qed.
Lemma rep_first N q y l : rep N q (y :: l) -> nth_error (q_slots q) (Z.to_nat (q_tail q)) = Some (Some y).
Proof.
  intros [HN HS HT HH HI HC HE]. specialize (HE 0%nat ltac:(cbn; lia)). cbn [nth_error] in HE. replace (wrap N (q_tail q + Z.of_nat 0)) with (q_tail q) in HE by (unfold wrap; destruct (_ <? N) eqn:?; lia). exact HE.
Qed.
Lemma upd_comm {B} (l : list B) i j x y : i <> j -> upd (upd l i x) j y = upd (upd l j y) i x.
Proof.
  revert i j. induction l as [|z l IH]; intros [|i] [|j] H; cbn [upd]; auto; try congruence. f_equal. apply IH. congruence.
Qed.
Lemma pop_raw N q l : rep N q l -> modbus_queue_pop N q = Ok (match l with [] => (None, q) | x :: _ =>
  (Some x, mk_queue (q_head q) (u8 ((q_tail q + 1) mod N)) (u8 (q_items q - 1)) (upd (q_slots q) (Z.to_nat (q_tail q)) None)) end).
Proof.
  intros R. destruct l as [|x l]; [apply pop_empty; auto|]. destruct (pop_cons N q x l R) as (q' & E & _). rewrite E. unfold modbus_queue_pop in E.
  destruct R as [HN HS HT HH HI HC HE]. destruct (N =? 0); [discriminate|].
  rewrite aset_ok in E by lia. destruct (aget (q_slots q) (q_tail q)) as [r| |]; cbn [bind] in E; try (destruct (q_head q =? q_tail q); try destruct (q_items q =? 0); discriminate).
  destruct (q_head q =? q_tail q); [destruct (q_items q =? 0)|]; inversion E; subst; reflexivity.
Qed.
Lemma push_raw N q l x : rep N q l -> Z.of_nat (length l) < N ->
  modbus_queue_push N q (Some x) = Ok (mk_queue (u8 ((q_head q + 1) mod N)) (q_tail q) (u8 (q_items q + 1)) (upd (q_slots q) (Z.to_nat (q_head q)) (Some x)), None).
Proof.
  intros R L. destruct (push_room N q l x R L) as (q' & E & _). rewrite E. assert (Hh := rep_range N q l R). unfold modbus_queue_push in E. cbv zeta in E.
  destruct R as [HN HS HT HH HI HC HE]. destruct (N =? 0); [discriminate|]. rewrite aset_ok in E by lia. cbn [bind] in E.
  destruct (q_head q =? q_tail q); [destruct (q_items q =? N)|]; inversion E; subst; reflexivity.
Qed.
Lemma rep_pop N q l : rep N q l -> exists q', modbus_queue_pop N q = Ok (hd_error l, q') /\ rep N q' (tl l).
Proof. intros R. destruct l as [|x l]; [exists q; split; [apply pop_empty|]; auto|]. destruct (pop_cons N q x l R) as (q' & E & R'). exists q'. auto. Qed.

(** ** a push interrupted by pops.  [qs], [l]: the queue as it would be if the push were done in one go at the moment [lin] becomes true *)
Definition at_push (N : Z) (x : A) (pc : push_pc A) (q qs : queue A) (l : list A) (lin : bool) : Prop :=
  rep N qs l /\
  match pc, lin with
  | P52, false => q = qs /\ Z.of_nat (length l) < N
  | P54 nh, false | P70 nh, false => q = qs /\ Z.of_nat (length l) < N /\ nh = (q_head qs + 1) mod N /\ (match pc with P70 _ => 2 <= N | _ => True end)
  | P56 nh, false | P62 nh, false => q = qs /\ l = [] /\ nh = (q_head qs + 1) mod N
  | P63 nh, false => q = set_slots qs (upd (q_slots qs) (Z.to_nat (q_head qs)) (Some x)) /\ l = [] /\ nh = (q_head qs + 1) mod N
  | P63s nh v, false => q = set_slots qs (upd (q_slots qs) (Z.to_nat (q_head qs)) (Some x)) /\ l = [] /\ nh = (q_head qs + 1) mod N /\ v = q_items q
  | P71 nh, false => q = set_slots qs (upd (q_slots qs) (Z.to_nat (q_head qs)) (Some x)) /\ Z.of_nat (length l) < N /\ nh = (q_head qs + 1) mod N /\ 2 <= N
  | P64 nh, true => q = set_head qs (q_head q) /\ q_head qs = u8 nh /\ (l <> [] -> q_head q = q_tail q) /\ (length l <= 1)%nat
  | P72, true => q = set_items qs (u8 (q_items qs - 1)) /\ 2 <= N
  | P72s v, true => q = set_items qs (u8 (q_items qs - 1)) /\ v = u8 (q_items qs - 1) /\ 2 <= N
  | P65, true | P73, true => q = qs
  | PDone d, true => q = qs /\ d = None
  | _, _ => False
  end.
Lemma at_push_rep N x pc q qs l lin : at_push N x pc q qs l lin -> rep N qs l. Proof. intros H. apply H. Qed.
Lemma push_sim_step N x pc q qs l lin : at_push N x pc q qs l lin ->
  exists pc' q', push_step N (Some x) pc q = Ok (pc', q') /\
    (at_push N x pc' q' qs l lin \/ lin = false /\ exists qs', modbus_queue_push N qs (Some x) = Ok (qs', None) /\ at_push N x pc' q' qs' (l ++ [x]) true).
Proof.
  intros (R & H). assert (Hh := rep_range N qs l R). assert (HN := rep_N _ _ _ R). assert (HS := rep_slots _ _ _ R). assert (HI := rep_items _ _ _ R). assert (HT := head_eq_tail _ _ _ R). assert (HC := rep_cap _ _ _ R).
  destruct pc, lin; try contradiction; cbn [push_step].
  - destruct H as (-> & H). destruct (N =? 0) eqn:E; [lia|]. do 2 eexists. split; [reflexivity|]. left. split; auto.
  - destruct H as (-> & H & H2 & _). do 2 eexists. split; [reflexivity|]. left. split; auto. rewrite HT.
    destruct (Z.of_nat (length l) =? 0) eqn:E; cbn [orb]. { split; auto. split; auto. destruct l; [auto|cbn [length] in E; lia]. }
    destruct (Z.of_nat (length l) =? N) eqn:E2; [lia|]. split; auto. split; auto. split; auto. lia.
  - destruct H as (-> & -> & H2). cbn [length] in HI. destruct (q_items qs =? N) eqn:E; [lia|]. do 2 eexists. split; [reflexivity|]. left. split; auto.
  - destruct H as (-> & -> & H2). rewrite aset_ok by lia. do 2 eexists. split; [reflexivity|]. left. split; auto.
  - destruct H as (-> & -> & H2). do 2 eexists. split; [reflexivity|]. left. split; auto.
  - destruct H as (-> & -> & H2 & H3). do 2 eexists. split; [reflexivity|]. right. split; auto. cbn [set_slots q_items] in H3. subst v nh.
    assert (Ln : Z.of_nat (length (@nil A)) < N) by (cbn; lia). destruct (push_room N qs [] x R Ln) as (qs' & E & R' & _). exists qs'. split; [exact E|]. rewrite (push_raw N qs [] x R Ln) in E. inversion E; subst qs'.
    split; [exact R'|]. cbn. split; [reflexivity|]. split; [reflexivity|]. split; [|lia]. intros _. cbn [length] in HT. change (Z.of_nat 0 =? 0) with true in HT. cbn [orb] in HT. lia.
  - destruct H as (H & H2 & _). do 2 eexists. split; [reflexivity|]. left. split; [exact R|]. rewrite H, <- H2. destruct qs; reflexivity.
  - subst q. do 2 eexists. split; [reflexivity|]. left. split; [exact R|]. auto.
  - destruct H as (-> & H & H2 & H3). rewrite aset_ok by lia. do 2 eexists. split; [reflexivity|]. left. split; auto.
  - destruct H as (-> & H & H2 & H3). do 2 eexists. split; [reflexivity|]. right. split; auto. subst nh.
    destruct (push_room N qs l x R H) as (qs' & E & R' & _). exists qs'. split; [exact E|]. rewrite (push_raw N qs l x R H) in E. inversion E; subst qs'.
    split; [exact R'|]. split; [|exact H3]. unfold set_items, set_head, set_slots. cbn [q_head q_tail q_items q_slots]. f_equal. unfold u8. lia.
  - destruct H as (-> & H). do 2 eexists. split; [reflexivity|]. left. split; auto.
  - destruct H as (-> & -> & H2). do 2 eexists. split; [reflexivity|]. left. split; auto. destruct qs as [h t n sl]. unfold set_items. cbn [q_head q_tail q_items q_slots] in *. f_equal. unfold u8. lia.
  - subst q. do 2 eexists. split; [reflexivity|]. left. split; auto.
  - destruct H as (-> & ->). do 2 eexists. split; [reflexivity|]. left. split; auto.
Qed.
Lemma push_sim_pop N x pc q qs l lin : at_push N x pc q qs l lin -> push_in_count pc = false -> (push_between pc = true -> l <> []) ->
  exists q' qs', modbus_queue_pop N q = Ok (hd_error l, q') /\ modbus_queue_pop N qs = Ok (hd_error l, qs') /\ at_push N x pc q' qs' (tl l) lin.
Proof.
  intros (R & H) C W. assert (Hh := rep_range N qs l R). assert (HN := rep_N _ _ _ R). assert (HS := rep_slots _ _ _ R). assert (HI := rep_items _ _ _ R). assert (HT := head_eq_tail _ _ _ R). assert (HC := rep_cap _ _ _ R). assert (HTl := rep_tail _ _ _ R).
  destruct (rep_pop N qs l R) as (qs' & E & R'). assert (Er := pop_raw N qs l R). assert (Sl : (length (tl l) <= length l)%nat) by (destruct l; cbn; lia).
  assert (Hd : q_head qs' = q_head qs) by (rewrite Er in E; destruct l; inversion E; reflexivity).
  assert (Slot : Z.of_nat (length l) < N -> modbus_queue_pop N (set_slots qs (upd (q_slots qs) (Z.to_nat (q_head qs)) (Some x))) = Ok (hd_error l, set_slots qs' (upd (q_slots qs') (Z.to_nat (q_head qs')) (Some x)))).
  { intros L. rewrite Er in E. unfold modbus_queue_pop, set_slots. cbn [q_head q_tail q_items q_slots]. destruct (N =? 0) eqn:E0; [lia|]. rewrite HT.
    destruct l as [|y l]. { inversion E; subst qs'. change (Z.of_nat 0 =? 0) with true. cbn [orb length]. replace (q_items qs =? 0) with true by (cbn [length] in HI; lia). destruct qs. reflexivity. }
    cbn [length] in *. replace (Z.of_nat (S (length l)) =? 0) with false by lia. replace (Z.of_nat (S (length l)) =? N) with false by lia. cbn [orb].
    assert (Ne : q_head qs <> q_tail qs) by lia.
    assert (G : aget (q_slots qs) (q_tail qs) = Ok (Some y)).
    { apply aget_some; [lia|]. eapply rep_first; eauto. }
    assert (G2 : aget (upd (q_slots qs) (Z.to_nat (q_head qs)) (Some x)) (q_tail qs) = Ok (Some y)).
    { apply aget_some; [lia|]. rewrite upd_nth_error_other by lia. eapply rep_first; eauto. }
    rewrite G2, aset_ok by (rewrite upd_length; lia). cbn [bind]. inversion E; subst qs'. cbn [hd_error q_head q_tail q_items q_slots]. rewrite (upd_comm _ (Z.to_nat (q_head qs))) by lia. reflexivity. }
  destruct pc, lin; try contradiction; try discriminate.
  - destruct H as (-> & H). exists qs', qs'. split; auto. split; auto. split; auto. cbn. split; auto. lia.
  - destruct H as (-> & H & H2 & H3). exists qs', qs'. split; auto. split; auto. split; auto. rewrite Hd. split; auto. split; [lia|auto].
  - destruct H as (-> & -> & H2). exists qs', qs'. split; auto. split; auto. split; auto. rewrite Hd. auto.
  - destruct H as (-> & -> & H2). exists qs', qs'. split; auto. split; auto. split; auto. rewrite Hd. auto.
  - destruct H as (-> & -> & H2). eexists. exists qs'. split; [apply Slot; cbn; lia|]. split; auto. split; auto. rewrite Hd. auto.
  - destruct H as (H & H2 & H3 & H4). specialize (W eq_refl). specialize (H3 W). destruct l as [|y l]; [congruence|]. cbn [hd_error tl] in *. rewrite Er in E. inversion E; subst qs'. clear E.
    assert (T1 : q_tail q = q_tail qs) by (rewrite H; reflexivity). rewrite T1 in H3.
    assert (G : aget (q_slots qs) (q_tail qs) = Ok (Some y)).
    { apply aget_some; [lia|]. eapply rep_first; eauto. }
    exists (set_head (mk_queue (q_head qs) (u8 ((q_tail qs + 1) mod N)) (u8 (q_items qs - 1)) (upd (q_slots qs) (Z.to_nat (q_tail qs)) None)) (q_head q)). eexists. split; [|split; [exact Er|]].
    + rewrite H. unfold modbus_queue_pop, set_head. cbn [q_head q_tail q_items q_slots]. destruct (N =? 0) eqn:E0; [lia|]. rewrite G. cbn [bind]. rewrite aset_ok by lia. cbn [bind].
      cbn [length] in HI. destruct (q_head q =? q_tail qs); auto. replace (q_items qs =? 0) with false by lia. reflexivity.
    + split; [exact R'|]. cbn [set_head q_head q_tail q_items q_slots]. split; auto. split; auto. destruct l; [|cbn [length] in H4; lia]. split; [congruence|cbn; lia].
  - subst q. exists qs', qs'. split; auto. split; auto. split; auto.
  - destruct H as (-> & H & H2 & H3). exists qs', qs'. split; auto. split; auto. split; auto. rewrite Hd. split; auto. split; [lia|auto].
  - destruct H as (-> & H & H2 & H3). eexists. exists qs'. split; [apply Slot; exact H|]. split; auto. split; auto. rewrite Hd. split; auto. split; [lia|auto].
  - destruct H as (-> & H). specialize (W eq_refl). destruct l as [|y l]; [congruence|]. cbn [hd_error tl length] in *. rewrite Er in E. inversion E; subst qs'. clear E.
    assert (G : aget (q_slots qs) (q_tail qs) = Ok (Some y)).
    { apply aget_some; [lia|]. eapply rep_first; eauto. }
    eexists. eexists. split; [|split; [exact Er|]].
    + unfold modbus_queue_pop, set_items. cbn [q_head q_tail q_items q_slots]. destruct (N =? 0) eqn:E0; [lia|]. rewrite G. cbn [bind]. rewrite aset_ok by lia. cbn [bind]. rewrite HT.
      replace (Z.of_nat (S (length l)) =? 0) with false by lia. cbn [orb]. destruct (Z.of_nat (S (length l)) =? N) eqn:E1; [|reflexivity].
      replace (u8 (q_items qs - 1) =? 0) with false by (unfold u8; lia). reflexivity.
    + split; [exact R'|]. split; [|exact H]. reflexivity.
  - subst q. exists qs', qs'. split; auto. split; auto. split; auto.
  - destruct H as (-> & H). exists qs', qs'. split; auto. split; auto. split; auto.
Qed.

(** ** a pop interrupted by pushes *)
Definition at_pop (N : Z) (pc : pop_pc A) (q qs : queue A) (l : list A) (lin : bool) : Prop :=
  rep N qs l /\
  match pc, lin with
  | Q89, false | Q92, false => q = qs
  | Q98, false => q = qs /\ l <> []
  | Q99 r, false => q = qs /\ l <> [] /\ r = hd_error l
  | Q100 r, false => q = set_slots qs (upd (q_slots qs) (Z.to_nat (q_tail qs)) None) /\ l <> [] /\ r = hd_error l
  | Q100s r v, false => q = set_slots qs (upd (q_slots qs) (Z.to_nat (q_tail qs)) None) /\ l <> [] /\ r = hd_error l /\ v = q_items qs
  | Q101 r, false => q = set_items (set_slots qs (upd (q_slots qs) (Z.to_nat (q_tail qs)) None)) (u8 (q_items qs - 1)) /\ l <> [] /\ r = hd_error l
  | QDone r, true => q = qs
  | _, _ => False
  end.
Lemma pop_sim_step N pc q qs l lin : at_pop N pc q qs l lin ->
  exists pc' q', pop_step N pc q = Ok (pc', q') /\
    (at_pop N pc' q' qs l lin /\ (lin = true -> pc' = pc) \/ lin = false /\ exists r qs', pc' = QDone r /\ modbus_queue_pop N qs = Ok (r, qs') /\ at_pop N pc' q' qs' (tl l) true).
Proof.
  intros (R & H). assert (HN := rep_N _ _ _ R). assert (HS := rep_slots _ _ _ R). assert (HI := rep_items _ _ _ R). assert (HT := head_eq_tail _ _ _ R). assert (HTl := rep_tail _ _ _ R).
  destruct (rep_pop N qs l R) as (qs' & E & R'). assert (Er := pop_raw N qs l R).
  destruct pc, lin; try contradiction; cbn [pop_step].
  - subst q. do 2 eexists. split; [reflexivity|]. left. split; [|discriminate]. split; auto. rewrite HT. destruct (Z.of_nat (length l) =? 0) eqn:E0; cbn [orb]; auto.
    destruct (Z.of_nat (length l) =? N); auto. split; auto. intros ->. cbn in E0. lia.
  - subst q. do 2 eexists. split; [reflexivity|]. destruct (q_items qs =? 0) eqn:E0.
    + right. split; auto. destruct l; [|cbn [length] in HI; lia]. do 2 eexists. split; [reflexivity|]. split; [exact E|]. split; [exact R'|]. rewrite Er in E. inversion E. reflexivity.
    + left. split; [|discriminate]. split; auto. split; auto. intros ->. cbn in HI. lia.
  - destruct H as (-> & H). destruct l as [|y l]; [congruence|]. assert (G : aget (q_slots qs) (q_tail qs) = Ok (Some y)) by (apply aget_some; [lia|]; eapply rep_first; eauto).
    rewrite G. do 2 eexists. split; [reflexivity|]. left. split; [|discriminate]. split; auto.
  - destruct H as (-> & H & H2). rewrite aset_ok by lia. do 2 eexists. split; [reflexivity|]. left. split; [|discriminate]. split; auto.
  - destruct H as (-> & H & H2). do 2 eexists. split; [reflexivity|]. left. split; [|discriminate]. split; auto.
  - destruct H as (-> & H & H2 & H3). subst v. do 2 eexists. split; [reflexivity|]. left. split; [|discriminate]. split; auto.
  - destruct H as (-> & H & H2). destruct (N =? 0) eqn:E0; [lia|]. do 2 eexists. split; [reflexivity|]. right. split; auto. subst r. exists (hd_error l), qs'. split; [reflexivity|]. split; [exact E|]. split; [exact R'|].
    destruct l as [|y l]; [congruence|]. rewrite Er in E. inversion E. reflexivity.
  - subst q. do 2 eexists. split; [reflexivity|]. left. split; [split; auto|auto].
Qed.
Lemma pop_sim_push N x pc q qs l lin : at_pop N pc q qs l lin -> pop_in_count pc = false -> Z.of_nat (length l) < N ->
  exists q' qs', modbus_queue_push N q (Some x) = Ok (q', None) /\ modbus_queue_push N qs (Some x) = Ok (qs', None) /\ at_pop N pc q' qs' (l ++ [x]) lin.
Proof.
  intros (R & H) C L. assert (Hh := rep_range N qs l R). assert (HN := rep_N _ _ _ R). assert (HS := rep_slots _ _ _ R). assert (HI := rep_items _ _ _ R). assert (HT := head_eq_tail _ _ _ R). assert (HTl := rep_tail _ _ _ R).
  destruct (push_room N qs l x R L) as (qs' & E & R' & T'). assert (Er := push_raw N qs l x R L). assert (Nn : l ++ [x] <> []) by (destruct l; discriminate).
  assert (Hr : forall r, l <> [] -> r = hd_error l -> r = hd_error (l ++ [x])) by (intros r Q ->; destruct l; [congruence|reflexivity]).
  assert (Ne : l <> [] -> q_head qs <> q_tail qs) by (intros Q; destruct l; [congruence|cbn [length] in *; lia]).
  destruct pc, lin; try contradiction; try discriminate.
  - subst q. exists qs', qs'. split; auto. split; auto. split; auto.
  - subst q. exists qs', qs'. split; auto. split; auto. split; auto.
  - destruct H as (-> & H). exists qs', qs'. split; auto. split; auto. split; auto.
  - destruct H as (-> & H & H2). exists qs', qs'. split; auto. split; auto. split; auto.
  - destruct H as (-> & H & H2). specialize (Ne H). eexists. exists qs'. split; [|split; [exact E|split; [exact R'|split; [|auto]]]]; [|rewrite Er in E; inversion E; subst qs'; reflexivity].
    unfold modbus_queue_push, set_slots. cbn [q_head q_tail q_items q_slots]. cbv zeta. destruct (N =? 0) eqn:E0; [lia|]. replace (q_head qs =? q_tail qs) with false by lia.
    rewrite aset_ok by (rewrite upd_length; lia). cbn [bind]. rewrite (upd_comm _ (Z.to_nat (q_tail qs))) by lia. rewrite Er in E. inversion E; subst qs'. reflexivity.
  - destruct H as (-> & H & H2). specialize (Ne H). eexists. exists qs'. split; [|split; [exact E|split; [exact R'|split; [|auto]]]]; [|rewrite Er in E; inversion E; subst qs'; reflexivity].
    unfold modbus_queue_push, set_slots, set_items. cbn [q_head q_tail q_items q_slots]. cbv zeta. destruct (N =? 0) eqn:E0; [lia|]. replace (q_head qs =? q_tail qs) with false by lia.
    rewrite aset_ok by (rewrite upd_length; lia). cbn [bind]. rewrite (upd_comm _ (Z.to_nat (q_tail qs))) by lia. rewrite Er in E. inversion E; subst qs'. cbn [q_head q_tail q_items q_slots].
    do 3 f_equal. unfold u8. lia.
  - subst q. exists qs', qs'. split; auto. split; auto. split; auto.
Qed.

(** ** runs *)
Lemma q_run_app N ops1 : forall ops2 q, q_run N q (ops1 ++ ops2) = let* '(q1, r1) := q_run N q ops1 in let* '(q2, r2) := q_run N q1 ops2 in Ok (q2, r1 ++ r2).
Proof.
  induction ops1 as [|o ops1 IH]; intros ops2 q; cbn [q_run app]. { cbn [bind]; destruct (q_run N q ops2) as [[? ?]| |]; reflexivity. }
  destruct (q_step N q o) as [[q1 r1]| |]; cbn [bind]; auto. rewrite IH. destruct (q_run N q1 ops1) as [[q2 r2]| |]; cbn [bind]; auto. cbn [bind]. destruct (q_run N q2 ops2) as [[q3 r3]| |]; reflexivity.
Qed.
Lemma fell_cons {P R} (w : P -> bool) (p : P) (r : R) out : fell w ((p, r) :: out) = ((if w p then 1 else 0) + fell w out)%nat.
Proof. unfold fell. cbn [filter fst]. destruct (w p); reflexivity. Qed.
Definition push_late (pc : push_pc A) : bool := match pc with P65 | P72s _ | P73 | PDone _ => true | _ => false end.
Lemma late_step N d pc q pc' q' : push_step N d pc q = Ok (pc', q') -> push_late pc = true -> push_late pc' = true.
Proof. intros E L. destruct pc; try discriminate; cbn [push_step] in E; inversion E; reflexivity. Qed.
Definition room_cond (pc : push_pc A) (l : list A) (lin : bool) (out : list (push_pc A * qres A)) : Prop :=
  if lin then push_late pc = true \/ (fell push_between out <= length l)%nat else (fell push_between out <= 1 + (length l - fell push_before out))%nat.
Lemma push_run_sim N x acts : forall pc q qs l lin pc' q' out, at_push N x pc q qs l lin -> Forall (fun o => o = Pop) (irqs acts) ->
  push_run N x acts pc q = Ok (pc', q', out) -> fell push_in_count out = 0%nat -> room_cond pc l lin out ->
  exists qs' l', q_run N qs (repeat Pop (length out)) = Ok (qs', map snd out) /\ at_push N x pc' q' qs' l' lin \/
    lin = false /\ at_push N x pc' q' qs' l' true /\ exists n, (n <= length out)%nat /\
      q_run N qs (repeat Pop n ++ Push x :: repeat Pop (length out - n)) = Ok (qs', firstn n (map snd out) ++ Taken :: skipn n (map snd out)).
Proof.
  induction acts as [|a acts IH]; intros pc q qs l lin pc' q' out H F E C W; cbn [push_run] in E.
  { inversion E; subst. exists qs, l. left. split; auto. }
  destruct a as [|o].
  - destruct (push_sim_step N x pc q qs l lin H) as (pc1 & q1 & E1 & S1). rewrite E1 in E. cbn [bind] in E. cbn [irqs flat_map app] in F. destruct S1 as [S1|(-> & qs1 & P1 & S1)].
    + apply (IH pc1 q1 qs l lin pc' q' out S1 F E C). destruct lin; cbn [room_cond] in *; auto. destruct W as [W|W]; [left; eapply late_step; eauto|auto].
    + assert (W1 : room_cond pc1 (l ++ [x]) true out). { right. cbn [room_cond] in W. rewrite app_length. cbn [length]. lia. }
      destruct (IH pc1 q1 qs1 (l ++ [x]) true pc' q' out S1 F E C W1) as (qs' & l' & [(R1 & R2)|(X & _)]); [|discriminate]. exists qs', l'. right. split; auto. split; auto. exists 0%nat. split; [lia|].
      rewrite Nat.sub_0_r. cbn [repeat app firstn skipn q_run q_step]. rewrite P1. cbn [bind]. rewrite R1. reflexivity.
  - cbn [irqs flat_map app] in F. inversion F as [|? ? -> F']; subst. cbn [q_step] in E. destruct (modbus_queue_pop N q) as [[r q1]| |] eqn:Eq; cbn [bind] in E; try discriminate.
    destruct (push_run N x acts pc q1) as [[[pc2 q2] out2]| |] eqn:E2; cbn [bind] in E; try discriminate. inversion E; subst pc2 q2 out. clear E.
    rewrite fell_cons in C. destruct (push_in_count pc) eqn:Cp; [discriminate|]. cbn [Nat.add] in C.
    assert (Wl : push_between pc = true -> l <> []).
    { intros B. destruct lin; cbn [room_cond] in W. - destruct W as [W|W]; [destruct pc; discriminate|]. rewrite fell_cons, B in W. intros ->. cbn in W. lia. - destruct H as [_ H]. destruct pc; try discriminate; contradiction. }
    destruct (push_sim_pop N x pc q qs l lin H Cp Wl) as (q1' & qs1 & P1 & P2 & S1). rewrite Eq in P1. inversion P1; subst r q1'. clear P1.
    assert (W1 : room_cond pc (tl l) lin out2).
    { destruct lin; cbn [room_cond] in *. - destruct W as [W|W]; [auto|]. rewrite fell_cons in W. destruct (push_between pc) eqn:B.
        + right. destruct l; [exfalso; apply Wl; auto|]. cbn [tl length] in *. lia.
        + left. destruct H as [_ H]. destruct pc; try discriminate; try contradiction; reflexivity.
      - rewrite !fell_cons in W. assert (B : push_between pc = false) by (destruct H as [_ H]; destruct pc; try reflexivity; contradiction).
        assert (B2 : push_before pc = true) by (destruct H as [_ H]; destruct pc; try reflexivity; try contradiction; discriminate). rewrite B, B2 in W. destruct l; cbn [tl length] in *; lia. }
    destruct (IH pc q1 qs1 (tl l) lin pc' q' out2 S1 F' E2 C W1) as (qs' & l' & [(R1 & R2)|(-> & R2 & n & Ln & R1)]).
    + exists qs', l'. left. split; auto. cbn [length repeat map snd q_run q_step]. rewrite P2. cbn [bind]. rewrite R1. reflexivity.
    + exists qs', l'. right. split; auto. split; auto. exists (S n). split; [cbn [length]; lia|]. cbn [length map snd firstn skipn repeat app Nat.sub q_run q_step]. rewrite P2. cbn [bind]. rewrite R1. reflexivity.
Qed.
Lemma pop_run_sim N acts : forall pc q qs l lin pc' q' out, at_pop N pc q qs l lin -> Forall (fun o => exists x, o = Push x) (irqs acts) -> Z.of_nat (length l + length (irqs acts)) <= N ->
  pop_run N acts pc q = Ok (pc', q', out) -> fell pop_in_count out = 0%nat ->
  exists qs' l', q_run N qs (irqs acts) = Ok (qs', map snd out) /\ at_pop N pc' q' qs' l' lin /\ (lin = true -> pc' = pc) \/
    lin = false /\ at_pop N pc' q' qs' l' true /\ exists ops1 ops2 r1 r r2, irqs acts = ops1 ++ ops2 /\ map snd out = r1 ++ r2 /\ length r1 = length ops1 /\ pc' = QDone r /\
      q_run N qs (ops1 ++ Pop :: ops2) = Ok (qs', r1 ++ Popped r :: r2).
Proof.
  induction acts as [|a acts IH]; intros pc q qs l lin pc' q' out H F L E C; cbn [pop_run] in E.
  { inversion E; subst. exists qs, l. left. split; auto. }
  destruct a as [|o].
  - destruct (pop_sim_step N pc q qs l lin H) as (pc1 & q1 & E1 & S1). rewrite E1 in E. cbn [bind] in E. cbn [irqs flat_map app] in *. fold (irqs acts) in *. destruct S1 as [(S1 & S2)|(-> & r & qs1 & -> & P1 & S1)].
    + destruct (IH pc1 q1 qs l lin pc' q' out S1 F L E C) as (qs' & l' & [(R1 & R2 & R3)|R]); exists qs', l'; [left|right]; auto. split; auto. split; auto. intros X. rewrite R3, S2 by auto. reflexivity.
    + assert (Lt : (length (tl l) <= length l)%nat) by (destruct l; cbn; lia). destruct (IH (QDone r) q1 qs1 (tl l) true pc' q' out S1 F ltac:(lia) E C) as (qs' & l' & [(R1 & R2 & R3)|(X & _)]); [|discriminate].
      exists qs', l'. right. split; auto. split; auto. exists [], (irqs acts), [], r, (map snd out). split; auto. split; auto. split; auto. split; [apply R3; auto|]. cbn [app q_run q_step]. rewrite P1. cbn [bind]. rewrite R1. reflexivity.
  - cbn [irqs flat_map app length] in *. fold (irqs acts) in *. inversion F as [|? ? [x ->] F']; subst. cbn [q_step] in E.
    destruct (modbus_queue_push N q (Some x)) as [[q1 d]| |] eqn:Eq; cbn [bind] in E; try discriminate.
    destruct (pop_run N acts pc q1) as [[[pc2 q2] out2]| |] eqn:E2; cbn [bind] in E; try discriminate. inversion E; subst pc2 q2 out. clear E.
    rewrite fell_cons in C. destruct (pop_in_count pc) eqn:Cp; [discriminate|]. cbn [Nat.add] in C.
    destruct (pop_sim_push N x pc q qs l lin H Cp ltac:(lia)) as (q1' & qs1 & P1 & P2 & S1). rewrite Eq in P1. inversion P1; subst q1' d. clear P1.
    destruct (IH pc q1 qs1 (l ++ [x]) lin pc' q' out2 S1 F' ltac:(rewrite app_length; cbn [length]; lia) E2 C) as (qs' & l' & [(R1 & R2 & R3)|(-> & R2 & ops1 & ops2 & r1 & r & r2 & I1 & I2 & I3 & I4 & R1)]).
    + exists qs', l'. left. split; auto. cbn [q_run q_step]. rewrite P2. cbn [bind]. rewrite R1. reflexivity.
    + exists qs', l'. right. split; auto. split; auto. exists (Push x :: ops1), ops2, (Taken :: r1), r, r2. cbn [app map snd length]. rewrite I1, I2. split; auto. split; auto. split; [congruence|]. split; auto.
      cbn [q_run q_step]. rewrite P2. cbn [bind]. rewrite R1. reflexivity.
Qed.
Theorem push_interrupted N q l x acts pc q' out : rep N q l -> Z.of_nat (length l) < N -> Forall (fun o => o = Pop) (irqs acts) ->
  push_run N x acts P52 q = Ok (pc, q', out) -> (exists d, pc = PDone d) -> push_undisturbed (length l) out ->
  pc = PDone None /\ exists n, (n <= length out)%nat /\
    q_run N q (repeat Pop n ++ Push x :: repeat Pop (length out - n)) = Ok (q', firstn n (map snd out) ++ Taken :: skipn n (map snd out)).
Proof.
  intros R L F E (d & ->) (U1 & U2). assert (H : at_push N x P52 q q l false) by (split; auto).
  destruct (push_run_sim N x acts P52 q q l false _ _ out H F E U1 U2) as (qs' & l' & [(_ & _ & X)|(_ & (_ & X1 & X2) & n & Ln & R1)]); [contradiction|]. subst. split; auto. exists n. auto.
Qed.
Theorem pop_interrupted N q l acts r q' out : rep N q l -> Forall (fun o => exists x, o = Push x) (irqs acts) -> Z.of_nat (length l + length (irqs acts)) <= N ->
  pop_run N acts Q89 q = Ok (QDone r, q', out) -> pop_undisturbed out ->
  exists ops1 ops2 r1 r2, irqs acts = ops1 ++ ops2 /\ map snd out = r1 ++ r2 /\ length r1 = length ops1 /\ q_run N q (ops1 ++ Pop :: ops2) = Ok (q', r1 ++ Popped r :: r2).
Proof.
  intros R F L E U. assert (H : at_pop N Q89 q q l false) by (split; auto).
  destruct (pop_run_sim N acts Q89 q q l false _ _ out H F L E U) as (qs' & l' & [(_ & (_ & X) & _)|(_ & (_ & X) & ops1 & ops2 & r1 & r0 & r2 & I1 & I2 & I3 & I4 & R1)]); [contradiction|]. inversion I4; subst. exists ops1, ops2, r1, r2. auto.
Qed.
(** nothing undefined happens whatever falls in between, and it ends after at most nine accesses *)
Definition ring N q : Prop := 1 <= N <= 255 /\ length (q_slots q) = Z.to_nat N /\ 0 <= q_head q < N /\ 0 <= q_tail q < N.
Lemma rep_ring N q l : rep N q l -> ring N q.
Proof. intros R. assert (H := rep_range N q l R). destruct R. split; auto. Qed.
Lemma ring_mod N h : 1 <= N <= 255 -> 0 <= u8 ((h + 1) mod N) < N.
Proof. intros H. assert (X := Z.mod_pos_bound (h + 1) N ltac:(lia)). unfold u8. rewrite Z.mod_small; lia. Qed.
Lemma ring_op N q o : ring N q -> exists q' r, q_step N q o = Ok (q', r) /\ ring N q'.
Proof.
  intros (HN & HS & HH & HT). assert (M1 := ring_mod N (q_head q) HN). assert (M2 := ring_mod N (q_tail q) HN). destruct o as [x|]; cbn [q_step].
  - unfold modbus_queue_push. cbv zeta. destruct (N =? 0) eqn:E; [lia|]. rewrite aset_ok by lia. cbn [bind].
    destruct (q_head q =? q_tail q); [destruct (q_items q =? N)|]; cbn [bind]; do 2 eexists; (split; [reflexivity|]); unfold ring; cbn [q_head q_tail q_slots]; rewrite ?upd_length; auto.
  - unfold modbus_queue_pop. destruct (N =? 0) eqn:E; [lia|]. assert (G : exists y, aget (q_slots q) (q_tail q) = Ok y).
    { destruct (nth_error (q_slots q) (Z.to_nat (q_tail q))) as [y|] eqn:Q; [|apply nth_error_None in Q; lia]. exists y. apply aget_some; auto; lia. }
    destruct G as (y & ->). cbn [bind]. rewrite aset_ok by lia. cbn [bind].
    destruct (q_head q =? q_tail q); [destruct (q_items q =? 0)|]; cbn [bind]; do 2 eexists; (split; [reflexivity|]); unfold ring; cbn [q_head q_tail q_slots]; rewrite ?upd_length; auto.
Qed.
End Sim.
