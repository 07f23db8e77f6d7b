From Coq Require Export List ZArith Bool Lia ZifyBool ZifyNat.
From Verif Require Export Model.Types.
Export ListNotations.
Open Scope Z_scope.
Ltac Zify.zify_post_hook ::= Z.div_mod_to_equations.

Arguments Z.mul : simpl never.
Arguments Z.add : simpl never.
Arguments Z.sub : simpl never.
Arguments Z.div : simpl never.
Arguments Z.modulo : simpl never.
Arguments Z.shiftr : simpl never.
Arguments Z.shiftl : simpl never.
Arguments Z.land : simpl never.
Arguments Z.lor : simpl never.
Arguments Z.lxor : simpl never.
Arguments Z.to_nat : simpl never.
Arguments Z.of_nat : simpl never.

(** bind *)
Lemma bind_ok {A B} (x : outcome A) (k : A -> outcome B) b :
  bind x k = Ok b <-> exists a, x = Ok a /\ k a = Ok b.
Proof.
  destruct x as [a| |]; simpl; split; intros H.
  - exists a; auto.
  - destruct H as [a' [E H]]; inversion E; subst; auto.
  - discriminate.
  - destruct H as [a' [E _]]; discriminate.
  - discriminate.
  - destruct H as [a' [E _]]; discriminate.
Qed.

(** lists *)
Lemma upd_length {A} (l : list A) i v : length (upd l i v) = length l.
Proof. revert i; induction l as [|x t IH]; intros [|i]; simpl; auto. Qed.

Lemma upd_nth_error_same {A} (l : list A) i v :
  (i < length l)%nat -> nth_error (upd l i v) i = Some v.
Proof.
  revert i; induction l as [|x t IH]; intros [|i] H; simpl in *; try lia; auto.
  apply IH; lia.
Qed.
Lemma upd_nth_error_other {A} (l : list A) i j v :
  i <> j -> nth_error (upd l i v) j = nth_error l j.
Proof.
  revert i j; induction l as [|x t IH]; intros [|i] [|j] H; simpl; auto; try congruence.
Qed.
Lemma upd_nth_error {A} (l : list A) i j v :
  nth_error (upd l i v) j = if Nat.eqb i j then (if Nat.ltb i (length l) then Some v else None) else nth_error l j.
Proof.
  destruct (Nat.eqb_spec i j) as [E|E].
  - subst j. destruct (Nat.ltb_spec i (length l)).
    + apply upd_nth_error_same; auto.
    + apply nth_error_None. rewrite upd_length; auto.
  - apply upd_nth_error_other; auto.
Qed.
Lemma upd_nth {A} (l : list A) i j v d :
  (i < length l)%nat -> nth j (upd l i v) d = if Nat.eqb i j then v else nth j l d.
Proof.
  revert i j; induction l as [|x t IH]; intros [|i] [|j] H; simpl in *; try lia; auto.
  rewrite IH by lia. reflexivity.
Qed.
Lemma upd_app_mid {A} (p : list A) x r v i :
  i = length p -> upd (p ++ x :: r) i v = p ++ v :: r.
Proof.
  intros ->. induction p as [|y p IH]; simpl; [reflexivity|]. now rewrite IH.
Qed.
Lemma upd_app_left {A} (p r : list A) i v :
  (i < length p)%nat -> upd (p ++ r) i v = upd p i v ++ r.
Proof.
  revert i; induction p as [|y p IH]; intros [|i] H; simpl in *; try lia; auto.
  rewrite IH by lia; auto.
Qed.
Lemma upd_app_right {A} (p r : list A) i v :
  (length p <= i)%nat -> upd (p ++ r) i v = p ++ upd r (i - length p) v.
Proof.
  revert i; induction p as [|y p IH]; intros i H; simpl in *.
  - f_equal; lia.
  - destruct i as [|i]; [lia|]. simpl. rewrite IH by lia. reflexivity.
Qed.
Lemma upd_same {A} (l : list A) i v : nth_error l i = Some v -> upd l i v = l.
Proof.
  revert i; induction l as [|x t IH]; intros [|i] H; simpl in *; try congruence.
  rewrite IH; auto.
Qed.
Lemma upd_upd {A} (l : list A) i v w : upd (upd l i v) i w = upd l i w.
Proof. revert i; induction l as [|x t IH]; intros [|i]; simpl; auto. now rewrite IH. Qed.
Lemma upd_comm {A} (l : list A) i j v w : i <> j -> upd (upd l i v) j w = upd (upd l j w) i v.
Proof. revert i j; induction l as [|x t IH]; intros [|i] [|j] H; simpl; auto; try congruence. f_equal; apply IH; auto. Qed.
Lemma Forall_upd {A} (P : A -> Prop) l i v : Forall P l -> P v -> Forall P (upd l i v).
Proof.
  intros H; revert i; induction H as [|x t Hx Ht IH]; intros [|i] Hv; simpl; auto.
Qed.
Lemma firstn_upd_ge {A} (l : list A) i n v : (n <= i)%nat -> firstn n (upd l i v) = firstn n l.
Proof.
  revert i n; induction l as [|x t IH]; intros [|i] [|n] H; simpl; auto; try lia.
  rewrite IH by lia; auto.
Qed.
Lemma skipn_upd_lt {A} (l : list A) i n v : (i < n)%nat -> skipn n (upd l i v) = skipn n l.
Proof.
  revert i n; induction l as [|x t IH]; intros [|i] [|n] H; simpl; auto; try lia.
  apply IH; lia.
Qed.
Lemma firstn_S_upd {A} (l : list A) n v :
  (n < length l)%nat -> firstn (S n) (upd l n v) = firstn n l ++ [v].
Proof.
  revert n; induction l as [|x t IH]; intros [|n] H; simpl in *; try lia; auto.
  rewrite IH by lia; auto.
Qed.
Lemma firstn_S_nth {A} (l : list A) n d :
  (n < length l)%nat -> firstn (S n) l = firstn n l ++ [nth n l d].
Proof.
  revert n; induction l as [|x t IH]; intros [|n] H; simpl in *; try lia; auto.
  rewrite IH by lia; auto.
Qed.
Lemma nth_firstn {A} (l : list A) i n d : (i < n)%nat -> nth i (firstn n l) d = nth i l d.
Proof.
  revert i n; induction l as [|x t IH]; intros [|i] [|n] H; simpl; auto; try lia.
  apply IH; lia.
Qed.
Lemma nth_skipn {A} (l : list A) i n d : nth i (skipn n l) d = nth (n + i) l d.
Proof.
  revert i n; induction l as [|x t IH]; intros i [|n]; simpl; auto.
  destruct i; auto.
Qed.
Lemma nth_error_nth' {A} (l : list A) i d : (i < length l)%nat -> nth_error l i = Some (nth i l d).
Proof. apply nth_error_nth'. Qed.

Lemma Forall_nth_d {A} (P : A -> Prop) l i d : Forall P l -> P d -> P (nth i l d).
Proof.
  intros H Hd; revert i; induction H as [|x t Hx Ht IH]; intros [|i]; simpl; auto.
Qed.
Lemma Forall_firstn {A} (P : A -> Prop) n l : Forall P l -> Forall P (firstn n l).
Proof. intros H; revert n; induction H; intros [|n]; simpl; auto. Qed.
Lemma Forall_skipn {A} (P : A -> Prop) n l : Forall P l -> Forall P (skipn n l).
Proof. intros H; revert n; induction H; intros [|n]; simpl; auto. Qed.

(** aget / aset *)
Lemma aget_ok {A} (l : list A) i d :
  0 <= i < Z.of_nat (length l) -> aget l i = Ok (nth (Z.to_nat i) l d).
Proof.
  intros H. unfold aget. destruct (i <? 0) eqn:E; [lia|].
  rewrite (nth_error_nth' l (Z.to_nat i) d) by lia. reflexivity.
Qed.
Lemma aget_some {A} (l : list A) i v :
  0 <= i -> nth_error l (Z.to_nat i) = Some v -> aget l i = Ok v.
Proof.
  intros H E. unfold aget. destruct (i <? 0) eqn:E'; [lia|]. now rewrite E.
Qed.
Lemma aget_inv {A} (l : list A) i v :
  aget l i = Ok v -> 0 <= i /\ nth_error l (Z.to_nat i) = Some v.
Proof.
  unfold aget. destruct (i <? 0) eqn:E; [discriminate|].
  destruct (nth_error l (Z.to_nat i)) eqn:E2; [|discriminate].
  intros H; inversion H; subst. split; [lia|auto].
Qed.
Lemma aget_ub {A} (l : list A) i : Z.of_nat (length l) <= i -> aget l i = UB.
Proof.
  intros H. unfold aget. destruct (i <? 0) eqn:E; [reflexivity|].
  destruct (nth_error l (Z.to_nat i)) eqn:E2; auto.
  assert (Hn : (Z.to_nat i < length l)%nat) by (apply nth_error_Some; congruence). lia.
Qed.
Lemma aset_ok {A} (l : list A) i v :
  0 <= i < Z.of_nat (length l) -> aset l i v = Ok (upd l (Z.to_nat i) v).
Proof.
  intros H. unfold aset.
  destruct ((i <? 0) || (Z.of_nat (length l) <=? i)) eqn:E; [lia|reflexivity].
Qed.
Lemma aset_inv {A} (l : list A) i v l' :
  aset l i v = Ok l' -> 0 <= i < Z.of_nat (length l) /\ l' = upd l (Z.to_nat i) v.
Proof.
  unfold aset. destruct ((i <? 0) || (Z.of_nat (length l) <=? i)) eqn:E; [discriminate|].
  intros H; inversion H; split; auto; lia.
Qed.

(** rd / wr *)
Lemma rd_ok r i : rr_ptr r = true -> 0 <= i < Z.of_nat (length (rr_buf r)) ->
  rd r i = Ok (nth (Z.to_nat i) (rr_buf r) 0).
Proof. intros P H. unfold rd. rewrite P. now apply aget_ok. Qed.
Lemma wr_ok r i v : rr_ptr r = true -> 0 <= i < Z.of_nat (length (rr_buf r)) ->
  wr r i v = Ok (mk_rr true (upd (rr_buf r) (Z.to_nat i) v) (rr_len r)).
Proof. intros P H. unfold wr. rewrite P, aset_ok by auto. reflexivity. Qed.

(** conversions *)
Lemma u8_id x : 0 <= x < 256 -> u8 x = x.
Proof. intros; unfold u8; apply Z.mod_small; auto. Qed.
Lemma u16_id x : 0 <= x < 65536 -> u16 x = x.
Proof. intros; unfold u16; apply Z.mod_small; auto. Qed.
Lemma u8_range x : 0 <= u8 x < 256.
Proof. unfold u8; apply Z.mod_pos_bound; lia. Qed.
Lemma u16_range x : 0 <= u16 x < 65536.
Proof. unfold u16; apply Z.mod_pos_bound; lia. Qed.

Lemma skipn_skipn {A} (l : list A) : forall n m, skipn m (skipn n l) = skipn (n + m) l.
Proof. induction l as [|x l IH]; intros [|n] m; cbn; rewrite ?skipn_nil; auto. Qed.
Lemma upd_nth_same {A} (l : list A) i v d : (i < length l)%nat -> nth i (upd l i v) d = v.
Proof. revert i. induction l as [|x l IH]; intros [|i] H; cbn in *; try lia; auto. apply IH. lia. Qed.
Lemma upd_nth_other {A} (l : list A) i j v d : i <> j -> nth j (upd l i v) d = nth j l d.
Proof. revert i j. induction l as [|x l IH]; intros [|i] [|j] H; cbn; try lia; auto. Qed.
