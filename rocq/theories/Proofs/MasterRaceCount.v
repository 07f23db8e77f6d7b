(** C108: a store gives TXEIE an old value only when a handler has switched it off since the load. *)
From Verif Require Export Proofs.MasterRaceWire.
From Verif Require Import Proofs.MasterInv Proofs.MasterWire.

Lemma line_off c p k u p' k' u' t : h_line c p k u = Ok (p', k', u', t) -> u_txeie u' = match p with U145 => false | _ => u_txeie u end.
Proof.
  intros E. destruct p; cbn [h_line] in E; repeat first [bnd E|match type of E with context [match ?x with _ => _ end] => destruct x end|match type of E with context [if ?b then _ else _] => destruct b end];
    try discriminate E; inversion E; subst; reflexivity.
Qed.
Definition stale (h : hfw) : nat := match h_cr1 h with Some (E96s v) => if Bool.eqb (u_txeie (w_u (h_fw h))) v then 0%nat else 1%nat | _ => 0%nat end.
Lemma stores_plain l : length (filter is_store (map XAct l)) = 0%nat.
Proof. induction l; auto. Qed.
Lemma stale_same h h' : h_cr1 h' = h_cr1 h -> u_txeie (w_u (h_fw h')) = u_txeie (w_u (h_fw h)) -> stale h' = stale h.
Proof. intros E F. unfold stale. now rewrite E, F. Qed.
Lemma stale_act c a h h' t : h_act c a h = Ok (h', t) -> (length (filter is_store (x_act_of a h)) + stale h' <= (if switches_off a h then 1 else 0) + stale h)%nat.
Proof.
  intros E. assert (P : a <> HMain -> length (filter is_store (x_act_of a h)) = 0%nat) by (intros N; rewrite x_act_plain by congruence; apply stores_plain).
  assert (G : a <> HMain -> h_cr1 h' = h_cr1 h -> u_txeie (w_u (h_fw h')) = u_txeie (w_u (h_fw h)) -> (length (filter is_store (x_act_of a h)) + stale h' <= (if switches_off a h then 1 else 0) + stale h)%nat)
    by (intros N C F; rewrite (P N), (stale_same h h' C F); lia).
  destruct a; cbn [h_act] in E.
  - clear P G. unfold x_act_of, act_of. destruct (no_handler h) eqn:NH.
    + destruct (h_cr1 h) as [[|v]|] eqn:Q.
      * inversion E; subst. unfold stale at 1. cbn [h_cr1 h_fw]. rewrite Bool.eqb_reflx. cbn. lia.
      * inversion E; subst. unfold stale. cbn [h_cr1]. rewrite Q. cbn [andb]. destruct (Bool.eqb _ v); cbn; lia.
      * bnd E. inversion E; subst. unfold stale at 1. cbn [h_cr1]. destruct (at405 _); cbn; lia.
    + inversion E; subst. destruct (h_cr1 h') as [[|v]|]; cbn; lia.
  - apply G; [discriminate|..]; (destruct (no_handler h); [bnd E; inversion E; subst; cbn [w_act] in Y; bnd Y; inversion Y; subst; reflexivity|inversion E; subst; reflexivity]).
  - apply G; [discriminate|..]; inversion E; subst; (destruct (h_irq h); [reflexivity|destruct (h_pending h); reflexivity]).
  - apply G; [discriminate|..]; inversion E; subst; (destruct (h_irq h); [reflexivity|destruct (u_uif _); reflexivity]).
  - apply G; [discriminate|..]; inversion E; subst; (destruct (no_handler h); reflexivity).
  - rewrite P by discriminate. destruct (h_irq h) as [p|] eqn:Q.
    + destruct (h_line c p _ _) as [[[[p' k'] u'] t']| |] eqn:Y; try discriminate E. cbn [bind] in E. inversion E; subst. apply line_off in Y. unfold stale, switches_off. cbn [h_cr1 h_fw w_u]. rewrite Q, Y.
      destruct (h_cr1 h) as [[|[]]|]; destruct p; try lia; destruct (u_txeie (w_u (h_fw h))); cbn; lia.
    + assert (C : h_cr1 h' = h_cr1 h /\ u_txeie (w_u (h_fw h')) = u_txeie (w_u (h_fw h))); [|destruct C as (C1 & C2); rewrite (stale_same h h' C1 C2); lia].
      destruct (h_tick h) as [p|]; [|inversion E; subst; auto]. destruct (t_line p (w_lib (h_fw h))) as [[p' k'] t']. inversion E; subst. auto.
  - assert (C : h_cr1 h' = h_cr1 h /\ u_txeie (w_u (h_fw h')) = u_txeie (w_u (h_fw h))); [|apply G; [discriminate|apply C..]].
    destruct (is_hw x) eqn:Hx; [|inversion E; subst; auto]. bnd E. inversion E; subst. destruct (hw_keeps _ _ _ _ _ Hx Y) as (_ & _ & Y3). auto.
Qed.
Lemma stale_run c l : forall h h' t, h_run c l h = Ok (h', t) -> (races c l h + stale h' <= overtaken c l h + stale h)%nat.
Proof.
  induction l as [|a l IH]; intros h h' t E; [inversion E; subst; cbn; lia|]. cbn [h_run] in E. destruct (h_act c a h) as [[h1 t1]| |] eqn:A; try discriminate E. cbn [bind] in E.
  destruct (h_run c l h1) as [[h2 t2]| |] eqn:R; try discriminate E. cbn [bind] in E. inversion E; subst. specialize (IH _ _ _ R). pose proof (stale_act _ _ _ _ _ A) as L. unfold races in *. cbn [x_acts_of overtaken].
  rewrite A, filter_app, app_length. change (fun x => match x with XCr1 _ => true | XAct _ => false end) with is_store in *. lia.
Qed.
