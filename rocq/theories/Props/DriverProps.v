(** C51-C54: the example driver and the width of int. *)
From Verif Require Import Model.Driver Model.SlavePDU Proofs.Rtu Spec.Buf.

(** the driver's transmit pointers lie inside the message; the receive buffer is well-formed *)
Definition drv_ok (d : drv) : Prop :=
  rr_ok (d_rx d) /\ 0 <= d_cur d <= d_last d /\ d_last d < Z.of_nat (length (d_txmsg d)).

Lemma rx_step b d : rr_ok (d_rx d) ->
  exists d' o, usart_irq_rx (Some b) d = Ok (d', o) /\
    d_rx d' = mk_rr true (upd (rr_buf (d_rx d)) (Z.to_nat (rr_len (d_rx d))) (u8 b)) (u8 (rr_len (d_rx d) + 1)) /\
    rr_ok (d_rx d') /\ d_cur d' = d_cur d /\ d_last d' = d_last d /\ d_txmsg d' = d_txmsg d /\ (o = [] \/ o = [DFrameErr]).
Proof.
  intros (P & L & B & Hl). unfold usart_irq_rx. rewrite wr_ok by (auto; unfold byte in Hl; lia). cbn [bind].
  do 2 eexists. split; [reflexivity|]. cbn [d_rx d_cur d_last d_txmsg set_len rr_ptr rr_buf rr_len]. split; [reflexivity|].
  split; [|destruct (d_frame_received d); auto 6].
  unfold rr_ok, set_len. cbn [rr_ptr rr_buf rr_len]. split; auto. split; [rewrite upd_length; auto|]. split.
  - apply Forall_upd; auto. unfold byte, u8; lia.
  - unfold byte, u8; lia.
Qed.
Lemma irq_step i d : drv_ok d ->
  exists d' o, usart_irq i d = Ok (d', o) /\ drv_ok d' /\
    d_txmsg d' = d_txmsg d /\ d_last d' = d_last d /\
    (forall x, i_rxne i = Some x -> d_rx d' = mk_rr true (upd (rr_buf (d_rx d)) (Z.to_nat (rr_len (d_rx d))) (u8 x)) (u8 (rr_len (d_rx d) + 1))) /\
    (i_rxne i = None -> d_rx d' = d_rx d) /\
    d_cur d' = (if i_txe i then Z.min (d_cur d + 1) (d_last d) else d_cur d) /\
    filter (fun x => match x with DTdr _ | DTxDone => true | _ => false end) o =
      (if i_txe i then [if d_cur d <? d_last d then DTdr (nth (Z.to_nat (d_cur d + 1)) (d_txmsg d) 0) else DTxDone] else []).
Proof.
  intros (R & C & L). unfold usart_irq.
  assert (H1 : exists d1 o1, usart_irq_rx (i_rxne i) d = Ok (d1, o1) /\ rr_ok (d_rx d1) /\ d_cur d1 = d_cur d /\ d_last d1 = d_last d /\ d_txmsg d1 = d_txmsg d /\
    (forall x, i_rxne i = Some x -> d_rx d1 = mk_rr true (upd (rr_buf (d_rx d)) (Z.to_nat (rr_len (d_rx d))) (u8 x)) (u8 (rr_len (d_rx d) + 1))) /\
    (i_rxne i = None -> d_rx d1 = d_rx d) /\ (o1 = [] \/ o1 = [DFrameErr])).
  { destruct (i_rxne i) as [b|].
    - destruct (rx_step b d R) as (d1 & o1 & E & X1 & X2 & X3 & X4 & X5 & X6). exists d1, o1. repeat split; auto; try apply X2; try discriminate.
      intros x Hx. inversion Hx; subst; auto.
    - exists d, []. repeat split; auto; try apply R. discriminate. }
  destruct H1 as (d1 & o1 & -> & R1 & C1 & L1 & T1 & S1 & N1 & O1). cbn [bind].
  assert (H2 : exists d2 o2, usart_irq_tx (i_txe i) d1 = Ok (d2, o2) /\ d_rx d2 = d_rx d1 /\ d_last d2 = d_last d /\ d_txmsg d2 = d_txmsg d /\
     d_cur d2 = (if i_txe i then Z.min (d_cur d + 1) (d_last d) else d_cur d) /\
     o2 = (if i_txe i then [if d_cur d <? d_last d then DTdr (nth (Z.to_nat (d_cur d + 1)) (d_txmsg d) 0) else DTxDone] else [])).
  { unfold usart_irq_tx. destruct (i_txe i); [|exists d1, []; repeat split; auto]. rewrite C1, L1, T1.
    destruct (d_cur d <? d_last d) eqn:E.
    - rewrite (aget_ok _ _ 0) by lia. cbn [bind]. do 2 eexists. split; [reflexivity|]. cbn [d_rx d_cur d_last d_txmsg]. repeat split; auto. lia.
    - do 2 eexists. split; [reflexivity|]. cbn [d_rx d_cur d_last d_txmsg]. repeat split; auto. lia. }
  destruct H2 as (d2 & o2 & -> & R2 & L2 & T2 & C2 & O2). cbn [bind].
  assert (O1f : filter (fun x => match x with DTdr _ | DTxDone => true | _ => false end) o1 = []) by (destruct O1 as [-> | ->]; reflexivity).
  assert (O2f : filter (fun x => match x with DTdr _ | DTxDone => true | _ => false end) o2 = o2).
  { rewrite O2. destruct (i_txe i); auto. destruct (d_cur d <? d_last d); reflexivity. }
  unfold usart_irq_rto. destruct (i_rtof i); do 2 eexists; (split; [reflexivity|]); cbn [d_rx d_cur d_last d_txmsg];
    rewrite !filter_app, O1f, O2f; cbn [filter app]; rewrite ?app_nil_r; unfold drv_ok; cbn [d_rx d_cur d_last d_txmsg]; rewrite R2, L2, T2, C2;
    (repeat split; auto; try apply R1; destruct (i_txe i); lia).
Qed.

(** C51: every sequence of UART interrupts is handled without out-of-bounds access; the receive buffer stays a
    256-byte buffer with a uint8_t length *)
Theorem C51_reception_in_bounds : forall (l : list irq) (d : drv), drv_ok d ->
  exists d' o, usart_irqs l d = Ok (d', o) /\ drv_ok d' /\ rr_ok (d_rx d').
Proof.
  induction l as [|i l IH]; intros d H; cbn [usart_irqs].
  - do 2 eexists. split; [reflexivity|]. split; auto. apply H.
  - destruct (irq_step i d H) as (d1 & o1 & -> & H1 & _). cbn [bind]. destruct (IH d1 H1) as (d2 & o2 & -> & H2 & R2). cbn [bind].
    do 2 eexists. split; [reflexivity|]. auto.
Qed.
Print Assumptions C51_reception_in_bounds.
(** each byte goes to the position given by the length (which then advances modulo 256) and nowhere else *)
Theorem C51_byte_stored : forall (i : irq) (d : drv) (b : Z), drv_ok d -> i_rxne i = Some b ->
  exists d' o, usart_irq i d = Ok (d', o) /\
    nth (Z.to_nat (rr_len (d_rx d))) (rr_buf (d_rx d')) 0 = u8 b /\ rr_len (d_rx d') = (rr_len (d_rx d) + 1) mod 256 /\
    (forall k, k <> Z.to_nat (rr_len (d_rx d)) -> nth k (rr_buf (d_rx d')) 0 = nth k (rr_buf (d_rx d)) 0).
Proof.
  intros i d b H Hb. destruct (irq_step i d H) as (d1 & o1 & E & H1 & _ & _ & R & _). specialize (R b Hb).
  exists d1, o1. split; auto. rewrite R. cbn [rr_buf rr_len]. destruct H as ((P & L & B & Hl) & _). unfold byte in Hl.
  split; [apply upd_nth_same; lia|]. split; auto. intros k Hk. apply upd_nth_other. auto.
Qed.
Print Assumptions C51_byte_stored.

(** C52.  After [usart_send f], for every sequence of interrupts the bytes written to the transmit register are a
    prefix of f in order, one more per transmit interrupt; after the last byte each further transmit
    interrupt signals completion.  So completion is signalled exactly once iff the TXE branch runs exactly
    length f times; the driver does not ensure that (see below). *)
Definition is_tx (x : dout) : bool := match x with DTdr _ | DTxDone => true | _ => false end.
Definition tx_irqs (l : list irq) : nat := length (filter i_txe l).
Lemma irqs_tx l : forall d, drv_ok d ->
  exists d' o, usart_irqs l d = Ok (d', o) /\
    filter is_tx o = map DTdr (firstn (tx_irqs l) (skipn (Z.to_nat (d_cur d) + 1) (firstn (Z.to_nat (d_last d) + 1) (d_txmsg d))))
                     ++ repeat DTxDone (tx_irqs l - Z.to_nat (d_last d - d_cur d)).
Proof.
  induction l as [|i l IH]; intros d H; cbn [usart_irqs].
  - exists d, []. split; [reflexivity|]. reflexivity.
  - destruct (irq_step i d H) as (d1 & o1 & E & H1 & T1 & L1 & _ & _ & C1 & O1). rewrite E. cbn [bind].
    destruct (IH d1 H1) as (d2 & o2 & E2 & O2). rewrite E2. cbn [bind]. do 2 eexists. split; [reflexivity|].
    change (filter is_tx o1 = if i_txe i then [if d_cur d <? d_last d then DTdr (nth (Z.to_nat (d_cur d + 1)) (d_txmsg d) 0) else DTxDone] else []) in O1.
    rewrite filter_app, O1, O2, T1, L1, C1. unfold tx_irqs. cbn [filter]. destruct H as (R & C & L). destruct (i_txe i); [|reflexivity].
    cbn [length]. set (n := length (filter i_txe l)). destruct (d_cur d <? d_last d) eqn:X.
    + rewrite Z.min_l by lia. set (m := firstn (Z.to_nat (d_last d) + 1) (d_txmsg d)).
      assert (SK : skipn (Z.to_nat (d_cur d) + 1) m = nth (Z.to_nat (d_cur d + 1)) (d_txmsg d) 0 :: skipn (Z.to_nat (d_cur d + 1) + 1) m).
      { assert (Lm : (Z.to_nat (d_cur d) + 1 < length m)%nat) by (unfold m; rewrite firstn_length; lia).
        replace (Z.to_nat (d_cur d + 1)) with (Z.to_nat (d_cur d) + 1)%nat by lia.
        set (k := (Z.to_nat (d_cur d) + 1)%nat) in *.
        replace (nth k (d_txmsg d) 0) with (nth k m 0).
        2:{ unfold m. rewrite <- (firstn_skipn (Z.to_nat (d_last d) + 1) (d_txmsg d)) at 2. rewrite app_nth1; auto. }
        clearbody k m. clear - Lm. revert k Lm. induction m as [|x m IHm]; intros [|k] H; cbn [length] in H; try lia; [reflexivity|].
        cbn [skipn nth Nat.add]. apply IHm. lia. }
      rewrite SK. cbn [firstn map app]. f_equal. f_equal. f_equal. lia.
    + replace (Z.min (d_cur d + 1) (d_last d)) with (d_last d) by lia. replace (d_cur d) with (d_last d) by lia.
      rewrite !skipn_all2 by (rewrite firstn_length; lia). rewrite !firstn_nil. cbn [map app].
      replace (S n - Z.to_nat (d_last d - d_last d))%nat with (S (n - Z.to_nat (d_last d - d_last d))) by lia. reflexivity.
Qed.
Theorem C52_bytes_in_order_partial : forall (f : list Z) (rest : list Z) (d : drv) (l : list irq),
  rr_ok (d_rx d) -> (1 <= length f <= 255)%nat ->
  exists d0 o0 d' o, usart_send (Some (f ++ rest)) (Z.of_nat (length f)) d = Ok (d0, o0) /\ usart_irqs l d0 = Ok (d', o) /\
    filter is_tx (o0 ++ o) = map DTdr (firstn (1 + tx_irqs l) f) ++ repeat DTxDone (1 + tx_irqs l - length f).
Proof.
  intros f rest d l R Lf. destruct f as [|x f]; [cbn in Lf; lia|]. unfold usart_send. cbn [length app].
  destruct (0 <? Z.of_nat (S (length f))) eqn:E; [|lia]. cbn [aget Z.ltb Z.compare Z.to_nat nth_error bind].
  unfold aget. cbn [Z.ltb Z.compare Z.to_nat nth_error bind].
  set (d0 := mk_drv (x :: f ++ rest) 0 (Z.of_nat (S (length f)) - 1) true (d_frame_received d) (d_rx d)).
  assert (H0 : drv_ok d0).
  { unfold drv_ok, d0. cbn [d_rx d_cur d_last d_txmsg length]. rewrite app_length. repeat split; auto; try apply R; lia. }
  destruct (irqs_tx l d0 H0) as (d' & o & E2 & O2). exists d0, [DTdr x], d', o. split; [reflexivity|]. split; auto.
  rewrite filter_app, O2. unfold d0. cbn [d_cur d_last d_txmsg filter is_tx app Z.to_nat Nat.add firstn map skipn].
  replace (Z.to_nat (Z.of_nat (S (length f)) - 1) + 1)%nat with (S (length f)) by lia. cbn [firstn skipn].
  rewrite firstn_app_exact by auto. f_equal. f_equal. f_equal. lia.
Qed.
Print Assumptions C52_bytes_in_order_partial.
Corollary C52_once_if_txe_disabled_partial : forall (f rest : list Z) (d : drv) (l : list irq),
  rr_ok (d_rx d) -> (1 <= length f <= 255)%nat -> tx_irqs l = length f ->
  exists d0 o0 d' o, usart_send (Some (f ++ rest)) (Z.of_nat (length f)) d = Ok (d0, o0) /\ usart_irqs l d0 = Ok (d', o) /\
    filter is_tx (o0 ++ o) = map DTdr f ++ [DTxDone].
Proof.
  intros f rest d l R Lf H. destruct (C52_bytes_in_order_partial f rest d l R Lf) as (d0 & o0 & d' & o & E1 & E2 & F).
  exists d0, o0, d', o. split; auto. split; auto. rewrite F, H, firstn_all2 by lia. replace (1 + length f - length f)%nat with 1%nat by lia. reflexivity.
Qed.
Print Assumptions C52_once_if_txe_disabled_partial.
(** The full statement is false: a byte received after the end of a transmission (TXE is then still set in the
    status register, its interrupt disabled) signals completion a second time. *)
Theorem C52_refuted : exists (f : list Z) (d : drv) (l : list irq) d0 o0 d' o,
  drv_ok d /\ usart_send (Some f) (Z.of_nat (length f)) d = Ok (d0, o0) /\ usart_irqs l d0 = Ok (d', o) /\
  (forall i, In i l -> i_txe i = true) /\ filter is_tx (o0 ++ o) = map DTdr f ++ [DTxDone; DTxDone].
Proof.
  exists [1; 2], (mk_drv [0] 0 0 false false (mk_rr true (repeat 0 256) 0)),
    [mk_irq None true false; mk_irq None true false; mk_irq (Some 7) true false]. do 4 eexists.
  split.
  { unfold drv_ok, rr_ok. cbn. repeat split; try lia. apply Forall_forall. intros x Hx.
    assert (x = 0) by (repeat destruct Hx as [Hx|Hx]; auto; contradiction). unfold byte; lia. }
  split; [reflexivity|]. split; [vm_compute; reflexivity|]. split; [|reflexivity].
  intros i [<-|[<-|[<-|[]]]]; reflexivity.
Qed.
Print Assumptions C52_refuted.

(** C53 *)
Theorem C53_timers_defined_partial : forall baud, 2400 <= baud < 2 ^ 32 ->
  (exists v, get_RTOR_value baud = Ok v /\ 0 < v <= 0xFFFFFF) /\ (exists v, get_ARR_value baud = Ok v /\ 0 < v < 65536).
Proof.
  intros baud H. split.
  - unfold get_RTOR_value. destruct (baud <=? 19200) eqn:E; [exists 17; split; auto; lia|].
    eexists. split; [reflexivity|]. assert (2 <= baud / 9600 <= 447392) by lia.
    unfold u32. rewrite Z.mod_small by lia. destruct (0xFFFFFF <? baud / 9600 * 83 / 10) eqn:F; lia.
  - unfold get_ARR_value. destruct (baud <=? 19200) eqn:E; [|exists 1750; split; auto; lia].
    assert (1 <= baud / 2400 <= 8) by lia. destruct (baud / 2400 =? 0) eqn:F; [lia|]. eexists. split; [reflexivity|].
    set (q := baud / 2400) in *. split; [apply Z.div_str_pos; lia|]. apply Z.div_lt_upper_bound; nia.
Qed.
Print Assumptions C53_timers_defined_partial.
(** exactly the baud rates below 2400 divide by zero *)
Theorem C53_refuted : forall baud, 0 <= baud < 2400 -> get_ARR_value baud = UB.
Proof.
  intros baud H. unfold get_ARR_value. destruct (baud <=? 19200) eqn:E; [|lia]. destruct (baud / 2400 =? 0) eqn:F; auto.
  rewrite Z.div_small in F by lia. discriminate.
Qed.
Print Assumptions C53_refuted.
Example C53_case : get_ARR_value 9600 = Ok 4010 /\ get_RTOR_value 115200 = Ok 99.
Proof. split; reflexivity. Qed.

(** C54.  With an int wider than 16 bits the check admits exactly the ranges inside the table; with a 16-bit int
    this holds when the sum does not wrap, and fails otherwise. *)
Theorem C54_range_check_partial : forall w adr qty size,
  0 <= adr < 65536 -> 0 <= qty < 65536 -> 0 <= size < 65536 ->
  w = 32 \/ (w = 16 /\ adr + qty < 65536) ->
  (range_exceeded_w w adr qty size = false <-> adr + qty <= size).
Proof.
  intros w adr qty size Ha Hq Hs Hw. unfold range_exceeded_w. destruct Hw as [->|[-> H]]; cbn [Z.ltb Z.compare Pos.compare Pos.compare_cont].
  - lia.
  - change (2 ^ 16) with 65536. rewrite Z.mod_small by lia. lia.
Qed.
Print Assumptions C54_range_check_partial.
Theorem C54_refuted : exists adr qty size, 0 <= adr < 65536 /\ 1 <= qty <= 125 /\ 0 <= size < 65536 /\
  range_exceeded_w 16 adr qty size = false /\ size < adr + qty.
Proof. exists 65530, 10, 100. repeat split; try lia. Qed.
Print Assumptions C54_refuted.
(** the library's check on 32-bit int is this one *)
Theorem C54_model_agrees : forall adr qty size, range_exceeded_w 32 adr qty size = SlavePDU.range_exceeded adr qty size.
Proof. reflexivity. Qed.
