(** C90: bits damaged on the line. *)
From Verif Require Import Props.Frames Props.SlavePdu Props.SlaveRun Props.MasterRun.
From Verif Require Import Model.Base Model.Types Model.Iface Model.Driver Model.Slave Model.Master Spec.Buf Spec.Frame Spec.Server Spec.SlaveTrace Spec.MasterTrace Spec.SlaveTraffic Spec.Refusal Spec.Client Spec.Crc Spec.Flips.
From Verif Require Import Proofs.SlaveRx Proofs.SlaveBad Proofs.SlaveTraffic Proofs.Flips.

(** *** C90 *)
Lemma rx_bytes_map g : bytes g -> SlaveTrace.rx_bytes (map SRx g) = g.
Proof. induction 1 as [|b g Hb _ IH]; [reflexivity|]. cbn. f_equal; [apply Z.mod_small; exact Hb|exact IH]. Qed.
(** [l]: the characters of a correct frame, each after a pause of any length; [w]: the bits that arrive.  If up to three data or parity
    bits are flipped, or any number of them within 16 consecutive bits, the driver stores as many bytes as were sent, and these are either
    exactly those sent (only parity bits were hit) or their CRC is wrong. *)
Theorem C90_line_damage_caught : forall par l w, Forall (fun x => byte (snd x)) l -> (length l < 256)%nat -> crc_ok (map snd l) -> disturbed (modbus_format par) l w ->
  few_or_close (flipped (on_the_line (modbus_format par) l) w) ->
  let g := map stored (Spec.Line.received (modbus_format par) w) in bytes g /\ length g = length l /\ (g = map snd l \/ ~ crc_ok g).
Proof. exact flips_caught. Qed.
Print Assumptions C90_line_damage_caught.

(** The slave that receives it answers the request that was sent, if it is the one addressed, or does nothing. *)
Theorem C90_slave : forall c s par l w sched, cfg_tables_ok c -> slave_idle c s ->
  Forall (fun x => byte (snd x)) l -> (length l < 256)%nat -> crc_ok (map snd l) -> frame_complete (map snd l) ->
  disturbed (modbus_format par) l w -> few_or_close (flipped (on_the_line (modbus_format par) l) w) ->
  reception_of two_polls (map SRx (map stored (Spec.Line.received (modbus_format par) w))) sched ->
  exists k t, s_run c sched (mk_sconf s None) = Ok (k, t) /\
    (sent t = [] /\ s_data (sc_s k) = s_data s \/
     hd_error (map snd l) = Some (s_id s) /\ sent t = [rtu_frame (s_id s) (fst (server c (s_data s) (map snd l)))] /\ s_data (sc_s k) = snd (server c (s_data s) (map snd l))).
Proof.
  intros c s par l w sched Hc Hs B L C F D W R. destruct (flips_caught par l w B L C D W) as (Bg & Lg & G).
  set (g := map stored (Spec.Line.received (modbus_format par) w)) in *.
  assert (Drop : ~ intact (s_id s) g -> exists k t, s_run c sched (mk_sconf s None) = Ok (k, t) /\ sent t = [] /\ s_data (sc_s k) = s_data s).
  { intros N. destruct R as (pre & n & -> & Hn & He).
    destruct (bad_from_idle c (mk_sconf s None) (map SRx g) pre n [] Hc (idle_start c s Hs)) as (k & o & E & K & I & Dt & S1); auto.
    - clear. induction g; auto.
    - right. cbn [sc_s]. rewrite rx_bytes_map by exact Bg. rewrite buffered_short by lia. exact N.
    - exists k, o. auto. }
  destruct G as [G|G].
  - destruct (list_eq_dec Z.eq_dec (firstn 1 (map snd l)) [s_id s]) as [Q|Q].
    + assert (H : hd_error (map snd l) = Some (s_id s)) by (destruct (map snd l); cbn in Q |- *; congruence).
      destruct (C40_answered_exactly_once c s g sched Hc Hs Bg ltac:(lia)) as (k & t & E & S1 & D1); auto.
      { rewrite G. split; auto. } { rewrite G. exact F. }
      exists k, t. split; [exact E|]. right. rewrite G in S1, D1. auto.
    + destruct Drop as (k & t & E & X). { rewrite G. intros [_ H]. apply Q. destruct (map snd l); cbn in H |- *; congruence. } exists k, t. auto.
  - destruct Drop as (k & t & E & X). { intros [H _]. auto. } exists k, t. auto.
Qed.
Print Assumptions C90_slave.

(** The master that receives it reports what was sent, or reports no data: in any history, if a response is reported and the frame checked
    last had travelled over such a line, it is the frame that was sent, and it was sent by the slave asked. *)
Theorem C90_master : forall c sched k t, cfg_master_ok c -> m_history c sched k t ->
  forall t1 x t2 par l w, t = t1 ++ MTOut (MoCb x) :: t2 -> is_response x ->
  Forall (fun y => byte (snd y)) l -> (length l < 256)%nat -> crc_ok (map snd l) ->
  disturbed (modbus_format par) l w -> few_or_close (flipped (on_the_line (modbus_format par) l) w) ->
  m_checked t1 = Some (map stored (Spec.Line.received (modbus_format par) w)) ->
  m_checked t1 = Some (map snd l) /\ exists a, current t1 = Some a /\ hd_error (map snd l) = Some (api_id a).
Proof.
  intros c sched k t Hc H t1 x t2 par l w E R B L C D W M.
  destruct (C22_only_checked_responses c sched k t Hc H t1 x t2 E R) as (a & g & A & G & (I1 & I2) & _). rewrite G in M. injection M as M.
  destruct (flips_caught par l w B L C D W) as (_ & _ & [Q|Q]); [|exfalso; apply Q; rewrite <- M; exact I1].
  rewrite Q in M. subst g. split; [exact G|]. exists a. auto.
Qed.
Print Assumptions C90_master.

(** The limit is sharp: four flipped bits within 17 data bits can turn one valid request into another, which the slave executes. *)
Definition sent_chars : list (nat * Z) := map (fun b => (0%nat, b)) (rtu_frame 9 [6; 0; 1; 0x12; 0x34]).
Definition other_chars : list (nat * Z) := map (fun b => (0%nat, b)) (rtu_frame 9 [6; 0; 1; 0x11; 0x74]).
Lemma other_disturbed : disturbed (modbus_format NONE) sent_chars (on_the_line (modbus_format NONE) other_chars).
Proof.
  exists (map (fun b => (0%nat, data_bits 8 b)) (rtu_frame 9 [6; 0; 1; 0x11; 0x74])). split; [vm_compute; reflexivity|]. split; [vm_compute; repeat constructor|vm_compute; reflexivity].
Qed.
Theorem C90_limit : exists l w g, Forall (fun x => byte (snd x)) l /\ crc_ok (map snd l) /\ disturbed (modbus_format NONE) l w /\
  weight (flipped (on_the_line (modbus_format NONE) l) w) = 4%nat /\ g = map stored (Spec.Line.received (modbus_format NONE) w) /\ g <> map snd l /\ crc_ok g /\
  exists sched k t, reception_of two_polls (map SRx g) sched /\ s_run sample_cfg sched (mk_sconf sample_slave None) = Ok (k, t) /\ sent t = [rtu_frame 9 [6; 0; 1; 0x11; 0x74]].
Proof.
  exists sent_chars, (on_the_line (modbus_format NONE) other_chars), (rtu_frame 9 [6; 0; 1; 0x11; 0x74]).
  split. { apply Forall_map. eapply Forall_impl; [|apply (bytes_dec (rtu_frame 9 [6; 0; 1; 0x12; 0x34])); vm_compute; reflexivity]. intros a Ha. exact Ha. }
  split; [exists [9; 6; 0; 1; 0x12; 0x34]; vm_compute; reflexivity|]. split; [exact other_disturbed|]. split; [vm_compute; reflexivity|]. split; [vm_compute; reflexivity|]. split; [vm_compute; discriminate|].
  split; [exists [9; 6; 0; 1; 0x11; 0x74]; vm_compute; reflexivity|].
  eexists. do 2 eexists. split; [apply (sample_reception _ 16); lia|]. split; vm_compute; reflexivity.
Qed.
Print Assumptions C90_limit.

(** three flipped bits in three characters, one of them a parity bit *)
Definition par_chars : list (nat * Z) := map (fun b => (1%nat, b)) (rtu_frame 9 [6; 0; 1; 0x12; 0x34]).
Example C90_case : exists w, Forall (fun x => byte (snd x)) par_chars /\ (length par_chars < 256)%nat /\ crc_ok (map snd par_chars) /\ frame_complete (map snd par_chars) /\
  disturbed (modbus_format ODD) par_chars w /\ few_or_close (flipped (on_the_line (modbus_format ODD) par_chars) w) /\ map stored (Spec.Line.received (modbus_format ODD) w) <> map snd par_chars.
Proof.
  exists (words_on_line (modbus_format ODD) [(1%nat, data_bits 8 9 ++ [true]); (1%nat, data_bits 8 2 ++ [true]); (1%nat, data_bits 8 0x80 ++ [true]); (1%nat, data_bits 8 1 ++ [true]); (1%nat, data_bits 8 0x12 ++ [true]);
    (1%nat, data_bits 8 0x34 ++ [false]); (1%nat, data_bits 8 212 ++ [true]); (1%nat, data_bits 8 53 ++ [true])]).
  split. { apply Forall_map. eapply Forall_impl; [|apply (bytes_dec (rtu_frame 9 [6; 0; 1; 0x12; 0x34])); vm_compute; reflexivity]. intros a Ha. exact Ha. }
  split; [vm_compute; lia|]. split; [exists [9; 6; 0; 1; 0x12; 0x34]; vm_compute; reflexivity|]. split; [split; [vm_compute; lia|vm_compute; intros [X|X]; discriminate]|].
  split. { eexists. split; [|split; [|reflexivity]]; vm_compute; [reflexivity|repeat constructor]. }
  split; [|vm_compute; discriminate].
  left. vm_compute. lia.
Qed.
