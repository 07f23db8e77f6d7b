(** Regular traffic as a slave sees it.  Schedules are lists of executed lines ([SStep]) and interrupts;
    [events] are the interrupts alone, so the lines are interleaved with them in every possible way. *)
From Coq Require Import List ZArith.
From Verif Require Import Model.Slave.
From Verif Require Export Spec.SlaveTrace Spec.Refusal.
Import ListNotations.
Open Scope Z_scope.

(** [xs] arrives, then the 1.5- and 3.5-character events, lines of the poll function being executed in between at any
    point; afterwards at least [n0] further lines are executed. *)
Definition reception_of (n0 : nat) (xs : list sev) (sched : list sact) : Prop :=
  exists pre n, sched = pre ++ repeat SStep n /\ (n0 <= n)%nat /\ arrival xs (events pre).
(** The longest two consecutive complete polls: call, lines 164, 167, 168, 169, 173; call, lines 186, 193 (two operands),
    195-200. *)
Definition two_polls : nat := 16.
(** the driver signals completion; afterwards at least one more poll runs to its end *)
Definition completion (sched : list sact) : Prop :=
  exists pre n, sched = pre ++ repeat SStep n /\ (8 <= n)%nat /\ events pre = [STxDone].

(** Traffic: a sequence of frames.  [traffic c id d sched out d']: a slave [id] with data [d] that lives through [sched]
    has to transmit the frames [out] and end with data [d']. *)
Inductive traffic (c : cfg) (id : Z) : sdata -> list sact -> list (list Z) -> sdata -> Prop :=
| quiet d : traffic c id d [] [] d
| dropped d xs sched rest out d' :
    reception_of two_polls xs sched -> forallb is_reception xs = true ->
    has_frame_err xs = true \/ ~ intact id (buffered (rx_bytes xs)) ->
    traffic c id d rest out d' -> traffic c id d (sched ++ rest) out d'
| answered d f sched done rest out d' :
    reception_of two_polls (map SRx f) sched -> completion done ->
    bytes f -> (length f < 256)%nat -> intact id f -> frame_complete f ->
    traffic c id (snd (server c d f)) rest out d' ->
    traffic c id d (sched ++ done ++ rest) (rtu_frame id (fst (server c d f)) :: out) d'.

(** outside of the poll function, idle, nothing received, no flag pending *)
Definition slave_idle (c : cfg) (s : slave) : Prop :=
  slave_ready c s /\ s_st s = S_IDLE /\ s_t15 s = CLEARED /\ s_t35 s = CLEARED /\ s_fe s = CLEARED /\
  (s_tx s = SET \/ s_tx s = CLEARED) /\ rr_len (m_req (s_msg s)) = 0.
(** the function returns at the latest after [n] lines *)
Fixpoint steps (sched : list sact) : nat := match sched with [] => 0 | SStep :: l => S (steps l) | SEv _ :: l => steps l end.
