(** Vocabulary for the slave firmware (library, STM32 example driver, UART): what can be seen on the line. *)
From Coq Require Import List ZArith Bool.
From Verif Require Import Model.Base Model.Types Model.Slave Model.SlaveSystem.
From Verif Require Export Spec.SlaveTraffic.
Import ListNotations.
Open Scope Z_scope.

(** the library's part of a history *)
Definition lib_of (t : list yitem) : list sitem := flat_map (fun x => match x with YLib i => [i] | YLine _ => [] end) t.
(** the bytes the UART put on the line *)
Definition on_line (t : list yitem) : list Z := flat_map (fun x => match x with YLine b => [b] | YLib _ => [] end) t.

(** just started: the library initialised, driver and UART in their initial state, the main program outside of the library *)
Definition sys_started (c : cfg) (y : sys) : Prop :=
  slave_fresh c (sc_s (y_lib y)) /\ sc_pc (y_lib y) = None /\ y_u y = uart_init /\ y_sub y = None.

(** The UART's interrupt handler is not started while the main program is in the driver's send function and has not yet written
    the first byte to the UART. *)
Fixpoint send_undisturbed (c : cfg) (l : list yact) (y : sys) : Prop :=
  match l with
  | [] => True
  | a :: l =>
      (a = AUsart -> match y_sub y with Some (D85 _) | Some (D86 _) | Some D87 => False | _ => True end) /\
      forall y1 t1, y_act c a y = Ok (y1, t1) -> send_undisturbed c l y1
  end.

(** everything in a schedule but the main program's lines *)
Definition no_main (l : list yact) : list yact := filter (fun a => match a with AMain => false | _ => true end) l.
Definition no_usart (l : list yact) : list yact := filter (fun a => match a with AUsart => false | _ => true end) l.
Definition mains (l : list yact) : nat := length (filter (fun a => match a with AMain => true | _ => false end) l).
Definition shifts (l : list yact) : nat := length (filter (fun a => match a with HShift => true | _ => false end) l).
Definition tx_only (a : yact) : bool := match a with AMain | HShift | AUsart => true | _ => false end.

(** The bytes [f] arrive on the line and each is served by the UART's interrupt handler before the next one has arrived; then the receiver
    time-out, its interrupt, the timer and its interrupt, the main program executing lines at any point.  The driver clears
    the time-out flag only in the timer's handler, so the UART's handler may be entered again, at once, before the main program executes another line. *)
Definition wire_frame (f : list Z) (l : list yact) : Prop :=
  exists l1 again l2, l = l1 ++ AUsart :: again ++ l2 ++ [ATimer] /\
    no_main l1 = flat_map (fun b => [HRx b; AUsart]) f ++ [HRto] /\
    mains again = 0%nat /\ ~ In AUsart l2 /\ no_usart (no_main (again ++ l2)) = [HTim].
(** at least [n] times a byte is taken by the transmitter and the UART's interrupt handler is called thereafter *)
Inductive rounds : nat -> list yact -> Prop :=
| rounds_0 l : rounds 0 l
| rounds_S n a b l : rounds n l -> rounds (S n) (a ++ HShift :: b ++ AUsart :: l).
(** the transmitter is served, and the line is silent otherwise: the main program executes 20 lines (two polls, and the driver's send function)
    before the [len]-th byte of the answer has left; in the end it polls once more *)
Definition wire_answer (len : nat) (l : list yact) : Prop :=
  exists l1 l2 n, l = l1 ++ l2 ++ repeat AMain n /\ forallb tx_only l1 = true /\ forallb tx_only l2 = true /\
    (20 <= mains l1)%nat /\ (shifts l1 < len)%nat /\ rounds len l2 /\ (8 <= n)%nat.
(** no answer: the main program polls twice *)
Definition wire_silence (l : list yact) : Prop := forallb tx_only l = true /\ (16 <= mains l)%nat.

(** Traffic on the line, as a slave [id] with data [d] has to treat it: bytes put on the line, data in the end. *)
Inductive wire_traffic (c : cfg) (id : Z) : sdata -> list yact -> list Z -> sdata -> Prop :=
| wire_quiet d : wire_traffic c id d [] [] d
| wire_dropped d f l m rest out d' :
    wire_frame f l -> wire_silence m -> f <> [] -> bytes f -> ~ intact id (buffered f) ->
    wire_traffic c id d rest out d' -> wire_traffic c id d (l ++ m ++ rest) out d'
| wire_answered d f l m rest out d' :
    wire_frame f l -> bytes f -> (length f < 256)%nat -> intact id f -> frame_complete f ->
    wire_answer (length (rtu_frame id (fst (server c d f)))) m ->
    wire_traffic c id (snd (server c d f)) rest out d' ->
    wire_traffic c id d (l ++ m ++ rest) (rtu_frame id (fst (server c d f)) ++ out) d'.

(** the slave is idle, and so are driver and UART *)
Definition sys_rests (c : cfg) (y : sys) : Prop :=
  slave_idle c (sc_s (y_lib y)) /\ (sc_pc (y_lib y) = None \/ sc_pc (y_lib y) = Some L164) /\ y_sub y = None /\
  0 <= u_cur (y_u y) /\ u_last (y_u y) <= u_cur (y_u y) /\ u_last (y_u y) <= 254 /\ u_det (y_u y) = false /\ u_tdr (y_u y) = None /\ u_rdr (y_u y) = None /\
  u_txeie (y_u y) = false /\ u_rtof (y_u y) = false /\ u_uif (y_u y) = false.

(** the characters that arrive on the line *)
Definition arrived (l : list yact) : list Z := flat_map (fun a => match a with HRx b => [u8 b] | _ => [] end) l.
(** the bytes given to the library *)
Definition delivered (t : list sitem) : list Z := flat_map (fun x => match x with TEv (SRx b) => [u8 b] | _ => [] end) t.
(** [a] is [b] with some elements left out *)
Inductive thinned {A : Type} : list A -> list A -> Prop :=
| thin_nil : thinned [] []
| thin_keep x a b : thinned a b -> thinned (x :: a) (x :: b)
| thin_drop x a b : thinned a b -> thinned a (x :: b).

(** the slave waits for a completion that has been signalled already: the UART has nothing to transmit *)
Definition sys_stuck (c : cfg) (y : sys) : Prop :=
  slave_ready c (sc_s (y_lib y)) /\ s_st (sc_s (y_lib y)) = S_TRANSMITTING_RESP /\ s_tx (sc_s (y_lib y)) = SET /\
  sc_pc (y_lib y) = None /\ y_sub y = None /\
  s_t15 (sc_s (y_lib y)) = CLEARED /\ s_t35 (sc_s (y_lib y)) = CLEARED /\ s_fe (sc_s (y_lib y)) = CLEARED /\
  0 <= u_cur (y_u y) /\ u_last (y_u y) <= u_cur (y_u y) /\ u_last (y_u y) <= 254 /\ u_det (y_u y) = false /\ u_tdr (y_u y) = None /\ u_rdr (y_u y) = None /\
  u_txeie (y_u y) = false /\ u_rtof (y_u y) = false /\ u_uif (y_u y) = false.

(** a pause of 1.5 characters has been signalled, a pause of 3.5 characters not since *)
Definition in_gap (t : list sitem) : bool :=
  fold_left (fun acc x => match x with TEv ST15 => true | TEv ST35 => false | _ => acc end) t false.
