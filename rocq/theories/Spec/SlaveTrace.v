(** Vocabulary for histories (traces) of a slave: what has been received, checked, consumed, transmitted.
    A trace is the list of interrupts ([TEv]) and of the program's observable points ([TOut]), oldest first. *)
From Coq Require Import List ZArith Bool.
From Verif Require Import Model.Types Model.Slave.
From Verif Require Export Spec.Frame.
Import ListNotations.
Open Scope Z_scope.

(** bytes received since reception last started anew *)
Definition received (t : list sitem) : list Z :=
  fold_left (fun acc x => match x with
    | TEv (SRx b) => acc ++ [u8 b]
    | TOut SoClear => []
    | _ => acc end) t [].
(** the receive length is a uint8_t: what the buffer holds of the bytes received (all of them up to 255) *)
Definition buffered (l : list Z) : list Z := skipn (256 * (length l / 256)) l.
(** a frame error has been signalled and not been consumed *)
Definition frame_err_pending (t : list sitem) : bool :=
  fold_left (fun acc x => match x with
    | TEv SFrameErr => true
    | TOut SoDiscard => false
    | _ => acc end) t false.
(** the last frame given to the frame check, unless a frame has been answered or discarded since *)
Definition checked (t : list sitem) : option (list Z) :=
  fold_left (fun acc x => match x with
    | TOut (SoCheck g) => Some g
    | TOut (SoSend _) | TOut SoDiscard => None
    | _ => acc end) t None.
(** a 3.5-character event has occurred since the last answer or discarding *)
Definition t35_seen (t : list sitem) : bool :=
  fold_left (fun acc x => match x with
    | TEv ST35 => true
    | TOut (SoSend _) | TOut SoDiscard => false
    | _ => acc end) t false.
(** when processing started (last SoNoFrameErr after the last check), no frame error was pending *)
Definition started_clean (t : list sitem) : bool :=
  snd (fold_left (fun acc x => match x with
    | TEv SFrameErr => (true, snd acc)
    | TOut SoDiscard => (false, false)
    | TOut (SoCheck _) | TOut (SoSend _) => (fst acc, false)
    | TOut SoNoFrameErr => (fst acc, negb (fst acc))
    | _ => acc end) t (false, false)).
(** a response is being transmitted: handed to the driver, completion not signalled since *)
Definition transmitting (t : list sitem) : bool :=
  fold_left (fun acc x => match x with
    | TOut (SoSend _) => true
    | TEv STxDone => false
    | _ => acc end) t false.

Definition count {A : Type} (p : A -> bool) (t : list A) : nat := length (filter p t).
Definition is_send (x : sitem) : bool := match x with TOut (SoSend _) => true | _ => false end.
Definition is_t15 (x : sitem) : bool := match x with TEv ST15 => true | _ => false end.
Definition is_t35 (x : sitem) : bool := match x with TEv ST35 => true | _ => false end.
(** frames transmitted, in order *)
Fixpoint sent (t : list sitem) : list (list Z) :=
  match t with
  | [] => []
  | TOut (SoSend f) :: t => f :: sent t
  | _ :: t => sent t
  end.

(** what must be true of the history before a slave with this ID executes a request or answers *)
Definition may_act (id : Z) (t : list sitem) : Prop :=
  (exists g, checked t = Some g /\ intact id g) /\ t35_seen t = true /\ started_clean t = true.

(** A schedule's interrupts, in order *)
Fixpoint events (l : list sact) : list sev :=
  match l with
  | [] => []
  | SStep :: l => events l
  | SEv e :: l => e :: events l
  end.

(** An initialised slave: pointers set, callbacks subscribed, ID a byte, buffers and data well-formed *)
From Verif Require Export Spec.Buf Spec.Server.
Definition slave_ready (c : cfg) (s : slave) : Prop :=
  s_drv s = true /\ s_mptr s = true /\ s_sub s = true /\ s_rx s = true /\ byte (s_id s) /\
  msg_ok (s_msg s) /\ data_ok c (s_data s).
(** fresh: just initialised and nothing received yet *)
Definition slave_fresh (c : cfg) (s : slave) : Prop :=
  slave_ready c s /\ s_st s = S_IDLE /\ s_t15 s = CLEARED /\ s_t35 s = CLEARED /\ s_fe s = CLEARED /\ s_tx s = CLEARED /\
  rr_len (m_req (s_msg s)) = 0.

(** What arrives from the line before the 1.5-character pause: bytes, possibly with frame errors signalled *)
Definition is_reception (e : sev) : bool := match e with SRx _ | SFrameErr => true | _ => false end.
Definition rx_bytes (xs : list sev) : list Z := flat_map (fun e => match e with SRx b => [u8 b] | _ => [] end) xs.
Definition has_frame_err (xs : list sev) : bool := existsb (fun e => match e with SFrameErr => true | _ => false end) xs.
(** Everything but transmission-complete.  (The STM32 example driver signals transmission-complete whenever one of its
    interrupts is served while the transmit register is empty, so also with every byte received.) *)
Definition not_tx (e : sev) : bool := match e with STxDone => false | _ => true end.
Definition line_events (l : list sev) : list sev := filter not_tx l.
(** the events of a reception: [xs], then the 1.5- and 3.5-character events; transmission may be signalled complete any number of
    times before the 3.5-character event *)
Definition arrival (xs : list sev) (es : list sev) : Prop :=
  exists es1, es = es1 ++ [ST35] /\ line_events es1 = xs ++ [ST15].
