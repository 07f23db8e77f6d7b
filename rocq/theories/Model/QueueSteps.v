(** src/master_internall/modbus_queue.c executed access by access, so that an interrupt can fall in between.
    Modelled: the order of the accesses as written in the source, an increment or decrement of the counter being a load and a
    store (as on a Cortex-M0+).  Simplifications: the fields are not volatile, a compiler could do the accesses in another
    order; q->head is read once per statement and not changed by the other side. *)
From Verif Require Export Model.Queue.

Section Steps.
Context {A : Type}.
Definition set_head (q : queue A) (h : Z) : queue A := mk_queue h (q_tail q) (q_items q) (q_slots q).
Definition set_tail (q : queue A) (t : Z) : queue A := mk_queue (q_head q) t (q_items q) (q_slots q).
Definition set_items (q : queue A) (n : Z) : queue A := mk_queue (q_head q) (q_tail q) n (q_slots q).
Definition set_slots (q : queue A) (l : list (option A)) : queue A := mk_queue (q_head q) (q_tail q) (q_items q) l.

(** src/master_internall/modbus_queue.c:50-75  modbus_queue_push: the line about to be executed; [P63s], [P72s]: the counter
    has been loaded (value v) and is about to be stored; [PDone d]: returned, d is the new value of *data *)
Inductive push_pc := P52 | P54 (nh : Z) | P56 (nh : Z) | P62 (nh : Z) | P63 (nh : Z) | P63s (nh v : Z) | P64 (nh : Z) | P65
| P70 (nh : Z) | P71 (nh : Z) | P72 | P72s (v : Z) | P73 | PDone (d : option A).
Definition push_step (N : Z) (data : option A) (pc : push_pc) (q : queue A) : outcome (push_pc * queue A) :=
  match pc with
  | P52 => if N =? 0 then UB else Ok (P54 ((q_head q + 1) mod N), q)
  | P54 nh => Ok (if q_head q =? q_tail q then P56 nh else P70 nh, q)
  | P56 nh => Ok (if q_items q =? N then PDone data else P62 nh, q)
  | P62 nh => let* l := aset (q_slots q) (q_head q) data in Ok (P63 nh, set_slots q l)
  | P63 nh => Ok (P63s nh (q_items q), q)
  | P63s nh v => Ok (P64 nh, set_items q (u8 (v + 1)))
  | P64 nh => Ok (P65, set_head q (u8 nh))
  | P65 => Ok (PDone None, q)
  | P70 nh => let* l := aset (q_slots q) (q_head q) data in Ok (P71 nh, set_slots q l)
  | P71 nh => Ok (P72, set_head q (u8 nh))
  | P72 => Ok (P72s (q_items q), q)
  | P72s v => Ok (P73, set_items q (u8 (v + 1)))
  | P73 => Ok (PDone None, q)
  | PDone d => Ok (PDone d, q)
  end.

(** src/master_internall/modbus_queue.c:86-113  modbus_queue_pop; the branches 98-101 and 106-109 are the same statements;
    [Q100s]: counter loaded; [QDone r]: returned r *)
Inductive pop_pc := Q89 | Q92 | Q98 | Q99 (r : option A) | Q100 (r : option A) | Q100s (r : option A) (v : Z) | Q101 (r : option A) | QDone (r : option A).
Definition pop_step (N : Z) (pc : pop_pc) (q : queue A) : outcome (pop_pc * queue A) :=
  match pc with
  | Q89 => Ok (if q_head q =? q_tail q then Q92 else Q98, q)
  | Q92 => Ok (if q_items q =? 0 then QDone None else Q98, q)
  | Q98 => let* r := aget (q_slots q) (q_tail q) in Ok (Q99 r, q)
  | Q99 r => let* l := aset (q_slots q) (q_tail q) None in Ok (Q100 r, set_slots q l)
  | Q100 r => Ok (Q100s r (q_items q), q)
  | Q100s r v => Ok (Q101 r, set_items q (u8 (v - 1)))
  | Q101 r => if N =? 0 then UB else Ok (QDone r, set_tail q (u8 ((q_tail q + 1) mod N)))
  | QDone r => Ok (QDone r, q)
  end.
End Steps.
Arguments push_pc A : clear implicits.
Arguments pop_pc A : clear implicits.
