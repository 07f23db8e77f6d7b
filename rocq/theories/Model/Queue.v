(** src/master_internall/modbus_queue.c and modbus_queue.h.
    A [modbus_msg_t *] is [option A]: [None] is NULL, [Some x] a pointer to message x. *)
From Verif Require Export Model.Types.

(** src/master_internall/modbus_queue.h:34-40  modbus_queue_t; head, tail, items_in_queue are uint8_t,
    [q_slots] is the pointer array of N = MODBUS_MASTER_MAX_MSG_QUEUE_ITEMS entries *)
Record queue (A : Type) := mk_queue {
  q_head : Z; q_tail : Z; q_items : Z; q_slots : list (option A) }.
Arguments mk_queue {A} _ _ _ _.
Arguments q_head {A} _.
Arguments q_tail {A} _.
Arguments q_items {A} _.
Arguments q_slots {A} _.

Section Queue.
Context {A : Type}.

(** static zero-initialised queue object, src/modbus_master.c:51-52 *)
Definition queue_zero (N : Z) : queue A := mk_queue 0 0 0 (repeat None (Z.to_nat N)).

(** src/master_internall/modbus_queue.c:27-33 (the slots are not touched) *)
Definition modbus_queue_init (q : queue A) : queue A :=
  mk_queue 0 0 0 (q_slots q).

(** src/master_internall/modbus_queue.c:50-75.  Returns the new queue and the new value of *data.
    [N = 0] would divide by zero. *)
Definition modbus_queue_push (N : Z) (q : queue A) (data : option A) : outcome (queue A * option A) :=
  if N =? 0 then UB else
  let new_head := (q_head q + 1) mod N in
  if q_head q =? q_tail q
  then
    if q_items q =? N
    then Ok (q, data)
    else
      let* slots := aset (q_slots q) (q_head q) data in
      Ok (mk_queue (u8 new_head) (q_tail q) (u8 (q_items q + 1)) slots, None)
  else
    let* slots := aset (q_slots q) (q_head q) data in
    Ok (mk_queue (u8 new_head) (q_tail q) (u8 (q_items q + 1)) slots, None).

(** src/master_internall/modbus_queue.c:86-113 *)
Definition modbus_queue_pop (N : Z) (q : queue A) : outcome (option A * queue A) :=
  if N =? 0 then UB else
  if q_head q =? q_tail q
  then
    if q_items q =? 0
    then Ok (None, q)
    else
      let* ret := aget (q_slots q) (q_tail q) in
      let* slots := aset (q_slots q) (q_tail q) None in
      Ok (ret, mk_queue (q_head q) (u8 ((q_tail q + 1) mod N)) (u8 (q_items q - 1)) slots)
  else
    let* ret := aget (q_slots q) (q_tail q) in
    let* slots := aset (q_slots q) (q_tail q) None in
    Ok (ret, mk_queue (q_head q) (u8 ((q_tail q + 1) mod N)) (u8 (q_items q - 1)) slots).

(** src/modbus_master.c:631-634  check_data_to_send_availability *)
Definition check_data_to_send_availability (q : queue A) : bool :=
  negb (q_head q =? q_tail q) || (0 <? q_items q).

End Queue.
