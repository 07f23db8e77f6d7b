(** Vocabulary for the line settings. *)
From Coq Require Import List ZArith Bool.
From Verif Require Import Model.Base Model.Driver.
From Verif Require Export Model.Line.
Import ListNotations.
Open Scope Z_scope.

(** Modbus over serial line, RTU: 8 data bits; parity and one stop bit, or no parity and two stop bits *)
Definition modbus_format (par : parity) : fmt :=
  match par with NONE => mk_fmt 8 None 4 | ODD => mk_fmt 8 (Some true) 2 | EVEN => mk_fmt 8 (Some false) 2 end.
(** the driver has been initialised once since reset *)
Definition line_up (baud : Z) (par : parity) (p : periph) : Prop := usart_init baud par periph_reset = Ok p.
(** baud rates the driver's code is defined for (C53), up to the USART's limit: 16 clocks per bit *)
Definition baud_ok (baud : Z) : Prop := 2400 <= baud <= 4000000.
(** characters on the line, each after a pause of some bits *)
Definition on_the_line (f : fmt) (l : list (nat * Z)) : list bool := flat_map (fun x => repeat true (fst x) ++ char_on_line f (snd x)) l.
(** what a receiver with format [f], waiting, makes of the bits [l] *)
Definition received (f : fmt) (l : list bool) : list rchar := snd (rx_bits f RHunt l).
(** a character with the parity bit [x] instead of the right one *)
Definition char_with_parity (x : bool) (b : Z) : list bool := [false] ++ data_bits 8 b ++ [x] ++ [true].
(** times in clocks (64 per microsecond): one bit, 1.5 characters (receiver time-out), 3.5 characters (timer) *)
Definition t_bit (p : periph) : Z := BRR p.
Definition t_15 (p : periph) : Z := RTOR p mod 2 ^ 24 * BRR p.
Definition t_35 (p : periph) : Z := (T_PSC p + 1) * (T_ARR p + 1).
