(** Vocabulary: the store of CR1 in DRV:96 switching the transmitter's interrupt on again (or off) behind a handler's back. *)
From Coq Require Import List ZArith Bool.
From Verif Require Import Model.Base Model.Types Model.Iface Model.Master Model.MasterSystem Spec.MasterHandlers.
Import ListNotations.
Open Scope Z_scope.

(** an action of the firmware with indivisible handlers, or a store that gives TXEIE an old value *)
Inductive xact := XAct (x : wact) | XCr1 (txeie : bool).
Definition with_txeie (v : bool) (w : mfw) : mfw :=
  let u := w_u w in mk_mfw (w_lib w) (mk_uart (u_cur u) (u_last u) (u_det u) (u_tdr u) (u_rdr u) v (u_rtof u) (u_cen u) (u_uif u)) (w_sub w).
Fixpoint x_run (c : cfg) (l : list xact) (w : mfw) : outcome (mfw * list witem) :=
  match l with
  | [] => Ok (w, [])
  | XCr1 v :: l => x_run c l (with_txeie v w)
  | XAct x :: l => let* '(w1, t1) := w_act c x w in let* '(w2, t2) := x_run c l w1 in Ok (w2, t1 ++ t2)
  end.
(** the schedule seen from a firmware with indivisible handlers ([acts_of]), and the stores of an old value *)
Definition x_act_of (a : hact) (h : hfw) : list xact :=
  match a, h_cr1 h with
  | HMain, Some (E96s v) => if no_handler h && negb (Bool.eqb (u_txeie (w_u (h_fw h))) v) then [XCr1 v] else []
  | _, _ => map XAct (act_of a h)
  end.
Fixpoint x_acts_of (c : cfg) (l : list hact) (h : hfw) : list xact :=
  match l with
  | [] => []
  | a :: l => x_act_of a h ++ match h_act c a h with Ok (h1, _) => x_acts_of c l h1 | _ => [] end
  end.
(** some hardware events taken to have happened earlier, none of them before a store of an old value *)
Inductive x_moved : list xact -> list xact -> Prop :=
| x_moved_refl l : x_moved l l
| x_moved_trans l m n : x_moved l m -> x_moved m n -> x_moved l n
| x_moved_swap l1 y x l2 : is_hw x = true -> y = WUsart \/ y = WTimer \/ is_hw y = true /\ kind y <> kind x -> x_moved (l1 ++ XAct y :: XAct x :: l2) (l1 ++ XAct x :: XAct y :: l2).
(** how often the schedule stores an old value *)
Definition races (c : cfg) (l : list hact) (h : hfw) : nat := length (filter (fun x => match x with XCr1 _ => true | XAct _ => false end) (x_acts_of c l h)).
(** how often a handler switches the transmitter's interrupt off (DRV:145) between the load of CR1, which found it on, and the store *)
Definition switches_off (a : hact) (h : hfw) : bool := match a, h_irq h, h_cr1 h with HStep, Some U145, Some (E96s true) => true | _, _, _ => false end.
Fixpoint overtaken (c : cfg) (l : list hact) (h : hfw) : nat :=
  match l with
  | [] => 0
  | a :: l => (if switches_off a h then 1 else 0) + match h_act c a h with Ok (h1, _) => overtaken c l h1 | _ => 0 end
  end%nat.
