(** Vocabulary for the slave driver's handlers executed statement by statement. *)
From Coq Require Import List ZArith Bool.
From Verif Require Import Model.Base Model.Types Model.Slave Model.SlaveSystem.
From Verif Require Export Model.SlaveHandlers Spec.SlaveSystem.
Import ListNotations.
Open Scope Z_scope.

(** The schedule seen from a firmware whose handlers are indivisible: a handler counts when it starts. *)
Definition act_of (a : gact) (g : gfw) : list yact :=
  match a, g_irq g with
  | GMain, None => [AMain]
  | GApp b r, None => [AApp b r]
  | GUsart, None => if usart_pending (y_lib (g_sys g)) (y_u (g_sys g)) then [AUsart] else []
  | GTimer, None => if u_uif (y_u (g_sys g)) then [ATimer] else []
  | GHw x, _ => if is_hw x then [x] else []
  | _, _ => []
  end.
Fixpoint acts_of (c : cfg) (l : list gact) (g : gfw) : list yact :=
  match l with
  | [] => []
  | a :: l => act_of a g ++ match g_act c a g with Ok (g1, _) => acts_of c l g1 | _ => [] end
  end.
(** Two different ones of: character, byte taken by the transmitter, receiver time-out, timer *)
Definition kind (x : yact) : nat := match x with HRx _ => 0 | HShift => 1 | HRto => 2 | HTim => 3 | _ => 4 end.
(** [ws] is [l], some hardware events taken to have happened earlier: before the handler during which they happened, or before hardware events of another kind.
    The order of the main program's lines, the application's changes and handlers among each other, of the hardware events of each kind, and of the main program's lines
    and the application's changes against hardware events is the same. *)
Inductive moved : list yact -> list yact -> Prop :=
| moved_refl l : moved l l
| moved_trans l m n : moved l m -> moved m n -> moved l n
| moved_swap l1 y x l2 : is_hw x = true -> y = AUsart \/ y = ATimer \/ is_hw y = true /\ kind y <> kind x -> moved (l1 ++ y :: x :: l2) (l1 ++ x :: y :: l2).

(** [P] holds whenever the schedule [l], started in [g], comes to an action [x] *)
Definition g_always (c : cfg) (g : gfw) (l : list gact) (P : gact -> gfw -> Prop) : Prop :=
  forall l1 x l2 g1 t1, l = l1 ++ x :: l2 -> g_run c l1 g = Ok (g1, t1) -> P x g1.
(** as for the firmware with indivisible handlers (Spec/SlaveSystem.v) *)
Definition g_send_undisturbed (c : cfg) (g : gfw) (l : list gact) : Prop :=
  g_always c g l (fun x g1 => x = GUsart -> match y_sub (g_sys g1) with Some (D85 _) | Some (D86 _) | Some D87 => False | _ => True end).
(** the characters that arrive on the line *)
Definition g_arrived (l : list gact) : list Z := flat_map (fun a => match a with GHw (HRx b) => [u8 b] | _ => [] end) l.

(** A hardware event is on time if the rest of the handler that is running (which is about to execute [p]) does not look at what it changes. *)
Definition passed (x : yact) (p : gpc) : bool :=
  match p, x with
  | (G116 | G119), HRx _ => false
  | _, HRx _ => true
  | (G139 | G140 | G143 | G145 | G147 | G149 | T156 | T158 | T159 | T160 | T161), HShift => true
  | _, HShift => false
  | (G145 | G147 | G149 | T161), HRto => true
  | _, HRto => false
  | (G129 | G131 | G133 | G134 | G139 | G140 | G143 | G145 | G147 | G149), HTim => true
  | _, HTim => false
  | _, _ => true
  end.
Definition g_on_time (c : cfg) (g : gfw) (l : list gact) : Prop :=
  g_always c g l (fun a g1 => forall x p, a = GHw x -> is_hw x = true -> g_irq g1 = Some p -> passed x p = true).
