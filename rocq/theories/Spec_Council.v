(** What the events of a collective say about who sits and who voted how; the latest event is the
    first of a log. *)
From Verif Require Import Base Model_Council.
From stdpp Require Import gmap.
Open Scope N_scope.

(** Who sits. *)
Fixpoint sitting (log : list cevent) : list N :=
  match log with
  | [] => []
  | EMembers l :: _ => l
  | _ :: r => sitting r
  end.
(** Who is prime. *)
Fixpoint prime (log : list cevent) : option N :=
  match log with
  | [] => None
  | EMembers _ :: _ => None
  | EPrime p :: _ => p
  | _ :: r => prime r
  end.
(** How [w] stands to the motion [h]: their last vote since it was proposed, unless they left the
    seat after it. *)
Fixpoint stance (h w : N) (log : list cevent) : option bool :=
  match log with
  | [] => None
  | EVoted h' w' b :: r => if (h' =? h) && (w' =? w) then Some b else stance h w r
  | EProposed h' _ :: r => if h' =? h then None else stance h w r
  | EMembers l :: r => if bool_decide (w ∈ l) then stance h w r else None
  | _ :: r => stance h w r
  end.
(** How many blocks ago the motion was proposed. *)
Fixpoint age (h : N) (log : list cevent) : N :=
  match log with
  | [] => 0
  | EProposed h' _ :: r => if h' =? h then 0 else age h r
  | EBlock :: r => age h r + 1
  | _ :: r => age h r
  end.
(** The sitting members who stand for, respectively against, the motion. *)
Definition for_it (h : N) (log : list cevent) : list N := filter (fun w => stance h w log = Some true) (sitting log).
Definition against_it (h : N) (log : list cevent) : list N := filter (fun w => stance h w log = Some false) (sitting log).
Definition count (l : list N) : N := N.of_nat (length l).
(** Every list of members ever set names nobody twice. *)
Definition distinct_seats (l : list cop) : Prop := forall m, In (OMembers m) l -> NoDup m.
