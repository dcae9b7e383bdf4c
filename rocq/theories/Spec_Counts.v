(** The number of validators: specification for property C203. *)
From Verif Require Import Base Balances Model_StakingLedger Model_Staking.
From stdpp Require Import gmap.
Open Scope N_scope.

(** Root asks for some validators, for no fewer than the minimum, and adds or scales within
    what a u32 holds; a factor is of type Percent. *)
Definition wise (s : kstate) (op : kop) : Prop :=
  match op with
  | KCall _ Root (KSetCount v) => 1 <= v /\ p_min (k_par s) <= v
  | KCall _ Root (KSetMin v) => v <= p_count (k_par s)
  | KCall _ Root (KIncCount v) => p_count (k_par s) + v < 2 ^ 32
  | KCall _ Root (KScaleCount f) => f <= 100 /\ 2 * p_count (k_par s) < 2 ^ 32
  | _ => True
  end.
Fixpoint all_wise (cfg : kcfg) (s : kstate) (h : list kop) : Prop :=
  match h with
  | [] => True
  | op :: r => wise s op /\ all_wise cfg (kstep cfg s op).1 r
  end.
Definition sound_counts (s : kstate) : Prop := 1 <= p_count (k_par s) /\ p_min (k_par s) <= p_count (k_par s).
(** The declared validators that may be elected. *)
Definition standing (s : kstate) : list N :=
  List.filter (fun v => bool_decide (p_white (k_par s) = []) || bool_decide (v ∈ p_white (k_par s))) (elements (s_valid (k_stk s))).
