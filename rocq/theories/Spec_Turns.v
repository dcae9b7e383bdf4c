(** Turns of validators: specification for property C205. *)
From Verif Require Import Base Balances Model_StakingLedger Model_Staking Spec_Staking.
From stdpp Require Import gmap.
Open Scope N_scope.

(** The sets elected in a history, one after another; elections are held when a session is
    planned. *)
Definition elected_by (op : kop) (out : kout) : list (list N) :=
  match op, out with
  | KNewSession _, KDone ev => omap (fun e => match e with KElected _ l => Some l | _ => None end) ev
  | _, _ => []
  end.
Fixpoint elections (cfg : kcfg) (s : kstate) (h : list kop) : list (list N) :=
  match h with
  | [] => []
  | op :: r => elected_by op (kstep cfg s op).2 ++ elections cfg (kstep cfg s op).1 r
  end.
(** At every session that may elect, [v] stands, all who stand are in [W], and at least [n]
    validators are asked for; delegators are fewer than a u32 counts. *)
Fixpoint stands (cfg : kcfg) (v : N) (W : gset N) (n : N) (s : kstate) (h : list kop) : Prop :=
  match h with
  | [] => True
  | op :: r =>
      match op with
      | KNewSession _ =>
          eligible s v /\ (forall w, eligible s w -> w ∈ W) /\ n <= p_count (k_par s) /\ (forall w, backing s w < 2 ^ 32)
      | _ => True
      end /\ stands cfg v W n (kstep cfg s op).1 r
  end.
(** When a validator was last elected is never forgotten. *)
Fixpoint remembered (cfg : kcfg) (s : kstate) (h : list kop) : Prop :=
  match h with
  | [] => True
  | op :: r => (forall w, last_elected s w <= last_elected (kstep cfg s op).1 w) /\ remembered cfg (kstep cfg s op).1 r
  end.
