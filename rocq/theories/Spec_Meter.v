(** What the hooks may cost, said without their loops. *)
From Verif Require Import Base Balances Model_Adsc Model_Operation Model_Staking Model_Meter.
From stdpp Require Import gmap.
Open Scope N_scope.

(** The ADSC stakers whose devices have been silent. *)
Definition silent (x : actx) (s : astate) : gmap N N :=
  filter (fun p => ax_offline x p.1 <> 0) (a_stakers s).

(** The number of rewards and of releases among the events of a block. *)
Definition rewards (evs : list aev) : N :=
  lsum (map (fun e => match e with EReward _ _ => 1 | _ => 0 end) evs).
Definition releases (evs : list oev) : N :=
  lsum (map (fun e => match e with EReleased _ _ => 1 | _ => 0 end) evs).

(** States of the two pallets that a history leads to. *)
Definition adsc_reachable (cfg : acfg) (s : astate) : Prop :=
  exists b u h, (arun cfg (ainit b u) h).1 = s.
Definition operation_reachable (cfg : ocfg) (s : ostate) : Prop :=
  exists b h, (orun cfg (oinit b) h).1 = s.

(** A hook accounts for what it looks at: a read at least for each entry. *)
Definition accounted (m : meter) : Prop := looked m <= reads m.

(** Over the events of a block of the staking pallet: a sum over the delegators whose
    reward was asked for, and over the accounts that were paid. *)
Definition asked (f : N -> N) (evs : list kev) : N :=
  lsum (map (fun e => match e with KAsk d _ _ => f d | _ => 0 end) evs).
Definition paid_delegators (f : N -> N) (evs : list kev) : N :=
  lsum (map (fun e => match e with KMint MDelegator d _ => f d | _ => 0 end) evs).
Definition paid_referers (f : N -> N) (evs : list kev) : N :=
  lsum (map (fun e => match e with KMint MReferer d _ => f d | _ => 0 end) evs).
(** One for a delegator that goes on delegating. *)
Definition stays (s : kstate) (d : N) : N :=
  match d_recs (k_del s) !! d with Some r => if dr_on r then 1 else 0 | None => 0 end.
Global Instance kcursor_dec : EqDecision kcursor.
Proof. solve_decision. Defined.
Definition one_if (b : bool) : N := if b then 1 else 0.
