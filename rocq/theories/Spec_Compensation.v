(** Payments that are held against the limits of the operation pallet: specification for
    property C198. *)
From Verif Require Import Base Balances Model_UserPrivileges.
From Verif Require Model_Staking Model_Operation.
From Verif Require Import Model_Chain Model_World Spec_World.
From stdpp Require Import gmap.
Open Scope N_scope.

(** What a step pays as compensation or from a release schedule. *)
Definition limited (e : wev) : N :=
  match e with
  | VStaking (Model_Staking.KMint Model_Staking.MComp _ v) => v
  | VRelease (Model_Operation.EReleased _ v) => v
  | _ => 0
  end.
Definition payout (out : wout) : N :=
  match out with WDone ev => lsum (map limited ev) | _ => 0 end.
(** What is paid this way in the steps of a history that begin on day [d]. *)
Fixpoint day_paid (cfg : wcfg) (w : wstate) (h : list wop) (d : N) : N :=
  match h with
  | [] => 0
  | op :: r =>
      (if Model_Operation.o_day (w_rel w) =? d then payout (wstep cfg w op).2 else 0) +
      day_paid cfg (wstep cfg w op).1 r d
  end.
(** What the chain has recorded as released today. *)
Definition released_today (w : wstate) : N :=
  default 0 (Model_Operation.o_daily (w_rel w) !! Model_Operation.o_day (w_rel w)).
(** What a compensation asks for: at most what the mining pool still holds. *)
Definition asked (cfg : wcfg) (w : wstate) (referee poc : N) : N :=
  N.min (default (Model_Staking.kc_total (jc_s (wc_chain cfg))) (Model_Staking.d_pool (Model_Staking.k_del (j_s (w_chain w)))))
        ((referee + poc) mod 2 ^ 128).
