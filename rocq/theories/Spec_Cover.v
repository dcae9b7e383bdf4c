(** Stakes and the money behind them: specification for property C201. *)
From Verif Require Import Base Balances Model_StakingLedger Model_Staking Spec_Staking.
From stdpp Require Import gmap.
Open Scope N_scope.

Definition money_of (b : bank) (a : N) : N := free (acct_of b a) + rsv (acct_of b a).
(** What is at stake, active or unlocking, is money the stash has. *)
Definition covered (s : kstate) (a : N) : Prop :=
  forall c l, s_ledger (k_stk s) !! c = Some l -> l_stash l = a -> l_total l <= money_of (k_bank s) a.
(** Stashes and controllers are paired. *)
Definition paired (s : kstate) : Prop :=
  (forall st c, s_bonded (k_stk s) !! st = Some c -> exists l, s_ledger (k_stk s) !! c = Some l /\ l_stash l = st) /\
  (forall c l, s_ledger (k_stk s) !! c = Some l -> s_bonded (k_stk s) !! l_stash l = Some c).
(** The account keeps its existential deposit, and the staking lock is in force. *)
Definition guarded (cfg : kcfg) (s : kstate) (a : N) : Prop :=
  kc_ed cfg <= free (acct_of (k_bank s) a) /\ default 0 (s_lock (k_stk s) !! a) <= frz (acct_of (k_bank s) a).
Definition locked_all (s : kstate) (a : N) : Prop :=
  forall c l, s_ledger (k_stk s) !! c = Some l -> l_stash l = a -> l_total l <= default 0 (s_lock (k_stk s) !! a).

(** What an operation on balances may do to account [a]: take no more than leaves what is
    frozen, and leave the frozen amount and the existential deposit. *)
Definition polite (ed : N) (b b' : bank) (a : N) : Prop :=
  ed <= free (acct_of b' a) /\ frz (acct_of b' a) = frz (acct_of b a) /\
  N.min (money_of b a) (frz (acct_of b a)) <= money_of b' a.

(** The validators of the active era. *)
Definition payees (s : kstate) : N :=
  match e_act (k_era s) with
  | Some (era, _) => N.of_nat (length (default [] (e_vals (k_era s) !! era)))
  | None => 0
  end.
(** Account [a] is never reaped, rewards do not make its balance wrap, and outside the staking
    pallet its money is treated politely. *)
Definition step_cover (cfg : kcfg) (a : N) (s : kstate) (op : kop) : Prop :=
  match op with
  | KCall x _ _ | KInit x | KStartSession x _ | KOffence x _ _ => kx_dies x a = false
  | KEndSession x _ => kx_dies x a = false /\
      free (acct_of (k_bank s) a) + payees s * p_reward (k_par s) < 2 ^ 128
  | KBank b => polite (kc_ed cfg) (k_bank s) b a
  | _ => True
  end.
Fixpoint run_cover (cfg : kcfg) (a : N) (s : kstate) (h : list kop) : Prop :=
  match h with
  | [] => True
  | op :: r => step_cover cfg a s op /\ run_cover cfg a (kstep cfg s op).1 r
  end.
