(** Locks of others on an account: specification for property C200. *)
From Verif Require Import Base Balances Model_StakingLedger Model_Staking Spec_Staking.
From stdpp Require Import gmap.
Open Scope N_scope.

(** The account has an existential deposit or a reserve, so that it stays. *)
Definition lasting (cfg : kcfg) (s : kstate) (a : N) : Prop :=
  kc_ed cfg <= free (acct_of (k_bank s) a) \/ rsv (acct_of (k_bank s) a) <> 0.
(** What is frozen of the account is the greater of the lock of the staking pallet and [f],
    the greatest lock of others. *)
Definition frozen_right (s : kstate) (a f : N) : Prop :=
  frz (acct_of (k_bank s) a) = N.max (default 0 (s_lock (k_stk s) !! a)) f.
(** Others lock [f] of the account, and it may not be reaped. *)
Definition others_lock (a f : N) (x : kctx) : Prop := kx_other x a = f /\ kx_dies x a = false.
(** The same in each context of a step. What happens to balances outside the staking pallet
    leaves the account in place, and what is frozen of it right. *)
Definition step_others (cfg : kcfg) (a f : N) (s : kstate) (op : kop) : Prop :=
  match op with
  | KCall x _ _ | KInit x | KStartSession x _ | KEndSession x _ | KOffence x _ _ => others_lock a f x
  | KBank b => lasting cfg (set_k_bank s b) a /\ frozen_right (set_k_bank s b) a f
  | _ => True
  end.
Fixpoint run_others (cfg : kcfg) (a f : N) (s : kstate) (h : list kop) : Prop :=
  match h with
  | [] => True
  | op :: r => step_others cfg a f s op /\ run_others cfg a f (kstep cfg s op).1 r
  end.
