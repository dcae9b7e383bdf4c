(** Reports that are withdrawn before they take effect: specification for property C202. *)
From Verif Require Import Base Balances Model_StakingLedger Model_Staking.
From stdpp Require Import gmap.
Open Scope N_scope.

(** The slashes waiting since an era. *)
Definition waiting (s : kstate) (era : N) : list uslash := default [] (s_unapp (k_stk s) !! era).
(** Money, stakes, controllers, locks, payees, delegations and parameters are the same. *)
Definition same_goods (s s' : kstate) : Prop :=
  k_bank s' = k_bank s /\ s_bonded (k_stk s') = s_bonded (k_stk s) /\ s_ledger (k_stk s') = s_ledger (k_stk s) /\
  s_lock (k_stk s') = s_lock (k_stk s) /\ k_del s' = k_del s /\ k_par s' = k_par s.
(** The numbers [n], [n + 1], ..., [k] of them. *)
Fixpoint numbers (n : N) (k : nat) : list N :=
  match k with O => [] | S k' => n :: numbers (n + 1) k' end.
