(** What the reporters of an offence get: specification for property C186. *)
From Verif Require Import Base Balances Model_StakingLedger Model_Staking Spec_Staking Spec_Staking2.
From stdpp Require Import gmap.
Open Scope N_scope.

(** How often an account is named. *)
Definition times (a : N) (l : list N) : N := N.of_nat (length (List.filter (N.eqb a) l)).
(** One reporter's share of a reward. *)
Definition share (pay : N) (reps : list N) : N := pay / N.of_nat (length reps).
(** What an account may get from these slashes as a reporter. *)
Definition promised (a : N) (us : list uslash) : N :=
  lsum (map (fun u => times a (u_reps u) * share (u_pay u) (u_reps u)) us).
(** The account stays alive whatever is added to it. *)
Definition living (cfg : kcfg) (b : bank) (a : N) : Prop := kc_ed cfg <= free_of b a.
(** [v] parts per billion of [x], as the code rounds it. *)
Definition part (v x : N) : N := frac_mul v PERBILL x.
