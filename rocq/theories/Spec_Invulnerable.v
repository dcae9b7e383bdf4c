(** Validators that are not to be slashed: specification for property C204. *)
From Verif Require Import Base Balances Model_StakingLedger Model_Staking.
From stdpp Require Import gmap.
Open Scope N_scope.

(** Whenever offences are reported, [st] is on the list of invulnerables. *)
Fixpoint shielded (cfg : kcfg) (st : N) (s : kstate) (h : list kop) : Prop :=
  match h with
  | [] => True
  | op :: r =>
      match op with KOffence _ _ _ => st ∈ p_invul (k_par s) | _ => True end /\ shielded cfg st (kstep cfg s op).1 r
  end.
(** [st] is on that list all the time. *)
Fixpoint invulnerable_over (cfg : kcfg) (st : N) (s : kstate) (h : list kop) : Prop :=
  st ∈ p_invul (k_par s) /\ match h with [] => True | op :: r => invulnerable_over cfg st (kstep cfg s op).1 r end.
