(** Specification vocabulary for referees. *)
From Verif Require Import Base Balances Model_UserPrivileges Model_Credit.
From stdpp Require Import gmap.
Open Scope N_scope.

(** Referees that count at most for a campaign and the level an account began with, and
    what each is worth a day. *)
Definition most_refs (s : kstate) (camp lvl : N) : N :=
  match k_settings s !! (camp, lvl) with Some st => st_maxref st | None => 0 end.
Definition per_ref (s : kstate) (camp lvl : N) : N :=
  match k_settings s !! (camp, lvl) with Some st => st_perref st | None => 0 end.

(** The record of [a] names no more referees than allowed. *)
Definition refs_allowed (s : kstate) (a : N) : Prop :=
  forall d, k_uc s !! a = Some d -> cd_refs d <= most_refs s (cd_camp d) (cd_init d).

(** No setting allowed more than [m] at any time of the history. *)
Definition never_more (cfg : kcfg) (s : kstate) (h : list kop) (m : N) : Prop :=
  forall k camp lvl, most_refs (krun cfg s (take k h)) camp lvl <= m.

(** The same record but for the number of referees. *)
Definition with_refs (n : N) (d : cdata) : cdata :=
  CData (cd_camp d) (cd_credit d) (cd_init d) (cd_rank d) n (cd_level d) (cd_eras d).
