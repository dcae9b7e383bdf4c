(** The credit settings of the development and test chains. *)
From Verif Require Import Base Model_Credit.
From stdpp Require Import gmap.
Open Scope N_scope.

(** cli/src/chain_spec.rs:362-464 campaign_0_credit_settings, as (level, balance in DPR,
    apy, referees). *)
Definition campaign_0 : list setting :=
  map (fun '(l, b, apy, refs) => Setting 0 l (b * DPR) apy 0 0 0 refs 0)
    [ (0, 0, 0, 0); (1, 20000, 39, 1); (2, 46800, 47, 2); (3, 76800, 53, 3); (4, 138000, 59, 7);
      (5, 218000, 66, 12); (6, 288000, 74, 18); (7, 368000, 82, 25); (8, 468000, 90, 34) ].
