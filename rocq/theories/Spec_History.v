(** The records of past eras: specification for property C199. *)
From Verif Require Import Base Balances Model_StakingLedger Model_Staking Spec_Staking Spec_Staking2.
From stdpp Require Import gmap.
Open Scope N_scope.

(** Era [i] is one of those from [current_era - history_depth] to [current_era]. *)
Definition in_history (i : N) (s : kstate) : Prop :=
  exists c, e_cur (k_era s) = Some c /\ i <= c <= i + p_depth (k_par s).
(** The first session, the validators, the exposures and the total stake of era [i]. *)
Definition same_record (s s' : kstate) (i : N) : Prop :=
  e_start (k_era s') !! i = e_start (k_era s) !! i /\ e_vals (k_era s') !! i = e_vals (k_era s) !! i /\
  e_stake (k_era s') !! i = e_stake (k_era s) !! i /\
  forall v, e_stakers (k_era s') !! (i, v) = e_stakers (k_era s) !! (i, v).
Definition no_record (s : kstate) (i : N) : Prop :=
  e_start (k_era s) !! i = None /\ e_vals (k_era s) !! i = None /\ e_stake (k_era s) !! i = None /\
  forall v, e_stakers (k_era s) !! (i, v) = None.
(** What the documentation of [HistoryDepth] asks for: the active era is in the history. *)
Definition guaranteed (s : kstate) : Prop := forall a, active_era s = Some a -> in_history a s.
