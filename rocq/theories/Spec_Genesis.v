(** What a chain specification promises. *)
From Verif Require Import Base Balances Model_StakingLedger Model_Staking Model_Chain Model_World Model_Genesis.
From stdpp Require Import gmap.
Open Scope N_scope.

Definition staking (w : wstate) : stk := k_stk (j_s (w_chain w)).
Definition the_eras (w : wstate) : eras := k_era (j_s (w_chain w)).

(** The entry [s] of [stakers] has what it asks for: its balance is bonded to its
    controller, its rewards are added to the stake, and it stands for election if it is to
    validate. *)
Definition granted_stake (w : wstate) (s : staker) : Prop :=
  s_bonded (staking w) !! g_stash s = Some (g_ctrl s) /\
  s_ledger (staking w) !! g_ctrl s = Some (Ledger (g_stash s) (g_value s) (g_value s) []) /\
  s_payee (staking w) !! g_stash s = Some PStaked /\
  (g_valid s = true <-> g_stash s ∈ s_valid (staking w)).
(** [balances] lists at least [v] for account [a]. *)
Definition lists (balances : list (N * N)) (a v : N) : Prop := exists u, (a, u) ∈ balances /\ v <= u.

(** Balances the balances pallet accepts. *)
Definition proper (ed : N) (balances : list (N * N)) : Prop :=
  NoDup balances.*1 /\ forall a v, (a, v) ∈ balances -> ed <= v.
(** No stash and no controller twice, and no balance below the deposit [ed]. *)
Definition distinct (ed : N) (l : list staker) : Prop :=
  NoDup (map g_stash l) /\ NoDup (map g_ctrl l) /\ forall s, s ∈ l -> ed <= g_value s.

(** Arguments of testnet_genesis that make sense: at least one authority; distinct stashes;
    distinct controllers; no amount below the existential deposit; no stash among the
    endowed accounts unless their endowment is at least the stash; and no account that is
    the stash of one authority and the controller of another unless the controllers'
    endowment is at least the stash. *)
Record sane (ed : N) (authorities : list (N * N)) (authority_endowment stash : N) (endowed : list N) (endowment : N) : Prop := Sane {
  sn_some : authorities <> [] /\ N.of_nat (length authorities) < 2 ^ 32;
  sn_stash : NoDup authorities.*1;
  sn_ctrl : NoDup authorities.*2;
  sn_apart : forall p q, p ∈ authorities -> q ∈ authorities -> p.1 = q.2 -> p = q \/ stash <= authority_endowment;
  sn_amount : ed <= authority_endowment /\ ed <= stash /\ ed <= endowment;
  sn_endowed : forall p, p ∈ authorities -> p.1 ∈ endowed -> stash <= endowment }.
