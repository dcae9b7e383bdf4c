(** Vocabulary: falling credit. *)
From Verif Require Import Base Balances Model_UserPrivileges.
From Verif Require Model_Credit.
From Verif Require Import Model_Staking Model_Chain.
From stdpp Require Import gmap.
Open Scope N_scope.

(** The credit score; none counts as zero. *)
Definition credit_of (c : credit) (d : N) : N :=
  match Model_Credit.k_uc c !! d with Some r => Model_Credit.cd_credit r | None => 0 end.
(** Slashes of [d]'s credit that the events report. *)
Definition credit_slashes (ev : list kev) (d : N) : N :=
  N.of_nat (length (List.filter (fun e => match e with KCreditSlash a => a =? d | _ => false end) ev)).

(** What can lower [d]'s score: an officer ends its stake or writes a new record, the
    EVM operator or Root takes points, its node is found offline at a payout, or a
    validator it delegates to is slashed. *)
Definition lowers (c : credit) (op : jop) (ev : list kev) (d : N) : Prop :=
  match op.2 with
  | JCredit _ (Model_Credit.KUnstakingSlash w) | JCredit _ (Model_Credit.KAddData w _)
  | JCredit _ (Model_Credit.KExternalData w _) | JEntry (Model_Credit.KUnstaking w) => w = d
  | JEntry (Model_Credit.KEvmUpdate _ u _ false) => Model_Credit.kx_e2d (jx_c op.1) u = Some d
  | JInit => 0 < Model_Credit.kx_offline (jx_c op.1) d /\ Model_Credit.kx_offline (jx_c op.1) d mod 3 = 0 /\
             d ∉ Model_Credit.k_maintain c
  | JCall _ (JForceUndelegate l) => exists n, (d, n) ∈ l /\ n <> 0
  | JCall _ (JOf (KForceUnstakingDelegate w)) => w = d
  | JStartSession _ | JOffence _ _ => 0 < credit_slashes ev d
  | _ => False
  end.
