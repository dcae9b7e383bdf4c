(** Specification vocabulary for stakes in dollars. *)
From Verif Require Import Base Balances Model_UserPrivileges.
From Verif Require Model_Credit.
From Verif Require Import Model_StakingLedger Model_Staking Model_Chain.
From stdpp Require Import gmap.
Open Scope N_scope.

(** The stake recorded for an account: dollars, and the DPR they were worth. *)
Definition dollars (j : jstate) (a : N) : option (N * N) := Model_Credit.k_stakebal (j_c j) !! a.

(** What a step that ended with [out] should make of it: what is entered for the account is
    added (in 128 bits), a credit admin may clear it. *)
Definition entered (a : N) (op : jop) (out : jout) (m : option (N * N)) : option (N * N) :=
  match snd op, out with
  | JCall _ (JOf (KUsdtDelegate w u v)), JDone _ =>
      if w =? a
      then match m with
           | Some (u0, v0) => Some ((u0 + u) mod 2 ^ 128, (v0 + v) mod 2 ^ 128)
           | None => Some (u, v)
           end
      else m
  | JCredit _ (Model_Credit.KUnsetStaking w), JDone _ => if w =? a then None else m
  | _, _ => m
  end.
Fixpoint entered_all (a : N) (h : list jop) (outs : list jout) (m : option (N * N)) : option (N * N) :=
  match h, outs with
  | op :: h', out :: outs' => entered_all a h' outs' (entered a op out m)
  | _, _ => m
  end.

(** The campaigns: number 5 is the one in dollars. *)
Definition campaign_of (j : jstate) (a : N) : option N := Model_Credit.cd_camp <$> Model_Credit.k_uc (j_c j) !! a.
