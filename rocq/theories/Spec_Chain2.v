(** Specification of the purchase of credit levels, for the chain of Model_Chain.v. *)
From Verif Require Import Base Balances.
From Verif Require Model_Credit Spec_Credit.
From Verif Require Import Model_Staking Model_Chain.
From stdpp Require Import gmap.
Open Scope N_scope.

(** The level of a score is [Spec_Credit.band]: its hundreds, and eight at most. *)
(** The price list of a campaign, by level: campaigns 0 and 1 have the first list, 5 the
    one in USDT, 3 none, the others up to 8 the current one. *)
Definition tariff (c : credit) (camp : N) : list N :=
  if camp <=? 1 then Model_Credit.k_gen_balances c
  else if camp =? 3 then []
  else if camp =? 5 then Model_Credit.k_usdt_balances c
  else if camp <=? 8 then Model_Credit.k_balances c
  else [].
Definition record_of (j : jstate) (a : N) : option Model_Credit.cdata := Model_Credit.k_uc (j_c j) !! a.
Definition score_of (j : jstate) (a : N) : N := default 0 (Model_Credit.cd_credit <$> record_of j a).
(** What unstaking takes off the score again. *)
Definition bought (j : jstate) (a : N) : N := default 0 (Model_Credit.k_ustake (j_c j) !! a).
Definition purse (j : jstate) (a : N) : N := free_of (k_bank (j_s j)) a.
Definition delegating (j : jstate) (a : N) : Prop := is_Some (d_recs (k_del (j_s j)) !! a).
(** The price list for a purchase in USDT. *)
Definition usdt_prices (j : jstate) (w : N) : list N :=
  tariff (j_c j) (match record_of j w with Some d => Model_Credit.cd_camp d | None => Model_Credit.k_usdt_id (j_c j) end).

(** [n] is as far as [rest] reaches from level [base] on: all levels up to [n] are paid
    for, the one after [n] is not, or there is none. *)
Definition reach (prices : list N) (base rest n : N) : Prop :=
  let gap l := default 0 (prices !! N.to_nat l) - default 0 (prices !! N.to_nat base) in
  base <= n /\ (forall l, base < l -> l <= n -> l < N.of_nat (length prices) /\ gap l <= rest) /\
  (N.of_nat (length prices) <= n + 1 \/ rest < gap (n + 1)).
