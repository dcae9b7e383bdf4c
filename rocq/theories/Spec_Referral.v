(** Specification vocabulary for what referers are paid. *)
From Verif Require Import Base Balances Model_StakingLedger Model_Staking Spec_Staking.
From stdpp Require Import gmap.
Open Scope N_scope.

(** The share of a referer with [n] referees, in thousandths. *)
Definition share (n : N) : N :=
  if n =? 0 then 0 else if n <=? 20 then 50 else if n <=? 50 then 60 else if n <=? 100 then 75
  else if n <=? 200 then 90 else 120.

(** [got] is [k] thousandths of [v], to the nearest unit; or not more than that. *)
Definition near (k v got : N) : Prop := 2 * k * v <= 2000 * got + 1000 /\ 2000 * got <= 2 * k * v + 1000.
Definition at_most (k v got : N) : Prop := 2000 * got <= 2 * k * v + 1000.

(** What delegator [d] earned in the eras from [f] to [t]: nothing while it is punished. *)
Definition earned (x : kctx) (s : kstate) (d f t : N) : N :=
  if kx_era x <=? default 0 (d_black (k_del s) !! d) then 0 else default 0 (kx_reward x d f t).

Definition referer (s : kstate) (d : N) : option N := d_ref (k_del s) !! d.
Definition coins (s : kstate) (a : N) : N := free (acct_of (k_bank s) a).

(** The referer that waits for its share of what [d] earned. *)
Definition waiting (s : kstate) (d f t : N) : option (N * N * N * N) :=
  match referer s d with Some a => Some (a, d, f, t) | None => None end.

(** The events of a round of payments that leads from [s] to [s']. After a delegator was
    asked for (and paid), its referer gets its share of what the delegator earned; a referer is
    not paid otherwise. If the pool is empty afterwards ([full] is false) the last one may get
    less or nothing, and a share that would leave an account below the existential deposit or
    above the largest balance is not paid. *)
Fixpoint shared (ed : N) (x : kctx) (s s' : kstate) (full : Prop) (w : option (N * N * N * N)) (ev : list kev) : Prop :=
  match ev with
  | [] => full -> w = None
  | KAsk d f t :: r => w = None /\ shared ed x s s' full (waiting s d f t) r
  | KMint MDelegator d _ :: r => shared ed x s s' full w r
  | KMint MReferer a got :: r =>
      match w with
      | Some (a', d, f, t) =>
          let k := share (N.of_nat (size (referees s a))) in
          a = a' /\ at_most k (earned x s d f t) got /\
          (full -> ed <= coins s a -> coins s' a + earned x s d f t < 2 ^ 128 -> near k (earned x s d f t) got)
      | None => got = 0
      end /\ shared ed x s s' full None r
  | _ => False
  end.
