(** Model of the transaction fees of /repo/runtime/src/lib.rs:217-232 (DealWithFees), 539
    ([OnChargeTransaction = CurrencyAdapter<Balances, DealWithFees>]) and runtime/src/impls.rs:24-31
    (Author). [CurrencyAdapter] (pallet_transaction_payment), [Imbalance] (frame_support) and
    [pallet_treasury] are library code, written down from their published behaviour. The fee
    itself (weight, length, multiplier) is an argument. *)
From Verif Require Import Base Balances.
From stdpp Require Import gmap.
Open Scope N_scope.

(** [Currency::deposit_into_existing]. *)
Definition deposit_existing (ed : N) (b : bank) (who v : N) : option bank :=
  if v =? 0 then Some b else
  let a := acct_of b who in
  if is_new a then None
  else if two128 <=? free a + v then None
  else Some (put ed b who (Acct (free a + v) (rsv a) (frz a))).

(** [CurrencyAdapter::withdraw_fee]: before the call. The fee contains the tip. *)
Definition charge (ed : N) (b : bank) (who fee : N) : option bank := withdraw ed true b who fee.

(** [Imbalance::ration] with 80 and 20 (lib.rs:222, 225): a saturating product, the rest goes to the
    second. *)
Definition ration (x : N) : N * N :=
  let a := N.min (x * 80) (two128 - 1) / 100 in (a, x - a).

(** impls.rs:24-31 Author::on_nonzero_unbalanced; without an author the amount is dropped. *)
Definition to_author (ed : N) (author : option N) (b : bank) (v : N) : bank :=
  match author with
  | Some a => deposit_creating ed b a v
  | None => Bank (accts b) (lost b + v)
  end.
(** lib.rs:217-232 DealWithFees::on_unbalanceds; [Treasury::on_unbalanced] deposits into the
    treasury's account. *)
Definition deal (ed treasury : N) (author : option N) (b : bank) (fee tip : N) : bank :=
  let '(f1, f2) := ration fee in
  let '(t1, t2) := ration tip in
  to_author ed author (deposit_creating ed b treasury (f1 + t1)) (f2 + t2).

(** [CurrencyAdapter::correct_and_deposit_fee]: after the call, with the actual fee. *)
Definition settle (ed treasury : N) (author : option N) (b : bank) (who fee actual tip : N) : bank :=
  if fee =? 0 then b else
  let back := fee - actual in
  let '(b1, paid) := match deposit_existing ed b who back with
                     | Some b1 => (b1, fee - back)
                     | None => (b, fee)
                     end in
  let t := N.min paid tip in
  deal ed treasury author b1 (paid - t) t.
