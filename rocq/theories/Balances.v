(** The part of Substrate's [pallet_balances] (polkadot-v1.1.0) that the pallets
    of /repo call through [T::Currency]. This is environment code: it is not in
    /repo, and belongs to the trusted base. Provider and consumer reference
    counts of [frame_system] are left out (an AllowDeath operation that would
    kill an account with outside references is not modelled as failing). *)
From Verif Require Import Base.
From stdpp Require Import gmap.
Open Scope N_scope.

(** [AccountData]: free, reserved and frozen (maximum of the locks). *)
Record acct := Acct { free : N; rsv : N; frz : N }.
Definition acct0 : acct := Acct 0 0 0.

(** All accounts, plus the running total of money destroyed as dust
    ([DustRemoval = ()] in runtime/src/lib.rs) or by a deposit that could not
    be credited. *)
Record bank := Bank { accts : gmap N acct; lost : N }.

Definition acct_of (b : bank) (who : N) : acct := default acct0 (accts b !! who).
Definition free_of (b : bank) (who : N) : N := free (acct_of b who).
Definition is_new (a : acct) : bool :=
  (free a =? 0) && (rsv a =? 0) && (frz a =? 0).

(** [try_mutate_account_handling_dust]: store the new data, or remove the
    account and burn the dust when free < ED and nothing is reserved. *)
Definition put (ed : N) (b : bank) (who : N) (a : acct) : bank :=
  if (free a <? ed) && (rsv a =? 0)
  then Bank (delete who (accts b)) (lost b + free a)
  else Bank (<[who := a]> (accts b)) (lost b).

(** [Currency::withdraw] with [KeepAlive] ([keep = true]) or [AllowDeath]. The
    withdrawn value is now the caller's (negative imbalance). *)
Definition withdraw (ed : N) (keep : bool) (b : bank) (who v : N) : option bank :=
  if v =? 0 then Some b else
  let a := acct_of b who in
  if free a <? v then None else
  let nf := free a - v in
  if keep && (nf <? ed) && (ed <=? free a) then None else
  if nf <? frz a then None else
  Some (put ed b who (Acct nf (rsv a) (frz a))).

(** [Currency::deposit_creating]: silently does nothing for a new account
    receiving less than the existential deposit, or on overflow. *)
Definition deposit_creating (ed : N) (b : bank) (who v : N) : bank :=
  if v =? 0 then b else
  let a := acct_of b who in
  if is_new a && (v <? ed) then Bank (accts b) (lost b + v) else
  if two128 <=? free a + v then Bank (accts b) (lost b + v) else
  put ed b who (Acct (free a + v) (rsv a) (frz a)).

(** [Currency::transfer] with [KeepAlive]. *)
Definition transfer_keep (ed : N) (b : bank) (src dst v : N) : option bank :=
  if (v =? 0) || (src =? dst) then Some b else
  let a := acct_of b src in
  if free a <? v then None else
  let nf := free a - v in
  if free a - N.max (frz a - rsv a) ed <? v then None else
  let d := acct_of b dst in
  if free d + rsv d + v <? ed then None else
  if two128 <=? free d + rsv d + v then None else
  let b1 := put ed b src (Acct nf (rsv a) (frz a)) in
  Some (put ed b1 dst (Acct (free d + v) (rsv d) (frz d))).

(** [Currency::transfer] with [AllowDeath], as in the balances pallet's own
    [transfer_allow_death]: the source may be emptied below ED only when it holds
    no reserve and no lock; remaining dust is burnt. *)
Definition transfer_allow (ed : N) (b : bank) (src dst v : N) : option bank :=
  if (v =? 0) || (src =? dst) then Some b else
  let a := acct_of b src in
  if free a <? v then None else
  let nf := free a - v in
  if free a - (frz a - rsv a) <? v then None else
  if (nf <? ed) && negb ((rsv a =? 0) && (frz a =? 0)) then None else
  let d := acct_of b dst in
  if free d + rsv d + v <? ed then None else
  if two128 <=? free d + rsv d + v then None else
  let b1 := put ed b src (Acct nf (rsv a) (frz a)) in
  Some (put ed b1 dst (Acct (free d + v) (rsv d) (frz d))).

(** [ReservableCurrency::reserve]: needs free - value >= max(frozen, ED). *)
Definition reserve (ed : N) (b : bank) (who v : N) : option bank :=
  if v =? 0 then Some b else
  let a := acct_of b who in
  if free a <? v then None else
  let nf := free a - v in
  if nf <? frz a then None else
  if nf <? ed then None else
  Some (put ed b who (Acct nf (rsv a + v) (frz a))).

(** [ReservableCurrency::unreserve]: best effort; returns what could not be
    unreserved. *)
Definition unreserve (ed : N) (b : bank) (who v : N) : bank :=
  if v =? 0 then b else
  let a := acct_of b who in
  let act := N.min (rsv a) v in
  put ed b who (Acct (free a + act) (rsv a - act) (frz a)).

(** [ReservableCurrency::slash_reserved]: best effort; returns the new bank and
    the slashed amount. *)
Definition slash_reserved (ed : N) (b : bank) (who v : N) : bank * N :=
  if v =? 0 then (b, 0) else
  let a := acct_of b who in
  let act := N.min (rsv a) v in
  (put ed b who (Acct (free a) (rsv a - act) (frz a)), act).

(** [LockableCurrency::set_lock] with a single lock: frozen becomes [v]. *)
Definition set_frozen (b : bank) (who v : N) : bank :=
  let a := acct_of b who in
  Bank (<[who := Acct (free a) (rsv a) v]> (accts b)) (lost b).

(** All money the bank accounts for. *)
Definition money (b : bank) : N :=
  msum (fun _ a => free a + rsv a) (accts b) + lost b.
