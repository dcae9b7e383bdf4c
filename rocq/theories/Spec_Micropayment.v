(** Specification vocabulary for the micropayment properties, stated over
    storage values and emitted events only. *)
From Verif Require Import Base Balances Model_Micropayment.
From stdpp Require Import gmap.
Open Scope N_scope.

(** Sum of the balances of all open channels. *)
Definition sum_channels (s : mstate) : N := msum (fun _ ch => c_balance ch) (m_chan s).

(** Sum of the balances of the open channels of one client. *)
Definition sum_channels_of (s : mstate) (client : N) : N :=
  msum (fun k ch => if k.1 =? client then c_balance ch else 0) (m_chan s).

(** Everything: accounts (free and reserved), channels, fees passed to the slash
    handler, and money destroyed as dust. *)
Definition all_money (s : mstate) : N :=
  msum (fun _ a => free a + rsv a) (accts (m_bank s)) + sum_channels s
  + m_slashed s + lost (m_bank s).

(** The client's recorded total. *)
Definition recorded_total (s : mstate) (client : N) : N := default 0 (m_total s !! client).

(** What the events say about channel (c, v): what the client put in since the
    channel was opened, and what the server was paid since; None when closed. *)
Definition book (c v : N) (acc : option (N * N)) (e : mevent) : option (N * N) :=
  match e with
  | ChannelOpened c' v' a _ _ _ => if (c =? c') && (v =? v') then Some (a, 0) else acc
  | BalanceAdded c' v' a _ =>
      if (c =? c') && (v =? v')
      then match acc with Some (l, p) => Some (l + a, p) | None => None end else acc
  | ClaimPayment c' v' a =>
      if (c =? c') && (v =? v')
      then match acc with Some (l, p) => Some (l, p + a) | None => None end else acc
  | ChannelClosed c' v' _ => if (c =? c') && (v =? v') then None else acc
  | Transfer _ _ _ => acc
  end.
Definition channel_book (c v : N) (evs : list mevent) : option (N * N) :=
  fold_left (book c v) evs None.

(** In state [s], operation [o] is a claim by server [v] on client [c] that pays,
    for the voucher with this channel nonce and session. *)
Definition pays (cfg : mcfg) (verify : N -> list N -> list N -> bool)
    (s : mstate) (o : mop) (c v nonce session : N) : Prop :=
  exists amount sig ch,
    o.1.2 = v /\ o.2 = MClaim c session amount sig /\
    m_chan s !! (c, v) = Some ch /\ c_nonce ch = nonce /\
    snd (mstep cfg verify s o.1.1 o.1.2 o.2) = ROk [ClaimPayment c v amount].

(** The fee charged on every payout. *)
Definition fee_of (cfg : mcfg) (amount : N) : N := frac_mul (m_burn cfg) PERCENT amount.

(** What has to hold of an account for a payout of [amount] to it to go through:
    nothing is charged; or the account keeps its locked money and, after the fee,
    the existential deposit (or it is kept alive by money reserved in it). *)
Definition payable (cfg : mcfg) (b : bank) (who amount : N) : Prop :=
  let a := acct_of b who in
  let after := free a + amount - fee_of cfg amount in
  fee_of cfg amount = 0 \/
  (frz a <= after /\ (m_ed cfg <= after \/ (free a + amount < m_ed cfg /\ rsv a <> 0))).
