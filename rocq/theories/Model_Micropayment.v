(** Model of /repo/pallets/micropayment/src/lib.rs. *)
From Verif Require Import Base Balances.
From stdpp Require Import gmap.
Open Scope N_scope.

(** Runtime constants (lib.rs:50-75 Config; runtime/src/lib.rs impl): existential
    deposit, seconds per block (5), burn percentage (10), and the order in which
    storage iteration visits the servers of one client (hash order). *)
Record mcfg := MCfg {
  m_ed : N;
  m_secs : N;
  m_burn : N;
  m_hkey : N -> N;
}.

(** lib.rs:100-107 Chan. Client and server are the key of the channel map; the
    code stores them again and never changes them. *)
Record chan := Chan {
  c_client : N;
  c_server : N;
  c_balance : N;
  c_nonce : N;
  c_opened : N;
  c_expiration : N;
}.

(** lib.rs:131-160 storage, plus the bank and the running total of fees handed
    to [T::Slash] (the treasury in the runtime; its account is kept outside). *)
Record mstate := MState {
  m_bank : bank;
  m_chan : gmap (N * N) chan;      (* Channel, key (client, server) *)
  m_nonce : gmap (N * N) N;        (* Nonce, u64, default 0 *)
  m_sess : gmap (N * N) N;         (* SessionId, u32 *)
  m_total : gmap N N;              (* TotalMicropaymentChannelBalance *)
  m_slashed : N;
}.

(** lib.rs:181-197 errors; [WithdrawFailed] stands for the balances error passed
    on by [deposit_into_account]. *)
Inductive merr :=
| NotEnoughBalance
| ChannelNotExist
| ChannelAlreadyOpened
| UnexpiredChannelCannotBeClosedBySender
| SameChannelEnds
| SessionError
| InvalidSignature
| WithdrawFailed.

(** lib.rs:164-179 events. *)
Inductive mevent :=
| ChannelOpened (client server amount nonce start expiration : N)
| ChannelClosed (client server block : N)
| ClaimPayment (client server amount : N)
| BalanceAdded (client server amount block : N)
| Transfer (from to amount : N).                         (* pallet_balances *)

(** The dispatchables. The origin is always a signed account: any other origin
    fails in [ensure_signed] with no effect. *)
Inductive mcall :=
| MOpen (server amount duration : N)                     (* lib.rs:212 *)
| MClose (account : N)                                   (* lib.rs:263 *)
| MCloseExpired                                          (* lib.rs:326 *)
| MAdd (server amount : N)                               (* lib.rs:352 *)
| MClaim (client session amount : N) (sig : list N)      (* lib.rs:381 *)
| MTransfer (dest amount : N).   (* pallet_balances transfer_allow_death: lets histories
                                    interleave ordinary transfers *)

(** What a call reads from the chain around it: the block number (u32) and the
    deeper-node pallet's [get_eras_offline]. *)
Record mctx := MCtx { x_now : N; x_offline : N -> N }.

(** Big-endian bytes, [k] of them ([to_be_bytes]). *)
Fixpoint be_bytes (k : nat) (x : N) : list N :=
  match k with
  | O => []
  | S k' => be_bytes k' (x / 256) ++ [x mod 256]
  end.
(** Little-endian bytes (SCALE encoding of an unsigned integer). *)
Fixpoint le_bytes (k : nat) (x : N) : list N :=
  match k with
  | O => []
  | S k' => (x mod 256) :: le_bytes k' (x / 256)
  end.

(** lib.rs:507-520 construct_byte_array_and_hash: the bytes that are hashed. The
    account id is the number whose 32 big-endian bytes are the public key. *)
Definition voucher_bytes (server nonce session amount : N) : list N :=
  be_bytes 32 server ++ be_bytes 8 nonce ++ be_bytes 4 session ++ le_bytes 16 amount.

Section model.
  Variable cfg : mcfg.
  (** Oracle for blake2_256 followed by sr25519_verify (lib.rs:488-500): client
      public key, message bytes, signature bytes (a malformed signature is
      replaced by zeros in the code; the oracle sees the raw bytes). *)
  Variable verify : N -> list N -> list N -> bool.

  Definition chan_get (s : mstate) (c v : N) : option chan := m_chan s !! (c, v).
  Definition nonce_get (s : mstate) (c v : N) : N := default 0 (m_nonce s !! (c, v)).

  (** lib.rs:523-531 take_from_account. *)
  Definition take_from_account (b : bank) (who amount : N) : option bank :=
    withdraw (m_ed cfg) true b who amount.

  (** lib.rs:535-549 deposit_into_account: credit the amount, then withdraw the
      burn fee and hand it to the slash handler. *)
  Definition deposit_into_account (s : mstate) (who amount : N) : res merr mstate :=
    let b1 := deposit_creating (m_ed cfg) (m_bank s) who amount in
    let fee := frac_mul (m_burn cfg) PERCENT amount in
    match withdraw (m_ed cfg) true b1 who fee with
    | None => RErr WithdrawFailed
    | Some b2 => ROk (MState b2 (m_chan s) (m_nonce s) (m_sess s) (m_total s) (m_slashed s + fee))
    end.

  (** lib.rs:467-474 _close_channel. *)
  Definition close_rec (s : mstate) (c v : N) : mstate :=
    MState (m_bank s) (delete (c, v) (m_chan s))
      (<[(c, v) := add64 (nonce_get s c v) 1]> (m_nonce s))
      (delete (c, v) (m_sess s)) (m_total s) (m_slashed s).

  (** lib.rs:275-283 and its six copies: the recorded total goes down by [x], the
      entry is removed when nothing is left. *)
  Definition total_sub (s : mstate) (c x : N) : mstate :=
    let t := default 0 (m_total s !! c) in
    MState (m_bank s) (m_chan s) (m_nonce s) (m_sess s)
      (if x <? t then <[c := t - x]> (m_total s) else delete c (m_total s)) (m_slashed s).

  (** lib.rs:241-248, 369-372. *)
  Definition total_add (s : mstate) (c x : N) : mstate :=
    MState (m_bank s) (m_chan s) (m_nonce s) (m_sess s)
      (<[c := add128 (default 0 (m_total s !! c)) x]> (m_total s)) (m_slashed s).

  (** lib.rs:275-288, 298-310, 331-343, 399-411: refund the client and close. *)
  Definition refund_and_close (s : mstate) (now c v : N) (ch : chan)
      : res merr (mstate * mevent) :=
    s1 <-? deposit_into_account (total_sub s c (c_balance ch)) c (c_balance ch) ;
    ROk (close_rec s1 c v, ChannelClosed c v now).

  (** lib.rs:212-258 open_channel. *)
  Definition open_channel (s : mstate) (x : mctx) (client server amount duration : N)
      : res merr (mstate * list mevent) :=
    match chan_get s client server with
    | Some _ => RErr ChannelAlreadyOpened
    | None =>
        if client =? server then RErr SameChannelEnds else
        let nonce := nonce_get s client server in
        let exp := add32 (x_now x) (duration / m_secs cfg) in
        match take_from_account (m_bank s) client amount with
        | None => RErr NotEnoughBalance
        | Some b =>
            let s1 := MState b
                        (<[(client, server) := Chan client server amount nonce (x_now x) exp]> (m_chan s))
                        (m_nonce s) (m_sess s) (m_total s) (m_slashed s) in
            ROk (total_add s1 client amount,
                 [ChannelOpened client server amount nonce (x_now x) exp])
        end
    end.

  (** lib.rs:263-320 close_channel. *)
  Definition close_channel (s : mstate) (x : mctx) (signer acc : N)
      : res merr (mstate * list mevent) :=
    match chan_get s acc signer with
    | Some ch =>
        r <-? refund_and_close s (x_now x) acc signer ch ; ROk (fst r, [snd r])
    | None =>
        match chan_get s signer acc with
        | Some ch =>
            if (c_expiration ch <? x_now x) || (1 <=? x_offline x (c_server ch))
            then r <-? refund_and_close s (x_now x) signer acc ch ; ROk (fst r, [snd r])
            else RErr UnexpiredChannelCannotBeClosedBySender
        | None => RErr ChannelNotExist
        end
    end.

  (** lib.rs:328 iter_prefix over one client's channels: storage order is the
      order of the hashed server keys. *)
  Definition channels_of (s : mstate) (client : N) : list ((N * N) * chan) :=
    ksort (fun kv : (N * N) * chan => m_hkey cfg kv.1.2)
      (filter (fun kv : (N * N) * chan => kv.1.1 = client) (map_to_list (m_chan s))).

  (** lib.rs:328-345 loop. *)
  Fixpoint close_loop (s : mstate) (now client : N) (l : list ((N * N) * chan)) (ev : list mevent)
      : res merr (mstate * list mevent) :=
    match l with
    | [] => ROk (s, ev)
    | (k, ch) :: l' =>
        if c_expiration ch <? now then
          r <-? refund_and_close s now client k.2 ch ;
          close_loop (fst r) now client l' (ev ++ [snd r])
        else close_loop s now client l' ev
    end.

  (** lib.rs:326-347 close_expired_channels. *)
  Definition close_expired_channels (s : mstate) (x : mctx) (client : N)
      : res merr (mstate * list mevent) :=
    close_loop s (x_now x) client (channels_of s client) [].

  (** lib.rs:352-376 add_balance. *)
  Definition add_balance (s : mstate) (x : mctx) (client server amount : N)
      : res merr (mstate * list mevent) :=
    match chan_get s client server with
    | None => RErr ChannelNotExist
    | Some ch =>
        match take_from_account (m_bank s) client amount with
        | None => RErr NotEnoughBalance
        | Some b =>
            let ch' := Chan (c_client ch) (c_server ch) (add128 (c_balance ch) amount)
                         (c_nonce ch) (c_opened ch) (c_expiration ch) in
            let s1 := MState b (<[(client, server) := ch']> (m_chan s))
                        (m_nonce s) (m_sess s) (m_total s) (m_slashed s) in
            ROk (total_add s1 client amount, [BalanceAdded client server amount (x_now x)])
        end
    end.

  (** lib.rs:381-462 claim_payment. *)
  Definition claim_payment (s : mstate) (x : mctx) (server client session amount : N)
      (sig : list N) : res merr (mstate * list mevent) :=
    match chan_get s client server with
    | None => RErr ChannelNotExist
    | Some ch =>
        if c_expiration ch <? x_now x then
          r <-? refund_and_close s (x_now x) client server ch ; ROk (fst r, [snd r])
        else
        let last := m_sess s !! (client, server) in
        if match last with Some k => negb (session =? add32 k 1) | None => false end
        then RErr SessionError else
        if negb (verify client (voucher_bytes server (c_nonce ch) session amount) sig)
        then RErr InvalidSignature else
        let s1 := MState (m_bank s) (m_chan s) (m_nonce s)
                    (<[(client, server) := session]> (m_sess s)) (m_total s) (m_slashed s) in
        if c_balance ch <? amount then
          (* lib.rs:424-445: pay the rest, close, and then return an error *)
          s2 <-? deposit_into_account (total_sub s1 client (c_balance ch)) server (c_balance ch) ;
          let _ := close_rec s2 client server in
          RErr NotEnoughBalance
        else
        let ch' := Chan (c_client ch) (c_server ch) (c_balance ch - amount)
                     (c_nonce ch) (c_opened ch) (c_expiration ch) in
        let s2 := MState (m_bank s1) (<[(client, server) := ch']> (m_chan s1))
                    (m_nonce s1) (m_sess s1) (m_total s1) (m_slashed s1) in
        s3 <-? deposit_into_account (total_sub s2 client amount) server amount ;
        ROk (s3, [ClaimPayment client server amount])
    end.

  (** pallet_balances transfer_allow_death. *)
  Definition transfer_call (s : mstate) (src dst amount : N) : res merr (mstate * list mevent) :=
    match transfer_allow (m_ed cfg) (m_bank s) src dst amount with
    | None => RErr WithdrawFailed
    | Some b => ROk (MState b (m_chan s) (m_nonce s) (m_sess s) (m_total s) (m_slashed s),
                     [Transfer src dst amount])
    end.

  Definition mexec (s : mstate) (x : mctx) (caller : N) (c : mcall)
      : res merr (mstate * list mevent) :=
    match c with
    | MOpen server amount duration => open_channel s x caller server amount duration
    | MClose acc => close_channel s x caller acc
    | MCloseExpired => close_expired_channels s x caller
    | MAdd server amount => add_balance s x caller server amount
    | MClaim client session amount sig => claim_payment s x caller client session amount sig
    | MTransfer dest amount => transfer_call s caller dest amount
    end.

  (** Transactional dispatch ([#[pallet::call]]): an error or panic leaves the
      state as it was. *)
  Definition mstep (s : mstate) (x : mctx) (caller : N) (c : mcall)
      : mstate * res merr (list mevent) :=
    match mexec s x caller c with
    | ROk (s', ev) => (s', ROk ev)
    | RErr e => (s, RErr e)
    | RPanic => (s, RPanic)
    end.

  (** One entry of a history: the surroundings, the caller and the call. *)
  Definition mop : Type := mctx * N * mcall.

  Definition mdo (s : mstate) (o : mop) : mstate := fst (mstep s o.1.1 o.1.2 o.2).

  (** State after a history. *)
  Definition mrun (s : mstate) (h : list mop) : mstate := fold_left mdo h s.

  (** Events emitted by a history, oldest first. *)
  Fixpoint mevents (s : mstate) (h : list mop) : list mevent :=
    match h with
    | [] => []
    | o :: h' =>
        (match snd (mstep s o.1.1 o.1.2 o.2) with ROk ev => ev | _ => [] end)
          ++ mevents (mdo s o) h'
    end.

  (** Genesis: any balances, no channels. *)
  Definition minit (b : bank) : mstate := MState b ∅ ∅ ∅ ∅ 0.
End model.
