(** Model of how a signed transaction is checked: the tuple SignedExtra, /repo/runtime/src/lib.rs:1666-1675,
    with BlockHashCount of lines 247 and 289, and CreateSignedTransaction, lines 970-1016. The members of the tuple
    ([frame_system::CheckNonZeroSender] .. [CheckNonce]), [generic::UncheckedExtrinsic::check],
    [generic::Era], the block hashes kept by [frame_system] and the removal of a dead account's nonce are
    library code (polkadot-v1.1.0), written down from its published source. What a call does, what
    [CheckWeight] and [ChargeTransactionPayment] do and the verification of a signature are parameters. *)
From Verif Require Import Base.
From stdpp Require Import gmap.
Open Scope N_scope.

(** [generic::Era]. *)
Inductive era := Immortal | Mortal (period phase : N).
(** [Era::birth] at block [n]. *)
Definition birth (e : era) (n : N) : N :=
  match e with
  | Immortal => 0
  | Mortal period phase => (N.max n phase - phase) / period * period + phase
  end.
(** The least power of two that is at least [n] ([next_power_of_two]), n >= 1. *)
Definition next_pow2 (n : N) : N := if n <=? 1 then 1 else 2 ^ (N.log2 (n - 1) + 1).
(** [Era::mortal]. *)
Definition mortal (period current : N) : era :=
  let period := N.min (N.max (next_pow2 period) 4) 65536 in
  let phase := current mod period in
  let quantize := N.max (period / 2 ^ 12) 1 in
  Mortal period (phase / quantize * quantize).

(** lib.rs:247 BlockHashCount. *)
Definition BLOCK_HASH_COUNT : N := 2400.

(** What happens to an entry of [frame_system::Account]: removed with the last provider, made with
    the first, nonce raised. *)
Inductive ev := Killed (a : N) | Created (a : N) | Bumped (a : N).
Definition note (m : gmap N N) (e : ev) : gmap N N :=
  match e with
  | Killed a => delete a m
  | Created a => match m !! a with Some _ => m | None => <[a := 0]> m end
  | Bumped a => <[a := (default 0 (m !! a) + 1) mod two32]> m
  end.

Section extrinsic.
  Context {State Call Sig : Type}.

  (** What is signed: the call, what the tuple puts into the transaction (era, nonce, tip) and what it
      adds from the chain (spec version, transaction version, genesis hash, hash of the birth block). *)
  Record payload := Payload {
    p_call : Call; p_era : era; p_nonce : N; p_tip : N;
    p_spec : N; p_txv : N; p_genesis : N; p_birth : N }.
  Record xt := Xt { x_who : N; x_sig : Sig; x_call : Call; x_era : era; x_nonce : N; x_tip : N }.
  Record sys := Sys { number : N; hashes : gmap N N; nonces : gmap N N; spec : N; txv : N; state : State }.

  Context (verify : payload -> Sig -> N -> bool)
    (charge : State -> N -> Call -> N -> option State)
    (exec : State -> N -> Call -> State * list ev).

  (** [SignedPayload::new]: None when the hash of the birth block is not kept (AncientBirthBlock). *)
  Definition payload_of (s : sys) (call : Call) (e : era) (nonce tip : N) : option payload :=
    bh ← hashes s !! birth e (number s);
    Some (Payload call e nonce tip (spec s) (txv s) (default 0 (hashes s !! 0)) bh).

  (** [Executive::apply_extrinsic] of a signed transaction; None: not included in the block. *)
  Definition apply (s : sys) (x : xt) : option (sys * list ev) :=
    p ← payload_of s (x_call x) (x_era x) (x_nonce x) (x_tip x);
    if negb (verify p (x_sig x) (x_who x)) then None else
    if x_who x =? 0 then None else
    if negb (default 0 (nonces s !! x_who x) =? x_nonce x) then None else
    st ← charge (state s) (x_who x) (x_call x) (x_tip x);
    let '(st', evs) := exec st (x_who x) (x_call x) in
    let log := Bumped (x_who x) :: evs in
    Some (Sys (number s) (hashes s) (foldl note (nonces s) log) (spec s) (txv s) st', log).

  (** A signed transaction, the end of a block and the start of the next, a runtime upgrade, anything
      else (hooks, unsigned and Ethereum transactions). *)
  Inductive step := SApply (x : xt) | SBlock (hash : N) | SUpgrade (spec txv : N) | SOther (st : State) (evs : list ev).
  (** [frame_system::finalize] drops one old hash, never that of block 0; [initialize] notes the parent's. *)
  Definition next_block (s : sys) (h : N) : sys :=
    let old := number s - BLOCK_HASH_COUNT - 1 in
    let kept := if old =? 0 then hashes s else delete old (hashes s) in
    Sys (number s + 1) (<[number s := h]> kept) (nonces s) (spec s) (txv s) (state s).
  Definition do_step (s : sys) (t : step) : sys * list ev :=
    match t with
    | SApply x => default (s, []) (apply s x)
    | SBlock h => (next_block s h, [])
    | SUpgrade sp tv => (Sys (number s) (hashes s) (nonces s) sp tv (state s), [])
    | SOther st evs => (Sys (number s) (hashes s) (foldl note (nonces s) evs) (spec s) (txv s) st, evs)
    end.
  Fixpoint run (s : sys) (l : list step) : sys * list ev :=
    match l with
    | [] => (s, [])
    | t :: l => let '(s, e) := do_step s t in let '(s, e') := run s l in (s, e ++ e')
    end.
  (** Block 1 begins on the genesis block. *)
  Definition start (genesis : N) (m : gmap N N) (sp tv : N) (st : State) : sys := Sys 1 {[0 := genesis]} m sp tv st.

  (** lib.rs:970-1016: the transaction an offchain worker makes; [sign] makes the signature. *)
  Definition create_signed (sign : payload -> Sig) (s : sys) (who : N) (call : Call) (nonce : N) : option xt :=
    let period := next_pow2 BLOCK_HASH_COUNT / 2 in
    let e := mortal period (number s - 1) in
    p ← payload_of s call e nonce 0;
    Some (Xt who (sign p) call e nonce 0).
End extrinsic.
Arguments payload : clear implicits. Arguments xt : clear implicits. Arguments sys : clear implicits. Arguments step : clear implicits.
