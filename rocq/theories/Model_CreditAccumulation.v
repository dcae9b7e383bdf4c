(** Model of /repo/pallets/credit-accumulation/src/lib.rs. *)
From Verif Require Import Base.
From stdpp Require Import gmap.
Open Scope N_scope.

(** lib.rs:79-91 storage. Accounts are 32-byte strings, held as numbers below
    2^256. [a_credited] records, newest first, the calls made to
    [CreditInterface::update_credit_by_traffic] (the credit pallet itself is
    modelled in Model_Credit.v). *)
Record astate := AState {
  a_nonce : gmap N N;
  a_key : option N;
  a_tmp : option N;
  a_credited : list N;
}.

(** lib.rs:100-106 errors, and a rejected origin. *)
Inductive aerr := AInvalidSignature | AInvalidNonce | ABadOrigin.

(** lib.rs:112-157 dispatchables. *)
Inductive acall :=
| AAddCredit (nonce : N) (signature : list N)
| ASetKey (key : N)
| ASetTmp (key : N).

(** [n] bytes of [w], most significant first ([to_be_bytes], and the encoding
    of an account). *)
Fixpoint be_bytes (n : nat) (w : N) : list N :=
  match n with O => [] | S m => be_bytes m (w / 256) ++ [w mod 256] end.

Definition account_bytes (a : N) : list N := be_bytes 32 a.
Definition nonce_bytes (n : N) : list N := be_bytes 8 n.

(** lib.rs:195-199: the bytes that are hashed and signed. *)
Definition claim_bytes (key nonce sender : N) : list N :=
  account_bytes key ++ nonce_bytes nonce ++ account_bytes sender.

(** lib.rs:194,203: [Signature::from_slice], with zeros for a wrong length. *)
Definition sig_of (s : list N) : list N :=
  if (length s =? 64)%nat then s else repeat 0 64.

Section model.
  (** sr25519 verification of a 32-byte message under a key, and blake2_256. *)
  Context (verify : N -> list N -> list N -> bool) (hash : list N -> list N).

  (** lib.rs:185-209 do_verify. *)
  Definition do_verify (nonce : N) (signature : list N) (sender key : N) : bool :=
    verify key (hash (claim_bytes key nonce sender)) (sig_of signature).

  (** lib.rs:159-172 verify_atomos_signature; an unset key is the zero account. *)
  Definition verify_atomos_signature (s : astate) (nonce : N) (signature : list N)
      (sender : N) : bool :=
    if do_verify nonce signature sender (default 0 (a_key s)) then true
    else do_verify nonce signature sender (default 0 (a_tmp s)).

  (** lib.rs:174-183 verify_atomos_new_signature. *)
  Definition verify_atomos_new_signature (s : astate) (nonce : N) (signature : list N)
      (sender : N) : bool :=
    do_verify nonce signature sender (default 0 (a_key s)).

  (** lib.rs:115-135 add_credit_by_traffic. *)
  Definition add_credit_by_traffic (s : astate) (o : origin) (nonce : N) (signature : list N)
      : res aerr astate :=
    match o with
    | Signed server =>
        let cur := default 0 (a_nonce s !! server) in
        _u <-? ensure (nonce =? cur) AInvalidNonce ;
        _u <-? ensure (verify_atomos_signature s nonce signature server) AInvalidSignature ;
        ROk (AState (<[server := add64 cur 1]> (a_nonce s)) (a_key s) (a_tmp s)
               (server :: a_credited s))
    | _ => RErr ABadOrigin
    end.

  (** lib.rs:139-146 set_atmos_pubkey, 150-157 set_atmos_tmp_pubkey. *)
  Definition aexec (s : astate) (o : origin) (c : acall) : res aerr astate :=
    match c with
    | AAddCredit nonce sg => add_credit_by_traffic s o nonce sg
    | ASetKey k =>
        match o with
        | Root => ROk (AState (a_nonce s) (Some k) (a_tmp s) (a_credited s))
        | _ => RErr ABadOrigin
        end
    | ASetTmp k =>
        match o with
        | Root => ROk (AState (a_nonce s) (a_key s) (Some k) (a_credited s))
        | _ => RErr ABadOrigin
        end
    end.

  (** Transactional dispatch. *)
  Definition astep (s : astate) (o : origin) (c : acall) : astate * res aerr unit :=
    match aexec s o c with
    | ROk s' => (s', ROk tt)
    | RErr e => (s, RErr e)
    | RPanic => (s, RPanic)
    end.
  Definition ado (s : astate) (x : origin * acall) : astate := fst (astep s x.1 x.2).
  Definition arun (s : astate) (h : list (origin * acall)) : astate := fold_left ado h s.
End model.

(** Genesis. *)
Definition ainit : astate := AState ∅ None None [].
