(** The credit precompile (pallets/precompile-credit/src/lib.rs), its context
    checks (util.rs) and the precompile set (runtime/src/precompiles.rs), on top
    of the credit pallet.

    Bytes and addresses are numbers; an H160 is a number below 2^160. The EVM is
    represented by what a precompile sees of it: the context of a call frame and
    the gas left. Frontier runs a precompile in a storage transaction that is
    undone if the precompile fails; a panic takes down the block. The other
    precompiles of the set are only named. Error texts are omitted. *)
From Verif Require Import Base Balances Model_UserPrivileges Model_Credit.
From stdpp Require Import gmap.
Open Scope N_scope.

(** lib.rs:38-41. *)
Definition BASIC_LEN : nat := 36.
Definition SEL_GET : N := 0x87135d7d.
Definition SEL_ADD : N := 0x5915ad98.
Definition SEL_SLASH : N := 0xa62184b3.

(** [u32::from_be_bytes], [H160::from(&[u8; 20])], [U256::from(&[u8; 32])]. *)
Definition be (l : list N) : N := fold_left (fun a b => a * 256 + b) l 0.
(** [array_ref!(input, offset, len)]. *)
Definition array_ref (input : list N) (off len : nat) : list N := take len (drop off input).
(** [U256::to_big_endian] into 32 bytes. *)
Fixpoint to_be (n : nat) (v : N) : list N :=
  match n with O => [] | S k => to_be k (v / 256) ++ [v mod 256] end.

(** What a precompile sees (fp_evm::PrecompileHandle): code address, caller and
    apparent value of the context, whether the call is static, input, gas left. *)
Record handle := Handle {
  h_code : N; h_caller : N; h_value : N; h_static : bool; h_input : list N; h_gas : N;
}.

(** Gas of one database read and write (util.rs:209-224). *)
Record pcfg := PCfg { pc_read : N; pc_write : N }.

(** fp_evm::PrecompileFailure. *)
Inductive pfail := PError | PRevert | POutOfGas.
(** util.rs:226-235. *)
Inductive modifier := View | NonPayable | Payable.

(** util.rs:306-322 check_function_modifier. *)
Definition check_modifier (h : handle) (m : modifier) : res pfail unit :=
  if h_static h && (match m with View => false | _ => true end) then RErr PRevert else
  if (match m with Payable => false | _ => true end) && (0 <? h_value h) then RErr PRevert else
  ROk tt.

(** lib.rs:179-186 check_input_len. *)
Definition check_len (h : handle) (n : nat) : res pfail unit :=
  if (length (h_input h) <? n)%nat then RErr PError else ROk tt.

(** [handle.record_cost]. *)
Definition record_cost (h : handle) (cost : N) : res pfail unit :=
  if h_gas h <? cost then RErr POutOfGas else ROk tt.

Section model.
  Context (cfg : kcfg) (pc : pcfg).

  (** pallets/credit lib.rs:1377-1381 get_evm_credit_score. *)
  Definition evm_score (s : kstate) (x : kctx) (user : N) : option N :=
    match kx_e2d x user with Some who => credit_score s who | None => None end.

  (** lib.rs:101-124 get_credit_score. *)
  Definition get_score (s : kstate) (x : kctx) (h : handle) : res pfail (kstate * list N) :=
    _u <-? check_len h BASIC_LEN ;
    _u <-? check_modifier h View ;
    let account := be (array_ref (h_input h) (BASIC_LEN - 20) 20) in
    let score := default 0 (evm_score s x account) in
    _u <-? record_cost h (w64 (pc_read pc * 2)) ;
    ROk (s, to_be 32 score).

  (** lib.rs:152-176 do_update_credit; the result of evm_update_credit is dropped. *)
  Definition do_update (s : kstate) (x : kctx) (h : handle) (add : bool) : res pfail kstate :=
    _u <-? check_len h (BASIC_LEN + 32) ;
    _u <-? check_modifier h NonPayable ;
    let account := be (array_ref (h_input h) (BASIC_LEN - 20) 20) in
    let score := w64 (be (array_ref (h_input h) BASIC_LEN 32)) in
    match evm_update cfg s x (h_caller h) account score add with
    | ROk (s', _) => ROk s'
    | RErr _ => ROk s
    | RPanic => RPanic
    end.

  (** lib.rs:126-150 add_credit_score, slash_credit_score. *)
  Definition add_score (s : kstate) (x : kctx) (h : handle) : res pfail (kstate * list N) :=
    s' <-? do_update s x h true ;
    _u <-? record_cost h (w64 (pc_read pc * 2 + pc_write pc)) ;
    ROk (s', []).
  Definition slash_score (s : kstate) (x : kctx) (h : handle) : res pfail (kstate * list N) :=
    s' <-? do_update s x h false ;
    _u <-? record_cost h (w64 (pc_read pc * 4 + pc_write pc * 2)) ;
    ROk (s', []).

  (** lib.rs:68-90 execute. *)
  Definition credit_execute (s : kstate) (x : kctx) (h : handle) : res pfail (kstate * list N) :=
    if (length (h_input h) <? BASIC_LEN)%nat then RErr PError else
    let sel := be (array_ref (h_input h) 0 4) in
    if sel =? SEL_GET then get_score s x h else
    if sel =? SEL_ADD then add_score s x h else
    if sel =? SEL_SLASH then slash_score s x h else RErr PError.

  (** A call of the precompile, with the storage transaction around it. *)
  Definition precompile_step (s : kstate) (x : kctx) (h : handle) : kstate * res pfail (list N) :=
    match credit_execute s x h with
    | ROk (s', out) => (s', ROk out)
    | RErr e => (s, RErr e)
    | RPanic => (s, RPanic)
    end.
End model.

(** runtime/src/precompiles.rs:42-62: the precompile run at an address, by name. *)
Inductive pname :=
| ECRecover | Sha256 | Ripemd160 | Identity | Modexp | Bn128Add | Bn128Mul | Bn128Pairing | Blake2F
| Sha3FIPS256 | ECRecoverPublicKey | Dispatch | Curve25519Add | Curve25519ScalarMul | Ed25519Verify
| CreditDispatch.
Definition set_execute (a : N) : option pname :=
  if a =? 1 then Some ECRecover else if a =? 2 then Some Sha256 else
  if a =? 3 then Some Ripemd160 else if a =? 4 then Some Identity else
  if a =? 5 then Some Modexp else if a =? 6 then Some Bn128Add else
  if a =? 7 then Some Bn128Mul else if a =? 8 then Some Bn128Pairing else
  if a =? 9 then Some Blake2F else if a =? 1024 then Some Sha3FIPS256 else
  if a =? 1025 then Some ECRecoverPublicKey else if a =? 1026 then Some Dispatch else
  if a =? 1027 then Some Curve25519Add else if a =? 1028 then Some Curve25519ScalarMul else
  if a =? 1029 then Some Ed25519Verify else if a =? 1030 then Some CreditDispatch else None.
(** precompiles.rs:27-32 used_addresses, 65-70 is_precompile. *)
Definition used_addresses : list N := [1; 2; 3; 4; 5; 6; 7; 8; 9; 10; 1024; 1025; 1026; 1027; 1028; 1029].
Definition is_precompile (a : N) : bool := existsb (N.eqb a) used_addresses.

(** The four ways a contract reaches another address (evm crate, gasometer and
    stack executor): who the callee sees as caller, and with which value. A
    frame is the contract running, who called it and the value it received. *)
Record frame := Frame { fr_self : N; fr_caller : N; fr_value : N; fr_static : bool }.
Inductive callkind := Call (value : N) | CallCode (value : N) | DelegateCall | StaticCall.
Definition reach (f : frame) (k : callkind) (code : N) (input : list N) (gas : N) : handle :=
  match k with
  | Call v => Handle code (fr_self f) v (fr_static f) input gas
  | CallCode v => Handle code (fr_self f) v (fr_static f) input gas
  | DelegateCall => Handle code (fr_caller f) (fr_value f) (fr_static f) input gas
  | StaticCall => Handle code (fr_self f) 0 true input gas
  end.
(** What happens to the credit pallet when contract code in frame [f] calls [code]. *)
Definition evm_call (cfg : kcfg) (pc : pcfg) (s : kstate) (x : kctx) (f : frame) (k : callkind)
    (code : N) (input : list N) (gas : N) : kstate * option (res pfail (list N)) :=
  match set_execute code with
  | Some CreditDispatch =>
      let '(s', r) := precompile_step cfg pc s x (reach f k code input gas) in (s', Some r)
  | _ => (s, None)
  end.
