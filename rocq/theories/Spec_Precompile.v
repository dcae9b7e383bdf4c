(** Specification vocabulary for C36-C38, C75 and C76: Solidity calldata. *)
From Verif Require Import Base Balances Model_UserPrivileges Model_Credit Model_Precompile Spec_Credit.
From stdpp Require Import gmap.
Open Scope N_scope.

(** The [i]-th of [n] big-endian bytes of [v]. *)
Definition byte_at (n i : nat) (v : N) : N := v / 256 ^ N.of_nat (n - 1 - i) mod 256.
(** [v] as [n] big-endian bytes. *)
Definition bytes_of (n : nat) (v : N) : list N := map (fun i => byte_at n i v) (seq 0 n).
Definition is_bytes (l : list N) : Prop := Forall (fun b => b < 256) l.

(** add_credit_score(address,uint256), slash_credit_score(address,uint256) and
    get_credit_score(address), possibly with more bytes behind. *)
Definition add_data (user amount : N) (rest : list N) : list N :=
  bytes_of 4 0x5915ad98 ++ bytes_of 32 user ++ bytes_of 32 amount ++ rest.
Definition slash_data (user amount : N) (rest : list N) : list N :=
  bytes_of 4 0xa62184b3 ++ bytes_of 32 user ++ bytes_of 32 amount ++ rest.
Definition get_data (user : N) (rest : list N) : list N :=
  bytes_of 4 0x87135d7d ++ bytes_of 32 user ++ rest.

(** The conditions of C36. *)
Definition update_selector (input : list N) : Prop :=
  take 4 input = [0x59; 0x15; 0xad; 0x98] \/ take 4 input = [0xa6; 0x21; 0x84; 0xb3].
Definition may_update (x : kctx) (h : handle) : Prop :=
  update_selector (h_input h) /\ (68 <= length (h_input h))%nat /\
  h_static h = false /\ h_value h = 0 /\ kx_evm_priv x (h_caller h) EvmCreditOperation = true.
