(** Model of /repo/pallets/user-privileges/src/lib.rs and
    /repo/primitives/src/user_privileges.rs. *)
From Verif Require Import Base.
From stdpp Require Import gmap.
Open Scope N_scope.

(** primitives/src/user_privileges.rs:22-50 Privilege. *)
Inductive privilege :=
| LockerMember | ReleaseSetter | EvmAddressSetter | EvmCreditOperation
| NpowMint | CreditAdmin | TipPayer | BridgeAdmin | OracleWorker
| DeviceAdmin | BlackListAdmin | AdstAdmin.

Global Instance privilege_eq_dec : EqDecision privilege.
Proof. solve_decision. Defined.

(** user_privileges.rs:27-49 codec index. *)
Definition pindex (p : privilege) : N :=
  match p with
  | LockerMember => 0 | ReleaseSetter => 1 | EvmAddressSetter => 2
  | EvmCreditOperation => 3 | NpowMint => 4 | CreditAdmin => 5
  | TipPayer => 6 | BridgeAdmin => 7 | OracleWorker => 8
  | DeviceAdmin => 9 | BlackListAdmin => 10 | AdstAdmin => 11
  end.

(** user_privileges.rs:27-49 flag value [1 << i]. *)
Definition pbit (p : privilege) : N :=
  match p with
  | LockerMember => 1 | ReleaseSetter => 2 | EvmAddressSetter => 4
  | EvmCreditOperation => 8 | NpowMint => 16 | CreditAdmin => 32
  | TipPayer => 64 | BridgeAdmin => 128 | OracleWorker => 256
  | DeviceAdmin => 512 | BlackListAdmin => 1024 | AdstAdmin => 2048
  end.

(** enumflags2: all declared bits of the flag type. *)
Definition all_bits : N := 4095.

(** user_privileges.rs:63-67 [Privileges::encode]: the u64 word, little endian
    ([n] bytes of [w]). *)
Fixpoint le_bytes (n : nat) (w : N) : list N :=
  match n with O => [] | S m => w mod 256 :: le_bytes m (w / 256) end.
Definition encode_privileges (w : N) : list N := le_bytes 8 w.

Fixpoint le_word (bs : list N) : N :=
  match bs with [] => 0 | b :: r => b + 256 * le_word r end.

(** user_privileges.rs:71-78 [Privileges::decode]: reads 8 bytes; a word with an
    undeclared bit is an error. Returns the word and the rest of the input. *)
Definition decode_privileges (bs : list N) : option (N * list N) :=
  if (length bs <? 8)%nat then None
  else let w := le_word (take 8 bs) in
       if N.land w all_bits =? w then Some (w, drop 8 bs) else None.

(** user_privileges.rs:24,26-48 derived codec of one [Privilege]: one index byte. *)
Definition encode_privilege (p : privilege) : list N := [pindex p].
Definition decode_privilege (bs : list N) : option (privilege * list N) :=
  match bs with
  | [] => None
  | b :: r =>
      option_map (fun p => (p, r))
        (if b =? 0 then Some LockerMember else if b =? 1 then Some ReleaseSetter
         else if b =? 2 then Some EvmAddressSetter else if b =? 3 then Some EvmCreditOperation
         else if b =? 4 then Some NpowMint else if b =? 5 then Some CreditAdmin
         else if b =? 6 then Some TipPayer else if b =? 7 then Some BridgeAdmin
         else if b =? 8 then Some OracleWorker else if b =? 9 then Some DeviceAdmin
         else if b =? 10 then Some BlackListAdmin else if b =? 11 then Some AdstAdmin
         else None)
  end.

(** lib.rs:41-45 Releases. *)
Inductive release := V1_0_0 | V2_0_0.

(** lib.rs:78-89 storage. The maps hold the flag words. *)
Record ustate := UState {
  u_user : gmap N N;
  u_evm : gmap N N;
  u_version : option release;
}.

(** lib.rs:69-75 errors, plus a rejected origin. *)
Inductive uerr := NotExistPrivilege | NoPermission | BadOrigin.

(** lib.rs:60-67 events. *)
Inductive uevent :=
| UserPrivilegeSet (who : N) (p : privilege)
| UserPrivilegeUnSet (who : N) (p : privilege)
| UserPrivilegeClear (who : N)
| EvmPrivilegeSet (who : N) (p : privilege)
| EvmPrivilegeUnSet (who : N) (p : privilege)
| EvmPrivilegeClear (who : N).

(** lib.rs:144-262 dispatchables. Address lookup is the identity. *)
Inductive ucall :=
| USetUser (who : N) (p : privilege)
| UUnsetUser (who : N) (p : privilege)
| UClearUser (who : N)
| USetEvm (who : N) (p : privilege)
| UUnsetEvm (who : N) (p : privilege)
| UClearEvm (who : N).

(** enumflags2 [contains]. *)
Definition contains (w : N) (p : privilege) : bool := N.land w (pbit p) =? pbit p.

(** lib.rs:266-272 has_privilege. *)
Definition has_privilege (s : ustate) (who : N) (p : privilege) : bool :=
  match u_user s !! who with None => false | Some w => contains w p end.

(** lib.rs:274-280 has_evm_privilege. *)
Definition has_evm_privilege (s : ustate) (who : N) (p : privilege) : bool :=
  match u_evm s !! who with None => false | Some w => contains w p end.

(** runtime/src/lib.rs:513 [ForceOrigin = EnsureRoot]. *)
Definition ensure_force (o : origin) : res uerr unit :=
  match o with Root => ROk tt | _ => RErr BadOrigin end.

Definition ensure_signed (o : origin) : res uerr N :=
  match o with Signed a => ROk a | _ => RErr BadOrigin end.

(** lib.rs:155-161, 216-222: the new word when a flag is added. *)
Definition add_flag (old : option N) (p : privilege) : N :=
  match old with Some w => N.lor w (pbit p) | None => pbit p end.

(** lib.rs:182-183, 243-244: [BitFlags::remove]. *)
Definition remove_flag (w : N) (p : privilege) : N := N.ldiff w (pbit p).

(** lib.rs:148-166 set_user_privilege. *)
Definition set_user_privilege (s : ustate) (o : origin) (who : N) (p : privilege) :=
  _u <-? ensure_force o ;
  ROk (UState (<[who := add_flag (u_user s !! who) p]> (u_user s)) (u_evm s) (u_version s),
       UserPrivilegeSet who p).

(** lib.rs:171-187 unset_user_privilege. *)
Definition unset_user_privilege (s : ustate) (o : origin) (who : N) (p : privilege) :=
  _u <-? ensure_force o ;
  match u_user s !! who with
  | None => RErr NotExistPrivilege
  | Some w =>
      ROk (UState (<[who := remove_flag w p]> (u_user s)) (u_evm s) (u_version s),
           UserPrivilegeUnSet who p)
  end.

(** lib.rs:192-200 clear_user_privilege. *)
Definition clear_user_privilege (s : ustate) (o : origin) (who : N) :=
  _u <-? ensure_force o ;
  ROk (UState (delete who (u_user s)) (u_evm s) (u_version s), UserPrivilegeClear who).

(** lib.rs:205-224 set_evm_privilege. *)
Definition set_evm_privilege (s : ustate) (o : origin) (who : N) (p : privilege) :=
  sender <-? ensure_signed o ;
  _u <-? ensure (has_privilege s sender EvmAddressSetter) NoPermission ;
  ROk (UState (u_user s) (<[who := add_flag (u_evm s !! who) p]> (u_evm s)) (u_version s),
       EvmPrivilegeSet who p).

(** lib.rs:229-248 unset_evm_privilege. *)
Definition unset_evm_privilege (s : ustate) (o : origin) (who : N) (p : privilege) :=
  sender <-? ensure_signed o ;
  _u <-? ensure (has_privilege s sender EvmAddressSetter) NoPermission ;
  match u_evm s !! who with
  | None => RErr NotExistPrivilege
  | Some w =>
      ROk (UState (u_user s) (<[who := remove_flag w p]> (u_evm s)) (u_version s),
           EvmPrivilegeUnSet who p)
  end.

(** lib.rs:253-262 clear_evm_privilege. *)
Definition clear_evm_privilege (s : ustate) (o : origin) (who : N) :=
  sender <-? ensure_signed o ;
  _u <-? ensure (has_privilege s sender EvmAddressSetter) NoPermission ;
  ROk (UState (u_user s) (delete who (u_evm s)) (u_version s), EvmPrivilegeClear who).

Definition uexec (s : ustate) (o : origin) (c : ucall) : res uerr (ustate * uevent) :=
  match c with
  | USetUser who p => set_user_privilege s o who p
  | UUnsetUser who p => unset_user_privilege s o who p
  | UClearUser who => clear_user_privilege s o who
  | USetEvm who p => set_evm_privilege s o who p
  | UUnsetEvm who p => unset_evm_privilege s o who p
  | UClearEvm who => clear_evm_privilege s o who
  end.

(** Transactional dispatch. *)
Definition ustep (s : ustate) (o : origin) (c : ucall) : ustate * res uerr uevent :=
  match uexec s o c with
  | ROk (s', ev) => (s', ROk ev)
  | RErr e => (s, RErr e)
  | RPanic => (s, RPanic)
  end.

Definition urun (s : ustate) (h : list (origin * ucall)) : ustate :=
  fold_left (fun s x => fst (ustep s x.1 x.2)) h s.

(** Genesis: no privileges. *)
Definition uinit : ustate := UState ∅ ∅ None.

(** What the old storage of the operation, tips and credit pallets says
    (lib.rs:99-116, 119-133). *)
Record old_roles := OldRoles {
  old_lockers : option (list N);        (* Operation LockMemberWhiteList *)
  old_release_setter : option N;        (* Operation ReleasePaymentAddress *)
  old_tip_payer : option N;             (* Tips TipPaymentAddress *)
  old_credit_admin : option N;          (* Credit CreditAdmin *)
}.

(** [UserPrivileges::insert(who, Privileges(p.into()))]: overwrites. *)
Definition grant_only (m : gmap N N) (who : N) (p : privilege) : gmap N N :=
  <[who := pbit p]> m.

Definition grant_opt (m : gmap N N) (who : option N) (p : privilege) : gmap N N :=
  match who with Some w => grant_only m w p | None => m end.

(** lib.rs:93-141 on_runtime_upgrade. *)
Definition on_runtime_upgrade (s : ustate) (old : old_roles) : ustate :=
  match u_version s with
  | None =>
      let m1 := fold_left (fun m l => grant_only m l LockerMember)
                  (default [] (old_lockers old)) (u_user s) in
      UState (grant_opt m1 (old_release_setter old) ReleaseSetter) (u_evm s) (Some V1_0_0)
  | Some V1_0_0 =>
      let m1 := grant_opt (u_user s) (old_tip_payer old) TipPayer in
      UState (grant_opt m1 (old_credit_admin old) CreditAdmin) (u_evm s) (Some V2_0_0)
  | Some V2_0_0 => s
  end.
