(** Specification of privileges as plain sets: who holds what is a yes/no
    question for every pair of account and privilege. *)
From Verif Require Import Base Model_UserPrivileges.
From stdpp Require Import gmap.
Open Scope N_scope.

(** The two relations "account holds privilege" and "EVM address holds privilege". *)
Record holds := Holds {
  acc_holds : N -> privilege -> bool;
  evm_holds : N -> privilege -> bool;
}.

Definition nobody : holds := Holds (fun _ _ => false) (fun _ _ => false).

Definition rel_add (r : N -> privilege -> bool) (who : N) (p : privilege) : N -> privilege -> bool :=
  fun a q => if bool_decide (a = who /\ q = p) then true else r a q.
Definition rel_remove (r : N -> privilege -> bool) (who : N) (p : privilege) : N -> privilege -> bool :=
  fun a q => if bool_decide (a = who /\ q = p) then false else r a q.
Definition rel_clear (r : N -> privilege -> bool) (who : N) : N -> privilege -> bool :=
  fun a q => if bool_decide (a = who) then false else r a q.

(** What one call may do to the two relations. Only root changes the first; only a
    holder of [EvmAddressSetter] changes the second. *)
Definition spec_call (h : holds) (o : origin) (c : ucall) : holds :=
  let setter := match o with Signed a => acc_holds h a EvmAddressSetter | _ => false end in
  let root := match o with Root => true | _ => false end in
  match c with
  | USetUser who p => if root then Holds (rel_add (acc_holds h) who p) (evm_holds h) else h
  | UUnsetUser who p => if root then Holds (rel_remove (acc_holds h) who p) (evm_holds h) else h
  | UClearUser who => if root then Holds (rel_clear (acc_holds h) who) (evm_holds h) else h
  | USetEvm who p => if setter then Holds (acc_holds h) (rel_add (evm_holds h) who p) else h
  | UUnsetEvm who p => if setter then Holds (acc_holds h) (rel_remove (evm_holds h) who p) else h
  | UClearEvm who => if setter then Holds (acc_holds h) (rel_clear (evm_holds h) who) else h
  end.

(** The set of privileges named by a word: privilege [p] is in it when bit
    number [pindex p] is one. *)
Definition in_word (w : N) (p : privilege) : Prop := N.testbit w (pindex p) = true.

(** Old roles an account holds, as privileges. *)
Definition had_role1 (old : old_roles) (who : N) (p : privilege) : Prop :=
  (p = LockerMember /\ exists ls, old_lockers old = Some ls /\ In who ls) \/
  (p = ReleaseSetter /\ old_release_setter old = Some who).
Definition had_role2 (old : old_roles) (who : N) (p : privilege) : Prop :=
  (p = TipPayer /\ old_tip_payer old = Some who) \/
  (p = CreditAdmin /\ old_credit_admin old = Some who).
