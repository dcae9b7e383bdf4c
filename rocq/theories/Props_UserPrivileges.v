(** Properties C32-C35 (pallets/user-privileges, primitives user_privileges). *)
From Verif Require Import Base Model_UserPrivileges Spec_UserPrivileges Proofs_UserPrivileges.
From stdpp Require Import gmap.
Open Scope N_scope.

Definition xuhist : list (origin * ucall) :=
  [ (Root, USetUser 1 EvmAddressSetter); (Root, USetUser 1 NpowMint);
    (Signed 1, USetEvm 9 EvmCreditOperation); (Signed 2, USetEvm 9 NpowMint);
    (Signed 1, USetUser 2 CreditAdmin); (Root, UUnsetUser 1 NpowMint);
    (Root, UUnsetUser 3 NpowMint) ].

(** C32. After every history, each account and each EVM address holds exactly
    the privileges that set insertion, removal and clearing would leave. *)
Theorem C32_privileges_are_sets :
  forall h who p,
    let final := fold_left (fun r x => spec_call r x.1 x.2) h nobody in
    has_privilege (urun uinit h) who p = acc_holds final who p /\
    has_evm_privilege (urun uinit h) who p = evm_holds final who p.
Proof.
  intros h who p final. destruct (run_agrees h uinit nobody init_agrees) as [HA HE].
  split; [apply HA|apply HE].
Qed.
Example C32_example :
  let s := urun uinit xuhist in
  has_privilege s 1 EvmAddressSetter = true /\ has_privilege s 1 NpowMint = false /\
  has_evm_privilege s 9 EvmCreditOperation = true /\ has_evm_privilege s 9 NpowMint = false /\
  has_privilege s 2 CreditAdmin = false.
Proof. vm_compute. auto. Qed.
Print Assumptions C32_privileges_are_sets.

(** C32, results: root's grants and clears always succeed, and its removals
    succeed for every account that has an entry. *)
Theorem C32_root_calls_succeed :
  forall s who p,
    (exists s', ustep s Root (USetUser who p) = (s', ROk (UserPrivilegeSet who p))) /\
    (exists s', ustep s Root (UClearUser who) = (s', ROk (UserPrivilegeClear who))) /\
    (u_user s !! who <> None ->
     exists s', ustep s Root (UUnsetUser who p) = (s', ROk (UserPrivilegeUnSet who p))).
Proof.
  intros s who p. split; [|split].
  - exact (user_call_result s Root (USetUser who p) eq_refl).
  - exact (user_call_result s Root (UClearUser who) eq_refl).
  - exact (user_call_result s Root (UUnsetUser who p) eq_refl).
Qed.
Example C32_root_example : u_user (urun uinit xuhist) !! 1 <> None.
Proof. vm_compute. discriminate. Qed.
Print Assumptions C32_root_calls_succeed.

(** C33. If a call changes what [has_privilege] answers about an account, its
    origin was root and it named that account and privilege; if it changes an EVM
    answer, it was signed by a holder of the EVM setter privilege. *)
Theorem C33_force_origin :
  forall s o c who p,
    (has_privilege (fst (ustep s o c)) who p <> has_privilege s who p ->
     o = Root /\ (c = USetUser who p \/ c = UUnsetUser who p \/ c = UClearUser who) /\
     is_ok (snd (ustep s o c)) = true) /\
    (has_evm_privilege (fst (ustep s o c)) who p <> has_evm_privilege s who p ->
     (exists a, o = Signed a /\ has_privilege s a EvmAddressSetter = true) /\
     (c = USetEvm who p \/ c = UUnsetEvm who p \/ c = UClearEvm who) /\
     is_ok (snd (ustep s o c)) = true).
Proof. intros s o c who p. split; [apply user_change_root|apply evm_change_setter]. Qed.
Example C33_example :
  let s := urun uinit xuhist in
  has_privilege (fst (ustep s Root (USetUser 5 TipPayer))) 5 TipPayer <> has_privilege s 5 TipPayer /\
  has_evm_privilege (fst (ustep s (Signed 1) (UClearEvm 9))) 9 EvmCreditOperation
    <> has_evm_privilege s 9 EvmCreditOperation.
Proof. vm_compute. split; discriminate. Qed.
Print Assumptions C33_force_origin.

(** C34. Every word the pallet ever stores survives encoding and decoding. *)
Theorem C34_stored_words_roundtrip :
  forall h who w rest,
    u_user (urun uinit h) !! who = Some w \/ u_evm (urun uinit h) !! who = Some w ->
    decode_privileges (encode_privileges w ++ rest) = Some (w, rest) /\
    length (encode_privileges w) = 8%nat.
Proof.
  intros h who w rest H. split; [|reflexivity]. apply codec_roundtrip.
  destruct (run_words h uinit) as [HU HE].
  { split; intros a v; cbn; rewrite lookup_empty; discriminate. }
  destruct H; [eapply HU|eapply HE]; eassumption.
Qed.
Example C34_stored_example : u_user (urun uinit xuhist) !! 1 = Some 4.
Proof. vm_compute. reflexivity. Qed.
Print Assumptions C34_stored_words_roundtrip.

(** C34. Decoding rejects exactly the inputs that are too short or carry an
    undeclared bit, and otherwise returns the first eight bytes as a word. *)
Theorem C34_decode_rejects_junk :
  forall bs,
    (decode_privileges bs = None <->
     (length bs < 8)%nat \/ exists n, 12 <= n /\ N.testbit (le_word (take 8 bs)) n = true) /\
    (forall w rest, decode_privileges bs = Some (w, rest) ->
       w = le_word (take 8 bs) /\ rest = drop 8 bs /\ w < 4096).
Proof. intros bs. split; [apply codec_rejects|apply codec_decode_word]. Qed.
Example C34_reject_example :
  decode_privileges [0; 16; 0; 0; 0; 0; 0; 0] = None /\
  decode_privileges [255; 15; 0; 0; 0; 0; 0; 0; 7] = Some (4095, [7]).
Proof. vm_compute. auto. Qed.
Print Assumptions C34_decode_rejects_junk.

(** C34. Two storable words with the same members are the same word. *)
Theorem C34_word_is_its_members :
  forall w w', w < 4096 -> w' < 4096 ->
    (forall p, contains w p = contains w' p) -> w = w'.
Proof.
  intros w w' Hw Hw' H. apply words_ext; auto. intros p. unfold in_word.
  specialize (H p). rewrite !contains_testbit in H. now rewrite H.
Qed.
Example C34_members_example : contains 6 ReleaseSetter = true /\ contains 6 LockerMember = false.
Proof. vm_compute. auto. Qed.
Print Assumptions C34_word_is_its_members.

(** C34. One privilege encodes to one byte, decoding inverts it, and only the
    encodings of privileges decode. *)
Theorem C34_privilege_codec :
  (forall p rest, decode_privilege (encode_privilege p ++ rest) = Some (p, rest)) /\
  (forall bs p rest, decode_privilege bs = Some (p, rest) -> bs = encode_privilege p ++ rest).
Proof. split; [exact privilege_codec|exact privilege_decode_inv]. Qed.
Example C34_privilege_example : decode_privilege [12; 1] = None /\ decode_privilege [11] = Some (AdstAdmin, []).
Proof. vm_compute. auto. Qed.
Print Assumptions C34_privilege_codec.

(** C35 is false: the migration overwrites. An account that was both locker and
    release setter is left without the locker privilege; an account that was both
    tip payer and credit admin is left without the tip payer privilege; and a
    privilege granted by root before the second step is lost. *)
Theorem C35_migration_refuted :
  (exists old who p, had_role1 old who p /\
     has_privilege (on_runtime_upgrade uinit old) who p = false) /\
  (exists old who p, had_role2 old who p /\
     has_privilege (on_runtime_upgrade (UState ∅ ∅ (Some V1_0_0)) old) who p = false) /\
  (exists old who p,
     let s1 := on_runtime_upgrade uinit old in
     let s2 := fst (ustep s1 Root (USetUser who p)) in
     has_privilege s2 who p = true /\ has_privilege (on_runtime_upgrade s2 old) who p = false).
Proof.
  split; [|split].
  - exists (OldRoles (Some [1; 2]) (Some 2) None None), 2, LockerMember. split.
    + left. split; [reflexivity|]. exists [1; 2]. split; [reflexivity|]. right. now left.
    + vm_compute. reflexivity.
  - exists (OldRoles None None (Some 3) (Some 3)), 3, TipPayer. split.
    + left. split; reflexivity.
    + vm_compute. reflexivity.
  - exists (OldRoles None None (Some 3) None), 3, NpowMint. vm_compute. auto.
Qed.
Print Assumptions C35_migration_refuted.

(** C35, what does hold: with no overlap between the old roles of one step every
    old role becomes a privilege, accounts without old roles keep theirs, and
    at the final version nothing changes. Missing: overlapping roles (refuted). *)
Theorem C35_migration_partial :
  forall s old,
    (u_version s = None ->
     (forall w, old_release_setter old = Some w -> ~ In w (default [] (old_lockers old))) ->
     forall who p, had_role1 old who p -> has_privilege (on_runtime_upgrade s old) who p = true) /\
    (u_version s = Some V1_0_0 ->
     (forall w w', old_tip_payer old = Some w -> old_credit_admin old = Some w' -> w <> w') ->
     forall who p, had_role2 old who p -> has_privilege (on_runtime_upgrade s old) who p = true) /\
    (u_version s = Some V2_0_0 -> on_runtime_upgrade s old = s) /\
    (forall who p,
       ~ In who (default [] (old_lockers old)) -> old_release_setter old <> Some who ->
       old_tip_payer old <> Some who -> old_credit_admin old <> Some who ->
       has_privilege (on_runtime_upgrade s old) who p = has_privilege s who p).
Proof.
  intros s old. split; [|split; [|split]].
  - intros Hv Hd who p. now apply migration1.
  - intros Hv Hd who p. now apply migration2.
  - intros Hv. unfold on_runtime_upgrade. now rewrite Hv.
  - intros who p. apply migration_frame.
Qed.
Example C35_partial_example :
  let old := OldRoles (Some [1; 2]) (Some 4) (Some 3) (Some 5) in
  let s1 := on_runtime_upgrade uinit old in
  has_privilege s1 2 LockerMember = true /\ has_privilege s1 4 ReleaseSetter = true /\
  u_version s1 = Some V1_0_0 /\
  has_privilege (on_runtime_upgrade s1 old) 5 CreditAdmin = true.
Proof. vm_compute. auto. Qed.
Print Assumptions C35_migration_partial.
