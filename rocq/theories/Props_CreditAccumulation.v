(** Properties C30-C31 (pallets/credit-accumulation). *)
From Verif Require Import Base Model_CreditAccumulation Spec_CreditAccumulation
  Proofs_CreditAccumulation.
From stdpp Require Import gmap.
Open Scope N_scope.

(** Example world: the hash is the identity, and the signature of key [k] on a
    message is accepted when it is 64 times the byte [k + nonce byte + who byte]. *)
Definition xahash (m : list N) : list N := m.
Definition xaverify (k : N) (msg sg : list N) : bool :=
  bool_decide (sg = repeat (k + nth 39 msg 0 + nth 71 msg 0) 64).
Definition xasig (k n a : N) : list N := repeat (k + n + a) 64.
Definition xahist : list (origin * acall) :=
  [ (Root, ASetKey 100); (Signed 1, AAddCredit 0 (xasig 100 0 1));
    (Signed 1, AAddCredit 0 (xasig 100 0 1)); (Signed 2, AAddCredit 0 (xasig 100 0 2));
    (Root, ASetTmp 50); (Signed 1, AAddCredit 1 (xasig 50 1 1)) ].

(** C30. The accepted claims of an account carry the nonces 0, 1, 2, ... in this
    order (as 64-bit numbers), and credit is awarded once per accepted claim. *)
Theorem C30_nonces_count_up :
  forall verify hash h who,
    accepted verify hash who ainit h = counter (length (accepted verify hash who ainit h)) /\
    length (filter (fun a => a = who) (a_credited (arun verify hash ainit h))) =
    length (accepted verify hash who ainit h).
Proof.
  intros. split; [apply accepted_counter|]. rewrite credited_count. cbn. apply Nat.add_0_r.
Qed.
Example C30_example :
  accepted xaverify xahash 1 ainit xahist = [0; 1] /\
  accepted xaverify xahash 2 ainit xahist = [0].
Proof. vm_compute. auto. Qed.
Print Assumptions C30_nonces_count_up.

(** C30. No nonce is accepted twice from one account, in histories with at most
    2^64 accepted claims of that account. *)
Theorem C30_no_replay :
  forall verify hash h who,
    N.of_nat (length (accepted verify hash who ainit h)) <= two64 ->
    NoDup (accepted verify hash who ainit h).
Proof. intros. rewrite accepted_counter. now apply counter_nodup. Qed.
Example C30_replay_example :
  N.of_nat (length (accepted xaverify xahash 1 ainit xahist)) <= two64 /\
  is_ok (snd (astep xaverify xahash (arun xaverify xahash ainit xahist) (Signed 1)
                (AAddCredit 1 (xasig 50 1 1)))) = false.
Proof. vm_compute. split; [discriminate|reflexivity]. Qed.
Print Assumptions C30_no_replay.

(** C31. A claim is accepted exactly when it is signed by an account, carries
    that account's next nonce, and is signed by the key or the temporary key on
    this nonce and account. An unset key counts as the all-zero key (this is why
    the property is partial; see the refutation below). *)
Theorem C31_operator_key_partial :
  forall verify hash s o nonce sg,
    is_ok (snd (astep verify hash s o (AAddCredit nonce sg))) = true <->
    exists who, o = Signed who /\ nonce = default 0 (a_nonce s !! who) /\
      (signed_claim verify hash (default 0 (a_key s)) nonce who sg \/
       signed_claim verify hash (default 0 (a_tmp s)) nonce who sg).
Proof.
  intros verify hash s o nonce sg. split.
  - intros H. destruct (add_ok _ _ _ _ _ _ H) as (who & -> & En & V & _).
    exists who. repeat split; auto. unfold verify_atomos_signature, do_verify, sig_of in V.
    unfold signed_claim. destruct (verify (default 0 (a_key s)) _ _); [now left|now right].
  - intros (who & -> & -> & H). apply add_accepts.
    unfold verify_atomos_signature, do_verify, sig_of.
    unfold signed_claim in H. destruct (verify (default 0 (a_key s)) _ _); [reflexivity|].
    destruct H as [H|H]; [discriminate|exact H].
Qed.
Example C31_example :
  is_ok (snd (astep xaverify xahash (AState ∅ (Some 100) (Some 50) []) (Signed 7)
                (AAddCredit 0 (xasig 50 0 7)))) = true.
Proof. vm_compute. reflexivity. Qed.
Print Assumptions C31_operator_key_partial.

(** C31 as stated is false: while the temporary key is unset a signature under
    the all-zero key is accepted, and no configured key signed the claim. *)
Theorem C31_operator_key_refuted :
  exists verify hash s who nonce sg key,
    a_key s = Some key /\ a_tmp s = None /\
    is_ok (snd (astep verify hash s (Signed who) (AAddCredit nonce sg))) = true /\
    ~ signed_claim verify hash key nonce who sg.
Proof.
  exists xaverify, xahash, (AState ∅ (Some 100) None []), 7, 0, (xasig 0 0 7), 100.
  vm_compute. repeat split; auto. discriminate.
Qed.
Print Assumptions C31_operator_key_refuted.

(** C31. Signed bytes determine key, nonce and account. *)
Theorem C31_signed_bytes :
  forall k n a k' n' a',
    k < 2 ^ 256 -> k' < 2 ^ 256 -> n < two64 -> n' < two64 -> a < 2 ^ 256 -> a' < 2 ^ 256 ->
    claim_bytes k n a = claim_bytes k' n' a' -> k = k' /\ n = n' /\ a = a'.
Proof. exact claim_bytes_inj. Qed.
Example C31_bytes_example : claim_bytes 1 2 3 <> claim_bytes 1 3 2 /\ length (claim_bytes 1 2 3) = 72%nat.
Proof. vm_compute. split; [discriminate|reflexivity]. Qed.
Print Assumptions C31_signed_bytes.

(** C31. Only root changes the keys. *)
Theorem C31_only_root_sets_keys :
  forall verify hash s x,
    a_key (ado verify hash s x) <> a_key s \/ a_tmp (ado verify hash s x) <> a_tmp s ->
    x.1 = Root /\ exists k, x.2 = ASetKey k \/ x.2 = ASetTmp k.
Proof. exact key_change. Qed.
Example C31_keys_example :
  a_key (ado xaverify xahash ainit (Root, ASetKey 3)) <> a_key ainit.
Proof. discriminate. Qed.
Print Assumptions C31_only_root_sets_keys.
