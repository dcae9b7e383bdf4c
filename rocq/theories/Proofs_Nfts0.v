(** Only one call sets what burning an NFT is worth. *)
From Verif Require Import Base Balances Proofs_Balances Proofs_Arith Model_UserPrivileges Model_Credit
  Spec_Credit Proofs_Credit Proofs_Credit2 Proofs_Credit3 Proofs_Credit4.
From stdpp Require Import gmap.
Open Scope N_scope.

Lemma kdo_worth cfg s op class : kc_step cfg <> U64MAX ->
  (forall o v, op.2 <> inl (o, KNftClassCredit class v)) ->
  k_nft_credit s !! class = None -> k_nft_credit (kdo cfg s op) !! class = None.
Proof.
  intros Hs Hn H. destruct op as [x [[o c]|e]]; cbn [snd] in Hn.
  - destruct (accepted cfg s (x, inl (o, c))) eqn:Ea; [|now rewrite (kdo_call_not _ _ _ _ _ Ea)].
    pose proof (kdo_call _ _ _ _ _ Ea) as E. generalize dependent (kdo cfg s (x, inl (o, c))). intros s' E.
    apply kexec_rest in E. destruct c; cbv beta iota in E; open_all;
      try (rewrite <- H; f_equal; rest_all s').
    subst s'. cbn. rewrite lookup_insert_ne; [done|]. intros ->. eapply Hn; reflexivity.
  - destruct (accepted cfg s (x, inr e)) eqn:Ea; [|now rewrite (kdo_entry_not _ _ _ _ Ea)].
    destruct (kdo_entry _ _ _ _ Ea) as [r E]. generalize dependent (kdo cfg s (x, inr e)). intros s' E.
    apply kentry_rest in E; [|done]. rewrite <- H. f_equal.
    destruct e; cbv beta iota in E; open_all; frame_step s'.
Qed.
Lemma worth_at_start b settings data : k_nft_credit (kinit b settings data) = ∅.
Proof. unfold kinit. cbn [k_nft_credit set_k_uc]. rewrite (fold_setting_frame k_nft_credit) by done. reflexivity. Qed.
