(** What steps of the single pallets cost the accounts. *)
From Verif Require Import Base Balances Model_UserPrivileges.
From Verif Require Model_Credit Spec_Credit Model_Staking Spec_Staking Spec_Staking2 Model_StakingLedger Model_DeeperNode.
From Verif Require Model_Micropayment Spec_Micropayment Model_Operation Model_Adsc Model_Tips Spec_Tips.
From Verif Require Import Model_Chain Spec_Chain2 Model_World Spec_World Spec_World2 Spec_World6 Proofs_Balances Proofs_World1.
From Verif Require Proofs_Staking14 Proofs_Operation Proofs_Tips4 Proofs_Tips5 Proofs_DeeperNode2
  Proofs_Adsc Proofs_Micropayment Proofs_Credit Proofs_Chain1 Proofs_Chain10.
From stdpp Require Import gmap.
Open Scope N_scope.

Section bank.
  Context (ed : N).
  (** No account loses more than [L], except for the rest of an account that falls below the
      existential deposit; reserves stay. *)
  Definition loss (L : N -> N) (b b' : bank) : Prop :=
    (forall a, free_of b a <= free_of b' a + L a \/ free_of b a < L a + ed) /\ keeps b b'.
  Lemma loss_refl b : loss (fun _ => 0) b b.
  Proof. split; [intros a; left; lia|intros a; reflexivity]. Qed.
  Lemma loss_trans L1 L2 b b1 b2 : loss L1 b b1 -> loss L2 b1 b2 -> loss (fun a => L1 a + L2 a) b b2.
  Proof.
    intros [A B] [C D]. split; [|intros a; now rewrite D]. intros a. specialize (A a). specialize (C a). lia.
  Qed.
  Lemma loss_le (L1 L2 : N -> N) b b' : (forall a, L1 a <= L2 a) -> loss L1 b b' -> loss L2 b b'.
  Proof. intros H [A B]. split; [|exact B]. intros a. specialize (A a). specialize (H a). lia. Qed.
  Lemma loss_bmv b m t b' : Proofs_Staking14.bmv ed (fun _ => False) b m t b' -> loss (fun _ => 0) b b'.
  Proof.
    intros (_ & B & C). split; [|exact C]. intros a. destruct (N.lt_ge_cases (free_of b' a) (free_of b a)) as [H|H]; [|left; lia].
    destruct (B a H); [contradiction|right; lia].
  Qed.
  Lemma put_free b w f r z : free_of (put ed b w (Acct f r z)) w = f \/ f < ed.
  Proof.
    unfold free_of, put, acct_of. cbn. destruct ((f <? ed) && _) eqn:F; cbn.
    - apply andb_true_iff in F as [F _]. apply N.ltb_lt in F. auto.
    - rewrite lookup_insert. auto.
  Qed.
  Lemma put_loss b w f z L :
    (forall a, L a = 0 \/ a = w) -> free_of b w <= f + L w -> loss L b (put ed b w (Acct f (rsv (acct_of b w)) z)).
  Proof.
    intros H E. split.
    - intros a. destruct (decide (a = w)) as [->|Hn]; [|left; unfold free_of; rewrite put_acct_ne by auto; lia].
      destruct (put_free b w f (rsv (acct_of b w)) z) as [->|Q]; [left; lia|right; lia].
    - destruct (put_flow ed b w f z (f) (free_of b w)) as [_ K]; [lia|exact K].
  Qed.
  Lemma withdraw_loss k b w v b' : withdraw ed k b w v = Some b' -> loss (fun a => if w =? a then v else 0) b b'.
  Proof.
    unfold withdraw. destruct (N.eqb_spec v 0) as [->|]; [intros [= <-]; eapply loss_le; [|apply loss_refl]; intros a; apply N.le_0_l|].
    destruct (N.ltb_spec (free (acct_of b w)) v); [discriminate|]. repeat (case_match; [discriminate|]). intros [= <-].
    apply put_loss; [intros a; destruct (N.eqb_spec w a); auto|]. rewrite N.eqb_refl. unfold free_of. lia.
  Qed.
  Lemma deposit_loss b w v : loss (fun _ => 0) b (deposit_creating ed b w v).
  Proof. eapply loss_bmv, Proofs_Staking14.deposit_bmv. Qed.
  Lemma mint_loss b w v b' got : Model_Operation.mint ed b w v = (b', got) -> loss (fun _ => 0) b b'.
  Proof. intros E. eapply loss_bmv, Proofs_Staking14.mint_bmv. exact E. Qed.
  Lemma remove_lock_loss x b w : loss (fun _ => 0) b (Model_Operation.remove_lock x b w).
  Proof.
    split; [|apply remove_lock_flow]. intros a. left. unfold Model_Operation.remove_lock. destruct (accts b !! w) as [c|] eqn:E; [|lia].
    unfold free_of, acct_of. cbn. destruct (decide (a = w)) as [->|]; [rewrite lookup_insert, E|rewrite lookup_insert_ne by auto]; cbn; lia.
  Qed.

  (** What an account has in the bank. *)
  Definition hold (b : bank) (a : N) : N := free_of b a + rsv (acct_of b a).
  Definition kept (L : N -> N) (b b' : bank) : Prop :=
    forall a, hold b a <= hold b' a + L a \/ (free_of b a < L a + ed /\ hold b a < hold b' a + L a + ed).
  Lemma loss_kept L b b' : loss L b b' -> kept L b b'.
  Proof. intros [A B] a. unfold hold. rewrite (B a). destruct (A a); [left; lia|right; split; lia]. Qed.
  Definition sure (L : N -> N) (b b' : bank) : Prop := forall a, hold b a <= hold b' a + L a.
  Lemma sure_kept L b b' : sure L b b' -> kept L b b'.
  Proof. intros A a. left. apply A. Qed.
  Lemma sure_refl b : sure (fun _ => 0) b b.
  Proof. intros a. lia. Qed.
  Lemma sure_trans L1 L2 b b1 b2 : sure L1 b b1 -> sure L2 b1 b2 -> sure (fun a => L1 a + L2 a) b b2.
  Proof. intros A B a. specialize (A a). specialize (B a). lia. Qed.
  Lemma kept_sure L1 L2 b b1 b2 : kept L1 b b1 -> sure L2 b1 b2 -> kept (fun a => L1 a + L2 a) b b2.
  Proof. intros A B a. specialize (A a). specialize (B a). lia. Qed.
  Lemma sure_le (L1 L2 : N -> N) b b' : (forall a, L1 a <= L2 a) -> sure L1 b b' -> sure L2 b b'.
  Proof. intros H A a. specialize (A a). specialize (H a). lia. Qed.
  Lemma kept_le (L1 L2 : N -> N) b b' : (forall a, L1 a <= L2 a) -> kept L1 b b' -> kept L2 b b'.
  Proof. intros H A a. specialize (A a). specialize (H a). lia. Qed.
  Lemma hold_put b w c : hold (put ed b w c) w = free c + rsv c \/ (free c < ed /\ rsv c = 0 /\ hold (put ed b w c) w = 0).
  Proof.
    unfold hold, free_of, put, acct_of. cbn. destruct ((free c <? ed) && _) eqn:F; cbn.
    - apply andb_true_iff in F as [F G]. apply N.ltb_lt in F. apply N.eqb_eq in G. rewrite lookup_delete. auto.
    - rewrite lookup_insert. auto.
  Qed.
  Lemma hold_put_ne b w c a : a <> w -> hold (put ed b w c) a = hold b a.
  Proof. intros H. unfold hold, free_of. now rewrite !put_acct_ne by auto. Qed.
  Lemma reserve_sure b w v b' : reserve ed b w v = Some b' -> sure (fun _ => 0) b b'.
  Proof.
    unfold reserve. destruct (N.eqb_spec v 0) as [->|]; [intros [= <-]; apply sure_refl|].
    destruct (N.ltb_spec (free (acct_of b w)) v); [discriminate|]. case_match; [discriminate|].
    destruct (N.ltb_spec (free (acct_of b w) - v) ed); [discriminate|]. intros [= <-] a.
    destruct (decide (a = w)) as [->|Hn]; [|rewrite hold_put_ne by auto; lia].
    match goal with |- context [put ed b w ?c] => destruct (hold_put b w c) as [E|(E & _)] end; cbn in *.
    - rewrite E. unfold hold, free_of. lia.
    - lia.
  Qed.
  Lemma unreserve_kept b w v : kept (fun _ => 0) b (unreserve ed b w v).
  Proof.
    unfold unreserve. destruct (N.eqb_spec v 0) as [->|]; [apply sure_kept, sure_refl|]. intros a.
    destruct (decide (a = w)) as [->|Hn]; [|rewrite hold_put_ne by auto; left; lia].
    match goal with |- context [put ed b w ?c] => destruct (hold_put b w c) as [E|(E & F & G)] end; cbn in *.
    - rewrite E. left. unfold hold, free_of. lia.
    - right. unfold hold, free_of in *. lia.
  Qed.
  Lemma slash_kept b w v : kept (fun a => if w =? a then v else 0) b
    (let '(b', got) := slash_reserved ed b w v in Bank (accts b') (lost b' + got)).
  Proof.
    unfold slash_reserved. destruct (N.eqb_spec v 0) as [->|].
    - intros a. left. unfold hold, free_of, acct_of. cbn. lia.
    - intros a. set (c := Acct _ _ _).
      change (hold (Bank (accts (put ed b w c)) (lost (put ed b w c) + N.min (rsv (acct_of b w)) v)) a) with (hold (put ed b w c) a).
      destruct (N.eqb_spec w a) as [->|Hn]; [|rewrite hold_put_ne by auto; left; lia].
      destruct (hold_put b a c) as [E|(E & F & G)]; subst c; cbn in *.
      + rewrite E. left. unfold hold, free_of. lia.
      + right. unfold hold, free_of in *. lia.
  Qed.
  Lemma transfer_keep_sure b src dst v b' : transfer_keep ed b src dst v = Some b' -> sure (fun a => if src =? a then v else 0) b b'.
  Proof.
    unfold transfer_keep. destruct (N.eqb_spec v 0) as [->|]; [intros [= <-] a; destruct (_ =? _); lia|].
    destruct (N.eqb_spec src dst) as [|Hn]; [intros [= <-] a; destruct (_ =? _); lia|]. cbn [orb].
    destruct (N.ltb_spec (free (acct_of b src)) v) as [|L]; [discriminate|].
    destruct (N.ltb_spec (free (acct_of b src) - N.max (frz (acct_of b src) - rsv (acct_of b src)) ed) v) as [|L1]; [discriminate|].
    destruct (N.ltb_spec (free (acct_of b dst) + rsv (acct_of b dst) + v) ed) as [|L2]; [discriminate|].
    destruct (_ <=? _); [discriminate|]. intros [= <-].
    set (c1 := Acct (free (acct_of b src) - v) _ _). set (c2 := Acct (free (acct_of b dst) + v) _ _). intros a.
    destruct (decide (a = dst)) as [->|Hd].
    - destruct (hold_put (put ed b src c1) dst c2) as [E|(E & F & _)]; subst c2; cbn in *; [|lia].
      rewrite E. unfold hold, free_of. lia.
    - rewrite hold_put_ne by auto. destruct (N.eqb_spec src a) as [->|Hs]; [|rewrite hold_put_ne by auto; lia].
      destruct (hold_put b a c1) as [E|(E & F & _)]; subst c1; cbn in *; [|lia].
      rewrite E. unfold hold, free_of. lia.
  Qed.
  Lemma transfer_keep_loss b src dst v b' : transfer_keep ed b src dst v = Some b' -> loss (fun a => if src =? a then v else 0) b b'.
  Proof.
    intros E. pose proof (transfer_keep_flow _ _ _ _ _ _ E) as [_ K]. pose proof (transfer_keep_sure _ _ _ _ _ E) as X.
    split; [|exact K]. intros a. left. specialize (X a). unfold hold in X. rewrite (K a) in X. lia.
  Qed.
  Lemma transfer_allow_loss b src dst v b' : transfer_allow ed b src dst v = Some b' -> loss (fun a => if src =? a then v else 0) b b'.
  Proof.
    intros E. pose proof (transfer_allow_flow _ _ _ _ _ _ E) as [_ K]. split; [|exact K]. revert E.
    unfold transfer_allow. destruct (N.eqb_spec v 0) as [->|]; [intros [= <-] a; left; destruct (_ =? _); lia|].
    destruct (N.eqb_spec src dst) as [|Hn]; [intros [= <-] a; left; destruct (_ =? _); lia|]. cbn [orb].
    destruct (N.ltb_spec (free (acct_of b src)) v) as [|L]; [discriminate|].
    destruct (_ <? v); [discriminate|]. destruct (_ && _); [discriminate|].
    destruct (N.ltb_spec (free (acct_of b dst) + rsv (acct_of b dst) + v) ed) as [|L2]; [discriminate|].
    destruct (_ <=? _); [discriminate|]. intros [= <-].
    set (c1 := Acct (free (acct_of b src) - v) _ _). set (c2 := Acct (free (acct_of b dst) + v) _ _). intros a.
    destruct (decide (a = dst)) as [->|Hd].
    - destruct (put_free (put ed b src c1) dst (free c2) (rsv c2) (frz c2)) as [F|F].
      + fold c2 in F. left. change (Acct (free c2) (rsv c2) (frz c2)) with c2 in F. rewrite F. subst c2. cbn. unfold free_of. lia.
      + right. subst c2. cbn in F. unfold free_of. lia.
    - unfold free_of at 2. rewrite put_acct_ne by auto. fold (free_of (put ed b src c1) a).
      destruct (N.eqb_spec src a) as [->|Hs].
      + destruct (put_free b a (free c1) (rsv c1) (frz c1)) as [F|F].
        * left. change (Acct (free c1) (rsv c1) (frz c1)) with c1 in F. rewrite F. subst c1. cbn. unfold free_of. lia.
        * right. subst c1. cbn in F. unfold free_of. lia.
      + left. unfold free_of. rewrite put_acct_ne by auto. lia.
  Qed.
End bank.
