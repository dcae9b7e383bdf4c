(** Calls that others cannot prevent. *)
From Verif Require Import Base Balances Model_UserPrivileges.
From Verif Require Model_Credit Model_Staking Model_StakingLedger Spec_Staking Proofs_Staking Model_DeeperNode.
From Verif Require Import Model_Chain Model_World Spec_World Spec_World6 Spec_World7.
From Verif Require Import Spec_UserPrivileges Proofs_UserPrivileges Proofs_World3 Proofs_World17.
From stdpp Require Import gmap.
Open Scope N_scope.

Section world.
  Context (cfg : wcfg).
  Local Notation stk w := (Model_Staking.k_stk (j_s (w_chain w))).
  Local Notation del w := (Model_Staking.k_del (j_s (w_chain w))).

  Lemma staking_succeeds w x o k :
    succeeds cfg w (x, WStaking o (JOf k)) <->
    exists r, jdispatch (wc_chain cfg) (wjctx cfg x w) (j_c (jsync (w_chain w) (w_bank w))) (j_s (jsync (w_chain w) (w_bank w))) o (JOf k) = ROk r.
  Proof.
    unfold succeeds. cbn [wstep fst snd]. unfold wjstep, jstep. cbn [jact_step fst snd]. unfold jsettle.
    destruct (jdispatch _ _ _ _ _ _) as [[[c s] ev]|e|]; cbn; split; try (intros [? ?]; discriminate); eauto.
  Qed.
  Lemma manages_staking w w' x you k : manages (WStaking (Signed you) (JOf k)) you ->
    (forall l, Model_Staking.s_ledger (stk w) !! you = Some l -> Model_Staking.s_ledger (stk w') !! you = Some l) ->
    Model_Staking.d_recs (del w') !! you = Model_Staking.d_recs (del w) !! you ->
    succeeds cfg w (x, WStaking (Signed you) (JOf k)) -> succeeds cfg w' (x, WStaking (Signed you) (JOf k)).
  Proof.
    intros M L R. rewrite !staking_succeeds.
    destruct k; try destruct M; cbn [jdispatch]; unfold Model_Staking.dispatch, Model_Staking.controlled, Model_Staking.signed, Model_Staking.quiet.
    all: try (unfold Model_Staking.unbond, Model_Staking.do_rebond, Model_Staking.validator_burn;
      cbn [j_s jsync Model_Staking.k_stk Model_Staking.set_k_bank];
      destruct (Model_Staking.s_ledger (stk w) !! you) as [l|]; [rewrite (L l eq_refl)|intros [? ?]; discriminate]).
    - destruct (ensure _ _); cbn [rbind]; try (intros [? ?]; discriminate). destruct (_ =? 0); [cbn; eauto|].
      destruct (_ <? _), (_ <? _); cbn; eauto.
    - cbn; eauto.
    - cbn; eauto.
    - cbn; eauto.
    - destruct (ensure _ _); cbn [rbind]; try (intros [? ?]; discriminate).
      destruct (ensure _ _); cbn [rbind]; try (intros [? ?]; discriminate). cbn; eauto.
    - cbn [j_s jsync Model_Staking.k_del Model_Staking.set_k_bank]. rewrite R.
      destruct (ensure _ _); cbn [rbind]; try (intros [? ?]; discriminate). cbn; eauto.
    - intros _. destruct (Model_StakingLedger.slash_ledger _ _ _) as [l1 v1].
      destruct (Model_Staking.cslash _ _ _ _) as [[b got] q]. cbn; eauto.
  Qed.
  Lemma manages_node w w' x you c : manages (WNode (Signed you) c) you ->
    Model_DeeperNode.d_dev (w_node w') !! you = Model_DeeperNode.d_dev (w_node w) !! you ->
    Model_DeeperNode.d_d2e (w_node w') !! you = Model_DeeperNode.d_d2e (w_node w) !! you ->
    succeeds cfg w (x, WNode (Signed you) c) -> succeeds cfg w' (x, WNode (Signed you) c).
  Proof.
    intros M Hd He. unfold succeeds. cbn [wstep fst snd]. unfold wnode, Model_DeeperNode.dstep.
    destruct c; try destruct M; cbn [node_call negb Model_DeeperNode.dexec];
      unfold Model_DeeperNode.unregister_device, Model_DeeperNode.register_server, Model_DeeperNode.update_server,
        Model_DeeperNode.unregister_server, Model_DeeperNode.im_online, Model_DeeperNode.get_npow_reward;
      cbn [Model_DeeperNode.with_bank Model_DeeperNode.d_dev Model_DeeperNode.d_d2e]; rewrite ?Hd, ?He;
      try (destruct (Model_DeeperNode.d_dev (w_node w) !! you));
      try (destruct (Model_DeeperNode.d_d2e (w_node w) !! you)); try (intros [? ?]; discriminate);
      try (destruct (ensure _ _); cbn [rbind]; try (intros [? ?]; discriminate)); cbn; eauto.
  Qed.

  Lemma manages_after w w' x a you : manages a you -> paired (Proofs_Staking.view (j_s (w_chain w))) ->
    affairs_of w' you = affairs_of w you ->
    (forall st, Model_Staking.s_bonded (stk w) !! st = Some you -> affairs_of w' st = affairs_of w st) ->
    succeeds cfg w (x, a) -> succeeds cfg w' (x, a).
  Proof.
    intros M [_ P] A B. destruct a as [| |o c| |o c| | | | | | | | |]; try destruct M.
    - destruct o as [|me|]; try destruct M. assert (me = you) as -> by (destruct c; solve [exact M|destruct M]).
      apply manages_node; [exact M|exact (f_equal af_device A)|exact (f_equal af_address A)].
    - destruct o as [|me|]; try destruct M. destruct c as [k|]; try destruct M.
      assert (me = you) as -> by (destruct k; solve [exact M|destruct M]).
      apply manages_staking; [exact M| |exact (f_equal af_delegation A)].
      intros l Hl. specialize (P _ _ Hl). cbn in P. specialize (B _ P).
      pose proof (f_equal af_controller B) as C. pose proof (f_equal af_stake B) as D.
      cbn in C, D. unfold Spec_Staking.stake_of in D. rewrite C, P in D. now rewrite D.
  Qed.
End world.
