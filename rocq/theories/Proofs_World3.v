(** Powers in the joined chain. *)
From Verif Require Import Base Balances Model_UserPrivileges Spec_UserPrivileges Proofs_UserPrivileges.
From Verif Require Model_Credit Model_Staking Model_DeeperNode Model_CreditAccumulation.
From Verif Require Model_Micropayment Model_Operation Model_Adsc Model_Tips.
From Verif Require Import Model_Chain Model_World Spec_World.
From Verif Require Proofs_Credit.
From stdpp Require Import gmap.
Open Scope N_scope.

Section powers.
  Context (cfg : wcfg).

  Lemma to_credit_priv x w e v w0 : w_priv w = w_priv w0 -> w_priv (to_credit cfg x w e v w0).1 = w_priv w0.
  Proof. intros E. unfold to_credit. destruct (wjstep cfg x w (JEntry e)) as [j [?| |]]; auto. Qed.
  Lemma of_chain_priv w r : w_priv (of_chain w r).1 = w_priv w.
  Proof. unfold of_chain. destruct r as [j [?| |]]; reflexivity. Qed.
  Lemma step_priv w op : w_priv (wstep cfg w op).1 =
    match op.2 with WPriv o c => (ustep (w_priv w) o c).1 | _ => w_priv w end.
  Proof.
    destruct op as [x a]. destruct a; cbn [wstep fst snd]; try apply of_chain_priv.
    - unfold ustep. destruct (uexec _ _ _) as [[? ?]| |]; reflexivity.
    - unfold wproof. destruct (Model_CreditAccumulation.astep _ _ _ _ _) as [p [r| |]]; try reflexivity.
      destruct o, c; try reflexivity. now apply to_credit_priv.
    - unfold wnode. destruct (negb _); [reflexivity|].
      destruct (Model_DeeperNode.dstep _ _ _ _ _) as [d [e| |]]; reflexivity.
    - unfold wchannel. destruct (negb _); [reflexivity|].
      destruct (Model_Micropayment.mstep _ _ _ _ _ _) as [m [e| |]]; reflexivity.
    - unfold woperation. destruct (Model_Operation.ostep _ _ _ _ _) as [r [e| |]]; try reflexivity.
      destruct c; try reflexivity; now apply to_credit_priv.
    - unfold wadsc. destruct (Model_Adsc.astep _ _ _ _ _) as [r [e| |]]; reflexivity.
    - unfold wtips. destruct (Model_Tips.tstep _ _ _) as [t [e| |]]; try reflexivity.
      destruct (tipped e) as [[who v]|]; [now apply to_credit_priv|reflexivity].
    - destruct b; cbn [wblock_step]; try apply of_chain_priv.
      + now destruct (Model_Operation.on_finalize _ _ _).
      + destruct (negb _); [reflexivity|]. now destruct (Model_Adsc.aentry _ _ _ _).
    - now destruct (transfer_allow _ _ _ _ _).
    - unfold wreserve. now destruct (reserve _ _ _ _).
    - reflexivity.
  Qed.
  Lemma run_priv h : forall w g, agrees (w_priv w) g ->
    agrees (w_priv (wrun cfg w h))
      (fold_left (fun g op => match op.2 with WPriv o c => spec_call g o c | _ => g end) h g).
  Proof.
    induction h as [|op h IH]; intros w g A; [exact A|]. cbn [wrun fold_left]. apply IH.
    rewrite step_priv. destruct op as [x a]. cbn [snd]. destruct a; try exact A. now apply step_agrees.
  Qed.
  Lemma genesis_priv b p settings data evm u h :
    agrees (w_priv (wrun cfg (wgenesis b p settings data evm u) h)) (granted h).
  Proof. apply run_priv. apply init_agrees. Qed.

  (** The single pallets. *)
  Section one.
    Context (g : holds) (x : wctx) (w : wstate) (A : agrees (w_priv w) g).

    Lemma may_use_holds a p : may_use w a p = acc_holds g a p.
    Proof. apply A. Qed.
    Lemma officer a p : may_use w a p = true -> has_power g x (Signed a) (POfficer p).
    Proof. rewrite may_use_holds. intros H. exists a. auto. Qed.

    Lemma priv_allowed o c p r : ustep (w_priv w) o c = (p, ROk r) -> has_power g x o (priv_power c).
    Proof.
      intros H. unfold ustep in H. destruct (uexec _ _ _) as [[s e]| |] eqn:E; try discriminate. clear H.
      destruct c; cbn in E; unfold set_user_privilege, unset_user_privilege, clear_user_privilege,
        set_evm_privilege, unset_evm_privilege, clear_evm_privilege in E; destruct o; try discriminate; try reflexivity;
        cbn [priv_power]; apply officer; unfold may_use; cbn in E;
        (match type of E with context [has_privilege ?a ?b ?c] => destruct (has_privilege a b c) end; [reflexivity|discriminate]).
    Qed.
    Lemma credit_allowed s o c s' : Model_Credit.kexec (jc_c (wc_chain cfg)) s (cctx cfg x w) o c = ROk s' ->
      has_power g x o (credit_power c).
    Proof.
      intros H. apply Proofs_Credit.kexec_rest in H.
      destruct c; cbn [credit_power]; decompose [ex and] H; subst; try reflexivity;
        try (eexists; reflexivity); apply officer; assumption.
    Qed.
    Lemma staking_allowed c s o call c' s' ev :
      jdispatch (wc_chain cfg) (wjctx cfg x w) c s o call = ROk (c', s', ev) -> has_power g x o (staking_power call).
    Proof.
      assert (D : forall k c0 c1 r, Model_Staking.dispatch (jc_s (wc_chain cfg)) (sctx2 (wc_chain cfg) (wjctx cfg x w) c0 c1) s o k = ROk r ->
                  has_power g x o (staking_power (JOf k))).
      { intros k c0 c1 r H. destruct k; cbn [staking_power Model_Staking.dispatch] in *;
          unfold Model_Staking.root, Model_Staking.admin, Model_Staking.controlled, Model_Staking.signed in H;
          destruct o; try discriminate; try exact I; try reflexivity; try (eexists; reflexivity);
          apply officer; unfold ensure in H;
          (match type of H with context [if ?b then ROk tt else _] => destruct b eqn:E end; [exact E|discriminate H]). }
      intros H. destruct call as [k|l].
      - assert (Plain : (exists c0 c1 r, Model_Staking.dispatch (jc_s (wc_chain cfg)) (sctx2 (wc_chain cfg) (wjctx cfg x w) c0 c1) s o k = ROk r) \/
                        exists l, k = Model_Staking.KForceUndelegate l).
        { destruct k; cbn [jdispatch] in H; try (right; eexists; reflexivity); left.
          all: try (match type of H with context [Model_Staking.dispatch ?a ?b ?c ?d ?e] =>
                 destruct (Model_Staking.dispatch a b c d e) eqn:E; try discriminate; eauto end; fail).
          - unfold jstaking_delegate, Model_Staking.signed in H. destruct o; try discriminate.
            destruct (lift _); cbn [rbind] in H; try discriminate.
            match type of H with context [Model_Staking.dispatch ?a ?b ?c ?d ?e] =>
                 destruct (Model_Staking.dispatch a b c d e) eqn:E; try discriminate; eauto end.
          - unfold jusdt_delegate in H. destruct (match _ with Some _ => _ | None => _ end) in H.
            destruct (lift _); cbn [rbind] in H; try discriminate.
            match type of H with context [Model_Staking.dispatch ?a ?b ?c ?d ?e] =>
                 destruct (Model_Staking.dispatch a b c d e) eqn:E; try discriminate; eauto end.
          - unfold jdelegate, Model_Staking.signed in H. destruct o; try discriminate.
            match type of H with context [Model_Staking.dispatch ?a ?b ?c ?d ?e] =>
                 destruct (Model_Staking.dispatch a b c d e) eqn:E; try discriminate; eauto end.
          - unfold jforce_unstaking in H. destruct (lift _); cbn [rbind] in H; try discriminate.
            match type of H with context [Model_Staking.dispatch ?a ?b ?c ?d ?e] =>
                 destruct (Model_Staking.dispatch a b c d e) eqn:E; try discriminate; eauto end. }
        destruct Plain as [(c0 & c1 & r & Hd)|[l ->]]; [exact (D _ _ _ _ Hd)|].
        cbn in H. unfold jforce_undelegate, Model_Staking.root in H. now destruct o.
      - cbn in H. unfold jforce_undelegate, Model_Staking.root in H. now destruct o.
    Qed.
    Lemma operation_allowed s o c s' ev :
      Model_Operation.oexec (wc_rel cfg) s (octx cfg x w) o c = ROk (s', ev) -> has_power g x o (operation_power c).
    Proof.
      intros H. destruct c; cbn [operation_power Model_Operation.oexec] in *;
        unfold Model_Operation.do_unstake, Model_Operation.do_bridge_out, Model_Operation.do_bridge_in in H;
        destruct o; cbn [Model_Operation.root Model_Operation.signed rbind] in H; try discriminate; try reflexivity;
        try (eexists; reflexivity); apply officer; unfold ensure in H;
        (match type of H with context [if ?b then ROk tt else _] => destruct b eqn:E end; [exact E|discriminate H]).
    Qed.
    Lemma adsc_allowed s o c s' ev :
      Model_Adsc.aexec (wc_adsc cfg) s (actx cfg x w) o c = ROk (s', ev) ->
      ~ VAdsc Model_Adsc.EBridgeFailed ∈ map VAdsc ev -> has_power g x o (adsc_power c).
    Proof.
      intros H Hb. destruct c; cbn [adsc_power Model_Adsc.aexec] in *;
        unfold Model_Adsc.do_bridge_burn, Model_Adsc.do_bridge_mint, Model_Adsc.ensure_admin in H;
        destruct o; cbn [rbind] in H; try discriminate; try reflexivity; try (eexists; reflexivity);
        try (injection H as <- <-; exfalso; apply Hb; left);
        apply officer;
        (match type of H with context [if ?b then ROk ?a else _] => destruct b eqn:E end;
         [exact E|cbn [rbind] in H; try discriminate H; injection H as <- <-; exfalso; apply Hb; left]).
    Qed.
    Lemma tips_allowed s o c s' ev :
      Model_Tips.texec (wc_tips cfg) (tctx x) s o c = ROk (s', ev) -> has_power g x o (tips_power c).
    Proof.
      intros H. destruct c; cbn [tips_power Model_Tips.texec] in *; unfold Model_Tips.tipper, ensure in H.
      6: { destruct (Model_Tips.tx_reject (tctx x)) eqn:E; [exact E|discriminate]. }
      all: destruct o; cbn [Model_Tips.signed rbind] in H; try discriminate; try reflexivity; try (eexists; reflexivity).
      all: case_bool_decide as Hm; [|discriminate]; eexists; split; [reflexivity|exact Hm].
    Qed.
    Lemma evm_allowed a user score add w' ev :
      of_chain w (wjstep cfg x w (JEntry (Model_Credit.KEvmUpdate a user score add))) = (w', WDone ev) ->
      Model_Credit.k_uc (j_c (w_chain w')) <> Model_Credit.k_uc (j_c (w_chain w)) -> evm_holds g a EvmCreditOperation = true.
    Proof.
      intros H Hd. destruct (evm_holds g a EvmCreditOperation) eqn:E; [reflexivity|]. exfalso. apply Hd.
      unfold wjstep, jstep in H. cbn -[cctx] in H.
      unfold csettle, Model_Credit.kentry_step in H. cbn -[cctx] in H. unfold Model_Credit.evm_update in H.
      destruct A as [_ A2]. cbn in H. rewrite A2, E in H. cbn in H. injection H as <- <-. reflexivity.
    Qed.
  End one.

  Theorem step_allowed g w x a w' ev : agrees (w_priv w) g ->
    wstep cfg w (x, a) = (w', WDone ev) -> effective w w' a ev -> allowed g x a.
  Proof.
    intros A H Hf. destruct a; cbn [wstep fst snd] in H; unfold allowed; cbn [needs]; try exact I.
    - destruct (ustep _ _ _) as [p [r| |]] eqn:E; try discriminate. eapply priv_allowed; eassumption.
    - unfold wproof, Model_CreditAccumulation.astep in H.
      destruct (Model_CreditAccumulation.aexec _ _ _ _ _) as [p| |] eqn:E; try discriminate.
      destruct c; cbn in E; destruct o; try discriminate; cbn; eauto.
    - unfold wnode in H. destruct (negb _); [discriminate|]. unfold Model_DeeperNode.dstep in H.
      destruct (Model_DeeperNode.dexec _ _ _ _ _) as [[d e]| |] eqn:E; try discriminate.
      destruct o; try discriminate E. cbn. eauto.
    - unfold of_chain, wjstep, jstep in H. cbn in H. unfold csettle, Model_Credit.kstep in H.
      destruct (Model_Credit.kexec _ _ _ _ _) as [c'| |] eqn:E; cbn in H; try discriminate. eapply credit_allowed; eassumption.
    - unfold of_chain, wjstep, jstep in H. cbn [fst snd jact_step] in H. unfold jsettle in H.
      destruct (jdispatch _ _ _ _ _ _) as [[[c' s'] e]| |] eqn:E; try discriminate. eapply staking_allowed; eassumption.
    - unfold woperation, Model_Operation.ostep in H.
      destruct (Model_Operation.oexec _ _ _ _ _) as [[r e]| |] eqn:E; try discriminate. eapply operation_allowed; eassumption.
    - unfold wadsc, Model_Adsc.astep in H. destruct (Model_Adsc.aexec _ _ _ _ _) as [[r e]| |] eqn:E; try discriminate.
      injection H as <- <-. eapply adsc_allowed; eassumption.
    - unfold wtips in H. cbn [Model_Tips.tstep] in H.
      destruct (Model_Tips.texec _ _ _ _ _) as [[r e]| |] eqn:E; try discriminate. eapply tips_allowed; eassumption.
    - eapply evm_allowed; eassumption.
  Qed.

  (** A privilege held was given by Root. *)
  Lemma granted_by h me q : acc_holds (granted h) me q = true -> exists x, (x, WPriv Root (USetUser me q)) ∈ h.
  Proof.
    induction h as [|op h IH] using rev_ind; [discriminate|]. unfold granted in *. rewrite fold_left_app. cbn [fold_left].
    set (g := fold_left _ h nobody) in *. destruct op as [x a]. cbn [snd].
    assert (Old : acc_holds g me q = true -> exists x0, (x0, WPriv Root (USetUser me q)) ∈ h ++ [(x, a)]).
    { intros H. destruct (IH H) as [x0 H0]. exists x0. apply elem_of_app. auto. }
    destruct a; auto. unfold spec_call. destruct c, o; cbn [acc_holds]; auto; unfold rel_add, rel_remove, rel_clear;
      try (case_bool_decide as E; [|auto]); try discriminate;
      try (destruct (acc_holds g who0 EvmAddressSetter); auto).
    intros _. destruct E as [-> ->]. exists x. apply elem_of_app. right. now apply elem_of_list_singleton.
  Qed.
End powers.
