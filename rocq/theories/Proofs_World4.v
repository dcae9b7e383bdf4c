(** Which steps make new DPR. *)
From Verif Require Import Base Balances Model_UserPrivileges Spec_UserPrivileges.
From Verif Require Model_Credit Model_Staking Model_DeeperNode Model_CreditAccumulation.
From Verif Require Model_Micropayment Model_Operation Model_Adsc Model_Tips.
From Verif Require Import Proofs_UserPrivileges.
From Verif Require Import Model_Chain Model_World Spec_World Proofs_World2 Proofs_World3.
From Verif Require Proofs_Staking12 Spec_Staking Proofs_World1.
From stdpp Require Import gmap.
Open Scope N_scope.

Section makers.
  Context (cfg : wcfg).

  Definition plain (ev : list Model_Staking.kev) : Prop := lsum (map issued (map VStaking ev)) = 0.
  Definition minter (k : Model_Staking.kcall) : bool :=
    match k with Model_Staking.KNpow _ _ | Model_Staking.KCompensate _ _ _ => true | _ => false end.

  Lemma slashes_plain l : plain (map Model_Staking.KCreditSlash l).
  Proof. induction l; [reflexivity|exact IHl]. Qed.
  Lemma slashes_plain2 (l : list (N * N)) : plain (map (fun q => Model_Staking.KCreditSlash q.1) l).
  Proof. induction l; [reflexivity|exact IHl]. Qed.
  Ltac step H :=
    match type of H with
    | RErr _ = _ => discriminate H
    | RPanic = _ => discriminate H
    | ROk _ = ROk _ => injection H as <- <-; (reflexivity || apply slashes_plain || (case_match; reflexivity))
    | rbind ?r _ = _ => destruct r; cbn [rbind] in H; try discriminate H
    | context [match ?r with _ => _ end] => destruct r; try discriminate H
    end.
  Lemma dispatch_plain c x s o k s' ev : minter k = false ->
    Model_Staking.dispatch c x s o k = ROk (s', ev) -> plain ev.
  Proof.
    intros Hk H. destruct k; try discriminate Hk; cbn [Model_Staking.dispatch] in H;
      unfold Model_Staking.root, Model_Staking.admin, Model_Staking.controlled, Model_Staking.signed,
        Model_Staking.quiet, Model_Staking.with_stk, Model_Staking.with_del, Model_Staking.with_par,
        Model_Staking.unbond, Model_Staking.withdraw_unbonded, Model_Staking.validator_burn,
        Model_Staking.staking_delegate, Model_Staking.usdt_delegate in H.
    all: cbv zeta in H.
    all: repeat step H.
  Qed.
  Lemma jdispatch_plain x c s o k c' s' ev :
    (forall q, k = JOf q -> minter q = false) ->
    jdispatch (wc_chain cfg) x c s o k = ROk (c', s', ev) -> plain ev.
  Proof.
    intros Hk H. destruct k as [k|l].
    - specialize (Hk k eq_refl). destruct k; try discriminate Hk; cbn [jdispatch] in H.
      all: try (match type of H with context [Model_Staking.dispatch ?a ?b ?c ?d ?e] =>
             destruct (Model_Staking.dispatch a b c d e) as [[s1 e1]| |] eqn:E; try discriminate;
             injection H as _ _ <-; eapply dispatch_plain; [|exact E]; reflexivity end).
      + unfold jstaking_delegate, Model_Staking.signed in H. destruct o; try discriminate.
        destruct (lift _); cbn [rbind] in H; try discriminate.
        match type of H with context [Model_Staking.dispatch ?a ?b ?c ?d ?e] =>
          destruct (Model_Staking.dispatch a b c d e) as [[s1 e1]| |] eqn:E; try discriminate;
          injection H as _ _ <-; eapply dispatch_plain; [|exact E]; reflexivity end.
      + unfold jusdt_delegate in H. destruct (match _ with Some _ => _ | None => _ end) in H.
        destruct (lift _); cbn [rbind] in H; try discriminate.
        match type of H with context [Model_Staking.dispatch ?a ?b ?c ?d ?e] =>
          destruct (Model_Staking.dispatch a b c d e) as [[s1 e1]| |] eqn:E; try discriminate;
          injection H as _ _ <-; eapply dispatch_plain; [|exact E]; reflexivity end.
      + unfold jdelegate, Model_Staking.signed in H. destruct o; try discriminate.
        match type of H with context [Model_Staking.dispatch ?a ?b ?c ?d ?e] =>
          destruct (Model_Staking.dispatch a b c d e) as [[s1 e1]| |] eqn:E; try discriminate;
          injection H as _ _ <-; eapply dispatch_plain; [|exact E]; reflexivity end.
      + unfold jforce_undelegate, Model_Staking.root in H. destruct o; try discriminate.
        destruct (jforce _ _ _ _ _) as [[c1 s1]| |]; try discriminate. injection H as _ _ <-. apply slashes_plain2.
      + unfold jforce_unstaking in H. destruct (lift _); cbn [rbind] in H; try discriminate.
        match type of H with context [Model_Staking.dispatch ?a ?b ?c ?d ?e] =>
          destruct (Model_Staking.dispatch a b c d e) as [[s1 e1]| |] eqn:E; try discriminate;
          injection H as _ _ <-; eapply dispatch_plain; [|exact E]; reflexivity end.
    - cbn in H. unfold jforce_undelegate, Model_Staking.root in H. destruct o; try discriminate.
      destruct (jforce _ _ _ _ _) as [[c1 s1]| |]; try discriminate. injection H as _ _ <-. apply slashes_plain2.
  Qed.

  Lemma minted_plain ev : Spec_Staking.minted ev = 0 -> plain ev.
  Proof.
    unfold plain, Spec_Staking.minted. intros H. rewrite map_map. rewrite <- H. f_equal.
  Qed.
  Lemma new_session_plain c s i s' ev : Model_Staking.new_session c s i = (s', ev) -> plain ev.
  Proof.
    assert (G : forall s0, Model_Staking.new_era c s0 i = (s', ev) -> plain ev).
    { intros s0 H. unfold Model_Staking.new_era in H. cbv zeta in H.
      destruct (Model_Staking.elect _ _) as [s1 [l|]]; injection H as <- <-; reflexivity. }
    unfold Model_Staking.new_session. intros H.
    destruct (Model_Staking.e_cur _); [|eapply G, H]. destruct (Model_Staking.e_force _);
      try (eapply G, H); try (injection H as <- <-; reflexivity).
    cbv zeta in H. destruct (_ <=? _); [eapply G, H|injection H as <- <-; reflexivity].
  Qed.

  (** What the joined chain does outside payouts. *)
  Context (Hs : Model_Credit.kc_step (jc_c (wc_chain cfg)) <> Model_Credit.U64MAX).
  Definition pays (a : jact) : bool :=
    match a with
    | JInit | JEndSession _ => true
    | JCall _ (JOf k) => minter k
    | _ => false
    end.
  Lemma wjstep_plain x w a j ev : pays a = false -> wjstep cfg x w a = (j, JDone ev) -> plain ev.
  Proof.
    intros Hp H. unfold wjstep in H. set (j0 := jsync (w_chain w) (w_bank w)) in *.
    pose proof (Proofs_Chain1.jstep_staking (wc_chain cfg) j0 (wjctx cfg x w, a) Hs eq_refl) as R.
    unfold Proofs_Chain1.sop in R. rewrite H in R. cbn [fst snd] in R.
    destruct a as [o c|e|o c| | |i|i|i|a0|os i|b]; try discriminate Hp; cbn [Model_Staking.kstep Model_Staking.settle] in R.
    - injection R as _ <-. reflexivity.
    - injection R as _ <-. reflexivity.
    - clear R. unfold jstep in H. cbn [jact_step fst snd] in H. unfold jsettle in H.
      destruct (jdispatch _ _ _ _ _ _) as [[[c' s'] e]| |] eqn:E; try discriminate. injection H as <- <-.
      eapply jdispatch_plain; [|exact E]. intros q ->. exact Hp.
    - injection R as _ <-. reflexivity.
    - destruct (Model_Staking.new_session _ _ _) as [s' e] eqn:E. injection R as _ <-. eapply new_session_plain, E.
    - destruct (Model_Staking.start_session _ _ _ _) as [s' e] eqn:E. injection R as _ <-.
      apply Proofs_Staking12.start_session_calm in E as [_ [E _]]. now apply minted_plain.
    - injection R as _ <-. reflexivity.
    - destruct (Model_Staking.on_offence _ _ _ _ _) as [s' e] eqn:E. injection R as _ <-.
      apply Proofs_Staking12.on_offence_calm in E as [_ [E _]]. now apply minted_plain.
    - injection R as _ <-. reflexivity.
  Qed.
  Lemma of_chain_plain x w a w' ev : pays a = false -> of_chain w (wjstep cfg x w a) = (w', WDone ev) -> lsum (map issued ev) = 0.
  Proof.
    intros Hp H. unfold of_chain in H. destruct (wjstep cfg x w a) as [j [e| |]] eqn:E; try discriminate.
    injection H as _ <-. eapply wjstep_plain; eassumption.
  Qed.
  Lemma to_credit_events x w e v w0 w' ev : to_credit cfg x w e v w0 = (w', WDone ev) -> ev = v.
  Proof. unfold to_credit. destruct (wjstep cfg x w (JEntry e)) as [j [e0| |]]; intros H; try discriminate. now injection H. Qed.
  Lemma none {A} (f : A -> wev) l : (forall a, issued (f a) = 0) -> lsum (map issued (map f l)) = 0.
  Proof. intros Z. induction l as [|a l IH]; [reflexivity|]. cbn. now rewrite Z, IH. Qed.

  Theorem step_create up g w x a w' out : agrees (w_priv w) g ->
    wstep cfg w (x, a) = (w', out) -> created1 up ((x, a), out) <> 0 -> may_create g a.
  Proof.
    intros A H Hc. unfold created1 in Hc. cbn [fst snd] in Hc. destruct out as [ev| |]; [|now destruct Hc..].
    assert (Z : pooled up a = 0 -> lsum (map issued ev) = 0 -> may_create g a) by (intros P L; destruct Hc; rewrite P, L; reflexivity).
    clear Hc. pose proof H as H0. destruct a; cbn [wstep fst snd] in H.
    - destruct (ustep _ _ _) as [p [r| |]]; try discriminate. injection H as _ <-. now apply Z.
    - apply Z; [reflexivity|]. unfold wproof in H. destruct (Model_CreditAccumulation.astep _ _ _ _ _) as [p [r| |]]; try discriminate.
      destruct o, c; try (injection H as _ <-; reflexivity). apply to_credit_events in H as ->. reflexivity.
    - apply Z; [reflexivity|]. unfold wnode in H. destruct (negb _); [discriminate|].
      destruct (Model_DeeperNode.dstep _ _ _ _ _) as [p [r| |]]; try discriminate. injection H as _ <-. now apply none.
    - apply Z; [reflexivity|]. eapply of_chain_plain; [|exact H]. reflexivity.
    - destruct (pays (JCall o c)) eqn:P.
      + destruct c as [k|l]; [|discriminate].
        pose proof (step_allowed cfg g w x _ w' ev A H0 I) as S. destruct k; try discriminate P;
          cbn in S; destruct S as (me & -> & S); exact S.
      + apply Z; [reflexivity|]. eapply of_chain_plain; eassumption.
    - apply Z; [reflexivity|]. unfold wchannel in H. destruct (negb _); [discriminate|].
      destruct (Model_Micropayment.mstep _ _ _ _ _ _) as [p [r| |]]; try discriminate. injection H as _ <-. now apply none.
    - apply Z; [reflexivity|]. unfold woperation, Model_Operation.ostep in H.
      destruct (Model_Operation.oexec _ _ _ _ _) as [[r e]| |] eqn:E; try discriminate.
      apply Proofs_World1.operation_call in E as [E _].
      destruct c; try (injection H as _ <-; exact E); apply to_credit_events in H as ->; exact E.
    - unfold wadsc in H. destruct (Model_Adsc.astep _ _ _ _ _) as [p [r| |]] eqn:E; try discriminate. injection H as _ <-.
      assert (L : lsum (map issued (map VAdsc r)) = 0) by now apply none.
      destruct o, c; try (apply Z; [reflexivity|exact L]). exact I.
    - apply Z; [reflexivity|]. unfold wtips in H. destruct (Model_Tips.tstep _ _ _) as [p [r| |]]; try discriminate.
      destruct (tipped r) as [[who v]|]; [apply to_credit_events in H as ->|injection H as _ <-]; now apply none.
    - apply Z; [reflexivity|]. eapply of_chain_plain; [|exact H]. reflexivity.
    - destruct b; cbn [wblock_step] in H; try exact I;
        try (apply Z; [reflexivity|]; eapply of_chain_plain; [|exact H]; reflexivity).
      destruct (adsc_entry e); [|discriminate]. cbn [negb] in H.
      destruct (Model_Adsc.aentry _ _ _ _) as [r v]. injection H as _ <-.
      destruct e; try exact I; (apply Z; [reflexivity|now apply none]).
    - apply Z; [reflexivity|]. destruct (transfer_allow _ _ _ _ _); [|discriminate]. now injection H as _ <-.
    - apply Z; [reflexivity|]. unfold wreserve in H. destruct (reserve _ _ _ _); [|discriminate]. now injection H as _ <-.
    - apply Z; [reflexivity|]. unfold wrelease in H. now injection H as _ <-.
  Qed.
End makers.
