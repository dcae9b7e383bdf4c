(** What the holders of privileges change for others. *)
From Verif Require Import Base Balances Model_UserPrivileges Spec_UserPrivileges.
From Verif Require Model_Credit Model_Staking Model_StakingLedger Spec_Staking Model_DeeperNode Model_CreditAccumulation.
From Verif Require Model_Operation Model_Adsc Model_Tips Model_Micropayment Proofs_Credit.
From Verif Require Import Model_Chain Model_World Spec_World Spec_World2 Spec_World6 Spec_World7 Spec_Reach.
From Verif Require Import Proofs_UserPrivileges Proofs_World2 Proofs_World3 Proofs_World5 Proofs_World17.
From Verif Require Spec_World3 Proofs_Credit4 Proofs_World16.
From stdpp Require Import gmap.
Open Scope N_scope.

Lemma same_all f f' i : f' = f -> same i f f'.
Proof. intros ->. destruct i; repeat split. Qed.

Section staking.
  Import Model_Staking.
  Context (cfg : kcfg).
  Local Ltac split_bind H := repeat match type of H with
    | rbind ?e _ = ROk _ => destruct e eqn:?; try discriminate H; cbn [rbind] in H
    end.
  (** The parts of the delegators' state that have nothing to do with delegating. *)
  Definition aside (k : dels) := (d_black k, d_ref k, d_refc k, d_bal k).
  Lemma any_aside x s d k : delegate_any cfg x s d = ROk k -> aside k = aside (k_del s).
  Proof.
    unfold delegate_any. intros H. split_bind H. destruct (_ !! _); [|discriminate]. unfold do_delegate in H. split_bind H.
    injection H as <-. unfold aside. cbn. destruct (d_recs (k_del s) !! d) as [r|]; [destruct (dr_on r)|]; reflexivity.
  Qed.
  Lemma und_aside e k d : aside (undelegate e k d) = aside k.
  Proof.
    unfold undelegate. destruct (_ !! _) as [r|]; [|reflexivity]. destruct (dr_on r); [|reflexivity].
    destruct (dr_since r) as [e0|]; [destruct (e0 =? e)|]; reflexivity.
  Qed.
  Definition officer_call (c : kcall) : Prop :=
    match c with
    | KUsdtDelegate _ _ _ | KBlackAdd _ _ | KBlackRemove _ | KCompensate _ _ _ | KSetReferer _ _ | KUnsetReferer _
    | KNpow _ _ | KForceUnstakingDelegate _ | KUnsetBalance _ => True
    | _ => False
    end.
  Lemma officer_frame x s me c s' ev : officer_call c -> dispatch cfg x s (Signed me) c = ROk (s', ev) ->
    k_stk s' = k_stk s /\
    (match c with KBlackAdd _ _ | KBlackRemove _ => True | _ => d_black (k_del s') = d_black (k_del s) end) /\
    (match c with KUsdtDelegate _ _ _ | KForceUnstakingDelegate _ => True | _ => d_recs (k_del s') = d_recs (k_del s) end) /\
    (match c with KSetReferer _ _ | KUnsetReferer _ | KUnsetBalance _ => True
     | _ => d_ref (k_del s') = d_ref (k_del s) /\ d_refc (k_del s') = d_refc (k_del s) /\ d_bal (k_del s') = d_bal (k_del s) end).
  Proof.
    intros O H. destruct c; try destruct O; cbn [dispatch] in H; unfold admin, with_del in H; cbn [signed] in H; split_bind H; try (injection H as <- _; repeat split; fail).
    - unfold usdt_delegate in H. cbv zeta in H. split_bind H.
      match goal with p : (N * N)%type |- _ => destruct p as [cur rest] end. cbv zeta in H. destruct (_ <? _).
      + split_bind H. injection H as <- _. pose proof (any_aside _ _ _ _ ltac:(eassumption)) as Q. unfold aside in Q. injection Q as Q1 Q2 Q3 Q4.
        repeat split; assumption.
      + injection H as <- _. repeat split.
    - unfold compensate in H. split_bind H. destruct (mint _ _ _ _). injection H as <- _. repeat split.
    - unfold set_referer in Heqr0. split_bind Heqr0. injection Heqr0 as <-. injection H as <- _. repeat split.
    - injection H as <- _. unfold unset_referer. cbn. destruct (_ !! _); repeat split.
    - unfold npow_mint in H. split_bind H. destruct (mint _ _ _ _). injection H as <- _. repeat split.
    - injection H as <- _. pose proof (und_aside (cur_era s) (k_del s) who) as Q. unfold aside in Q. injection Q as Q1 Q2 Q3 Q4. repeat split; assumption.
  Qed.
End staking.

Section world.
  Import Model_Staking Spec_Staking.
  Context (cfg : wcfg).
  Context (Hs : Model_Credit.kc_step (jc_c (wc_chain cfg)) <> Model_Credit.U64MAX).
  Local Notation c_ w := (j_c (w_chain w)).

  (** The credit pallet besides scores. *)
  Definition beside (c : Model_Credit.kstate) :=
    (Model_Credit.k_from_nft c, Model_Credit.k_stakebal c, Model_Credit.k_last_era c, Model_Credit.k_last_ts c,
     Model_Credit.k_noswitch c, Model_Credit.k_maintain c).
  Lemma rest_beside c c' : Proofs_Credit.same_rest c c' -> beside c' = beside c /\ Model_Credit.k_ustake c' = Model_Credit.k_ustake c.
  Proof. intros ->. split; reflexivity. Qed.

  Local Ltac shut Hq := try (exfalso; apply Hq; repeat constructor; fail).

  Lemma credit_parts w x me c w' ev you i q : needs (WCredit (Signed me) c) = Some (Signed me, POfficer q) -> q ∉ over i ->
    wstep cfg w (x, WCredit (Signed me) c) = (w', WDone ev) -> same i (affairs_of w you) (affairs_of w' you).
  Proof.
    intros Hn Hq E. cbn [wstep fst snd] in E. apply of_chain_rest in E as (j & e & Ej & -> & _).
    unfold wjstep, jstep in Ej. cbn [fst snd jact_step] in Ej. unfold csettle, Model_Credit.kstep in Ej. cbn [jx_c wjctx] in Ej.
    destruct (Model_Credit.kexec _ _ _ _ _) as [c'| |] eqn:X; cbn [fst snd] in Ej; try discriminate. injection Ej as <- _.
    apply Proofs_Credit.kexec_rest in X. cbn [needs] in Hn.
    destruct c; cbn [credit_power] in Hn; try discriminate Hn; injection Hn as <-; decompose [ex and] X; clear X;
      destruct i; cbn [over] in Hq; shut Hq; try (repeat split; fail);
      try (match goal with H : Proofs_Credit.same_rest _ _ |- _ => apply rest_beside in H as [R _]; injection R as R1 R2 R3 R4 R5 R6; cbn in *; now rewrite ?R6 end);
      subst; repeat split.
  Qed.
  Lemma joined_beside x c s s' d : beside (joined (wc_chain cfg) x c s s' d) = beside c.
  Proof.
    unfold joined. destruct (_ !! d); [reflexivity|]. destruct (_ !! d); [|reflexivity].
    pose proof (Proofs_Credit.kentry_rest (jc_c (wc_chain cfg)) c (jx_c x) (Model_Credit.KInitHistory d)) as K. cbn in K.
    destruct (Model_Credit.init_delegator_history _ _ _ _) as [c' b]. exact (proj1 (rest_beside _ _ (K _ _ Hs eq_refl))).
  Qed.
  Lemma staking_parts w x me c w' ev you i q : needs (WStaking (Signed me) c) = Some (Signed me, POfficer q) -> q ∉ over i ->
    wstep cfg w (x, WStaking (Signed me) c) = (w', WDone ev) -> same i (affairs_of w you) (affairs_of w' you).
  Proof.
    intros Hn Hq E. cbn [wstep fst snd] in E. apply of_chain_rest in E as (j & e & Ej & -> & _).
    unfold wjstep, jstep in Ej. cbn [fst snd jact_step] in Ej. unfold jsettle in Ej.
    destruct (jdispatch _ _ _ _ _ _) as [[[c' s'] e']| |] eqn:X; try discriminate. injection Ej as <- _.
    destruct c as [k|l]; [|discriminate Hn].
    assert (O : officer_call k) by (destruct k; try discriminate Hn; exact Logic.I).
    set (c0 := j_c (jsync (w_chain w) (w_bank w))) in *. set (s0 := j_s (jsync (w_chain w) (w_bank w))) in *.
    assert (G : exists y c1, Model_Staking.dispatch (jc_s (wc_chain cfg)) y s0 (Signed me) k = ROk (s', e') /\ Model_Credit.k_maintain c' = Model_Credit.k_maintain c0 /\ (q <> CreditAdmin -> c' = c0) /\ c1 = c').
    { destruct k; try destruct O; cbn [jdispatch] in X.
      2,3,4,5,6,7,9: (destruct (Model_Staking.dispatch _ _ _ _ _) as [[s1 e1]| |] eqn:D; try discriminate; cbn [rbind fst snd] in X; injection X as <- <- <-;
        eexists _, _; split; [exact D|split; [reflexivity|split; [reflexivity|reflexivity]]]).
      - unfold jusdt_delegate in X. cbv zeta in X. destruct (match kx_level _ _ with Some _ => _ | None => _ end) as [cur rest].
        destruct (lift _) as [c1| |] eqn:L; try discriminate. cbn [rbind] in X. apply lift_ok in L.
        destruct (Model_Staking.dispatch _ _ _ _ _) as [[s1 e1]| |] eqn:D; try discriminate. cbn [rbind fst snd] in X. injection X as <- <- <-.
        eexists _, _. split; [exact D|]. split; [|split; [intros Z; injection Hn as <-; now destruct Z|reflexivity]].
        pose proof (joined_beside (wjctx cfg x w) (Model_Credit.set_staking_balance c1 who usdt dpr) s0 s1 who) as J.
        apply (f_equal snd) in J. cbn [beside snd] in J. rewrite J. cbn.
        pose proof (Proofs_Credit.kentry_rest (jc_c (wc_chain cfg)) c0 (cctx cfg x w) (Model_Credit.KAddOrUpdate who
          (level_gap (climb (length (kx_usdt (sctx (wc_chain cfg) (wjctx cfg x w) c0) who)) (kx_usdt (sctx (wc_chain cfg) (wjctx cfg x w) c0) who)
             (default 0 (kx_usdt (sctx (wc_chain cfg) (wjctx cfg x w) c0) who !! N.to_nat cur)) rest cur) cur) (Some (Model_Credit.k_usdt_id c0)))) as K.
        cbn [Model_Credit.kentry_exec] in K. cbn [wjctx jx_c] in L. rewrite L in K. cbn [rbind] in K. specialize (K _ _ Hs eq_refl).
        apply rest_beside in K as [K _]. apply (f_equal snd) in K; exact K.
      - unfold jforce_unstaking in X. destruct (lift _) as [c1| |] eqn:L; try discriminate. cbn [rbind] in X. apply lift_ok in L.
        destruct (Model_Staking.dispatch _ _ _ _ _) as [[s1 e1]| |] eqn:D; try discriminate. cbn [rbind fst snd] in X. injection X as <- <- <-.
        eexists _, _. split; [exact D|]. split; [|split; [intros Z; injection Hn as <-; now destruct Z|reflexivity]].
        pose proof (Proofs_Credit.kentry_rest (jc_c (wc_chain cfg)) c0 (cctx cfg x w) (Model_Credit.KSlash who (Some Model_Credit.U64MAX))) as K.
        cbn [Model_Credit.kentry_exec] in K. cbn [wjctx jx_c] in L. rewrite L in K. cbn [rbind] in K. specialize (K _ _ Hs eq_refl).
        apply rest_beside in K as [K _]. apply (f_equal snd) in K; exact K. }
    destruct G as (y & c1 & D & Gm & Gc & _). apply (officer_frame _ _ _ _ _ _ _ O) in D as (F1 & F2 & F3 & F4).
    destruct i; cbn [over] in Hq; shut Hq; try (repeat split; fail);
      try (cbn; unfold stake_of; rewrite F1; repeat split; fail);
      try (destruct k; try destruct O; injection Hn as <-; shut Hq; cbn; rewrite ?F2, ?F3; try destruct F4 as (-> & -> & ->); repeat split; fail);
      try (cbn; rewrite Gm; reflexivity).
    all: rewrite Gc in * by (intros ->; apply Hq; repeat constructor); repeat split.
  Qed.

  Lemma operation_parts w x me c w' ev you i q : needs (WOperation (Signed me) c) = Some (Signed me, POfficer q) -> q ∉ over i ->
    wstep cfg w (x, WOperation (Signed me) c) = (w', WDone ev) -> same i (affairs_of w you) (affairs_of w' you).
  Proof.
    intros Hn Hq E. cbn [wstep fst snd] in E. unfold woperation, Model_Operation.ostep in E.
    destruct (Model_Operation.oexec _ _ _ _ _) as [[r e]| |] eqn:X; try discriminate.
    destruct c; try discriminate Hn; injection Hn as <-; cbn [Model_Operation.oexec Model_Operation.signed rbind] in X.
    - injection E as <- _. destruct (ensure _ _); try discriminate. cbn [rbind] in X. destruct (reserve _ _ _ _); [|discriminate].
      injection X as <- _. destruct i; cbn [over] in Hq; shut Hq; repeat split.
    - apply to_credit_rest in E as (j & Ej & -> & _). unfold wjstep, jstep in Ej. cbn [fst snd jact_step staking_only] in Ej.
      unfold csettle, Model_Credit.kentry_step in Ej. cbn [jx_c wjctx j_c jsync] in Ej.
      destruct (Model_Credit.kentry_exec _ _ _ _) as [[c' y]| |] eqn:K; cbn [fst snd] in Ej; try discriminate. injection Ej as <-.
      apply Proofs_Credit.kentry_rest in K; [|exact Hs]. apply rest_beside in K as [K _]. injection K as K1 K2 K3 K4 K5 K6.
      cbn in K1, K2, K3, K4, K5, K6.
      destruct i; cbn [over] in Hq; shut Hq; try (repeat split; fail); cbn; rewrite ?K1, ?K2, ?K3, ?K4, ?K5, ?K6; repeat split.
    - injection E as <- _. destruct (ensure _ _); try discriminate. cbn [rbind] in X. injection X as <- _.
      destruct i; cbn [over] in Hq; shut Hq; repeat split.
    - injection E as <- _. destruct (ensure _ _); try discriminate. cbn [rbind] in X. injection X as <- _.
      destruct i; cbn [over] in Hq; shut Hq; repeat split.
    - injection E as <- _. assert (Model_Operation.o_info r = Model_Operation.o_info (w_rel w)) as R.
      { unfold Model_Operation.do_bridge_out in X. destruct (ensure _ _); try discriminate. cbn [rbind] in X.
        destruct (Model_Operation.o_fund _); [|discriminate]. destruct (transfer_keep _ _ _ _ _); [|discriminate]. now injection X as <- _. }
      destruct i; try (repeat split; fail). cbn. now rewrite R.
    - injection E as <- _. assert (Model_Operation.o_info r = Model_Operation.o_info (w_rel w)) as R.
      { unfold Model_Operation.do_bridge_in in X. destruct (ensure _ _); try discriminate. cbn [rbind] in X.
        destruct (Model_Operation.o_fund _); [|discriminate]. destruct (transfer_keep _ _ _ _ _); [|discriminate]. now injection X as <- _. }
      destruct i; try (repeat split; fail). cbn. now rewrite R.
  Qed.

  Lemma officer_parts w x a me w' ev you i q : needs a = Some (Signed me, POfficer q) -> q ∉ over i ->
    wstep cfg w (x, a) = (w', WDone ev) -> same i (affairs_of w you) (affairs_of w' you).
  Proof.
    intros Hn Hq E. destruct a as [o c|o c|o c|o c|o c| |o c|o c|o c| | | | |]; try discriminate Hn.
    - apply same_all. cbn [wstep fst snd] in E. destruct (ustep _ _ _) as [p [r| |]]; try discriminate. now injection E as <- _.
    - destruct c; discriminate Hn.
    - cbn [needs] in Hn. injection Hn as -> Hp. eapply credit_parts; [|exact Hq|exact E]. cbn. now rewrite Hp.
    - cbn [needs] in Hn. injection Hn as -> Hp. eapply staking_parts; [|exact Hq|exact E]. cbn. now rewrite Hp.
    - cbn [needs] in Hn. injection Hn as -> Hp. eapply operation_parts; [|exact Hq|exact E]. cbn. now rewrite Hp.
    - cbn [wstep fst snd] in E. unfold wadsc in E. destruct (Model_Adsc.astep _ _ _ _ _) as [s [e| |]] ; try discriminate. injection E as <- _.
      assert (q = CreditAdmin) as -> by (destruct c; try discriminate Hn; now injection Hn).
      destruct i; cbn [over] in Hq; shut Hq; repeat split.
    - destruct c; discriminate Hn.
  Qed.

  Lemma reach g w x a me you i : agrees (w_priv w) g -> supply w < two128 -> Proofs_World17.paired (Proofs_Staking.view (j_s (w_chain w))) ->
    signer a = Some me -> me <> you -> ~ on_behalf cfg w me a you ->
    same i (affairs_of w you) (affairs_of (wstep cfg w (x, a)).1 you) \/ exists q, acc_holds g me q = true /\ q ∈ over i.
  Proof.
    intros A F P Hm Hn Hb. destruct (needs a) as [[o p]|] eqn:N.
    2:{ left. apply same_all, same_affairs, (step_plain cfg Hs g w x a you me); auto. intros o q Q. congruence. }
    destruct (match p with POfficer q => Some q | _ => None end) as [q|] eqn:Ep.
    2:{ left. apply same_all, same_affairs, (step_plain cfg Hs g w x a you me); auto. intros o' q Q. rewrite N in Q. injection Q as _ ->. discriminate. }
    assert (p = POfficer q) as -> by (destruct p; congruence).
    destruct (acc_holds g me q) eqn:Hh.
    2:{ left. apply same_all, same_affairs, (step_plain cfg Hs g w x a you me); auto. intros o' q' Q. rewrite N in Q. now injection Q as _ <-. }
    destruct (decide (q ∈ over i)) as [Hi|Hi]; [eauto|left].
    destruct (wstep cfg w (x, a)) as [w' out] eqn:E. cbn [fst]. 
    destruct out as [ev| |]; [|apply step_same in E as [-> _]; [now apply same_all|discriminate]..].
    assert (o = Signed me) as ->.
    { destruct a; cbn in N, Hm; try discriminate; injection N as <- _; destruct o0; try discriminate; congruence. }
    eapply officer_parts; eauto.
  Qed.

  Local Notation upgraded w := (negb (Model_Adsc.a_version (w_adsc w) <? 2)).
  Local Notation wview w := (Proofs_Staking.view (j_s (w_chain w))).
  Lemma same_trans i f1 f2 f3 : same i f1 f2 -> same i f2 f3 -> same i f1 f3.
  Proof. destruct i; cbn; intuition congruence. Qed.
  Lemma run_reach i h : forall h0 w you, agrees (w_priv w) (granted h0) ->
    supply w + created (upgraded w) (wlog cfg w h) < two128 -> Proofs_World17.paired (wview w) -> out_of_reach cfg i h0 w h you ->
    same i (affairs_of w you) (affairs_of (wrun cfg w h) you).
  Proof.
    induction h as [|op h IH]; intros h0 w you A F P Hb; [now apply same_all|]. destruct Hb as [(me & Hm & Hn & Ho & Hb) Hr].
    cbn [wrun]. assert (F0 : supply w < two128) by lia.
    apply (same_trans i _ (affairs_of (wstep cfg w op).1 you)).
    - destruct op as [x a]. destruct (reach (granted h0) w x a me you i) as [|(q & Q1 & Q2)]; auto.
      rewrite (Ho q Q2) in Q1. discriminate.
    - apply (IH (h0 ++ [op])); [|exact (Proofs_World16.created_split cfg Hs h [op] w F)|now apply (step_wpaired cfg Hs)|exact Hr].
      pose proof (run_priv cfg [op] w _ A) as A'. unfold granted in *. now rewrite fold_left_app.
  Qed.

  (** The write of the credit precompile. *)
  Lemma evm_reach g w x caller user points add you i : agrees (w_priv w) g ->
    same i (affairs_of w you) (affairs_of (wstep cfg w (x, WEvm caller user points add)).1 you) \/
    i = PScore /\ evm_holds g caller EvmCreditOperation = true /\ Spec_World3.bound w user you.
  Proof.
    intros A. destruct (wstep cfg w (x, WEvm caller user points add)) as [w' out] eqn:E. cbn [fst].
    destruct out as [ev| |]; [|left; apply step_same in E as [-> _]; [now apply same_all|discriminate]..].
    cbn [wstep fst snd] in E. apply of_chain_rest in E as (j & e & Ej & -> & _).
    unfold wjstep, jstep in Ej. cbn [fst snd jact_step staking_only] in Ej.
    unfold csettle, Model_Credit.kentry_step in Ej. cbn [jx_c wjctx j_c jsync] in Ej.
    destruct (Model_Credit.kentry_exec _ _ _ _) as [[c' y]| |] eqn:K; cbn [fst snd] in Ej; try discriminate. injection Ej as <- _.
    pose proof K as R. apply Proofs_Credit.kentry_rest in R; [|exact Hs]. apply rest_beside in R as [R R7]. injection R as R1 R2 R3 R4 R5 R6.
    cbn in R1, R2, R3, R4, R5, R6, R7.
    assert (i = PScore \/ i <> PScore) as [->|Hi] by (destruct i; first [left; reflexivity|right; discriminate]).
    2:{ left. destruct i; try (repeat split; fail); try congruence; cbn; rewrite ?R1, ?R2, ?R3, ?R4, ?R5, ?R6; repeat split. }
    cbn [Model_Credit.kentry_exec] in K. unfold Model_Credit.evm_update in K.
    destruct A as [_ A2]. cbn [cctx Model_Credit.kx_evm_priv Model_Credit.kx_e2d] in K. rewrite A2 in K.
    destruct (evm_holds g caller EvmCreditOperation) eqn:Hh; cbn [negb] in K.
    2:{ left. cbn [rbind fst snd] in K. injection K as <- _. repeat split. }
    unfold Spec_World3.bound. destruct (Model_DeeperNode.d_e2d (w_node w) !! user) as [who|] eqn:B.
    2:{ left. cbn [rbind fst snd] in K. injection K as <- _. repeat split. }
    destruct (decide (who = you)) as [->|Hne]; [right; auto|left].
    assert (M : mine c' you = mine (j_c (w_chain w)) you).
    { destruct add.
      - destruct (Model_Credit.k_uc _ !! who); [|injection K as <- _; reflexivity].
        destruct (Model_Credit.do_add_credit _ _ _ _ _) eqn:D; try discriminate. cbn [rbind fst snd] in K. injection K as <- _.
        now apply (do_add_mine _ you who Hne) in D.
      - destruct (Model_Credit.slash_credit _ _ _ _ _) as [c1| |] eqn:D; try discriminate. cbn [rbind fst snd] in K. injection K as <- _.
        destruct (Proofs_Credit.slash_moves _ True _ _ _ _ _ D) as [T Q].
        destruct (Proofs_Credit4.touches_other _ _ _ _ _ you T (not_eq_sym Hne)) as [E1 E2]. cbn in E1, E2.
        rewrite Q. unfold mine. cbn. now rewrite E1, E2. }
    injection M as M1 M2 M3 _ _ _ _ _ _. cbn in M1, M2, M3. cbn. rewrite M1, M2, M3. repeat split.
  Qed.
End world.
