(** Ordinary accounts leave the affairs of others alone. *)
From Verif Require Import Base Balances Model_UserPrivileges Spec_UserPrivileges.
From Verif Require Model_Credit Model_Staking Model_StakingLedger Spec_Staking Model_DeeperNode Model_CreditAccumulation.
From Verif Require Model_Operation Model_Adsc Model_Tips Model_Micropayment Proofs_Credit.
From Verif Require Proofs_Staking Proofs_Staking2 Proofs_Chain1 Proofs_World16 Spec_Micropayment.
From Verif Require Import Model_Chain Model_World Spec_World Spec_World2 Spec_World6 Spec_World7.
From Verif Require Import Proofs_UserPrivileges Proofs_World2 Proofs_World3 Proofs_World5.
From stdpp Require Import gmap.
Open Scope N_scope.

(** ** Credit *)
Section credit.
  Import Model_Credit Proofs_Credit.
  Context (cfg : kcfg).
  Definition mine (c : kstate) (a : N) :=
    (k_uc c !! a, k_hist c !! a, k_ustake c !! a, k_from_nft c !! a, k_stakebal c !! a,
     k_last_era c !! a, k_last_ts c !! a, k_noswitch c !! a, bool_decide (a ∈ k_maintain c)).
  Context (a w : N) (Hne : w <> a).

  Lemma update_history_mine c era c' : update_history c w era = ROk c' -> mine c' a = mine c a.
  Proof.
    unfold update_history. destruct (k_uc c !! w); [|discriminate]. destruct (last _) as [[e d]|]; intros [= <-]; [|reflexivity].
    unfold mine. cbn. now rewrite lookup_insert_ne.
  Qed.
  Lemma update_credit_mine c score : mine (update_credit c w score).1 a = mine c a.
  Proof. unfold update_credit. destruct (k_uc c !! w); [|reflexivity]. unfold mine. cbn. now rewrite lookup_insert_ne. Qed.
  Lemma do_add_mine c x d c' : do_add_credit cfg c x w d = ROk c' -> mine c' a = mine c a.
  Proof.
    unfold do_add_credit. destruct (k_uc c !! w); cbn zeta.
    - destruct (hist_of _ _).
      + intros [= <-]. unfold mine. cbn. now rewrite lookup_insert_ne.
      + intros H. apply update_history_mine in H. rewrite H. unfold mine. cbn. now rewrite lookup_insert_ne.
    - intros [= <-]. unfold mine. cbn. now rewrite lookup_insert_ne.
  Qed.
  Lemma add_or_update_mine c x gap camp c' : add_or_update cfg c x w gap camp = ROk c' -> mine c' a = mine c a.
  Proof.
    unfold add_or_update. cbn zeta. intros H. inv_bind H. injection H as <-.
    match goal with E : do_add_credit _ _ _ _ _ = _ |- _ => apply do_add_mine in E; rewrite <- E end.
    unfold mine. cbn. now rewrite lookup_insert_ne.
  Qed.
  Lemma init_history_mine c x : mine (init_delegator_history cfg c x w).1 a = mine c a.
  Proof. unfold init_delegator_history. destruct (k_uc c !! w); [|reflexivity]. unfold mine. cbn. now rewrite lookup_insert_ne. Qed.
  Lemma traffic_mine c x c' : by_traffic cfg c x w = ROk c' -> mine c' a = mine c a.
  Proof.
    unfold by_traffic. destruct (kx_onboard x w); [|intros [= <-]; reflexivity].
    destruct (update_interval _ _ _ _ _) as [k used]. destruct (_ <=? _); [|intros [= <-]; reflexivity].
    pose proof (update_credit_mine c (sadd64 (default 0 (credit_score c w)) 1)) as U.
    destruct (update_credit _ _ _) as [c1 ok]. cbn [fst] in U. intros H. inv_bind H. injection H as <-.
    assert (Q : mine a0 a = mine c a).
    { destruct ok; [|injection Ha as <-; exact U]. apply update_history_mine in Ha. rewrite Ha.
      rewrite <- U. unfold mine. cbn. now rewrite lookup_insert_ne. }
    destruct used; [|exact Q]. rewrite <- Q. unfold mine. cbn. now rewrite lookup_delete_ne.
  Qed.
  Lemma tip_mine c x v c' : by_tip cfg c x w v = ROk c' -> mine c' a = mine c a.
  Proof.
    unfold by_tip. destruct (kx_onboard x w); [|intros [= <-]; reflexivity].
    pose proof (update_credit_mine c (sadd64 (default 0 (credit_score c w)) v)) as U.
    destruct (update_credit _ _ _) as [c1 ok]. cbn [fst] in U. destruct ok; [|intros [= <-]; exact U].
    intros H. apply update_history_mine in H. congruence.
  Qed.
  Lemma burn_mine c x score c' : burn_for_credit cfg c x (Signed w) score = ROk c' -> mine c' a = mine c a.
  Proof.
    unfold burn_for_credit. cbn [ensure_signed_k rbind]. destruct (k_uc c !! w) as [d|]; [|discriminate]. cbn zeta.
    destruct (_ <? _); [discriminate|]. destruct (withdraw _ _ _ _ _); [|discriminate].
    set (c1 := set_k_bank c _). pose proof (update_credit_mine c1 (sadd64 (cd_credit d) score)) as U.
    destruct (update_credit _ _ _) as [c2 ok]. cbn [fst] in U. intros H. inv_bind H. injection H as <-.
    apply update_history_mine in Ha. change (mine a0 a = mine c1 a). congruence.
  Qed.
  Lemma burn_nft_mine c x class item c' : burn_nft cfg c x (Signed w) class item = ROk c' -> mine c' a = mine c a.
  Proof.
    unfold burn_nft. cbn [ensure_signed_k rbind]. destruct (k_nft_credit c !! class) as [credit|]; [|discriminate]. cbn zeta.
    destruct (ensure _ KOutOfMaxBurn); try discriminate. cbn [rbind].
    destruct (k_nft_owner c !! _) as [owner|]; [|discriminate].
    destruct (ensure _ KNft); try discriminate. cbn [rbind].
    set (c1 := set_k_nft_owner c _). destruct (by_burn_nft cfg c1 x w credit) as [c2| |] eqn:E; try discriminate.
    cbn [rbind]. intros [= <-].
    unfold by_burn_nft in E. pose proof (update_credit_mine c1 (sadd64 (default 0 (credit_score c1 w)) credit)) as U.
    destruct (update_credit _ _ _) as [c3 ok]. cbn [fst] in U. destruct ok; [|discriminate].
    apply update_history_mine in E. transitivity (mine c2 a); [|change (mine c a) with (mine c1 a); congruence].
    unfold mine. cbn. now rewrite lookup_insert_ne.
  Qed.
End credit.

(** ** Staking *)
Section staking.
  Import Model_StakingLedger Model_Staking Spec_Staking Proofs_Staking Proofs_Staking2.
  Definition paired (m : lview) : Prop :=
    (forall st c, v_bonded m !! st = Some c -> exists l, v_ledger m !! c = Some l /\ l_stash l = st) /\
    (forall c l, v_ledger m !! c = Some l -> v_bonded m !! l_stash l = Some c).

  Lemma lmove_paired ed m lb m' : paired m -> lmove ed m lb m' -> paired m'.
  Proof.
    intros [Ib Il] M. destruct M as [m st c v Hb Hl|m c h l Hl Hc|m st c Hb|m st c old l Hb Hl Hne Ho].
    - assert (Hst : forall c' l', v_ledger m !! c' = Some l' -> l_stash l' <> st).
      { intros c' l' H E. apply Il in H. rewrite E in H. congruence. }
      split; cbn.
      + intros st' c' H. destruct (decide (st = st')) as [<-|Hn].
        * rewrite lookup_insert in H. injection H as <-. rewrite lookup_insert. eauto.
        * rewrite lookup_insert_ne in H by auto. destruct (Ib _ _ H) as (l & A & B).
          exists l. split; [|auto]. rewrite lookup_insert_ne; [auto|congruence].
      + intros c' l' H. destruct (decide (c = c')) as [<-|Hn].
        * rewrite lookup_insert in H. injection H as <-. cbn. apply lookup_insert.
        * rewrite lookup_insert_ne in H by auto. rewrite lookup_insert_ne; [now apply Il|].
          apply not_eq_sym, (Hst c' l' H).
    - pose proof (change_stash ed h l) as Es. pose proof (Il _ _ Hl) as Hlb. split; cbn.
      + intros st' c' H. destruct (Ib _ _ H) as (l' & A & B). destruct (decide (c = c')) as [<-|Hn].
        * rewrite lookup_insert. eexists. split; [reflexivity|]. congruence.
        * rewrite lookup_insert_ne by auto. eauto.
      + intros c' l' H. destruct (decide (c = c')) as [<-|Hn].
        * rewrite lookup_insert in H. injection H as <-. now rewrite Es.
        * rewrite lookup_insert_ne in H by auto. now apply Il.
    - destruct (Ib _ _ Hb) as (l & Hl & Est).
      assert (Hst : forall c' l', c <> c' -> v_ledger m !! c' = Some l' -> l_stash l' <> st).
      { intros c' l' Hn H E. apply Il in H. rewrite E in H. congruence. }
      split; cbn.
      + intros st' c' H. apply lookup_delete_Some in H as [Hn H].
        destruct (Ib _ _ H) as (l' & A & B). exists l'. split; [|auto].
        rewrite lookup_delete_ne; [auto|]. intros <-. congruence.
      + intros c' l' H. apply lookup_delete_Some in H as [Hn H].
        rewrite lookup_delete_ne; [now apply Il|]. apply not_eq_sym. now apply (Hst c').
    - destruct (Ib _ _ Hb) as (l0 & Hl0 & Est). rewrite Hl0 in Ho. subst l. split; cbn.
      + intros st' c' H. destruct (decide (st = st')) as [<-|Hn].
        * rewrite lookup_insert in H. injection H as <-. rewrite lookup_insert. eauto.
        * rewrite lookup_insert_ne in H by auto. destruct (Ib _ _ H) as (l' & A & B).
          exists l'. split; [|auto]. rewrite lookup_insert_ne by congruence.
          rewrite lookup_delete_ne; [auto|]. intros <-. congruence.
      + intros c' l' H. destruct (decide (c = c')) as [<-|Hn].
        * rewrite lookup_insert in H. injection H as <-. rewrite Est. apply lookup_insert.
        * rewrite lookup_insert_ne in H by auto. apply lookup_delete_Some in H as [Hn' H].
          pose proof (Il _ _ H) as H'. rewrite lookup_insert_ne; [auto|]. intros E. rewrite <- E in H'. congruence.
  Qed.
  Lemma lpath_paired ed m ls m' : lpath ed m ls m' -> paired m -> paired m'.
  Proof. induction 1; auto. eauto using lmove_paired. Qed.

  Context (cfg : kcfg).
  Lemma step_paired s op : (forall who, free_of (k_bank s) who < two128) -> paired (view s) -> paired (view (kstep cfg s op).1).
  Proof.
    intros Ty P. destruct (kstep cfg s op) as [s' out] eqn:E. cbn [fst].
    destruct (step_path cfg _ _ _ _ Ty E) as (ls & L & _). eauto using lpath_paired.
  Qed.

  (** What a call signed by [me] leaves alone. *)
  Definition my_stake (s : kstate) (a : N) :=
    (s_bonded (k_stk s) !! a, stake_of s a, s_payee (k_stk s) !! a, bool_decide (a ∈ s_valid (k_stk s))).
  Definition my_delegation (s : kstate) (a : N) :=
    (d_recs (k_del s) !! a, d_black (k_del s) !! a, d_ref (k_del s) !! a, d_refc (k_del s) !! a, d_bal (k_del s) !! a).
  Definition owncall (c : kcall) : Prop :=
    match c with
    | KStakeDelegate _ | KBond _ _ _ | KBondExtra _ | KUnbond _ | KWithdraw _ | KValidate | KChill | KSetPayee _
    | KSetController _ | KRebond _ | KDelegate _ | KUndelegate | KBurnStake _ | KReap _ _ => True
    | _ => False
    end.
  Definition for_stash (s : kstate) (me : N) (c : kcall) (you : N) : Prop :=
    match c with
    | KReap st _ => st = you
    | KUnbond _ | KWithdraw _ | KRebond _ | KBurnStake _ | KValidate | KChill | KSetPayee _ =>
        s_bonded (k_stk s) !! you = Some me
    | _ => False
    end.
  Definition lviewed (m : lview) (a : N) :=
    (v_bonded m !! a, match v_bonded m !! a with Some c => v_ledger m !! c | None => None end).

  Lemma stake_frame x s me c s' ev you : (forall who, free_of (k_bank s) who < two128) -> paired (view s) -> me <> you ->
    ~ for_stash s me c you -> owncall c -> dispatch cfg x s (Signed me) c = ROk (s', ev) ->
    lviewed (view s') you = lviewed (view s) you.
  Proof.
    intros Ty P Hne Hf Hp H.
    assert (E : kstep cfg s (KCall x (Signed me) c) = (s', KDone ev)) by (cbn [kstep]; rewrite H; reflexivity).
    destruct (step_path cfg _ _ _ _ Ty E) as (ls & L & Lo & Ln). cbn [len_ok] in Ln.
    assert (X1 : view s' = view s \/ exists lb, lmove (kc_ed cfg) (view s) lb (view s') /\ lab_ok cfg s (KCall x (Signed me) c) (KDone ev) lb).
    { revert L. generalize (view s'). intros m' L. inversion L as [|? lb m1 ls' ? M L' e1 e2 e3]; subst; [now left|].
      destruct ls'; [|cbn in Ln; lia]. inversion L'; subst. right. exists lb. split; [exact M|now inversion Lo]. }
    destruct X1 as [->|(lb & M & Ok)]; [reflexivity|]. clear L Lo Ln ls E H.
    assert (Pb : forall st ct, s_bonded (k_stk s) !! st = Some ct -> exists l, s_ledger (k_stk s) !! ct = Some l /\ l_stash l = st) by apply P.
    assert (Pl : forall ct l, s_ledger (k_stk s) !! ct = Some l -> s_bonded (k_stk s) !! l_stash l = Some ct) by apply P.
    revert M. generalize (view s'). intros m' M. unfold lviewed.
    inversion M as [? st ct v Hb Hl|? ct h l Hl Hc|? st ct Hb|? st ct old l Hb Hl Hno Ho]; subst; cbn [v_bonded v_ledger view] in *.
    - cbn in Ok. destruct Ok as (x0 & v0 & d & E & _). injection E as _ -> _.
      rewrite lookup_insert_ne by auto. f_equal. destruct (s_bonded (k_stk s) !! you) as [cy|] eqn:Ey; [|reflexivity].
      destruct (Pb _ _ Ey) as (ly & A & _). rewrite lookup_insert_ne; [reflexivity|congruence].
    - f_equal. destruct (s_bonded (k_stk s) !! you) as [cy|] eqn:Ey; [|reflexivity].
      rewrite lookup_insert_ne; [reflexivity|]. intros ->. pose proof (Pl _ _ Hl) as B.
      destruct (Pb _ _ Ey) as (ly & A & As). rewrite Hl in A. injection A as <-. rewrite As in B.
      destruct h; cbn in Ok.
      + destruct Ok as (? & ? & E & _). injection E as _ -> ->. now apply Hf.
      + destruct Ok as (? & ? & ? & E & E2 & _). injection E as _ -> ->.
        destruct (Pb _ _ E2) as (l2 & A2 & As2). congruence.
      + destruct Ok as (? & ? & ? & E & _). injection E as _ -> ->. now apply Hf.
      + destruct Ok as (? & ? & E & _). injection E as _ -> ->. now apply Hf.
      + destruct Ok as (? & E). injection E as _ -> ->. now apply Hf.
      + destruct Ok as [(? & ? & E)|(? & ? & ? & E & _)]; discriminate.
      + destruct Ok as (? & E). injection E as _ -> ->. now apply Hf.
      + destruct Ok as ((? & ? & E) & _). discriminate.
    - assert (Hs : st <> you).
      { intros ->. cbn in Ok. destruct Ok as [(? & ? & E)|[(? & ? & ? & E & _)|(? & ? & ? & l & E & El & Es & _)]].
        - discriminate.
        - injection E as _ _ ->. now apply Hf.
        - injection E as _ <- ->. apply Pl in El. rewrite Es in El. now apply Hf. }
      rewrite lookup_delete_ne by auto. f_equal. destruct (s_bonded (k_stk s) !! you) as [cy|] eqn:Ey; [|reflexivity].
      rewrite lookup_delete_ne; [reflexivity|]. intros ->.
      destruct (Pb _ _ Ey) as (l1 & A1 & S1), (Pb _ _ Hb) as (l2 & A2 & S2). congruence.
    - cbn in Ok. destruct Ok as (x0 & E). injection E as _ -> _. rewrite lookup_insert_ne by auto. f_equal.
      destruct (s_bonded (k_stk s) !! you) as [cy|] eqn:Ey; [|reflexivity].
      destruct (Pb _ _ Ey) as (ly & A & As), (Pb _ _ Hb) as (lo & B & Bs).
      assert (Hoc : old <> cy) by (intros ->; congruence). assert (Hcc : ct <> cy) by congruence.
      destruct (s_ledger (k_stk s) !! old); [|reflexivity].
      rewrite lookup_insert_ne by exact Hcc. now rewrite lookup_delete_ne.
  Qed.

  Lemma update_rest x s c l : k_del (update_ledger cfg x s c l) = k_del s /\
    s_payee (k_stk (update_ledger cfg x s c l)) = s_payee (k_stk s) /\ s_valid (k_stk (update_ledger cfg x s c l)) = s_valid (k_stk s).
  Proof. unfold update_ledger, set_lock. destruct (_ =? 0); repeat split. Qed.
  Definition others_same (s s' : kstate) (you : N) : Prop :=
    my_delegation s' you = my_delegation s you /\ s_payee (k_stk s') !! you = s_payee (k_stk s) !! you /\
    bool_decide (you ∈ s_valid (k_stk s')) = bool_decide (you ∈ s_valid (k_stk s)).
  Lemma os_upd x s c l you : others_same s (update_ledger cfg x s c l) you.
  Proof.
    destruct (update_rest x s c l) as (A & B & C). unfold others_same, my_delegation. now rewrite A, B, C.
  Qed.
  Lemma os_valid (v v' : gset N) you : (you ∈ v <-> you ∈ v') -> bool_decide (you ∈ v) = bool_decide (you ∈ v').
  Proof. intros E. now apply bool_decide_ext. Qed.
  Lemma clear_rest k st n k' : clear_stash k st n = ROk k' -> s_payee k' = s_payee k /\ s_valid k' = s_valid k.
  Proof. unfold clear_stash. destruct (s_spans k !! st); [|now intros [= <-]]. intros H. inv_bind H. now injection H as <-. Qed.
  Lemma os_unstake x s st n s' you : st <> you -> unstake cfg x s st n = ROk s' -> others_same s s' you.
  Proof.
    intros Hn H. unfold unstake in H. inv_bind H. injection H as <-. unfold kill_stash in E.
    destruct (s_bonded (k_stk s) !! st); [|discriminate]. inv_bind E. injection E as <-.
    apply clear_rest in E0 as [A B]. unfold others_same, my_delegation. cbn. rewrite A, B, lookup_delete_ne by auto.
    repeat split. apply os_valid. set_solver.
  Qed.
  Lemma os_do_delegate x s d vs k you : d <> you -> do_delegate x (k_del s) d vs = ROk k -> others_same s (set_k_del s k) you.
  Proof.
    intros Hn H. unfold do_delegate in H. inv_bind H. injection H as <-. unfold others_same, my_delegation. cbn.
    destruct (d_recs (k_del s) !! d) as [r|]; cbn.
    - destruct (dr_on r); cbn; rewrite lookup_insert_ne by auto; repeat split.
    - rewrite lookup_insert_ne by auto; repeat split.
  Qed.
  Lemma os_any x s d k you : d <> you -> delegate_any cfg x s d = ROk k -> others_same s (set_k_del s k) you.
  Proof.
    intros Hn H. unfold delegate_any in H. inv_bind H. destruct (_ !! _); [|discriminate]. eapply os_do_delegate; eauto.
  Qed.

  Lemma rest_frame x s me c s' ev you : paired (view s) -> me <> you ->
    ~ for_stash s me c you -> owncall c -> dispatch cfg x s (Signed me) c = ROk (s', ev) -> others_same s s' you.
  Proof.
    intros P Hne Hf Hp H.
    assert (Pl : forall ct l, s_ledger (k_stk s) !! ct = Some l -> s_bonded (k_stk s) !! l_stash l = Some ct) by apply P.
    assert (Hl : forall l, s_ledger (k_stk s) !! me = Some l -> s_bonded (k_stk s) !! you <> Some me -> l_stash l <> you).
    { intros l El Hb <-. now apply Hb, Pl. }
    destruct c; try contradiction; cbn [dispatch signed controlled] in H; cbn [for_stash] in Hf.
    - inv_bind H. unfold staking_delegate in H. inv_bind H. inv_bind H. destruct (kx_level x me); [|discriminate].
      inv_bind H. destruct (_ !! _); [|discriminate]. destruct (_ !! _); [|discriminate].
      destruct (transfer_keep _ _ _ _ _); [|discriminate]. inv_bind H. injection H as <- <-.
      match goal with E : delegate_any _ _ ?s1 _ = ROk _ |- _ => pose proof (os_any _ _ _ _ _ Hne E) as (A & B & C) end.
      split; [|split; reflexivity]. etransitivity; [exact A|]. unfold my_delegation. cbn. now rewrite lookup_insert_ne.
    - unfold quiet, bond in H. inv_bind H. injection H as <- <-.
      do 4 (match goal with E : rbind _ _ = ROk _ |- _ => inv_bind E end).
      match goal with E : ROk _ = ROk _ |- _ => injection E as <- end.
      match goal with |- others_same s (update_ledger cfg x ?s1 ?a ?b) you => destruct (os_upd x s1 a b you) as (A & B & C) end.
      unfold others_same. rewrite A, B, C. cbn. rewrite lookup_insert_ne by auto. repeat split.
    - unfold quiet, bond_extra in H. inv_bind H. injection H as <- <-.
      destruct (s_bonded (k_stk s) !! me); [|discriminate]. destruct (s_ledger (k_stk s) !! _); [|discriminate].
      destruct (_ <? _); [injection E as <-; repeat split|]. inv_bind E. injection E as <-. apply os_upd.
    - unfold unbond in H. destruct (s_ledger (k_stk s) !! me); [|discriminate]. inv_bind H. cbn zeta in H.
      destruct (_ =? 0); [injection H as <- _; repeat split|]. destruct (if _ <? _ then _ else _). injection H as <- _. apply os_upd.
    - unfold withdraw_unbonded in H. destruct (s_ledger (k_stk s) !! me) as [l|] eqn:El; [|discriminate]. cbn zeta in H.
      destruct (_ && _); [|injection H as <- _; apply os_upd]. inv_bind H. injection H as <- _.
      eapply os_unstake; [|eassumption]. now apply Hl.
    - destruct (s_ledger (k_stk s) !! me) as [l|] eqn:El; [|discriminate]. injection H as <- _.
      specialize (Hl l eq_refl Hf). unfold others_same. cbn. repeat split. apply os_valid. set_solver.
    - destruct (s_ledger (k_stk s) !! me) as [l|] eqn:El; [|discriminate]. injection H as <- _.
      specialize (Hl l eq_refl Hf). unfold others_same. cbn. repeat split. apply os_valid. set_solver.
    - destruct (s_ledger (k_stk s) !! me) as [l|] eqn:El; [|discriminate]. injection H as <- _.
      specialize (Hl l eq_refl Hf). unfold others_same. cbn. rewrite lookup_insert_ne by auto. repeat split.
    - unfold with_stk in H. inv_bind H. injection H as <- _. unfold set_controller in E.
      destruct (s_bonded (k_stk s) !! me) as [old|]; [|discriminate]. inv_bind E.
      destruct (controller =? old); [injection E as <-; repeat split|]. destruct (s_ledger (k_stk s) !! old); injection E as <-; repeat split.
    - unfold quiet, do_rebond in H. inv_bind H. injection H as <- <-. destruct (s_ledger (k_stk s) !! me); [|discriminate].
      inv_bind E. inv_bind E. injection E as <-. apply os_upd.
    - inv_bind H. unfold quiet in H. inv_bind H. injection H as <- <-. eapply os_unstake; [|eassumption]. exact Hf.
    - unfold with_del in H. inv_bind H. injection H as <- _. unfold delegate in E. do 4 (inv_bind E). eapply os_do_delegate; eauto.
    - inv_bind H. injection H as <- _. unfold undelegate_in, undelegate, others_same, my_delegation. cbn.
      destruct (d_recs (k_del s) !! me) as [r|]; [|repeat split]. destruct (dr_on r); [|repeat split].
      destruct (dr_since r); [destruct (_ =? _)|]; cbn; rewrite ?lookup_insert_ne, ?lookup_delete_ne by auto; repeat split.
    - unfold validator_burn in H. destruct (s_ledger (k_stk s) !! me) as [l|]; [|discriminate]. cbn zeta in H.
      destruct (slash_ledger _ _ _) as [l' amount]. destruct (cslash _ _ _ _ _) as [[b got] ?]. injection H as <- _.
      match goal with |- others_same s (update_ledger cfg x ?s1 ?a ?b) you => destruct (os_upd x s1 a b you) as (A & B & C) end.
      unfold others_same. rewrite A, B, C. repeat split.
  Qed.

  Lemma plain_frame x s me c s' ev you : (forall who, free_of (k_bank s) who < two128) -> paired (view s) -> me <> you ->
    ~ for_stash s me c you -> owncall c -> dispatch cfg x s (Signed me) c = ROk (s', ev) ->
    my_stake s' you = my_stake s you /\ my_delegation s' you = my_delegation s you.
  Proof.
    intros Ty P Hne Hf Hp H. pose proof (stake_frame _ _ _ _ _ _ _ Ty P Hne Hf Hp H) as A.
    destruct (rest_frame _ _ _ _ _ _ _ P Hne Hf Hp H) as (B & C & D). split; [|exact B].
    unfold lviewed in A. injection A as A1 A2. unfold my_stake, stake_of. cbn in A1, A2. rewrite C, D, A1. rewrite A1 in A2. now rewrite A2.
  Qed.
End staking.

(** ** Devices *)
Section nodes.
  Import Model_DeeperNode.
  Context (cfg : dcfg).
  Definition my_node (s : dstate) (a : N) := (d_dev s !! a, d_proof s !! a, d_online s !! a, d_onboard s !! a, d_d2e s !! a).
  Lemma remove_mine s now who you : who <> you -> my_node (try_remove_server cfg s now who) you = my_node s you.
  Proof.
    intros Hn. unfold try_remove_server, my_node. destruct (d_dev s !! who); [|reflexivity]. cbn. now rewrite lookup_insert_ne.
  Qed.
  Lemma add_mine s now who d you : who <> you -> my_node (try_add_server cfg s now who d) you = my_node s you.
  Proof.
    intros Hn. unfold try_add_server, my_node. cbv zeta.
    repeat match goal with |- context [match ?e with Some _ => _ | None => _ end] => destruct e end; try reflexivity.
    cbn. now rewrite lookup_insert_ne.
  Qed.
  Lemma node_mine s x me c s' ev you : me <> you -> dexec cfg s x (Signed me) c = ROk (s', ev) -> my_node s' you = my_node s you.
  Proof.
    intros Hn H. destruct c; cbn [dexec] in H.
    - unfold register_device in H. destruct (ensure _ _); try discriminate. cbn [rbind] in H.
      destruct (d_dev s !! me) as [n|].
      + injection H as <- _. destruct (bool_decide _); [|rewrite <- (remove_mine s (x_now x) me you Hn)]; unfold my_node; cbn; now rewrite lookup_insert_ne.
      + destruct (reserve _ _ _ _); [|discriminate]. injection H as <- _. unfold my_node. cbn. now rewrite lookup_insert_ne.
    - unfold unregister_device in H. destruct (d_dev s !! me); [|discriminate]. injection H as <- _.
      rewrite <- (remove_mine s (x_now x) me you Hn). unfold my_node. cbn. now rewrite lookup_delete_ne.
    - unfold register_server in H. destruct (d_dev s !! me); [|discriminate]. destruct (ensure _ _); try discriminate. cbn [rbind] in H.
      injection H as <- _. now apply add_mine.
    - unfold update_server in H. destruct (d_dev s !! me); [|discriminate]. destruct (ensure _ _); try discriminate. cbn [rbind] in H.
      injection H as <- _. unfold my_node. cbn. now rewrite lookup_insert_ne.
    - unfold unregister_server in H. destruct (d_dev s !! me); [|discriminate]. injection H as <- _. now apply remove_mine.
    - unfold im_online in H. injection H as <- _. unfold my_node. cbn. destruct (bool_decide _); now rewrite !lookup_insert_ne.
    - unfold report_credit_proof in H. destruct (ensure _ _); try discriminate. injection H as <- _. unfold my_node. cbn. now rewrite lookup_insert_ne.
    - unfold reward_mapping in H. destruct (ensure _ _); try discriminate. cbn [rbind] in H.
      destruct (ensure _ _); try discriminate. cbn [rbind] in H.
      destruct (d_d2e s !! me); [destruct (_ =? _); [injection H as <- _; reflexivity|]|]; injection H as <- _;
        unfold my_node; cbn; now rewrite lookup_insert_ne.
    - unfold get_npow_reward in H. destruct (d_d2e s !! me); [|discriminate]. now injection H as <- _.
    - unfold env_transfer in H. destruct (transfer_allow _ _ _ _ _); [|discriminate]. now injection H as <- _.
    - unfold env_reserve in H. destruct (reserve _ _ _ _); [|discriminate]. now injection H as <- _.
    - unfold env_unreserve in H. now injection H as <- _.
  Qed.
End nodes.

(** ** Credit and staking together *)
Section chain.
  Import Model_StakingLedger Model_Staking Spec_Staking Proofs_Staking Proofs_Chain1.
  Context (cfg : jcfg).
  Lemma joined_mine x c s s' me you : me <> you -> mine (joined cfg x c s s' me) you = mine c you.
  Proof.
    intros Hn. unfold joined. destruct (_ !! me); [reflexivity|]. destruct (_ !! me); [|reflexivity]. now apply init_history_mine.
  Qed.
  Lemma lift_ok {A} (r : res Model_Credit.kerr A) a : lift r = ROk a -> r = ROk a.
  Proof. destruct r; cbn; congruence. Qed.
  Lemma jdispatch_mine x c s me k c' s' ev you : (forall who, free_of (k_bank s) who < two128) -> paired (view s) -> me <> you ->
    ~ for_stash s me k you -> owncall k -> jdispatch cfg x c s (Signed me) (JOf k) = ROk (c', s', ev) ->
    mine c' you = mine c you /\ my_stake s' you = my_stake s you /\ my_delegation s' you = my_delegation s you.
  Proof.
    intros Ty P Hn Hf Hp H.
    assert (G : forall y s'' e, dispatch (jc_s cfg) y s (Signed me) k = ROk (s'', e) ->
      my_stake s'' you = my_stake s you /\ my_delegation s'' you = my_delegation s you).
    { intros y s'' e E. eapply plain_frame; eauto. }
    assert (Z : (r <-? dispatch (jc_s cfg) (sctx cfg x c) s (Signed me) k ; ROk (c, r.1, r.2)) = ROk (c', s', ev) ->
      mine c' you = mine c you /\ my_stake s' you = my_stake s you /\ my_delegation s' you = my_delegation s you).
    { intros E. destruct (dispatch _ _ _ _ _) as [[s'' e]| |] eqn:D; try discriminate. cbn in E. injection E as <- <- _.
      split; [reflexivity|]. eapply G; eauto. }
    destruct k; try contradiction; try (apply Z, H).
    - cbn [jdispatch] in H. unfold jstaking_delegate in H. cbn [signed] in H. cbv zeta in H.
      destruct (lift _) as [c1| |] eqn:L; try discriminate. cbn [rbind] in H. apply lift_ok in L.
      destruct (dispatch _ _ _ _ _) as [[s'' e]| |] eqn:D; try discriminate. cbn in H. injection H as <- <- _.
      split; [|eapply G; eauto]. rewrite joined_mine by auto. eapply add_or_update_mine; [|exact L]. auto.
    - cbn [jdispatch] in H. unfold jdelegate in H. cbn [signed] in H.
      destruct (dispatch _ _ _ _ _) as [[s'' e]| |] eqn:D; try discriminate. cbn in H. injection H as <- <- _.
      split; [|eapply G; eauto]. now rewrite joined_mine.
  Qed.
End chain.

(** ** Tips *)
Section tips.
  Import Model_Tips.
  Lemma closing_tipped h b : tipped (closing h b) = None.
  Proof. now destruct b. Qed.
  Lemma tips_credit cfg x s o c t e who v : texec cfg x s o c = ROk (t, e) -> tipped e = Some (who, v) ->
    exists h tip, c = TCreditClose h /\ t_tips s !! h = Some tip /\ ot_who tip = who.
  Proof.
    intros X Tp. destruct c; cbn [texec] in X.
    - destruct (signed o); try discriminate. cbn [rbind] in X. unfold report in X. destruct (ensure _ _); try discriminate. cbn [rbind] in X. cbv zeta in X.
      destruct (ensure _ _); try discriminate. cbn [rbind] in X. destruct (ensure _ _); try discriminate. cbn [rbind] in X.
      destruct (reserve _ _ _ _); [|discriminate]. injection X as <- <-. discriminate.
    - destruct (signed o); try discriminate. cbn [rbind] in X. unfold retract in X. destruct (find_tip _ _); try discriminate. cbn [rbind] in X.
      destruct (ensure _ _); try discriminate. injection X as <- <-. discriminate.
    - destruct (tipper x o); try discriminate. cbn [rbind] in X. unfold tip_new in X. cbv zeta in X. destruct (ensure _ _); try discriminate. injection X as <- <-. discriminate.
    - destruct (tipper x o); try discriminate. cbn [rbind] in X. unfold do_tip in X. destruct (find_tip _ _); try discriminate. cbn [rbind] in X. cbv zeta in X.
      destruct (check_closing _ _ _ _). injection X as <- <-. now rewrite closing_tipped in Tp.
    - destruct (signed o); try discriminate. cbn [rbind] in X. unfold close in X. destruct (find_tip _ _); try discriminate. cbn [rbind] in X.
      destruct (ripe _ _); try discriminate. cbn [rbind] in X. unfold payout_tip in X. destruct (middle _ _); [|discriminate]. injection X as <- <-. discriminate.
    - destruct (ensure _ _); try discriminate. cbn [rbind] in X. unfold slash in X. destruct (find_tip _ _); try discriminate. cbn [rbind] in X. injection X as <- <-. discriminate.
    - destruct (tipper x o); try discriminate. cbn [rbind] in X. unfold credit_new in X. cbv zeta in X. destruct (ensure _ _); try discriminate. injection X as <- <-. discriminate.
    - destruct (tipper x o); try discriminate. cbn [rbind] in X. unfold do_credit_tip in X. destruct (find_tip _ _); try discriminate. cbn [rbind] in X. cbv zeta in X.
      destruct (check_closing _ _ _ _). injection X as <- <-. now rewrite closing_tipped in Tp.
    - destruct (signed o); try discriminate. cbn [rbind] in X. unfold credit_close, find_tip in X. destruct (t_tips s !! h) as [tip|] eqn:E; [|discriminate]. cbn [rbind] in X.
      destruct (ripe _ _); try discriminate. cbn [rbind] in X. destruct (middle _ _); [|discriminate]. injection X as <- <-. injection Tp as <- <-. eauto.
    - destruct o; try discriminate. injection X as <- <-. discriminate.
  Qed.
End tips.

(** ** The whole chain *)
Section world.
  Import Model_StakingLedger Model_Staking Spec_Staking Proofs_Staking Proofs_Chain1.
  Context (cfg : wcfg).
  Context (Hs : Model_Credit.kc_step (jc_c (wc_chain cfg)) <> Model_Credit.U64MAX).
  Local Notation wview w := (view (j_s (w_chain w))).

  Lemma part_same w op w1 a : chain_part cfg w op = Some (w1, a) -> w1 = w \/ exists e, a = JEntry e.
  Proof.
    destruct op as [x act]. destruct act; cbn [chain_part fst snd]; try discriminate.
    - destruct o, c; intros [= <- <-]; eauto.
    - intros [= <- <-]; eauto.
    - intros [= <- <-]; eauto.
    - destruct c; intros [= <- <-]; eauto.
    - destruct (Model_Tips.tstep _ _ _) as [t [[|[] ?]| |]]; intros [= <- <-]; eauto.
    - intros [= <- <-]; eauto.
    - destruct b; intros [= <- <-]; eauto.
  Qed.
  Lemma step_wpaired w op : supply w < two128 -> paired (wview w) -> paired (wview (wstep cfg w op).1).
  Proof.
    intros F P. destruct (wstep cfg w op) as [w' out] eqn:E. cbn [fst].
    destruct out as [ev| |]; [|apply step_same in E as [-> _]; [exact P|discriminate]..].
    apply step_moved in E as [M _]. unfold chain_moved in M.
    destruct (chain_part cfg w op) as [[w1 a]|] eqn:Ep; [|destruct M as [-> _]; exact P].
    destruct M as [Hc M]. unfold wjstep in M. set (j := jsync (w_chain w1) (w_bank w1)) in *.
    destruct (part_same _ _ _ _ Ep) as [->|[e ->]].
    - pose proof (jstep_staking (wc_chain cfg) j (wjctx cfg op.1 w, a) Hs eq_refl) as R. rewrite M in R. cbn [fst snd] in R.
      assert (P' : paired (view (j_s j))) by exact P.
      pose proof (step_paired (jc_s (wc_chain cfg)) (j_s j) (sop (wc_chain cfg) j (wjctx cfg op.1 w, a))) as Q.
      rewrite R in Q. apply Q; [|exact P']. intros who. cbn. pose proof (Proofs_Balances.free_le_money (w_bank w) who).
      rewrite supply_money in F. lia.
    - unfold jstep in M. cbn [fst snd jact_step] in M. destruct (staking_only e); injection M as M1 _; rewrite <- M1; cbn; [rewrite Hc; exact P|].
      unfold j. cbn. rewrite Hc. exact P.
  Qed.

  Definition same_at (w w' : wstate) (a : N) : Prop :=
    mine (j_c (w_chain w')) a = mine (j_c (w_chain w)) a /\
    Model_CreditAccumulation.a_nonce (w_proofs w') !! a = Model_CreditAccumulation.a_nonce (w_proofs w) !! a /\
    my_node (w_node w') a = my_node (w_node w) a /\
    my_stake (j_s (w_chain w')) a = my_stake (j_s (w_chain w)) a /\
    my_delegation (j_s (w_chain w')) a = my_delegation (j_s (w_chain w)) a /\
    Model_Operation.o_info (w_rel w') !! a = Model_Operation.o_info (w_rel w) !! a /\
    Model_Adsc.a_stakers (w_adsc w') !! a = Model_Adsc.a_stakers (w_adsc w) !! a /\
    w_locked w' !! a = w_locked w !! a /\ w_held w' !! a = w_held w !! a.
  Lemma same_affairs w w' a : same_at w w' a -> affairs_of w' a = affairs_of w a.
  Proof.
    intros (A & B & C & D & E & F & G & H1 & H2).
    unfold mine in A. injection A as A1 A2 A3 A4 A5 A6 A7 A8 A9.
    unfold my_node in C. injection C as C1 C2 C3 C4 C5.
    unfold my_stake in D. injection D as D1 D2 D3 D4.
    unfold my_delegation in E. injection E as E1 E2 E3 E4 E5.
    unfold affairs_of. cbv zeta.
    now rewrite A1, A2, A3, A4, A5, A6, A7, A8, A9, B, C1, C2, C3, C4, C5, D1, D2, D3, D4, E1, E2, E3, E4, E5, F, G, H1, H2.
  Qed.
  Lemma same_refl w a : same_at w w a.
  Proof. repeat split. Qed.

  Lemma entry_mine x w e j ev you : wjstep cfg x w (JEntry e) = (j, JDone ev) ->
    (forall c', Model_Credit.kentry_exec (jc_c (wc_chain cfg)) (Model_Credit.set_k_bank (j_c (w_chain w)) (w_bank w)) (cctx cfg x w) e = ROk c' ->
      mine c'.1 you = mine (j_c (w_chain w)) you) ->
    mine (j_c j) you = mine (j_c (w_chain w)) you /\ my_stake (j_s j) you = my_stake (j_s (w_chain w)) you /\
    my_delegation (j_s j) you = my_delegation (j_s (w_chain w)) you.
  Proof.
    intros H G. unfold wjstep, jstep in H. cbn [fst snd jact_step] in H.
    destruct (staking_only e); [injection H as <- _; repeat split|].
    unfold csettle, Model_Credit.kentry_step in H. cbn [jx_c wjctx j_c jsync] in H.
    destruct (Model_Credit.kentry_exec _ _ _ _) as [[c' r]| |] eqn:E; cbn [fst snd] in H; try discriminate.
    injection H as <- _. split; [|split; reflexivity]. cbn. exact (G _ eq_refl).
  Qed.
  Lemma same_chain w j you : mine (j_c j) you = mine (j_c (w_chain w)) you ->
    my_stake (j_s j) you = my_stake (j_s (w_chain w)) you -> my_delegation (j_s j) you = my_delegation (j_s (w_chain w)) you ->
    same_at w (set_w_chain w j) you.
  Proof. intros A B C. repeat split; assumption. Qed.
  Lemma same_trans w w1 w2 a : same_at w w1 a -> same_at w1 w2 a -> same_at w w2 a.
  Proof.
    intros (A & B & C & D & E & F & G & H1 & H2) (A' & B' & C' & D' & E' & F' & G' & H1' & H2').
    repeat split; etransitivity; eassumption.
  Qed.

  (** [me] has no privilege that the call asks for. *)
  Lemma step_plain g w x a you me : agrees (w_priv w) g -> supply w < two128 -> paired (wview w) ->
    (forall o q, needs a = Some (o, POfficer q) -> acc_holds g me q = false) -> signer a = Some me -> me <> you -> ~ on_behalf cfg w me a you ->
    same_at w (wstep cfg w (x, a)).1 you.
  Proof.
    intros A F P Ho Hm Hn Hb. destruct (wstep cfg w (x, a)) as [w' out] eqn:E. cbn [fst].
    destruct out as [ev| |]; [|apply step_same in E as [-> _]; [apply same_refl|discriminate]..].
    assert (No : forall y o q, o = Signed me -> needs a = Some (o, POfficer q) -> has_power g y o (POfficer q) -> False).
    { intros y o q -> Hq (b & [= <-] & Q). now rewrite (Ho _ _ Hq) in Q. }
    assert (Ty : forall who, free_of (w_bank w) who < two128).
    { intros who. pose proof (Proofs_Balances.free_le_money (w_bank w) who). rewrite supply_money in F. lia. }
    destruct a; cbn [signer] in Hm; try discriminate; cbn [wstep fst snd] in E.
    - destruct (ustep _ _ _) as [p [r| |]]; try discriminate. injection E as <- _. repeat split.
    - destruct o as [|me0|]; try discriminate. injection Hm as ->. unfold wproof, Model_CreditAccumulation.astep in E.
      destruct (Model_CreditAccumulation.aexec _ _ _ _ _) as [p| |] eqn:X; try discriminate.
      destruct c; try discriminate. apply to_credit_rest in E as (j & Ej & -> & _).
      cbn in X. unfold Model_CreditAccumulation.add_credit_by_traffic in X. 
      assert (Np : Model_CreditAccumulation.a_nonce p !! you = Model_CreditAccumulation.a_nonce (w_proofs w) !! you).
      { cbn in X. repeat match type of X with
          | rbind ?e _ = _ => destruct e; try discriminate X; cbn [rbind] in X
          | match ?e with _ => _ end = _ => destruct e; try discriminate X
          end; injection X as <-; cbn; now rewrite lookup_insert_ne. }
      apply (entry_mine _ _ _ _ _ you) in Ej as (B1 & B2 & B3).
      + repeat split; assumption.
      + intros [c' r] Q. cbn in Q. destruct (Model_Credit.by_traffic _ _ _ _) as [c1| |] eqn:T; try discriminate.
        cbn in Q. injection Q as <- _. apply (traffic_mine _ you me Hn) in T. exact T.
    - destruct o as [|me0|]; try discriminate. injection Hm as ->. unfold wnode, Model_DeeperNode.dstep in E.
      destruct (negb _); [discriminate|]. destruct (Model_DeeperNode.dexec _ _ _ _ _) as [[d e]| |] eqn:X; try discriminate.
      injection E as <- _. apply (node_mine _ _ _ _ _ _ _ you Hn) in X. repeat split. exact X.
    - destruct o as [|me0|]; try discriminate. injection Hm as ->. apply of_chain_rest in E as (j & e & Ej & -> & _).
      unfold wjstep, jstep in Ej. cbn [fst snd jact_step] in Ej. unfold csettle, Model_Credit.kstep in Ej. cbn [jx_c wjctx] in Ej.
      destruct (Model_Credit.kexec _ _ _ _ _) as [c'| |] eqn:X; cbn [fst snd] in Ej; try discriminate. injection Ej as <- _.
      apply same_chain; [|reflexivity..]. cbn.
      pose proof (credit_allowed cfg g x w A _ _ _ _ X) as Al.
      destruct c; cbn [credit_power] in Al; try (exfalso; eapply No; [reflexivity|reflexivity|exact Al]); try discriminate Al; cbn [Model_Credit.kexec] in X.
      all: first [apply (burn_mine _ you me Hn) in X; exact X | apply (burn_nft_mine _ you me Hn) in X; exact X].
    - destruct o as [|me0|]; try discriminate. injection Hm as ->. apply of_chain_rest in E as (j & e & Ej & -> & _).
      unfold wjstep, jstep in Ej. cbn [fst snd jact_step] in Ej. unfold jsettle in Ej.
      destruct (jdispatch _ _ _ _ _ _) as [[[c' s'] e']| |] eqn:X; try discriminate. injection Ej as <- _.
      pose proof (staking_allowed cfg g x w A _ _ _ _ _ _ _ X) as Al.
      assert (exists k, c = JOf k /\ owncall k) as (k & -> & Hk).
      { destruct c as [k|l]; [|discriminate Al]. exists k. split; [reflexivity|].
        destruct k; cbn [staking_power] in Al; try exact Logic.I; try discriminate Al; (exfalso; eapply No; [reflexivity|reflexivity|exact Al]). }
      assert (Hr : ~ for_stash (j_s (jsync (w_chain w) (w_bank w))) me k you).
      { intros Q. apply Hb. cbn [on_behalf]. destruct k; cbn [for_stash] in Q; try contradiction; try exact Q.
        split; [exact Q|]. subst. cbn [jdispatch dispatch] in X. unfold ensure in X.
        destruct (N.eqb_spec (free (acct_of (w_bank w) you) + rsv (acct_of (w_bank w) you)) (kc_ed (jc_s (wc_chain cfg)))) as [Z|Z].
        - exact Z.
        - exfalso. cbn in X. apply N.eqb_neq in Z. rewrite Z in X. discriminate X. }
      apply (jdispatch_mine _ _ _ _ _ _ _ _ _ you) in X as (B1 & B2 & B3); auto.
      apply same_chain; cbn; assumption.
    - unfold wchannel in E. destruct (negb _); [discriminate|].
      destruct (Model_Micropayment.mstep _ _ _ _ _ _) as [p [r| |]]; try discriminate. injection E as <- _. repeat split.
    - destruct o as [|me0|]; try discriminate. injection Hm as ->. unfold woperation, Model_Operation.ostep in E.
      destruct (Model_Operation.oexec _ _ _ _ _) as [[r e]| |] eqn:X; try discriminate.
      pose proof (operation_allowed cfg g x w A _ _ _ _ _ X) as Al.
      destruct c; cbn [operation_power] in Al; try (exfalso; eapply No; [reflexivity|reflexivity|exact Al]); try discriminate Al.
      + apply to_credit_rest in E as (j & Ej & -> & _). cbn in X. unfold Model_Operation.do_burn in X.
        destruct (ensure _ _); try discriminate. cbn [rbind] in X. destruct (withdraw _ _ _ _ _); [|discriminate].
        injection X as <- _. apply (entry_mine _ _ _ _ _ you) in Ej as (B1 & B2 & B3); [repeat split; assumption|].
        intros [c' q] Q. cbn in Q. injection Q as <- _. reflexivity.
      + injection E as <- _. cbn in X. injection X as <- _. repeat split.
    - destruct o as [|me0|]; try discriminate. injection Hm as ->. unfold wadsc, Model_Adsc.astep in E.
      destruct (Model_Adsc.aexec _ _ _ _ _) as [[r e]| |] eqn:X; try discriminate. injection E as <- _.
      assert (Q : Model_Adsc.a_stakers r = Model_Adsc.a_stakers (w_adsc w)).
      { assert (Na : needs (WAdsc (Signed me) c) = Some (Signed me, POfficer CreditAdmin) ->
          Model_Adsc.ensure_admin (actx cfg x w) (Signed me) = RErr Model_Adsc.ANotAdmin).
        { intros Hq. cbn. rewrite (may_use_holds g w A), (Ho _ _ Hq). reflexivity. }
        destruct c; cbn [Model_Adsc.aexec] in X; unfold Model_Adsc.do_bridge_burn, Model_Adsc.do_bridge_mint in X;
          try rewrite (Na eq_refl) in X; cbn [rbind] in X; try discriminate X; try (injection X as <- _; reflexivity).
        unfold Model_Adsc.do_swap in X. destruct (Model_Adsc.a_ass _); [|discriminate]. destruct (Model_Adsc.atransfer _ _ _ _); [|discriminate].
        destruct (Model_Adsc.a_rate _). destruct (_ =? 0); [discriminate|]. destruct (transfer_allow _ _ _ _ _); [|discriminate].
        now injection X as <- _. }
      repeat split. cbn. now rewrite Q.
    - destruct o as [|me0|]; try discriminate. injection Hm as ->. unfold wtips in E. cbn [Model_Tips.tstep] in E.
      destruct (Model_Tips.texec _ _ _ _ _) as [[t e]| |] eqn:X; try discriminate.
      destruct (tipped e) as [[who v]|] eqn:Tp; [|injection E as <- _; repeat split].
      apply to_credit_rest in E as (j & Ej & -> & _).
      assert (exists h tip, c = Model_Tips.TCreditClose h /\ Model_Tips.t_tips (w_tips w) !! h = Some tip /\ Model_Tips.ot_who tip = who) as (h & tip & -> & Ht & Hw).
      { exact (tips_credit _ _ _ _ _ _ _ _ _ X Tp). }
      apply (entry_mine _ _ _ _ _ you) in Ej as (B1 & B2 & B3); [repeat split; assumption|].
      intros [c' q] Q. cbn in Q. destruct (Model_Credit.by_tip _ _ _ _ _) as [c1| |] eqn:T; try discriminate.
      cbn in Q. injection Q as <- _. apply (tip_mine _ you who) in T; [exact T|]. intros ->. apply Hb. cbn. eauto.
    - destruct (transfer_allow _ _ _ _ _); [|discriminate]. injection E as <- _. repeat split.
  Qed.

  Lemma step_others g w x a you me : agrees (w_priv w) g -> supply w < two128 -> paired (wview w) ->
    (forall q, acc_holds g me q = false) -> signer a = Some me -> me <> you -> ~ on_behalf cfg w me a you ->
    same_at w (wstep cfg w (x, a)).1 you.
  Proof. intros A F P Ho. apply (step_plain g); auto. Qed.

  (** ** Histories *)
  Local Notation upgraded w := (negb (Model_Adsc.a_version (w_adsc w) <? 2)).
  Lemma genesis_wpaired b p settings data evm u : paired (wview (wgenesis b p settings data evm u)).
  Proof. split; cbn; intros *; rewrite lookup_empty; discriminate. Qed.
  Lemma genesis_supply b p settings data evm u : supply (wgenesis b p settings data evm u) = money b.
  Proof. rewrite supply_money. cbn. unfold Spec_Micropayment.sum_channels. cbn. rewrite msum_empty. lia. Qed.
  Lemma created_prefix h1 h2 : forall w up, created up (wlog cfg w h1) <= created up (wlog cfg w (h1 ++ h2)).
  Proof.
    induction h1 as [|op h1 IH]; intros w up; [cbn; lia|]. cbn [app]. rewrite !wlog_cons. cbn [created].
    specialize (IH (wstep cfg w op).1). lia || (apply N.add_le_mono_l, IH).
  Qed.
  Lemma run_wpaired h : forall w, supply w + created (upgraded w) (wlog cfg w h) < two128 ->
    paired (wview w) -> paired (wview (wrun cfg w h)).
  Proof.
    induction h as [|op h IH]; intros w F P; [exact P|]. cbn [wrun].
    apply IH; [exact (Proofs_World16.created_split cfg Hs h [op] w F)|]. apply step_wpaired; [lia|exact P].
  Qed.
  Lemma run_others h : forall h0 w you, agrees (w_priv w) (granted h0) ->
    supply w + created (upgraded w) (wlog cfg w h) < two128 -> paired (wview w) -> by_others cfg h0 w h you ->
    affairs_of (wrun cfg w h) you = affairs_of w you.
  Proof.
    induction h as [|op h IH]; intros h0 w you A F P Hb; [reflexivity|]. destruct Hb as [(me & Hm & Hn & Ho & Hb) Hr].
    cbn [wrun]. assert (F0 : supply w < two128) by lia.
    transitivity (affairs_of (wstep cfg w op).1 you).
    - apply (IH (h0 ++ [op])); [|exact (Proofs_World16.created_split cfg Hs h [op] w F)|now apply step_wpaired|exact Hr].
      pose proof (run_priv cfg [op] w _ A) as A'. unfold granted in *. now rewrite fold_left_app.
    - destruct op as [x a]. apply same_affairs, (step_others (granted h0) w x a you me); auto.
  Qed.
End world.
