(** Ceilings for new DPR in the whole chain. *)
From Verif Require Import Base Balances Model_UserPrivileges.
From Verif Require Model_Credit Model_Staking Model_Operation Model_Adsc Spec_Staking Spec_Operation Proofs_Staking12 Proofs_Chain7.
From Verif Require Import Model_Chain Model_World Spec_World Spec_World2 Spec_Chain Proofs_Chain1 Proofs_World2 Proofs_World3 Proofs_World5.
From stdpp Require Import gmap.
Open Scope N_scope.

Section ceilings.
  Context (cfg : wcfg).
  Local Notation cc := (wc_chain cfg).
  Local Notation sc := (jc_s (wc_chain cfg)).

  (** ** The mining pool *)
  Lemma minted_app a b : Spec_Staking.minted (a ++ b) = Spec_Staking.minted a + Spec_Staking.minted b.
  Proof. unfold Spec_Staking.minted. rewrite map_app. apply lsum_app. Qed.
  Lemma raised_app a b : Spec_Staking.raised (a ++ b) = Spec_Staking.raised a + Spec_Staking.raised b.
  Proof. unfold Spec_Staking.raised. rewrite map_app. apply lsum_app. Qed.

  Lemma step_pool_world w op :
    Model_Credit.kc_step (jc_c cc) <> Model_Credit.U64MAX ->
    Proofs_Staking12.tally (Model_Staking.k_era (j_s (w_chain w))) -> few_points cfg w ->
    let w' := (wstep cfg w op).1 in
    let ev := match (wstep cfg w op).2 with WDone ev => omap staking_event ev | _ => [] end in
    Spec_Staking.minted ev + left_to_mint cfg w' <= left_to_mint cfg w + Spec_Staking.raised ev + rounding1 cfg w op /\
    Proofs_Staking12.tally (Model_Staking.k_era (j_s (w_chain w'))).
  Proof.
    intros Hs T P. destruct (wstep cfg w op) as [w' out] eqn:E. cbn [fst snd].
    destruct out as [ev| |]; [|apply step_same in E as [-> _]; [cbn; split; [lia|exact T]|discriminate]..].
    apply step_moved in E as [M _]. unfold chain_moved in M.
    destruct (chain_part cfg w op) as [[w1 a]|] eqn:Ep.
    2: { destruct M as [Hc ->]. unfold left_to_mint. rewrite Hc. split; [cbn; lia|exact T]. }
    destruct M as [Hc M]. unfold wjstep in M. set (j := jsync (w_chain w1) (w_bank w1)) in *.
    set (jo := (wjctx cfg op.1 w1, a)) in *.
    pose proof (jstep_staking cc j jo Hs eq_refl) as R. rewrite M in R. cbn [fst snd] in R.
    assert (T' : Proofs_Staking12.tally (Model_Staking.k_era (j_s j))) by (unfold j; rewrite Hc; exact T).
    assert (P' : Spec_Staking.small_points sc (j_s j)) by (unfold j; rewrite Hc; exact P).
    pose proof (Proofs_Staking12.step_pool sc (j_s j) (sop cc j jo) T' P') as [A B]. rewrite R in A, B. cbn [fst snd] in A, B.
    split; [|exact B].
    replace (Spec_Staking.events [Model_Staking.KDone (omap staking_event ev)]) with (omap staking_event ev) in A
      by (unfold Spec_Staking.events; cbn; symmetry; apply app_nil_r).
    unfold left_to_mint.
    assert (L : Spec_Staking.mining_pool sc (j_s j) = Spec_Staking.mining_pool sc (j_s (w_chain w))) by (unfold j; rewrite Hc; reflexivity).
    assert (O : Spec_Staking.overdraft sc (j_s j) (sop cc j jo) <= rounding1 cfg w op).
    { unfold sop. rewrite M. cbn [fst snd].
      destruct a; try (cbn; lia). unfold jo. cbn [snd fst].
      assert (J : op.2 = WBlock (BEndSession i)).
      { clear R M jo A B. destruct op as [x a0]. cbn [snd]. destruct a0; cbn [chain_part fst snd] in Ep; try discriminate.
        - destruct o, c; discriminate.
        - destruct c; discriminate.
        - destruct (Model_Tips.tstep _ _ _) as [t [[|[] ?]| |]]; discriminate.
        - destruct b; try discriminate. now injection Ep as _ ->. }
      unfold rounding1. rewrite J. unfold Spec_Staking.overdraft, left_to_mint.
      unfold j. rewrite Hc. apply N.le_refl. }
    rewrite L in A. lia.
  Qed.

  Lemma run_pool_world : Model_Credit.kc_step (jc_c cc) <> Model_Credit.U64MAX ->
    forall h w, Proofs_Staking12.tally (Model_Staking.k_era (j_s (w_chain w))) -> along cfg (few_points cfg) w h ->
    mints (wlog cfg w h) + left_to_mint cfg (wrun cfg w h) <=
    left_to_mint cfg w + raises (wlog cfg w h) + roundings cfg w h.
  Proof.
    intros Hs. induction h as [|op h IH]; intros w T A; [cbn; lia|]. destruct A as [A1 A2].
    destruct (step_pool_world w op Hs T A1) as [P Q]. specialize (IH _ Q A2).
    unfold mints, raises in *. cbn [wrun roundings]. rewrite wlog_cons, events_cons, map_app, minted_app, raised_app. cbn [fst snd].
    set (one := map snd (match (wstep cfg w op).2 with WDone ev => map (fun v => (wx_ms op.1, v)) (omap staking_event ev) | _ => [] end)).
    assert (Z : one = match (wstep cfg w op).2 with WDone ev => omap staking_event ev | _ => [] end).
    { unfold one. destruct (wstep cfg w op).2; [apply snd_stamp|reflexivity..]. }
    rewrite Z. lia.
  Qed.

  (** ** The parts of what is created *)
  Lemma issued_split ms ev :
    lsum (map issued ev) = Spec_Staking.minted (omap staking_event ev) +
      Spec_Operation.paid_out (map (fun v => (ms, v)) (omap release_event ev)).
  Proof.
    unfold Spec_Staking.minted, Spec_Operation.paid_out.
    induction ev as [|e ev IH]; [reflexivity|]. cbn [map lsum foldr]. 
    destruct e; try match goal with |- context [VStaking ?v] => destruct v | |- context [VRelease ?v] => destruct v end;
      cbn; unfold lsum in *; cbn; rewrite ?IH; lia.
  Qed.
  Lemma paid_out_app a b : Spec_Operation.paid_out (a ++ b) = Spec_Operation.paid_out a + Spec_Operation.paid_out b.
  Proof. unfold Spec_Operation.paid_out. rewrite omap_app. apply lsum_app. Qed.
  Lemma created_split l : forall up,
    created up l = mints l + releases_sum l + pool_fills up l.
  Proof.
    induction l as [|e l IH]; intros up; [reflexivity|]. cbn [created pool_fills]. rewrite IH.
    unfold mints, releases_sum. rewrite !events_cons, map_app, minted_app, paid_out_app.
    unfold created1, pooled1. destruct e as [op [ev| |]]; cbn [fst snd]; [|cbn; lia..].
    rewrite (issued_split (wx_ms op.1)), snd_stamp. lia.
  Qed.

  (** ** Released stakes *)
  Lemma view_chrono h : forall w t, in_time t h -> Spec_Operation.chrono t (view cfg (rel_view1 cfg) w h).
  Proof.
    assert (A : forall l h t u, (Forall (fun op => Model_Operation.ox_time op = u) (map fst l)) -> t <= u -> Spec_Operation.day u < 2 ^ 32 ->
      Spec_Operation.chrono u h -> Spec_Operation.chrono t h -> Spec_Operation.chrono t (l ++ h)).
    { induction l as [|o l IHl]; intros h0 t u F L D C Ct; [exact Ct|]. inversion F as [|? ? F1 F2]; subst.
      cbn. repeat split; [exact L|exact D|]. apply (IHl _ _ (Model_Operation.ox_time o.1)); auto. }
    assert (B : forall h t u, t <= u -> Spec_Operation.chrono u h -> Spec_Operation.chrono t h).
    { intros [|o l] t u L; [done|]. cbn. intros (X & Y & Z). repeat split; auto. lia. }
    induction h as [|op h IH]; intros w t C; [exact I|]. destruct C as (C1 & C2 & C3).
    cbn [view]. specialize (IH (wstep cfg w op).1 _ C3).
    apply (A _ _ _ (wx_ms op.1)); auto; [|eapply B; eauto].
    unfold rel_view1. destruct (done _); [|constructor]. rewrite map_app. apply Forall_app. split.
    - destruct (rel_part op); repeat constructor.
    - repeat constructor.
  Qed.
  Lemma view_limits S D h : forall w, Forall (limits_up_to S D) h ->
    Forall (Spec_Operation.limits_within S D) (view cfg (rel_view1 cfg) w h).
  Proof.
    induction h as [|op h IH]; intros w F; [constructor|]. inversion F as [|? ? F1 F2]; subst.
    cbn [view]. apply Forall_app. split; [|now apply IH]. unfold rel_view1. destruct (done _); [|constructor].
    apply Forall_app. split; [|repeat constructor]. destruct op as [x a].
    destruct a; cbn; try constructor; try constructor.
    - unfold limits_up_to in F1. cbn in F1. unfold Spec_Operation.limits_within. cbn. exact F1.
    - destruct b; constructor; constructor.
  Qed.

  (** ** Privileges *)
  Lemma priv_refines h : forall w, urun (w_priv w) (priv_view h) = w_priv (wrun cfg w h).
  Proof.
    induction h as [|op h IH]; intros w; [reflexivity|]. cbn [wrun]. rewrite <- IH.
    destruct op as [x a]. rewrite step_priv. cbn [snd]. destruct a; reflexivity.
  Qed.
End ceilings.

Lemma genesis_jproj b p settings data evm u : jproj (wgenesis b p settings data evm u) = jgenesis b p settings data.
Proof.
  unfold jproj, jsync, jgenesis. cbn [wgenesis w_chain w_bank j_c j_s jgenesis]. f_equal.
  pose proof (Proofs_Chain7.genesis_synced b p settings data) as E. unfold synced, jgenesis in E. cbn [j_c j_s] in E.
  change (Model_Staking.k_bank (Model_Staking.kgenesis b p)) with b in E.
  rewrite <- E at 2. now destruct (Model_Credit.kinit b settings data).
Qed.
