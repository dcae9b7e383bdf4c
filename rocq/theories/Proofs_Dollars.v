(** Proofs about stakes in dollars. *)
From Verif Require Import Base Balances Model_UserPrivileges.
From Verif Require Model_Credit.
From Verif Require Import Model_StakingLedger Model_Staking Model_Chain Proofs_Arith
  Proofs_Credit Proofs_Chain1 Proofs_Chain2 Proofs_Chain10 Spec_Chain2 Spec_Dollars.
From stdpp Require Import gmap.
Open Scope N_scope.

Local Ltac split_bind H :=
  let a := fresh "a" in let Ha := fresh "Ha" in apply rbind_ok in H as (a & Ha & H).

Section dollars.
  Context (cfg : jcfg).
  Local Notation cc := (jc_c cfg).
  Local Notation sc := (jc_s cfg).
  Context (Hstep : Model_Credit.kc_step cc <> Model_Credit.U64MAX).

  (** What of the credit pallet matters here. *)
  Definition part (c : credit) := (Model_Credit.k_stakebal c, Model_Credit.k_usdt_id c).

  Lemma same_part s s' : same_rest s s' -> part s' = part s.
  Proof. intros ->. reflexivity. Qed.
  Lemma fold_part l : forall s, part (fold_left Model_Credit.update_setting l s) = part s.
  Proof. induction l as [|a l IH]; intros s; [reflexivity|]. cbn [fold_left]. now rewrite IH. Qed.

  Lemma call_part s x o c s' : Model_Credit.kexec cc s x o c = ROk s' ->
    match c with
    | Model_Credit.KUnsetStaking w => part s' = (delete w (Model_Credit.k_stakebal s), Model_Credit.k_usdt_id s)
    | _ => part s' = part s
    end.
  Proof.
    intros H. apply kexec_rest in H.
    destruct c; repeat match goal with
      | H : exists _, _ |- _ => destruct H as [? H]
      | H : _ /\ _ |- _ => destruct H as [? H]
      end; subst; try reflexivity; try (apply same_part in H; exact H).
  Qed.

  Lemma entry_part s x e : 
    match e with
    | Model_Credit.KStakingBalance _ _ _ => True
    | _ => part (Model_Credit.kdo cc s (x, inr e)) = part s
    end.
  Proof.
    unfold Model_Credit.kdo, Model_Credit.kentry_step. cbn [fst snd].
    destruct (Model_Credit.kentry_exec cc s x e) as [[s' r]| |] eqn:H; cbn [fst]; [|now destruct e..].
    apply kentry_rest in H; [|exact Hstep].
    destruct e; auto; repeat match goal with
      | H : exists _, _ |- _ => destruct H as [? H]
      | H : _ \/ _ |- _ => destruct H as [H|H]
      end; subst; try reflexivity; try (apply same_part in H; exact H).
    - unfold Model_Credit.on_initialize. repeat case_match; reflexivity.
    - unfold Model_Credit.set_price. now destruct (Model_Credit.k_prices s).
    - unfold Model_Credit.on_upgrade. repeat case_match; rewrite ?fold_part; reflexivity.
  Qed.

  Definition nobal (e : Model_Credit.kentry) : Prop :=
    match e with Model_Credit.KStakingBalance _ _ _ => False | _ => True end.
  Lemma entry_nobal s x e : nobal e -> part (Model_Credit.kdo cc s (x, inr e)) = part s.
  Proof. intros H. pose proof (entry_part s x e) as P. destruct e; try exact P. destruct H. Qed.
  Lemma reach_part x c c' : Proofs_Chain2.reach cfg x nobal c c' -> part c' = part c.
  Proof.
    intros (l & -> & F). revert c. induction l as [|e l IH]; intros c; [reflexivity|].
    apply Forall_cons in F as [F1 F]. cbn [map Model_Credit.krun fold_left]. unfold Model_Credit.krun in IH.
    rewrite (IH F). now apply entry_nobal.
  Qed.
  Lemma joined_part x c s s' d : part (joined cfg x c s s' d) = part c.
  Proof.
    unfold joined. destruct (d_recs (k_del s) !! d); [reflexivity|]. destruct (d_recs (k_del s') !! d); [|reflexivity].
    unfold Model_Credit.init_delegator_history. destruct (Model_Credit.k_uc c !! d); reflexivity.
  Qed.
  Lemma add_part c x w gap camp c' : Model_Credit.add_or_update cc c x w gap camp = ROk c' -> part c' = part c.
  Proof.
    intros H. pose proof (entry_nobal c x (Model_Credit.KAddOrUpdate w gap camp) Logic.I) as P.
    unfold Model_Credit.kdo, Model_Credit.kentry_step, Model_Credit.kentry_exec in P. cbn [fst snd] in P.
    rewrite H in P. exact P.
  Qed.

  (** A call of the staking pallet. *)
  Lemma dispatch_part x c s o call c' s' ev : jdispatch cfg x c s o call = ROk (c', s', ev) ->
    match call with
    | JOf (KUsdtDelegate w u v) => part c' = part (Model_Credit.set_staking_balance c w u v)
    | _ => part c' = part c
    end.
  Proof.
    intros H.
    assert (G : (forall e, may s (JCall o call) e -> nobal e) -> part c' = part c).
    { intros M. exact (reach_part x c c' (jdispatch_reach cfg x nobal c s o call c' s' ev M H)). }
    destruct call as [k|l]; [|apply G; intros e He; destruct e; cbn in He; first [exact Logic.I|tauto|now destruct o]].
    destruct k; try (apply G; intros e He; destruct e; cbn in He; first [exact Logic.I|tauto|now destruct o]).
    - cbn [jdispatch] in H. unfold jstaking_delegate in H. destruct o; try discriminate H. cbn [signed] in H. split_bind H.
      apply lift_ok in Ha. split_bind H. injection H as <- _ _. rewrite joined_part. now apply add_part in Ha.
    - cbn [jdispatch] in H. unfold jusdt_delegate in H. cbv zeta in H.
      match type of H with (let '(_, _) := ?p in _) = _ => destruct p as [cur rest] end.
      split_bind H. apply lift_ok in Ha. split_bind H. injection H as <- _ _. rewrite joined_part. apply add_part in Ha.
      unfold part, Model_Credit.set_staking_balance in *. injection Ha as A1 A2. cbn. rewrite A1, A2. reflexivity.
    - cbn [jdispatch] in H. unfold jdelegate in H. destruct o; try discriminate H. cbn [signed] in H. split_bind H.
      injection H as <- _ _. apply joined_part.
  Qed.

  Lemma settle_part j (r : res kerr (credit * kstate * list kev)) :
    (forall c s ev, r = ROk (c, s, ev) -> part c = part (j_c j)) -> part (j_c (jsettle j r).1) = part (j_c j).
  Proof. intros H. destruct r as [[[c s] ev]| |]; cbn; [|reflexivity..]. exact (H c s ev eq_refl). Qed.

  Lemma step_dollars j op a :
    let r := jstep cfg j op in
    dollars r.1 a = entered a op r.2 (dollars j a) /\ Model_Credit.k_usdt_id (j_c r.1) = Model_Credit.k_usdt_id (j_c j).
  Proof.
    cbv zeta. destruct op as [x [o c|e|o c| | |i|i|i|y|os i|b]]; unfold jstep, entered, dollars; cbn [fst snd jact_step].
    - unfold csettle, Model_Credit.kstep. cbn [fst snd j_c].
      destruct (Model_Credit.kexec cc (j_c j) (jx_c x) o c) as [s'| |] eqn:E; cbn [fst snd]; [|destruct c; split; reflexivity..].
      apply call_part in E. unfold part in E.
      destruct c; injection E as E1 E2; (split; [|exact E2]); rewrite E1; try reflexivity.
      destruct (N.eqb_spec who a) as [->|Hn]; [apply lookup_delete|now apply lookup_delete_ne].
    - destruct (staking_only e) eqn:So; [split; reflexivity|]. unfold csettle. cbn [fst snd j_c].
      assert (N1 : nobal e) by (destruct e; try exact Logic.I; discriminate So).
      pose proof (entry_nobal (j_c j) (jx_c x) e N1) as P. unfold Model_Credit.kdo in P. cbn [fst snd] in P. unfold part in P.
      injection P as P1 P2. now rewrite P1, P2.
    - destruct (jdispatch cfg x (j_c j) (j_s j) o c) as [[[c' s'] ev]| |] eqn:E; cbn [jsettle fst snd j_c];
        [|destruct c as [k|]; [destruct k|]; split; reflexivity..].
      apply dispatch_part in E. destruct c as [k|l]; [|unfold part in E; injection E as E1 E2; cbn; now rewrite E1, E2].
      destruct k; try (unfold part in E; injection E as E1 E2; cbn; now rewrite E1, E2).
      unfold part in E. injection E as E1 E2. cbn in E2. cbn. rewrite E2. split; [|reflexivity].
      rewrite E1. unfold Model_Credit.set_staking_balance. cbn [Model_Credit.k_stakebal Model_Credit.set_k_stakebal].
      destruct (N.eqb_spec who a) as [->|Hn]; [|now rewrite lookup_insert_ne by exact Hn].
      rewrite lookup_insert. destruct (Model_Credit.k_stakebal (j_c j) !! a) as [[u v]|]; reflexivity.
    - assert (P : part (j_c (jsettle j (jon_initialize cfg x (j_c j) (j_s j))).1) = part (j_c j)).
      { apply settle_part. intros c s ev H. apply (reach_part x). eapply jon_initialize_reach; [|exact H]. intros; exact Logic.I. }
      unfold part in P. injection P as P1 P2. now rewrite P1, P2.
    - split; reflexivity.
    - split; reflexivity.
    - assert (P : part (j_c (jsettle j (jstart_session cfg x (j_c j) (j_s j) i)).1) = part (j_c j)).
      { apply settle_part. intros c s ev H. apply (reach_part x). eapply jstart_session_reach; [|exact H]. intros; exact Logic.I. }
      unfold part in P. injection P as P1 P2. now rewrite P1, P2.
    - split; reflexivity.
    - split; reflexivity.
    - assert (P : part (j_c (jsettle j (jon_offence cfg x (j_c j) (j_s j) os i)).1) = part (j_c j)).
      { apply settle_part. intros c s ev H. apply (reach_part x). eapply jon_offence_reach; [|exact H]. intros; exact Logic.I. }
      unfold part in P. injection P as P1 P2. now rewrite P1, P2.
    - split; reflexivity.
  Qed.

  Lemma run_dollars a : forall h j,
    dollars (jrun cfg j h) a = entered_all a h (jouts cfg j h) (dollars j a) /\
    Model_Credit.k_usdt_id (j_c (jrun cfg j h)) = Model_Credit.k_usdt_id (j_c j).
  Proof.
    induction h as [|op h IH]; intros j; [split; reflexivity|]. cbn [jrun jouts entered_all].
    destruct (step_dollars j op a) as [E1 E2]. destruct (IH (jstep cfg j op).1) as [I1 I2].
    now rewrite I1, I2, E1, E2.
  Qed.

  (** The price list is empty for the other kind. *)
  Lemma list_kind c w id d : Model_Credit.get_credit_balance c w (Some id) <> [] ->
    Model_Credit.k_uc c !! w = Some d -> (Model_Credit.cd_camp d = 5 <-> id = 5).
  Proof.
    unfold Model_Credit.get_credit_balance. intros H E. rewrite E in H. cbn [fmap option_fmap option_map] in H.
    destruct (Model_Credit.same_campaign_type (Model_Credit.cd_camp d) id) eqn:S1; [|destruct (H eq_refl)].
    unfold Model_Credit.same_campaign_type, Model_Credit.is_dpr_campaign in S1.
    destruct (N.eqb_spec (Model_Credit.cd_camp d) 5), (N.eqb_spec id 5); cbn in S1; rewrite ?andb_false_r in S1; cbn in S1; try tauto; discriminate.
  Qed.

  Lemma buys_kind x j w n j' ev : jstep cfg j (x, JCall (Signed w) (JOf (KStakeDelegate n))) = (j', JDone ev) ->
    exists camp, campaign_of j w = Some camp /\ (camp = 5 <-> Model_Credit.k_default_id (j_c j) = 5).
  Proof.
    intros H. unfold jstep, jact_step in H. cbn [fst snd jdispatch] in H. unfold jsettle in H.
    destruct (jstaking_delegate _ _ _ _ _ _) as [[[c' s'] ev']| |] eqn:E; try discriminate. clear H.
    unfold jstaking_delegate in E. cbn [signed] in E. split_bind E. split_bind E. clear E Ha.
    rename Ha0 into E. cbn [dispatch signed] in E. unfold staking_delegate in E. split_bind E. clear Ha. cbv zeta in E. split_bind E.
    apply ensure_ok, negb_true_iff, bool_decide_eq_false in Ha. cbn in Ha. cbv zeta in E. split_bind E.
    unfold campaign_of. cbn in E. unfold Model_Credit.credit_score in E.
    destruct (Model_Credit.k_uc (j_c j) !! w) as [d|] eqn:Ed; [|cbn in E; discriminate E].
    exists (Model_Credit.cd_camp d). split; [reflexivity|]. now apply (list_kind _ _ _ _ Ha).
  Qed.

  Lemma enters_kind x j o w u v j' ev : jstep cfg j (x, JCall o (JOf (KUsdtDelegate w u v))) = (j', JDone ev) ->
    (exists a, o = Signed a /\ Model_Credit.kx_priv (jx_c x) a CreditAdmin = true) /\
    (forall camp, campaign_of j w = Some camp -> (camp = 5 <-> Model_Credit.k_usdt_id (j_c j) = 5)) /\
    campaign_of j' w = Some (default (Model_Credit.k_usdt_id (j_c j)) (campaign_of j w)).
  Proof.
    intros H. unfold jstep, jact_step in H. cbn [fst snd jdispatch] in H. unfold jsettle in H.
    destruct (jusdt_delegate _ _ _ _ _ _ _ _) as [[[c' s'] ev']| |] eqn:E; try discriminate. injection H as <- _.
    unfold jusdt_delegate in E. cbv zeta in E. match type of E with (let '(_, _) := ?p in _) = _ => destruct p as [cur rest] end.
    split_bind E. apply lift_ok in Ha. apply add_or_update_uc in Ha as [U1 U2].
    split_bind E. destruct a0 as [s1 e1]. cbn [fst snd] in E. injection E as <- <- _. rename Ha into E.
    cbn [dispatch] in E. unfold admin in E. destruct o as [|y|]; try discriminate. cbn [signed] in E.
    split_bind E. apply ensure_ok in Ha. cbn in Ha.
    unfold usdt_delegate in E. cbv zeta in E. split_bind E.
    match goal with H : ensure _ _ = ROk _ |- _ => apply ensure_ok in H; apply negb_true_iff, bool_decide_eq_false in H; cbn in H; rename H into Hb end.
    split; [exists y; split; [reflexivity|exact Ha]|]. unfold campaign_of. split.
    - intros camp Ec. destruct (Model_Credit.k_uc (j_c j) !! w) as [d|] eqn:Ed; [|discriminate Ec].
      cbn in Ec. injection Ec as <-. now apply (list_kind _ _ _ _ Hb).
    - cbn [j_c]. rewrite bank_uc, (proj1 (joined_uc' _ _ _ _ _ _)).
      change (Model_Credit.k_uc (Model_Credit.set_staking_balance a w u v)) with (Model_Credit.k_uc a).
      rewrite U1, lookup_insert. unfold raised. destruct (Model_Credit.k_uc (j_c j) !! w) as [d|]; reflexivity.
  Qed.
End dollars.
