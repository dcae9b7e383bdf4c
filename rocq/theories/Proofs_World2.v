(** The steps of the joined chain: supply and deposits. *)
From Verif Require Import Base Balances Model_UserPrivileges.
From Verif Require Model_Credit Model_Staking Model_DeeperNode Model_CreditAccumulation.
From Verif Require Model_Micropayment Model_Operation Model_Adsc Model_Tips Spec_Tips Spec_Micropayment.
From Verif Require Import Model_Chain Model_World Spec_World Proofs_Balances Proofs_World1.
From Verif Require Proofs_Tips4 Proofs_DeeperNode2 Proofs_Micropayment Proofs_Chain1.
From stdpp Require Import gmap.
Open Scope N_scope.

Section world.
  Context (cfg : wcfg).
  Notation rsvd w a := (rsv (acct_of (w_bank w) a)).

  (** The reserves are what the chain owes. *)
  Definition covered (w : wstate) : Prop :=
    Proofs_Tips4.rinv (wc_tips cfg) (w_tips w) /\ forall a, rsvd w a = deposits cfg w a.
  (** From [w] to [w'], [m] is created; reserves and deposits change together. *)
  Definition eff (w : wstate) (m : N) (w' : wstate) : Prop :=
    supply w' = supply w + m /\ lost (w_bank w) <= lost (w_bank w') /\
    (Spec_Tips.hash_inj (Model_Tips.tc_thash (wc_tips cfg)) -> covered w -> covered w').

  Lemma eff_refl w : eff w 0 w.
  Proof. split; [lia|]. split; [lia|auto]. Qed.
  Lemma eff_trans w m w1 m1 w2 : eff w m w1 -> eff w1 m1 w2 -> eff w (m + m1) w2.
  Proof. intros (A & B & C) (A1 & B1 & C1). split; [lia|]. split; [lia|auto]. Qed.

  Lemma supply_money w : supply w = money (w_bank w) + Spec_Micropayment.sum_channels (w_chan w).
  Proof. unfold supply, money, Spec_Micropayment.sum_channels. lia. Qed.

  (** Steps that leave channels and deposits alone. *)
  Lemma flow_eff w w' m : flow (w_bank w) m 0 (w_bank w') ->
    Model_Micropayment.m_chan (w_chan w') = Model_Micropayment.m_chan (w_chan w) ->
    Model_DeeperNode.d_dev (w_node w') = Model_DeeperNode.d_dev (w_node w) ->
    Model_Tips.t_tips (w_tips w') = Model_Tips.t_tips (w_tips w) ->
    Model_Tips.t_reasons (w_tips w') = Model_Tips.t_reasons (w_tips w) ->
    w_locked w' = w_locked w -> w_held w' = w_held w -> eff w m w'.
  Proof.
    intros [[A B] K] E1 E2 E3 E4 E5 E6. split; [|split; [exact B|]].
    - rewrite !supply_money. unfold Spec_Micropayment.sum_channels. rewrite E1. lia.
    - intros _ [R D]. split.
      + unfold Proofs_Tips4.rinv in *. rewrite E3, E4. exact R.
      + intros a. rewrite K, D. unfold deposits. now rewrite E2, E3, E5, E6.
  Qed.

  Context (Hs : Model_Credit.kc_step (jc_c (wc_chain cfg)) <> Model_Credit.U64MAX).

  Lemma wjstep_flow x w a j ev : (forall b, a <> JBank b) -> wjstep cfg x w a = (j, JDone ev) ->
    flow (w_bank w) (lsum (map issued (map VStaking ev))) 0 (w_bank (set_w_chain w j)).
  Proof.
    intros Hb H. exact (chain_flow _ _ _ _ _ _ Hs (eq_refl : Proofs_Chain1.synced (jsync (w_chain w) (w_bank w))) Hb H).
  Qed.
  Lemma of_chain_eff x w a w' ev : (forall b, a <> JBank b) -> of_chain w (wjstep cfg x w a) = (w', WDone ev) ->
    eff w (lsum (map issued ev)) w' /\ w_adsc w' = w_adsc w.
  Proof.
    intros Hb H. unfold of_chain in H. destruct (wjstep cfg x w a) as [j [e| |]] eqn:E; try discriminate.
    injection H as <- <-. apply wjstep_flow in E; [|exact Hb]. split; [|reflexivity]. apply flow_eff; [exact E|reflexivity..].
  Qed.
  Lemma entry_events x w e j ev : wjstep cfg x w (JEntry e) = (j, JDone ev) -> ev = [].
  Proof.
    unfold wjstep, jstep. cbn. destruct (staking_only e); [now intros [= _ <-]|]. unfold csettle.
    destruct (Model_Credit.kentry_step _ _ _ _) as [c [?|?|]]; cbn; intros H; now inversion H.
  Qed.
  Lemma to_credit_eff x w e v w0 w' ev : to_credit cfg x w e v w0 = (w', WDone ev) ->
    ev = v /\ eff w 0 w' /\ w_adsc w' = w_adsc w.
  Proof.
    unfold to_credit. intros H. destruct (wjstep cfg x w (JEntry e)) as [j [e0| |]] eqn:E; try discriminate.
    injection H as <- <-. pose proof (entry_events _ _ _ _ _ E) as ->.
    apply wjstep_flow in E; [|discriminate]. split; [reflexivity|]. split; [|reflexivity].
    apply flow_eff; [exact E|reflexivity..].
  Qed.

  Lemma proof_eff x w o c w' ev : wproof cfg x w o c = (w', WDone ev) ->
    eff w (lsum (map issued ev)) w' /\ w_adsc w' = w_adsc w.
  Proof.
    unfold wproof. destruct (Model_CreditAccumulation.astep _ _ _ _ _) as [p [r| |]]; try discriminate.
    assert (A : eff w 0 (set_w_proofs w p)) by (apply flow_eff; [apply flow_refl|reflexivity..]).
    intros H.
    assert (B : (w', WDone ev) = (set_w_proofs w p, WDone []) \/
                exists a, to_credit cfg x (set_w_proofs w p) (Model_Credit.KTraffic a) [] w = (w', WDone ev)).
    { destruct o, c; auto; right; eauto. }
    destruct B as [B|[a B]].
    - injection B as -> ->. split; [exact A|reflexivity].
    - apply to_credit_eff in B as (-> & B & E). split; [|exact E]. exact (eff_trans _ _ _ _ _ A B).
  Qed.
  Lemma node_eff x w o c w' ev : wnode cfg x w o c = (w', WDone ev) ->
    eff w (lsum (map issued ev)) w' /\ w_adsc w' = w_adsc w.
  Proof.
    unfold wnode. destruct (node_call c) eqn:Hc; [|discriminate]. cbn [negb]. unfold Model_DeeperNode.dstep.
    destruct (Model_DeeperNode.dexec _ _ _ _ _) as [[d e]| |] eqn:E; try discriminate. intros [= <- <-].
    assert (Z : lsum (map issued (map VNode e)) = 0) by (clear; induction e; auto). rewrite Z. split; [|reflexivity].
    pose proof (node_call_step _ _ _ _ _ _ _ Hc E) as [G D]. cbn in G, D. split; [|split].
    - rewrite !supply_money. cbn. destruct G. lia.
    - apply G.
    - intros _ [R V]. split; [exact R|]. intros a. cbn.
      assert (L : forall a, Model_DeeperNode.d_dev (w_node w) !! a <> None ->
                    Model_DeeperNode.d_minlock (wc_node cfg) <= rsvd w a).
      { intros b Hb. rewrite V. unfold deposits. rewrite decide_False by exact Hb. lia. }
      specialize (D L a). rewrite V in D. unfold deposits in *. cbn. lia.
  Qed.
  Lemma channel_eff x w who c w' ev : supply w < two128 -> wchannel cfg x w who c = (w', WDone ev) ->
    eff w (lsum (map issued ev)) w' /\ w_adsc w' = w_adsc w.
  Proof.
    intros F. unfold wchannel. destruct (channel_call c) eqn:Hc; [|discriminate]. cbn [negb].
    destruct (Model_Micropayment.mstep _ _ _ _ _ _) as [m [e| |]] eqn:E; try discriminate. intros [= <- <-].
    assert (Z : lsum (map issued (map VChannel e)) = 0) by (clear; induction e; auto). rewrite Z. split; [|reflexivity].
    assert (S0 : Spec_Micropayment.all_money (chan_bank (w_chan w) (w_bank w)) = supply w).
    { rewrite Proofs_Micropayment.all_money_eq, supply_money. unfold Spec_Micropayment.sum_channels. cbn. lia. }
    apply channel_step in E as [M [L K]]; [|rewrite S0; exact F]. rewrite S0 in M. cbn in L, K.
    destruct (deposit_flow (Model_Micropayment.m_ed (wc_chan cfg)) (Model_Micropayment.m_bank m)
      (Model_Operation.oc_treasury (wc_rel cfg)) (Model_Micropayment.m_slashed m)) as [[D1 D2] D3].
    split; [|split].
    - rewrite supply_money. cbn. rewrite Proofs_Micropayment.all_money_eq in M. lia.
    - cbn. lia.
    - intros _ [R V]. split; [exact R|]. intros a. cbn. rewrite D3, K, V. reflexivity.
  Qed.
  Lemma operation_eff x w o c w' ev : woperation cfg x w o c = (w', WDone ev) ->
    eff w (lsum (map issued ev)) w' /\ w_adsc w' = w_adsc w.
  Proof.
    unfold woperation, Model_Operation.ostep. destruct (Model_Operation.oexec _ _ _ _ _) as [[r e]| |] eqn:E; try discriminate.
    apply operation_call in E as [Z E]. intros H.
    assert (A : match c with Model_Operation.OReserve _ _ => True | _ => eff w 0 (set_w_rel w r) end).
    { destruct c; try exact I; (apply flow_eff; [exact E|reflexivity..]). }
    destruct c; try (apply to_credit_eff in H as (-> & B & Ea); rewrite Z; split; [exact (eff_trans _ _ _ _ _ A B)|exact Ea]);
      try (injection H as <- <-; rewrite Z; split; [exact A|reflexivity]).
    - injection H as <- <-. rewrite Z. split; [|reflexivity]. cbn in E. split; [|split].
      + rewrite !supply_money. cbn. apply reserve_grow in E as [E _]. lia.
      + cbn. apply reserve_grow in E as [_ E]. exact E.
      + intros _ [R V]. split; [exact R|]. intros a. cbn.
        rewrite (Proofs_DeeperNode2.reserve_rsv _ _ _ _ _ a E), V. unfold deposits. cbn.
        destruct (N.eqb_spec a who) as [->|Hn].
        * rewrite lookup_insert. cbn. change (id ?z) with z. lia.
        * rewrite lookup_insert_ne by congruence. lia.
  Qed.
  Lemma adsc_eff x w o c w' ev : wadsc cfg x w o c = (w', WDone ev) ->
    eff w (lsum (map issued ev) + pooled true (WAdsc o c)) w' /\
    Model_Adsc.a_version (w_adsc w') = Model_Adsc.a_version (w_adsc w).
  Proof.
    unfold wadsc, Model_Adsc.astep. destruct (Model_Adsc.aexec _ _ _ _ _) as [[r e]| |] eqn:E; try discriminate.
    intros [= <- <-]. apply adsc_call in E as [F V]. split; [|exact V]. apply flow_eff; [exact F|reflexivity..].
  Qed.
  Lemma tips_eff x w o c w' ev : wtips cfg x w o c = (w', WDone ev) ->
    eff w (lsum (map issued ev)) w' /\ w_adsc w' = w_adsc w.
  Proof.
    unfold wtips. destruct (Model_Tips.tstep _ _ _) as [t out] eqn:E. destruct out as [e| |]; try discriminate.
    assert (Z : lsum (map issued (map VTips e)) = 0) by (clear; induction e; auto).
    assert (A : eff w 0 (set_w_tips w t)).
    { cbn [Model_Tips.tstep] in E.
      destruct (Model_Tips.texec _ _ _ _ _) as [[t' e']| |] eqn:X; inversion E; subst. clear E.
      pose proof (tips_grow _ _ _ _ _ _ _ X) as G. cbn in G. split; [|split].
      - rewrite !supply_money. cbn. destruct G. lia.
      - apply G.
      - intros Hi [R V].
        pose proof (Proofs_Tips4.step_rinv _ Hi (Model_Tips.set_bank (w_tips w) (w_bank w)) (Model_Tips.TCall (tctx x) o c) R) as R'.
        assert (B : Proofs_Tips4.backed (Model_Tips.set_bank (w_tips w) (w_bank w))).
        { intros a. unfold Spec_Tips.rsv_of. cbn. rewrite V. unfold deposits, Spec_Tips.held. cbn. lia. }
        pose proof (fun a => Proofs_Tips4.call_deposits _ Hi (Model_Tips.set_bank (w_tips w) (w_bank w)) (tctx x) o c a R B) as D.
        cbn [Model_Tips.tstep] in R', D. rewrite X in R', D. cbn [fst] in R', D. split; [exact R'|].
        intros a. specialize (D a). unfold Spec_Tips.rsv_of in D. cbn in D. rewrite V in D.
        unfold deposits, Spec_Tips.held in *. cbn in *. lia. }
    intros H. destruct (tipped e) as [[who v]|].
    - apply to_credit_eff in H as (-> & B & Ea). rewrite Z. split; [exact (eff_trans _ _ _ _ _ A B)|exact Ea].
    - injection H as <- <-. rewrite Z. split; [exact A|reflexivity].
  Qed.
  Lemma block_eff x w b w' ev : wblock_step cfg x w b = (w', WDone ev) ->
    eff w (lsum (map issued ev) + pooled (negb (Model_Adsc.a_version (w_adsc w) <? 2)) (WBlock b)) w' /\
    (Model_Adsc.a_version (w_adsc w') <? 2) = (Model_Adsc.a_version (w_adsc w) <? 2) && negb (upgrades (WBlock b)).
  Proof.
    intros H. destruct b; cbn [wblock_step] in H; cbn [pooled upgrades negb]; rewrite ?N.add_0_r, ?andb_true_r;
      try (apply of_chain_eff in H as [H ->]; [split; [exact H|reflexivity]|discriminate]).
    - destruct (Model_Operation.on_finalize _ _ _) as [r e] eqn:E. injection H as <- <-. apply finalize_flow in E.
      split; [|reflexivity]. apply flow_eff; [exact E|reflexivity..].
    - destruct (adsc_entry e) eqn:Ha; [|discriminate]. cbn [negb] in H.
      destruct (Model_Adsc.aentry _ _ _ _) as [r v] eqn:E. injection H as <- <-. apply adsc_hook in E as [F V]; [|exact Ha].
      split; [apply flow_eff; [exact F|reflexivity..]|]. cbn in V |- *. rewrite V.
      destruct e; cbn [negb]; rewrite ?andb_true_r; try reflexivity. rewrite andb_false_r. apply N.ltb_ge. lia.
  Qed.

  (** What fails or panics changes nothing; the upgrade does not fail. *)
  Lemma of_chain_same w r w' out : of_chain w r = (w', out) -> (forall ev, out <> WDone ev) -> w' = w.
  Proof. unfold of_chain. destruct r as [j [e| |]]; intros [= <- <-] Hn; [now destruct (Hn (map VStaking e))|reflexivity..]. Qed.
  Lemma to_credit_same x w e v w0 w' out : to_credit cfg x w e v w0 = (w', out) -> (forall ev, out <> WDone ev) -> w' = w0.
  Proof. unfold to_credit. destruct (wjstep cfg x w (JEntry e)) as [j [e0| |]]; intros [= <- <-] Hn; [now destruct (Hn v)|reflexivity..]. Qed.
  Lemma step_same w op w' out : wstep cfg w op = (w', out) -> (forall ev, out <> WDone ev) -> w' = w /\ upgrades op.2 = false.
  Proof.
    destruct op as [x a]. cbn [snd]. intros H Hn.
    assert (D : forall ev, (w', out) = (w', WDone ev) -> False) by (intros ev [= E]; now destruct (Hn ev)).
    destruct a; cbn [wstep fst snd] in H; cbn [upgrades].
    - split; [|reflexivity]. destruct (ustep _ _ _) as [p [r| |]]; injection H as <- <-; [now destruct (Hn [])|reflexivity..].
    - split; [|reflexivity]. unfold wproof in H. destruct (Model_CreditAccumulation.astep _ _ _ _ _) as [p [r| |]];
        [|injection H as <- <-; reflexivity..].
      destruct o, c; try (injection H as <- <-; now destruct (Hn [])). eapply to_credit_same; eassumption.
    - split; [|reflexivity]. unfold wnode in H. destruct (negb _); [now injection H as <- <-|].
      destruct (Model_DeeperNode.dstep _ _ _ _ _) as [d [e| |]]; injection H as <- <-; [now destruct (Hn (map VNode e))|reflexivity..].
    - split; [|reflexivity]. eapply of_chain_same; eassumption.
    - split; [|reflexivity]. eapply of_chain_same; eassumption.
    - split; [|reflexivity]. unfold wchannel in H. destruct (negb _); [now injection H as <- <-|].
      destruct (Model_Micropayment.mstep _ _ _ _ _ _) as [m [e| |]]; injection H as <- <-; [now destruct (Hn (map VChannel e))|reflexivity..].
    - split; [|reflexivity]. unfold woperation in H. destruct (Model_Operation.ostep _ _ _ _ _) as [r [e| |]];
        [|injection H as <- <-; reflexivity..].
      destruct c; try (eapply to_credit_same; eassumption); injection H as <- <-; now destruct (Hn (map VRelease e)).
    - split; [|reflexivity]. unfold wadsc in H. destruct (Model_Adsc.astep _ _ _ _ _) as [r [e| |]]; injection H as <- <-;
        [now destruct (Hn (map VAdsc e))|reflexivity..].
    - split; [|reflexivity]. unfold wtips in H. destruct (Model_Tips.tstep _ _ _) as [t [e| |]]; [|injection H as <- <-; reflexivity..].
      destruct (tipped e) as [[who v]|]; [eapply to_credit_same; eassumption|]. injection H as <- <-. now destruct (Hn (map VTips e)).
    - split; [|reflexivity]. eapply of_chain_same; eassumption.
    - destruct b; cbn [wblock_step] in H; try (split; [eapply of_chain_same; eassumption|reflexivity]).
      + destruct (Model_Operation.on_finalize _ _ _) as [r e]. injection H as <- <-. now destruct (Hn (map VRelease e)).
      + destruct (adsc_entry e) eqn:Ha; cbn [negb] in H.
        * destruct (Model_Adsc.aentry _ _ _ _) as [r v]. injection H as <- <-. now destruct (Hn (map VAdsc v)).
        * injection H as <- <-. split; [reflexivity|]. destruct e; try reflexivity. discriminate Ha.
    - split; [|reflexivity]. destruct (transfer_allow _ _ _ _ _); injection H as <- <-; [now destruct (Hn [])|reflexivity].
    - split; [|reflexivity]. unfold wreserve in H. destruct (reserve _ _ _ _); injection H as <- <-; [now destruct (Hn [])|reflexivity].
    - unfold wrelease in H. injection H as <- <-. now destruct (Hn []).
  Qed.

  Theorem step_eff w op w' out : supply w < two128 -> wstep cfg w op = (w', out) ->
    eff w (created1 (negb (Model_Adsc.a_version (w_adsc w) <? 2)) (op, out)) w' /\
    (Model_Adsc.a_version (w_adsc w') <? 2) = (Model_Adsc.a_version (w_adsc w) <? 2) && negb (upgrades op.2).
  Proof.
    intros F H. destruct op as [x a]. unfold created1. cbn [fst snd].
    assert (G : forall m, (Model_Adsc.a_version (w_adsc w') = Model_Adsc.a_version (w_adsc w) /\ upgrades a = false) ->
      eff w m w' -> (match out with WDone ev => lsum (map issued ev) + pooled (negb (Model_Adsc.a_version (w_adsc w) <? 2)) a | _ => 0 end) = m ->
      eff w (match out with WDone ev => lsum (map issued ev) + pooled (negb (Model_Adsc.a_version (w_adsc w) <? 2)) a | _ => 0 end) w' /\
      (Model_Adsc.a_version (w_adsc w') <? 2) = (Model_Adsc.a_version (w_adsc w) <? 2) && negb (upgrades a)).
    { intros m [-> ->] E ->. rewrite andb_true_r. auto. }
    destruct out as [ev| |].
    - destruct a; cbn [wstep fst snd] in H.
      + destruct (ustep _ _ _) as [p [r| |]]; try discriminate. injection H as <- <-.
        eapply G; [split; reflexivity|apply flow_eff; [apply flow_refl|reflexivity..]|reflexivity].
      + apply proof_eff in H as [E V]. eapply G; [rewrite V; split; reflexivity|exact E|apply N.add_0_r].
      + apply node_eff in H as [E V]. eapply G; [rewrite V; split; reflexivity|exact E|apply N.add_0_r].
      + apply of_chain_eff in H as [E V]; [|discriminate]. eapply G; [rewrite V; split; reflexivity|exact E|apply N.add_0_r].
      + apply of_chain_eff in H as [E V]; [|discriminate]. eapply G; [rewrite V; split; reflexivity|exact E|apply N.add_0_r].
      + apply channel_eff in H as [E V]; [|exact F]. eapply G; [rewrite V; split; reflexivity|exact E|apply N.add_0_r].
      + apply operation_eff in H as [E V]. eapply G; [rewrite V; split; reflexivity|exact E|apply N.add_0_r].
      + apply adsc_eff in H as [E V]. eapply G; [rewrite V; split; reflexivity|exact E|destruct o, c; reflexivity].
      + apply tips_eff in H as [E V]. eapply G; [rewrite V; split; reflexivity|exact E|apply N.add_0_r].
      + apply of_chain_eff in H as [E V]; [|discriminate]. eapply G; [rewrite V; split; reflexivity|exact E|apply N.add_0_r].
      + now apply block_eff in H.
      + destruct (transfer_allow _ _ _ _ _) as [b|] eqn:T; [|discriminate]. injection H as <- <-. apply transfer_allow_flow in T.
        eapply G; [split; reflexivity|apply flow_eff; [exact T|reflexivity..]|reflexivity].
      + unfold wreserve in H. destruct (reserve _ _ _ _) as [b|] eqn:E; [|discriminate]. injection H as <- <-.
        eapply G; [split; reflexivity| |reflexivity]. split; [|split].
        * rewrite !supply_money. cbn. apply reserve_grow in E as [E _]. lia.
        * cbn. apply reserve_grow in E as [_ E]. exact E.
        * intros _ [R V]. split; [exact R|]. intros a. cbn.
          rewrite (Proofs_DeeperNode2.reserve_rsv _ _ _ _ _ a E), V. unfold deposits. cbn.
          destruct (N.eqb_spec a who) as [->|Hn].
          -- rewrite lookup_insert. cbn. change (id ?z) with z. lia.
          -- rewrite lookup_insert_ne by congruence. lia.
      + unfold wrelease in H. injection H as <- <-.
        eapply G; [split; reflexivity| |reflexivity]. split; [|split].
        * rewrite !supply_money. cbn.
          pose proof (unreserve_grow (Model_DeeperNode.d_ed (wc_node cfg)) (w_bank w) who (N.min (default 0 (w_held w !! who)) v)) as [E _]. lia.
        * cbn. apply unreserve_grow.
        * intros _ [R V]. split; [exact R|]. intros a. cbn.
          assert (L : N.min (default 0 (w_held w !! who)) v <= rsvd w who) by (rewrite V; unfold deposits; lia).
          rewrite Proofs_DeeperNode2.unreserve_rsv by exact L. rewrite V. unfold deposits. cbn.
          destruct (N.eqb_spec a who) as [->|Hn].
          -- rewrite lookup_insert. cbn. change (id ?z) with z. lia.
          -- rewrite lookup_insert_ne by congruence. lia.
    - apply step_same in H as [-> U]; [|discriminate]. eapply G; [split; [reflexivity|exact U]|apply eff_refl|reflexivity].
    - apply step_same in H as [-> U]; [|discriminate]. eapply G; [split; [reflexivity|exact U]|apply eff_refl|reflexivity].
  Qed.

  (** ** Histories *)
  Lemma run_eff h : forall w up, up = negb (Model_Adsc.a_version (w_adsc w) <? 2) ->
    supply w + created up (wlog cfg w h) < two128 ->
    eff w (created up (wlog cfg w h)) (wrun cfg w h).
  Proof.
    induction h as [|op h IH]; intros w up Eu F; [apply eff_refl|].
    unfold wlog in *. cbn [wouts zip_with zip wrun created] in *. cbn [fst] in *.
    destruct (wstep cfg w op) as [w1 out] eqn:E. cbn [fst snd] in *.
    destruct (step_eff w op w1 out) as [S V]; [lia|exact E|]. rewrite <- Eu in S.
    eapply eff_trans; [exact S|]. apply IH.
    - rewrite V, Eu. cbn [fst]. destruct (_ <? 2), (upgrades op.2); reflexivity.
    - destruct S as [S _]. rewrite S. lia.
  Qed.
End world.
