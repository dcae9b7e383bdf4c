(** What micropayment costs the accounts; the price list of the whole chain. *)
From Verif Require Import Base Balances Model_UserPrivileges.
From Verif Require Model_Credit Spec_Credit Model_Staking Spec_Staking Spec_Staking2 Model_StakingLedger Model_DeeperNode.
From Verif Require Model_Micropayment Spec_Micropayment Model_Operation Model_Adsc Model_Tips Spec_Tips.
From Verif Require Import Model_Chain Spec_Chain2 Model_World Spec_World Spec_World2 Spec_World6 Proofs_Balances Proofs_World1
  Proofs_World12 Proofs_World13 Proofs_World14.
From Verif Require Proofs_Micropayment Proofs_Chain1 Proofs_Tips5 Proofs_Credit Model_CreditAccumulation.
From stdpp Require Import gmap.
Open Scope N_scope.

Section channels.
  Import Model_Micropayment Spec_Micropayment Proofs_Micropayment.
  Context (cfg : mcfg) (verify : N -> list N -> list N -> bool).
  Local Notation ed := (m_ed cfg).
  Context (Hb : m_burn cfg <= 100).

  Definition settled (b : bank) (a : N) : Prop := accts b !! a = None \/ 0 < rsv (acct_of b a) \/ ed <= free_of b a.
  Lemma put_settled b w c : settled (put ed b w c) w.
  Proof.
    unfold settled, free_of, put, acct_of. destruct ((free c <? ed) && (rsv c =? 0)) eqn:E; cbn.
    - left. apply lookup_delete.
    - right. rewrite lookup_insert. cbn. apply andb_false_iff in E as [E|E].
      + apply N.ltb_ge in E. auto.
      + apply N.eqb_neq in E. left. lia.
  Qed.
  Lemma put_accts_ne b w c a : a <> w -> accts (put ed b w c) !! a = accts b !! a.
  Proof.
    intros H. unfold put. destruct (_ && _); cbn; [apply lookup_delete_ne|apply lookup_insert_ne]; auto.
  Qed.
  Lemma put_rsv b w f r z : rsv (acct_of (put ed b w (Acct f r z)) w) = r.
  Proof.
    unfold acct_of, put. cbn. destruct ((f <? ed) && (r =? 0)) eqn:E; cbn; [|now rewrite lookup_insert].
    apply andb_true_iff in E as [_ E]. apply N.eqb_eq in E. rewrite lookup_delete. cbn. auto.
  Qed.
  Lemma put_free_ge b w f r z : ed <= f -> free_of (put ed b w (Acct f r z)) w = f.
  Proof. intros H. destruct (put_free ed b w f r z) as [E|E]; [exact E|lia]. Qed.

  (** What a change of balances leaves of an account's entry. *)
  Definition fair (b b' : bank) (a : N) : Prop :=
    rsv (acct_of b' a) = rsv (acct_of b a) /\ (accts b' !! a = accts b !! a \/ settled b' a) /\ (ed <= free_of b a -> ed <= free_of b' a).
  Lemma fair_same b b' a : accts b' !! a = accts b !! a -> fair b b' a.
  Proof. intros E. unfold fair, free_of, acct_of. rewrite E. auto. Qed.
  Lemma fair_trans b b1 b2 a : fair b b1 a -> fair b1 b2 a -> fair b b2 a.
  Proof.
    intros (A1 & A2 & A3) (B1 & B2 & B3). split; [congruence|]. split; [|auto].
    destruct B2 as [B2|B2]; [|auto]. destruct A2 as [A2|A2]; [left; congruence|]. right.
    unfold settled, free_of, acct_of in *. now rewrite B2.
  Qed.
  Lemma withdraw_fair b w v b' a : withdraw ed true b w v = Some b' -> fair b b' a.
  Proof.
    unfold withdraw. destruct (v =? 0); [intros [= <-]; now apply fair_same|].
    destruct (_ <? v); [discriminate|]. cbn [andb]. destruct (((free (acct_of b w) - v) <? ed) && (ed <=? free (acct_of b w))) eqn:K; [discriminate|].
    destruct (_ <? frz _); [discriminate|]. intros [= <-].
    destruct (decide (a = w)) as [->|Hn]; [|now apply fair_same, put_accts_ne].
    split; [apply put_rsv|]. split; [right; apply put_settled|]. intros F. unfold free_of in F.
    apply andb_false_iff in K as [K|K]; [apply N.ltb_ge in K|apply N.leb_gt in K; lia].
    rewrite put_free_ge by exact K. exact K.
  Qed.
  Lemma withdraw_exact b w v b' : withdraw ed true b w v = Some b' -> ed <= free_of b w -> free_of b' w + v = free_of b w.
  Proof.
    unfold withdraw. destruct (N.eqb_spec v 0) as [->|]; [intros [= <-]; lia|].
    destruct (N.ltb_spec (free (acct_of b w)) v); [discriminate|]. cbn [andb].
    destruct (((free (acct_of b w) - v) <? ed) && (ed <=? free (acct_of b w))) eqn:K; [discriminate|].
    destruct (_ <? frz _); [discriminate|]. intros [= <-] F. unfold free_of in F.
    apply andb_false_iff in K as [K|K]; [apply N.ltb_ge in K|apply N.leb_gt in K; lia].
    rewrite put_free_ge by exact K. unfold free_of. lia.
  Qed.
  Lemma deposit_fair b w v a : fair b (deposit_creating ed b w v) a.
  Proof.
    unfold deposit_creating. destruct (v =? 0); [now apply fair_same|]. destruct (_ && _); [now apply fair_same|].
    destruct (_ <=? _); [now apply fair_same|].
    destruct (decide (a = w)) as [->|Hn]; [|now apply fair_same, put_accts_ne].
    split; [apply put_rsv|]. split; [right; apply put_settled|]. intros F. unfold free_of in F.
    rewrite put_free_ge by lia. lia.
  Qed.
  Lemma deposit_exact b w v : ed <= free_of b w -> free_of b w + v < two128 -> free_of (deposit_creating ed b w v) w = free_of b w + v.
  Proof.
    intros F L. unfold deposit_creating. destruct (N.eqb_spec v 0) as [->|]; [lia|].
    destruct (is_new (acct_of b w) && (v <? ed)) eqn:K.
    { apply andb_true_iff in K as [K1 K2]. apply N.ltb_lt in K2. unfold is_new in K1.
      apply andb_true_iff in K1 as [K1 _]. apply andb_true_iff in K1 as [K1 _]. apply N.eqb_eq in K1. unfold free_of in F. lia. }
    unfold free_of in F, L. destruct (N.leb_spec two128 (free (acct_of b w) + v)); [lia|].
    rewrite put_free_ge by lia. reflexivity.
  Qed.
  Lemma fee_le v : fee_of cfg v <= v.
  Proof. unfold fee_of. now apply Proofs_Tips5.percent_le. Qed.
  Lemma into_fair s who v s' : deposit_into_account cfg s who v = ROk s' ->
    (forall a, fair (m_bank s) (m_bank s') a) /\ (forall a, a <> who -> free_of (m_bank s') a = free_of (m_bank s) a) /\
    (ed <= free_of (m_bank s) who -> free_of (m_bank s) who + v < two128 ->
     free_of (m_bank s') who + fee_of cfg v = free_of (m_bank s) who + v) /\ m_chan s' = m_chan s.
  Proof.
    intros (b & Hw & ->)%deposit_into_account_inv. cbn.
    pose proof (deposit_fair (m_bank s) who v) as D. split; [|split; [|split; [|reflexivity]]].
    - intros a. eapply fair_trans; [apply D|]. eapply withdraw_fair; exact Hw.
    - intros a Ha. unfold free_of, acct_of. f_equal. f_equal. transitivity (accts (deposit_creating ed (m_bank s) who v) !! a).
      + revert Hw. unfold withdraw. destruct (_ =? 0); [now intros [= <-]|]. repeat (case_match; [discriminate|]). intros [= <-]. now apply put_accts_ne.
      + unfold deposit_creating. destruct (_ =? 0); [done|]. destruct (_ && _); [done|]. destruct (_ <=? _); [done|]. now apply put_accts_ne.
    - intros F L. pose proof (deposit_exact _ _ _ F L) as E. rewrite <- E. eapply withdraw_exact; [exact Hw|]. rewrite E. lia.
  Qed.

  (** The money in the channels of [a], and what an event costs if channel balances are [M]. *)
  Definition in_chan (m : gmap (N * N) chan) (a : N) : N := msum (fun k ch => if k.1 =? a then c_balance ch else 0) m.
  Definition left_in (M : gmap (N * N) chan) (c v : N) : N := match M !! (c, v) with Some ch => c_balance ch | None => 0 end.
  Definition full_cost (M : gmap (N * N) chan) (a : N) (e : mevent) : N :=
    match e with
    | ClaimPayment c _ v => if_is c v a
    | ChannelClosed c v _ => if_is c (left_in M c v) a
    | _ => 0
    end.
  Definition fee_cost (M : gmap (N * N) chan) (a : N) (e : mevent) : N :=
    match e with
    | ClaimPayment c _ v => if_is c v a
    | ChannelClosed c v _ => if_is c (fee_of cfg (left_in M c v)) a
    | _ => 0
    end.
  Definition charged (p q : N) (s s' : mstate) (a : N) : Prop :=
    fair (m_bank s) (m_bank s') a /\ in_chan (m_chan s) a <= in_chan (m_chan s') a + p /\
    (ed <= free_of (m_bank s) a -> free_of (m_bank s) a + in_chan (m_chan s) a <= free_of (m_bank s') a + in_chan (m_chan s') a + q).
  Lemma charged_refl s a : charged 0 0 s s a.
  Proof. split; [now apply fair_same|]. lia. Qed.
  Lemma charged_trans p q p1 q1 s s1 s2 a : charged p q s s1 a -> charged p1 q1 s1 s2 a -> charged (p + p1) (q + q1) s s2 a.
  Proof.
    intros (A1 & A2 & A3) (B1 & B2 & B3). split; [eapply fair_trans; eassumption|]. split; [lia|].
    intros F. assert (F1 := F). apply A1 in F1. specialize (A3 F). specialize (B3 F1). lia.
  Qed.
  Lemma free_fits s a : fits s -> free_of (m_bank s) a + sum_channels s < two128.
  Proof.
    unfold fits. rewrite all_money_eq. intros F.
    assert (free_of (m_bank s) a <= money (m_bank s)); [|lia]. unfold free_of, acct_of, money.
    destruct (accts (m_bank s) !! a) as [c|] eqn:E; cbn; [|lia].
    pose proof (msum_le (fun _ c => free c + rsv c) _ _ _ E). cbn in *. lia.
  Qed.
  Lemma chan_fits s a c v ch : fits s -> m_chan s !! (c, v) = Some ch -> free_of (m_bank s) a + c_balance ch < two128.
  Proof.
    intros F E. pose proof (free_fits _ a F). pose proof (msum_le (fun _ ch => c_balance ch) _ _ _ E) as L. cbn in L.
    unfold sum_channels in *. lia.
  Qed.
  Lemma withdraw_free_ne b w v b' a : withdraw ed true b w v = Some b' -> a <> w -> free_of b' a = free_of b a.
  Proof.
    intros Hw Ha. unfold free_of, acct_of. f_equal. f_equal.
    revert Hw. unfold withdraw. destruct (_ =? 0); [now intros [= <-]|]. repeat (case_match; [discriminate|]). intros [= <-]. now apply put_accts_ne.
  Qed.
  Lemma atom_charged x caller call s e s' a : fits s -> channel_call call = true -> atom cfg verify x caller call s e s' ->
    charged (full_cost (m_chan s) a e) (fee_cost (m_chan s) a e) s s' a.
  Proof.
    intros F Hc [v amt d b Ec En Ne W|v amt ch b Ec Es W|c v ch s1 Es Q D|c k amt sg ch s1 Ec Es _ _ _ L D|dst amt b Ec T];
      cbn [full_cost fee_cost].
    - unfold charged. cbn. split; [eapply withdraw_fair; exact W|]. unfold in_chan. rewrite msum_insert by exact En. cbn.
      split; [lia|]. intros Fr. destruct (N.eqb_spec caller a) as [->|Hn].
      + pose proof (withdraw_exact _ _ _ _ W Fr). lia.
      + rewrite (withdraw_free_ne _ _ _ _ a W) by congruence. lia.
    - assert (Ea : add128 (c_balance ch) amt = c_balance ch + amt).
      { apply add128_small. pose proof (chan_fits s caller _ _ _ F Es). pose proof (free_fits s caller F).
        destruct (N.eqb_spec amt 0) as [->|]; [lia|].
        assert (amt <= free_of (m_bank s) caller).
        { unfold withdraw in W. destruct (N.eqb_spec amt 0); [contradiction|].
          destruct (N.ltb_spec (free (acct_of (m_bank s) caller)) amt); [discriminate|]. unfold free_of. lia. }
        lia. }
      unfold charged. cbn. split; [eapply withdraw_fair; exact W|]. unfold in_chan.
      pose proof (msum_insert_over (fun (k : N * N) ch => if k.1 =? a then c_balance ch else 0) _ _ _
         (Chan (c_client ch) (c_server ch) (add128 (c_balance ch) amt) (c_nonce ch) (c_opened ch) (c_expiration ch)) Es) as E.
      cbn in E. rewrite Ea in E |- *. destruct (N.eqb_spec caller a) as [->|Hn].
      + split; [lia|]. intros Fr. pose proof (withdraw_exact _ _ _ _ W Fr). lia.
      + split; [lia|]. intros Fr. rewrite (withdraw_free_ne _ _ _ _ a W) by congruence. lia.
    - apply into_fair in D as (D1 & D2 & D3 & D4). cbn in D1, D2, D3, D4. unfold left_in. rewrite Es.
      unfold charged. cbn. rewrite D4. split; [apply D1|]. unfold in_chan.
      rewrite (msum_delete (fun (k : N * N) ch => if k.1 =? a then c_balance ch else 0) _ _ _ Es). cbn.
      destruct (N.eqb_spec c a) as [->|Hn].
      + split; [lia|]. intros Fr. specialize (D3 Fr (chan_fits s a _ _ _ F Es)). lia.
      + split; [lia|]. intros Fr. rewrite D2 by congruence. lia.
    - apply into_fair in D as (D1 & D2 & D3 & D4). cbn in D1, D2, D3, D4.
      unfold charged. rewrite D4. split; [apply D1|]. unfold in_chan.
      pose proof (msum_insert_over (fun (k : N * N) ch => if k.1 =? a then c_balance ch else 0) _ _ _
         (Chan (c_client ch) (c_server ch) (c_balance ch - amt) (c_nonce ch) (c_opened ch) (c_expiration ch)) Es) as E.
      cbn in E. assert (Hf := fee_le amt). assert (Hl := chan_fits s caller _ _ _ F Es).
      destruct (decide (a = caller)) as [->|Hn]; [|rewrite (D2 a Hn); destruct (c =? a); lia].
      split; [destruct (c =? caller); lia|]. intros Fr. specialize (D3 Fr ltac:(lia)). destruct (c =? caller); lia.
    - subst call. discriminate Hc.
  Qed.
  Lemma full_cost_sub M M' a e : M ⊆ M' -> full_cost M a e <= full_cost M' a e.
  Proof.
    intros H. destruct e; cbn; try lia. destruct (_ =? _); [|lia]. unfold left_in. destruct (M !! _) eqn:E; [|lia].
    now rewrite (lookup_weaken _ _ _ _ E H).
  Qed.
  Lemma fee_cost_sub M M' a e : M ⊆ M' -> fee_cost M a e <= fee_cost M' a e.
  Proof.
    intros H. destruct e; cbn; try lia. destruct (_ =? _); [|lia]. unfold left_in. destruct (M !! _) eqn:E; [now rewrite (lookup_weaken _ _ _ _ E H)|].
    assert (fee_of cfg 0 = 0) as -> by (pose proof (fee_le 0); lia). lia.
  Qed.
  Lemma charged_le p q p1 q1 s s' a : p <= p1 -> q <= q1 -> charged p q s s' a -> charged p1 q1 s s' a.
  Proof. intros A B (C & D & E). split; [exact C|]. split; [lia|]. intros F. specialize (E F). lia. Qed.
  Lemma expired_charged x caller M a s ev s' : fits s -> m_chan s ⊆ M -> atoms cfg verify x caller MCloseExpired s ev s' ->
    charged (lsum (map (full_cost M a) ev)) (lsum (map (fee_cost M a) ev)) s s' a.
  Proof.
    intros F HM H. remember MCloseExpired as call eqn:Ec. induction H as [s|s e s1 ev s2 A B IH].
    - apply charged_refl.
    - assert (Hc : channel_call call = true) by now subst.
      cbn. pose proof (atom_charged _ _ _ _ _ _ a F Hc A) as C. eapply charged_trans.
      + eapply charged_le; [apply (full_cost_sub _ _ _ _ HM)|apply (fee_cost_sub _ _ _ _ HM)|exact C].
      + apply IH; [|clear C].
        * unfold fits in *. now rewrite (atom_money _ _ _ _ _ _ _ _ F A).
        * assert (E : exists k, m_chan s1 = delete k (m_chan s)).
          { destruct A as [? ? ? ? E|? ? ? ? E|c v ch s1 Es Q D|? ? ? ? ? ? E|? ? ? E]; try (subst; discriminate).
            apply into_fair in D as (_ & _ & _ & D). cbn in D |- *. rewrite D. eauto. }
          destruct E as [k ->]. etransitivity; [apply delete_subseteq|exact HM].
  Qed.
  Lemma channel_charged s x who c s' ev a : fits s -> channel_call c = true -> mstep cfg verify s x who c = (s', ROk ev) ->
    charged (lsum (map (full_cost (m_chan s) a) ev)) (lsum (map (fee_cost (m_chan s) a) ev)) s s' a.
  Proof.
    intros F Hc H. apply mstep_ok in H as [H [->|[e ->]]].
    - eapply expired_charged; [exact F|reflexivity|exact H].
    - inversion H as [|? ? s1 ? ? A B]; subst. inversion B; subst. cbn. rewrite !N.add_0_r. eapply atom_charged; eassumption.
  Qed.
End channels.

(** ** The whole chain *)
Section world.
  Context (cfg : wcfg) (ed : N) (Hs : Model_Credit.kc_step (jc_c (wc_chain cfg)) <> Model_Credit.U64MAX)
    (He : one_deposit cfg ed) (Hf : Model_Tips.tc_fee (wc_tips cfg) <= 100) (Hm : Model_Micropayment.m_burn (wc_chan cfg) <= 100).

  Lemma kept_at_most w op w' ev L :
    kept ed L (w_bank w) (w_bank w') -> (forall a, L a <= price cfg ed w op ev a) ->
    Model_Micropayment.m_chan (w_chan w') = Model_Micropayment.m_chan (w_chan w) -> forall a, at_most cfg ed w op w' ev a.
  Proof.
    intros K HL Hc a. specialize (K a). specialize (HL a). unfold at_most, owned, in_channels. rewrite Hc. cbn zeta.
    fold (hold (w_bank w) a) (hold (w_bank w') a). lia.
  Qed.
  Lemma same_at_most w op w' ev : w_bank w' = w_bank w ->
    Model_Micropayment.m_chan (w_chan w') = Model_Micropayment.m_chan (w_chan w) -> forall a, at_most cfg ed w op w' ev a.
  Proof.
    intros E Hc. eapply (kept_at_most _ _ _ _ (fun _ => 0)); [|intros a; apply N.le_0_l|exact Hc].
    rewrite E. apply sure_kept, sure_refl.
  Qed.
  Lemma wjstep_loss x w a j ev : (forall b, a <> JBank b) -> wjstep cfg x w a = (j, JDone ev) ->
    loss ed (join_price (w_chain w) a ev) (w_bank w) (Model_Staking.k_bank (j_s j)).
  Proof.
    intros Hb H. destruct He as (_ & _ & _ & _ & _ & E1 & E2).
    pose proof (chain_cost _ _ _ _ _ _ Hs (eq_trans E1 (eq_sym E2)) (eq_refl : Proofs_Chain1.synced (jsync (w_chain w) (w_bank w))) Hb H) as K.
    rewrite E2 in K. exact K.
  Qed.
  Lemma staking_events ev : omap staking_event (map VStaking ev) = ev.
  Proof. induction ev as [|e ev IH]; cbn; [reflexivity|]. now rewrite IH. Qed.
  Lemma chain_at_most x w op a w' ev : (forall b, a <> JBank b) -> of_chain w (wjstep cfg x w a) = (w', WDone ev) ->
    (forall v b, ev = map VStaking v -> join_price (w_chain w) a v b <= price cfg ed w op ev b) ->
    forall b, at_most cfg ed w op w' ev b.
  Proof.
    intros Hb H HL. destruct (wjstep cfg x w a) as [j [v| |]] eqn:E; cbn in H; try discriminate. injection H as <- <-.
    apply wjstep_loss in E; [|exact Hb]. eapply kept_at_most; [apply loss_kept; exact E|intros b; now apply HL|reflexivity].
  Qed.
  Lemma to_credit_bank x w e v w0 w' ev : to_credit cfg x w e v w0 = (w', WDone ev) ->
    w_bank w' = w_bank w /\ ev = v /\ w_chan w' = w_chan w.
  Proof.
    unfold to_credit. destruct (wjstep cfg x w (JEntry e)) as [j [u| |]] eqn:E; intros H; try discriminate. injection H as <- <-.
    split; [|split; reflexivity]. cbn. unfold wjstep, jstep in E. cbn in E. destruct (staking_only e).
    - injection E as <- <-. reflexivity.
    - unfold csettle, Model_Credit.kentry_step in E.
      destruct (Model_Credit.kentry_exec _ _ _ _) as [[c' r]| |] eqn:G; cbn in E; try discriminate. injection E as <- <-. cbn.
      now apply credit_entry in G as ->.
  Qed.
  Lemma lsum_le {A} (f g : A -> N) l : (forall x, f x <= g x) -> lsum (map f l) <= lsum (map g l).
  Proof. intros H. induction l as [|x l IH]; cbn; [lia|]. specialize (H x). lia. Qed.

  Lemma step_at_most w op w' ev :
    supply w < 2 ^ 128 -> wstep cfg w op = (w', WDone ev) -> forall a, at_most cfg ed w op w' ev a.
  Proof.
    intros F H. assert (He0 := He). destruct He0 as (Ed1 & Ed2 & Ed3 & Ed4 & Ed5 & Ed6 & Ed7).
    destruct op as [x act]. unfold wstep in H. cbn [fst snd] in H.
    destruct act as [o c|o c|o c|o c|o c|who c|o c|o c|o c|caller user score add|b|from to v|who v|who v].
    - destruct (ustep _ _ _) as [p [r| |]]; try discriminate. injection H as <- <-. now apply same_at_most.
    - unfold wproof in H. destruct (Model_CreditAccumulation.astep _ _ _ _ _) as [p [r| |]]; try discriminate.
      assert (G : forall w1, (w1, WDone []) = (w', WDone ev) -> w1 = set_w_proofs w p -> forall a, at_most cfg ed w (x, WProof o c) w' ev a).
      { intros w1 [= <- <-] ->. now apply same_at_most. }
      destruct o as [|who|]; try (eapply G; [exact H|reflexivity]).
      destruct c; try (eapply G; [exact H|reflexivity]).
      apply to_credit_bank in H as (K & _ & Ec). apply same_at_most; [exact K|now rewrite Ec].
    - unfold wnode in H. destruct (node_call c) eqn:Nc; cbn [negb] in H; [|discriminate].
      unfold Model_DeeperNode.dstep in H. destruct (Model_DeeperNode.dexec _ _ _ _ _) as [[d e]| |] eqn:E; try discriminate. injection H as <- <-.
      apply node_cost in E; [|exact Nc]. rewrite Ed1 in E. eapply kept_at_most; [exact E|intros a; apply N.le_0_l|reflexivity].
    - eapply chain_at_most; [|exact H|]; [discriminate|]. intros v b ->. destruct o, c; cbn; lia.
    - eapply chain_at_most; [|exact H|]; [discriminate|]. intros v b ->. unfold price. cbn [snd]. rewrite staking_events.
      destruct o as [|who|]; cbn [join_price]; try apply N.le_0_l. destruct c as [k|l]; try apply N.le_0_l. destruct k; try apply N.le_0_l; try reflexivity.
      unfold level_price. destruct (_ !! who); [|apply N.le_0_l]. reflexivity.
    - unfold wchannel in H. destruct (channel_call c) eqn:Nc; cbn [negb] in H; [|discriminate].
      set (s := chan_bank (w_chan w) (w_bank w)) in *.
      destruct (Model_Micropayment.mstep _ _ _ _ _ _) as [m [e| |]] eqn:E; try discriminate. injection H as <- <-.
      assert (Fit : Proofs_Micropayment.fits s).
      { unfold Proofs_Micropayment.fits. rewrite Proofs_Micropayment.all_money_eq. unfold supply in F. cbn. unfold money, Spec_Micropayment.sum_channels. cbn.
        change two128 with (2 ^ 128). lia. }
      intros a. apply (channel_charged _ _ Hm _ _ _ _ _ _ a Fit Nc) in E. destruct E as ((R & S1 & S2) & A & B).
      change (Model_Micropayment.m_bank s) with (w_bank w) in *. change (Model_Micropayment.m_chan s) with (Model_Micropayment.m_chan (w_chan w)) in *.
      rewrite Ed2 in *.
      set (b2 := deposit_creating ed (Model_Micropayment.m_bank m) (Model_Operation.oc_treasury (wc_rel cfg)) (Model_Micropayment.m_slashed m)).
      assert (P : price cfg ed w (x, WChannel who c) (map VChannel e) a =
        if free_of (w_bank w) a <? ed then lsum (map (full_cost (Model_Micropayment.m_chan (w_chan w)) a) e)
        else lsum (map (fee_cost (wc_chan cfg) (Model_Micropayment.m_chan (w_chan w)) a) e)).
      { unfold price. cbn [snd]. rewrite map_map. destruct (free_of (w_bank w) a <? ed) eqn:L; f_equal; apply map_ext; intros [];
          cbn; rewrite ?L; reflexivity. }
      unfold at_most. rewrite P. cbn zeta. unfold owned, in_channels.
      change (w_bank (set_w_bank (set_w_chan w m) b2)) with b2. change (w_chan (set_w_bank (set_w_chan w m) b2)) with m.
      fold (in_chan (Model_Micropayment.m_chan (w_chan w)) a) (in_chan (Model_Micropayment.m_chan m) a).
      destruct (deposit_loss ed (Model_Micropayment.m_bank m) (Model_Operation.oc_treasury (wc_rel cfg)) (Model_Micropayment.m_slashed m)) as [D K].
      fold b2 in D, K. rewrite (K a), R. specialize (D a). rewrite N.add_0_r, N.add_0_l in D.
      destruct (N.ltb_spec (free_of (w_bank w) a) ed) as [L|L].
      + right. lia.
      + specialize (B L). specialize (S2 L). left. destruct D as [D|D]; [lia|]. lia.
    - unfold woperation, Model_Operation.ostep in H. destruct (Model_Operation.oexec _ _ _ _ _) as [[r e]| |] eqn:E; try discriminate.
      apply operation_cost in E. rewrite Ed3 in E.
      assert (Q : kept ed (release_price (w_rel w) o c) (w_bank w) (w_bank w') /\ w_chan w' = w_chan w).
      { destruct c; try (injection H as <- <-; split; [exact E|reflexivity]);
          apply to_credit_bank in H as (K & _ & Ec); (split; [rewrite K; exact E|rewrite Ec; reflexivity]). }
      destruct Q as [Q Ec]. eapply kept_at_most; [exact Q| |now rewrite Ec]. intros a. destruct o, c; cbn; try reflexivity; apply N.le_0_l.
    - unfold wadsc, Model_Adsc.astep in H. destruct (Model_Adsc.aexec _ _ _ _ _) as [[s e]| |] eqn:E; try discriminate. injection H as <- <-.
      apply adsc_cost in E. rewrite Ed4 in E. eapply kept_at_most; [apply loss_kept; exact E| |reflexivity].
      intros a. destruct o, c; cbn; try lia. unfold swap_price. rewrite map_map. reflexivity.
    - unfold wtips, Model_Tips.tstep in H. destruct (Model_Tips.texec _ _ _ _ _) as [[t e]| |] eqn:E; try discriminate.
      apply tips_cost in E; [|exact Hf]. rewrite Ed5 in E.
      assert (Q : kept ed (tip_price (w_tips w) o c) (w_bank w) (w_bank w') /\ w_chan w' = w_chan w).
      { destruct (tipped e) as [[who v]|]; [|injection H as <- <-; split; [exact E|reflexivity]].
        apply to_credit_bank in H as (K & _ & Ec). split; [rewrite K; exact E|rewrite Ec; reflexivity]. }
      destruct Q as [Q Ec]. eapply kept_at_most; [exact Q| |now rewrite Ec].
      intros a. unfold price. cbn [snd]. destruct c, o; try apply N.le_0_l; reflexivity.
    - eapply chain_at_most; [|exact H|]; [discriminate|]. intros v b ->. cbn. lia.
    - destruct b; cbn [wblock_step] in H;
        try (eapply chain_at_most; [|exact H|]; [discriminate|]; intros v0 b0 ->; unfold price; cbn [snd]; rewrite ?staking_events; cbn; lia).
      + destruct (Model_Operation.on_finalize _ _ _) as [r e] eqn:E. injection H as <- <-. apply finalize_loss in E. rewrite Ed3 in E.
        eapply kept_at_most; [apply loss_kept; exact E|intros a; apply N.le_0_l|reflexivity].
      + destruct (adsc_entry e) eqn:Ae; cbn [negb] in H; [|discriminate]. destruct (Model_Adsc.aentry _ _ _ _) as [s v] eqn:E. injection H as <- <-.
        apply adsc_hook_loss in E; [|exact Ae]. rewrite Ed4 in E. eapply kept_at_most; [apply loss_kept; exact E|intros a; apply N.le_0_l|reflexivity].
    - destruct (transfer_allow _ _ _ _ _) as [b|] eqn:E; [|discriminate]. injection H as <- <-. rewrite Ed1 in E. apply transfer_allow_loss in E.
      eapply kept_at_most; [apply loss_kept; exact E|intros a; reflexivity|reflexivity].
    - unfold wreserve in H. destruct (reserve _ _ _ _) as [b|] eqn:E; [|discriminate]. injection H as <- <-. rewrite Ed1 in E. apply reserve_sure in E.
      eapply kept_at_most; [apply sure_kept; exact E|intros a; apply N.le_0_l|reflexivity].
    - unfold wrelease in H. injection H as <- <-. eapply kept_at_most; [|intros a; apply N.le_0_l|reflexivity].
      cbn. rewrite Ed1. apply unreserve_kept.
  Qed.
End world.
