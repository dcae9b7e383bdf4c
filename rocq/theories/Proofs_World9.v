(** Payment channels in the whole chain. *)
From Verif Require Import Base Balances Proofs_Balances Model_UserPrivileges.
From Verif Require Model_Credit Model_Staking Model_DeeperNode Model_Operation Model_CreditAccumulation Model_Tips Model_Adsc.
From Verif Require Import Model_Micropayment Spec_Micropayment Proofs_Micropayment Proofs_Micropayment2.
From Verif Require Import Model_Chain Model_World Spec_World Spec_World2 Spec_World4 Proofs_World2 Proofs_World5.
From stdpp Require Import gmap.
Open Scope N_scope.

Section channels.
  Local Notation seen := Proofs_Micropayment.view.
  Context (cfg : wcfg).
  Local Notation C := (wc_chan cfg).
  Local Notation V := (wc_verify cfg).
  Local Notation at_bank w := (chan_bank (w_chan w) (w_bank w)).
  Local Notation told r := (match r with WDone ev => omap channel_event ev | _ => [] end).

  (** Only calls of the pallet touch the channels. *)
  Definition own (w : wstate) (op : wop) (w' : wstate) (r : wout) : Prop :=
    exists who c ev m, op.2 = WChannel who c /\ channel_call c = true /\
      mstep C V (at_bank w) (mctx cfg op.1 w) who c = (m, ROk ev) /\ w_chan w' = m /\ r = WDone (map VChannel ev).
  Lemma of_chain_chan w r : w_chan (of_chain w r).1 = w_chan w /\ told (of_chain w r).2 = [].
  Proof. unfold of_chain. destruct r as [j [ev| |]]; split; try reflexivity. cbn [snd]. now rewrite omap_map_none. Qed.
  Lemma to_credit_chan x w e v w0 : w_chan w = w_chan w0 -> omap channel_event v = [] ->
    w_chan (to_credit cfg x w e v w0).1 = w_chan w0 /\ told (to_credit cfg x w e v w0).2 = [].
  Proof. unfold to_credit. intros E Ev. now destruct (wjstep cfg x w (JEntry e)) as [j [ev| |]]. Qed.
  Lemma chan_step w op :
    (w_chan (wstep cfg w op).1 = w_chan w /\ told (wstep cfg w op).2 = []) \/ own w op (wstep cfg w op).1 (wstep cfg w op).2.
  Proof.
    destruct op as [x a]. destruct a; try lazymatch goal with |- context [WChannel] => fail | _ => left; cbn [wstep fst snd]; first [apply of_chain_chan|idtac] end.
    - now destruct (ustep _ _ _) as [p [r| |]].
    - unfold wproof. destruct (Model_CreditAccumulation.astep _ _ _ _ _) as [p [r| |]]; try (split; reflexivity).
      destruct o, c; try (split; reflexivity). now apply to_credit_chan.
    - unfold wnode. destruct (negb _); [split; reflexivity|].
      destruct (Model_DeeperNode.dstep _ _ _ _ _) as [q [r| |]]; split; try reflexivity. cbn. now rewrite omap_map_none.
    - cbn [wstep fst snd]. unfold wchannel. destruct (channel_call c) eqn:Hc; [|left; split; reflexivity]. cbn [negb].
      destruct (mstep _ _ _ _ _ _) as [m [ev| |]] eqn:E; [right|left; split; reflexivity..].
      exists who, c, ev, m. repeat split; [exact Hc|exact E].
    - unfold woperation. destruct (Model_Operation.ostep _ _ _ _ _) as [p [r| |]]; try (split; reflexivity).
      destruct c; try (split; [reflexivity|cbn [snd]; now rewrite omap_map_none]); apply to_credit_chan; try reflexivity; now rewrite omap_map_none.
    - unfold wadsc. destruct (Model_Adsc.astep _ _ _ _ _) as [p [r| |]]; split; try reflexivity. cbn [snd]. now rewrite omap_map_none.
    - unfold wtips. destruct (Model_Tips.tstep _ _ _) as [p [e| |]]; try (split; reflexivity).
      destruct (tipped e) as [[? ?]|]; [apply to_credit_chan; [reflexivity|now rewrite omap_map_none]|].
      split; [reflexivity|]. cbn [snd]. now rewrite omap_map_none.
    - destruct b; cbn [wblock_step]; try apply of_chain_chan.
      + destruct (Model_Operation.on_finalize _ _ _). split; [reflexivity|]. cbn [snd]. now rewrite omap_map_none.
      + destruct (negb _); [split; reflexivity|]. destruct (Model_Adsc.aentry _ _ _ _). split; [reflexivity|]. cbn [snd]. now rewrite omap_map_none.
    - now destruct (transfer_allow _ _ _ _ _).
    - unfold wreserve. now destruct (reserve _ _ _ _).
    - split; reflexivity.
  Qed.

  (** Nonces, sessions and ends of the channels. *)
  Lemma step_nonces w op : nonces_ok (w_chan w) -> nonces_ok (w_chan (wstep cfg w op).1).
  Proof.
    intros H. destruct (chan_step w op) as [[-> _]|(who & c & ev & m & _ & _ & E & -> & _)]; [exact H|].
    apply mstep_ok in E as [E _]. eapply (atoms_inv C V nonces_ok); [apply atom_nonces| |exact E]. exact H.
  Qed.
  Lemma run_nonces h : forall w, nonces_ok (w_chan w) -> nonces_ok (w_chan (wrun cfg w h)).
  Proof. induction h as [|op h IH]; intros w H; [exact H|]. cbn [wrun]. apply IH. now apply step_nonces. Qed.

  (** One pair, one step. *)
  Lemma step_view_w w op c v :
    seen (w_chan (wstep cfg w op).1) c v = seen (w_chan w) c v /\
      (forall a, ClaimPayment c v a ∉ told (wstep cfg w op).2) /\ (forall t, ChannelClosed c v t ∉ told (wstep cfg w op).2) \/
    exists who k ev, op.2 = WChannel who k /\ (wstep cfg w op).2 = WDone (map VChannel ev) /\
      step_view (w_chan w) (w_chan (wstep cfg w op).1) ev who k c v.
  Proof.
    destruct (chan_step w op) as [[-> T]|(who & k & ev & m & E1 & _ & E & -> & E2)].
    - left. split; [reflexivity|]. split; intros t Hin; revert Hin; rewrite T; intros Hin%elem_of_nil; exact Hin.
    - right. exists who, k, ev. split; [exact E1|]. split; [exact E2|]. apply (mstep_view C V _ _ _ _ _ _ c v) in E. exact E.
  Qed.
  Lemma step_progress w op c v n0 k0 m : n0 < two64 ->
    (exists j, j <= m /\ seen (w_chan w) c v = (Some n0, n0, Some (w32 (k0 + j)))) \/
    (exists j, 1 <= j <= m /\ nonce_get (w_chan w) c v = w64 (n0 + j)) ->
    (exists j, j <= m + 1 /\ seen (w_chan (wstep cfg w op).1) c v = (Some n0, n0, Some (w32 (k0 + j)))) \/
    (exists j, 1 <= j <= m + 1 /\ nonce_get (w_chan (wstep cfg w op).1) c v = w64 (n0 + j)).
  Proof.
    intros Hn P. destruct (chan_step w op) as [[-> _]|(who & k & ev & s' & _ & _ & E & -> & _)].
    - destruct P as [(j & Hj & E)|(j & Hj & E)]; [left|right]; exists j; split; try lia; exact E.
    - pose proof (mdo_progress C V (at_bank w) (mctx cfg op.1 w, who, k) c v n0 k0 m Hn P) as Q.
      unfold mdo in Q. cbn [fst snd] in Q. rewrite E in Q. exact Q.
  Qed.
  Lemma run_progress h : forall w c v n0 k0 m, n0 < two64 ->
    (exists j, j <= m /\ seen (w_chan w) c v = (Some n0, n0, Some (w32 (k0 + j)))) \/
    (exists j, 1 <= j <= m /\ nonce_get (w_chan w) c v = w64 (n0 + j)) ->
    (exists j, j <= m + N.of_nat (length h) /\ seen (w_chan (wrun cfg w h)) c v = (Some n0, n0, Some (w32 (k0 + j)))) \/
    (exists j, 1 <= j <= m + N.of_nat (length h) /\ nonce_get (w_chan (wrun cfg w h)) c v = w64 (n0 + j)).
  Proof.
    induction h as [|op h IH]; intros w c v n0 k0 m Hn P; cbn [length wrun].
    - destruct P as [(j & ? & ?)|(j & ? & ?)]; [left|right]; exists j; split; auto; cbn; lia.
    - apply (step_progress w op) in P; [|exact Hn]. apply (IH (wstep cfg w op).1) in P; [|exact Hn].
      replace (m + N.of_nat (S (length h))) with (m + 1 + N.of_nat (length h)) by lia. exact P.
  Qed.
  Lemma honours_view w op c v n k : honours cfg w op c v n k ->
    c_nonce <$> m_chan (w_chan w) !! (c, v) = Some n /\
    (forall last, m_sess (w_chan w) !! (c, v) = Some last -> k = add32 last 1) /\
    seen (w_chan (wstep cfg w op).1) c v = (Some n, nonce_get (w_chan w) c v, Some k).
  Proof.
    intros (a & sg & ch & E1 & Ech & <- & E2). rewrite Ech. split; [reflexivity|].
    destruct (chan_step w op) as [[_ T]|(who & c0 & ev & m & F1 & _ & E & -> & F2)]; [rewrite E2 in T; discriminate|].
    rewrite E1 in F1. injection F1 as <- <-. rewrite E2 in F2.
    assert (ev = [ClaimPayment c v a]) as -> by (destruct ev as [|e [|? ?]]; [discriminate|now injection F2 as ->|discriminate]).
    pose proof (pays_view C V (at_bank w) (mctx cfg op.1 w, v, MClaim c k a sg) c v (c_nonce ch) k) as P.
    unfold mdo in P. cbn [fst snd] in P. rewrite E in P. destruct P as (_ & _ & P1 & P2).
    - exists a, sg, ch. cbn [fst snd]. rewrite E. auto.
    - split; [exact P1|exact P2].
  Qed.

  Lemma w32_next k j : k < two32 -> k = w32 (k + j + 1) -> two32 <= j + 1.
  Proof.
    intros Hk Es. destruct (N.le_gt_cases two32 (j + 1)) as [|Hc]; [done|exfalso]. unfold w32 in Es.
    destruct (N.lt_ge_cases (k + (j + 1)) two32) as [Hs|Hs].
    - rewrite N.mod_small in Es by lia. lia.
    - assert (Hm : (k + j + 1) mod two32 = k + j + 1 - two32) by (symmetry; apply (N.mod_unique _ _ 1); unfold two32 in *; lia).
      rewrite Hm in Es. lia.
  Qed.
  Lemma w64_next n j : n < two64 -> 1 <= j -> n = w64 (n + j) -> two64 <= j.
  Proof.
    intros Hn Hj E. destruct (N.le_gt_cases two64 j) as [|Hc]; [done|exfalso]. unfold w64 in E.
    destruct (N.lt_ge_cases (n + j) two64) as [Hs|Hs].
    - rewrite N.mod_small in E by lia. lia.
    - assert (Hm : (n + j) mod two64 = n + j - two64) by (symmetry; apply (N.mod_unique _ _ 1); unfold two64 in *; lia).
      rewrite Hm in E. lia.
  Qed.
  Lemma no_replay_w w op1 h op2 c v n k : nonces_ok (w_chan w) -> k < two32 ->
    honours cfg w op1 c v n k -> honours cfg (wrun cfg w (op1 :: h)) op2 c v n k ->
    two32 <= N.of_nat (S (length h)).
  Proof.
    intros Hok Hk H1 H2. cbn [wrun] in H2.
    assert (Hok2 : nonces_ok (w_chan (wrun cfg (wstep cfg w op1).1 h))) by now apply run_nonces, step_nonces.
    destruct Hok as (Hok & _ & Hlt). destruct Hok2 as (Hok2 & _ & _).
    apply honours_view in H1 as (N1 & _ & V1). apply honours_view in H2 as (N2 & L2 & _).
    assert (n = nonce_get (w_chan w) c v) as Hn.
    { destruct (m_chan (w_chan w) !! (c, v)) as [ch|] eqn:E; [|discriminate]. cbn in N1. injection N1 as <-. now apply Hok. }
    rewrite <- Hn in V1. specialize (Hlt c v). rewrite <- Hn in Hlt.
    destruct (run_progress h (wstep cfg w op1).1 c v n k 0 Hlt) as [(j & Hj & E)|(j & Hj & E)].
    { left. exists 0. split; [lia|]. rewrite N.add_0_r, w32_small; done. }
    - unfold seen in E. injection E as _ _ Es. apply L2 in Es. rewrite w32_succ in Es. apply w32_next in Es; [lia|exact Hk].
    - assert (n = nonce_get (w_chan (wrun cfg (wstep cfg w op1).1 h)) c v) as Hn'.
      { destruct (m_chan (w_chan (wrun cfg (wstep cfg w op1).1 h)) !! (c, v)) as [ch|] eqn:E2; [|discriminate].
        cbn in N2. injection N2 as <-. now apply Hok2. }
      rewrite <- Hn' in E. apply w64_next in E; [unfold two64, two32 in *; lia|exact Hlt|lia].
  Qed.

  (** Consecutive sessions. *)
  Lemma channel_log_cons w op h : channel_log cfg w (op :: h) = told (wstep cfg w op).2 ++ channel_log cfg (wstep cfg w op).1 h.
  Proof.
    unfold channel_log. rewrite wlog_cons, events_cons, map_app. f_equal. cbn [snd fst].
    destruct (wstep cfg w op).2; try reflexivity. rewrite map_map. cbn. now rewrite map_id.
  Qed.
  Lemma quiet_view_w h : forall w c v, is_Some (m_chan (w_chan w) !! (c, v)) ->
    (forall a, ClaimPayment c v a ∉ channel_log cfg w h) -> (forall t, ChannelClosed c v t ∉ channel_log cfg w h) ->
    seen (w_chan (wrun cfg w h)) c v = seen (w_chan w) c v.
  Proof.
    induction h as [|op h IH]; intros w c v Hc Q1 Q2; [reflexivity|]. cbn [wrun].
    rewrite channel_log_cons in Q1, Q2.
    assert (Hv : seen (w_chan (wstep cfg w op).1) c v = seen (w_chan w) c v).
    { destruct (step_view_w w op c v) as [[Hv _]|(who & k & ev & _ & Er & S)]; [exact Hv|]. rewrite Er in Q1, Q2.
      rewrite omap_map_some in Q1, Q2 by reflexivity.
      destruct S as [(Hv & _)|[(Hn & _)|[(n & k' & a & sg & Hev & _)|((t & Ht) & _)]]]; [exact Hv| | |].
      - destruct Hc. congruence.
      - destruct (Q1 a). rewrite Hev. apply elem_of_app. left. apply elem_of_list_here.
      - destruct (Q2 t). apply elem_of_app. left. now apply elem_of_list_In. }
    rewrite <- Hv. apply IH.
    - unfold seen in Hv. assert (E : c_nonce <$> m_chan (w_chan (wstep cfg w op).1) !! (c, v) = c_nonce <$> m_chan (w_chan w) !! (c, v)) by congruence.
      destruct Hc as [ch Hc]. rewrite Hc in E. destruct (m_chan (w_chan (wstep cfg w op).1) !! (c, v)); [eauto|discriminate].
    - intros a Ha. apply (Q1 a), elem_of_app. now right.
    - intros t Ht. apply (Q2 t), elem_of_app. now right.
  Qed.
  Lemma consecutive_w w op1 h op2 c v n1 k1 n2 k2 : honours cfg w op1 c v n1 k1 ->
    (forall a, ClaimPayment c v a ∉ channel_log cfg (wstep cfg w op1).1 h) ->
    (forall t, ChannelClosed c v t ∉ channel_log cfg (wstep cfg w op1).1 h) ->
    honours cfg (wrun cfg w (op1 :: h)) op2 c v n2 k2 -> k2 = add32 k1 1 /\ n2 = n1.
  Proof.
    intros H1 Q1 Q2 H2. cbn [wrun] in H2.
    apply honours_view in H1 as (_ & _ & V1). apply honours_view in H2 as (N2 & L2 & _).
    assert (Hv := quiet_view_w h (wstep cfg w op1).1 c v). rewrite V1 in Hv. unfold seen in Hv, V1.
    destruct (m_chan (w_chan (wstep cfg w op1).1) !! (c, v)) eqn:E; [|discriminate].
    specialize (Hv ltac:(eauto) Q1 Q2). split; [apply L2; congruence|congruence].
  Qed.

  (** Totals and books, while all DPR fits u128. *)
  Context (Hs : Model_Credit.kc_step (jc_c (wc_chain cfg)) <> Model_Credit.U64MAX).
  Lemma at_bank_fits w : supply w < two128 -> fits (at_bank w).
  Proof.
    unfold fits. rewrite Proofs_Micropayment.all_money_eq, supply_money. unfold sum_channels. cbn. lia.
  Qed.
  Lemma step_totals w op : supply w < two128 -> totals_ok (w_chan w) -> totals_ok (w_chan (wstep cfg w op).1).
  Proof.
    intros F H. destruct (chan_step w op) as [[-> _]|(who & k & ev & s' & _ & _ & E & -> & _)]; [exact H|].
    apply mstep_ok in E as [E _].
    assert (totals_ok s' /\ fits s') as [? _]; [|done].
    eapply (atoms_inv C V (fun t => totals_ok t /\ fits t)); [| |exact E].
    - intros x caller call t e t' [T Ht] Ha. split; [eapply atom_totals; eauto|].
      unfold fits. rewrite (atom_money C V _ _ _ _ _ _ Ht Ha). exact Ht.
    - split; [exact H|]. now apply at_bank_fits.
  Qed.
  Lemma step_book w op c v acc : supply w < two128 -> book_ok c v acc (w_chan w) ->
    book_ok c v (fold_left (book c v) (told (wstep cfg w op).2) acc) (w_chan (wstep cfg w op).1).
  Proof.
    intros F H. destruct (chan_step w op) as [[-> T]|(who & k & ev & s' & _ & _ & E & -> & Er)]; [rewrite T; exact H|].
    rewrite Er, omap_map_some by reflexivity. apply mstep_ok in E as [E _].
    eapply (atoms_book C V) in E; [exact (proj1 E)|now apply at_bank_fits|exact H].
  Qed.
  Lemma run_books h : forall w up c v acc, up = negb (Model_Adsc.a_version (w_adsc w) <? 2) ->
    supply w + created up (wlog cfg w h) < two128 -> totals_ok (w_chan w) -> book_ok c v acc (w_chan w) ->
    totals_ok (w_chan (wrun cfg w h)) /\ book_ok c v (fold_left (book c v) (channel_log cfg w h) acc) (w_chan (wrun cfg w h)).
  Proof.
    induction h as [|op h IH]; intros w up c v acc Eu F T B; [split; [exact T|exact B]|].
    rewrite channel_log_cons, fold_left_app. cbn [wrun].
    rewrite wlog_cons in F. cbn [created] in F. cbn [fst] in F.
    destruct (step_eff cfg Hs w op (wstep cfg w op).1 (wstep cfg w op).2) as [S Vn]; [lia|now destruct (wstep cfg w op)|].
    rewrite <- Eu in S. destruct S as [S _].
    apply (IH _ (up || upgrades op.2)); [|rewrite S; lia|apply step_totals; [lia|exact T]|apply step_book; [lia|exact B]].
    rewrite Vn, Eu. cbn [fst]. destruct (_ <? 2), (upgrades op.2); reflexivity.
  Qed.
End channels.
