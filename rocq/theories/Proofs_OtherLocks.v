(** Locks of others on an account: proofs for property C200. *)
From Verif Require Import Base Balances Model_StakingLedger Model_Staking Spec_Staking Spec_Staking2 Spec_OtherLocks
  Proofs_Balances Proofs_Staking Proofs_Staking14.
From stdpp Require Import gmap.
Open Scope N_scope.

Section locks.
  Context (cfg : kcfg) (x : kctx) (a f : N) (X : others_lock a f x).
  Local Notation ed := (kc_ed cfg).

  (** Of bank [b] account [a] stays, and as much of it is frozen. *)
  Definition stays (b : bank) : Prop := ed <= free (acct_of b a) \/ rsv (acct_of b a) <> 0.
  Definition bk (b b' : bank) : Prop := stays b -> stays b' /\ frz (acct_of b' a) = frz (acct_of b a).
  Lemma bk_refl b : bk b b.
  Proof. intros H. auto. Qed.
  Lemma bk_trans b b1 b2 : bk b b1 -> bk b1 b2 -> bk b b2.
  Proof. intros A B H. destruct (A H) as [H1 E1]. destruct (B H1) as [H2 E2]. split; [exact H2|congruence]. Qed.
  Lemma put_self b w n z :
    ed <= n \/ rsv (acct_of b w) <> 0 ->
    acct_of (put ed b w (Acct n (rsv (acct_of b w)) z)) w = Acct n (rsv (acct_of b w)) z.
  Proof.
    intros H. assert (E : ((n <? ed) && (rsv (acct_of b w) =? 0)) = false).
    { apply andb_false_iff. destruct H; [left; apply N.ltb_ge; auto|right; apply N.eqb_neq; auto]. }
    unfold put. cbn [free rsv]. rewrite E. unfold acct_of at 1. cbn. now rewrite lookup_insert.
  Qed.
  Lemma put_bk b w n :
    (w = a -> ed <= free (acct_of b w) -> ed <= n) ->
    bk b (put ed b w (Acct n (rsv (acct_of b w)) (frz (acct_of b w)))).
  Proof.
    intros L H. destruct (decide (w = a)) as [->|N]; [|unfold stays; rewrite put_acct_ne by auto; auto].
    unfold stays in *. rewrite put_self; [cbn; split; [|reflexivity]|]; destruct H as [H|H]; auto.
  Qed.
  Lemma lost_bk b m : bk b (Bank (accts b) m).
  Proof. intros H. split; [exact H|reflexivity]. Qed.
  Lemma deposit_bk b w v : bk b (deposit_creating ed b w v).
  Proof.
    unfold deposit_creating. destruct (v =? 0); [apply bk_refl|]. destruct (_ && _); [apply lost_bk|].
    destruct (_ <=? _); [apply lost_bk|]. apply put_bk. lia.
  Qed.
  Lemma mint_bk b w v b' got : Model_Operation.mint ed b w v = (b', got) -> bk b b'.
  Proof.
    unfold Model_Operation.mint. destruct (v =? 0); [intros [= <- <-]; apply bk_refl|].
    destruct (_ && _); [intros [= <- <-]; apply bk_refl|]. destruct (_ <=? _); intros [= <- <-]; [apply bk_refl|].
    apply put_bk. lia.
  Qed.
  Lemma mint_existing_bk b w v b' got : mint_existing cfg b w v = (b', got) -> bk b b'.
  Proof.
    unfold mint_existing. destruct (v =? 0); [intros [= <- <-]; apply bk_refl|].
    destruct (is_new _); [intros [= <- <-]; apply bk_refl|]. destruct (_ <=? _); intros [= <- <-]; [apply bk_refl|].
    apply put_bk. lia.
  Qed.
  Lemma cslash_bk b w v b' got miss : cslash cfg x b w v = (b', got, miss) -> bk b b'.
  Proof.
    unfold cslash. destruct (v =? 0); [intros [= <- <- <-]; apply bk_refl|].
    destruct (_ =? 0); [intros [= <- <- <-]; apply bk_refl|].
    intros H. injection H as <- <- <-. apply put_bk. intros -> L. destruct X as [_ D]. rewrite D. unfold ssub. lia.
  Qed.
  Lemma transfer_keep_bk b src dst v b' : transfer_keep ed b src dst v = Some b' -> bk b b'.
  Proof.
    unfold transfer_keep. destruct (N.eqb_spec v 0); [intros [= <-]; apply bk_refl|].
    destruct (N.eqb_spec src dst) as [|Hn]; [intros [= <-]; apply bk_refl|]. cbn [orb].
    destruct (N.ltb_spec (free (acct_of b src)) v) as [|L]; [discriminate|].
    destruct (N.ltb_spec (free (acct_of b src) - N.max (frz (acct_of b src) - rsv (acct_of b src)) ed) v) as [|L2]; [discriminate|].
    destruct (_ <? ed); [discriminate|]. destruct (_ <=? _); [discriminate|].
    intros [= <-].
    assert (A : bk b (put ed b src (Acct (free (acct_of b src) - v) (rsv (acct_of b src)) (frz (acct_of b src))))).
    { apply put_bk. lia. }
    set (b1 := put ed b src _) in *.
    assert (E : acct_of b1 dst = acct_of b dst) by (apply put_acct_ne; congruence).
    rewrite <- E. refine (bk_trans _ _ _ A _). apply put_bk. lia.
  Qed.

  (** From [s] to [s'] account [a] stays, and what is frozen of it stays right. *)
  Definition kk (s s' : kstate) : Prop :=
    lasting cfg s a -> frozen_right s a f -> lasting cfg s' a /\ frozen_right s' a f.
  Lemma kk_refl s : kk s s.
  Proof. intros H. auto. Qed.
  Lemma kk_trans s s1 s2 : kk s s1 -> kk s1 s2 -> kk s s2.
  Proof. intros A B L F. destruct (A L F) as [L1 F1]. auto. Qed.
  Lemma kk_bk s s' : bk (k_bank s) (k_bank s') -> s_lock (k_stk s') = s_lock (k_stk s) -> kk s s'.
  Proof. intros A E L F. destruct (A L) as [B C]. split; [exact B|]. unfold frozen_right. rewrite E, C. exact F. Qed.
  Lemma kk_same s s' : k_bank s' = k_bank s -> s_lock (k_stk s') = s_lock (k_stk s) -> kk s s'.
  Proof. intros E. apply kk_bk. rewrite E. apply bk_refl. Qed.
  Lemma freeze_kk s w v k :
    (w = a -> v = N.max (default 0 (s_lock k !! a)) f) -> (w <> a -> s_lock k !! a = s_lock (k_stk s) !! a) ->
    kk s (set_k_stk (set_k_bank s (freeze cfg (k_bank s) w v)) k).
  Proof.
    intros V E L F. unfold lasting, frozen_right in *. cbn [k_bank k_stk set_k_stk set_k_bank]. unfold freeze.
    destruct (decide (w = a)) as [->|N].
    - rewrite put_self by exact L. cbn [free rsv frz]. split; [exact L|auto].
    - rewrite put_acct_ne by auto. rewrite E by exact N. auto.
  Qed.
  Lemma set_lock_kk s w v : kk s (set_lock cfg x s w v).
  Proof.
    unfold set_lock. destruct (v =? 0); [apply kk_refl|]. apply freeze_kk; destruct s as [? ? ? k ?]; destruct k; cbn.
    - intros ->. rewrite lookup_insert. cbn. now destruct X as [-> _].
    - intros N. now rewrite lookup_insert_ne.
  Qed.
  Lemma remove_lock_kk s w : kk s (remove_lock cfg x s w).
  Proof.
    unfold remove_lock. apply freeze_kk; destruct s as [? ? ? k ?]; destruct k; cbn.
    - intros ->. rewrite lookup_delete. cbn. destruct X as [-> _]. lia.
    - intros N. now rewrite lookup_delete_ne.
  Qed.
  Lemma update_ledger_kk s c l : kk s (update_ledger cfg x s c l).
  Proof. unfold update_ledger. eapply kk_trans; [apply set_lock_kk|]. now apply kk_same. Qed.
  Lemma kill_stash_lock k st n k' : kill_stash k st n = ROk k' -> s_lock k' = s_lock k.
  Proof.
    unfold kill_stash. destruct (_ !! st); [|discriminate]. intros H. inv_bind H. injection H as <-. cbn.
    unfold clear_stash in E. destruct (_ !! st); [|now injection E as ->]. inv_bind E. now injection E as <-.
  Qed.
  Lemma unstake_kk s st n s' : unstake cfg x s st n = ROk s' -> kk s s'.
  Proof.
    unfold unstake. intros H. inv_bind H. injection H as <-. apply kill_stash_lock in E.
    eapply kk_trans; [|apply remove_lock_kk]. now apply kk_same.
  Qed.

  (** *** Payouts *)
  Lemma payout_kk s st v s' ev : validator_payout cfg x s st v = (s', ev) -> kk s s'.
  Proof.
    unfold validator_payout. destruct (default PStaked _).
    - destruct (_ !! st); [|intros [= <- <-]; apply kk_refl]. destruct (_ !! n); [|intros [= <- <-]; apply kk_refl].
      destruct (mint_existing _ _ _ _) eqn:E. intros H. injection H as <- <-. apply mint_existing_bk in E.
      eapply kk_trans; [|apply update_ledger_kk]. now apply kk_bk.
    - destruct (mint_existing _ _ _ _) eqn:E. intros H. injection H as <- <-. apply mint_existing_bk in E. now apply kk_bk.
    - destruct (_ !! st); [|intros [= <- <-]; apply kk_refl].
      destruct (Model_Operation.mint _ _ _ _) eqn:E. intros H. injection H as <- <-. apply mint_bk in E. now apply kk_bk.
    - destruct (Model_Operation.mint _ _ _ _) eqn:E. intros H. injection H as <- <-. apply mint_bk in E. now apply kk_bk.
  Qed.
  Lemma pay_each_kk pts po : forall vs s t s' t' ev, pay_each cfg x pts po vs s t = (s', t', ev) -> kk s s'.
  Proof.
    induction vs as [|v r IH]; intros s t s' t' ev H; cbn [pay_each] in H; [injection H as <- _ _; apply kk_refl|].
    destruct (_ =? 0); [eauto|].
    destruct (validator_payout _ _ _ _ _) as [s1 e1] eqn:E1. destruct (pay_each _ _ _ _ r s1 _) as [[s2 t2] e2] eqn:E2.
    injection H as <- _ _. apply payout_kk in E1. apply IH in E2. exact (kk_trans _ _ _ E1 E2).
  Qed.
  Lemma pay_validators_kk s era s' ev : pay_validators cfg x s era = (s', ev) -> kk s s'.
  Proof.
    unfold pay_validators. destruct (_ =? 0); [intros [= <- <-]; now apply kk_same|].
    destruct (pay_each _ _ _ _ _ _ _) as [[s1 t1] e1] eqn:E. intros H. injection H as <- <-.
    apply pay_each_kk in E. eapply kk_trans; [exact E|]. now apply kk_same.
  Qed.
  Lemma pay_delegator_kk s d r pool s' p ev : pay_delegator cfg x s d r pool = (s', p, ev) -> kk s s'.
  Proof.
    unfold pay_delegator. destruct (_ =? _); [intros [= <- _ _]; now apply kk_same|].
    destruct (kx_reward x d _ _); [|intros [= <- _ _]; now apply kk_same].
    destruct (Model_Operation.mint _ _ _ _) eqn:E. intros H; injection H as <- _ _. apply mint_bk in E. now apply kk_bk.
  Qed.
  Lemma pay_referer_kk s d rw pool s' p ev : pay_referer cfg s d rw pool = (s', p, ev) -> kk s s'.
  Proof.
    unfold pay_referer. destruct (_ !! d); [|intros [= <- _ _]; now apply kk_same].
    destruct (bonus_rate _); [|intros [= <- _ _]; now apply kk_same].
    destruct (Model_Operation.mint _ _ _ _) eqn:E. intros H; injection H as <- _ _. apply mint_bk in E. now apply kk_bk.
  Qed.
  Lemma pay_loop_kk : forall n l s pool last ct s' p' la' c' ev,
    pay_loop cfg x n l s pool last ct = (s', p', la', c', ev) -> kk s s'.
  Proof.
    induction n as [|n IH]; intros l s pool last ct s' p' la' c' ev H; cbn [pay_loop] in H; [injection H as <- _ _ _ _; apply kk_refl|].
    destruct l as [|[d r] rest]; [injection H as <- _ _ _ _; apply kk_refl|].
    destruct (pay_delegator _ _ _ _ _ _) as [[s1 q1] e1] eqn:E1. apply pay_delegator_kk in E1.
    destruct (_ =? 0); [injection H as <- _ _ _ _; auto|].
    destruct (pay_referer _ _ _ _ _) as [[s2 q2] e2] eqn:E2. apply pay_referer_kk in E2.
    destruct (_ =? 0); [injection H as <- _ _ _ _; exact (kk_trans _ _ _ E1 E2)|].
    destruct (pay_loop _ _ _ _ _ _ _ _) as [[[[s3 q3] l3] c3] e3] eqn:E3. apply IH in E3. injection H as <- _ _ _ _.
    exact (kk_trans _ _ _ E1 (kk_trans _ _ _ E2 E3)).
  Qed.

  (** *** Slashes *)
  Lemma undelegate_fold_stk l : forall s, k_stk (fold_left undelegate_in l s) = k_stk s.
  Proof. induction l as [|d l IH]; intros s; cbn; [auto|]. now rewrite IH. Qed.
  Lemma credit_fold_stk l : forall s, k_stk (fold_left (credit_slash x) l s) = k_stk s.
  Proof. induction l as [|d l IH]; intros s; cbn; [auto|]. rewrite IH. unfold credit_slash. now destruct (kx_pass x d). Qed.
  Lemma pay_reps_bk : forall l b each have b' left', pay_reps cfg b l each have = (b', left') -> bk b b'.
  Proof.
    induction l as [|r l IH]; intros b each have b' left' H; cbn [pay_reps] in H; [injection H as <- <-; apply bk_refl|].
    apply IH in H. exact (bk_trans _ _ _ (deposit_bk _ _ _) H).
  Qed.
  Lemma pay_reporters_bk b pay sl l : bk b (pay_reporters cfg b pay sl l).
  Proof.
    unfold pay_reporters. destruct (_ || _); [apply deposit_bk|].
    destruct (pay_reps _ _ _ _ _) as [b1 have] eqn:E. apply pay_reps_bk in E. exact (bk_trans _ _ _ E (deposit_bk _ _ _)).
  Qed.
  Lemma apply_slash_kk s u s' ev : apply_slash cfg x s u = (s', ev) -> kk s s'.
  Proof.
    unfold apply_slash. destruct (do_slash _ _ _ _ _ _) as [[[s1 pay] got] e1] eqn:E. intros H. injection H as <- _.
    assert (A : kk s s1).
    { unfold do_slash in E. destruct (_ !! u_val u); [|injection E as <- _ _ _; apply kk_refl].
      destruct (_ !! n); [|injection E as <- _ _ _; apply kk_refl].
      destruct (slash_ledger _ _ _) as [l' v]. destruct (v =? 0); [injection E as <- _ _ _; apply kk_refl|].
      destruct (cslash _ _ _ _ _) as [[b g] ms] eqn:Ec. injection E as <- _ _ _. apply cslash_bk in Ec.
      eapply kk_trans; [|apply update_ledger_kk]. now apply kk_bk. }
    refine (kk_trans _ _ _ A _). apply kk_bk; [rewrite credit_fold_bank|cbn [k_stk set_k_bank]; now rewrite credit_fold_stk].
    apply pay_reporters_bk.
  Qed.
  Lemma apply_list_kk : forall l s s' ev, apply_list cfg x l s = (s', ev) -> kk s s'.
  Proof.
    induction l as [|u r IH]; intros s s' ev H; cbn [apply_list] in H; [injection H as <- _; apply kk_refl|].
    destruct (apply_slash _ _ _ _) as [s1 e1] eqn:E1. destruct (apply_list _ _ r s1) as [s2 e2] eqn:E2. injection H as <- _.
    apply apply_slash_kk in E1. apply IH in E2. exact (kk_trans _ _ _ E1 E2).
  Qed.
  Lemma apply_eras_kk : forall n era s s' ev, apply_eras cfg x n era s = (s', ev) -> kk s s'.
  Proof.
    induction n as [|n IH]; intros era s s' ev H; cbn [apply_eras] in H; [injection H as <- _; apply kk_refl|].
    destruct (apply_list _ _ _ _) as [s1 e1] eqn:E1. destruct (apply_eras _ _ n _ s1) as [s2 e2] eqn:E2. injection H as <- _.
    apply apply_list_kk in E1. apply IH in E2. refine (kk_trans _ _ _ _ E2).
    refine (kk_trans _ _ _ _ E1). now apply kk_same.
  Qed.
  Lemma start_session_kk s i s' ev : start_session cfg x s i = (s', ev) -> kk s s'.
  Proof.
    unfold start_session. destruct (_ !! _); [|intros [= <- _]; apply kk_refl].
    destruct (_ <=? i); [|intros [= <- _]; apply kk_refl].
    unfold start_era, apply_unapplied. cbn zeta.
    match goal with |- context [s_first ?k] => destruct (s_first k) end; [|intros [= <- _]; now apply kk_same].
    destruct (apply_eras _ _ _ _ _) as [s1 e1] eqn:E. intros H. injection H as <- _. apply apply_eras_kk in E.
    refine (kk_trans _ _ _ _ E). now apply kk_same.
  Qed.
  Lemma fetch_spans_lock k st now k' sp : fetch_spans k st now = (k', sp) -> s_lock k' = s_lock k.
  Proof. unfold fetch_spans. destruct (_ !! st); now intros [= <- _]. Qed.

  Lemma close_spans_lock k st w d sp : s_lock (close_spans k st w d sp) = s_lock k.
  Proof. unfold close_spans. destruct d; [|auto]. now destruct (prune w sp) as [sp' p]. Qed.
  Lemma kick_lock k e st now sp d k' e' sp' d' : kick x k e st now sp d = (k', e', sp', d') -> s_lock k' = s_lock k.
  Proof. unfold kick. destruct (end_span now sp). now intros [= <- _ _ _]. Qed.
  Lemma kick_out_lock s st era w now : s_lock (k_stk (kick_out x s st era w now)) = s_lock (k_stk s).
  Proof.
    unfold kick_out. destruct (fetch_spans _ _ _) as [k0 sp] eqn:E. apply fetch_spans_lock in E.
    destruct (era_span sp era); [|exact E]. destruct (_ =? _); [|exact E].
    destruct (kick _ _ _ _ _ _ _) as [[[? ?] ?] ?] eqn:K. apply kick_lock in K. cbn. rewrite close_spans_lock. congruence.
  Qed.
  Lemma update_span_lock k st sp fr era own k' sp' d df rw t :
    update_span k st sp fr era own = (k', sp', d, df, rw, t) -> s_lock k' = s_lock k.
  Proof.
    unfold update_span. destruct (era_span sp era); [|now intros [= <- _ _ _ _ _]].
    destruct (default (0, 0) _) as [sl paid]. cbv zeta.
    destruct (if sl <? own then _ else _) as [[[[s1 d1] sp1] r1] c1].
    destruct (c1 || _); now intros [= <- _ _ _ _ _].
  Qed.
  Lemma compute_kk s st fr ex era w now s' u ev : compute_slash x s st fr ex era w now = (s', u, ev) -> kk s s'.
  Proof.
    intros H. apply kk_same; [now apply compute_bank in H|]. revert H.
    unfold compute_slash. destruct (_ =? 0); [intros [= <- _ _]; apply kick_out_lock|].
    destruct (_ <=? _); [intros [= <- _ _]; auto|].
    destruct (fetch_spans _ _ _) as [k0 sp] eqn:E. apply fetch_spans_lock in E.
    destruct (update_span _ _ _ _ _ _) as [[[[[k1 sp1] d1] df] rw] t] eqn:U. apply update_span_lock in U.
    destruct (if bool_decide _ then _ else _) as [[[k2 e2] sp2] d2] eqn:K. intros H. injection H as <- _ _.
    cbn. rewrite close_spans_lock. assert (s_lock k2 = s_lock k1); [|cbn in E; congruence].
    destruct (bool_decide _); [now apply kick_lock in K|congruence].
  Qed.
  Lemma offender_kk era w act s ev o s' ev' : offender1 cfg x era w act (s, ev) o = (s', ev') -> kk s s'.
  Proof.
    destruct o as [[[st ex] reps] fr]. unfold offender1. destruct (bool_decide _); [intros [= <- _]; apply kk_refl|].
    destruct (compute_slash _ _ _ _ _ _ _ _) as [[s1 u] e1] eqn:E. apply compute_kk in E. destruct u as [u|].
    - destruct (_ =? 0).
      + destruct (apply_slash _ _ _ _) as [s2 e2] eqn:E2. intros H. injection H as <- _. apply apply_slash_kk in E2.
        exact (kk_trans _ _ _ E E2).
      + intros H. injection H as <- _. refine (kk_trans _ _ _ E _). now apply kk_same.
    - intros H. injection H as <- _. exact E.
  Qed.
  Lemma offenders_kk era w act : forall os s ev s' ev',
    fold_left (offender1 cfg x era w act) os (s, ev) = (s', ev') -> kk s s'.
  Proof.
    induction os as [|o os IH]; intros s ev s' ev' H; cbn [fold_left] in H; [injection H as <- _; apply kk_refl|].
    destruct (offender1 _ _ _ _ _ _ o) as [s1 ev1] eqn:E. apply offender_kk in E. apply IH in H. exact (kk_trans _ _ _ E H).
  Qed.
  Lemma on_offence_kk s os i s' ev : on_offence cfg x s os i = (s', ev) -> kk s s'.
  Proof.
    unfold on_offence. destruct (e_act (k_era s)) as [[act b]|]; [|intros [= <- _]; apply kk_refl].
    destruct (slash_era _ _ _); [|intros [= <- _]; apply kk_refl]. intros H. apply offenders_kk in H.
    refine (kk_trans _ _ _ _ H). apply kk_same; [reflexivity|]. cbn. now destruct (s_first (k_stk s)).
  Qed.

  (** *** Calls *)
  Lemma call_kk s o c s' ev : dispatch cfg x s o c = ROk (s', ev) -> kk s s'.
  Proof.
    intros H.
    destruct c; cbn [dispatch] in H; unfold admin, controlled, signed, root, quiet, with_par, with_del, with_stk in H;
      try (destruct o; try discriminate H; []);
      repeat match type of H with rbind (ensure _ _) _ = _ => inv_bind H end;
      try (now (injection H as <- <-; apply kk_same)).
    - unfold staking_delegate in H. inv_bind H. inv_bind H.
      destruct (kx_level x who); [|discriminate]. inv_bind H.
      destruct (kx_dpr x who !! N.to_nat level); [|discriminate].
      destruct (kx_dpr x who !! N.to_nat n); [|discriminate].
      destruct (transfer_keep _ _ _ _ _) as [b|] eqn:Et; [|discriminate]. inv_bind H.
      injection H as <- <-. apply transfer_keep_bk in Et. now apply kk_bk.
    - unfold usdt_delegate in H. inv_bind H. inv_bind H. destruct v as [cur rest].
      destruct (0 <? _); [inv_bind H|]; injection H as <- <-; now apply kk_same.
    - inv_bind H. injection H as <- <-. unfold bond in E.
      repeat match type of E with rbind (ensure _ _) _ = _ => inv_bind E end. injection E as <-.
      eapply kk_trans; [|apply update_ledger_kk]. now apply kk_same.
    - inv_bind H. injection H as <- <-. unfold bond_extra in E.
      destruct (s_bonded (k_stk s) !! who) as [c|]; [|discriminate]. destruct (s_ledger (k_stk s) !! c) as [l|]; [|discriminate].
      destruct (_ <? _); [injection E as <-; apply kk_refl|]. inv_bind E. injection E as <-. apply update_ledger_kk.
    - unfold unbond in H. destruct (s_ledger (k_stk s) !! who) as [l|]; [|discriminate].
      inv_bind H. destruct (_ =? 0); [injection H as <- <-; apply kk_refl|].
      destruct (if _ <? _ then _ else _) as [v2 a2]. injection H as <- <-. apply update_ledger_kk.
    - unfold withdraw_unbonded in H. destruct (s_ledger (k_stk s) !! who) as [l0|]; [|discriminate].
      destruct (bool_decide _ && _) in H.
      + inv_bind H. injection H as <- <-. now apply unstake_kk in E.
      + injection H as <- <-. apply update_ledger_kk.
    - destruct (s_ledger _ !! _); [|discriminate]. injection H as <- <-. now apply kk_same.
    - destruct (s_ledger _ !! _); [|discriminate]. injection H as <- <-. now apply kk_same.
    - destruct (s_ledger _ !! _); [|discriminate]. injection H as <- <-. now apply kk_same.
    - inv_bind H. injection H as <- <-. apply kk_same; [reflexivity|]. unfold set_controller in E.
      destruct (_ !! who); [|discriminate]. inv_bind E. destruct (_ =? _); [now injection E as <-|].
      destruct (_ !! n); now injection E as <-.
    - inv_bind H. injection H as <- <-. now apply unstake_kk in E.
    - inv_bind H. injection H as <- <-. apply kk_same; [reflexivity|]. unfold cancel in E.
      inv_bind E. inv_bind E. inv_bind E. destruct (remove_at _ _ _); [|discriminate]. now injection E as <-.
    - inv_bind H. injection H as <- <-. unfold do_rebond in E.
      destruct (s_ledger (k_stk s) !! who) as [l|]; [|discriminate].
      inv_bind E. inv_bind E. injection E as <-. apply update_ledger_kk.
    - destruct (e_cur (k_era s)); injection H as <- <-; now apply kk_same.
    - inv_bind H. injection H as <- <-. now apply unstake_kk in E0.
    - inv_bind H. injection H as <- <-. now apply kk_same.
    - injection H as <- <-. apply kk_same; [apply undelegate_fold_bank|now rewrite undelegate_fold_stk].
    - unfold compensate in H. inv_bind H. destruct (Model_Operation.mint _ _ _ _) eqn:Em. injection H as <- <-.
      apply mint_bk in Em. now apply kk_bk.
    - inv_bind H. injection H as <- <-. now apply kk_same.
    - unfold npow_mint in H. inv_bind H. destruct (Model_Operation.mint _ _ _ _) eqn:Em. injection H as <- <-.
      apply mint_bk in Em. now apply kk_bk.
    - unfold validator_burn in H. destruct (s_ledger (k_stk s) !! who) as [l|] eqn:El; [|discriminate].
      destruct (slash_ledger _ _ _) as [l' amount]. destruct (cslash _ _ _ _ _) as [[b got] ms] eqn:Ec.
      injection H as <- <-. apply cslash_bk in Ec.
      refine (kk_trans _ _ _ (remove_lock_kk s (l_stash l)) _).
      refine (kk_trans _ _ _ _ (update_ledger_kk _ _ _)). apply kk_bk; [|reflexivity].
      exact (bk_trans _ _ _ Ec (lost_bk _ _)).
  Qed.
End locks.

Lemma new_era_stk cfg s i s' ev : new_era cfg s i = (s', ev) -> k_stk s' = k_stk s.
Proof. unfold new_era, elect. cbv zeta. destruct (_ <? _); now intros [= <- _]. Qed.
Lemma step_right cfg a f s op :
  step_others cfg a f s op -> lasting cfg s a -> frozen_right s a f ->
  lasting cfg (kstep cfg s op).1 a /\ frozen_right (kstep cfg s op).1 a f.
Proof.
  intros X L F. destruct op as [x o c|x| |i|x i|x i|w|x os i|b]; cbn [kstep step_others] in *.
  - destruct (dispatch cfg x s o c) as [[s1 ev]|e|] eqn:E; cbn [settle fst]; auto. exact (call_kk cfg x a f X _ _ _ _ _ E L F).
  - assert (K : forall s' ev, on_initialize cfg x s = ROk (s', ev) -> kk cfg a f s s').
    { intros s' ev H. unfold on_initialize in H. destruct (0 <? _); [|injection H as <- _; apply kk_refl].
      destruct (_ =? 0).
      - destruct (_ =? 0); [discriminate|]. injection H as <- _. now apply kk_same.
      - unfold pay_delegators in H. destruct (_ =? 0); [injection H as <- _; now apply kk_same|].
        destruct (pay_loop _ _ _ _ _ _ _) as [[[[s3 p3] l3] c3] e3] eqn:E3.
        injection H as <- _. apply (pay_loop_kk cfg x a f) in E3. eapply kk_trans; [exact E3|]. now apply kk_same. }
    destruct (on_initialize cfg x s) as [[s1 ev]|e|] eqn:E; cbn [settle fst]; [exact (K _ _ eq_refl L F)|auto|auto].
  - unfold on_finalize. destruct (e_act (k_era s)) as [[? []]|]; exact (conj L F).
  - destruct (new_session cfg s i) as [s1 ev] eqn:E. cbn [settle fst].
    assert (K : k_stk s1 = k_stk s).
    { unfold new_session in E. destruct (e_cur (k_era s)); [|now apply new_era_stk in E].
      destruct (e_force (k_era s)); [destruct (_ <=? _); [now apply new_era_stk in E|now injection E as <- _]| | |];
        first [now apply new_era_stk in E|now injection E as <- _]. }
    apply new_session_bank in E as [B _]. unfold lasting, frozen_right in *. rewrite B, K. auto.
  - destruct (start_session cfg x s i) as [s1 ev] eqn:E. exact (start_session_kk cfg x a f X _ _ _ _ E L F).
  - destruct (end_session cfg x s i) as [s1 ev] eqn:E. cbn [settle fst].
    unfold end_session in E. destruct (e_act (k_era s)) as [[i0 b]|]; [|injection E as <- _; auto].
    destruct (_ !! _); [|injection E as <- _; auto]. destruct (_ && _); [|injection E as <- _; auto].
    exact (pay_validators_kk cfg x a f X _ _ _ _ E L F).
  - unfold note_author. destruct (e_act (k_era s)) as [[? ?]|]; [|auto]. destruct (default (0, ∅) _). auto.
  - destruct (on_offence cfg x s os i) as [s1 ev] eqn:E. exact (on_offence_kk cfg x a f X _ _ _ _ _ E L F).
  - exact X.
Qed.
Lemma run_right cfg a f : forall h s,
  run_others cfg a f s h -> lasting cfg s a -> frozen_right s a f ->
  lasting cfg (krun cfg s h) a /\ frozen_right (krun cfg s h) a f.
Proof.
  induction h as [|op h IH]; intros s X L F; [auto|]. destruct X as [X R].
  destruct (step_right _ _ _ _ _ X L F) as [L1 F1]. exact (IH _ R L1 F1).
Qed.
