(** Slashing spans over whole histories. *)
From Verif Require Import Base Balances Model_StakingLedger Model_Staking Spec_Staking
  Proofs_Arith Proofs_StakingLedger Proofs_Staking Proofs_Staking2 Proofs_Staking3 Proofs_Staking5.
From stdpp Require Import gmap.
Open Scope N_scope.

Definition act (s : kstate) : N := match e_act (k_era s) with Some (i, _) => i | None => 0 end.
Definition all_same (k k' : stk) : Prop := forall st, same_books k k' st.
Lemma all_refl k : all_same k k.
Proof. intros st. apply same_refl. Qed.
Lemma all_trans k1 k2 k3 : all_same k1 k2 -> all_same k2 k3 -> all_same k1 k3.
Proof. intros A B st. eapply same_trans; eauto. Qed.

Section model.
  Context (cfg : kcfg).
  Local Notation ed := (kc_ed cfg).

  (** ** Parts that leave the spans alone *)
  Lemma update_ledger_same x s c l : all_same (k_stk s) (k_stk (update_ledger cfg x s c l)).
  Proof. intros st. unfold update_ledger, set_lock. destruct (_ =? 0); split; reflexivity. Qed.
  Lemma update_ledger_era x s c l : k_era (update_ledger cfg x s c l) = k_era s.
  Proof. unfold update_ledger, set_lock. now destruct (_ =? 0). Qed.
  Lemma update_ledger_par x s c l : k_par (update_ledger cfg x s c l) = k_par s.
  Proof. unfold update_ledger, set_lock. now destruct (_ =? 0). Qed.
  Lemma credit_fold_era x l : forall s, k_era (fold_left (credit_slash x) l s) = k_era s.
  Proof. induction l; intros s; cbn; auto. rewrite IHl. unfold credit_slash. now destruct (kx_pass x a). Qed.

  Lemma do_slash_same x s st v pay s' pay' got ev :
    do_slash cfg x s st v pay = (s', pay', got, ev) -> all_same (k_stk s) (k_stk s') /\ k_era s' = k_era s.
  Proof.
    unfold do_slash. destruct (_ !! st) as [c|]; [|intros H; injection H as <- _; auto using all_refl].
    destruct (_ !! c); [|intros H; injection H as <- _; auto using all_refl].
    destruct (slash_ledger _ _ _). destruct (_ =? 0); [intros H; injection H as <- _; auto using all_refl|].
    destruct (cslash _ _ _ _ _) as [[? ?] ?]. intros H. injection H as <- _.
    split; [|now rewrite update_ledger_era].
    exact (update_ledger_same x (set_k_bank s _) c _).
  Qed.
  Lemma apply_slash_same x s u s' ev :
    apply_slash cfg x s u = (s', ev) -> all_same (k_stk s) (k_stk s') /\ k_era s' = k_era s.
  Proof.
    unfold apply_slash. destruct (do_slash _ _ _ _ _ _) as [[[s1 p1] g1] e1] eqn:E.
    intros H. injection H as <- _. apply do_slash_same in E as [A B].
    cbn. rewrite credit_fold_stk, credit_fold_era. auto.
  Qed.
  Lemma apply_list_same x : forall l s s' ev,
    apply_list cfg x l s = (s', ev) -> all_same (k_stk s) (k_stk s') /\ k_era s' = k_era s.
  Proof.
    induction l as [|u l IH]; intros s s' ev H; cbn in H; [injection H as <- _; auto using all_refl|].
    destruct (apply_slash cfg x s u) as [s1 e1] eqn:E1.
    destruct (apply_list cfg x l s1) as [s2 e2] eqn:E2. injection H as <- _.
    apply apply_slash_same in E1 as [A1 B1]. apply IH in E2 as [A2 B2].
    split; [eapply all_trans; eauto|congruence].
  Qed.
  Lemma apply_eras_same x : forall n era s s' ev,
    apply_eras cfg x n era s = (s', ev) -> all_same (k_stk s) (k_stk s') /\ k_era s' = k_era s.
  Proof.
    induction n as [|n IH]; intros era s s' ev H; cbn [apply_eras] in H; [injection H as <- _; auto using all_refl|].
    cbn zeta in H. destruct (apply_list cfg x _ _) as [s1 e1] eqn:E1.
    destruct (apply_eras cfg x n (era + 1) s1) as [s2 e2] eqn:E2. injection H as <- _.
    apply apply_list_same in E1 as [A1 B1]. apply IH in E2 as [A2 B2].
    split; [|rewrite B2, B1; reflexivity]. eapply all_trans; [|exact A2]. eapply all_trans; [|exact A1]. intros st; split; reflexivity.
  Qed.
  Lemma start_session_same x s i s' ev :
    start_session cfg x s i = (s', ev) ->
    all_same (k_stk s) (k_stk s') /\
    (e_act (k_era s') = e_act (k_era s) \/
     e_act (k_era s') = Some (match e_act (k_era s) with Some (i, _) => add32 i 1 | None => 0 end, false)).
  Proof.
    unfold start_session. destruct (e_start _ !! _); [|intros H; injection H as <- _; auto using all_refl].
    destruct (_ <=? _); [|intros H; injection H as <- _; auto using all_refl].
    unfold start_era, apply_unapplied. cbn zeta.
    match goal with |- context [set_k_era (set_k_stk s ?k) ?e] => set (s0 := set_k_era (set_k_stk s k) e) end.
    assert (A0 : all_same (k_stk s) (k_stk s0)) by (intros st; split; reflexivity).
    destruct (s_first (k_stk s0)); [|intros H; injection H as <- _; auto].
    destruct (apply_eras _ _ _ _ _) as [s1 e1] eqn:E. intros H. injection H as <- _.
    apply apply_eras_same in E as [A B]. split; [|right; cbn; now rewrite B].
    eapply all_trans; [exact A0|]. eapply all_trans; [exact A|]. intros st; split; reflexivity.
  Qed.
  Lemma payout_same x s st v s' ev :
    validator_payout cfg x s st v = (s', ev) -> all_same (k_stk s) (k_stk s') /\ k_era s' = k_era s.
  Proof.
    unfold validator_payout. destruct (default PStaked _).
    - destruct (_ !! st) as [c|]; [|intros H; injection H as <- _; auto using all_refl].
      destruct (_ !! c); [|intros H; injection H as <- _; auto using all_refl].
      destruct (mint_existing _ _ _ _). intros H; injection H as <- _.
      split; [exact (update_ledger_same x (set_k_bank s _) c _)|now rewrite update_ledger_era].
    - destruct (mint_existing _ _ _ _). intros H; injection H as <- _. split; [apply all_refl|auto].
    - destruct (_ !! st) as [c|]; [|intros H; injection H as <- _; auto using all_refl].
      destruct (Model_Operation.mint _ _ _ _). intros H; injection H as <- _. split; [apply all_refl|auto].
    - destruct (Model_Operation.mint _ _ _ _). intros H; injection H as <- _. split; [apply all_refl|auto].
  Qed.
  Lemma pay_each_same x pts po : forall vs s t s' t' ev,
    pay_each cfg x pts po vs s t = (s', t', ev) -> all_same (k_stk s) (k_stk s') /\ k_era s' = k_era s.
  Proof.
    induction vs as [|v vs IH]; intros s t s' t' ev H; cbn [pay_each] in H; [injection H as <- _; auto using all_refl|].
    destruct (_ =? 0); [now apply IH in H|].
    destruct (validator_payout _ _ _ _ _) as [s1 e1] eqn:E1.
    destruct (pay_each _ _ _ _ _ _ _) as [[s2 t2] e2] eqn:E2 in H. injection H as <- _.
    apply payout_same in E1 as [A1 B1]. apply IH in E2 as [A2 B2]. split; [eapply all_trans; eauto|congruence].
  Qed.
  Lemma end_session_same x s i s' ev :
    end_session cfg x s i = (s', ev) -> all_same (k_stk s) (k_stk s') /\ k_era s' = k_era s.
  Proof.
    unfold end_session. destruct (e_act (k_era s)) as [[i0 st]|]; [|intros H; injection H as <- _; auto using all_refl].
    destruct (e_start _ !! _); [|intros H; injection H as <- _; auto using all_refl].
    destruct (_ && _); [|intros H; injection H as <- _; auto using all_refl].
    unfold pay_validators. destruct (_ =? 0); [intros H; injection H as <- _; auto using all_refl|]. cbn zeta.
    destruct (pay_each _ _ _ _ _ _ _) as [[s1 t] e1] eqn:E. intros H. injection H as <- _.
    now apply pay_each_same in E.
  Qed.
  Lemma clear_eras_act e a b : e_act (clear_eras e a b) = e_act e.
  Proof. reflexivity. Qed.
  Lemma elect_act s era s' o : elect cfg s era = (s', o) -> e_act (k_era s') = e_act (k_era s).
  Proof. unfold elect. destruct (_ <? _); [intros H; now injection H as <- _|]. cbn zeta. intros H. now injection H as <- _. Qed.
  Lemma new_era_act s i s' ev : new_era cfg s i = (s', ev) -> e_act (k_era s') = e_act (k_era s).
  Proof.
    unfold new_era. cbn zeta.
    destruct (elect cfg _ _) as [s1 [l|]] eqn:E; apply elect_act in E; intros H; injection H as <- _; cbn;
      rewrite E; cbn; now destruct (_ <=? _).
  Qed.
  Lemma new_session_act s i s' ev : new_session cfg s i = (s', ev) -> e_act (k_era s') = e_act (k_era s).
  Proof.
    unfold new_session. destruct (e_cur (k_era s)); [|apply new_era_act].
    destruct (e_force (k_era s)).
    - destruct (_ <=? _); [apply new_era_act|intros H; now injection H as <- _].
    - intros H. now apply new_era_act in H.
    - intros H; now injection H as <- _.
    - apply new_era_act.
  Qed.
  Lemma pay_delegator_era x s d r pool s' p ev :
    pay_delegator cfg x s d r pool = (s', p, ev) -> k_era s' = k_era s.
  Proof.
    unfold pay_delegator. destruct (_ =? _); [congruence|].
    destruct (kx_reward x d _ _); [destruct (Model_Operation.mint _ _ _ _)|]; intros H; now injection H as <-.
  Qed.
  Lemma pay_referer_era s d r pool s' p ev : pay_referer cfg s d r pool = (s', p, ev) -> k_era s' = k_era s.
  Proof.
    unfold pay_referer. destruct (d_ref _ !! d); [|congruence].
    destruct (bonus_rate _); [|congruence].
    destruct (Model_Operation.mint _ _ _ _); intros H; now injection H as <-.
  Qed.
  Lemma pay_loop_era x : forall n l s pool last ct s' p' la' c' ev,
    pay_loop cfg x n l s pool last ct = (s', p', la', c', ev) -> k_era s' = k_era s.
  Proof.
    induction n as [|n IH]; intros [|[d r] l] s pool last ct s' p' la' c' ev H; cbn [pay_loop] in H;
      try (now injection H as <-).
    destruct (pay_delegator cfg x s d r pool) as [[s1 q] e1] eqn:E1. apply pay_delegator_era in E1.
    destruct (_ =? 0); [now injection H as <-|].
    destruct (pay_referer cfg s1 d q _) as [[s2 q2] e2] eqn:E2. apply pay_referer_era in E2.
    destruct (_ =? 0); [injection H as <-; congruence|].
    destruct (pay_loop _ _ _ _ _ _ _) as [[[[s3 p3] l3] c3] e3] eqn:E3 in H.
    injection H as <-. apply IH in E3. congruence.
  Qed.

  (** A stash is dissolved: only its own books go. *)
  Lemma unstake_books x s st0 n s' :
    unstake cfg x s st0 n = ROk s' ->
    (forall st, st <> st0 -> same_books (k_stk s) (k_stk s') st) /\
    (s_spans (k_stk s') !! st0 = None \/ same_books (k_stk s) (k_stk s') st0) /\
    is_Some (s_bonded (k_stk s) !! st0) /\ s_bonded (k_stk s') !! st0 = None /\ k_era s' = k_era s.
  Proof.
    unfold unstake, kill_stash. intros H. inv_bind H.
    destruct (s_bonded (k_stk s) !! st0) as [c|] eqn:Eb; [|discriminate].
    inv_bind E. injection E as <-. injection H as <-. cbn.
    split; [|split; [|split; [eauto|split; [apply lookup_delete|auto]]]].
    - intros st Hn. unfold clear_stash in E0. destruct (s_spans (k_stk s) !! st0) as [sp|]; [|injection E0 as <-; split; reflexivity].
      inv_bind E0. injection E0 as <-. split; cbn; [now rewrite lookup_delete_ne by congruence|].
      intros i. unfold record.
      enough (Q : foldr (fun p m => delete (st0, sn_index p) m) (s_rec (k_stk s)) (spans_iter sp) !! (st, i)
                  = s_rec (k_stk s) !! (st, i)) by exact (f_equal (default (0, 0)) Q).
      clear E; induction (spans_iter sp) as [|t l IH]; cbn; [auto|]. rewrite lookup_delete_ne; [auto|congruence].
    - unfold clear_stash in E0. destruct (s_spans (k_stk s) !! st0) as [sp|] eqn:Es.
      + inv_bind E0. injection E0 as <-. left. cbn. apply lookup_delete.
      + injection E0 as <-. right. split; reflexivity.
  Qed.

  (** A call keeps the spans, or dissolves one stash. *)
  Lemma call_books x s o c s' ev :
    dispatch cfg x s o c = ROk (s', ev) ->
    e_act (k_era s') = e_act (k_era s) /\
    (all_same (k_stk s) (k_stk s') \/ exists st0,
      (forall st, st <> st0 -> same_books (k_stk s) (k_stk s') st) /\
      (s_spans (k_stk s') !! st0 = None \/ same_books (k_stk s) (k_stk s') st0) /\
      is_Some (s_bonded (k_stk s) !! st0) /\ s_bonded (k_stk s') !! st0 = None).
  Proof.
    intros H.
    assert (kill : forall st0 n s1, unstake cfg x s st0 n = ROk s1 ->
      e_act (k_era s1) = e_act (k_era s) /\ (all_same (k_stk s) (k_stk s1) \/ exists st0,
      (forall st, st <> st0 -> same_books (k_stk s) (k_stk s1) st) /\
      (s_spans (k_stk s1) !! st0 = None \/ same_books (k_stk s) (k_stk s1) st0) /\
      is_Some (s_bonded (k_stk s) !! st0) /\ s_bonded (k_stk s1) !! st0 = None)).
    { intros st0 n s1 E. apply unstake_books in E as (A & B & C & D & F). split; [now rewrite F|right; eauto]. }
    assert (upd : forall c l, e_act (k_era (update_ledger cfg x s c l)) = e_act (k_era s) /\
        all_same (k_stk s) (k_stk (update_ledger cfg x s c l))).
    { intros. split; [now rewrite update_ledger_era|apply update_ledger_same]. }
    destruct c; cbn [dispatch] in H; unfold admin, controlled, signed, root, quiet, with_par, with_del, with_stk in H;
      try (destruct o; try discriminate H; []);
      repeat match type of H with rbind (ensure _ _) _ = _ => inv_bind H end;
      try (injection H as <- <-; split; [reflexivity|left; intros st; split; reflexivity]; fail).
    - unfold staking_delegate in H. inv_bind H. inv_bind H.
      destruct (kx_level x who); [|discriminate]. inv_bind H.
      destruct (kx_dpr x who !! N.to_nat level); [|discriminate].
      destruct (kx_dpr x who !! N.to_nat n); [|discriminate].
      destruct (transfer_keep _ _ _ _ _); [|discriminate]. inv_bind H.
      injection H as <- <-. split; [reflexivity|left; intros st; split; reflexivity].
    - unfold usdt_delegate in H. inv_bind H. inv_bind H. destruct v as [cur rest].
      destruct (0 <? _); [inv_bind H|]; injection H as <- <-; (split; [reflexivity|left; intros st; split; reflexivity]).
    - inv_bind H. injection H as <- <-. unfold bond in E.
      repeat match type of E with rbind (ensure _ _) _ = _ => inv_bind E end.
      injection E as <-. split; [now rewrite update_ledger_era|]. left.
      eapply all_trans; [|apply update_ledger_same]. intros st; split; reflexivity.
    - inv_bind H. injection H as <- <-. unfold bond_extra in E.
      destruct (s_bonded (k_stk s) !! who) as [c|] eqn:Eb; [|discriminate].
      destruct (s_ledger (k_stk s) !! c) as [l|] eqn:El; [|discriminate].
      destruct (_ <? _); [injection E as <-; split; [auto|left; apply all_refl]|].
      inv_bind E. injection E as <-. destruct (upd c (Ledger (l_stash l) (add128 (l_total l) (N.min (free_of (k_bank s) who - l_total l) v))
        (add128 (l_active l) (N.min (free_of (k_bank s) who - l_total l) v)) (l_unl l))) as [A B]. split; [exact A|left; exact B].
    - unfold unbond in H. destruct (s_ledger (k_stk s) !! who) as [l|] eqn:El; [|discriminate].
      inv_bind H. destruct (_ =? 0) eqn:Ez; [injection H as <- <-; split; [auto|left; apply all_refl]|].
      match type of H with context [let '(_, _) := ?e in _] => destruct e end. injection H as <- <-.
      match goal with |- context [update_ledger cfg x s ?c ?l] => destruct (upd c l) as [A B] end. auto.
    - unfold withdraw_unbonded in H. destruct (s_ledger (k_stk s) !! who) as [l0|] eqn:El; [|discriminate].
      destruct (bool_decide _ && _) eqn:Ek in H.
      + inv_bind H. injection H as <- <-. eapply kill; eauto.
      + injection H as <- <-. match goal with |- context [update_ledger cfg x s ?c ?l] => destruct (upd c l) as [A B] end. auto.
    - destruct (s_ledger _ !! _); [|discriminate]. injection H as <- <-. split; [reflexivity|left; intros st; split; reflexivity].
    - destruct (s_ledger _ !! _); [|discriminate]. injection H as <- <-. split; [reflexivity|left; intros st; split; reflexivity].
    - destruct (s_ledger _ !! _); [|discriminate]. injection H as <- <-. split; [reflexivity|left; intros st; split; reflexivity].
    - inv_bind H. injection H as <- <-. split; [reflexivity|]. left. unfold set_controller in E.
      destruct (s_bonded (k_stk s) !! who) as [old|] eqn:Eb; [|discriminate].
      inv_bind E. destruct (controller =? old); [injection E as <-; apply all_refl|].
      destruct (s_ledger (k_stk s) !! old); injection E as <-; intros st; split; reflexivity.
    - inv_bind H. injection H as <- <-. eapply kill; eauto.
    - inv_bind H. injection H as <- <-. unfold Model_Staking.cancel in E.
      repeat match type of E with rbind (ensure _ _) _ = _ => inv_bind E end.
      destruct (remove_at _ _ _); [|discriminate]. injection E as <-. split; [reflexivity|left; intros st; split; reflexivity].
    - inv_bind H. injection H as <- <-. unfold do_rebond in E.
      destruct (s_ledger (k_stk s) !! who) as [l|] eqn:El; [|discriminate].
      inv_bind E. inv_bind E. injection E as <-.
      match goal with |- context [update_ledger cfg x s ?c ?l] => destruct (upd c l) as [A B] end. auto.
    - destruct (e_cur (k_era s)); injection H as <- <-; (split; [reflexivity|left; intros st; split; reflexivity]).
    - inv_bind H. injection H as <- <-. eapply kill; eauto.
    - inv_bind H. injection H as <- <-. split; [reflexivity|left; intros st; split; reflexivity].
    - injection H as <- <-. assert (G : forall l s, k_stk (fold_left undelegate_in l s) = k_stk s /\ k_era (fold_left undelegate_in l s) = k_era s).
      { induction l0; intros s0; cbn; auto. destruct (IHl0 (undelegate_in s0 a)) as [-> ->]. auto. }
      destruct (G l s) as [A B]. rewrite A, B. split; [auto|left; apply all_refl].
    - unfold compensate in H. inv_bind H. destruct (Model_Operation.mint _ _ _ _). injection H as <- <-. split; [reflexivity|left; intros st; split; reflexivity].
    - inv_bind H. injection H as <- <-. split; [reflexivity|left; intros st; split; reflexivity].
    - unfold npow_mint in H. inv_bind H. destruct (Model_Operation.mint _ _ _ _). injection H as <- <-. split; [reflexivity|left; intros st; split; reflexivity].
    - unfold validator_burn in H. destruct (s_ledger (k_stk s) !! who) as [l|] eqn:El; [|discriminate].
      cbn zeta in H. destruct (slash_ledger v ed l) as [l' am] eqn:Es.
      destruct (cslash _ _ _ _ _) as [[b g] m]. injection H as <- <-.
      split; [now rewrite update_ledger_era|]. left. eapply all_trans; [|apply update_ledger_same]. intros st; split; reflexivity.
  Qed.

  (** ** Offences *)
  Lemma compute_era x s st f ex era w now s' u ev :
    compute_slash x s st f ex era w now = (s', u, ev) -> e_act (k_era s') = e_act (k_era s).
  Proof.
    unfold compute_slash.
    assert (En : forall e, e_act (ensure_new_era e) = e_act e) by (intros e; unfold ensure_new_era; now destruct (e_force e)).
    assert (Kk : forall k e sp d k' e' sp' d', kick x k e st now sp d = (k', e', sp', d') -> e_act e' = e_act e).
    { intros *. unfold kick. destruct (end_span _ _). intros H. injection H as _ <- _ _. destruct (kx_disable x st); auto. }
    destruct (_ =? 0).
    { intros H. injection H as <- _ _. unfold kick_out. destruct (fetch_spans _ _ _). destruct (era_span _ _); [|auto].
      destruct (_ =? _); [|auto]. destruct (kick _ _ _ _ _ _ _) as [[[? ?] ?] ?] eqn:E. cbn. eauto. }
    destruct (_ <=? _); [intros H; now injection H as <- _ _|].
    destruct (fetch_spans _ _ _). destruct (update_span _ _ _ _ _ _) as [[[[[? ?] ?] ?] ?] t].
    destruct (if bool_decide _ then _ else _) as [[[? ?] ?] ?] eqn:E. intros H. injection H as <- _ _. cbn.
    destruct (bool_decide _); [eauto|congruence].
  Qed.
  Lemma offender_books x era w now s ev0 o s' ev' ev st :
    offender1 cfg x era w now (s, ev0) o = (s', ev') -> now + 1 < two32 -> w <= now ->
    st_inv now st (k_stk s) (ev ++ ev0) ->
    st_inv now st (k_stk s') (ev ++ ev') /\ e_act (k_era s') = e_act (k_era s).
  Proof.
    destruct o as [[[st0 ex] reps] frac]. cbn [offender1]. intros H Hn Hw I.
    destruct (bool_decide _); [injection H as <- <-; auto|].
    destruct (compute_slash _ _ _ _ _ _ _ _) as [[s1 u] e1] eqn:E1.
    pose proof (compute_era _ _ _ _ _ _ _ _ _ _ _ E1) as A1.
    apply (compute_books _ _ _ _ _ _ _ _ _ _ _ (ev ++ ev0) st) in E1; auto. rewrite <- app_assoc in E1.
    destruct u as [u|]; [|injection H as <- <-; auto].
    destruct (_ =? 0).
    - destruct (apply_slash _ _ _ _) as [s2 e2] eqn:E2. injection H as <- <-.
      pose proof (apply_slash_plain _ _ _ _ _ _ E2) as Pl.
      apply apply_slash_same in E2 as [A2 B2]. split; [|congruence].
      assert (U : uncharged e2) by (eapply Forall_impl; [exact Pl|now intros []]).
      apply (same_inv _ _ _ _ _ (A2 st)).
      replace (ev ++ ev0 ++ e1 ++ e2) with ((ev ++ ev0 ++ e1) ++ e2) by (now rewrite <- !app_assoc).
      generalize dependent (ev ++ ev0 ++ e1). intros evv E1. clear - E1 U.
      unfold st_inv in *. destruct (s_spans (k_stk s1) !! st).
      + destruct E1 as [I1 I2 I3]. constructor; auto.
        * intros i. destruct (uncharged_0 st i e2 U) as [Z1 Z2]. rewrite charged_app, largest_app, Z1, Z2, I2. lia.
        * intros i Hi. destruct (uncharged_0 st i e2 U) as [Z1 Z2]. rewrite largest_app, Z2, I3 by auto. lia.
      + intros i. destruct (uncharged_0 st i e2 U) as [Z1 Z2]. destruct (E1 i) as (A & B & C). rewrite charged_app, largest_app, Z1, Z2. lia.
    - injection H as <- <-. split; [|auto]. apply (same_inv _ _ (k_stk s1)); [split; reflexivity|auto].
  Qed.
  Lemma offenders_books x era w now st ev : forall os s ev0 s' ev',
    fold_left (offender1 cfg x era w now) os (s, ev0) = (s', ev') -> now + 1 < two32 -> w <= now ->
    st_inv now st (k_stk s) (ev ++ ev0) ->
    st_inv now st (k_stk s') (ev ++ ev') /\ e_act (k_era s') = e_act (k_era s).
  Proof.
    induction os as [|o os IH]; intros s ev0 s' ev' H Hn Hw I; cbn [fold_left] in H; [injection H as <- <-; auto|].
    destruct (offender1 cfg x era w now (s, ev0) o) as [s1 e1] eqn:E1.
    apply (offender_books _ _ _ _ _ _ _ _ _ ev st) in E1 as [I1 A1]; auto.
    apply IH in H as [I2 A2]; auto. split; [auto|congruence].
  Qed.
  Lemma on_offence_books x s os i s' ev' ev st :
    on_offence cfg x s os i = (s', ev') -> act s + 1 < two32 ->
    st_inv (act s) st (k_stk s) ev -> st_inv (act s) st (k_stk s') (ev ++ ev') /\ e_act (k_era s') = e_act (k_era s).
  Proof.
    unfold on_offence, act. destruct (e_act (k_era s)) as [[a b]|] eqn:Ea.
    2: { intros H _ I. injection H as <- <-. rewrite app_nil_r. auto. }
    destruct (slash_era _ _ _) as [era|]; [|intros H _ I; injection H as <- <-; rewrite app_nil_r; auto].
    cbn zeta. intros H Hn I.
    apply (offenders_books _ _ _ _ st ev) in H as [I' A']; auto.
    - split; [exact I'|]. rewrite A'. destruct (s_first (k_stk s)); exact Ea.
    - unfold ssub. lia.
    - rewrite app_nil_r. apply (same_inv _ _ (k_stk s)); [|exact I]. destruct (s_first (k_stk s)); split; reflexivity.
  Qed.

  Lemma offender_act x era w now s ev0 o s' ev' :
    offender1 cfg x era w now (s, ev0) o = (s', ev') -> e_act (k_era s') = e_act (k_era s).
  Proof.
    destruct o as [[[st0 ex] reps] frac]. cbn [offender1]. intros H.
    destruct (bool_decide _); [now injection H as <- _|].
    destruct (compute_slash _ _ _ _ _ _ _ _) as [[s3 u] e3] eqn:E3.
    pose proof (compute_era _ _ _ _ _ _ _ _ _ _ _ E3) as A1.
    destruct u as [u|]; [|injection H as <- _; auto].
    destruct (_ =? 0); [|injection H as <- _; auto].
    destruct (apply_slash _ _ _ _) as [s4 e4] eqn:E4. injection H as <- _.
    apply apply_slash_same in E4 as [_ B4]. congruence.
  Qed.
  Lemma offenders_act x era w now : forall os s ev0 s' ev',
    fold_left (offender1 cfg x era w now) os (s, ev0) = (s', ev') -> e_act (k_era s') = e_act (k_era s).
  Proof.
    induction os as [|o os IH]; intros s ev0 s' ev' H; cbn [fold_left] in H; [now injection H as <- _|].
    destruct (offender1 cfg x era w now (s, ev0) o) as [s1 e1] eqn:E1.
    apply offender_act in E1. apply IH in H. congruence.
  Qed.
  Lemma on_offence_act x s os i s' ev' :
    on_offence cfg x s os i = (s', ev') -> e_act (k_era s') = e_act (k_era s).
  Proof.
    unfold on_offence. destruct (e_act (k_era s)) as [[a b]|] eqn:Ea; [|intros H; injection H as <- _; exact Ea].
    destruct (slash_era _ _ _) as [era|]; [|intros H; injection H as <- _; exact Ea].
    cbn zeta. intros H. apply offenders_act in H. rewrite H. destruct (s_first (k_stk s)); exact Ea.
  Qed.
  Lemma st_inv_more now st k ev e2 : uncharged e2 -> st_inv now st k ev -> st_inv now st k (ev ++ e2).
  Proof.
    intros U E1. unfold st_inv in *. destruct (s_spans k !! st).
    - destruct E1 as [I1 I2 I3]. constructor; auto.
      + intros i. destruct (uncharged_0 st i e2 U) as [Z1 Z2]. rewrite charged_app, largest_app, Z1, Z2, I2. lia.
      + intros i Hi. destruct (uncharged_0 st i e2 U) as [Z1 Z2]. rewrite largest_app, Z2, I3 by auto. lia.
    - intros i. destruct (uncharged_0 st i e2 U) as [Z1 Z2]. destruct (E1 i) as (A & B & C). rewrite charged_app, largest_app, Z1, Z2. lia.
  Qed.
  Lemma st_inv_mono now now' st k ev : now <= now' -> st_inv now st k ev -> st_inv now' st k ev.
  Proof.
    intros L. unfold st_inv. destruct (s_spans k !! st); [|auto]. intros [A B C]. constructor; auto.
    now apply (spans_ok_mono now).
  Qed.

  (** ** Steps *)
  (** Every step keeps the spans of [st] well formed; unless it dissolves [st], it
      keeps its books. *)
  Lemma step_generic (P : N -> stk -> list kev -> Prop) s op s' out st :
    (forall now k k' ev, same_books k k' st -> P now k ev -> P now k' ev) ->
    (forall now now' k ev, now <= now' -> P now k ev -> P now' k ev) ->
    (forall now k ev e2, uncharged e2 -> P now k ev -> P now k (ev ++ e2)) ->
    (forall x s os i s' ev' ev, on_offence cfg x s os i = (s', ev') -> act s + 1 < two32 ->
       P (act s) (k_stk s) ev -> P (act s) (k_stk s') (ev ++ ev')) ->
    fits cfg s -> kstep cfg s op = (s', out) -> act s <= act s' /\
    ((exists st0, is_Some (s_bonded (k_stk s) !! st0) /\ s_bonded (k_stk s') !! st0 = None /\ st0 = st /\
        s_spans (k_stk s') !! st = None) \/
     forall ev, P (act s) (k_stk s) ev -> P (act s') (k_stk s') (ev ++ events [out])).
  Proof.
    intros P_same P_mono P_more P_off (_ & _ & _ & Fa) H.
    assert (Hn : act s + 2 < two32).
    { unfold act. destruct (e_act (k_era s)) as [[i b]|]; [auto|reflexivity]. }
    assert (Unc : forall ev, out = KDone ev -> (forall x os i, op <> KOffence x os i) -> uncharged ev).
    { intros ev -> No.
      destruct (match op with KCall _ _ (KWithdraw _) => true | _ => false end) eqn:Ew.
      - destruct op as [x o c|x| |i|x i|x i|a|x os i|b]; try discriminate. destruct c; try discriminate.
        cbn [kstep dispatch] in H. unfold signed in H. destruct o; try discriminate.
        destruct (withdraw_unbonded _ _ _ _ _) as [[s1 ev1]|e|] eqn:E; cbn [settle] in H; try discriminate.
        injection H as _ <-. unfold withdraw_unbonded in E. destruct (_ !! who); [|discriminate].
        destruct (bool_decide _ && _) in E; [inv_bind E|]; injection E as _ <-; destruct (_ <? _); repeat constructor.
      - destruct (match op with KCall _ _ (KUnbond _) => true | _ => false end) eqn:Eu.
        + destruct op as [x o c|x| |i|x i|x i|a|x os i|b]; try discriminate. destruct c; try discriminate.
          cbn [kstep dispatch] in H. unfold signed in H. destruct o; try discriminate.
          destruct (unbond _ _ _ _ _) as [[s1 ev1]|e|] eqn:E; cbn [settle] in H; try discriminate.
          injection H as _ <-. unfold unbond in E. destruct (_ !! who); [|discriminate]. inv_bind E.
          destruct (_ =? 0); [injection E as _ <-; constructor|].
          match type of E with context [let '(_, _) := ?e in _] => destruct e end. injection E as _ <-. repeat constructor.
        + eapply Forall_impl; [refine (proj2 (step_plain _ _ _ _ _ H _ _) No)|].
          * intros ? ? ? ->. discriminate.
          * intros ? ? ? ->. discriminate.
          * now intros []. }
    assert (Keep : all_same (k_stk s) (k_stk s') -> act s <= act s' -> (forall x os i, op <> KOffence x os i) ->
      act s <= act s' /\
    ((exists st0, is_Some (s_bonded (k_stk s) !! st0) /\ s_bonded (k_stk s') !! st0 = None /\ st0 = st /\
        s_spans (k_stk s') !! st = None) \/
     forall ev, P (act s) (k_stk s) ev -> P (act s') (k_stk s') (ev ++ events [out]))).
    { intros A Hle No. split; [auto|]. right. intros ev I.
      apply (P_same _ _ _ _ (A st)). apply (P_mono (act s)); [auto|]. apply P_more; [|auto].
      unfold events. cbn. destruct out; [|constructor|constructor]. rewrite app_nil_r. now apply Unc. }
    assert (Same : act s' = act s -> act s <= act s') by lia.
    destruct op as [x o c|x| |i|x i|x i|a|x os i|b]; cbn [kstep] in H.
    - destruct (dispatch cfg x s o c) as [[s1 ev]|e|] eqn:E; cbn [settle] in H; injection H as <- <-;
        [|apply Keep; [apply all_refl|lia|discriminate]|apply Keep; [apply all_refl|lia|discriminate]].
      apply call_books in E as [Ea B].
      assert (Ea' : act s1 = act s) by (unfold act; now rewrite Ea).
      destruct B as [B|(st0 & B1 & B2 & B3 & B4)].
      + apply Keep; [exact B|lia|discriminate].
      + split; [lia|]. destruct (decide (st0 = st)) as [->|Hne].
        * destruct B2 as [B2|B2]; [left; eauto 6|]. right. intros ev0 I. rewrite Ea'.
          apply (P_same _ _ _ _ B2). apply P_more; [|auto]. unfold events. cbn. rewrite app_nil_r.
          apply Unc; [auto|discriminate].
        * right. intros ev0 I. rewrite Ea'.
          apply (P_same _ _ _ _ (B1 st ltac:(congruence))). apply P_more; [|auto]. unfold events. cbn. rewrite app_nil_r.
          apply Unc; [auto|discriminate].
    - assert (G : k_stk s' = k_stk s /\ k_era s' = k_era s).
      { unfold on_initialize in H. destruct (0 <? _); [|now injection H as <- _].
        destruct (_ =? 0).
        - destruct (_ =? 0); now injection H as <- _.
        - unfold pay_delegators in H. destruct (_ =? 0); [now injection H as <- _|].
          destruct (pay_loop _ _ _ _ _ _ _) as [[[[s3 p3] l3] c3] e3] eqn:E3.
          cbn [settle] in H. injection H as <- _. cbn.
          split; [now apply pay_loop_stk in E3|now apply pay_loop_era in E3]. }
      destruct G as [G1 G2]. apply Keep; [rewrite G1; apply all_refl|unfold act; rewrite G2; lia|discriminate].
    - assert (G : k_stk s' = k_stk s /\ act s' = act s).
      { injection H as <- _. unfold on_finalize, act. destruct (e_act (k_era s)) as [[? []]|] eqn:E; cbn; rewrite ?E; auto. }
      destruct G as [G1 G2]. apply Keep; [rewrite G1; apply all_refl|lia|discriminate].
    - destruct (new_session cfg s i) as [s1 ev] eqn:E. cbn [settle] in H. injection H as <- <-.
      apply Keep; [rewrite (new_session_stk _ _ _ _ _ E); apply all_refl| |discriminate].
      unfold act. rewrite (new_session_act _ _ _ _ E). lia.
    - destruct (start_session cfg x s i) as [s1 ev] eqn:E. cbn [settle] in H. injection H as <- <-.
      apply start_session_same in E as [A B]. apply Keep; [exact A| |discriminate].
      unfold act in *. destruct B as [->| ->]; [lia|].
      destruct (e_act (k_era s)) as [[i0 b]|]; [|lia]. rewrite add32_exact by lia. lia.
    - destruct (end_session cfg x s i) as [s1 ev] eqn:E. cbn [settle] in H. injection H as <- <-.
      apply end_session_same in E as [A B]. apply Keep; [exact A|unfold act; rewrite B; lia|discriminate].
    - assert (G : k_stk s' = k_stk s /\ act s' = act s).
      { injection H as <- _. unfold note_author, act. destruct (e_act (k_era s)) as [[? ?]|] eqn:E; [|now rewrite E].
        destruct (default (0, ∅) (e_points (k_era s) !! n)). split; [reflexivity|]. cbn. now rewrite E. }
      destruct G as [G1 G2]. apply Keep; [rewrite G1; apply all_refl|lia|discriminate].
    - destruct (on_offence cfg x s os i) as [s1 ev] eqn:E. cbn [settle] in H. injection H as <- <-.
      pose proof (on_offence_act _ _ _ _ _ _ E) as Ea.
      split; [unfold act; rewrite Ea; lia|]. right. intros ev0 I.
      assert (Ea' : act s1 = act s) by (unfold act; now rewrite Ea). rewrite Ea'.
      unfold events. cbn. rewrite app_nil_r.
      apply (P_off _ _ _ _ _ _ _ E); auto. lia.
    - injection H as <- <-. apply Keep; [apply all_refl|unfold act; cbn; lia|discriminate].
  Qed.

  Lemma step_books s op s' out st :
    fits cfg s -> kstep cfg s op = (s', out) -> act s <= act s' /\
    ((exists st0, is_Some (s_bonded (k_stk s) !! st0) /\ s_bonded (k_stk s') !! st0 = None /\ st0 = st /\
        s_spans (k_stk s') !! st = None) \/
     forall ev, st_inv (act s) st (k_stk s) ev -> st_inv (act s') st (k_stk s') (ev ++ events [out])).
  Proof.
    apply (step_generic (fun now k ev => st_inv now st k ev)).
    - intros now k k' ev A. now apply same_inv.
    - intros now now' k ev A. now apply st_inv_mono.
    - intros now k ev e2 A. now apply st_inv_more.
    - intros x s0 os i s1 ev' ev E A I. now destruct (on_offence_books _ _ _ _ _ _ ev st E A I).
  Qed.
  Lemma events_app a b : events (a ++ b) = events a ++ events b.
  Proof. unfold events. now rewrite map_app, concat_app. Qed.
  Lemma events_cons o r : events (o :: r) = events [o] ++ events r.
  Proof. apply (events_app [o] r). Qed.

  Lemma run_books st : forall h s ev,
    sane cfg s h -> never_dissolved cfg s h st -> st_inv (act s) st (k_stk s) ev ->
    st_inv (act (krun cfg s h)) st (k_stk (krun cfg s h)) (ev ++ events (kouts cfg s h)).
  Proof.
    induction h as [|op h IH]; intros s ev [F S] N0 I; cbn [krun kouts]; [now rewrite app_nil_r|].
    destruct S as [T S]. destruct N0 as [N1 N0].
    rewrite events_cons, app_assoc. apply IH; [auto|auto|].
    destruct (kstep cfg s op) as [s' out] eqn:E. cbn in *.
    destruct (step_books _ _ _ _ st F E) as [_ [(st0 & A & B & -> & _)|G]].
    - specialize (N1 A). rewrite B in N1. destruct N1. discriminate.
    - now apply G.
  Qed.
  Lemma genesis_books b p st : st_inv (act (kgenesis b p)) st (k_stk (kgenesis b p)) [].
  Proof. unfold st_inv. cbn. rewrite lookup_empty. intros i. unfold slashed, record. cbn. rewrite lookup_empty. auto. Qed.

  (** ** Well-formedness alone: no assumption about dissolving *)
  Definition ok_at (now st : N) (k : stk) : Prop :=
    match s_spans k !! st with Some sp => spans_ok now sp | None => True end.
  Lemma ok_same now st k k' : s_spans k' !! st = s_spans k !! st -> ok_at now st k -> ok_at now st k'.
  Proof. unfold ok_at. now intros ->. Qed.
  Lemma ok_mono now now' st k : now <= now' -> ok_at now st k -> ok_at now' st k.
  Proof. unfold ok_at. destruct (s_spans k !! st); [|auto]. intros A B. now apply (spans_ok_mono now). Qed.
  Lemma fetch_ok now st k w k0 sp :
    w <= now -> now + 1 < two32 -> fetch_spans k st w = (k0, sp) -> ok_at now st k ->
    spans_ok now sp /\ s_spans k0 !! st = Some sp.
  Proof.
    unfold fetch_spans, ok_at. intros Hw Hn H I. destruct (s_spans k !! st) as [sp0|] eqn:E; injection H as <- <-; [auto|].
    split; [now apply spans_new_ok|]. cbn. apply lookup_insert.
  Qed.
  Lemma update_ok now st k sp f era own k1 sp1 d df rw t :
    update_span k st sp f era own = (k1, sp1, d, df, rw, t) -> spans_ok now sp ->
    spans_ok now sp1 /\ s_spans k1 = s_spans k /\ (d = false -> sp1 = sp).
  Proof.
    unfold update_span. intros H B. destruct (era_span sp era) as [t0|]; [|injection H as <- <- <- <- <- <-; auto].
    destruct (default (0, 0) _) as [sl pd]. cbn zeta in H.
    destruct (sl <? own).
    - injection H as <- <- <- <- <- <-. split; [|split; [auto|discriminate]]. destruct B. now constructor.
    - destruct (sl =? own); cbn [orb N.eqb negb] in H.
      + destruct (frac_mul REWARD_F1 PERBILL _ =? 0); cbn [negb] in H; injection H as <- <- <- <- <- <-; auto.
      + injection H as <- <- <- <- <- <-; auto.
  Qed.
  Lemma kick_ok x now st k e sp d k' e' sp' d' :
    now + 1 < two32 -> kick x k e st now sp d = (k', e', sp', d') -> spans_ok now sp ->
    spans_ok now sp' /\ s_spans k' = s_spans k /\ (d' = false -> d = false /\ sp' = sp).
  Proof.
    unfold kick. intros Hn. destruct (end_span now sp) as [sp1 b] eqn:E. intros H B. injection H as <- <- <- <-.
    pose proof (end_span_ok _ _ _ _ B Hn E) as Ok. split; [auto|split; [auto|]].
    unfold end_span in E. destruct (_ <=? _); injection E as <- <-; cbn; [auto|discriminate].
  Qed.
  Lemma close_ok now st k w d sp :
    now + 1 < two32 -> w <= now -> spans_ok now sp -> (d = false -> s_spans k !! st = Some sp) ->
    ok_at now st (close_spans k st w d sp).
  Proof.
    intros Hn Hw B Hd. unfold close_spans. destruct d; [|unfold ok_at; now rewrite (Hd eq_refl)].
    destruct (prune w sp) as [sp' pr] eqn:Ep. unfold ok_at. cbn. rewrite lookup_insert.
    exact (prune_ok _ _ _ _ _ B Hn Hw Ep).
  Qed.
  Lemma compute_ok x s st f ex era w now s' u ev1 st' :
    compute_slash x s st f ex era w now = (s', u, ev1) ->
    now + 1 < two32 -> w <= now -> ok_at now st' (k_stk s) -> ok_at now st' (k_stk s').
  Proof.
    intros H Hn Hw I. unfold compute_slash in H.
    destruct (_ =? 0).
    { injection H as <- _ _. unfold kick_out. destruct (fetch_spans (k_stk s) st w) as [k0 sp] eqn:E0.
      destruct (decide (st' = st)) as [->|Hne].
      - destruct (fetch_ok _ _ _ _ _ _ Hw Hn E0 I) as [B S0].
        assert (I0 : ok_at now st k0) by (unfold ok_at; now rewrite S0).
        destruct (era_span sp era); [|exact I0]. destruct (_ =? _); [|exact I0].
        destruct (kick x k0 (k_era s) st now sp false) as [[[k1 e1] sp1] d] eqn:E1.
        destruct (kick_ok _ _ _ _ _ _ _ _ _ _ _ Hn E1 B) as (B1 & S1 & D1).
        cbn. apply close_ok; auto. intros Ed. destruct (D1 Ed) as [_ ->]. congruence.
      - pose proof (proj1 (fetch_other _ _ _ _ _ st' Hne E0)) as F0.
        destruct (era_span sp era); [|exact (ok_same _ _ _ _ F0 I)].
        destruct (_ =? _); [|exact (ok_same _ _ _ _ F0 I)].
        destruct (kick x k0 (k_era s) st now sp false) as [[[k1 e1] sp1] d] eqn:E1.
        apply (kick_other _ _ _ _ _ _ _ _ _ _ _ st') in E1 as [E1 _].
        apply (ok_same _ _ (k_stk s)); [|exact I]. cbn.
        rewrite (proj1 (close_other k1 st w d sp1 st' Hne)). congruence. }
    destruct (_ <=? _); [injection H as <- _ _; exact I|].
    set (k := set_s_in_era (k_stk s) _) in H.
    assert (Ik : ok_at now st' k) by (apply (ok_same _ _ (k_stk s)); [reflexivity|exact I]).
    destruct (fetch_spans k st w) as [k0 sp] eqn:E0.
    destruct (update_span _ _ _ _ _ _) as [[[[[k1 sp1] d] df] rw] t] eqn:E1.
    destruct (if bool_decide _ then _ else _) as [[[k2 e2] sp2] d2] eqn:E2.
    injection H as <- _ _. cbn [k_stk set_k_era set_k_stk].
    destruct (decide (st' = st)) as [->|Hne].
    - destruct (fetch_ok _ _ _ _ _ _ Hw Hn E0 Ik) as [B0 S0].
      destruct (update_ok _ _ _ _ _ _ _ _ _ _ _ _ _ E1 B0) as (B1 & S1 & D1).
      destruct (bool_decide _).
      + destruct (kick_ok _ _ _ _ _ _ _ _ _ _ _ Hn E2 B1) as (B2 & S2 & D2).
        apply close_ok; auto. intros Ed. destruct (D2 Ed) as [Ed' ->]. rewrite S2, S1. now rewrite (D1 Ed').
      + injection E2 as <- <- <- <-. apply close_ok; auto. intros Ed. rewrite S1. now rewrite (D1 Ed).
    - assert (Sb : same_books k (close_spans k2 st w d2 sp2) st').
      { eapply same_trans; [exact (fetch_other _ _ _ _ _ _ Hne E0)|].
        eapply same_trans; [exact (update_other _ _ _ _ _ _ _ _ _ _ _ _ _ Hne E1)|].
        eapply same_trans; [|now apply close_other].
        destruct (bool_decide _); [now apply (kick_other _ _ _ _ _ _ _ _ _ _ _ st') in E2|].
        injection E2 as <- _ _ _. apply same_refl. }
      exact (ok_same _ _ _ _ (proj1 Sb) Ik).
  Qed.
  Lemma offender_ok x era w now s ev0 o s' ev' st :
    offender1 cfg x era w now (s, ev0) o = (s', ev') -> now + 1 < two32 -> w <= now ->
    ok_at now st (k_stk s) -> ok_at now st (k_stk s').
  Proof.
    destruct o as [[[st0 ex] reps] frac]. cbn [offender1]. intros H Hn Hw I.
    destruct (bool_decide _); [now injection H as <- _|].
    destruct (compute_slash _ _ _ _ _ _ _ _) as [[s1 u] e1] eqn:E1.
    apply (compute_ok _ _ _ _ _ _ _ _ _ _ _ st) in E1; auto.
    destruct u as [u|]; [|now injection H as <- _].
    destruct (_ =? 0).
    - destruct (apply_slash _ _ _ _) as [s2 e2] eqn:E2. injection H as <- _.
      apply apply_slash_same in E2 as [A2 _]. exact (ok_same _ _ _ _ (proj1 (A2 st)) E1).
    - injection H as <- _. exact E1.
  Qed.
  Lemma on_offence_ok x s os i s' ev' st :
    on_offence cfg x s os i = (s', ev') -> act s + 1 < two32 ->
    ok_at (act s) st (k_stk s) -> ok_at (act s) st (k_stk s').
  Proof.
    unfold on_offence, act. destruct (e_act (k_era s)) as [[a b]|] eqn:Ea; [|intros H; now injection H as <- _].
    destruct (slash_era _ _ _) as [era|]; [|intros H; now injection H as <- _].
    cbn zeta. intros H Hn I.
    assert (G : forall os s0 ev0 s1 ev1, fold_left (offender1 cfg x era (ssub a (kc_bonding cfg)) a) os (s0, ev0) = (s1, ev1) ->
      ok_at a st (k_stk s0) -> ok_at a st (k_stk s1)).
    { clear - Hn. induction os as [|o os IH]; intros s0 ev0 s1 ev1 H I; cbn [fold_left] in H; [now injection H as <- _|].
      destruct (offender1 cfg x era (ssub a (kc_bonding cfg)) a (s0, ev0) o) as [s2 e2] eqn:E1.
      apply (IH _ _ _ _ H). apply (offender_ok _ _ _ _ _ _ _ _ _ st E1); auto. unfold ssub. lia. }
    apply (G _ _ _ _ _ H). destruct (s_first (k_stk s)); exact I.
  Qed.
  Lemma step_ok s op s' out st :
    fits cfg s -> kstep cfg s op = (s', out) -> ok_at (act s) st (k_stk s) -> ok_at (act s') st (k_stk s').
  Proof.
    intros F E I.
    destruct (step_generic (fun now k ev => ok_at now st k) s op s' out st) as [_ [(st0 & _ & _ & _ & A)|G]]; auto.
    - intros now k k' ev [A _]. now apply ok_same.
    - intros now now' k ev A. now apply ok_mono.
    - intros x s0 os i s1 ev' ev A B. now apply (on_offence_ok _ _ _ _ _ _ st A).
    - unfold ok_at. now rewrite A.
    - exact (G [] I).
  Qed.
  Lemma run_ok st : forall h s,
    sane cfg s h -> ok_at (act s) st (k_stk s) -> ok_at (act (krun cfg s h)) st (k_stk (krun cfg s h)).
  Proof.
    induction h as [|op h IH]; intros s [F S] I; cbn [krun]; [auto|].
    destruct S as [T S]. apply IH; [auto|]. destruct (kstep cfg s op) as [s' out] eqn:E. exact (step_ok _ _ _ _ st F E I).
  Qed.
End model.
