(** Standing as a validator, dissolving a stake, delegating. *)
From Verif Require Import Base Balances Model_StakingLedger Model_Staking Spec_Staking Spec_Staking2 Spec_Staking3
  Proofs_Arith Proofs_StakingLedger Proofs_Staking Proofs_Staking2 Proofs_Staking3 Proofs_Staking4
  Proofs_Staking5 Proofs_Staking6 Proofs_Staking18.
From stdpp Require Import gmap.
Open Scope N_scope.

(** Who stands, who is bonded, and the payees. *)
Definition keeps (k k' : stk) : Prop :=
  s_valid k' = s_valid k /\ s_payee k' = s_payee k /\ s_bonded k' = s_bonded k.
Lemma keeps_refl k : keeps k k. Proof. repeat split. Qed.
Lemma keeps_trans a b c : keeps a b -> keeps b c -> keeps a c.
Proof. intros (A & B & C) (D & E & F). repeat split; congruence. Qed.
Definition dropped (k k' : stk) (st : N) : Prop :=
  s_valid k' = s_valid k ∖ {[st]} /\ s_payee k' = delete st (s_payee k) /\ s_bonded k' = delete st (s_bonded k).

Section model.
  Context (cfg : kcfg).
  Local Notation ed := (kc_ed cfg).

  Lemma update_ledger_keeps x s c l : keeps (k_stk s) (k_stk (update_ledger cfg x s c l)).
  Proof. unfold update_ledger, set_lock. now destruct (_ =? 0). Qed.

  (** ** Dissolving *)
  Lemma clear_stash_spec k st n :
    clear_stash k st n =
      (if match s_spans k !! st with Some sp => N.of_nat (length (spans_iter sp)) | None => 0 end <=? n
       then ROk (match s_spans k !! st with
                 | Some sp => set_s_rec (set_s_spans k (delete st (s_spans k)))
                     (foldr (fun p m => delete (st, sn_index p) m) (s_rec k) (spans_iter sp))
                 | None => k end)
       else RErr KIncorrectSpans).
  Proof.
    unfold clear_stash. destruct (s_spans k !! st) as [sp|].
    - unfold ensure. destruct (_ <=? n); reflexivity.
    - destruct (N.leb_spec 0 n); [auto|lia].
  Qed.
  Lemma unstake_iff x s st n :
    (exists s', unstake cfg x s st n = ROk s') <-> bonded s st /\ span_count s st <= n.
  Proof.
    unfold unstake, kill_stash, bonded. rewrite clear_stash_spec. fold (span_count s st).
    destruct (s_bonded (k_stk s) !! st) as [c|].
    - destruct (N.leb_spec (span_count s st) n); cbn; split; eauto.
      + intros [? H1]. discriminate.
      + intros [_ H1]. lia.
    - cbn. split; [intros [? H]; discriminate|]. intros [[? H] _]. discriminate.
  Qed.
  Lemma unstake_dropped x s st n s' :
    unstake cfg x s st n = ROk s' -> dropped (k_stk s) (k_stk s') st /\ bonded s st /\ span_count s st <= n.
  Proof.
    intros H. split; [|eapply unstake_iff; eauto].
    unfold unstake, kill_stash in H. rewrite clear_stash_spec in H. inv_bind H.
    destruct (s_bonded (k_stk s) !! st) as [c|]; [|discriminate].
    destruct (_ <=? n) in E; [|discriminate]. cbn in E. injection E as <-. injection H as <-.
    unfold dropped. cbn. destruct (s_spans (k_stk s) !! st); cbn; auto.
  Qed.

  (** ** What calls do to them *)
  Inductive effect (s s' : kstate) : origin -> kcall -> Prop :=
  | EKeep o c : keeps (k_stk s) (k_stk s') -> effect s s' o c
  | EBond w ct v dest :
      s_bonded (k_stk s) !! w = None -> s_valid (k_stk s') = s_valid (k_stk s) ->
      s_payee (k_stk s') = <[w := dest]> (s_payee (k_stk s)) -> s_bonded (k_stk s') = <[w := ct]> (s_bonded (k_stk s)) ->
      effect s s' (Signed w) (KBond ct v dest)
  | EValid ct l : s_ledger (k_stk s) !! ct = Some l ->
      s_valid (k_stk s') = s_valid (k_stk s) ∪ {[l_stash l]} ->
      s_payee (k_stk s') = s_payee (k_stk s) -> s_bonded (k_stk s') = s_bonded (k_stk s) ->
      effect s s' (Signed ct) KValidate
  | EChill ct l : s_ledger (k_stk s) !! ct = Some l ->
      s_valid (k_stk s') = s_valid (k_stk s) ∖ {[l_stash l]} ->
      s_payee (k_stk s') = s_payee (k_stk s) -> s_bonded (k_stk s') = s_bonded (k_stk s) ->
      effect s s' (Signed ct) KChill
  | EPayee ct l dest : s_ledger (k_stk s) !! ct = Some l ->
      s_valid (k_stk s') = s_valid (k_stk s) ->
      s_payee (k_stk s') = <[l_stash l := dest]> (s_payee (k_stk s)) -> s_bonded (k_stk s') = s_bonded (k_stk s) ->
      effect s s' (Signed ct) (KSetPayee dest)
  | ECtrl w ct : is_Some (s_bonded (k_stk s) !! w) ->
      s_valid (k_stk s') = s_valid (k_stk s) ->
      s_payee (k_stk s') = s_payee (k_stk s) -> s_bonded (k_stk s') = <[w := ct]> (s_bonded (k_stk s)) ->
      effect s s' (Signed w) (KSetController ct)
  | EGone o c st n : dropped (k_stk s) (k_stk s') st -> bonded s st -> span_count s st <= n ->
      ((c = KWithdraw n /\ exists ct l, o = Signed ct /\ s_ledger (k_stk s) !! ct = Some l /\ l_stash l = st) \/
       (c = KForceUnstake st n /\ o = Root) \/
       (c = KReap st n /\ free (acct_of (k_bank s) st) + rsv (acct_of (k_bank s) st) = ed)) ->
      effect s s' o c.

  Lemma call_effect x s o c s' ev :
    dispatch cfg x s o c = ROk (s', ev) -> effect s s' o c.
  Proof.
    intros H.
    destruct c; cbn [dispatch] in H; unfold admin, controlled, signed, root, quiet, with_par, with_del, with_stk in H;
      try (destruct o; try discriminate H; []);
      repeat match type of H with rbind (ensure _ _) _ = _ => inv_bind H end;
      try (injection H as <- <-; now apply EKeep).
    - unfold staking_delegate in H. inv_bind H. inv_bind H.
      destruct (kx_level x who); [|discriminate]. inv_bind H.
      destruct (kx_dpr x who !! N.to_nat level); [|discriminate].
      destruct (kx_dpr x who !! N.to_nat n); [|discriminate].
      destruct (transfer_keep _ _ _ _ _); [|discriminate]. inv_bind H. injection H as <- <-. now apply EKeep.
    - unfold usdt_delegate in H. inv_bind H. inv_bind H. destruct v as [cur rest].
      destruct (0 <? _); [inv_bind H|]; injection H as <- <-; now apply EKeep.
    - inv_bind H. injection H as <- <-. unfold bond in E.
      repeat match type of E with rbind (ensure _ _) _ = _ => inv_bind E end.
      injection E as <-.
      apply negb_true_iff, bool_decide_eq_false in E0.
      destruct (update_ledger_keeps x (set_k_stk s (set_s_payee
        (set_s_bonded (k_stk s) (<[who := controller]> (s_bonded (k_stk s)))) (<[who := dest]> (s_payee (k_stk s)))))
        controller (Ledger who (N.min value (free_of (k_bank s) who)) (N.min value (free_of (k_bank s) who)) [])) as (A & B & C).
      apply EBond; [now apply eq_None_not_Some|rewrite A|rewrite B|rewrite C]; reflexivity.
    - inv_bind H. injection H as <- <-. unfold bond_extra in E.
      destruct (s_bonded (k_stk s) !! who) as [c|] eqn:Eb; [|discriminate].
      destruct (s_ledger (k_stk s) !! c) as [l|] eqn:El; [|discriminate].
      destruct (_ <? _); [injection E as <-; now apply EKeep|].
      inv_bind E. injection E as <-. apply EKeep, update_ledger_keeps.
    - unfold unbond in H. destruct (s_ledger (k_stk s) !! who) as [l|] eqn:El; [|discriminate].
      inv_bind H. destruct (_ =? 0) eqn:Ez; [injection H as <- <-; now apply EKeep|].
      match type of H with context [let '(_, _) := ?e in _] => destruct e end. injection H as <- <-. apply EKeep, update_ledger_keeps.
    - unfold withdraw_unbonded in H. destruct (s_ledger (k_stk s) !! who) as [l0|] eqn:El; [|discriminate].
      destruct (bool_decide _ && _) eqn:Ek in H.
      + inv_bind H. injection H as <- <-. apply unstake_dropped in E as (A & B & C).
        eapply EGone; eauto. left. eauto 6.
      + injection H as <- <-. apply EKeep, update_ledger_keeps.
    - destruct (s_ledger _ !! _) eqn:El; [|discriminate]. injection H as <- <-. eapply EValid; eauto.
    - destruct (s_ledger _ !! _) eqn:El; [|discriminate]. injection H as <- <-. eapply EChill; eauto.
    - destruct (s_ledger _ !! _) eqn:El; [|discriminate]. injection H as <- <-. eapply EPayee; eauto.
    - inv_bind H. injection H as <- <-. unfold set_controller in E.
      destruct (s_bonded (k_stk s) !! who) as [old|] eqn:Eb; [|discriminate].
      inv_bind E. destruct (controller =? old); [injection E as <-; apply EKeep; apply keeps_refl|].
      apply ECtrl; [eauto|..]; destruct (s_ledger (k_stk s) !! old); injection E as <-; reflexivity.
    - inv_bind H. injection H as <- <-. apply unstake_dropped in E as (A & B & C). eapply EGone; eauto.
    - inv_bind H. injection H as <- <-. unfold Model_Staking.cancel in E. inv_bind E. inv_bind E. inv_bind E.
      destruct (remove_at _ _ _); [|discriminate]. injection E as <-. now apply EKeep.
    - inv_bind H. injection H as <- <-. unfold do_rebond in E.
      destruct (s_ledger (k_stk s) !! who) as [l|] eqn:El; [|discriminate].
      inv_bind E. inv_bind E. injection E as <-. apply EKeep, update_ledger_keeps.
    - destruct (e_cur (k_era s)); injection H as <- <-; now apply EKeep.
    - inv_bind H. injection H as <- <-. apply unstake_dropped in E0 as (A & B & C). apply N.eqb_eq in E. eapply EGone; eauto.
    - inv_bind H. injection H as <- <-. now apply EKeep.
    - injection H as <- <-. assert (G : forall l s, k_stk (fold_left undelegate_in l s) = k_stk s).
      { induction l0; intros s0; cbn; auto. now rewrite (IHl0 (undelegate_in s0 a)). }
      apply EKeep. rewrite G. apply keeps_refl.
    - unfold compensate in H. inv_bind H. destruct (Model_Operation.mint _ _ _ _). injection H as <- <-. now apply EKeep.
    - inv_bind H. injection H as <- <-. now apply EKeep.
    - unfold npow_mint in H. inv_bind H. destruct (Model_Operation.mint _ _ _ _). injection H as <- <-. now apply EKeep.
    - unfold validator_burn in H. destruct (s_ledger (k_stk s) !! who) as [l|] eqn:El; [|discriminate].
      cbn zeta in H. destruct (slash_ledger v ed l) as [l' am] eqn:Es.
      destruct (cslash _ _ _ _ _) as [[b g] m]. injection H as <- <-. apply EKeep.
      eapply keeps_trans; [|apply update_ledger_keeps]. repeat split.
  Qed.

  (** ** Hooks *)
  Lemma payout_keeps x s st v s' ev : validator_payout cfg x s st v = (s', ev) -> keeps (k_stk s) (k_stk s').
  Proof.
    unfold validator_payout. destruct (default PStaked _);
    repeat match goal with |- context [match ?e with _ => _ end] => destruct e end;
    intros H; injection H as <- <-; try apply keeps_refl.
    eapply keeps_trans; [|apply update_ledger_keeps]. apply keeps_refl.
  Qed.
  Lemma pay_each_keeps x pts po : forall vs s t s' t' ev,
    pay_each cfg x pts po vs s t = (s', t', ev) -> keeps (k_stk s) (k_stk s').
  Proof.
    induction vs as [|v vs IH]; intros s t s' t' ev H; cbn [pay_each] in H; [injection H as <- _ _; apply keeps_refl|].
    destruct (_ =? 0); [now apply IH in H|].
    destruct (validator_payout _ _ _ _ _) as [s1 e1] eqn:E1. destruct (pay_each _ _ _ _ _ _ _) as [[s2 t2] e2] eqn:E2. injection H as <- <- <-.
    eapply keeps_trans; [eapply payout_keeps|eapply IH]; eauto.
  Qed.
  Lemma end_session_keeps x s i s' ev : end_session cfg x s i = (s', ev) -> keeps (k_stk s) (k_stk s').
  Proof.
    unfold end_session. destruct (e_act (k_era s)) as [[i0 st]|]; [|now intros [= <- _]].
    destruct (e_start _ !! _); [|now intros [= <- _]]. destruct (_ && _); [|now intros [= <- _]].
    unfold pay_validators. cbn zeta.
    repeat match goal with |- (let '(_, _) := ?e in _) = _ -> _ => destruct e eqn:? | |- (if ?e then _ else _) = _ -> _ => destruct e end;
      try (now intros [= <- _]).
    all: intros H; injection H as <- _; cbn; eauto using pay_each_keeps.
  Qed.
  Lemma do_slash_keeps x s st v pay s' pay' got ev :
    do_slash cfg x s st v pay = (s', pay', got, ev) -> keeps (k_stk s) (k_stk s').
  Proof.
    unfold do_slash. destruct (_ !! st) as [c|]; [|now intros [= <- _ _ _]]. destruct (_ !! c) as [l|]; [|now intros [= <- _ _ _]].
    destruct (slash_ledger _ _ _) as [l' v']. destruct (_ =? 0); [now intros [= <- _ _ _]|].
    destruct (cslash _ _ _ _ _) as [[b g] m]. intros [= <- _ _ _].
    eapply keeps_trans; [|apply update_ledger_keeps]. apply keeps_refl.
  Qed.
  Lemma apply_slash_keeps x s u s' ev : apply_slash cfg x s u = (s', ev) -> keeps (k_stk s) (k_stk s').
  Proof.
    unfold apply_slash. destruct (do_slash _ _ _ _ _ _) as [[[s1 p] g] e] eqn:E. intros [= <- _].
    change (keeps (k_stk s) (k_stk (fold_left (credit_slash x) (u_others u) s1))).
    rewrite credits_stk. eapply do_slash_keeps; eauto.
  Qed.
  Lemma apply_list_keeps x : forall l s s' ev, apply_list cfg x l s = (s', ev) -> keeps (k_stk s) (k_stk s').
  Proof.
    induction l as [|u l IH]; intros s s' ev H; cbn [apply_list] in H; [injection H as <- _; apply keeps_refl|].
    destruct (apply_slash _ _ _ _) as [s1 e1] eqn:E1. destruct (apply_list _ _ _ s1) as [s2 e2] eqn:E2. injection H as <- _.
    eapply keeps_trans; [eapply apply_slash_keeps|eapply IH]; eauto.
  Qed.
  Lemma apply_eras_keeps x : forall n era s s' ev, apply_eras cfg x n era s = (s', ev) -> keeps (k_stk s) (k_stk s').
  Proof.
    induction n as [|n IH]; intros era s s' ev H; cbn [apply_eras] in H; [injection H as <- _; apply keeps_refl|].
    destruct (apply_list _ _ _ _) as [s1 e1] eqn:E1. destruct (apply_eras _ _ _ _ _) as [s2 e2] eqn:E2. injection H as <- _.
    apply apply_list_keeps in E1. eapply keeps_trans; [|eapply IH; eauto]. exact E1.
  Qed.
  Lemma start_session_keeps x s i s' ev : start_session cfg x s i = (s', ev) -> keeps (k_stk s) (k_stk s').
  Proof.
    unfold start_session. cbn zeta. destruct (_ !! _); [|now intros [= <- _]]. destruct (_ <=? _); [|now intros [= <- _]].
    unfold start_era, apply_unapplied. cbn zeta. destruct (s_first _); [|now intros [= <- _]].
    destruct (apply_eras _ _ _ _ _) as [s2 e2] eqn:E. intros [= <- _]. apply apply_eras_keeps in E. exact E.
  Qed.

  (** A report takes away the standing of the accounts it names, nothing else. *)
  Definition chilled (k k' : stk) (p : N -> Prop) : Prop :=
    s_payee k' = s_payee k /\ s_bonded k' = s_bonded k /\ s_valid k' ⊆ s_valid k /\
    forall v, v ∈ s_valid k -> v ∉ s_valid k' -> p v.
  Lemma chilled_refl k (p : N -> Prop) : chilled k k p.
  Proof. repeat split; auto. intros v A B. contradiction. Qed.
  Lemma keeps_chilled k k' (p : N -> Prop) : keeps k k' -> chilled k k' p.
  Proof. intros (A & B & C). unfold chilled. rewrite A. repeat split; auto. intros v D E. contradiction. Qed.
  Lemma chilled_trans a b c (p : N -> Prop) : chilled a b p -> chilled b c p -> chilled a c p.
  Proof.
    intros (A & B & C & D) (E & F & G & H). split; [congruence|]. split; [congruence|]. split; [etrans; eauto|].
    intros v I J. destruct (decide (v ∈ s_valid b)); eauto.
  Qed.
  Lemma chilled_weak a b (p q : N -> Prop) : (forall v, p v -> q v) -> chilled a b p -> chilled a b q.
  Proof. intros W (A & B & C & D). repeat split; eauto. Qed.
  Lemma compute_chilled x s st f ex era w now s' u ev :
    compute_slash x s st f ex era w now = (s', u, ev) -> chilled (k_stk s) (k_stk s') (eq st).
  Proof.
    assert (Kk : forall k e sp d k' e' sp' d', kick x k e st now sp d = (k', e', sp', d') -> chilled k k' (eq st)).
    { intros *. unfold kick. destruct (end_span _ _). intros [= <- _ _ _]. unfold chilled, chill_stash. cbn.
      repeat split; auto; [set_solver|]. intros v A B. destruct (decide (st = v)); [auto|]. destruct B. set_solver. }
    assert (Cl : forall k w d sp, keeps k (close_spans k st w d sp)).
    { intros k w0 d sp. unfold close_spans. destruct d; [|apply keeps_refl]. destruct (prune w0 sp) as [? [[? ?]|]]; repeat split. }
    assert (Fe : forall k k' sp, fetch_spans k st w = (k', sp) -> keeps k k').
    { intros *. unfold fetch_spans. destruct (_ !! st); intros [= <- _]; repeat split. }
    assert (Up : forall k sp a b c k1 sp1 d df rw t, update_span k st sp a b c = (k1, sp1, d, df, rw, t) -> keeps k k1).
    { intros *. unfold update_span. destruct (era_span sp b) as [t0|]; [|intros [= <- _ _ _ _ _]; repeat split].
      destruct (default _ _). cbn zeta.
      destruct (if _ <? _ then _ else _) as [[[[? ?] ?] ?] ?].
      intros [= <- _ _ _ _ _]. destruct (_ || _); repeat split. }
    intros H. unfold compute_slash in H. destruct (_ =? 0).
    { injection H as <- _ _. unfold kick_out. destruct (fetch_spans (k_stk s) st w) as [k0 sp] eqn:E0. apply Fe in E0.
      apply (keeps_chilled _ _ (eq st)) in E0.
      destruct (era_span sp era) as [t|]; [|exact E0]. destruct (_ =? _); [|exact E0].
      destruct (kick x k0 _ _ _ _ _) as [[[k1 e1] sp1] d1] eqn:E1. apply Kk in E1.
      eapply chilled_trans; [exact E0|]. eapply chilled_trans; [exact E1|]. apply keeps_chilled, Cl. }
    destruct (_ <=? _); [injection H as <- _ _; apply chilled_refl|].
    cbn zeta in H. destruct (fetch_spans _ st w) as [k0 sp] eqn:E0. apply Fe in E0.
    destruct (update_span _ _ _ _ _ _) as [[[[[k1 sp1] d1] df] rw] t] eqn:E1. apply Up in E1.
    destruct (if bool_decide _ then _ else _) as [[[k2 e2] sp2] d2] eqn:E2 in H.
    injection H as <- _ _. cbn [k_stk set_k_era set_k_stk].
    apply (keeps_chilled _ _ (eq st)) in E0, E1.
    eapply chilled_trans; [exact E0|]. eapply chilled_trans; [exact E1|].
    eapply chilled_trans; [|apply keeps_chilled, Cl].
    case_bool_decide; [exact (Kk _ _ _ _ _ _ _ _ E2)|]. injection E2 as <- _ _ _. apply chilled_refl.
  Qed.
  Lemma offender1_chilled x era w now s ev o s' ev' :
    offender1 cfg x era w now (s, ev) o = (s', ev') -> chilled (k_stk s) (k_stk s') (eq o.1.1.1).
  Proof.
    unfold offender1. destruct o as [[[st ex] reps] frac]. cbn [fst].
    case_bool_decide; [intros [= <- _]; apply chilled_refl|].
    destruct (compute_slash _ _ _ _ _ _ _ _) as [[s1 u] e1] eqn:E1. apply compute_chilled in E1.
    destruct u as [u|]; [|intros [= <- _]; auto].
    destruct (_ =? 0).
    - destruct (apply_slash _ _ _ _) as [s2 e2] eqn:E2. intros [= <- _].
      apply apply_slash_keeps in E2. eapply chilled_trans; [exact E1|]. now apply keeps_chilled.
    - intros [= <- _]. exact E1.
  Qed.
  Lemma on_offence_chilled x s os i s' ev : on_offence cfg x s os i = (s', ev) ->
    chilled (k_stk s) (k_stk s') (fun v => exists ex reps frac, (v, ex, reps, frac) ∈ os).
  Proof.
    unfold on_offence. destruct (e_act (k_era s)) as [[a b]|]; [|intros [= <- _]; apply chilled_refl].
    destruct (slash_era _ _ _) as [era|]; [|intros [= <- _]; apply chilled_refl].
    cbn zeta. set (s0 := set_k_stk s _). intros H.
    assert (G : forall os s e s' e', fold_left (offender1 cfg x era (ssub a (kc_bonding cfg)) a) os (s, e) = (s', e') ->
      chilled (k_stk s) (k_stk s') (fun v => exists ex reps frac, (v, ex, reps, frac) ∈ os)).
    { clear. induction os as [|o os IH]; intros s e s' e' H; cbn [fold_left] in H; [injection H as <- _; apply chilled_refl|].
      destruct (offender1 _ _ _ _ _ _ o) as [s1 e1] eqn:E1. apply offender1_chilled in E1.
      eapply chilled_trans.
      - eapply chilled_weak; [|exact E1]. intros v <-. destruct o as [[[v ex] reps] frac]. cbn. exists ex, reps, frac. left.
      - eapply chilled_weak; [|eapply IH; exact H]. intros v (ex & reps & frac & Hin). exists ex, reps, frac. now right. }
    apply G in H. subst s0. destruct (s_first (k_stk s)); exact H.
  Qed.

  (** ** Steps *)
  Lemma step_effect s op s' out : kstep cfg s op = (s', out) ->
    (exists x o c, op = KCall x o c /\ effect s s' o c) \/
    (exists x os i, op = KOffence x os i /\
       chilled (k_stk s) (k_stk s') (fun v => exists ex reps frac, (v, ex, reps, frac) ∈ os)) \/
    keeps (k_stk s) (k_stk s').
  Proof.
    intros H. destruct op as [x o c|x| |i|x i|x i|a|x os i|b]; cbn [kstep] in H.
    - destruct (dispatch cfg x s o c) as [[s1 ev]|er|] eqn:E; cbn [settle] in H; injection H as <- <-.
      + left. exists x, o, c. split; [auto|]. eapply call_effect; eauto.
      + right; right; apply keeps_refl.
      + right; right; apply keeps_refl.
    - right; right.
      destruct (on_initialize cfg x s) as [[s1 ev]|er|] eqn:E; cbn [settle] in H; injection H as <- <-; try apply keeps_refl.
      unfold on_initialize in E. destruct (0 <? _); [|injection E as <- _; apply keeps_refl].
      destruct (_ =? 0).
      + destruct (_ =? 0); [discriminate || (injection E as <- _; apply keeps_refl)|discriminate || (injection E as <- _; apply keeps_refl)].
      + destruct (pay_delegators cfg x s) as [s2 ev2] eqn:E2. injection E as <- _.
        apply pay_delegators_stk in E2. rewrite E2. apply keeps_refl.
    - right; right. injection H as <- _. unfold on_finalize. destruct (e_act (k_era s)) as [[? []]|]; apply keeps_refl.
    - right; right. destruct (new_session _ _ _) as [s1 ev] eqn:E. cbn in H. injection H as <- <-.
      rewrite (new_session_stk _ _ _ _ _ E). apply keeps_refl.
    - right; right. destruct (start_session _ _ _ _) as [s1 ev] eqn:E. cbn in H. injection H as <- <-. eapply start_session_keeps; eauto.
    - right; right. destruct (end_session _ _ _ _) as [s1 ev] eqn:E. cbn in H. injection H as <- <-. eapply end_session_keeps; eauto.
    - right; right. injection H as <- _. unfold note_author. destruct (e_act (k_era s)) as [[? ?]|]; [|apply keeps_refl].
      destruct (default _ _). apply keeps_refl.
    - right; left. destruct (on_offence _ _ _ _ _) as [s1 ev] eqn:E. cbn in H. injection H as <- <-.
      exists x, os, i. split; [auto|]. eapply on_offence_chilled; eauto.
    - right; right. injection H as <- _. apply keeps_refl.
  Qed.

  (** Only bonded stashes stand, and exactly the bonded ones have a payee. *)
  Definition standing (k : stk) : Prop :=
    (forall v, v ∈ s_valid k -> is_Some (s_bonded k !! v)) /\
    (forall v, is_Some (s_payee k !! v) <-> is_Some (s_bonded k !! v)).
  Lemma keeps_standing k k' : keeps k k' -> standing k -> standing k'.
  Proof. intros (A & B & C) [D E]. unfold standing. rewrite A, B, C. auto. Qed.
  Lemma some_insert {A} (m : gmap N A) i a j : is_Some (<[i := a]> m !! j) <-> j = i \/ is_Some (m !! j).
  Proof. rewrite lookup_insert_is_Some. destruct (decide (i = j)); intuition. Qed.
  Lemma some_delete {A} (m : gmap N A) i j : is_Some (delete i m !! j) <-> j <> i /\ is_Some (m !! j).
  Proof. rewrite lookup_delete_is_Some. intuition. Qed.
  Lemma step_standing s op s' out :
    linv (view s) -> kstep cfg s op = (s', out) -> standing (k_stk s) -> standing (k_stk s').
  Proof.
    intros I H St. assert (Lb : forall ct l, s_ledger (k_stk s) !! ct = Some l -> is_Some (s_bonded (k_stk s) !! l_stash l)).
    { intros ct l E. exists ct. exact (li_ledger _ I _ _ E). }
    destruct (step_effect _ _ _ _ H) as [(x & o & c & -> & E)|[(x & os & i & -> & E)|E]].
    - destruct St as [V P]. destruct E as [? ? K|w ct v dest B Ev Ep Eb|ct l El Ev Ep Eb|ct l El Ev Ep Eb|ct l dest El Ev Ep Eb|w ct B Ev Ep Eb|o c st n (Ev & Ep & Eb) B Cn _];
        [eapply keeps_standing; [exact K|split; auto]|..]; unfold standing; rewrite Ev, Ep, Eb; (split; [|intros v0]).
      + intros v0 Hv. apply some_insert. eauto.
      + rewrite !some_insert. now rewrite P.
      + intros v0 [Hv|Hv%elem_of_singleton]%elem_of_union; [eauto|]. subst. eauto.
      + apply P.
      + intros v0 [Hv _]%elem_of_difference. auto.
      + apply P.
      + auto.
      + rewrite some_insert, P. specialize (Lb _ _ El). split; [intros [->|?]; auto|auto].
      + intros v0 Hv. apply some_insert. auto.
      + rewrite some_insert, P. split; [auto|intros [->|?]; auto].
      + intros v0 [Hv Hn]%elem_of_difference. apply some_delete. split; [set_solver|auto].
      + rewrite !some_delete. now rewrite P.
    - destruct St as [V P]. destruct E as (A & B & C & _). unfold standing. rewrite A, B. split; [|exact P].
      intros v Hv. apply V, C, Hv.
    - eapply keeps_standing; eauto.
  Qed.
  Lemma genesis_standing b p : standing (k_stk (kgenesis b p)).
  Proof.
    split; cbn.
    - intros v Hv. set_solver.
    - intros v. rewrite !lookup_empty. split; intros [? ?]; discriminate.
  Qed.
  Lemma run_standing : forall h s, sane cfg s h -> linv (view s) -> standing (k_stk s) -> standing (k_stk (krun cfg s h)).
  Proof.
    induction h as [|op h IH]; intros s [F S] I St; cbn; auto. destruct S as [T S].
    destruct (kstep cfg s op) as [s' out] eqn:E. cbn in *. apply IH; [auto|eapply step_linv; eauto|eapply step_standing; eauto].
  Qed.

  (** Who starts and who stops to stand. *)
  Lemma step_stands s op s' out v :
    linv (view s) -> kstep cfg s op = (s', out) ->
    (stands s' v <-> stands s v) \/
    (stands s' v /\ exists x ct, op = KCall x (Signed ct) KValidate /\ controls s ct v) \/
    (~ stands s' v /\
      ((exists x ct, op = KCall x (Signed ct) KChill /\ controls s ct v) \/
       (dissolves cfg s v op /\ ~ bonded s' v) \/ reported op v)).
  Proof.
    intros I H. unfold stands. destruct (step_effect _ _ _ _ H) as [(x & o & c & -> & E)|[(x & os & i & -> & E)|E]].
    - destruct E as [? ? K|w ct v0 dest B Ev Ep Eb|ct l El Ev Ep Eb|ct l El Ev Ep Eb|ct l dest El Ev Ep Eb|w ct B Ev Ep Eb|o c st n (Ev & Ep & Eb) B Cn W];
        try (left; rewrite Ev; tauto).
      + left. now rewrite (proj1 K).
      + destruct (decide (v = l_stash l)) as [->|Hn].
        * right; left. split; [rewrite Ev; set_solver|]. exists x, ct. split; [auto|]. exact (li_ledger _ I _ _ El).
        * left. rewrite Ev. set_solver.
      + destruct (decide (v = l_stash l)) as [->|Hn].
        * right; right. split; [rewrite Ev; set_solver|]. left. exists x, ct. split; [auto|]. exact (li_ledger _ I _ _ El).
        * left. rewrite Ev. set_solver.
      + destruct (decide (v = st)) as [->|Hn].
        * right; right. split; [rewrite Ev; set_solver|]. right; left. split.
          -- exists x, o, c, n. split; [auto|]. split; [auto|]. split; [auto|].
             destruct W as [(-> & ct & l & -> & El & <-)|W]; [|auto]. left. split; [auto|]. exists ct. split; [auto|]. exact (li_ledger _ I _ _ El).
          -- unfold bonded. rewrite Eb, lookup_delete. intros [? ?]. discriminate.
        * left. rewrite Ev. set_solver.
    - destruct E as (_ & _ & C & D). destruct (decide (v ∈ s_valid (k_stk s'))) as [Hi|Hi].
      + left. split; auto.
      + destruct (decide (v ∈ s_valid (k_stk s))) as [Hj|Hj]; [|left; tauto].
        right; right. split; [auto|]. right; right. exists x, os, i. split; [auto|]. eauto.
    - left. now rewrite (proj1 E).
  Qed.
  (** Who sets the payee. *)
  Lemma step_payee s op s' out v :
    linv (view s) -> kstep cfg s op = (s', out) -> payee_at s' v <> payee_at s v ->
    exists x o c, op = KCall x o c /\
      ((exists ct val dest, o = Signed v /\ c = KBond ct val dest /\ payee_at s' v = Some dest) \/
       (exists ct dest, o = Signed ct /\ controls s ct v /\ c = KSetPayee dest /\ payee_at s' v = Some dest) \/
       (dissolves cfg s v op /\ ~ bonded s' v /\ payee_at s' v = None)).
  Proof.
    intros I H. unfold payee_at. destruct (step_effect _ _ _ _ H) as [(x & o & c & -> & E)|[(x & os & i & -> & E)|E]].
    - intros Hn. exists x, o, c. split; [auto|].
      destruct E as [? ? K|w ct v0 dest B Ev Ep Eb|ct l El Ev Ep Eb|ct l El Ev Ep Eb|ct l dest El Ev Ep Eb|w ct B Ev Ep Eb|o c st n (Ev & Ep & Eb) B Cn W];
        try (destruct Hn; rewrite Ep; reflexivity).
      + destruct Hn. now rewrite (proj1 (proj2 K)).
      + destruct (decide (v = w)) as [->|Hw]; [|destruct Hn; rewrite Ep, lookup_insert_ne by auto; reflexivity].
        left. exists ct, v0, dest. rewrite Ep, lookup_insert. auto.
      + destruct (decide (v = l_stash l)) as [->|Hw]; [|destruct Hn; rewrite Ep, lookup_insert_ne by auto; reflexivity].
        right; left. exists ct, dest. rewrite Ep, lookup_insert. split; [auto|]. split; [exact (li_ledger _ I _ _ El)|auto].
      + destruct (decide (v = st)) as [->|Hw]; [|destruct Hn; rewrite Ep, lookup_delete_ne by auto; reflexivity].
        right; right. rewrite Ep, lookup_delete. split; [|split; [|auto]].
        * exists x, o, c, n. split; [auto|]. split; [auto|]. split; [auto|].
          destruct W as [(-> & ct & l & -> & El & <-)|W]; [|auto]. left. split; [auto|]. exists ct. split; [auto|]. exact (li_ledger _ I _ _ El).
        * unfold bonded. rewrite Eb, lookup_delete. intros [? ?]. discriminate.
    - intros Hn. destruct Hn. now rewrite (proj1 E).
    - intros Hn. destruct Hn. now rewrite (proj1 (proj2 E)).
  Qed.
End model.
