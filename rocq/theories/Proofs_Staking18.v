(** Every report of an offence counts: lemmas for property C60. *)
From Verif Require Import Base Balances Model_StakingLedger Model_Staking Spec_Staking Spec_Staking2
  Proofs_Arith Proofs_StakingLedger Proofs_Staking Proofs_Staking2 Proofs_Staking3 Proofs_Staking5 Proofs_Staking6
  Proofs_Staking14 Proofs_Staking15 Proofs_Staking16 Proofs_Staking17.
From Verif Require Proofs_Credit3.
From stdpp Require Import gmap.
Open Scope N_scope.

(** ** The span of an era does not change *)
Definition idx (sp : spans) (era : N) : option N := sn_index <$> era_span sp era.

Lemma contains_open i st e : contains_era (Span i st None) e = (st <=? e).
Proof. unfold contains_era. cbn. apply andb_true_r. Qed.
Lemma contains_closed i st n e : st + n < two32 -> contains_era (Span i st (Some n)) e = (st <=? e) && (e <? st + n).
Proof. intros H. unfold contains_era. cbn. now rewrite add32_exact. Qed.
Lemma idx_end now sp sp' b era :
  spans_ok now sp -> now + 1 < two32 -> end_span now sp = (sp', b) -> era <= now -> idx sp' era = idx sp era.
Proof.
  intros K Hn H He. pose proof K as [A B C D F]. unfold end_span in H. rewrite add32_exact in H by lia.
  destruct (N.leb_spec (now + 1) (sp_start sp)) as [L|L]; injection H as <- <-; [auto|].
  rewrite (add32_exact (sp_index sp) 1), (sub32_exact (now + 1)) by lia.
  unfold idx, era_span, spans_iter. cbn [sp_index sp_start sp_prior prior_spans List.find].
  rewrite (sub32_exact (sp_index sp + 1) 1) by lia. rewrite (sub32_exact (now + 1)) by lia.
  replace (now + 1 - (now + 1 - sp_start sp)) with (sp_start sp) by lia.
  replace (sp_index sp + 1 - 1) with (sp_index sp) by lia.
  rewrite !contains_open, contains_closed by lia.
  rewrite (proj2 (N.leb_gt (now + 1) era)) by lia. replace (sp_start sp + (now + 1 - sp_start sp)) with (now + 1) by lia.
  rewrite (proj2 (N.ltb_lt era (now + 1))), andb_true_r by lia.
  destruct (sp_start sp <=? era); reflexivity.
Qed.

Lemma prior_take : forall o l i st, prior_spans i st (take o l) = take o (prior_spans i st l).
Proof. induction o as [|o IH]; intros [|n l] i st; cbn; auto. now rewrite IH. Qed.
Lemma find_cut {A} (f : A -> bool) l r : (forall x, x ∈ r -> f x = false) -> List.find f (l ++ r) = List.find f l.
Proof.
  intros H. induction l as [|a l IH]; cbn; [|now rewrite IH].
  induction r as [|x r IH]; cbn; [auto|]. rewrite (H x) by left. apply IH. intros y Hy. apply H. now right.
Qed.
(** All spans from the first old one on have ended by the window. *)
Lemma old_all w : forall l i st o,
  lsum l <= st -> st < two32 -> old_position w (priors i st l) = Some o ->
  forall t, t ∈ drop o (priors i st l) -> exists n, sn_len t = Some n /\ sn_start t + n <= w.
Proof.
  assert (low : forall l i st t, lsum l <= st -> t ∈ priors i st l -> exists n, sn_len t = Some n /\ sn_start t + n <= st).
  { intros l i st t. apply priors_end. }
  induction l as [|n l IH]; intros i st o Hs Hb H t Ht; cbn [priors old_position lsum] in *; [discriminate|].
  cbn [sn_len sn_start] in H. rewrite add32_exact in H by lia.
  destruct (N.leb_spec (st - n + n) w) as [L|L].
  - injection H as <-. cbn [drop] in Ht. apply elem_of_cons in Ht as [->|Ht].
    + exists n. cbn. split; [auto|lia].
    + apply low in Ht as (m & A & B); [|lia]. exists m. split; [auto|lia].
  - destruct (old_position w _) as [o1|] eqn:E; [|discriminate]. injection H as <-. cbn [drop] in Ht.
    eapply IH; [| |exact E|exact Ht]; lia.
Qed.
Lemma idx_prune now w sp sp' p era :
  spans_ok now sp -> now + 1 < two32 -> prune w sp = (sp', p) -> w <= era -> idx sp' era = idx sp era.
Proof.
  intros K Hn H He. pose proof (prune_start now w sp sp' p K Hn H) as Ps.
  pose proof (spans_iter_exact now sp K Hn) as E. pose proof K as [A B C D F].
  assert (Ei : sp_index sp' = sp_index sp) by (unfold prune in H; destruct (old_position _ _); injection H as <- _; auto).
  destruct Ps as [Ps|[Ps Pp]].
  - assert (Ep : exists o, sp_prior sp' = take o (sp_prior sp) /\ forall t, t ∈ drop o (priors (sp_index sp) (sp_start sp) (sp_prior sp)) -> exists n, sn_len t = Some n /\ sn_start t + n <= w).
    { unfold prune in H. rewrite E in H. cbn [tail] in H. destruct (old_position w _) as [o|] eqn:Eo; injection H as <- _; cbn.
      - exists o. split; [auto|]. eapply old_all; [exact C|lia|exact Eo].
      - exists (length (priors (sp_index sp) (sp_start sp) (sp_prior sp))). split; [|intros t Ht; rewrite drop_all in Ht; inversion Ht].
        symmetry. apply take_ge. clear. generalize (sp_index sp), (sp_start sp).
        induction (sp_prior sp) as [|n l IH]; intros i st; cbn; [lia|]. specialize (IH (i - 1) (st - n)). lia. }
    destruct Ep as (o & Ep & Old). unfold idx, era_span, spans_iter. rewrite Ei, Ps, Ep, prior_take.
    assert (E' : prior_spans (sp_index sp) (sp_start sp) (sp_prior sp) = priors (sp_index sp) (sp_start sp) (sp_prior sp)).
    { unfold spans_iter in E. now injection E. }
    rewrite E'. cbn [List.find]. destruct (contains_era _ era); [auto|].
    rewrite <- (take_drop o (priors (sp_index sp) (sp_start sp) (sp_prior sp))) at 2.
    rewrite find_cut; [auto|]. intros t Ht. destruct (Old t Ht) as (n & En & Le). unfold contains_era. rewrite En.
    assert (Hin : t ∈ priors (sp_index sp) (sp_start sp) (sp_prior sp)) by (rewrite <- (take_drop o (priors _ _ _)); apply elem_of_app; now right).
    destruct (priors_end _ _ _ _ C Hin) as (n' & En' & L'). rewrite En in En'. injection En' as <-.
    rewrite add32_exact by lia. rewrite (proj2 (N.ltb_ge era _)) by lia. apply andb_false_r.
  - assert (L : sp_start sp <= w).
    { unfold prune in H. destruct (old_position _ _); injection H as <- _; cbn in Ps; lia. }
    unfold idx, era_span, spans_iter. rewrite Ei, Ps. cbn [List.find]. rewrite !contains_open.
    rewrite (proj2 (N.leb_le w era)), (proj2 (N.leb_le (sp_start sp) era)) by lia. reflexivity.
Qed.

Definition kidx (w : N) (k : stk) (st era : N) : option N := idx (default (spans_new w) (s_spans k !! st)) era.

Lemma fetch_idx w k st k0 sp st' era :
  fetch_spans k st w = (k0, sp) -> kidx w k0 st' era = kidx w k st' era /\ s_spans k0 !! st = Some sp /\ idx sp era = kidx w k st era.
Proof.
  unfold fetch_spans, kidx. destruct (s_spans k !! st) as [sp0|] eqn:E; intros H; injection H as <- <-; [rewrite E; auto|].
  cbn. rewrite lookup_insert. split; [|auto]. destruct (decide (st = st')) as [<-|Hn].
  - rewrite lookup_insert, E. reflexivity.
  - now rewrite lookup_insert_ne.
Qed.
Lemma update_idx k st sp f era own k1 sp1 d df rw t e :
  update_span k st sp f era own = (k1, sp1, d, df, rw, t) ->
  idx sp1 e = idx sp e /\ s_spans k1 = s_spans k /\ s_in_era k1 = s_in_era k /\ t = idx sp era /\ (d = false -> sp1 = sp).
Proof.
  unfold update_span, idx. intros H. destruct (era_span sp era) as [t0|] eqn:Et; [|injection H as <- <- <- <- <- <-; auto].
  destruct (default (0, 0) _) as [sl pd]. cbn zeta in H.
  destruct (sl <? own).
  - injection H as <- <- <- <- <- <-. repeat split; auto; discriminate.
  - destruct (sl =? own); cbn [orb N.eqb negb] in H.
    + destruct (frac_mul REWARD_F1 PERBILL _ =? 0); cbn [negb] in H; injection H as <- <- <- <- <- <-; auto.
    + injection H as <- <- <- <- <- <-; auto.
Qed.
Lemma kick_idx x now k e st sp d k' e' sp' d' era :
  spans_ok now sp -> now + 1 < two32 -> kick x k e st now sp d = (k', e', sp', d') -> era <= now ->
  idx sp' era = idx sp era /\ s_spans k' = s_spans k /\ s_in_era k' = s_in_era k /\ spans_ok now sp' /\ (d' = false -> d = false /\ sp' = sp).
Proof.
  unfold kick. intros K Hn H He. destruct (end_span now sp) as [sp1 b] eqn:E. injection H as <- <- <- <-.
  split; [eapply idx_end; eauto|]. split; [auto|]. split; [auto|]. split; [eapply end_span_ok; eauto|].
  unfold end_span in E. destruct (_ <=? _); injection E as <- <-; cbn; [auto|discriminate].
Qed.
Lemma close_idx now w k st d sp era st' :
  spans_ok now sp -> now + 1 < two32 -> (d = false -> s_spans k !! st = Some sp) -> w <= era ->
  kidx w (close_spans k st w d sp) st' era = (if st' =? st then idx sp era else kidx w k st' era) /\
  s_in_era (close_spans k st w d sp) = s_in_era k.
Proof.
  intros K Hn Hd He. unfold close_spans. destruct d.
  - destruct (prune w sp) as [sp' p] eqn:E. split; [|destruct p as [[? ?]|]; reflexivity].
    unfold kidx. cbn. destruct (N.eqb_spec st' st) as [->|Hne].
    + rewrite lookup_insert. cbn. eapply idx_prune; eauto.
    + now rewrite lookup_insert_ne by auto.
  - split; [|auto]. destruct (N.eqb_spec st' st) as [->|Hne]; [|auto]. unfold kidx. now rewrite Hd.
Qed.

(** What a report does to spans and marks. *)
Lemma compute_idx x s st f ex era w now s' u ev st' e :
  compute_slash x s st f ex era w now = (s', u, ev) -> ok_at now st (k_stk s) ->
  now + 1 < two32 -> w <= now -> w <= e <= now -> kidx w (k_stk s') st' e = kidx w (k_stk s) st' e.
Proof.
  intros H K Hn Hw He. unfold compute_slash in H.
  destruct (_ =? 0).
  { injection H as <- _ _. unfold kick_out. destruct (fetch_spans (k_stk s) st w) as [k0 sp] eqn:E0.
    destruct (fetch_ok _ _ _ _ _ _ Hw Hn E0 K) as [Ok0 _].
    destruct (fetch_idx _ _ _ _ _ st' e E0) as (F1 & F2 & _).
    destruct (era_span sp era); [|exact F1]. destruct (_ =? _); [|exact F1].
    destruct (kick x k0 (k_era s) st now sp false) as [[[k1 e1] sp1] d] eqn:E1. cbn [k_stk set_k_era set_k_stk].
    destruct (kick_idx _ _ _ _ _ _ _ _ _ _ _ e Ok0 Hn E1 ltac:(lia)) as (G1 & G2 & _ & G3 & G4).
    destruct (close_idx now w k1 st d sp1 e st' G3 Hn) as [C _]; [|lia|].
    { intros Ed. destruct (G4 Ed) as [_ ->]. now rewrite G2. }
    rewrite C. destruct (N.eqb_spec st' st) as [->|Hne].
    - rewrite G1, <- F1. unfold kidx. now rewrite F2.
    - rewrite <- F1. unfold kidx. now rewrite G2. }
  destruct (_ <=? _); [injection H as <- _ _; auto|].
  set (k := set_s_in_era (k_stk s) _) in H.
  destruct (fetch_spans k st w) as [k0 sp] eqn:E0.
  destruct (update_span _ _ _ _ _ _) as [[[[[k1 sp1] d] df] rw] t] eqn:E1.
  destruct (if bool_decide _ then _ else _) as [[[k2 e2] sp2] d2] eqn:E2.
  injection H as <- _ _. cbn [k_stk set_k_era set_k_stk].
  destruct (fetch_ok _ _ _ _ _ _ Hw Hn E0 K) as [Ok0 _].
  destruct (fetch_idx _ _ _ _ _ st' e E0) as (F1 & F2 & _).
  destruct (update_ok now _ _ _ _ _ _ _ _ _ _ _ _ E1 Ok0) as (Ok1 & _ & _).
  destruct (update_idx _ _ _ _ _ _ _ _ _ _ _ _ e E1) as (U1 & U2 & _ & _ & U3).
  assert (Q : idx sp2 e = idx sp e /\ s_spans k2 = s_spans k0 /\ spans_ok now sp2 /\ (d2 = false -> sp2 = sp)).
  { destruct (bool_decide _).
    - destruct (kick_idx _ _ _ _ _ _ _ _ _ _ _ e Ok1 Hn E2 ltac:(lia)) as (G1 & G2 & _ & G3 & G4).
      split; [congruence|]. split; [congruence|]. split; [auto|]. intros Ed. destruct (G4 Ed) as [Ed' ->]. auto.
    - injection E2 as <- <- <- <-. auto. }
  destruct Q as (Q1 & Q2 & Q3 & Q4).
  destruct (close_idx now w k2 st d2 sp2 e st' Q3 Hn) as [C _]; [|lia|].
  { intros Ed. rewrite (Q4 Ed), Q2. auto. }
  rewrite C. change (kidx w (k_stk s) st' e) with (kidx w k st' e). destruct (N.eqb_spec st' st) as [->|Hne].
  - rewrite Q1, <- F1. unfold kidx. now rewrite F2.
  - rewrite <- F1. unfold kidx. now rewrite Q2.
Qed.

Section model.
  Context (cfg : kcfg).
  Local Notation ed := (kc_ed cfg).

  (** ** Calls and payouts leave the marks alone *)
  Lemma update_ledger_marks x s c l : s_in_era (k_stk (update_ledger cfg x s c l)) = s_in_era (k_stk s).
  Proof. unfold update_ledger, set_lock. now destruct (_ =? 0). Qed.
  Lemma unstake_marks x s st0 n s' : unstake cfg x s st0 n = ROk s' -> s_in_era (k_stk s') = s_in_era (k_stk s).
  Proof.
    unfold unstake, kill_stash. intros H. inv_bind H.
    destruct (s_bonded (k_stk s) !! st0) as [c|] eqn:Eb; [|discriminate].
    inv_bind E. injection E as <-. injection H as <-. unfold clear_stash in E0.
    destruct (s_spans (k_stk s) !! st0) as [sp|]; [|injection E0 as <-; reflexivity].
    inv_bind E0. injection E0 as <-. reflexivity.
  Qed.
  Lemma call_marks x s o c s' ev :
    dispatch cfg x s o c = ROk (s', ev) -> s_in_era (k_stk s') = s_in_era (k_stk s).
  Proof.
    intros H.
    destruct c; cbn [dispatch] in H; unfold admin, controlled, signed, root, quiet, with_par, with_del, with_stk in H;
      try (destruct o; try discriminate H; []);
      repeat match type of H with rbind (ensure _ _) _ = _ => inv_bind H end;
      try (injection H as <- <-; reflexivity).
    - unfold staking_delegate in H. inv_bind H. inv_bind H.
      destruct (kx_level x who); [|discriminate]. inv_bind H.
      destruct (kx_dpr x who !! N.to_nat level); [|discriminate].
      destruct (kx_dpr x who !! N.to_nat n); [|discriminate].
      destruct (transfer_keep _ _ _ _ _); [|discriminate]. inv_bind H. now injection H as <- <-.
    - unfold usdt_delegate in H. inv_bind H. inv_bind H. destruct v as [cur rest].
      destruct (0 <? _); [inv_bind H|]; now injection H as <- <-.
    - inv_bind H. injection H as <- <-. unfold bond in E.
      repeat match type of E with rbind (ensure _ _) _ = _ => inv_bind E end.
      injection E as <-. now rewrite update_ledger_marks.
    - inv_bind H. injection H as <- <-. unfold bond_extra in E.
      destruct (s_bonded (k_stk s) !! who) as [c|] eqn:Eb; [|discriminate].
      destruct (s_ledger (k_stk s) !! c) as [l|] eqn:El; [|discriminate].
      destruct (_ <? _); [now injection E as <-|].
      inv_bind E. injection E as <-. apply update_ledger_marks.
    - unfold unbond in H. destruct (s_ledger (k_stk s) !! who) as [l|] eqn:El; [|discriminate].
      inv_bind H. destruct (_ =? 0) eqn:Ez; [now injection H as <- <-|].
      match type of H with context [let '(_, _) := ?e in _] => destruct e end. injection H as <- <-. apply update_ledger_marks.
    - unfold withdraw_unbonded in H. destruct (s_ledger (k_stk s) !! who) as [l0|] eqn:El; [|discriminate].
      destruct (bool_decide _ && _) eqn:Ek in H.
      + inv_bind H. injection H as <- <-. eapply unstake_marks; eauto.
      + injection H as <- <-. apply update_ledger_marks.
    - destruct (s_ledger _ !! _); [|discriminate]. now injection H as <- <-.
    - destruct (s_ledger _ !! _); [|discriminate]. now injection H as <- <-.
    - destruct (s_ledger _ !! _); [|discriminate]. now injection H as <- <-.
    - inv_bind H. injection H as <- <-. unfold set_controller in E.
      destruct (s_bonded (k_stk s) !! who) as [old|] eqn:Eb; [|discriminate].
      inv_bind E. destruct (controller =? old); [now injection E as <-|].
      destruct (s_ledger (k_stk s) !! old); now injection E as <-.
    - inv_bind H. injection H as <- <-. eapply unstake_marks; eauto.
    - inv_bind H. injection H as <- <-. unfold Model_Staking.cancel in E. inv_bind E. inv_bind E. inv_bind E.
      destruct (remove_at _ _ _); [|discriminate]. now injection E as <-.
    - inv_bind H. injection H as <- <-. unfold do_rebond in E.
      destruct (s_ledger (k_stk s) !! who) as [l|] eqn:El; [|discriminate].
      inv_bind E. inv_bind E. injection E as <-. apply update_ledger_marks.
    - destruct (e_cur (k_era s)); now injection H as <- <-.
    - inv_bind H. injection H as <- <-. eapply unstake_marks; eauto.
    - inv_bind H. now injection H as <- <-.
    - injection H as <- <-. assert (G : forall l s, k_stk (fold_left undelegate_in l s) = k_stk s).
      { induction l0; intros s0; cbn; auto. now rewrite (IHl0 (undelegate_in s0 a)). }
      now rewrite G.
    - unfold compensate in H. inv_bind H. destruct (Model_Operation.mint _ _ _ _). now injection H as <- <-.
    - inv_bind H. now injection H as <- <-.
    - unfold npow_mint in H. inv_bind H. destruct (Model_Operation.mint _ _ _ _). now injection H as <- <-.
    - unfold validator_burn in H. destruct (s_ledger (k_stk s) !! who) as [l|] eqn:El; [|discriminate].
      cbn zeta in H. destruct (slash_ledger v ed l) as [l' am] eqn:Es.
      destruct (cslash _ _ _ _ _) as [[b g] m]. injection H as <- <-. now rewrite update_ledger_marks.
  Qed.
  Lemma payout_marks x s st v s' ev : validator_payout cfg x s st v = (s', ev) -> s_in_era (k_stk s') = s_in_era (k_stk s).
  Proof.
    unfold validator_payout. destruct (default PStaked _);
    repeat match goal with |- context [match ?e with _ => _ end] => destruct e end;
    intros H; injection H as <- <-; rewrite ?update_ledger_marks; reflexivity.
  Qed.
  Lemma pay_each_marks x pts po : forall vs s t s' t' ev,
    pay_each cfg x pts po vs s t = (s', t', ev) -> s_in_era (k_stk s') = s_in_era (k_stk s).
  Proof.
    induction vs as [|v vs IH]; intros s t s' t' ev H; cbn [pay_each] in H; [now injection H as <-|].
    destruct (_ =? 0); [now apply IH in H|].
    destruct (validator_payout _ _ _ _ _) as [s1 e1] eqn:E1. destruct (pay_each _ _ _ _ _ _ _) as [[s2 t2] e2] eqn:E2. injection H as <- <- <-.
    apply payout_marks in E1. apply IH in E2. congruence.
  Qed.
  Lemma end_session_marks x s i s' ev : end_session cfg x s i = (s', ev) -> s_in_era (k_stk s') = s_in_era (k_stk s).
  Proof.
    unfold end_session. destruct (e_act (k_era s)) as [[i0 st]|]; [|now intros [= <- _]].
    destruct (e_start _ !! _); [|now intros [= <- _]]. destruct (_ && _); [|now intros [= <- _]].
    unfold pay_validators. cbn zeta.
    repeat match goal with |- (let '(_, _) := ?e in _) = _ -> _ => destruct e eqn:? | |- (if ?e then _ else _) = _ -> _ => destruct e end;
      try (now intros [= <- _]).
    all: intros H; injection H as <- _; cbn; eauto using pay_each_marks.
  Qed.

  Lemma do_slash_marks x s st v pay s' pay' got ev :
    do_slash cfg x s st v pay = (s', pay', got, ev) -> s_in_era (k_stk s') = s_in_era (k_stk s).
  Proof.
    unfold do_slash. destruct (_ !! st) as [c|]; [|now intros [= <- _ _ _]]. destruct (_ !! c) as [l|]; [|now intros [= <- _ _ _]].
    destruct (slash_ledger _ _ _) as [l' v']. destruct (_ =? 0); [now intros [= <- _ _ _]|].
    destruct (cslash _ _ _ _ _) as [[b g] m]. intros [= <- _ _ _]. now rewrite update_ledger_marks.
  Qed.
  Lemma credits_stk x l : forall s, k_stk (fold_left (credit_slash x) l s) = k_stk s.
  Proof. induction l as [|a l IH]; intros s; cbn; [auto|]. rewrite IH. unfold credit_slash. now destruct (kx_pass x a). Qed.
  Lemma apply_slash_marks x s u s' ev : apply_slash cfg x s u = (s', ev) -> s_in_era (k_stk s') = s_in_era (k_stk s).
  Proof.
    unfold apply_slash. destruct (do_slash _ _ _ _ _ _) as [[[s1 p] g] e] eqn:E. intros [= <- _]. cbn.
    rewrite credits_stk. eapply do_slash_marks; eauto.
  Qed.
  Lemma apply_list_marks x : forall l s s' ev, apply_list cfg x l s = (s', ev) -> s_in_era (k_stk s') = s_in_era (k_stk s).
  Proof.
    induction l as [|u l IH]; intros s s' ev H; cbn [apply_list] in H; [now injection H as <- _|].
    destruct (apply_slash _ _ _ _) as [s1 e1] eqn:E1. destruct (apply_list _ _ _ s1) as [s2 e2] eqn:E2. injection H as <- _.
    apply apply_slash_marks in E1. apply IH in E2. congruence.
  Qed.
  Lemma apply_eras_marks x : forall n era s s' ev, apply_eras cfg x n era s = (s', ev) -> s_in_era (k_stk s') = s_in_era (k_stk s).
  Proof.
    induction n as [|n IH]; intros era s s' ev H; cbn [apply_eras] in H; [now injection H as <- _|].
    destruct (apply_list _ _ _ _) as [s1 e1] eqn:E1. destruct (apply_eras _ _ _ _ _) as [s2 e2] eqn:E2. injection H as <- _.
    apply apply_list_marks in E1. apply IH in E2. cbn in E1. congruence.
  Qed.

  (** ** One report *)
  Lemma compute_marks x s st f ex era w now s' u ev :
    compute_slash x s st f ex era w now = (s', u, ev) -> now + 1 < two32 -> w <= now -> ok_at now st (k_stk s) ->
    let own := frac_mul f PERBILL (x_own ex) in
    (exists g, k_era s' = set_e_force (k_era s) g) /\
    ((ev = [] /\ s_in_era (k_stk s') = s_in_era (k_stk s) /\
      (frac_mul f PERBILL (x_total ex) = 0 \/ f <= (default (0, 0) (s_in_era (k_stk s) !! (era, st))).1)) \/
     (s_in_era (k_stk s') = <[(era, st) := (f, own)]> (s_in_era (k_stk s)) /\
      exists diff, ev = match kidx w (k_stk s) st era with Some i => [KCharge st era i own diff] | None => [] end)).
  Proof.
    intros H Hn Hw K. cbn zeta.
    assert (id : forall e, exists g, e = set_e_force e g) by (intros e; exists (e_force e); now destruct e).
    assert (Kk : forall k e sp d k' e' sp' d', kick x k e st now sp d = (k', e', sp', d') ->
      (exists g, e' = set_e_force e g) /\ s_in_era k' = s_in_era k).
    { intros *. unfold kick. destruct (end_span _ _). intros [= <- <- _ _]. split; [|reflexivity].
      destruct (kx_disable x st); [|auto]. unfold ensure_new_era. destruct (e_force e); eauto. }
    assert (Cl : forall k w d sp, s_in_era (close_spans k st w d sp) = s_in_era k).
    { intros k w0 d sp. unfold close_spans. destruct d; [|auto]. destruct (prune w0 sp) as [? [[? ?]|]]; reflexivity. }
    assert (Fe : forall k k' sp, fetch_spans k st w = (k', sp) -> s_in_era k' = s_in_era k).
    { intros *. unfold fetch_spans. destruct (_ !! st); now intros [= <- _]. }
    unfold compute_slash in H. destruct (N.eqb_spec (frac_mul f PERBILL (x_total ex)) 0) as [Ez|Ez].
    { injection H as <- _ <-. unfold kick_out. destruct (fetch_spans (k_stk s) st w) as [k0 sp] eqn:E0. apply Fe in E0.
      destruct (era_span sp era); [|split; [apply id|left; auto]]. destruct (_ =? _); [|split; [apply id|left; auto]].
      destruct (kick _ _ _ _ _ _ _) as [[[k1 e1] sp1] d] eqn:E1. apply Kk in E1 as [A B]. cbn. rewrite Cl.
      split; [exact A|]. left. split; [auto|]. split; [congruence|auto]. }
    destruct (N.leb_spec f (default (0, 0) (s_in_era (k_stk s) !! (era, st))).1) as [L|L].
    { injection H as <- _ <-. split; [apply id|]. left. auto. }
    set (k := set_s_in_era (k_stk s) _) in H.
    destruct (fetch_spans k st w) as [k0 sp] eqn:E0.
    destruct (update_span _ _ _ _ _ _) as [[[[[k1 sp1] d] df] rw] t] eqn:E1.
    destruct (if bool_decide _ then _ else _) as [[[k2 e2] sp2] d2] eqn:E2.
    injection H as <- _ <-. cbn [k_stk k_era set_k_era set_k_stk].
    destruct (fetch_idx _ _ _ _ _ st era E0) as (_ & _ & F2). apply Fe in E0.
    destruct (update_idx _ _ _ _ _ _ _ _ _ _ _ _ era E1) as (_ & _ & U2 & U3 & _).
    assert (Q : (exists g, e2 = set_e_force (k_era s) g) /\ s_in_era k2 = s_in_era k1).
    { destruct (bool_decide _); [now apply Kk in E2|]. injection E2 as <- <- <- <-. auto. }
    destruct Q as [Q1 Q2]. split; [exact Q1|]. right. rewrite Cl. split; [rewrite Q2, U2, E0; reflexivity|].
    exists df. rewrite U3, F2. reflexivity.
  Qed.
End model.
