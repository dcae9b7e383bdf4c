(** Proofs for property C204. *)
From Verif Require Import Base Balances Model_StakingLedger Model_Staking Spec_Staking Spec_Staking2 Spec_Staking5 Spec_Invulnerable.
From Verif Require Import Proofs_Staking Proofs_Staking2 Proofs_Staking5 Proofs_Staking6 Proofs_Staking7 Proofs_Staking14 Proofs_Staking15.
From Verif Require Import Proofs_Cancelled.
From Verif Require Proofs_Staking19.
From stdpp Require Import gmap.
Open Scope N_scope.

Section model.
  Context (cfg : kcfg) (st : N).
  Record spared (s s' : kstate) (ev : list kev) : Prop := {
    sp_par : k_par s' = k_par s;
    sp_wait : forall e, against st (pending s' e) = against st (pending s e);
    sp_stake : stake_of s' st = stake_of s st;
    sp_sum : slash_sum st ev = 0;
    sp_books : same_books (k_stk s) (k_stk s') st;
    sp_valid : st ∈ s_valid (k_stk s') <-> st ∈ s_valid (k_stk s) }.
  Lemma spared_refl s : spared s s [].
  Proof. split; auto. apply same_refl. Qed.
  Lemma spared_trans s s1 s2 e1 e2 : spared s s1 e1 -> spared s1 s2 e2 -> spared s s2 (e1 ++ e2).
  Proof.
    intros [A1 A2 A3 A4 A5 A6] [B1 B2 B3 B4 B5 B6].
    split; [congruence|intros; now rewrite B2|congruence|rewrite slash_sum_app; lia|exact (same_trans _ _ _ _ A5 B5)|tauto].
  Qed.
  Lemma kick_valid x k e w now sp d k' e' sp' d' : w <> st -> kick x k e w now sp d = (k', e', sp', d') ->
    (st ∈ s_valid k' <-> st ∈ s_valid k).
  Proof.
    intros N. unfold kick. destruct (end_span now sp). intros H. injection H as <- _ _ _. cbn. set_solver.
  Qed.
  Lemma fetch_valid k w wd k0 sp : fetch_spans k w wd = (k0, sp) -> s_valid k0 = s_valid k.
  Proof. unfold fetch_spans. destruct (_ !! w); intros H; now injection H as <- _. Qed.
  Lemma update_valid k w sp f era own k1 sp1 d df rw t : update_span k w sp f era own = (k1, sp1, d, df, rw, t) -> s_valid k1 = s_valid k.
  Proof.
    unfold update_span. destruct (era_span sp era); [|intros H; now injection H as <- _]. destruct (default (0, 0) _). cbn zeta.
    destruct (_ <? _); [|destruct (_ =? own)]; cbn [orb]; try destruct (negb _); intros H; now injection H as <- _.
  Qed.
  Lemma close_valid k w wd d sp : s_valid (close_spans k w wd d sp) = s_valid k.
  Proof. unfold close_spans. destruct d; [|auto]. now destruct (prune wd sp). Qed.
  Lemma compute_spared x s w f ex era wd now s' u ev :
    w <> st -> compute_slash x s w f ex era wd now = (s', u, ev) -> spared s s' ev.
  Proof.
    intros N H. assert (N' : st <> w) by congruence. destruct (compute_queue _ _ _ _ _ _ _ _ _ _ _ H) as (Q & Eb & El & Z & _).
    destruct (compute_rest _ _ _ _ _ _ _ _ _ _ _ H) as [_ Ep].
    split; [exact Ep| | |exact (Z st)| |].
    - intros e. unfold pending. now rewrite (f_equal fst Q : s_unapp (k_stk s') = s_unapp (k_stk s)).
    - unfold stake_of. now rewrite Eb, El.
    - revert H. unfold compute_slash. destruct (_ =? 0).
      { intros [= <- _ _]. unfold kick_out. destruct (fetch_spans _ _ _) as [k0 sp] eqn:E0.
        pose proof (fetch_other _ _ _ _ _ st N' E0) as F0. destruct (era_span _ _); [|exact F0]. destruct (_ =? _); [|exact F0].
        destruct (kick _ _ _ _ _ _ _) as [[[k1 e1] sp1] d] eqn:E1. apply (kick_other _ _ _ _ _ _ _ _ _ _ _ st) in E1.
        eapply same_trans; [exact F0|]. eapply same_trans; [exact E1|]. now apply close_other. }
      destruct (_ <=? _); [intros [= <- _ _]; apply same_refl|].
      set (k := set_s_in_era (k_stk s) _). destruct (fetch_spans k w wd) as [k0 sp] eqn:E0.
      destruct (update_span _ _ _ _ _ _) as [[[[[k1 sp1] d] df] rw] t] eqn:E1.
      destruct (if bool_decide _ then _ else _) as [[[k2 e2] sp2] d2] eqn:E2. intros H. injection H as <- _ _. cbn [k_stk set_k_era set_k_stk].
      apply (same_trans _ k); [split; reflexivity|].
      eapply same_trans; [exact (fetch_other _ _ _ _ _ _ N' E0)|].
      eapply same_trans; [exact (update_other _ _ _ _ _ _ _ _ _ _ _ _ st N' E1)|].
      eapply same_trans; [|now apply close_other].
      destruct (bool_decide _); [now apply (kick_other _ _ _ _ _ _ _ _ _ _ _ st) in E2|]. injection E2 as <- _ _ _. apply same_refl.
    - revert H. unfold compute_slash. destruct (_ =? 0).
      { intros [= <- _ _]. unfold kick_out. destruct (fetch_spans _ _ _) as [k0 sp] eqn:E0. apply fetch_valid in E0.
        destruct (era_span _ _); [|cbn; now rewrite E0]. destruct (_ =? _); [|cbn; now rewrite E0].
        destruct (kick _ _ _ _ _ _ _) as [[[k1 e1] sp1] d] eqn:E1. apply kick_valid in E1; [|exact N]. cbn. rewrite close_valid, E1. now rewrite E0. }
      destruct (_ <=? _); [intros [= <- _ _]; reflexivity|].
      destruct (fetch_spans _ w wd) as [k0 sp] eqn:E0. apply fetch_valid in E0.
      destruct (update_span _ _ _ _ _ _) as [[[[[k1 sp1] d] df] rw] t] eqn:E1. apply update_valid in E1.
      destruct (if bool_decide _ then _ else _) as [[[k2 e2] sp2] d2] eqn:E2. intros H. injection H as <- _ _. cbn [k_stk set_k_era set_k_stk].
      rewrite close_valid. transitivity (st ∈ s_valid k1); [|rewrite E1, E0; reflexivity].
      destruct (bool_decide _); [now apply kick_valid in E2|]. injection E2 as <- _ _ _. reflexivity.
  Qed.
  Lemma apply_slash_spared x s u s' ev : pairs (k_stk s) -> u_val u <> st -> apply_slash cfg x s u = (s', ev) ->
    spared s s' ev /\ pairs (k_stk s').
  Proof.
    intros P N H. destruct (apply_slash_stake cfg _ _ _ _ _ st P H) as (P' & Q & S1 & S2).
    assert (Za : against st [u] = []) by (unfold against; cbn; destruct (N.eqb_spec (u_val u) st); [contradiction|reflexivity]).
    rewrite Za in S1. cbn in S1. split; [|exact P']. split.
    - eapply Proofs_Staking19.apply_slash_par; exact H.
    - intros e. unfold pending. now rewrite (f_equal fst Q : s_unapp (k_stk s') = s_unapp (k_stk s)).
    - exact S1.
    - unfold total_of in S2. rewrite S1 in S2. lia.
    - unfold apply_slash in H. destruct (do_slash _ _ _ _ _ _) as [[[s1 pay] got] e1] eqn:E. injection H as <- _.
      cbn [k_stk set_k_bank]. rewrite credit_fold_stk. unfold do_slash in E.
      destruct (s_bonded (k_stk s) !! u_val u); [|injection E as <- _ _ _; apply same_refl].
      destruct (s_ledger (k_stk s) !! n); [|injection E as <- _ _ _; apply same_refl].
      destruct (slash_ledger _ _ _) as [l' v]. destruct (v =? 0); [injection E as <- _ _ _; apply same_refl|].
      destruct (cslash _ _ _ _ _) as [[b g] ms]. injection E as <- _ _ _. unfold update_ledger, set_lock.
      cbn [k_stk set_k_stk set_k_bank]. destruct (_ =? 0); split; reflexivity.
    - unfold apply_slash in H. destruct (do_slash _ _ _ _ _ _) as [[[s1 pay] got] e1] eqn:E. injection H as <- _.
      cbn [k_stk set_k_bank]. rewrite credit_fold_stk. unfold do_slash in E.
      destruct (s_bonded (k_stk s) !! u_val u); [|injection E as <- _ _ _; reflexivity].
      destruct (s_ledger (k_stk s) !! n); [|injection E as <- _ _ _; reflexivity].
      destruct (slash_ledger _ _ _) as [l' v]. destruct (v =? 0); [injection E as <- _ _ _; reflexivity|].
      destruct (cslash _ _ _ _ _) as [[b g] ms]. injection E as <- _ _ _. unfold update_ledger, set_lock.
      cbn [k_stk set_k_stk set_k_bank]. destruct (_ =? 0); reflexivity.
  Qed.
  Lemma offender_spared x era wd now s ev0 o s' ev' :
    pairs (k_stk s) -> st ∈ p_invul (k_par s) -> offender1 cfg x era wd now (s, ev0) o = (s', ev') ->
    exists ev, ev' = ev0 ++ ev /\ spared s s' ev /\ pairs (k_stk s').
  Proof.
    destruct o as [[[w ex] reps] fr]. intros P Hi. unfold offender1.
    destruct (bool_decide (w ∈ p_invul (k_par s))) eqn:Ew.
    { intros H. injection H as <- <-. exists []. rewrite app_nil_r. split; [reflexivity|]. split; [apply spared_refl|exact P]. }
    apply bool_decide_eq_false in Ew. assert (N : w <> st) by (intros ->; contradiction).
    destruct (compute_slash _ _ _ _ _ _ _ _) as [[s1 u] e1] eqn:E. pose proof (compute_spared _ _ _ _ _ _ _ _ _ _ _ N E) as S1.
    destruct (compute_queue _ _ _ _ _ _ _ _ _ _ _ E) as (_ & Eb & El & _ & U).
    assert (P1 : pairs (k_stk s1)) by (unfold pairs in *; rewrite Eb, El; exact P).
    destruct u as [u|]; [|intros H; injection H as <- <-; exists e1; auto]. destruct U as [U _].
    destruct (_ =? 0).
    - destruct (apply_slash _ _ _ _) as [s2 e2] eqn:E2. intros H. injection H as <- <-. exists (e1 ++ e2).
      assert (Nu : u_val u <> st) by (rewrite U; exact N). apply apply_slash_spared in E2 as [S2 P2]; [|exact P1|exact Nu]. rewrite ?app_assoc.
      split; [reflexivity|]. split; [exact (spared_trans _ _ _ _ _ S1 S2)|exact P2].
    - intros H. injection H as <- <-. exists e1. split; [reflexivity|]. split; [|exact P1].
      destruct S1 as [A1 A2 A3 A4 A5 A6]. split; auto.
      intros e. rewrite <- A2. unfold pending. cbn. destruct (decide (e = now)) as [->|Ne].
      + rewrite lookup_insert. cbn [default from_option]. unfold id at 1.
        assert (Za : forall l u', u_val u' = w -> against st (l ++ [u']) = against st l).
        { intros l u' Eu. rewrite against_app. unfold against at 2. cbn. rewrite Eu.
          destruct (N.eqb_spec w st); [contradiction|]. apply app_nil_r. }
        now apply Za.
      + now rewrite lookup_insert_ne by auto.
  Qed.
  Lemma offenders_spared x era wd now : forall os s ev0 s' ev',
    pairs (k_stk s) -> st ∈ p_invul (k_par s) -> fold_left (offender1 cfg x era wd now) os (s, ev0) = (s', ev') ->
    exists ev, ev' = ev0 ++ ev /\ spared s s' ev.
  Proof.
    induction os as [|o os IH]; intros s ev0 s' ev' P Hi H; cbn [fold_left] in H.
    { injection H as <- <-. exists []. rewrite app_nil_r. split; [reflexivity|apply spared_refl]. }
    destruct (offender1 _ _ _ _ _ _ o) as [s1 e1] eqn:E. destruct (offender_spared _ _ _ _ _ _ _ _ _ P Hi E) as (f1 & -> & S1 & P1).
    destruct (IH _ _ _ _ P1 ltac:(rewrite (sp_par _ _ _ S1); exact Hi) H) as (f2 & -> & S2).
    exists (f1 ++ f2). rewrite app_assoc. split; [reflexivity|exact (spared_trans _ _ _ _ _ S1 S2)].
  Qed.
  Lemma offence_spared x s os i s' ev :
    pairs (k_stk s) -> st ∈ p_invul (k_par s) -> on_offence cfg x s os i = (s', ev) -> spared s s' ev.
  Proof.
    intros P Hi. unfold on_offence. destruct (e_act (k_era s)) as [[act b]|]; [|intros [= <- <-]; apply spared_refl].
    destruct (slash_era _ _ _); [|intros [= <- <-]; apply spared_refl]. intros H.
    apply offenders_spared in H as (ev1 & -> & S).
    - cbn [app]. destruct S as [A1 A2 A3 A4 A5 A6]. destruct (s_first (k_stk s)); split; auto.
    - destruct (s_first (k_stk s)); exact P.
    - exact Hi.
  Qed.

  (** ** Histories *)
  Lemma fits_act s : fits cfg s -> act s + 2 < two32.
  Proof. intros (_ & _ & _ & F). unfold act. destruct (e_act _) as [[? ?]|]; [auto|reflexivity]. Qed.
  Definition clear (s : kstate) : Prop := forall e, against st (pending s e) = [].
  Lemma without_sub {A} (idx : list N) : forall (l : list A) i u, u ∈ without i idx l -> u ∈ l.
  Proof.
    induction l as [|a l IH]; intros i u H; [exact H|]. cbn [without] in H. destruct (bool_decide _).
    - right. eauto.
    - apply elem_of_cons in H as [->|H]; [left|right; eauto].
  Qed.
  Lemma remove_sub : forall idx (l l' : list uslash) r u, remove_at l idx r = Some l' -> u ∈ l' -> u ∈ l.
  Proof.
    induction idx as [|i idx IH]; intros l l' r u H Hu; cbn [remove_at] in H; [injection H as <-; exact Hu|].
    cbn zeta in H. destruct (_ <? _); [|discriminate]. apply (IH _ _ _ _ H) in Hu. apply elem_of_app in Hu as [Hu|Hu].
    - eapply elem_of_take in Hu as (? & Hu & _). eapply elem_of_list_lookup_2; exact Hu.
    - apply elem_of_list_lookup in Hu as (j & Hu). rewrite lookup_drop in Hu. eapply elem_of_list_lookup_2; exact Hu.
  Qed.
  Lemma against_none l : against st l = [] <-> forall u, u ∈ l -> u_val u <> st.
  Proof.
    unfold against. split.
    - intros H u Hu E. apply elem_of_list_In in Hu. assert (Hf : In (u_own u) (map u_own (List.filter (fun u => u_val u =? st) l))).
      { apply in_map, filter_In. split; [exact Hu|]. now apply N.eqb_eq. }
      rewrite H in Hf. destruct Hf.
    - intros H. induction l as [|u l IH]; [reflexivity|]. cbn. destruct (N.eqb_spec (u_val u) st) as [E|E].
      + destruct (H u); [left|exact E].
      + apply IH. intros v Hv. apply H. now right.
  Qed.
  Lemma ripe_clear s a : clear s -> against st (ripe cfg s a) = [].
  Proof.
    intros C. apply against_none. intros u Hu. unfold ripe in Hu. apply elem_of_list_In, in_concat in Hu as (l & Hl & Hu).
    apply in_map_iff in Hl as (i & <- & _). apply elem_of_list_In in Hu. exact (proj1 (against_none _) (C _) u Hu).
  Qed.
  Lemma step_clear s op s' out :
    fits cfg s -> linv (view s) -> qinv s -> kstep cfg s op = (s', out) ->
    match op with KOffence _ _ _ => st ∈ p_invul (k_par s) | _ => True end -> clear s -> clear s'.
  Proof.
    intros F I Q H X C.
    destruct op as [x o c|x| |i|x i|x i|a|x os i|b];
      try (now (intros e; unfold pending; rewrite (f_equal fst (step_queue cfg _ _ _ _ H ltac:(repeat split; discriminate)) : s_unapp (k_stk s') = s_unapp (k_stk s)); apply C)).
    - destruct (match o, c with Root, KCancel _ _ => true | _, _ => false end) eqn:Ec.
      + destruct o; try discriminate. destruct c; try discriminate. cbn in H.
        destruct (Model_Staking.cancel (k_stk s) era l) as [k| |] eqn:E; cbn in H; injection H as <- _; try exact C.
        unfold Model_Staking.cancel in E. inv_bind E. inv_bind E. inv_bind E. destruct (remove_at _ _ _) as [l'|] eqn:Er; [|discriminate].
        injection E as <-. intros e. unfold pending. cbn. destruct (decide (e = era)) as [->|Ne].
        * rewrite lookup_insert. cbn. apply against_none. intros u Hu. apply (remove_sub _ _ _ _ _ Er) in Hu.
          exact (proj1 (against_none _) (C era) u Hu).
        * rewrite lookup_insert_ne by auto. apply C.
      + assert (U : untouched (KCall x o c)) by (split; [discriminate|split; [discriminate|]]; intros ? ? ? E; injection E as -> -> ->; discriminate).
        intros e. unfold pending. rewrite (f_equal fst (step_queue cfg _ _ _ _ H U) : s_unapp (k_stk s') = s_unapp (k_stk s)). apply C.
    - cbn [kstep] in H. destruct (start_session cfg x s i) as [s1 ev] eqn:E. cbn in H. injection H as <- _.
      destruct (start_stake cfg _ _ _ _ _ (linv_pairs _ I) Q (fits_act _ F) E) as [[-> _]|(a & _ & _ & W & _)]; [exact C|].
      intros e. rewrite W. destruct (_ <? _); [reflexivity|apply C].
    - cbn [kstep] in H. destruct (on_offence cfg x s os i) as [s1 ev] eqn:E. cbn in H. injection H as <- _.
      intros e. rewrite (sp_wait _ _ _ (offence_spared _ _ _ _ _ _ (linv_pairs _ I) X E)). apply C.
  Qed.
  Lemma step_unslashed s op s' ev :
    fits cfg s -> linv (view s) -> qinv s -> kstep cfg s op = (s', KDone ev) -> clear s ->
    match op with
    | KOffence _ _ _ => st ∈ p_invul (k_par s) -> slash_sum st ev = 0
    | KStartSession _ _ => slash_sum st ev = 0 /\ stake_of s' st = stake_of s st
    | _ => True
    end.
  Proof.
    intros F I Q H C. destruct op as [x o c|x| |i|x i|x i|a|x os i|b]; auto.
    - cbn [kstep] in H. destruct (start_session cfg x s i) as [s1 ev1] eqn:E. cbn in H. injection H as <- <-.
      destruct (start_stake cfg _ _ _ _ _ (linv_pairs _ I) Q (fits_act _ F) E) as [[-> ->]|(a & _ & _ & _ & W & T & _)]; [auto|].
      specialize (W st). rewrite (ripe_clear _ _ C) in W. cbn in W. split; [|exact W].
      specialize (T st). unfold total_of in T. rewrite W in T. lia.
    - intros X. cbn [kstep] in H. destruct (on_offence cfg x s os i) as [s1 ev1] eqn:E. cbn in H. injection H as <- <-.
      exact (sp_sum _ _ _ (offence_spared _ _ _ _ _ _ (linv_pairs _ I) X E)).
  Qed.
  Lemma run_unslashed : forall h s,
    sane cfg s h -> linv (view s) -> qinv s -> clear s -> shielded cfg st s h ->
    clear (krun cfg s h) /\ slashed_over cfg st s h = 0.
  Proof.
    induction h as [|op h IH]; intros s [F S] I Q C Sh; [auto|]. destruct S as [T S]. destruct Sh as [X Sh]. cbn [krun slashed_over].
    destruct (kstep cfg s op) as [s1 out] eqn:E. cbn [fst snd] in *.
    destruct (IH s1 S ltac:(eapply step_linv; eauto) ltac:(eapply step_qinv; eauto) (step_clear _ _ _ _ F I Q E X C) Sh) as [A B].
    split; [exact A|]. rewrite B, N.add_0_r.
    destruct out as [ev| |]; [pose proof (step_unslashed _ _ _ _ F I Q E C) as U| |]; destruct op; rewrite ?E; try reflexivity; [exact (proj1 U)|exact (U X)].
  Qed.
  Lemma genesis_clear b p : clear (kgenesis b p).
  Proof. intros e. unfold pending. cbn. now rewrite lookup_empty. Qed.
End model.
