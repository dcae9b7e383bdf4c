(** Proofs for property C203. *)
From Verif Require Import Base Balances Model_StakingLedger Model_Staking Spec_Staking Proofs_Arith Proofs_Staking Proofs_Staking7 Spec_Counts.
From Verif Require Import Proofs_Staking2 Proofs_Staking3 Proofs_Staking5 Proofs_Staking6 Proofs_Staking12 Proofs_Staking14 Proofs_Reporter3.
From Verif Require Proofs_Staking22 Proofs_Tips.
From stdpp Require Import gmap sorting.
Open Scope N_scope.

Definition counts (s : kstate) : N * N := (p_count (k_par s), p_min (k_par s)).
Definition same_counts (s : kstate) : N * N := (p_count (k_par s), p_min (k_par s)).
Definition counts_after (s : kstate) (op : kop) : N * N :=
  match op with
  | KCall _ Root (KSetCount v) => (v, p_min (k_par s))
  | KCall _ Root (KSetMin v) => (p_count (k_par s), v)
  | KCall _ Root (KIncCount v) => (add32 (p_count (k_par s)) v, p_min (k_par s))
  | KCall _ Root (KScaleCount f) => (add32 (p_count (k_par s)) (frac_mul f PERCENT (p_count (k_par s))), p_min (k_par s))
  | _ => same_counts s
  end.

Section model.
  Context (cfg : kcfg).
  Local Notation ed := (kc_ed cfg).
  Lemma call_counts x s o c s' ev : dispatch cfg x s o c = ROk (s', ev) -> counts s' = counts_after s (KCall x o c).
  Proof.
    intros H. unfold counts, counts_after, same_counts.
    assert (upd : forall s c l, k_par (update_ledger cfg x s c l) = k_par s) by (intros; apply update_ledger_par).
    assert (kill : forall st0 n s1, unstake cfg x s st0 n = ROk s1 -> k_par s1 = k_par s).
    { intros st0 n s1 E. unfold unstake in E. inv_bind E. now injection E as <-. }
    destruct c; cbn [dispatch] in H; unfold admin, controlled, signed, root, quiet, with_par, with_del, with_stk in H;
      try (destruct o; try discriminate H; []);
      repeat match type of H with rbind (ensure _ _) _ = _ => inv_bind H end;
      try (injection H as <- <-; reflexivity).
    - unfold staking_delegate in H. inv_bind H. inv_bind H.
      destruct (kx_level x who); [|discriminate]. inv_bind H.
      destruct (kx_dpr x who !! N.to_nat level); [|discriminate].
      destruct (kx_dpr x who !! N.to_nat n); [|discriminate].
      destruct (transfer_keep _ _ _ _ _); [|discriminate]. inv_bind H. now injection H as <- <-.
    - unfold usdt_delegate in H. inv_bind H. inv_bind H. destruct v as [cur rest].
      destruct (0 <? _); [inv_bind H|]; now injection H as <- <-.
    - inv_bind H. injection H as <- <-. unfold bond in E.
      repeat match type of E with rbind (ensure _ _) _ = _ => inv_bind E end.
      injection E as <-. now rewrite upd.
    - inv_bind H. injection H as <- <-. unfold bond_extra in E.
      destruct (s_bonded (k_stk s) !! who) as [c|] eqn:Eb; [|discriminate].
      destruct (s_ledger (k_stk s) !! c) as [l|] eqn:El; [|discriminate].
      destruct (_ <? _); [now injection E as <-|].
      inv_bind E. injection E as <-. now rewrite upd.
    - unfold unbond in H. destruct (s_ledger (k_stk s) !! who) as [l|] eqn:El; [|discriminate].
      inv_bind H. destruct (_ =? 0) eqn:Ez; [now injection H as <- <-|].
      match type of H with context [let '(_, _) := ?e in _] => destruct e end. injection H as <- <-. now rewrite upd.
    - unfold withdraw_unbonded in H. destruct (s_ledger (k_stk s) !! who) as [l0|] eqn:El; [|discriminate].
      destruct (bool_decide _ && _) eqn:Ek in H.
      + inv_bind H. injection H as <- <-. now rewrite (kill _ _ _ E).
      + injection H as <- <-. now rewrite upd.
    - destruct (s_ledger _ !! _); [|discriminate]. now injection H as <- <-.
    - destruct (s_ledger _ !! _); [|discriminate]. now injection H as <- <-.
    - destruct (s_ledger _ !! _); [|discriminate]. now injection H as <- <-.
    - inv_bind H. now injection H as <- <-.
    - inv_bind H. injection H as <- <-. now rewrite (kill _ _ _ E).
    - inv_bind H. now injection H as <- <-.
    - inv_bind H. injection H as <- <-. unfold do_rebond in E.
      destruct (s_ledger (k_stk s) !! who) as [l|] eqn:El; [|discriminate].
      inv_bind E. inv_bind E. injection E as <-. now rewrite upd.
    - destruct (e_cur (k_era s)) as [e|] eqn:Ec; now injection H as <- <-.
    - inv_bind H. injection H as <- <-. rewrite (kill _ _ _ E0). now destruct o.
    - inv_bind H. now injection H as <- <-.
    - injection H as <- <-. assert (G : forall l s, k_par (fold_left undelegate_in l s) = k_par s).
      { induction l0; intros s0; cbn; auto. now rewrite IHl0. }
      now rewrite G.
    - unfold compensate in H. inv_bind H. destruct (Model_Operation.mint _ _ _ _). now injection H as <- <-.
    - inv_bind H. now injection H as <- <-.
    - unfold npow_mint in H. inv_bind H. destruct (Model_Operation.mint _ _ _ _). now injection H as <- <-.
    - unfold validator_burn in H. destruct (s_ledger (k_stk s) !! who) as [l|] eqn:El; [|discriminate].
      cbn zeta in H. destruct (slash_ledger v ed l) as [l' am] eqn:Es.
      destruct (cslash _ _ _ _ _) as [[b g] m]. injection H as <- <-. now rewrite upd.
  Qed.
  Lemma step_counts s op s' out : kstep cfg s op = (s', out) -> (exists ev, out = KDone ev) -> counts s' = counts_after s op.
  Proof.
    intros H [ev0 ->]. destruct op as [x o c|x| |i|x i|x i|a|x os i|b]; cbn [kstep] in H.
    - destruct (dispatch cfg x s o c) as [[s1 ev]|er|] eqn:E; cbn [settle] in H; try discriminate H; injection H as <- _.
      eapply call_counts; eauto.
    - destruct (on_initialize cfg x s) as [[s1 ev]|er|] eqn:E; cbn [settle] in H; try discriminate H; injection H as <- _.
      unfold counts, counts_after, same_counts. unfold on_initialize in E. destruct (0 <? _); [|now injection E as <- _].
      destruct (_ =? 0).
      + destruct (_ =? 0); [discriminate || (now injection E as <- _)|discriminate || (now injection E as <- _)].
      + unfold pay_delegators in E. destruct (_ =? 0); [now injection E as <- _|].
        destruct (pay_loop _ _ _ _ _ _ _) as [[[[s3 p3] l3] c3] e3] eqn:E3. injection E as <- _. cbn.
        apply pay_loop_par in E3. now rewrite E3.
    - injection H as <- _. unfold counts, counts_after, same_counts, on_finalize. now destruct (e_act (k_era s)) as [[? []]|].
    - destruct (new_session _ _ _) as [s1 ev] eqn:E. cbn in H. injection H as <- _. unfold counts, counts_after, same_counts.
      apply Proofs_Staking22.new_session_spec in E as (_ & _ & -> & _). reflexivity.
    - destruct (start_session _ _ _ _) as [s1 ev] eqn:E. cbn in H. injection H as <- _. unfold counts, counts_after, same_counts.
      unfold start_session in E. destruct (_ !! _); [|now injection E as <- _].
      destruct (_ <=? i); [|now injection E as <- _]. unfold start_era in E. cbn zeta in E.
      unfold apply_unapplied in E. cbn zeta in E. destruct (s_first _); [|now injection E as <- _].
      destruct (apply_eras _ _ _ _ _) as [s2 e2] eqn:E2. injection E as <- _. apply apply_eras_par in E2. cbn in *. now rewrite E2.
    - destruct (end_session _ _ _ _) as [s1 ev] eqn:E. cbn in H. injection H as <- _. unfold counts, counts_after, same_counts.
      unfold end_session in E. destruct (e_act (k_era s)) as [[? ?]|]; [|now injection E as <- _].
      destruct (_ !! _); [|now injection E as <- _]. destruct (_ && _); [|now injection E as <- _].
      unfold pay_validators in E. destruct (_ =? 0); [now injection E as <- _|].
      destruct (pay_each _ _ _ _ _ _ _) as [[s2 t2] e2] eqn:E2. injection E as <- _. apply pay_each_par in E2. cbn. now rewrite E2.
    - injection H as <- _. unfold counts, counts_after, same_counts, note_author. destruct (e_act (k_era s)) as [[? ?]|]; [|auto]. now destruct (default _ _).
    - destruct (on_offence _ _ _ _ _) as [s1 ev] eqn:E. cbn in H. injection H as <- _. unfold counts, counts_after, same_counts.
      apply Proofs_Staking22.on_offence_jolt in E as [_ ->]. reflexivity.
    - injection H as <- _. reflexivity.
  Qed.


  Lemma step_sound s op : wise s op -> sound_counts s -> sound_counts (kstep cfg s op).1.
  Proof.
    intros W [S1 S2]. destruct (kstep cfg s op) as [s' out] eqn:E. cbn [fst].
    assert (K : out = KPanic \/ (exists e, out = KFail e) \/ exists ev, out = KDone ev) by (destruct out; eauto).
    assert (F : (forall ev, out <> KDone ev) -> s' = s).
    { intros Nd. destruct op; cbn [kstep] in E; unfold settle in E;
        repeat match type of E with context [match ?e with _ => _ end] => destruct e end;
        injection E as <- <-; try reflexivity; exfalso; eapply Nd; reflexivity. }
    assert (G : (forall ev, out <> KDone ev) -> sound_counts s') by (intros Nd; rewrite (F Nd); split; assumption).
    destruct K as [->|[[e ->]|D]]; [apply G; discriminate|apply G; discriminate|].
    apply step_counts in E; [|exact D]. unfold sound_counts. unfold counts in E.
    assert (E1 : p_count (k_par s') = (counts_after s op).1) by now rewrite <- E.
    assert (E2 : p_min (k_par s') = (counts_after s op).2) by now rewrite <- E.
    rewrite E1, E2. clear - W S1 S2. unfold counts_after, same_counts.
    destruct op as [x o c|x| |i|x i|x i|a|x os i|b]; try (cbn; lia).
    destruct o; try (destruct c; cbn; lia). destruct c; cbn [fst snd wise] in *; try (cbn; lia).
    - unfold add32, w32. change two32 with (2 ^ 32). rewrite N.mod_small by lia. lia.
    - destruct W as [W1 W2]. pose proof (frac_mul_le percent PERCENT (p_count (k_par s)) ltac:(discriminate) W1).
      unfold add32, w32. change two32 with (2 ^ 32). rewrite N.mod_small by lia. lia.
  Qed.
  Lemma run_sound : forall h s, all_wise cfg s h -> sound_counts s -> sound_counts (krun cfg s h).
  Proof.
    induction h as [|op h IH]; intros s W S; [exact S|]. destruct W as [W1 W2]. exact (IH _ W2 (step_sound _ _ W1 S)).
  Qed.

  (** ** Elections *)
  Lemma filter_perm {A} (f : A -> bool) (l l' : list A) : l ≡ₚ l' -> List.filter f l ≡ₚ List.filter f l'.
  Proof.
    induction 1 as [|a l l' H IH|a b l|l l1 l2 H1 IH1 H2 IH2]; cbn; [reflexivity| | |now rewrite IH1].
    - destruct (f a); [now constructor|exact IH].
    - destruct (f a), (f b); try reflexivity. constructor.
  Qed.
  Lemma elect_size s era s' o : elect cfg s era = (s', o) ->
    match o with
    | Some l => N.of_nat (length l) = N.min (p_count (k_par s)) (N.of_nat (length (standing s))) /\
                N.max (p_min (k_par s)) 1 <= N.of_nat (length (standing s))
    | None => N.of_nat (length (standing s)) < N.max (p_min (k_par s)) 1
    end.
  Proof.
    unfold elect. cbn zeta.
    assert (L : length (List.filter (trusted (k_par s)) (validators_in_order cfg (k_stk s))) = length (standing s)).
    { unfold standing, validators_in_order. apply Permutation_length. rewrite (filter_perm _ _ _ (sorting.merge_sort_Permutation _ _)).
      erewrite filter_ext; [reflexivity|]. intros v. unfold trusted. apply orb_comm. }
    rewrite map_length, L. destruct (N.ltb_spec (N.of_nat (length (standing s))) (N.max (p_min (k_par s)) 1)); intros [= <- <-]; [assumption|].
    split; [|assumption]. rewrite map_length, take_length, rsort_perm, map_length, L. lia.
  Qed.
  Lemma session_size s i s' ev era l : new_session cfg s i = (s', ev) -> KElected era l ∈ ev ->
    N.of_nat (length l) = N.min (p_count (k_par s)) (N.of_nat (length (standing s))) /\
    N.max (p_min (k_par s)) 1 <= N.of_nat (length (standing s)).
  Proof.
    intros H Hin.
    assert (G : forall s0, k_stk s0 = k_stk s -> k_par s0 = k_par s -> new_era cfg s0 i = (s', ev) ->
      N.of_nat (length l) = N.min (p_count (k_par s)) (N.of_nat (length (standing s))) /\
      N.max (p_min (k_par s)) 1 <= N.of_nat (length (standing s))).
    { intros s0 Es Ep E. unfold new_era in E. cbn zeta in E. destruct (elect _ _ _) as [s1 [l1|]] eqn:Ee.
      - apply elect_size in Ee. cbn in Ee. unfold standing in Ee. cbn in Ee. rewrite Es, Ep in Ee.
        injection E as _ <-. apply elem_of_list_singleton in Hin. injection Hin as _ ->. exact Ee.
      - injection E as _ <-. now apply elem_of_nil in Hin. }
    unfold new_session in H. destruct (e_cur (k_era s)) as [e|]; [|now apply (G s)]. cbn zeta in H.
    destruct (e_force (k_era s)); try (now apply (G s)); try (injection H as _ <-; now apply elem_of_nil in Hin).
    - destruct (_ <=? _); [now apply (G s)|injection H as _ <-; now apply elem_of_nil in Hin].
    - eapply G; [| |exact H]; reflexivity.
  Qed.
End model.
