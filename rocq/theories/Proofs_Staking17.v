(** Reward points of an era: lemmas for property C96. *)
From Verif Require Import Base Balances Model_StakingLedger Model_Staking Spec_Staking Spec_Staking2
  Proofs_Arith Proofs_StakingLedger Proofs_Staking Proofs_Staking2 Proofs_Staking6 Proofs_Staking12 Proofs_Staking16.
From stdpp Require Import gmap.
Open Scope N_scope.

Section model.
  Context (cfg : kcfg).
  Local Notation pts s := (e_points (k_era s)).

  (** The era that [new_era] would plan. *)
  Definition planned (s : kstate) : N := match e_cur (k_era s) with Some c => add32 c 1 | None => 0 end.
  (** A step forgets the points of these eras only. *)
  Definition forgets (s s' : kstate) (e : N) : Prop :=
    (add32 (p_depth (k_par s)) 1 <= planned s /\ e = planned s - add32 (p_depth (k_par s)) 1) \/
    (exists c, e_cur (k_era s) = Some c /\ e < ssub c (p_depth (k_par s'))).

  Lemma clear_points e a b i : e_points (clear_eras e a b) !! i = if decide (keep_out a b i) then e_points e !! i else None.
  Proof.
    cbn. destruct (decide (keep_out a b i)) as [K|K].
    - destruct (e_points e !! i) as [v|] eqn:E.
      + apply map_filter_lookup_Some. auto.
      + apply map_filter_lookup_None. auto.
    - apply map_filter_lookup_None. right. intros v _. exact K.
  Qed.

  Lemma new_session_points s i s' ev : new_session cfg s i = (s', ev) -> forall e,
    pts s' !! e = pts s !! e \/ (pts s' !! e = None /\ forgets s s' e).
  Proof.
    assert (G : forall s0, pts s0 = pts s -> e_cur (k_era s0) = e_cur (k_era s) -> k_par s0 = k_par s ->
      new_era cfg s0 i = (s', ev) -> forall e, pts s' !! e = pts s !! e \/ (pts s' !! e = None /\ forgets s s' e)).
    { intros s0 P C Q H e. unfold new_era in H. cbn zeta in H. fold (planned s0) in H.
      set (e2 := if _ <=? _ then _ else _) in H.
      destruct (elect cfg (set_k_era s0 e2) (planned s0)) as [s1 o] eqn:E.
      assert (K : pts s1 = e_points e2).
      { unfold elect in E. cbn zeta in E. destruct (_ <? _); injection E as <- _; auto. }
      assert (K' : pts s' = e_points e2) by (destruct o as [l|]; injection H as <- <-; exact K).
      rewrite K'. unfold e2. clear - P C Q. destruct (N.leb_spec (add32 (p_depth (k_par s0)) 1) (planned s0)) as [L|L].
      - rewrite clear_points. destruct (decide _) as [D|D]; [left; cbn; now rewrite P|]. right. split; [auto|]. left.
        unfold planned in *. rewrite C, Q in *. split; [auto|]. unfold keep_out in D. lia.
      - left. cbn. now rewrite P. }
    unfold new_session. destruct (e_cur (k_era s)) eqn:Ec; [|apply (G s); auto].
    destruct (e_force (k_era s)).
    - destruct (_ <=? _); [apply (G s); auto|intros H e; injection H as <- <-; auto].
    - apply G; auto.
    - intros H e; injection H as <- <-; auto.
    - apply (G s); auto.
  Qed.

  Lemma compute_points x s st f ex era w now s' u ev :
    compute_slash x s st f ex era w now = (s', u, ev) -> pts s' = pts s.
  Proof.
    assert (N : forall e, e_points (ensure_new_era e) = e_points e) by (intros e; unfold ensure_new_era; now destruct (e_force e)).
    unfold compute_slash. intros H. destruct (_ =? 0).
    { injection H as <- _ _. unfold kick_out. destruct (fetch_spans _ _ _).
      destruct (era_span _ _); [|auto]. destruct (_ =? _); [|auto]. destruct (kick _ _ _ _ _ _ _) as [[[? e'] ?] ?] eqn:K.
      cbn. unfold kick in K. destruct (end_span _ _); destruct (kx_disable _ _); injection K as _ <- _ _; now rewrite ?N. }
    destruct (_ <=? _); [injection H as <- _ _; auto|].
    destruct (fetch_spans _ _ _). destruct (update_span _ _ _ _ _ _) as [[[[[? ?] ?] ?] ?] t].
    destruct (if bool_decide _ then _ else _) as [[[? e'] ?] ?] eqn:K. injection H as <- _ _. cbn.
    unfold kick in K. destruct (bool_decide _); [destruct (end_span _ _); destruct (kx_disable _ _)|]; injection K as _ <- _ _; now rewrite ?N.
  Qed.
  Lemma on_offence_points x s os i s' ev : on_offence cfg x s os i = (s', ev) -> pts s' = pts s.
  Proof.
    unfold on_offence. destruct (e_act (k_era s)) as [[a b]|]; [|intros H; now injection H as <- _].
    destruct (slash_era _ _ _) as [era|]; [|intros H; now injection H as <- _].
    cbn zeta. set (s0 := set_k_stk s _). change (k_era s) with (k_era s0). generalize (@nil kev) at 1. generalize s0.
    clear. induction os as [|o os IH]; intros s ev0 H; cbn [fold_left] in H.
    { now injection H as <- _. }
    destruct (offender1 _ _ _ _ _ _ o) as [s1 e1] eqn:E1 in H. rewrite (IH _ _ H). clear IH H.
    destruct o as [[[st0 ex] reps] frac]. cbn [offender1] in E1.
    destruct (bool_decide _); [now injection E1 as <- _|].
    destruct (compute_slash _ _ _ _ _ _ _ _) as [[s3 u] e3] eqn:E3. apply compute_points in E3.
    destruct u as [u|]; [|now injection E1 as <- _].
    destruct (_ =? 0); [|now injection E1 as <- _].
    destruct (apply_slash _ _ _ _) as [s4 e4] eqn:E4. injection E1 as <- _.
    apply apply_slash_same in E4 as [_ E4]. now rewrite E4.
  Qed.
  Lemma start_session_points x s i s' ev : start_session cfg x s i = (s', ev) -> pts s' = pts s.
  Proof.
    unfold start_session. intros E. destruct (e_start _ !! _); [|injection E as <- <-; auto].
    destruct (_ <=? _); [|injection E as <- <-; auto].
    unfold start_era, apply_unapplied in E. cbn zeta in E. cbn [k_stk set_k_era set_k_stk s_first set_s_in_era] in E.
    destruct (s_first (k_stk s)); [|injection E as <- <-; auto].
    destruct (apply_eras _ _ _ _ _) as [s2 e1] eqn:E1. injection E as <- <-.
    apply apply_eras_same in E1 as [_ E1]. cbn in E1 |- *. now rewrite E1.
  Qed.

  Lemma step_points s op s' out :
    kstep cfg s op = (s', out) -> authors op = false ->
    forall e, pts s' !! e = pts s !! e \/ (pts s' !! e = None /\ forgets s s' e).
  Proof.
    intros H Na. destruct op as [x o c|x| |i|x i|x i|a|x os i|b]; cbn [kstep] in H; try discriminate Na.
    - destruct (dispatch cfg x s o c) as [[s1 ev]|er|] eqn:E; cbn [settle] in H; injection H as <- <-; auto.
      apply call_points in E as [[[f A] _]|(v & -> & A & c & B & C)]; intros e; [left; now rewrite A|].
      rewrite C, clear_points. destruct (decide _) as [D|D]; [auto|]. right. split; [auto|]. right. exists c. split; [auto|].
      rewrite A. cbn. unfold keep_out in D. lia.
    - destruct (on_initialize cfg x s) as [[s1 ev]|er|] eqn:E; cbn [settle] in H; injection H as <- <-; auto.
      apply init_pool in E as [_ E]. rewrite E. auto.
    - injection H as <- _. unfold on_finalize. destruct (e_act _) as [[? []]|]; auto.
    - destruct (new_session _ _ _) as [s1 ev] eqn:E. cbn in H. injection H as <- <-. exact (new_session_points _ _ _ _ E).
    - destruct (start_session _ _ _ _) as [s1 ev] eqn:E. cbn in H. injection H as <- <-. apply start_session_points in E as ->. auto.
    - destruct (end_session _ _ _ _) as [s1 ev] eqn:E. cbn in H. injection H as <- <-. apply end_session_same in E as [_ ->]. auto.
    - destruct (on_offence _ _ _ _ _) as [s1 ev] eqn:E. cbn in H. injection H as <- <-. apply on_offence_points in E as ->. auto.
    - injection H as <- _. auto.
  Qed.
  Lemma author_points s a : match active_era s with
    | None => kstep cfg s (KAuthor a) = (s, KDone [])
    | Some e => exists s', kstep cfg s (KAuthor a) = (s', KDone []) /\ active_era s' = Some e /\
        (forall i, i <> e -> pts s' !! i = pts s !! i) /\
        all_points s' e = add32 (all_points s e) 20 /\
        (forall v, points_of s' e v = if v =? a then add32 (points_of s e v) 20 else points_of s e v)
    end.
  Proof.
    unfold active_era, kstep, note_author. destruct (e_act (k_era s)) as [[e b]|] eqn:Ea; cbn; [|auto].
    unfold all_points, points_of. destruct (default (0, ∅) (pts s !! e)) as [t m] eqn:Ed. eexists. split; [reflexivity|].
    cbn. rewrite Ea, lookup_insert. cbn. repeat split.
    - intros i Hi. now rewrite lookup_insert_ne by auto.
    - intros v. destruct (N.eqb_spec v a) as [->|Hv]; [now rewrite lookup_insert|now rewrite lookup_insert_ne by auto].
  Qed.
  Lemma step_active s op s' out :
    kstep cfg s op = (s', out) ->
    active_era s' = active_era s \/
    (exists x i, op = KStartSession x i) /\ active_era s' = Some (match active_era s with Some i => add32 i 1 | None => 0 end).
  Proof.
    unfold active_era.
    intros H. destruct op as [x o c|x| |i|x i|x i|a|x os i|b]; cbn [kstep] in H.
    - left. destruct (dispatch cfg x s o c) as [[s1 ev]|er|] eqn:E; cbn [settle] in H; injection H as <- <-; auto.
      apply call_books in E as [-> _]. auto.
    - left. destruct (on_initialize cfg x s) as [[s1 ev]|er|] eqn:E; cbn [settle] in H; injection H as <- <-; auto.
      apply init_pool in E as [_ E]. now rewrite E.
    - left. injection H as <- _. unfold on_finalize. destruct (e_act (k_era s)) as [[? []]|] eqn:E; cbn; rewrite ?E; auto.
    - left. destruct (new_session _ _ _) as [s1 ev] eqn:E. cbn in H. injection H as <- <-. now rewrite (new_session_act _ _ _ _ _ E).
    - destruct (start_session _ _ _ _) as [s1 ev] eqn:E. cbn in H. injection H as <- <-. apply start_session_same in E as [_ [-> | ->]]; [auto|].
      right. split; [eauto|]. cbn. now destruct (e_act (k_era s)) as [[? ?]|].
    - left. destruct (end_session _ _ _ _) as [s1 ev] eqn:E. cbn in H. injection H as <- <-. apply end_session_same in E as [_ ->]. auto.
    - left. pose proof (author_points s a) as P. unfold active_era in P. destruct (e_act (k_era s)) as [[e b]|] eqn:Ea; cbn in P.
      + destruct P as (s1 & P & Q & _). cbn [kstep] in P. injection H as <- _. injection P as ->. rewrite Q. auto.
      + cbn [kstep] in P. injection H as <- _. injection P as ->. now rewrite Ea.
    - left. destruct (on_offence _ _ _ _ _) as [s1 ev] eqn:E. cbn in H. injection H as <- <-. now rewrite (on_offence_act _ _ _ _ _ _ _ E).
    - left. injection H as <- _. auto.
  Qed.

  (** Eras that have not started have no points. *)
  Definition unscored (s : kstate) : Prop :=
    forall e, (forall a, active_era s = Some a -> a < e) -> pts s !! e = None.
  Lemma step_unscored s op s' out : kstep cfg s op = (s', out) -> fits cfg s -> unscored s -> unscored s'.
  Proof.
    intros H (_ & _ & _ & F) U e He.
    assert (Up : forall a, active_era s = Some a -> a < e).
    { intros a Ea. destruct (step_active _ _ _ _ H) as [E|[_ E]]; [apply He; congruence|].
      rewrite Ea in E. specialize (He _ E). unfold active_era in Ea. destruct (e_act (k_era s)) as [[? ?]|]; [|discriminate].
      injection Ea as ->. rewrite add32_exact in He by lia. lia. }
    destruct (authors op) eqn:A.
    - destruct op; try discriminate. pose proof (author_points s a) as P. destruct (active_era s) as [i|] eqn:Ea.
      + destruct P as (s1 & P & _ & Q & _). rewrite P in H. injection H as <- _. specialize (Up i eq_refl).
        rewrite Q by lia. apply U. rewrite Ea. intros ? [= <-]. lia.
      + rewrite P in H. injection H as <- _. apply U. rewrite Ea. discriminate.
    - destruct (step_points _ _ _ _ H A e) as [E|[E _]]; rewrite E; [|auto]. apply U. exact Up.
  Qed.
  Lemma run_unscored : forall h s, sane cfg s h -> unscored s -> unscored (krun cfg s h).
  Proof.
    induction h as [|op h IH]; intros s [F S] U; [exact U|]. destruct S as [_ S]. apply (IH _ S).
    destruct (kstep cfg s op) as [s1 o] eqn:E. exact (step_unscored _ _ _ _ E F U).
  Qed.
  Lemma genesis_unscored b p : unscored (kgenesis b p).
  Proof. intros e _. reflexivity. Qed.

  (** While era [e] is active its points only grow, by 20 for each block. *)
  Lemma working_step e s op s' out :
    kstep cfg s op = (s', out) -> authors op = false -> working e s -> working e s' -> cur_era s + 1 < two32 ->
    pts s' !! e = pts s !! e.
  Proof.
    intros H A (W1 & W2 & W3) (V1 & V2 & V3) Hc.
    assert (Wd : p_depth (k_par s) + 1 < two32) by (unfold two32; lia).
    destruct (step_points _ _ _ _ H A e) as [E|[_ [[F1 F2]|(c & F1 & F2)]]]; [auto| |].
    - exfalso. unfold planned, cur_era in *. destruct (e_cur (k_era s)) as [c|]; cbn in *.
      + assert (p_depth (k_par s) + 1 < two32) by exact Wd.
        assert (c + 1 < two32) by exact Hc. rewrite (add32_exact c 1 ltac:(assumption)) in F1, F2.
        rewrite (add32_exact (p_depth (k_par s)) 1 ltac:(assumption)) in F1, F2. lia.
      + rewrite (add32_exact (p_depth (k_par s)) 1 Wd) in F1. lia.
    - exfalso. unfold cur_era, ssub in *. rewrite F1 in *. cbn in *. lia.
  Qed.
  Lemma working_run e : forall h s,
    throughout cfg (working e) s h -> sane cfg s h ->
    all_points s e + 20 * blocks h < two32 -> (forall v, points_of s e v <= all_points s e) ->
    all_points (krun cfg s h) e = all_points s e + 20 * blocks h /\
    forall v, points_of (krun cfg s h) e v = points_of s e v + 20 * authored v h.
  Proof.
    induction h as [|op h IH]; intros s [T1 T2] [F S] B P.
    { unfold blocks, authored. cbn. split; [lia|intros; lia]. }
    destruct T1 as [W T1]. cbn [krun] in *. destruct S as [_ S].
    destruct (kstep cfg s op) as [s1 o] eqn:E. cbn [fst] in *.
    assert (W1 : working e s1) by (destruct h; [exact T2|exact (proj1 T1)]).
    assert (T : throughout cfg (working e) s1 h) by (split; auto).
    destruct (authors op) eqn:A.
    - destruct op; try discriminate. pose proof (author_points s a) as Q. rewrite (proj1 W) in Q.
      destruct Q as (s2 & Q & _ & _ & Q1 & Q2). rewrite Q in E. injection E as -> <-.
      assert (Eb : blocks (KAuthor a :: h) = blocks h + 1) by (unfold blocks; cbn; lia). rewrite Eb in *.
      rewrite add32_exact in Q1 by lia.
      assert (Q3 : forall v, points_of s1 e v = points_of s e v + if v =? a then 20 else 0).
      { intros v. rewrite Q2. specialize (P v). destruct (v =? a); [apply add32_exact; lia|lia]. }
      destruct (IH _ T S) as [I1 I2].
      + rewrite Q1. lia.
      + intros v. rewrite Q1, Q3. specialize (P v). destruct (v =? a); lia.
      + split; [rewrite I1, Q1; lia|]. intros v. rewrite I2, Q3. unfold authored. cbn [List.filter is_author].
        rewrite (N.eqb_sym a v). destruct (v =? a); cbn [length]; lia.
    - assert (K : pts s1 !! e = pts s !! e).
      { apply (working_step e s op s1 o E A W W1). destruct F as (_ & _ & F & _). lia. }
      assert (Eb : blocks (op :: h) = blocks h) by (unfold blocks; cbn; now rewrite A).
      assert (Ea : forall v, authored v (op :: h) = authored v h) by (intros v; unfold authored; cbn; destruct op; try reflexivity; discriminate).
      assert (K1 : all_points s1 e = all_points s e) by (unfold all_points; now rewrite K).
      assert (K2 : forall v, points_of s1 e v = points_of s e v) by (intros; unfold points_of; now rewrite K).
      rewrite Eb in *. destruct (IH _ T S) as [I1 I2]; [lia|intros v; rewrite K1, K2; auto|].
      split; [congruence|]. intros v. now rewrite I2, K2, Ea.
  Qed.
  Lemma start_scored s x i s1 out e :
    kstep cfg s (KStartSession x i) = (s1, out) -> fits cfg s -> unscored s ->
    active_era s <> Some e -> active_era s1 = Some e ->
    all_points s1 e = 0 /\ forall v, points_of s1 e v = 0.
  Proof.
    intros H F U N1 N2. assert (E : pts s1 !! e = None).
    { destruct (step_active _ _ _ _ H) as [E|[_ E]]; [congruence|].
      destruct (step_points _ _ _ _ H eq_refl e) as [P|[P _]]; rewrite P; [|auto]. apply U. intros a Ea. rewrite Ea, N2 in E.
      destruct F as (_ & _ & _ & F). unfold active_era in Ea. destruct (e_act (k_era s)) as [[? ?]|]; [|discriminate]. injection Ea as ->.
      rewrite add32_exact in E by lia. injection E as ->. lia. }
    unfold all_points, points_of. rewrite E. cbn. split; [auto|]. intros v. now rewrite lookup_empty.
  Qed.
  Lemma run_tally : forall h s, tally (k_era s) -> always cfg (small_points cfg) s h -> tally (k_era (krun cfg s h)).
  Proof.
    induction h as [|op h IH]; intros s T B; [exact T|]. destruct B as [B1 B2]. exact (IH _ (proj2 (step_pool cfg s op T B1)) B2).
  Qed.
  Lemma tally_points s e v : tally (k_era s) -> points_of s e v <= all_points s e.
  Proof.
    intros [T _]. unfold points_of, all_points. destruct (pts s !! e) as [[t m]|] eqn:E; cbn; [|rewrite lookup_empty; cbn; lia].
    specialize (T _ _ _ E). destruct (m !! v) as [z|] eqn:Ez; cbn; [|lia].
    pose proof (msum_le (fun _ v => v) m v z Ez) as L. cbn in L. lia.
  Qed.
End model.
