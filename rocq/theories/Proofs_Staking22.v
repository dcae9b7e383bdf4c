(** Sessions and eras: lemmas for properties C136-C139. *)
From Verif Require Import Base Balances Model_StakingLedger Model_Staking Spec_Staking Spec_Staking2 Spec_Staking4
  Proofs_Arith Proofs_StakingLedger Proofs_Staking Proofs_Staking2 Proofs_Staking6 Proofs_Staking12 Proofs_Staking16
  Proofs_Staking17.
From stdpp Require Import gmap.
Open Scope N_scope.

Lemma force_same e : set_e_force e (e_force e) = e.
Proof. now destruct e. Qed.
Lemma force_twice e f g : set_e_force (set_e_force e f) g = set_e_force e g.
Proof. reflexivity. Qed.

Section model.
  Context (cfg : kcfg).

  (** ** What a report does to the eras *)
  Definition jolt (b : Prop) (e e' : eras) : Prop :=
    e' = e \/ (b /\ e' = set_e_force e ForceNew /\ (e_force e = NotForcing \/ e_force e = ForceNone)).
  Lemma jolt_new e : jolt True e (ensure_new_era e).
  Proof. unfold jolt, ensure_new_era. destruct (e_force e); auto. Qed.
  Lemma jolt_mono (b c : Prop) e e' : (b -> c) -> jolt b e e' -> jolt c e e'.
  Proof. intros K [H|(A & B)]; [left; auto|right; auto]. Qed.
  Lemma jolt_trans b e1 e2 e3 : jolt b e1 e2 -> jolt b e2 e3 -> jolt b e1 e3.
  Proof.
    intros [->|(A & -> & C)] [->|(A' & -> & C')]; [left; auto|right; auto|right; auto|].
    destruct C' as [C'|C']; discriminate.
  Qed.
  Lemma kick_jolt x k e st now sp d k' e' sp' d' :
    kick x k e st now sp d = (k', e', sp', d') -> jolt (kx_disable x st = true) e e'.
  Proof.
    unfold kick. destruct (end_span now sp). destruct (kx_disable x st); intros H; injection H as _ <- _ _.
    - eapply jolt_mono; [|apply jolt_new]. auto.
    - left; auto.
  Qed.
  Lemma compute_jolt x s st f ex era w now s' u ev :
    compute_slash x s st f ex era w now = (s', u, ev) -> jolt (kx_disable x st = true) (k_era s) (k_era s').
  Proof.
    unfold compute_slash. intros H. destruct (_ =? 0).
    { injection H as <- _ _. unfold kick_out. destruct (fetch_spans _ _ _).
      destruct (era_span _ _); [|left; auto]. destruct (_ =? _); [|left; auto].
      destruct (kick _ _ _ _ _ _ _) as [[[? e'] ?] ?] eqn:K. apply kick_jolt in K. exact K. }
    destruct (_ <=? _); [injection H as <- _ _; left; auto|].
    destruct (fetch_spans _ _ _). destruct (update_span _ _ _ _ _ _) as [[[[[? ?] ?] ?] ?] t].
    destruct (if bool_decide _ then _ else _) as [[[? e'] ?] ?] eqn:K. injection H as <- _ _. cbn.
    destruct (bool_decide _); [now apply kick_jolt in K|]. injection K as _ <- _ _. left; auto.
  Qed.
  Lemma on_offence_jolt x s os i s' ev : on_offence cfg x s os i = (s', ev) ->
    jolt (exists st ex reps f, (st, ex, reps, f) ∈ os /\ kx_disable x st = true) (k_era s) (k_era s') /\ k_par s' = k_par s.
  Proof.
    unfold on_offence. destruct (e_act (k_era s)) as [[a b]|]; [|intros H; injection H as <- _; split; [left|]; auto].
    destruct (slash_era _ _ _) as [era|]; [|intros H; injection H as <- _; split; [left|]; auto].
    cbn zeta. set (s0 := set_k_stk s _). change (k_era s) with (k_era s0). change (k_par s) with (k_par s0).
    generalize (@nil kev) at 1. generalize s0.
    clear. induction os as [|o os IH]; intros s ev0 H; cbn [fold_left] in H.
    { injection H as <- _. split; [left|]; auto. }
    destruct (offender1 _ _ _ _ _ _ o) as [s1 e1] eqn:E1 in H. destruct (IH _ _ H) as [I1 I2]. clear IH H.
    assert (G : jolt (exists st ex reps f, o = (st, ex, reps, f) /\ kx_disable x st = true) (k_era s) (k_era s1) /\ k_par s1 = k_par s).
    { destruct o as [[[st0 ex] reps] frac]. cbn [offender1] in E1.
      destruct (bool_decide _); [injection E1 as <- _; split; [left|]; auto|].
      destruct (compute_slash _ _ _ _ _ _ _ _) as [[s3 u] e3] eqn:E3.
      assert (P3 : k_par s3 = k_par s).
      { clear - E3. unfold compute_slash in E3. destruct (_ =? 0).
        { injection E3 as <- _ _. unfold kick_out. destruct (fetch_spans _ _ _).
          destruct (era_span _ _); [|auto]. destruct (_ =? _); [|auto]. destruct (kick _ _ _ _ _ _ _) as [[[? e'] ?] ?]. auto. }
        destruct (_ <=? _); [injection E3 as <- _ _; auto|].
        destruct (fetch_spans _ _ _). destruct (update_span _ _ _ _ _ _) as [[[[[? ?] ?] ?] ?] t].
        destruct (if bool_decide _ then _ else _) as [[[? e'] ?] ?]. injection E3 as <- _ _. auto. }
      apply compute_jolt in E3.
      assert (G : jolt (exists st ex0 reps0 f, (st0, ex, reps, frac) = (st, ex0, reps0, f) /\ kx_disable x st = true) (k_era s) (k_era s3)).
      { eapply jolt_mono; [|exact E3]. intros D. exists st0, ex, reps, frac. auto. }
      destruct u as [u|]; [|injection E1 as <- _; auto].
      destruct (_ =? 0); [|injection E1 as <- _; auto].
      destruct (apply_slash _ _ _ _) as [s4 e4] eqn:E4. injection E1 as <- _.
      pose proof (apply_slash_same cfg _ _ _ _ _ E4) as [_ Q].
      assert (P4 : k_par s4 = k_par s3).
      { clear - E4. unfold apply_slash in E4. destruct (do_slash _ _ _ _ _ _) as [[[s1 p1] g1] e1] eqn:E. injection E4 as <- _.
        cbn. assert (F : forall l s, k_par (fold_left (credit_slash x) l s) = k_par s).
        { induction l as [|d l IH]; intros s; cbn; auto. rewrite IH. unfold credit_slash. now destruct (kx_pass x d). }
        rewrite F. unfold do_slash in E. destruct (s_bonded _ !! _) as [c|]; [|injection E as <- _; auto].
        destruct (s_ledger _ !! c); [|injection E as <- _; auto]. destruct (slash_ledger _ _ _). destruct (_ =? 0); [injection E as <- _; auto|].
        destruct (cslash _ _ _ _ _) as [[? ?] ?]. injection E as <- _. now rewrite update_ledger_par. }
      rewrite Q, P4. auto. }
    destruct G as [G1 G2]. split; [|congruence]. eapply jolt_trans; [eapply jolt_mono; [|exact G1]|eapply jolt_mono; [|exact I1]].
    - intros (st & ex & reps & f & -> & D). exists st, ex, reps, f. split; [left|auto].
    - intros (st & ex & reps & f & A & D). exists st, ex, reps, f. split; [right; auto|auto].
  Qed.

  (** ** Steps that neither plan nor start a session *)
  Definition plain (op : kop) : Prop := match op with KNewSession _ | KStartSession _ _ => False | _ => True end.
  (** What old eras lose when history is cut. *)
  Definition cut {A} (lim : N) (m m' : gmap N A) : Prop :=
    forall k, m' !! k = m !! k \/ (m' !! k = None /\ k < lim).
  Lemma cut_refl {A} lim (m : gmap N A) : cut lim m m.
  Proof. intros k. auto. Qed.
  Lemma cut_filter {A} (a b : N) (m : gmap N A) : cut b m (filter (fun p : N * A => keep_out a b p.1) m).
  Proof.
    intros k. destruct (decide (keep_out a b k)) as [K|K].
    - left. destruct (m !! k) as [v|] eqn:E.
      + apply map_filter_lookup_Some. auto.
      + apply map_filter_lookup_None. auto.
    - right. split; [|unfold keep_out in K; lia]. apply map_filter_lookup_None. right. intros v _. exact K.
  Qed.
  Definition bound (s s' : kstate) : N := default 0 (e_cur (k_era s)) - p_depth (k_par s').
  Lemma bystander s op s' out : kstep cfg s op = (s', out) -> plain op ->
    e_cur (k_era s') = e_cur (k_era s) /\ e_bonded (k_era s') = e_bonded (k_era s) /\
    e_act (k_era s') = (match op with KFinal => (fun p => (p.1, true)) <$> e_act (k_era s) | _ => e_act (k_era s) end) /\
    cut (bound s s') (e_start (k_era s)) (e_start (k_era s')) /\
    cut (bound s s') (e_vals (k_era s)) (e_vals (k_era s')) /\
    (mode s' = mode s \/ meddles op /\ (mode s' = ForceNew \/ exists x, op = KCall x Root (KForce (mode s')))).
  Proof.
    assert (R : forall s s', k_era s' = k_era s -> out = out ->
      e_cur (k_era s') = e_cur (k_era s) /\ e_bonded (k_era s') = e_bonded (k_era s) /\
      e_act (k_era s') = e_act (k_era s) /\
      cut (bound s s') (e_start (k_era s)) (e_start (k_era s')) /\
      cut (bound s s') (e_vals (k_era s)) (e_vals (k_era s')) /\
      (mode s' = mode s \/ meddles op /\ (mode s' = ForceNew \/ exists x, op = KCall x Root (KForce (mode s'))))).
    { intros a b E _. unfold mode. rewrite E. auto 10 using cut_refl. }
    intros H P. destruct op as [x o c|x| |i|x i|x i|a|x os i|b]; cbn [kstep] in H; try contradiction P.
    - destruct (dispatch cfg x s o c) as [[s1 ev]|er|] eqn:E; cbn [settle] in H; injection H as <- <-; [|now apply R..].
      apply call_forced in E as [[(f & A & F) B]|(v & -> & B & e & C & A)].
      + unfold mode. rewrite A. cbn. repeat split; auto using cut_refl. destruct F as [->|[-> ->]]; [auto|]. right. split; [exact I|]. right. eauto.
      + unfold mode, bound. rewrite A, B, C. cbn. repeat split; auto; apply cut_filter.
    - destruct (on_initialize cfg x s) as [[s1 ev]|er|] eqn:E; cbn [settle] in H; injection H as <- <-; [|now apply R..].
      apply init_pool in E as [_ E]. now apply R.
    - injection H as <- _. unfold on_finalize, mode. destruct (e_act (k_era s)) as [[? []]|] eqn:E; cbn; rewrite ?E; cbn; auto 10 using cut_refl.
    - destruct (end_session _ _ _ _) as [s1 ev] eqn:E. cbn in H. injection H as <- <-. apply end_session_same in E as [_ E]. now apply R.
    - injection H as <- _. unfold note_author, mode. destruct (e_act (k_era s)) as [[? ?]|] eqn:E; [|rewrite E; auto 10 using cut_refl].
      destruct (default _ _). cbn. rewrite E. auto 10 using cut_refl.
    - destruct (on_offence _ _ _ _ _) as [s1 ev] eqn:E. cbn in H. injection H as <- <-.
      apply on_offence_jolt in E as [[E|(A & E & F)] B]; [now apply R|]. unfold mode. rewrite E. cbn. auto 10 using cut_refl.
    - injection H as <- _. now apply R.
  Qed.

  (** ** Planning a session *)
  Lemma new_era_spec s i s' ev : new_era cfg s i = (s', ev) ->
    e_cur (k_era s') = Some (planned s) /\ e_bonded (k_era s') = e_bonded (k_era s) /\ e_act (k_era s') = e_act (k_era s) /\
    k_par s' = k_par s /\ mode s' = mode s /\
    (kept s -> planned s < two32 ->
       cut (planned s - 1) (<[planned s := i]> (e_start (k_era s))) (e_start (k_era s')) /\
       exists o, ev = match o with Some l => [KElected (planned s) l] | None => [] end /\
         cut (planned s - 1) (match o with Some l => <[planned s := l]> (e_vals (k_era s)) | None => e_vals (k_era s) end) (e_vals (k_era s'))).
  Proof.
    unfold new_era. cbn zeta. fold (planned s). set (e2 := if _ <=? _ then _ else _).
    assert (E2 : e_cur e2 = Some (planned s) /\ e_bonded e2 = e_bonded (k_era s) /\ e_act e2 = e_act (k_era s) /\ e_force e2 = e_force (k_era s)).
    { unfold e2. now destruct (_ <=? _). }
    assert (C2 : kept s -> planned s < two32 -> cut (planned s - 1) (<[planned s := i]> (e_start (k_era s))) (e_start e2) /\
      cut (planned s - 1) (e_vals (k_era s)) (e_vals e2)).
    { intros [K1 K2] L. unfold e2. rewrite add32_exact by (change two32 with (2 ^ 32); lia).
      destruct (N.leb_spec (p_depth (k_par s) + 1) (planned s)) as [D|D]; [|split; apply cut_refl].
      split; intros k; [destruct (cut_filter (planned s - (p_depth (k_par s) + 1)) (planned s - (p_depth (k_par s) + 1) + 1) (<[planned s := i]> (e_start (k_era s))) k) as [A|[A B]]
        |destruct (cut_filter (planned s - (p_depth (k_par s) + 1)) (planned s - (p_depth (k_par s) + 1) + 1) (e_vals (k_era s)) k) as [A|[A B]]]; cbn;
        [left; exact A|right; split; [exact A|lia]|left; exact A|right; split; [exact A|lia]]. }
    clearbody e2. destruct (elect cfg (set_k_era s e2) (planned s)) as [s1 o] eqn:E. intros H.
    assert (Q : e_cur (k_era s1) = e_cur e2 /\ e_bonded (k_era s1) = e_bonded e2 /\ e_act (k_era s1) = e_act e2 /\ e_force (k_era s1) = e_force e2 /\
      e_start (k_era s1) = e_start e2 /\ e_vals (k_era s1) = e_vals e2 /\ k_par s1 = k_par s).
    { unfold elect in E. cbn zeta in E. destruct (_ <? _); injection E as <- _; auto 10. }
    destruct Q as (Q1 & Q2 & Q3 & Q4 & Q5 & Q6 & Q7). destruct E2 as (A1 & A2 & A3 & A4). unfold mode.
    destruct o as [l|]; injection H as <- <-; cbn; rewrite ?Q1, ?Q2, ?Q3, ?Q4, ?Q5, ?Q6, ?Q7;
      do 5 (split; [auto|]); intros K L; destruct (C2 K L) as [B1 B2]; (split; [exact B1|]).
    - exists (Some l). split; [auto|]. intros k. destruct (decide (k = planned s)) as [->|Nk]; [left; now rewrite !lookup_insert|].
      rewrite !lookup_insert_ne by auto. apply B2.
    - exists None. auto.
  Qed.
  Lemma new_session_spec s i s' ev : new_session cfg s i = (s', ev) ->
    e_bonded (k_era s') = e_bonded (k_era s) /\ e_act (k_era s') = e_act (k_era s) /\ k_par s' = k_par s /\
    ((s' = s /\ ev = [] /\ exists c, e_cur (k_era s) = Some c /\
        (mode s = ForceNone \/ (mode s = NotForcing /\ i - default 0 (e_start (k_era s) !! c) < kc_sessions cfg))) \/
     (e_cur (k_era s') = Some (planned s) /\
      (e_cur (k_era s) = None /\ mode s' = mode s \/
       exists c, e_cur (k_era s) = Some c /\
         (mode s = ForceNew /\ mode s' = NotForcing \/ mode s = ForceAlways /\ mode s' = ForceAlways \/
          mode s = NotForcing /\ mode s' = NotForcing /\ kc_sessions cfg <= i - default 0 (e_start (k_era s) !! c))) /\
      (kept s -> planned s < two32 ->
       cut (planned s - 1) (<[planned s := i]> (e_start (k_era s))) (e_start (k_era s')) /\
       exists o, ev = match o with Some l => [KElected (planned s) l] | None => [] end /\
         cut (planned s - 1) (match o with Some l => <[planned s := l]> (e_vals (k_era s)) | None => e_vals (k_era s) end) (e_vals (k_era s'))))).
  Proof.
    unfold new_session. destruct (e_cur (k_era s)) as [c|] eqn:Ec.
    2:{ intros H. apply new_era_spec in H as (A & B & C & D & E & F). repeat split; auto. right. rewrite A. auto. }
    unfold mode at 1 2 4 5 6. destruct (e_force (k_era s)) eqn:Ef.
    - unfold ssub. destruct (N.leb_spec (kc_sessions cfg) (i - default 0 (e_start (k_era s) !! c))) as [L|L]; intros H.
      + apply new_era_spec in H as (A & B & C & D & E & F). repeat split; auto. right. rewrite A. split; [auto|]. split; [|auto].
        right. exists c. split; [auto|]. right. right. rewrite E. auto.
      + injection H as <- <-. repeat split; auto. left. repeat split; auto. exists c. auto.
    - intros H. apply new_era_spec in H as (A & B & C & D & E & F). repeat split; auto. right. split; [exact A|]. split; [|exact F].
      right. exists c. split; [auto|]. left. auto.
    - intros H. injection H as <- <-. repeat split; auto. left. repeat split; auto. exists c. auto.
    - intros H. apply new_era_spec in H as (A & B & C & D & E & F). repeat split; auto. right. rewrite A. split; [auto|]. split; [|auto].
      right. exists c. split; [auto|]. right. left. rewrite E. auto.
  Qed.

  (** ** Starting a session *)
  Fixpoint leading (f : N) (l : list (N * N)) : nat :=
    match l with p :: r => if p.1 <? f then S (leading f r) else O | [] => O end.
  Definition coming (s : kstate) : N := match e_act (k_era s) with Some (i, _) => add32 i 1 | None => 0 end.
  Lemma start_session_spec x s i s' ev : start_session cfg x s i = (s', ev) ->
    let b := e_bonded (k_era s) ++ [(coming s, i)] in
    (s' = s /\ forall k, e_start (k_era s) !! coming s = Some k -> i < k) \/
    ((exists k, e_start (k_era s) !! coming s = Some k /\ k <= i) /\
     k_era s' = set_e_bonded (set_e_act (k_era s) (Some (coming s, false)))
                  (drop (if kc_bonding cfg <? coming s then leading (coming s - kc_bonding cfg) b else 0) b)).
  Proof.
    unfold start_session. fold (coming s). cbn zeta. intros H.
    destruct (e_start (k_era s) !! coming s) as [k|] eqn:Es; [|injection H as <- <-; left; split; [auto|discriminate]].
    destruct (N.leb_spec k i) as [L|L]; [|injection H as <- <-; left; split; [auto|]; intros ? [= <-]; auto].
    right. split; [eauto|]. unfold start_era in H. fold (coming s) in H. cbn zeta in H.
    match type of H with context [drop (length ?g)] => set (gone := g) in H end.
    assert (G : length gone = if kc_bonding cfg <? coming s then leading (coming s - kc_bonding cfg) (e_bonded (k_era s) ++ [(coming s, i)]) else 0%nat).
    { unfold gone. destruct (_ <? _); [|auto]. clear. induction (e_bonded (k_era s) ++ [(coming s, i)]) as [|p r IH]; [auto|]. cbn.
      destruct (_ <? _); [|auto]. cbn. now rewrite IH. }
    rewrite <- G. clearbody gone. clear G. unfold apply_unapplied in H. cbn [k_stk set_k_era set_k_stk s_first set_s_in_era] in H.
    destruct (s_first (k_stk s)); [|injection H as <- <-; auto].
    destruct (apply_eras _ _ _ _ _) as [s1 e1] eqn:E. injection H as <- <-.
    apply apply_eras_same in E as [_ E]. cbn in E |- *. now rewrite E.
  Qed.
End model.
