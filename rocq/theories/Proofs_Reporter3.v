(** All the reports about one slashing span over whole histories: property C197. *)
From Verif Require Import Base Balances Model_StakingLedger Model_Staking Spec_Staking Spec_Staking2 Spec_Reporter Spec_Reporter2
  Proofs_Arith Proofs_StakingLedger Proofs_Staking Proofs_Staking2 Proofs_Staking3 Proofs_Staking5 Proofs_Staking6
  Proofs_Staking12 Proofs_Staking14 Proofs_Staking15 Proofs_Staking16 Proofs_Staking17 Proofs_Staking18 Proofs_Staking19 Proofs_Reporter
  Proofs_Reporter2.
From Verif Require Proofs_Staking22.
From stdpp Require Import gmap.
Open Scope N_scope.

Section model.
  Context (cfg : kcfg).
  Local Notation ed := (kc_ed cfg).

  (** ** Nothing changes the reward fraction *)
  Lemma call_frac x s o c s' ev : dispatch cfg x s o c = ROk (s', ev) -> p_frac (k_par s') = p_frac (k_par s).
  Proof.
    intros H.
    assert (upd : forall s c l, k_par (update_ledger cfg x s c l) = k_par s) by (intros; apply update_ledger_par).
    assert (kill : forall st0 n s1, unstake cfg x s st0 n = ROk s1 -> k_par s1 = k_par s).
    { intros st0 n s1 E. unfold unstake in E. inv_bind E. now injection E as <-. }
    destruct c; cbn [dispatch] in H; unfold admin, controlled, signed, root, quiet, with_par, with_del, with_stk in H;
      try (destruct o; try discriminate H; []);
      repeat match type of H with rbind (ensure _ _) _ = _ => inv_bind H end;
      try (injection H as <- <-; reflexivity).
    - unfold staking_delegate in H. inv_bind H. inv_bind H.
      destruct (kx_level x who); [|discriminate]. inv_bind H.
      destruct (kx_dpr x who !! N.to_nat level); [|discriminate].
      destruct (kx_dpr x who !! N.to_nat n); [|discriminate].
      destruct (transfer_keep _ _ _ _ _); [|discriminate]. inv_bind H. now injection H as <- <-.
    - unfold usdt_delegate in H. inv_bind H. inv_bind H. destruct v as [cur rest].
      destruct (0 <? _); [inv_bind H|]; now injection H as <- <-.
    - inv_bind H. injection H as <- <-. unfold bond in E.
      repeat match type of E with rbind (ensure _ _) _ = _ => inv_bind E end.
      injection E as <-. now rewrite upd.
    - inv_bind H. injection H as <- <-. unfold bond_extra in E.
      destruct (s_bonded (k_stk s) !! who) as [c|] eqn:Eb; [|discriminate].
      destruct (s_ledger (k_stk s) !! c) as [l|] eqn:El; [|discriminate].
      destruct (_ <? _); [now injection E as <-|].
      inv_bind E. injection E as <-. now rewrite upd.
    - unfold unbond in H. destruct (s_ledger (k_stk s) !! who) as [l|] eqn:El; [|discriminate].
      inv_bind H. destruct (_ =? 0) eqn:Ez; [now injection H as <- <-|].
      match type of H with context [let '(_, _) := ?e in _] => destruct e end. injection H as <- <-. now rewrite upd.
    - unfold withdraw_unbonded in H. destruct (s_ledger (k_stk s) !! who) as [l0|] eqn:El; [|discriminate].
      destruct (bool_decide _ && _) eqn:Ek in H.
      + inv_bind H. injection H as <- <-. now rewrite (kill _ _ _ E).
      + injection H as <- <-. now rewrite upd.
    - destruct (s_ledger _ !! _); [|discriminate]. now injection H as <- <-.
    - destruct (s_ledger _ !! _); [|discriminate]. now injection H as <- <-.
    - destruct (s_ledger _ !! _); [|discriminate]. now injection H as <- <-.
    - inv_bind H. now injection H as <- <-.
    - inv_bind H. injection H as <- <-. now rewrite (kill _ _ _ E).
    - inv_bind H. now injection H as <- <-.
    - inv_bind H. injection H as <- <-. unfold do_rebond in E.
      destruct (s_ledger (k_stk s) !! who) as [l|] eqn:El; [|discriminate].
      inv_bind E. inv_bind E. injection E as <-. now rewrite upd.
    - destruct (e_cur (k_era s)) as [e|] eqn:Ec; now injection H as <- <-.
    - inv_bind H. injection H as <- <-. now rewrite (kill _ _ _ E0).
    - inv_bind H. now injection H as <- <-.
    - injection H as <- <-. assert (G : forall l s, k_par (fold_left undelegate_in l s) = k_par s).
      { induction l0; intros s0; cbn; auto. now rewrite IHl0. }
      now rewrite G.
    - unfold compensate in H. inv_bind H. destruct (Model_Operation.mint _ _ _ _). now injection H as <- <-.
    - inv_bind H. now injection H as <- <-.
    - unfold npow_mint in H. inv_bind H. destruct (Model_Operation.mint _ _ _ _). now injection H as <- <-.
    - unfold validator_burn in H. destruct (s_ledger (k_stk s) !! who) as [l|] eqn:El; [|discriminate].
      cbn zeta in H. destruct (slash_ledger v ed l) as [l' am] eqn:Es.
      destruct (cslash _ _ _ _ _) as [[b g] m]. injection H as <- <-. now rewrite upd.
  Qed.
  Lemma pay_delegator_par x s d r pool s1 q e1 : pay_delegator cfg x s d r pool = (s1, q, e1) -> k_par s1 = k_par s.
  Proof.
    unfold pay_delegator. destruct (_ =? _); [congruence|].
    destruct (kx_reward x d _ _); [destruct (Model_Operation.mint _ _ _ _)|]; intros H; now injection H as <-.
  Qed.
  Lemma pay_referer_par s d q p s1 q1 e1 : pay_referer cfg s d q p = (s1, q1, e1) -> k_par s1 = k_par s.
  Proof.
    unfold pay_referer. destruct (d_ref _ !! d); [|congruence].
    destruct (bonus_rate _); [|congruence].
    destruct (Model_Operation.mint _ _ _ _); intros H; now injection H as <-.
  Qed.
  Lemma pay_loop_par x : forall n l s pool last ct s' p' la' c' ev,
    pay_loop cfg x n l s pool last ct = (s', p', la', c', ev) -> k_par s' = k_par s.
  Proof.
    induction n as [|n IH]; intros [|[d r] l] s pool last ct s' p' la' c' ev H; cbn [pay_loop] in H;
      try (now injection H as <-).
    destruct (pay_delegator cfg x s d r pool) as [[s1 q] e1] eqn:E1. apply pay_delegator_par in E1.
    destruct (_ =? 0); [now injection H as <-|].
    destruct (pay_referer cfg s1 d q _) as [[s2 q2] e2] eqn:E2. apply pay_referer_par in E2.
    destruct (_ =? 0); [injection H as <-; congruence|].
    destruct (pay_loop _ _ _ _ _ _ _) as [[[[s3 p3] l3] c3] e3] eqn:E3 in H.
    injection H as <-. apply IH in E3. congruence.
  Qed.
  Lemma payout_par x s st v s' ev : validator_payout cfg x s st v = (s', ev) -> k_par s' = k_par s.
  Proof.
    unfold validator_payout.
    repeat first [destruct (Model_Operation.mint _ _ _ _) | destruct (mint_existing _ _ _) | case_match | cbn zeta];
      intros [= <- _]; rewrite ?update_ledger_par; reflexivity.
  Qed.
  Lemma pay_each_par x pts payout : forall vs s tot s' tot' ev, pay_each cfg x pts payout vs s tot = (s', tot', ev) -> k_par s' = k_par s.
  Proof.
    induction vs as [|v vs IH]; intros s tot s' tot' ev H; cbn [pay_each] in H; [now injection H as <- _|].
    cbn zeta in H. destruct (_ =? 0); [eauto|].
    destruct (validator_payout _ _ _ _ _) as [s1 e1] eqn:E1. destruct (pay_each _ _ _ _ vs s1 _) as [[s2 t2] e2] eqn:E2.
    injection H as <- _. apply payout_par in E1. apply IH in E2. congruence.
  Qed.
  Lemma apply_list_par x : forall l s s' ev, apply_list cfg x l s = (s', ev) -> k_par s' = k_par s.
  Proof.
    induction l as [|u l IH]; intros s s' ev H; cbn in H; [now injection H as <- _|].
    destruct (apply_slash cfg x s u) as [s1 e1] eqn:E1. destruct (apply_list cfg x l s1) as [s2 e2] eqn:E2.
    injection H as <- _. apply apply_slash_par in E1. apply IH in E2. congruence.
  Qed.
  Lemma apply_eras_par x : forall n era s s' ev, apply_eras cfg x n era s = (s', ev) -> k_par s' = k_par s.
  Proof.
    induction n as [|n IH]; intros era s s' ev H; cbn [apply_eras] in H; [now injection H as <- _|].
    cbn zeta in H. destruct (apply_list cfg x _ _) as [s1 e1] eqn:E1.
    destruct (apply_eras cfg x n (era + 1) s1) as [s2 e2] eqn:E2. injection H as <- _.
    apply apply_list_par in E1. apply IH in E2. rewrite E2, E1. reflexivity.
  Qed.
  Lemma step_frac s op s' out : kstep cfg s op = (s', out) -> p_frac (k_par s') = p_frac (k_par s).
  Proof.
    intros H. destruct op as [x o c|x| |i|x i|x i|a|x os i|b]; cbn [kstep] in H.
    - destruct (dispatch cfg x s o c) as [[s1 ev]|er|] eqn:E; cbn [settle] in H; injection H as <- _; auto.
      eapply call_frac; eauto.
    - destruct (on_initialize cfg x s) as [[s1 ev]|er|] eqn:E; cbn [settle] in H; injection H as <- _; auto.
      unfold on_initialize in E. destruct (0 <? _); [|now injection E as <- _].
      destruct (_ =? 0).
      + destruct (_ =? 0); [discriminate || (now injection E as <- _)|discriminate || (now injection E as <- _)].
      + unfold pay_delegators in E. destruct (_ =? 0); [now injection E as <- _|].
        destruct (pay_loop _ _ _ _ _ _ _) as [[[[s3 p3] l3] c3] e3] eqn:E3. injection E as <- _. cbn.
        apply pay_loop_par in E3. now rewrite E3.
    - injection H as <- _. unfold on_finalize. now destruct (e_act (k_era s)) as [[? []]|].
    - destruct (new_session _ _ _) as [s1 ev] eqn:E. cbn in H. injection H as <- _.
      apply Proofs_Staking22.new_session_spec in E as (_ & _ & -> & _). reflexivity.
    - destruct (start_session _ _ _ _) as [s1 ev] eqn:E. cbn in H. injection H as <- _.
      unfold start_session in E. destruct (_ !! _); [|now injection E as <- _].
      destruct (_ <=? i); [|now injection E as <- _]. unfold start_era in E. cbn zeta in E.
      unfold apply_unapplied in E. cbn zeta in E. destruct (s_first _); [|now injection E as <- _].
      destruct (apply_eras _ _ _ _ _) as [s2 e2] eqn:E2. injection E as <- _. apply apply_eras_par in E2. cbn in *. now rewrite E2.
    - destruct (end_session _ _ _ _) as [s1 ev] eqn:E. cbn in H. injection H as <- _.
      unfold end_session in E. destruct (e_act (k_era s)) as [[? ?]|]; [|now injection E as <- _].
      destruct (_ !! _); [|now injection E as <- _]. destruct (_ && _); [|now injection E as <- _].
      unfold pay_validators in E. destruct (_ =? 0); [now injection E as <- _|].
      destruct (pay_each _ _ _ _ _ _ _) as [[s2 t2] e2] eqn:E2. injection E as <- _. apply pay_each_par in E2. cbn. now rewrite E2.
    - injection H as <- _. unfold note_author. destruct (e_act (k_era s)) as [[? ?]|]; [|auto]. now destruct (default _ _).
    - destruct (on_offence _ _ _ _ _) as [s1 ev] eqn:E. cbn in H. injection H as <- _.
      apply Proofs_Staking22.on_offence_jolt in E as [_ ->]. reflexivity.
    - injection H as <- _. reflexivity.
  Qed.

  (** ** Steps other than reports *)
  Lemma step_same s op s' out st :
    kstep cfg s op = (s', out) -> ~ reports op ->
    (is_Some (s_bonded (k_stk s) !! st) -> is_Some (s_bonded (k_stk s') !! st)) ->
    same_books (k_stk s) (k_stk s') st.
  Proof.
    intros H Nr Nd.
    destruct op as [x o c|x| |i|x i|x i|a|x os i|b]; cbn [kstep] in H; try (now destruct (Nr I)).
    - destruct (dispatch cfg x s o c) as [[s1 ev]|er|] eqn:E; cbn [settle] in H; injection H as <- <-; try apply same_refl.
      apply call_books in E as [_ [B|(st0 & B1 & B2 & B3 & B4)]]; [apply (B st)|].
      destruct (decide (st = st0)) as [->|Hne]; [|now apply B1].
      destruct B2 as [B2|B2]; [|auto]. apply Nd in B3. rewrite B4 in B3. now destruct B3.
    - destruct (on_initialize cfg x s) as [[s1 ev]|er|] eqn:E; cbn [settle] in H; injection H as <- <-; try apply same_refl.
      assert (G : k_stk s1 = k_stk s); [|rewrite G; apply same_refl].
      unfold on_initialize in E. destruct (0 <? _); [|now injection E as <- _].
      destruct (_ =? 0).
      + destruct (_ =? 0); [discriminate || (now injection E as <- _)|discriminate || (now injection E as <- _)].
      + unfold pay_delegators in E. destruct (_ =? 0); [now injection E as <- _|].
        destruct (pay_loop _ _ _ _ _ _ _) as [[[[s3 p3] l3] c3] e3] eqn:E3. injection E as <- _. cbn.
        now apply pay_loop_stk in E3.
    - injection H as <- _. unfold on_finalize. destruct (e_act (k_era s)) as [[? []]|]; apply same_refl.
    - destruct (new_session _ _ _) as [s1 ev] eqn:E. cbn in H. injection H as <- <-. rewrite (new_session_stk _ _ _ _ _ E). apply same_refl.
    - destruct (start_session _ _ _ _) as [s1 ev] eqn:E. cbn in H. injection H as <- <-. apply start_session_same in E as [E _]. apply (E st).
    - destruct (end_session _ _ _ _) as [s1 ev] eqn:E. cbn in H. injection H as <- <-. apply end_session_same in E as [E _]. apply (E st).
    - injection H as <- _. unfold note_author. destruct (e_act (k_era s)) as [[? ?]|]; [|apply same_refl]. destruct (default _ _). apply same_refl.
    - injection H as <- _. apply same_refl.
  Qed.
  Lemma step_kept s op s' out : fits cfg s -> kstep cfg s op = (s', out) -> ~ reports op -> kept cfg s -> kept cfg s'.
  Proof.
    intros (_ & _ & _ & Fa) H Nr K. destruct op as [x o c|x| |i|x i|x i|a|x os i|b];
      try (destruct (step_frame _ _ _ _ _ H ltac:(auto) ltac:(auto)) as (A & B & M);
           apply (kept_same _ s); auto; rewrite M; apply (kp_mark _ _ K)).
    - cbn [kstep] in H. destruct (start_session cfg x s i) as [s1 ev1] eqn:E. cbn [settle] in H. injection H as <- <-.
      eapply kept_start; eauto. destruct (e_act (k_era s)) as [[? ?]|]; [lia|auto].
  Qed.

  (** ** Reports *)
  Context (st fr : N) (Hd : kc_defer cfg <> 0) (Hfr : fr <= PERBILL).
  Record vinv (s : kstate) (ev : list kev) (bs : list (N * uslash)) : Prop := {
    vi_books : st_inv (act s) st (k_stk s) ev;
    vi_paid : pinv st (k_stk s) (fun i => vows i bs);
    vi_taken : forall i, taken i bs = charged st i ev;
    vi_le : forall i, vows i bs <= part fr (charged st i ev);
    vi_kept : kept cfg s;
    vi_ok : forall st0, ok_at (act s) st0 (k_stk s);
    vi_frac : p_frac (k_par s) = fr }.
  Lemma vinv_same s s' ev bs : vinv s ev bs -> k_era s' = k_era s -> k_par s' = k_par s -> s_in_era (k_stk s') = s_in_era (k_stk s) ->
    all_same (k_stk s) (k_stk s') -> vinv s' ev bs.
  Proof.
    intros [V1 V2 V3 V4 V5 V6 V7] E P M B.
    assert (A : active_era s' = active_era s) by (unfold active_era; congruence).
    destruct (active_act cfg _ _ A) as [A1 _]. constructor; auto.
    - rewrite A1. eapply same_inv; [apply B|auto].
    - eapply pinv_same; [apply B|auto].
    - apply (kept_same _ s); auto; [congruence|]. rewrite M. apply (kp_mark _ _ V5).
    - intros st0. rewrite A1. specialize (V6 st0). unfold ok_at in *. now rewrite (proj1 (B st0)).
    - congruence.
  Qed.
  Definition tag (j : N) (us : list uslash) : list (N * uslash) :=
    map (fun u => (j, u)) (List.filter (fun u => u_val u =? st) us).
  Lemma tag_app j a b : tag j (a ++ b) = tag j a ++ tag j b.
  Proof. unfold tag. induction a as [|u a IH]; cbn; [auto|]. destruct (_ =? _); cbn; now rewrite IH. Qed.
  Lemma offender_vows x era s o s' ev0 ev' ev bs :
    offender1 cfg x era (window cfg s) (act s) (s, ev0) o = (s', ev') -> act s + 1 < two32 ->
    (let '(_, ex, _, f) := o in x_own ex < two128 /\ f <= PERBILL) ->
    era ∈ map fst (e_bonded (k_era s)) -> vinv s (ev ++ ev0) bs ->
    active_era s' = active_era s /\ e_bonded (k_era s') = e_bonded (k_era s) /\
    kidx (window cfg s) (k_stk s') st era = kidx (window cfg s) (k_stk s) st era /\
    exists new, pending s' (act s) = pending s (act s) ++ new /\
      vinv s' (ev ++ ev') (bs ++ tag (default 0 (kidx (window cfg s) (k_stk s) st era)) new).
  Proof.
    intros H Hn Hx He V.
    pose proof (bonded_in _ _ _ (vi_kept _ _ _ V) He) as Hw.
    assert (Ok' : forall st0, ok_at (act s) st0 (k_stk s')).
    { intros st0. eapply offender_ok; eauto; [apply window_le|apply V]. }
    destruct o as [[[st0 ex] reps] f]. cbn [offender1] in H. destruct Hx as [Hx Hf].
    destruct (bool_decide (st0 ∈ p_invul (k_par s))).
    { injection H as <- <-. repeat (split; [auto|]). exists []. cbn [tag List.filter map]. rewrite !app_nil_r. auto. }
    destruct (compute_slash _ _ _ _ _ _ _ _) as [[s1 u] e1] eqn:E1.
    pose proof (compute_par _ _ _ _ _ _ _ _ _ _ _ E1) as P1.
    pose proof (compute_idx _ _ _ _ _ _ _ _ _ _ _ st era E1 (vi_ok _ _ _ V st0) Hn (window_le cfg s) Hw) as I1.
    destruct (compute_marks _ _ _ _ _ _ _ _ _ _ _ E1 Hn (window_le cfg s) (vi_ok _ _ _ V st0)) as ((g & G) & M). cbn zeta in M.
    pose proof (compute_books _ _ _ _ _ _ _ _ _ _ _ _ st E1 Hn (window_le cfg s) (vi_books _ _ _ V)) as Bk.
    destruct (compute_queue _ _ _ _ _ _ _ _ _ _ _ E1) as (Q & _ & _ & _ & U). injection Q as Qu _.
    destruct (compute_vows (act s) st Hn _ _ _ _ _ _ _ _ _ _ _ _ _ E1 (window_le cfg s) (vi_books _ _ _ V) (vi_paid _ _ _ V)
       (vi_le _ _ _ V) (vi_frac _ _ _ V) Hfr Hf Hx) as (C1 & C2 & C3). cbn zeta in C1, C2, C3.
    set (j := default 0 (kidx (window cfg s) (k_stk s) st era)) in *.
    assert (A : active_era s1 = active_era s) by (unfold active_era; now rewrite G).
    assert (B : e_bonded (k_era s1) = e_bonded (k_era s)) by now rewrite G.
    destruct (active_act cfg _ _ A) as [A1 _].
    assert (K1 : kept cfg s1).
    { apply (kept_same _ s); auto; [|apply V]. intros e st1 m. destruct M as [(_ & M & _)|(M & _)]; rewrite M; [apply (kp_mark _ _ (vi_kept _ _ _ V))|].
      destruct (decide ((era, st0) = (e, st1))) as [Eq|Ne].
      - injection Eq as <- <-. auto.
      - rewrite lookup_insert_ne by auto. apply (kp_mark _ _ (vi_kept _ _ _ V)). }
    assert (Ok1 : forall st1, ok_at (act s) st1 (k_stk s1)).
    { destruct u as [u|]; [|injection H as <- _; exact Ok']. rewrite (proj2 (N.eqb_neq _ _) Hd) in H. injection H as <- _. exact Ok'. }
    set (new := match u with Some u0 => [USlash (u_val u0) (u_own u0) (u_others u0) reps (u_pay u0)] | None => [] end).
    assert (T : forall i, vows i (tag j new) = (if i =? j then mine st st0 u u_pay else 0) /\
                          taken i (tag j new) = (if i =? j then mine st st0 u u_own else 0)).
    { intros i. clearbody j. unfold new, mine, vows, taken, tag. clear - U. destruct u as [u|]; cbn; [|destruct (i =? j); auto].
      destruct U as [-> _]. destruct (st0 =? st); cbn; [|destruct (i =? j); auto].
      rewrite !N.add_0_r, (N.eqb_sym j i). auto. }
    assert (V1 : vinv s1 (ev ++ ev0 ++ e1) (bs ++ tag j new)).
    { rewrite app_assoc. constructor.
      - now rewrite A1.
      - eapply pinv_ext; [|exact C2]. intros i. cbn beta. rewrite vows_app. now rewrite (proj1 (T i)).
      - intros i. rewrite taken_app, charged_app, C1, (proj2 (T i)), (vi_taken _ _ _ V). auto.
      - intros i. rewrite vows_app, (proj1 (T i)). apply C3.
      - auto.
      - now rewrite A1.
      - rewrite P1. apply V. }
    destruct u as [u|].
    2: { injection H as <- <-. repeat (split; [auto|]). exists []. unfold pending. rewrite Qu, app_nil_r. auto. }
    rewrite (proj2 (N.eqb_neq _ _) Hd) in H. injection H as <- <-.
    split; [auto|]. split; [auto|]. split; [auto|]. exists new. split.
    - unfold pending. cbn. rewrite lookup_insert, Qu. reflexivity.
    - apply (vinv_same s1); auto. intros st1. split; reflexivity.
  Qed.
  Lemma offenders_vows x era : forall os s s' ev0 ev' ev bs,
    fold_left (offender1 cfg x era (window cfg s) (act s)) os (s, ev0) = (s', ev') -> act s + 1 < two32 ->
    Forall (fun '(_, ex, _, f) => x_own ex < two128 /\ f <= PERBILL) os ->
    era ∈ map fst (e_bonded (k_era s)) -> vinv s (ev ++ ev0) bs ->
    exists new, pending s' (act s) = pending s (act s) ++ new /\
      vinv s' (ev ++ ev') (bs ++ tag (default 0 (kidx (window cfg s) (k_stk s) st era)) new).
  Proof.
    induction os as [|o os IH]; intros s s' ev0 ev' ev bs H Hn Hx He V; cbn [fold_left] in *.
    { injection H as <- <-. exists []. cbn [tag List.filter map]. rewrite !app_nil_r. auto. }
    destruct (offender1 _ _ _ _ _ _ o) as [s1 e1] eqn:E1 in H. apply Forall_cons in Hx as [Hx1 Hx].
    destruct (offender_vows _ _ _ _ _ _ _ ev bs E1) as (A & B & Kx & n1 & N1 & V1); auto.
    destruct (active_act cfg _ _ A) as [A1 A2].
    rewrite <- A1, <- A2 in H. destruct (IH s1 s' _ _ ev _ H ltac:(now rewrite A1) Hx ltac:(now rewrite B) V1) as (n2 & N2 & V2).
    exists (n1 ++ n2). rewrite A1 in N2. rewrite A2, Kx in V2. split.
    - now rewrite N2, N1, app_assoc.
    - now rewrite tag_app, app_assoc.
  Qed.

  Lemma step_vows s op s' out ev bs :
    fits cfg s -> kstep cfg s op = (s', out) -> fit_report op ->
    (is_Some (s_bonded (k_stk s) !! st) -> is_Some (s_bonded (k_stk s') !! st)) ->
    vinv s ev bs -> vinv s' (ev ++ events [out]) (bs ++ bill cfg s op st).
  Proof.
    intros F H Fr Nd V.
    destruct (reports_dec op) as [R|R].
    - apply step_reports in R as (x & os & session & ->). pose proof H as H0. cbn [kstep] in H.
      destruct (on_offence cfg x s os session) as [s1 ev1] eqn:E. cbn [settle] in H. injection H as <- <-.
      unfold events. cbn [map concat app]. rewrite app_nil_r.
      cbn [bill]. rewrite H0. cbn [fst].
      unfold on_offence in E. destruct (e_act (k_era s)) as [[a b]|] eqn:Ea.
      2: { injection E as <- <-. unfold active_era. rewrite Ea. cbn. now rewrite !app_nil_r. }
      assert (Ac : active_era s = Some a) by (unfold active_era; now rewrite Ea).
      assert (Hr : report_era s session = slash_era (k_era s) a session) by (unfold report_era; now rewrite Ac).
      rewrite Ac, Hr.
      destruct (slash_era (k_era s) a session) as [era|] eqn:Es.
      2: { injection E as <- <-. now rewrite !app_nil_r. }
      cbn zeta in E. set (s0 := set_k_stk s _) in E.
      assert (V0 : vinv s0 ev bs).
      { apply (vinv_same s); auto; unfold s0; cbn; destruct (s_first (k_stk s)); auto using all_refl. intros ?; split; reflexivity. }
      assert (Sp : s_spans (k_stk s0) = s_spans (k_stk s)) by (unfold s0; cbn; now destruct (s_first (k_stk s))).
      assert (Pe : forall e, pending s0 e = pending s e) by (intros e; unfold pending, s0; cbn; now destruct (s_first (k_stk s))).
      assert (He : era ∈ map fst (e_bonded (k_era s))) by (eapply report_in; [apply (vi_kept _ _ _ V)|eauto]).
      assert (Ea' : act s0 = a) by (unfold act; change (k_era s0) with (k_era s); now rewrite Ea).
      assert (Ew : window cfg s0 = ssub a (kc_bonding cfg)) by (rewrite window_act; congruence).
      rewrite <- Ew, <- Ea' in E.
      destruct (offenders_vows x era os s0 s1 [] ev1 ev bs E) as (new & N1 & V1).
      + exact (fits_lt _ _ F).
      + exact Fr.
      + exact He.
      + now rewrite app_nil_r.
      + rewrite Ea', Pe in N1. rewrite N1, drop_app.
        replace (span_at cfg s st era) with (kidx (window cfg s0) (k_stk s0) st era); [exact V1|].
        unfold kidx, idx, span_at. rewrite Sp. reflexivity.
    - assert (Dm : bill cfg s op st = []) by (destruct op; auto; now destruct (R I)).
      rewrite Dm, app_nil_r.
      destruct (step_quiet _ _ _ _ _ st F H R) as (Q1 & Q2 & _).
      pose proof (step_same _ _ _ _ st H R Nd) as Sb.
      constructor.
      + apply st_inv_more; [auto|]. apply (st_inv_mono (act s)); [lia|]. eapply same_inv; [eauto|apply V].
      + eapply pinv_same; [eauto|apply V].
      + intros i. rewrite charged_app, (proj1 (uncharged_0 st i _ Q2)), N.add_0_r. apply V.
      + intros i. rewrite charged_app, (proj1 (uncharged_0 st i _ Q2)), N.add_0_r. apply V.
      + eapply step_kept; eauto. apply V.
      + intros st0. eapply step_ok; eauto. apply V.
      + rewrite (step_frac _ _ _ _ H). apply V.
  Qed.
  Lemma run_vows : forall h s ev bs,
    sane cfg s h -> never_dissolved cfg s h st -> Forall fit_report h -> vinv s ev bs ->
    vinv (krun cfg s h) (ev ++ events (kouts cfg s h)) (bs ++ bills cfg s h st).
  Proof.
    induction h as [|op h IH]; intros s ev bs [F S] Nd Fr V; cbn [krun kouts bills]; [now rewrite !app_nil_r|].
    destruct S as [Ty S]. destruct Nd as [N1 Nd]. apply Forall_cons in Fr as [Fr1 Fr].
    rewrite events_cons, !app_assoc.
    destruct (kstep cfg s op) as [s' out] eqn:E. cbn [fst snd] in *.
    apply IH; auto. eapply step_vows; eauto.
  Qed.
  Lemma genesis_vows b p : p_frac (k_par (kgenesis b p)) = fr -> vinv (kgenesis b p) [] [].
  Proof.
    intros Hp. constructor.
    - apply genesis_books.
    - unfold pinv. cbn. rewrite lookup_empty. intros i. unfold record. cbn. rewrite lookup_empty. auto.
    - auto.
    - intros i. cbn. lia.
    - apply (genesis_told cfg 0 (fun _ => 0) b p).
    - intros st0. unfold ok_at. cbn. now rewrite lookup_empty.
    - exact Hp.
  Qed.

  (** ** One report *)
  Lemma update_exact now k sp era own ev k1 sp1 d df rw t P :
    now + 1 < two32 -> update_span k st sp fr era own = (k1, sp1, d, df, rw, t) -> books now st sp k ev -> paid_from st sp k P ->
    match idx sp era with
    | None => True
    | Some j => df = own - charged st j ev /\ rw = if charged st j ev <=? own then (part fr own - P j) / 2 else 0
    end.
  Proof.
    unfold update_span, idx. intros Hnow H B V. destruct (era_span sp era) as [t0|] eqn:Et; cbn [fmap option_fmap option_map]; [|auto].
    pose proof (era_span_index now Hnow _ _ _ (bk_ok _ _ _ _ _ B) Et) as [Hi _].
    pose proof (bk_rec _ _ _ _ _ B _ Hi) as Hr. rewrite <- (bk_sum _ _ _ _ _ B) in Hr. pose proof (V _ Hi) as Hp.
    unfold slashed, record in Hr, Hp. set (j := sn_index t0) in *.
    destruct (default (0, 0) (s_rec k !! (st, j))) as [sl pd]. cbn [fst snd] in Hr, Hp. rewrite <- Hr, <- Hp. cbn zeta in H.
    rewrite Proofs_Reporter.half in H. unfold ssub in H. fold (part fr own) in H.
    destruct (N.ltb_spec sl own) as [L|L].
    - injection H as _ _ _ <- <- _. rewrite (proj2 (N.leb_le _ _)) by lia. auto.
    - destruct (N.eqb_spec sl own) as [E|E]; cbn zeta in H; injection H as _ _ _ <- <- _; (split; [lia|]).
      + rewrite (proj2 (N.leb_le _ _)) by lia. auto.
      + rewrite (proj2 (N.leb_gt _ _)) by lia. auto.
  Qed.
  Lemma report_exact s x ex reps f session era i ev bs :
    fits cfg s -> vinv s ev bs -> report_era s session = Some era -> span_at cfg s st era = Some i -> st ∉ p_invul (k_par s) ->
    part f (x_total ex) <> 0 -> (default (0, 0) (s_in_era (k_stk s) !! (era, st))).1 < f ->
    bill cfg s (KOffence x [(st, ex, reps, f)] session) st =
      [(i, USlash st (part f (x_own ex) - taken i bs) (x_others ex) reps
             (if taken i bs <=? part f (x_own ex) then (part fr (part f (x_own ex)) - vows i bs) / 2 else 0))].
  Proof.
    intros F V Hr Hs Hi Ht Hm. pose proof (fits_lt _ _ F) as Hn.
    cbn [bill kstep]. rewrite Hr, Hs. cbn [default from_option id].
    assert (Ac : exists a b, e_act (k_era s) = Some (a, b) /\ active_era s = Some a).
    { revert Hr. unfold report_era, active_era. destruct (e_act (k_era s)) as [[a b]|]; [eauto|discriminate]. }
    destruct Ac as (a & b & Ea & Ac). rewrite Ac.
    destruct (on_offence cfg x s [(st, ex, reps, f)] session) as [s' e'] eqn:E. cbn [settle fst].
    unfold on_offence in E. rewrite Ea in E. unfold report_era in Hr. rewrite Ac in Hr. rewrite Hr in E. cbn zeta in E.
    set (s0 := set_k_stk s _) in E.
    assert (V0 : vinv s0 ev bs).
    { apply (vinv_same s); auto; unfold s0; cbn; destruct (s_first (k_stk s)); auto using all_refl. intros ?; split; reflexivity. }
    assert (Pe : forall e, pending s0 e = pending s e) by (intros e; unfold pending, s0; cbn; now destruct (s_first (k_stk s))).
    assert (Ea' : act s0 = a) by (unfold act; change (k_era s0) with (k_era s); now rewrite Ea).
    assert (Ew : window cfg s0 = ssub a (kc_bonding cfg)) by (rewrite window_act; congruence).
    assert (Hs0 : kidx (ssub a (kc_bonding cfg)) (k_stk s0) st era = Some i).
    { rewrite <- Ew, <- Hs. unfold kidx, idx, span_at, s0. cbn. now destruct (s_first (k_stk s)). }
    assert (Hm0 : (default (0, 0) (s_in_era (k_stk s0) !! (era, st))).1 < f).
    { unfold s0. cbn. now destruct (s_first (k_stk s)). }
    change (k_par s) with (k_par s0) in Hi. rewrite <- Pe. cbn [fold_left offender1] in E. rewrite bool_decide_false in E by auto.
    assert (Hn0 : a + 1 < two32) by (rewrite <- Ea'; exact Hn). clearbody s0.
    destruct (compute_slash _ _ _ _ _ _ _ _) as [[s1 u] e1] eqn:E1.
    destruct (compute_queue _ _ _ _ _ _ _ _ _ _ _ E1) as (Q & _ & _ & _ & _). injection Q as Qu _.
    unfold part in Ht. unfold compute_slash in E1. rewrite (proj2 (N.eqb_neq _ _) Ht) in E1.
    rewrite (proj2 (N.leb_gt _ _) Hm0) in E1.
    set (k := set_s_in_era (k_stk s0) _) in E1.
    assert (Sk : same_books (k_stk s0) k st) by (split; reflexivity).
    assert (Ik : st_inv a st k ev) by (eapply same_inv; [eauto|rewrite <- Ea'; apply V0]).
    assert (Vk : pinv st k (fun i => vows i bs)) by (eapply pinv_same; [eauto|apply V0]).
    destruct (fetch_spans k st _) as [k0 sp] eqn:E0.
    destruct (update_span _ _ _ _ _ _) as [[[[[k1 sp1] d] df] rw] t] eqn:Eu.
    destruct (if bool_decide _ then _ else _) as [[[k2 e2] sp2] d2] eqn:E2.
    injection E1 as <- <- <-. rewrite (proj2 (N.eqb_neq _ _) Hd) in E. injection E as <- _.
    assert (Hw : ssub a (kc_bonding cfg) <= a) by (unfold ssub; lia).
    destruct (fetch_books a st _ _ _ _ _ Hw E0 Ik) as [B0 _].
    pose proof (fetch_pinv _ _ _ _ _ _ E0 Vk) as P0.
    destruct (fetch_idx _ _ _ _ _ st era E0) as (_ & _ & Fi).
    change (kidx _ k st era) with (kidx (ssub a (kc_bonding cfg)) (k_stk s0) st era) in Fi. rewrite Hs0 in Fi.
    rewrite (vi_frac _ _ _ V0) in Eu.
    pose proof (update_exact a _ _ _ _ _ _ _ _ _ _ _ _ Hn0 Eu B0 P0) as X. rewrite Fi in X. destruct X as [-> ->].
    unfold pending at 2. cbn [k_stk set_k_stk s_unapp set_s_unapp]. rewrite lookup_insert. cbn [default from_option id].
    cbn [k_stk set_k_era set_k_stk] in Qu. cbn [k_stk set_k_era set_k_stk]. rewrite Qu. unfold pending, id. rewrite drop_app.
    cbn [u_val u_own u_others u_pay List.filter]. rewrite N.eqb_refl. cbn [map]. rewrite (vi_taken _ _ _ V). reflexivity.
  Qed.
End model.
Lemma run_frac cfg : forall h s, p_frac (k_par (krun cfg s h)) = p_frac (k_par s).
Proof.
  induction h as [|op h IH]; intros s; cbn [krun]; [auto|]. rewrite IH. destruct (kstep cfg s op) as [s' out] eqn:E. cbn.
  eapply step_frac; eauto.
Qed.
