(** Nobody but the payment loop pays referers. *)
From Verif Require Import Base Balances Model_StakingLedger Model_Operation Model_Staking Spec_Staking Proofs_Arith Proofs_StakingLedger Proofs_Staking.
From stdpp Require Import gmap.
Open Scope N_scope.

Section nobonus.
  Context (cfg : kcfg).
  Definition nobonus (ev : list kev) : Prop :=
    forallb (fun e => match e with KMint MReferer _ _ => false | _ => true end) ev = true.
  Lemma nobonus_app a b : nobonus a -> nobonus b -> nobonus (a ++ b).
  Proof. unfold nobonus. rewrite forallb_app. intros -> ->. reflexivity. Qed.
  Lemma nobonus_credit l : nobonus (map KCreditSlash l).
  Proof. induction l; [reflexivity|exact IHl]. Qed.

  Lemma payout_nobonus x s st v : nobonus (validator_payout cfg x s st v).2.
  Proof.
    unfold validator_payout. destruct (default PStaked _);
      repeat match goal with |- nobonus (snd (match ?e with _ => _ end)) => destruct e as [] end; reflexivity.
  Qed.
  Lemma pay_each_nobonus x pts v : forall l s t, nobonus (pay_each cfg x pts v l s t).2.
  Proof.
    induction l as [|a l IH]; intros s t; [reflexivity|]. cbn [pay_each]. cbv zeta. destruct (_ =? 0); [apply IH|].
    pose proof (payout_nobonus x s a (frac_mul (perbill_of (default 0 (pts.2 !! a)) pts.1) PERBILL v)) as P.
    destruct (validator_payout _ _ _ _ _) as [s1 e1]. cbn [snd] in P.
    match goal with |- context [pay_each cfg x pts v l ?s0 ?t0] => pose proof (IH s0 t0) as Q; destruct (pay_each cfg x pts v l s0 t0) as [[s2 t2] e2] end.
    now apply nobonus_app.
  Qed.
  Lemma call_nobonus x s o c s' ev : dispatch cfg x s o c = ROk (s', ev) -> nobonus ev.
  Proof.
    intros H.
    destruct c; cbn [dispatch] in H; unfold admin, controlled, signed, root, quiet, with_par, with_del, with_stk in H;
      try (destruct o; try discriminate H; []);
      repeat match type of H with rbind (ensure _ _) _ = _ => inv_bind H end;
      try (injection H as <- <-; reflexivity);
      try (destruct (s_ledger _ !! _); [|discriminate]; injection H as <- <-; reflexivity);
      try (inv_bind H; injection H as <- <-; reflexivity).
    - unfold staking_delegate in H. inv_bind H. inv_bind H.
      destruct (kx_level x who); [|discriminate]. inv_bind H.
      destruct (kx_dpr x who !! N.to_nat level); [|discriminate].
      destruct (kx_dpr x who !! N.to_nat n); [|discriminate].
      destruct (transfer_keep _ _ _ _ _); [|discriminate]. inv_bind H.
      injection H as <- <-. reflexivity.
    - unfold usdt_delegate in H. inv_bind H. inv_bind H. destruct v as [cur rest].
      destruct (0 <? _); [inv_bind H|]; injection H as <- <-; reflexivity.
    - unfold unbond in H. destruct (s_ledger (k_stk s) !! who) as [l|]; [|discriminate].
      inv_bind H. destruct (_ =? 0); [injection H as <- <-; reflexivity|].
      match type of H with context [let '(_, _) := ?e in _] => destruct e end. injection H as <- <-. reflexivity.
    - unfold withdraw_unbonded in H. destruct (s_ledger (k_stk s) !! who) as [l0|]; [|discriminate].
      destruct (bool_decide _ && _) in H.
      + inv_bind H. injection H as <- <-. now destruct (_ <? _).
      + injection H as <- <-. now destruct (_ <? _).
    - destruct (e_cur (k_era s)); injection H as <- <-; reflexivity.
    - injection H as <- <-. apply nobonus_credit.
    - unfold compensate in H. inv_bind H. destruct (Model_Operation.mint _ _ _ _). injection H as <- <-. reflexivity.
    - unfold npow_mint in H. inv_bind H. destruct (Model_Operation.mint _ _ _ _). injection H as <- <-. reflexivity.
    - unfold validator_burn in H. destruct (s_ledger (k_stk s) !! who) as [l|]; [|discriminate].
      cbn zeta in H. destruct (slash_ledger _ _ _) as [l' am].
      destruct (cslash _ _ _ _ _) as [[b g] m]. injection H as <- <-. reflexivity.
  Qed.

  Lemma new_era_nobonus s i : nobonus (new_era cfg s i).2.
  Proof. unfold new_era. cbv zeta. destruct (elect _ _) as [s1 [l|]]; reflexivity. Qed.
  Lemma apply_nobonus x s u : nobonus (apply_slash cfg x s u).2.
  Proof.
    unfold apply_slash. destruct (do_slash cfg x s (u_val u) (u_own u) (u_pay u)) as [[[s1 pay] got] ev] eqn:E.
    cbn [snd]. apply nobonus_app; [|apply nobonus_credit]. unfold do_slash in E.
    destruct (s_bonded (k_stk s) !! u_val u); [|now injection E as <- <- <- <-].
    destruct (s_ledger (k_stk s) !! n); [|now injection E as <- <- <- <-].
    destruct (slash_ledger _ _ _) as [l' v]. destruct (v =? 0); [now injection E as <- <- <- <-|].
    destruct (cslash _ _ _ _ _) as [[b g] m]. now injection E as <- <- <- <-.
  Qed.
  Lemma apply_list_nobonus x : forall l s, nobonus (apply_list cfg x l s).2.
  Proof.
    induction l as [|u l IH]; intros s; [reflexivity|]. cbn [apply_list].
    pose proof (apply_nobonus x s u) as P. destruct (apply_slash cfg x s u) as [s1 e1].
    pose proof (IH s1) as Q. destruct (apply_list cfg x l s1) as [s2 e2]. now apply nobonus_app.
  Qed.
  Lemma apply_eras_nobonus x : forall n e s, nobonus (apply_eras cfg x n e s).2.
  Proof.
    induction n as [|n IH]; intros e s; [reflexivity|]. cbn [apply_eras]. cbv zeta.
    match goal with |- context [apply_list cfg x ?l ?s0] => pose proof (apply_list_nobonus x l s0) as P; destruct (apply_list cfg x l s0) as [s1 e1] end.
    pose proof (IH (e + 1) s1) as Q. destruct (apply_eras cfg x n (e + 1) s1) as [s2 e2]. now apply nobonus_app.
  Qed.
  Lemma unapplied_nobonus x s a : nobonus (apply_unapplied cfg x s a).2.
  Proof.
    unfold apply_unapplied. destruct (s_first _) as [f|]; [|reflexivity]. cbv zeta.
    match goal with |- context [apply_eras cfg x ?n ?e s] => pose proof (apply_eras_nobonus x n e s) as Q; destruct (apply_eras cfg x n e s) as [s1 e1] end.
    exact Q.
  Qed.
  Lemma start_nobonus x s i : nobonus (start_session cfg x s i).2.
  Proof.
    unfold start_session. destruct (_ !! _) as [st|]; [|reflexivity]. destruct (st <=? i); [|reflexivity].
    unfold start_era. apply unapplied_nobonus.
  Qed.
  Lemma end_nobonus x s i : nobonus (end_session cfg x s i).2.
  Proof.
    unfold end_session. destruct (e_act _) as [[e st]|]; [|reflexivity]. destruct (_ !! _); [|reflexivity].
    destruct (_ && _); [|reflexivity]. unfold pay_validators. cbv zeta. destruct (_ =? 0); [reflexivity|].
    match goal with |- context [pay_each cfg x ?p ?v ?l ?s0 ?t] => pose proof (pay_each_nobonus x p v l s0 t) as Q; destruct (pay_each cfg x p v l s0 t) as [[s1 t1] e1] end.
    exact Q.
  Qed.
  Lemma session_nobonus s i : nobonus (new_session cfg s i).2.
  Proof.
    unfold new_session. destruct (e_cur _); [|apply new_era_nobonus]. cbv zeta.
    destruct (e_force _); [destruct (_ <=? _)|..]; try reflexivity; apply new_era_nobonus.
  Qed.
  Lemma offender_nobonus x era w a p o : nobonus p.2 -> nobonus (offender1 cfg x era w a p o).2.
  Proof.
    destruct p as [s ev]. destruct o as [[[st ex] reps] fr]. cbn [snd]. intros P. cbn [offender1].
    destruct (bool_decide _); [exact P|].
    assert (C : nobonus (compute_slash x s st fr ex era w a).2).
    { unfold compute_slash. cbv zeta. destruct (_ =? 0); [reflexivity|]. destruct (_ <=? _); [reflexivity|].
      destruct (fetch_spans _ _ _) as [k0 sp]. destruct (update_span _ _ _ _ _ _) as [[[[[k1 sp1] dirty] diff] reward] target].
      destruct (if bool_decide _ then _ else _) as [[[k2 e2] sp2] d2]. destruct target; reflexivity. }
    destruct (compute_slash x s st fr ex era w a) as [[s1 u] e1]. cbn [snd] in C.
    destruct u as [u0|]; [|now apply nobonus_app]. cbv zeta. destruct (_ =? 0).
    - match goal with |- context [apply_slash cfg x s1 ?u1] => pose proof (apply_nobonus x s1 u1) as Q; destruct (apply_slash cfg x s1 u1) as [s2 e2] end.
      apply nobonus_app; [exact P|]. now apply nobonus_app.
    - now apply nobonus_app.
  Qed.
  Lemma offence_nobonus x s os i : nobonus (on_offence cfg x s os i).2.
  Proof.
    unfold on_offence. destruct (e_act _) as [[a st]|]; [|reflexivity]. destruct (slash_era _ _ _) as [era|]; [|reflexivity].
    cbv zeta. match goal with |- nobonus (fold_left ?f os ?p).2 => assert (P : nobonus p.2) by reflexivity; revert P; generalize p end.
    induction os as [|o os IH]; intros p P; [exact P|]. cbn [fold_left]. apply IH. now apply offender_nobonus.
  Qed.

  Lemma only_init s op s' ev a g : kstep cfg s op = (s', KDone ev) -> KMint MReferer a g ∈ ev -> exists x, op = KInit x.
  Proof.
    intros H Hin. assert (K : nobonus ev -> False).
    { intros N0. unfold nobonus in N0. rewrite forallb_forall in N0. apply elem_of_list_In in Hin. discriminate (N0 _ Hin). }
    assert (settled : forall r, settle s r = (s', KDone ev) -> exists s1, r = ROk (s1, ev)).
    { intros [[s1 e1]| |] E; [injection E as -> ->; eauto|discriminate E|discriminate E]. }
    destruct op as [x o c|x| |i|x i|x i|b|x os i|b]; cbn [kstep] in H; [|eauto|..]; exfalso; apply K.
    - apply settled in H as [s1 H]. now apply call_nobonus in H.
    - now injection H as _ <-.
    - apply settled in H as [s1 H]. injection H as H. pose proof (session_nobonus s i) as Q. now rewrite H in Q.
    - apply settled in H as [s1 H]. injection H as H. pose proof (start_nobonus x s i) as Q. now rewrite H in Q.
    - apply settled in H as [s1 H]. injection H as H. pose proof (end_nobonus x s i) as Q. now rewrite H in Q.
    - now injection H as _ <-.
    - apply settled in H as [s1 H]. injection H as H. pose proof (offence_nobonus x s os i) as Q. now rewrite H in Q.
    - now injection H as _ <-.
  Qed.
End nobonus.
