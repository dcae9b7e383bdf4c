(** The reporters of an offence: lemmas for property C186. *)
From Verif Require Import Base Balances Model_StakingLedger Model_Staking Spec_Staking Spec_Staking2 Spec_Reporter
  Proofs_Balances Proofs_Arith Proofs_StakingLedger Proofs_Staking Proofs_Staking2 Proofs_Staking3 Proofs_Staking4 Proofs_Staking6
  Proofs_Staking14 Proofs_Staking15 Proofs_Staking19.
From stdpp Require Import gmap.
From Coq Require Import ZifyBool Lia.
Open Scope N_scope.

Lemma half x : frac_mul REWARD_F1 PERBILL x = x / 2.
Proof.
  unfold frac_mul. change REWARD_F1 with 500000000. change PERBILL with (2 * 500000000).
  set (p := 500000000). assert (P0 : p <> 0) by (subst p; discriminate).
  rewrite N.div_mul_cancel_r by (auto; discriminate).
  rewrite N.mul_mod_distr_r by (auto; discriminate).
  replace (2 * p / 2) with p by (rewrite N.mul_comm, N.div_mul; auto; discriminate).
  assert (M : (x mod (2 * p)) mod 2 < 2) by (apply N.mod_lt; discriminate).
  assert (E : (p <? (x mod (2 * p)) mod 2 * p) = false) by (apply N.ltb_ge; nia).
  rewrite E.
  transitivity ((x / (2 * p) * p * 2 + x mod (2 * p)) / 2).
  - rewrite N.div_add_l by discriminate. lia.
  - f_equal. rewrite (N.div_mod x (2 * p)) at 3; [lia|lia].
Qed.

Section model.
  Context (cfg : kcfg).
  Local Notation ed := (kc_ed cfg).

  Lemma times_cons a r l : times a (r :: l) = (if a =? r then 1 else 0) + times a l.
  Proof. unfold times. cbn [List.filter]. destruct (a =? r); cbn [length]; lia. Qed.
  Lemma times_out a l : a ∉ l -> times a l = 0.
  Proof.
    induction l as [|r l IH]; intros H; [reflexivity|]. rewrite times_cons. rewrite not_elem_of_cons in H. destruct H.
    destruct (N.eqb_spec a r); [congruence|]. rewrite IH; auto.
  Qed.
  Lemma promised_app a x y : promised a (x ++ y) = promised a x + promised a y.
  Proof. unfold promised. rewrite map_app. apply lsum_app. Qed.

  Lemma div0 x : x / 0 = 0.
  Proof. now destruct x. Qed.

  (** *** At most *)
  Lemma deposit_free_le b w v a : free_of (deposit_creating ed b w v) a <= free_of b a + (if a =? w then v else 0).
  Proof.
    unfold deposit_creating. destruct (v =? 0); [lia|]. destruct (_ && _); [unfold free_of, acct_of; cbn; lia|].
    destruct (_ <=? _); [unfold free_of, acct_of; cbn; lia|].
    etransitivity; [apply put_free_le|]. cbn [free]. destruct (N.eqb_spec a w) as [->|]; unfold free_of; lia.
  Qed.
  Lemma pay_reps_le a : forall l b each have b' h', pay_reps cfg b l each have = (b', h') ->
    free_of b' a <= free_of b a + times a l * each.
  Proof.
    induction l as [|r l IH]; intros b each have b' h' H; cbn [pay_reps] in H; [injection H as <- _; lia|].
    apply IH in H. rewrite times_cons. pose proof (deposit_free_le b r (N.min each have) a).
    destruct (a =? r); lia.
  Qed.
  Lemma pay_reporters_le a b pay sl l : a <> kc_treasury cfg ->
    free_of (pay_reporters cfg b pay sl l) a <= free_of b a + times a l * share pay l.
  Proof.
    intros Ht. unfold pay_reporters.
    assert (D : forall b v, free_of (deposit_creating ed b (kc_treasury cfg) v) a <= free_of b a).
    { intros b0 v. pose proof (deposit_free_le b0 (kc_treasury cfg) v a) as D. destruct (N.eqb_spec a (kc_treasury cfg)); [congruence|lia]. }
    destruct (_ || _) eqn:E; [specialize (D b sl); lia|].
    destruct (pay_reps _ _ _ _ _) as [b1 h] eqn:Er. apply (pay_reps_le a) in Er. etransitivity; [apply D|].
    apply orb_false_iff in E as [_ E]. apply bool_decide_eq_false in E.
    assert (L : N.min pay sl / N.of_nat (length l) <= share pay l).
    { unfold share. destruct l; [congruence|]. apply N.div_le_mono; [cbn [length]; lia|lia]. }
    pose proof (N.mul_le_mono_l _ _ (times a l) L). lia.
  Qed.
  Lemma update_ledger_free x s c l a : free_of (k_bank (update_ledger cfg x s c l)) a <= free_of (k_bank s) a.
  Proof.
    unfold update_ledger. cbn [k_bank set_k_stk]. unfold set_lock. destruct (_ =? 0); [cbn; lia|]. cbn [k_bank set_k_stk set_k_bank].
    unfold freeze. etransitivity; [apply put_free_le|]. cbn [free]. destruct (N.eqb_spec a (l_stash l)) as [->|]; unfold free_of; lia.
  Qed.
  Lemma do_slash_free x s st v pay s' pay' got ev a : do_slash cfg x s st v pay = (s', pay', got, ev) ->
    free_of (k_bank s') a <= free_of (k_bank s) a /\ pay' <= pay.
  Proof.
    unfold do_slash. destruct (_ !! st); [|intros [= <- <- _ _]; lia]. destruct (_ !! n); [|intros [= <- <- _ _]; lia].
    destruct (slash_ledger _ _ _) as [l' g]. destruct (_ =? 0); [intros [= <- <- _ _]; lia|].
    destruct (cslash _ _ _ _ _) as [[b g'] ms] eqn:E. intros H. injection H as <- <- _ _. split; [|unfold ssub; lia].
    etransitivity; [apply update_ledger_free|]. cbn [k_bank set_k_bank]. unfold cslash in E.
    destruct (_ =? 0); [injection E as <- _ _; lia|]. destruct (_ =? 0); [injection E as <- _ _; lia|].
    injection E as <- _ _. etransitivity; [apply put_free_le|]. cbn [free]. destruct (N.eqb_spec a st) as [->|]; unfold free_of; lia.
  Qed.
  Lemma share_mono p q l : p <= q -> share p l <= share q l.
  Proof.
    intros L. unfold share. destruct l; [cbn; now rewrite !div0|]. apply N.div_le_mono; [cbn [length]; lia|auto].
  Qed.
  Lemma apply_slash_free x s u s' ev a : a <> kc_treasury cfg -> apply_slash cfg x s u = (s', ev) ->
    free_of (k_bank s') a <= free_of (k_bank s) a + promised a [u].
  Proof.
    intros Ht. unfold apply_slash. destruct (do_slash _ _ _ _ _ _) as [[[s1 pay] got] e1] eqn:E. intros H. injection H as <- _.
    apply (do_slash_free _ _ _ _ _ _ _ _ _ a) in E as [A B]. cbn [k_bank set_k_bank]. rewrite credit_fold_bank.
    etransitivity; [apply pay_reporters_le; auto|]. unfold promised. cbn [map lsum].
    pose proof (N.mul_le_mono_l _ _ (times a (u_reps u)) (share_mono _ _ (u_reps u) B)). lia.
  Qed.
  Lemma apply_list_free x a : a <> kc_treasury cfg -> forall l s s' ev, apply_list cfg x l s = (s', ev) ->
    free_of (k_bank s') a <= free_of (k_bank s) a + promised a l.
  Proof.
    intros Ht. induction l as [|u l IH]; intros s s' ev H; cbn [apply_list] in H; [injection H as <- _; cbn; lia|].
    destruct (apply_slash _ _ _ _) as [s1 e1] eqn:E1. destruct (apply_list _ _ l s1) as [s2 e2] eqn:E2. injection H as <- _.
    apply (apply_slash_free _ _ _ _ _ _ Ht) in E1. apply IH in E2. change (u :: l) with ([u] ++ l). rewrite promised_app. lia.
  Qed.
  Lemma apply_eras_free x a : a <> kc_treasury cfg -> forall n era s s' ev, pairs (k_stk s) -> apply_eras cfg x n era s = (s', ev) ->
    free_of (k_bank s') a <= free_of (k_bank s) a + promised a (batch (s_unapp (k_stk s)) n era).
  Proof.
    intros Ht. induction n as [|n IH]; intros era s s' ev P H; cbn [apply_eras] in H; [injection H as <- _; cbn; lia|].
    set (s0 := set_k_stk s _) in H.
    destruct (apply_list _ _ _ s0) as [s1 e1] eqn:E1. destruct (apply_eras _ _ n _ s1) as [s2 e2] eqn:E2. injection H as <- _.
    assert (P0 : pairs (k_stk s0)) by exact P.
    destruct (apply_list_stake _ _ 0 _ _ _ _ P0 E1) as (P1 & Q & _). injection Q as Qu _. cbn in Qu.
    apply (apply_list_free _ _ Ht) in E1. apply IH in E2; [|auto]. rewrite Qu, batch_delete in E2 by lia.
    rewrite batch_S, promised_app. change (k_bank s0) with (k_bank s) in E1. lia.
  Qed.

  (** *** One slash, exactly *)
  Lemma apply_eras_nil x : forall n era s s' ev, apply_eras cfg x n era s = (s', ev) ->
    batch (s_unapp (k_stk s)) n era = [] -> k_bank s' = k_bank s /\ ev = [].
  Proof.
    induction n as [|n IH]; intros era s s' ev H B; cbn [apply_eras] in H; [injection H as <- <-; auto|].
    rewrite batch_S in B. apply app_eq_nil in B as [B1 B2]. rewrite B1 in H. cbn [apply_list] in H.
    destruct (apply_eras _ _ n _ _) as [s2 e2] eqn:E2. injection H as <- <-. apply IH in E2; [exact E2|].
    cbn [k_stk set_k_stk s_unapp set_s_unapp]. rewrite batch_delete; [auto|lia].
  Qed.
  Lemma apply_eras_one x u : forall n era s s' ev, pairs (k_stk s) -> apply_eras cfg x n era s = (s', ev) ->
    batch (s_unapp (k_stk s)) n era = [u] ->
    exists s0 s1, k_bank s0 = k_bank s /\ (forall st, stake_of s0 st = stake_of s st) /\ pairs (k_stk s0) /\
      apply_slash cfg x s0 u = (s1, ev) /\ k_bank s' = k_bank s1.
  Proof.
    induction n as [|n IH]; intros era s s' ev P H B; cbn [apply_eras] in H; [discriminate B|].
    rewrite batch_S in B. set (s0 := set_k_stk s _) in H.
    assert (P0 : pairs (k_stk s0)) by exact P.
    assert (B0 : batch (s_unapp (k_stk s0)) n (era + 1) = batch (s_unapp (k_stk s)) n (era + 1)) by (apply batch_delete; lia).
    destruct (default [] (s_unapp (k_stk s) !! era)) as [|u1 l] eqn:E0.
    - cbn [apply_list] in H. destruct (apply_eras _ _ n _ s0) as [s2 e2] eqn:E2. injection H as <- <-.
      destruct (IH _ _ _ _ P0 E2) as (sa & sb & A1 & A2 & A3 & A4 & A5); [rewrite B0; exact B|]. exists sa, sb. auto.
    - injection B as -> B. apply app_eq_nil in B as [-> B]. cbn [apply_list] in H.
      destruct (apply_slash _ _ s0 u) as [s1 e1] eqn:E1.
      destruct (apply_slash_stake _ _ _ _ _ _ 0 P0 E1) as (P1 & Q & _). injection Q as Qu _.
      destruct (apply_eras _ _ n _ s1) as [s2 e2] eqn:E2. injection H as <- <-.
      apply apply_eras_nil in E2 as [-> ->]; [|rewrite Qu; change (batch (s_unapp (k_stk s0)) n (era + 1) = []); now rewrite B0]. rewrite !app_nil_r. exists s0, s1. auto 6.
  Qed.

  Lemma deposit_add b w v a : money b + v < two128 -> ed <= free_of b w ->
    free_of (deposit_creating ed b w v) a = free_of b a + (if a =? w then v else 0).
  Proof.
    intros M L. destruct (N.eqb_spec a w) as [->|Hn].
    - unfold free_of at 1. rewrite deposit_eq by lia. reflexivity.
    - unfold free_of. rewrite deposit_ne by auto. lia.
  Qed.
  Lemma pay_reps_exact each : forall l b have b' h', pay_reps cfg b l each have = (b', h') ->
    N.of_nat (length l) * each <= have -> money b + have < two128 -> (forall r, r ∈ l -> ed <= free_of b r) ->
    h' = have - N.of_nat (length l) * each /\ money b' = money b + N.of_nat (length l) * each /\
    forall a, free_of b' a = free_of b a + times a l * each.
  Proof.
    induction l as [|r l IH]; intros b have b' h' H L M Li; cbn [pay_reps] in H.
    - injection H as <- <-. cbn. split; [lia|]. split; [lia|]. intros a. cbn. lia.
    - cbn [length] in *. rewrite Nat2N.inj_succ, N.mul_succ_l in *. replace (N.min each have) with each in H by lia.
      assert (D := deposit_add b r each). assert (Lr : ed <= free_of b r) by (apply Li; left).
      destruct (IH _ _ _ _ H) as (A1 & A2 & A3).
      + lia.
      + rewrite deposit_money. lia.
      + intros q Hq. rewrite D by (auto; lia). specialize (Li q ltac:(now right)). lia.
      + rewrite deposit_money in A2. split; [lia|]. split; [lia|]. intros a. rewrite A3, D by (auto; lia). rewrite times_cons.
        destruct (a =? r); lia.
  Qed.
  Lemma pay_reporters_exact b pay sl l : money b + sl < two128 -> ed <= free_of b (kc_treasury cfg) ->
    (forall r, r ∈ l -> ed <= free_of b r) ->
    let each := share (N.min pay sl) l in
    forall a, free_of (pay_reporters cfg b pay sl l) a =
      free_of b a + times a l * each + (if a =? kc_treasury cfg then sl - N.of_nat (length l) * each else 0).
  Proof.
    intros M T Li each a. unfold pay_reporters. destruct (_ || _) eqn:E.
    - assert (Z : times a l * each = 0 /\ N.of_nat (length l) * each = 0).
      { apply orb_true_iff in E as [E|E].
        - apply N.eqb_eq in E as ->. subst each. unfold share. rewrite N.min_0_l.
          destruct (N.eq_dec (N.of_nat (length l)) 0) as [->|]; [rewrite div0|rewrite N.div_0_l by auto]; lia.
        - apply bool_decide_eq_true in E as ->. cbn. lia. }
      rewrite deposit_add by auto. destruct (a =? _); lia.
    - destruct (pay_reps _ _ _ _ _) as [b1 h] eqn:Er. fold (share (N.min pay sl) l) in Er. fold each in Er.
      apply orb_false_iff in E as [_ E]. apply bool_decide_eq_false in E.
      assert (Le : N.of_nat (length l) * each <= N.min pay sl).
      { subst each. unfold share. apply N.mul_div_le. destruct l; [congruence|cbn [length]; lia]. }
      destruct (pay_reps_exact _ _ _ _ _ _ Er Le) as (A1 & A2 & A3); [lia|auto|].
      rewrite deposit_add; [rewrite A3; destruct (a =? _); lia|rewrite A2; lia|rewrite A3; lia].
  Qed.

  Lemma apply_slash_exact x s u s' ev v :
    pairs (k_stk s) -> apply_slash cfg x s u = (s', ev) -> slash_sum (u_val u) ev = v ->
    money (k_bank s) < two128 -> v + ed <= free_of (k_bank s) (u_val u) ->
    (forall a, a = kc_treasury cfg \/ a ∈ u_reps u -> living cfg (k_bank s) a /\ a <> u_val u) ->
    let each := share (N.min (u_pay u) v) (u_reps u) in
    forall a, free_of (k_bank s') a + (if a =? u_val u then v else 0) =
      free_of (k_bank s) a + times a (u_reps u) * each +
      (if a =? kc_treasury cfg then v - N.of_nat (length (u_reps u)) * each else 0).
  Proof.
    intros P H V M F Li each a. unfold apply_slash in H.
    destruct (do_slash _ _ _ _ _ _) as [[[s1 pay] got] e1] eqn:E. injection H as <- <-.
    assert (Zc : forall st l, slash_sum st (map KCreditSlash l) = 0).
    { intros st l. unfold slash_sum. induction l as [|? l IH]; cbn in *; auto. }
    rewrite slash_sum_app, Zc, N.add_0_r in V.
    assert (K : got = v /\ pay = u_pay u /\ money (k_bank s1) + v = money (k_bank s) /\
                forall a, free_of (k_bank s1) a + (if a =? u_val u then v else 0) = free_of (k_bank s) a).
    { unfold do_slash in E. destruct (s_bonded _ !! u_val u) as [c|] eqn:Eb; [|injection E as <- <- <- <-; cbn in V; subst v; repeat split; try lia; intros; destruct (_ =? _); lia].
      destruct (s_ledger _ !! c) as [l|] eqn:El; [|injection E as <- <- <- <-; cbn in V; subst v; repeat split; try lia; intros; destruct (_ =? _); lia].
      destruct (slash_ledger _ _ _) as [l' g] eqn:Es. destruct (N.eqb_spec g 0) as [->|Hg]; [injection E as <- <- <- <-; cbn in V; subst v; repeat split; try lia; intros; destruct (_ =? _); lia|].
      destruct (cslash _ _ _ _ _) as [[b g'] ms] eqn:Ec. injection E as <- <- <- <-.
      assert (g = v) as -> by (unfold slash_sum in V; cbn in V; rewrite N.eqb_refl in V; lia).
      unfold cslash in Ec. destruct (N.eqb_spec v 0); [congruence|].
      unfold free_of in F. destruct (N.eqb_spec (free (acct_of (k_bank s) (u_val u)) + rsv (acct_of (k_bank s) (u_val u))) 0); [lia|].
      set (A := acct_of (k_bank s) (u_val u)) in *.
      assert (Ev : N.min v (if kx_dies x (u_val u) then free A else ssub (free A) ed) = v).
      { unfold ssub. destruct (kx_dies _ _); lia. }
      rewrite Ev in Ec. injection Ec as <- <- <-.
      set (b := put ed (k_bank s) (u_val u) _).
      assert (Fb : forall a, acct_of b a = if a =? u_val u then Acct (free A - v) (rsv A) (frz A) else acct_of (k_bank s) a).
      { intros a0. subst b. destruct (N.eqb_spec a0 (u_val u)) as [->|]; [apply put_acct_eq; cbn [free]; lia|now apply put_acct_ne]. }
      assert (Mb : money b + v = money (k_bank s)).
      { pose proof (put_money ed (k_bank s) (u_val u) (Acct (free A - v) (rsv A) (frz A))) as Q. fold A in Q. cbn [free rsv] in Q. subst b. lia. }
      assert (Es' : l_stash l' = u_val u).
      { destruct (proj1 P _ _ Eb) as (l0 & El0 & S0). assert (l0 = l) as -> by congruence. rewrite <- S0.
        exact (proj1 (proj2 (slash_ledger_spec _ _ _ _ _ (proj2 P _ _ El) Es))). }
      assert (Up : forall q, money (k_bank (update_ledger cfg x (set_k_bank q b) c l')) = money b /\
                 forall a, free_of (k_bank (update_ledger cfg x (set_k_bank q b) c l')) a = free_of b a).
      { intros q. unfold update_ledger. cbn [k_bank set_k_stk]. unfold set_lock. destruct (_ =? 0); [auto|].
        cbn [k_bank set_k_stk set_k_bank]. rewrite Es'. unfold freeze. split.
        - match goal with |- money (put ?e ?b0 ?w ?y) = _ => pose proof (put_money e b0 w y) as Q end. cbn [free rsv] in Q. lia.
        - intros a0. unfold free_of. destruct (N.eqb_spec a0 (u_val u)) as [->|].
          + rewrite put_acct_eq; [reflexivity|]. cbn [free]. rewrite Fb, N.eqb_refl. cbn [free]. lia.
          + now rewrite put_acct_ne. }
      destruct (Up s) as [U1 U2]. split; [auto|]. split; [unfold ssub; lia|]. split; [rewrite U1; exact Mb|].
      intros a0. rewrite U2. unfold free_of. rewrite Fb. destruct (N.eqb_spec a0 (u_val u)) as [->|]; [cbn [free]; subst A; lia|lia]. }
    destruct K as (-> & -> & Mo & Fr). cbn [k_bank set_k_bank]. rewrite credit_fold_bank.
    assert (Live : forall r, r = kc_treasury cfg \/ r ∈ u_reps u -> ed <= free_of (k_bank s1) r).
    { intros r Hr. destruct (Li r Hr) as [L1 L2]. unfold living in L1. specialize (Fr r). destruct (N.eqb_spec r (u_val u)); [congruence|lia]. }
    rewrite pay_reporters_exact; [|lia|apply Live; auto|intros r Hr; apply Live; auto]. fold each. specialize (Fr a). lia.
  Qed.

  (** *** The whole start of a session *)
  Lemma start_parts x s i s' ev :
    pairs (k_stk s) -> qinv s -> act s + 2 < two32 -> start_session cfg x s i = (s', ev) ->
    (s' = s /\ ev = []) \/
    let e := match active_era s with Some j => j + 1 | None => 0 end in
    exists s0 s1 n f, k_bank s0 = k_bank s /\ (forall st, stake_of s0 st = stake_of s st) /\ pairs (k_stk s0) /\
      batch (s_unapp (k_stk s0)) n f = ripe cfg s e /\ apply_eras cfg x n f s0 = (s1, ev) /\ k_bank s' = k_bank s1.
  Proof.
    intros P Q Hn H. unfold start_session in H. destruct (_ !! _); [|left; now injection H as <- <-].
    destruct (_ <=? i); [|left; now injection H as <- <-]. right.
    set (a := match active_era s with Some j => j + 1 | None => 0 end).
    unfold start_era in H.
    assert (Ea : match e_act (k_era s) with Some (i0, _) => add32 i0 1 | None => 0 end = a).
    { subst a. unfold active_era, act in *. destruct (e_act (k_era s)) as [[j b]|]; cbn; [|auto]. apply add32_exact. lia. }
    rewrite Ea in H. cbn zeta in H |- *. set (s0 := set_k_era _ _) in H.
    assert (P0 : pairs (k_stk s0)) by exact P.
    assert (U0 : s_unapp (k_stk s0) = s_unapp (k_stk s)) by reflexivity.
    assert (F0 : s_first (k_stk s0) = s_first (k_stk s)) by reflexivity.
    assert (T0 : forall st, stake_of s0 st = stake_of s st) by reflexivity.
    assert (B0 : k_bank s0 = k_bank s) by reflexivity.
    clearbody s0. unfold apply_unapplied in H. rewrite F0 in H. unfold qinv in Q.
    destruct (s_first (k_stk s)) as [f|] eqn:Ef.
    - destruct Q as [Qf Q]. change (ssub a (kc_defer cfg)) with (a - kc_defer cfg) in H.
      destruct (apply_eras _ _ _ _ _) as [s1 e1] eqn:E. injection H as <- <-.
      exists s0, s1, (N.to_nat (a - kc_defer cfg - f)), f. split; [auto|]. split; [auto|]. split; [auto|].
      split; [|auto]. rewrite U0. unfold ripe, pending. destruct (N.le_gt_cases f (a - kc_defer cfg)) as [L|L].
      + symmetry. apply batch_ripe; auto.
      + replace (a - kc_defer cfg - f) with 0 by lia. cbn [N.to_nat]. unfold batch. cbn [seq map concat].
        symmetry. apply concat_nil_Forall. apply Forall_forall.
        intros l Hl. apply elem_of_list_fmap in Hl as (j & -> & Hj). apply elem_of_seq in Hj.
        destruct (default [] (s_unapp (k_stk s) !! N.of_nat j)) eqn:Ez; [auto|].
        specialize (Q (N.of_nat j)). unfold pending in Q. rewrite Ez in Q. specialize (Q ltac:(discriminate)). lia.
    - injection H as <- <-. exists s0, s0, 0%nat, 0. split; [auto|]. split; [auto|]. split; [auto|]. split; [|auto].
      unfold batch, ripe. cbn [seq map concat]. symmetry. apply concat_nil_Forall. apply Forall_forall.
      intros l Hl. apply elem_of_list_fmap in Hl as (j & -> & _). apply Q.
  Qed.

  (** *** What is promised *)
  Lemma update_span_pay k st sp fr era own k' sp' d df rw t :
    update_span k st sp fr era own = (k', sp', d, df, rw, t) -> 2 * rw <= frac_mul fr PERBILL own.
  Proof.
    unfold update_span. destruct (era_span sp era); [|intros [= _ _ _ _ <- _]; lia].
    destruct (default (0, 0) _) as [sl pd]. set (x := ssub _ pd).
    assert (X : 2 * frac_mul REWARD_F1 PERBILL x <= frac_mul fr PERBILL own).
    { rewrite half. pose proof (N.mul_div_le x 2 ltac:(discriminate)). subst x. unfold ssub in *. lia. }
    destruct (_ <? _); [|destruct (_ =? _)]; intros H; injection H as _ _ _ _ <- _; [exact X|exact X|lia].
  Qed.
  Lemma compute_pay x s st f ex era w now s' u ev : compute_slash x s st f ex era w now = (s', Some u, ev) ->
    2 * u_pay u <= part (p_frac (k_par s)) (part f (x_own ex)).
  Proof.
    unfold compute_slash. destruct (_ =? 0); [discriminate|]. destruct (_ <=? _); [discriminate|]. cbn zeta.
    destruct (fetch_spans _ _ _) as [k0 sp]. destruct (update_span _ _ _ _ _ _) as [[[[[k1 sp1] d] diff] rw] tg] eqn:Eu.
    apply update_span_pay in Eu.
    destruct (if bool_decide _ then _ else _) as [[[? ?] ?] ?]. intros H. injection H as _ <- _. exact Eu.
  Qed.
  Definition vowed (fr : N) (os : list (N * expo * list N * N)) (u : uslash) : Prop :=
    exists ex f, (u_val u, ex, u_reps u, f) ∈ os /\ 2 * u_pay u <= part fr (part f (x_own ex)).
  Lemma offenders_vow x era w now fr : kc_defer cfg <> 0 -> forall os s ev0 s' ev', p_frac (k_par s) = fr ->
    fold_left (offender1 cfg x era w now) os (s, ev0) = (s', ev') ->
    forall e u, u ∈ pending s' e -> u ∈ pending s e \/ vowed fr os u.
  Proof.
    intros D. induction os as [|[[[st ex] reps] f] os IH]; intros s ev0 s' ev' Ep H e u Hu; cbn [fold_left] in H; [injection H as <- _; auto|].
    destruct (offender1 _ _ _ _ _ _ _) as [s1 ev1] eqn:E1.
    assert (More : vowed fr os u -> vowed fr ((st, ex, reps, f) :: os) u).
    { intros (ex' & f' & A & B). exists ex', f'. split; [now right|auto]. }
    assert (K : k_par s1 = k_par s /\ (u ∈ pending s1 e -> u ∈ pending s e \/ vowed fr ((st, ex, reps, f) :: os) u)).
    { cbn [offender1] in E1. destruct (bool_decide _); [injection E1 as <- _; auto|].
      destruct (compute_slash _ _ _ _ _ _ _ _) as [[s2 o] e2] eqn:E2.
      pose proof (compute_par _ _ _ _ _ _ _ _ _ _ _ E2) as Pa.
      destruct (compute_queue _ _ _ _ _ _ _ _ _ _ _ E2) as (Q & _ & _ & _ & U). injection Q as Qu _.
      destruct o as [u0|]; [|injection E1 as <- _; split; [auto|]; unfold pending; rewrite Qu; auto].
      apply compute_pay in E2. rewrite Ep in E2. destruct (N.eqb_spec (kc_defer cfg) 0); [congruence|].
      injection E1 as <- _. split; [exact Pa|]. unfold pending. cbn [k_stk set_k_stk s_unapp set_s_unapp]. rewrite Qu.
      destruct (decide (e = now)) as [->|Hn]; [|rewrite lookup_insert_ne by auto; auto].
      rewrite lookup_insert. cbn [from_option id]. rewrite elem_of_app, elem_of_list_singleton. intros [A| ->]; [auto|].
      right. exists ex, f. cbn [u_val u_reps u_pay]. destruct U as [-> _]. split; [left|exact E2]. }
    destruct K as [K1 K2]. destruct (IH _ _ _ _ ltac:(rewrite K1; exact Ep) H e u Hu) as [A|A]; auto.
  Qed.
End model.
