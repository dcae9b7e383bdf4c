(** Reward points and the pay of validators. *)
From Verif Require Import Base Balances Model_StakingLedger Model_Staking Spec_Staking Spec_Staking2
  Proofs_Balances Proofs_Arith Proofs_StakingLedger Proofs_Staking Proofs_Staking2 Proofs_Staking3 Proofs_Staking4 Proofs_Staking6 Proofs_Staking15.
From Verif Require Proofs_Adsc3.
From stdpp Require Import gmap.
Open Scope N_scope.

(** ** Shares *)
Lemma perbill_of_spec p t : 0 < t -> p <= t -> t <= PERBILL ->
  let f := Model_Adsc.perbill_of p t in f * t <= p * PERBILL /\ p * PERBILL < (f + 1) * t /\ f <= PERBILL.
Proof.
  intros Ht Hp Hb. unfold Model_Adsc.perbill_of. rewrite (proj2 (N.eqb_neq t 0)) by lia. rewrite (proj2 (N.ltb_ge t p)) by lia. cbn [orb].
  assert (E : N.max 1 ((t + (PERBILL - 1)) / PERBILL) = 1).
  { assert ((t + (PERBILL - 1)) / PERBILL < 2) by (apply N.div_lt_upper_bound; unfold PERBILL in *; lia). lia. }
  rewrite E, !N.div_1_r. set (f := p * PERBILL / t).
  pose proof (N.mul_div_le (p * PERBILL) t ltac:(lia)) as A.
  pose proof (N.mul_succ_div_gt (p * PERBILL) t ltac:(lia)) as B. fold f in A, B. split; [lia|]. split; [lia|].
  unfold f. apply N.div_le_upper_bound; [lia|]. nia.
Qed.
Lemma frac_mul_near f x : let w := frac_mul f PERBILL x in
  2 * (w * PERBILL) <= 2 * (f * x) + PERBILL /\ 2 * (f * x) <= 2 * (w * PERBILL) + PERBILL.
Proof.
  unfold frac_mul. cbn zeta. pose proof (N.div_mod x PERBILL ltac:(discriminate)) as A.
  set (q := x / PERBILL) in *. set (r := x mod PERBILL) in *.
  pose proof (N.div_mod (r * f) PERBILL ltac:(discriminate)) as B.
  pose proof (N.mod_lt (r * f) PERBILL ltac:(discriminate)) as C.
  set (q2 := r * f / PERBILL) in *. set (r2 := (r * f) mod PERBILL) in *.
  assert (E : f * x = PERBILL * (q * f) + (PERBILL * q2 + r2)) by (rewrite A; nia).
  assert (D : PERBILL / 2 * 2 = PERBILL) by reflexivity.
  set (g := q * f) in *. destruct (N.ltb_spec (PERBILL / 2) r2); split; rewrite ?E; unfold PERBILL in *; nia.
Qed.
Lemma share_fair p t pay : 0 < t -> p <= t -> t <= PERBILL ->
  fair pay p t (frac_mul (Model_Adsc.perbill_of p t) PERBILL pay).
Proof.
  intros Ht Hp Hb. destruct (perbill_of_spec p t Ht Hp Hb) as (A & B & C). set (f := Model_Adsc.perbill_of p t) in *.
  destruct (frac_mul_near f pay) as [D E]. set (w := frac_mul f PERBILL pay) in *. unfold fair. split.
  - assert (2 * (w * PERBILL) * t <= 2 * (p * PERBILL * pay) + PERBILL * t) by nia.
    assert (0 < PERBILL) by reflexivity. nia.
  - assert (F : 2 * (p * PERBILL) * pay <= 2 * ((f + 1) * t) * pay) by nia.
    assert (G : 2 * (f * pay) * t <= (2 * (w * PERBILL) + PERBILL) * t) by nia. nia.
Qed.
Lemma share_le p t pay : frac_mul (Model_Adsc.perbill_of p t) PERBILL pay <= pay.
Proof. apply frac_mul_le; [discriminate|]. apply Proofs_Adsc3.perbill_of_le. Qed.

Section model.
  Context (cfg : kcfg).
  Local Notation ed := (kc_ed cfg).

  (** ** One payout *)
  Lemma put_same b w f z a : ed <= f \/ rsv (acct_of b w) <> 0 -> 
    free_of (put ed b w (Acct f (rsv (acct_of b w)) z)) a = if a =? w then f else free_of b a.
  Proof.
    intros H. unfold free_of. destruct (N.eqb_spec a w) as [->|Hn]; [|now rewrite put_acct_ne].
    unfold put, acct_of in *. cbn. destruct ((f <? ed) && _) eqn:F.
    - apply andb_true_iff in F as [F1 F2]. apply N.ltb_lt in F1. apply N.eqb_eq in F2. cbn in F2. lia.
    - cbn. now rewrite lookup_insert.
  Qed.
  Lemma mint_free b w v b' got a : Model_Operation.mint ed b w v = (b', got) ->
    ed <= free_of b w -> 0 < ed -> free_of b w + v < two128 ->
    free_of b' a = (if a =? w then free_of b a + v else free_of b a).
  Proof.
    unfold Model_Operation.mint. intros H He H0 Hv.
    destruct (N.eqb_spec v 0) as [->|]; [injection H as <- _; destruct (_ =? _); unfold free_of; lia|].
    destruct (_ && _) eqn:En in H.
    { apply andb_true_iff in En as [En _]. unfold is_new in En. exfalso. unfold free_of in He. rewrite ?andb_true_iff, ?N.eqb_eq, ?bool_decide_eq_true in En. lia. }
    destruct (N.leb_spec two128 (free (acct_of b w) + v)) in H; [unfold free_of in *; lia|].
    injection H as <- _. rewrite put_same by (left; unfold free_of in He; lia). destruct (N.eqb_spec a w) as [->|]; unfold free_of; lia.
  Qed.
  Lemma mint_existing_free b w v b' got a : mint_existing cfg b w v = (b', got) ->
    ed <= free_of b w -> 0 < ed -> free_of b w + v < two128 ->
    free_of b' a = (if a =? w then free_of b a + v else free_of b a).
  Proof.
    unfold mint_existing. intros H He H0 Hv.
    destruct (N.eqb_spec v 0) as [->|]; [injection H as <- _; destruct (_ =? _); unfold free_of; lia|].
    destruct (is_new _) eqn:En in H.
    { unfold is_new in En. exfalso. unfold free_of in He. rewrite ?andb_true_iff, ?N.eqb_eq, ?bool_decide_eq_true in En. lia. }
    destruct (N.leb_spec two128 (free (acct_of b w) + v)) in H; [unfold free_of in *; lia|].
    injection H as <- _. rewrite put_same by (left; unfold free_of in He; lia). destruct (N.eqb_spec a w) as [->|]; unfold free_of; lia.
  Qed.
  Lemma update_ledger_free x s c l a : ed <= free_of (k_bank s) (l_stash l) ->
    free_of (k_bank (update_ledger cfg x s c l)) a = free_of (k_bank s) a.
  Proof.
    intros H. unfold update_ledger, set_lock. destruct (_ =? 0); [reflexivity|]. cbn. unfold freeze.
    rewrite put_same by (unfold free_of in H; auto). destruct (N.eqb_spec a (l_stash l)) as [->|]; reflexivity.
  Qed.
  Lemma update_ledger_stk x s c l :
    s_bonded (k_stk (update_ledger cfg x s c l)) = s_bonded (k_stk s) /\
    s_ledger (k_stk (update_ledger cfg x s c l)) = <[c := l]> (s_ledger (k_stk s)) /\
    s_payee (k_stk (update_ledger cfg x s c l)) = s_payee (k_stk s).
  Proof. unfold update_ledger, set_lock. destruct (_ =? 0); auto. Qed.

  Definition wage_to (s : kstate) (v w a : N) : N :=
    if bool_decide (payee_of s v = Some a) then w else 0.
  Definition restake (s : kstate) (v w st : N) : N := if (v =? st) && restakes s v then w else 0.
  Lemma payout_paid x s v w s' ev :
    pairs (k_stk s) -> 0 < ed -> validator_payout cfg x s v w = (s', ev) ->
    (forall a, payee_of s v = Some a -> ed <= free_of (k_bank s) a /\ free_of (k_bank s) a + w < two128) ->
    (forall l, stake_of s v = Some l -> l_total l + w < two128) ->
    (forall a, free_of (k_bank s') a = free_of (k_bank s) a + wage_to s v w a) /\
    (forall st, stake_of s' st = grown (restake s v w st) <$> stake_of s st) /\
    s_bonded (k_stk s') = s_bonded (k_stk s) /\ s_payee (k_stk s') = s_payee (k_stk s) /\ pairs (k_stk s') /\
    k_del s' = k_del s /\ k_era s' = k_era s.
  Proof.
    intros P H0 H Ha Hl. unfold validator_payout in H. unfold wage_to, restake, restakes in *. unfold payee_of in *.
    assert (G0 : forall s1 st, stake_of s1 st = grown 0 <$> stake_of s1 st).
    { intros s1 st. destruct (stake_of s1 st) as [ [? ? ? ?] |]; cbn; [|auto]. unfold grown; cbn. now rewrite !N.add_0_r. }
    destruct (default PStaked (s_payee (k_stk s) !! v)) as [| | |pa] eqn:Ep.
    - (* staked *)
      destruct (s_bonded (k_stk s) !! v) as [c|] eqn:Eb.
      2:{ injection H as <- <-. split; [intros a; rewrite bool_decide_false by congruence; lia|].
          split; [|auto 6]. intros st. destruct (N.eqb_spec v st) as [<-|]; [|apply G0]. unfold stake_of. now rewrite Eb. }
      destruct (proj1 P _ _ Eb) as (l & El & Es). rewrite El in H.
      destruct (mint_existing _ _ _ _) as [b got] eqn:Em. injection H as <- <-.
      destruct (Ha v eq_refl) as [Hv1 Hv2].
      assert (Sv : stake_of s v = Some l) by (unfold stake_of; now rewrite Eb).
      specialize (Hl l Sv). pose proof (proj2 P _ _ El) as So.
      assert (Hal : l_active l <= l_total l) by (unfold sound in So; lia).
      rewrite !add128_exact by lia. set (l' := Ledger _ _ _ _).
      destruct (update_ledger_stk x (set_k_bank s b) c l') as (U1 & U2 & U3).
      assert (Fb : forall a, free_of b a = if a =? v then free_of (k_bank s) a + w else free_of (k_bank s) a).
      { intros a. eapply mint_existing_free; eauto. }
      split; [|split; [|split; [|split; [|split; [|split]]]]]; auto.
      + intros a. rewrite update_ledger_free by (cbn; rewrite Es, Fb, N.eqb_refl; lia). cbn. rewrite Fb.
        destruct (N.eqb_spec a v) as [->|Hn]; [now rewrite bool_decide_true|]. rewrite bool_decide_false by congruence. lia.
      + intros st. unfold stake_of. rewrite U1, U2. cbn. destruct (N.eqb_spec v st) as [<-|Hn]; cbn [andb].
        * rewrite Eb, lookup_insert, El. reflexivity.
        * destruct (s_bonded (k_stk s) !! st) as [c'|] eqn:E'; [|auto]. destruct (proj1 P _ _ E') as (l1 & E1 & E2).
          rewrite lookup_insert_ne by congruence. rewrite E1. cbn. unfold grown. rewrite !N.add_0_r. now destruct l1.
      + split; rewrite ?U1, ?U2; cbn.
        * intros st c' E'. destruct (decide (c' = c)) as [->|Hn].
          -- exists l'. rewrite lookup_insert. split; [auto|]. destruct (proj1 P _ _ E') as (l1 & E1 & E2). cbn. congruence.
          -- rewrite lookup_insert_ne by congruence. now apply P.
        * intros c' l1. destruct (decide (c' = c)) as [->|Hn].
          -- rewrite lookup_insert. intros [= <-]. subst l'. revert So. unfold sound, unlocking. cbn. lia.
          -- rewrite lookup_insert_ne by congruence. now apply P.
      + unfold update_ledger, set_lock. now destruct (_ =? 0).
      + now rewrite update_ledger_era.
    - destruct (mint_existing _ _ _ _) as [b got] eqn:Em. injection H as <- <-. destruct (Ha v eq_refl) as [Hv1 Hv2].
      split; [|split; [|auto 6]].
      + intros a. cbn. rewrite (mint_existing_free _ _ _ _ _ a Em) by auto.
        destruct (N.eqb_spec a v) as [->|Hn]; [now rewrite bool_decide_true|]. rewrite bool_decide_false by congruence. lia.
      + intros st. rewrite andb_false_r. apply (G0 s).
    - destruct (s_bonded (k_stk s) !! v) as [c|] eqn:Eb.
      2:{ injection H as <- <-. split; [intros a; rewrite bool_decide_false by congruence; lia|].
          split; [|auto 6]. intros st. rewrite andb_false_r. apply G0. }
      destruct (Model_Operation.mint _ _ _ _) as [b got] eqn:Em. injection H as <- <-. destruct (Ha c eq_refl) as [Hv1 Hv2].
      split; [|split; [|auto 6]].
      + intros a. cbn. rewrite (mint_free _ _ _ _ _ a Em) by auto.
        destruct (N.eqb_spec a c) as [->|Hn]; [now rewrite bool_decide_true|]. rewrite bool_decide_false by congruence. lia.
      + intros st. rewrite andb_false_r. apply (G0 s).
    - destruct (Model_Operation.mint _ _ _ _) as [b got] eqn:Em. injection H as <- <-. destruct (Ha pa eq_refl) as [Hv1 Hv2].
      split; [|split; [|auto 6]].
      + intros a. cbn. rewrite (mint_free _ _ _ _ _ a Em) by auto.
        destruct (N.eqb_spec a pa) as [->|Hn]; [now rewrite bool_decide_true|]. rewrite bool_decide_false by congruence. lia.
      + intros st. rewrite andb_false_r. apply (G0 s).
  Qed.

  Definition wage (pts : N * gmap N N) (payout v : N) : N :=
    let p := default 0 (pts.2 !! v) in
    if p =? 0 then 0 else frac_mul (Model_Adsc.perbill_of p pts.1) PERBILL payout.
  Lemma wage_le pts payout v : wage pts payout v <= payout.
  Proof. unfold wage. cbn zeta. destruct (_ =? 0); [lia|apply share_le]. Qed.
  Lemma grown_grown a b l : grown a (grown b l) = grown (b + a) l.
  Proof. unfold grown. cbn. f_equal; lia. Qed.
  Lemma grown_0 (o : option ledger) : grown 0 <$> o = o.
  Proof. destruct o as [ [? ? ? ?] |]; cbn; [|auto]. unfold grown; cbn. now rewrite !N.add_0_r. Qed.
  Lemma pay_each_paid x pts payout : 0 < ed -> forall vs s tot s' tot' ev,
    pairs (k_stk s) -> pay_each cfg x pts payout vs s tot = (s', tot', ev) ->
    (forall v a, v ∈ vs -> payee_of s v = Some a -> ed <= free_of (k_bank s) a) ->
    (forall a, free_of (k_bank s) a + N.of_nat (length vs) * payout < two128) ->
    (forall st l, stake_of s st = Some l -> l_total l + N.of_nat (length vs) * payout < two128) ->
    tot + N.of_nat (length vs) * payout < two128 ->
    (forall a, free_of (k_bank s') a = free_of (k_bank s) a + lsum (map (fun v => wage_to s v (wage pts payout v) a) vs)) /\
    (forall st, stake_of s' st = grown (lsum (map (fun v => restake s v (wage pts payout v) st) vs)) <$> stake_of s st) /\
    tot' = tot + lsum (map (wage pts payout) vs) /\ k_del s' = k_del s /\ k_era s' = k_era s.
  Proof.
    intros H0. induction vs as [|v vs IH]; intros s tot s' tot' ev P H He Hf Hl Ht; cbn [pay_each] in H.
    { injection H as <- <- <-. cbn [map lsum]. split; [intros; lia|]. split; [intros; now rewrite grown_0|]. split; [lia|auto]. }
    set (p := default 0 (pts.2 !! v)) in *. cbn zeta in H. set (n := N.of_nat (length vs)) in *.
    assert (En : N.of_nat (length (v :: vs)) = n + 1) by (subst n; cbn [length]; lia). rewrite En in *.
    destruct (N.eqb_spec p 0) as [Ep|Ep].
    - assert (W : wage pts payout v = 0) by (unfold wage; fold p; now rewrite Ep).
      destruct (IH _ _ _ _ _ P H) as (I1 & I2 & I3 & I4 & I5).
      + intros u a Hu. apply He. now right.
      + intros a. specialize (Hf a). nia.
      + intros st l E. specialize (Hl st l E). nia.
      + nia.
      + cbn [map lsum]. rewrite W. split; [|split; [|split; [|auto]]].
        * intros a. rewrite I1. unfold wage_to at 2. destruct (bool_decide _); lia.
        * intros st. rewrite I2. unfold restake at 2. destruct (_ && _); rewrite N.add_0_l; reflexivity.
        * rewrite I3. lia.
    - set (w := frac_mul _ PERBILL payout) in *.
      assert (W : wage pts payout v = w) by (unfold wage; fold p; now rewrite (proj2 (N.eqb_neq p 0))).
      assert (Lw : w <= payout) by (rewrite <- W; apply wage_le).
      destruct (validator_payout _ _ _ _ _) as [s1 e1] eqn:E1. destruct (pay_each _ _ _ _ vs s1 _) as [[s2 t2] e2] eqn:E2.
      injection H as <- <- <-.
      destruct (payout_paid _ _ _ _ _ _ P H0 E1) as (A1 & A2 & A3 & A4 & A5 & A6 & A7).
      + intros a Ha. split; [apply (He v); [now left|auto]|]. specialize (Hf a). nia.
      + intros l El. specialize (Hl v l El). nia.
      + assert (Py : forall u, payee_of s1 u = payee_of s u) by (intros; unfold payee_of; now rewrite A3, A4).
        assert (Rs : forall u, restakes s1 u = restakes s u) by (intros; unfold restakes; now rewrite A4).
        rewrite add128_exact in E2 by nia.
        destruct (IH _ _ _ _ _ A5 E2) as (I1 & I2 & I3 & I4 & I5).
        * intros u a Hu Hp. rewrite Py in Hp. rewrite A1. assert (ed <= free_of (k_bank s) a) by (apply (He u); [now right|auto]). lia.
        * intros a. rewrite A1. specialize (Hf a). unfold wage_to. destruct (bool_decide _); nia.
        * intros st l El. rewrite A2 in El. destruct (stake_of s st) as [l0|] eqn:E0; [|discriminate]. injection El as <-.
          specialize (Hl st l0 E0). unfold grown, restake. cbn. destruct (_ && _); nia.
        * nia.
        * cbn [map lsum]. rewrite W. split; [|split; [|split; [|split; congruence]]].
          -- intros a. rewrite I1, A1.
             rewrite (map_ext (fun u => wage_to s1 u (wage pts payout u) a) (fun u => wage_to s u (wage pts payout u) a)); [lia|].
             intros u. unfold wage_to. now rewrite Py.
          -- intros st. rewrite I2, A2.
             rewrite (map_ext (fun u => restake s1 u (wage pts payout u) st) (fun u => restake s u (wage pts payout u) st))
               by (intros u; unfold restake; now rewrite Rs).
             destruct (stake_of s st); cbn; [|auto]. now rewrite grown_grown.
          -- rewrite I3. lia.
  Qed.

  Lemma end_session_paid x s i s' ev :
    linv (view s) -> fits cfg s -> 0 < ed -> end_session cfg x s i = (s', ev) -> i + 1 < two32 ->
    (forall e, ends_era s i e ->
       all_points s e <= PERBILL -> (forall v, points_of s e v <= all_points s e) ->
       (forall v a, v ∈ elected s e -> payee_of s v = Some a -> ed <= free_of (k_bank s) a) ->
       (forall a, free_of (k_bank s) a + N.of_nat (length (elected s e)) * p_reward (k_par s) < two128) ->
       let pay := N.min (p_reward (k_par s)) (pool_of cfg (k_del s)) in
       exists w : N -> N,
         (forall v, if points_of s e v =? 0 then w v = 0 else fair pay (points_of s e v) (all_points s e) (w v)) /\
         (forall a, free_of (k_bank s') a =
            free_of (k_bank s) a + lsum (map (fun v => if bool_decide (payee_of s v = Some a) then w v else 0) (elected s e))) /\
         (forall st, stake_of s' st =
            grown (lsum (map (fun v => if (v =? st) && restakes s v then w v else 0) (elected s e))) <$> stake_of s st) /\
         pool_of cfg (k_del s') = pool_of cfg (k_del s) - lsum (map w (elected s e))) /\
    ((forall e, ~ ends_era s i e) -> s' = s /\ ev = []).
  Proof.
    intros I F H0 H Hi. pose proof (linv_pairs _ I) as P. unfold end_session in H. destruct F as (F1 & F2 & _ & F4).
    destruct (e_act (k_era s)) as [[e0 begun]|] eqn:Ea.
    2:{ split; [intros e [E _]; congruence|]. injection H as <- <-. auto. }
    rewrite !add32_exact in H by lia.
    destruct (e_start (k_era s) !! (e0 + 1)) as [st0|] eqn:Es.
    2:{ split; [|injection H as <- <-; auto]. intros e [E1 E2]. rewrite Ea in E1. injection E1 as <- ->. congruence. }
    destruct ((st0 =? i + 1) && begun) eqn:Eb.
    2:{ split; [|injection H as <- <-; auto]. intros e [E1 E2]. rewrite Ea in E1. injection E1 as <- ->. rewrite Es in E2. injection E2 as ->.
        rewrite N.eqb_refl in Eb. discriminate. }
    apply andb_true_iff in Eb as [Eb ->]. apply N.eqb_eq in Eb. subst st0.
    split; [|intros Hno; destruct (Hno e0); split; auto].
    intros e [E1 _] Hp1 Hp2 He Hf. rewrite Ea in E1. injection E1 as ->. cbn zeta.
    unfold pay_validators in H. unfold elected, all_points, points_of in *.
    set (pts := default (0, ∅) (e_points (k_era s) !! e)) in *. set (vs := default [] (e_vals (k_era s) !! e)) in *.
    set (pay := N.min _ _) in *.
    assert (Fair : forall py v, if default 0 (pts.2 !! v) =? 0 then wage pts py v = 0 else fair py (default 0 (pts.2 !! v)) pts.1 (wage pts py v)).
    { intros py v. unfold wage. cbn zeta. destruct (N.eqb_spec (default 0 (pts.2 !! v)) 0); [auto|]. apply share_fair; auto.
      specialize (Hp2 v). lia. }
    destruct (N.eqb_spec (pool_of cfg (k_del s)) 0) as [Ez|Ez].
    - injection H as <- <-. exists (fun _ => 0). assert (pay = 0) as -> by (subst pay; lia).
      assert (Z : forall (f : N -> bool), lsum (map (fun v => if f v then 0 else 0) vs) = 0).
      { intros f. generalize vs. intros q. induction q as [|v q IH]; cbn; [auto|]. destruct (f v); rewrite IH; auto. }
      split; [|split; [|split]].
      + intros v. specialize (Fair 0 v). destruct (_ =? 0); [auto|]. pose proof (wage_le pts 0 v) as L.
        replace (wage pts 0 v) with 0 in Fair by lia. exact Fair.
      + intros a. rewrite Z. lia.
      + intros st. rewrite Z, grown_0. auto.
      + lia.
    - destruct (pay_each _ _ _ _ _ _ _) as [[s1 t1] e1] eqn:E1. injection H as <- <-.
      assert (Lp : pay <= p_reward (k_par s)) by (subst pay; lia).
      destruct (pay_each_paid _ _ _ H0 _ _ _ _ _ _ P E1) as (A1 & A2 & A3 & A4 & A5).
      + intros v a. apply He.
      + intros a. specialize (Hf a). nia.
      + intros st l El. assert (exists c, s_ledger (k_stk s) !! c = Some l) as [c Ec].
        { unfold stake_of in El. destruct (s_bonded _ !! st); [eauto|discriminate]. }
        specialize (F2 c l e Ec). fold vs in F2. nia.
      + specialize (Hf 0). nia.
      + exists (wage pts pay). split; [apply Fair|]. split; [exact A1|]. split; [exact A2|]. cbn. rewrite A3, N.add_0_l. reflexivity.
  Qed.

  (** ** Reward points *)
  Lemma call_forced x s o c s' ev :
    dispatch cfg x s o c = ROk (s', ev) ->
    (exists f, k_era s' = set_e_force (k_era s) f /\ (f = e_force (k_era s) \/ (o = Root /\ c = KForce f))) /\ p_depth (k_par s') = p_depth (k_par s) \/
    (exists v, c = KSetDepth v /\ k_par s' = set_p_depth (k_par s) v /\
       exists e, e_cur (k_era s) = Some e /\ k_era s' = clear_eras (k_era s) (ssub e (p_depth (k_par s))) (ssub e v)).
  Proof.
    intros H.
    assert (upd : forall s c l, k_era (update_ledger cfg x s c l) = k_era s /\ k_par (update_ledger cfg x s c l) = k_par s).
    { intros s0 c0 l0. unfold update_ledger, set_lock. now destruct (_ =? 0). }
    assert (stay : k_era s' = k_era s -> p_depth (k_par s') = p_depth (k_par s) ->
      (exists f, k_era s' = set_e_force (k_era s) f /\ (f = e_force (k_era s) \/ (o = Root /\ c = KForce f))) /\ p_depth (k_par s') = p_depth (k_par s) \/
      (exists v, c = KSetDepth v /\ k_par s' = set_p_depth (k_par s) v /\
       exists e, e_cur (k_era s) = Some e /\ k_era s' = clear_eras (k_era s) (ssub e (p_depth (k_par s))) (ssub e v))).
    { intros -> ->. left. split; [|auto]. exists (e_force (k_era s)). split; [now destruct (k_era s)|auto]. }
    assert (kill : forall st0 n s1, unstake cfg x s st0 n = ROk s1 -> k_era s1 = k_era s /\ k_par s1 = k_par s).
    { intros st0 n s1 E. pose proof (unstake_books _ _ _ _ _ _ E) as (_ & _ & _ & _ & A). split; [auto|].
      unfold unstake in E. inv_bind E. now injection E as <-. }
    destruct c; cbn [dispatch] in H; unfold admin, controlled, signed, root, quiet, with_par, with_del, with_stk in H;
      try (destruct o; try discriminate H; []);
      repeat match type of H with rbind (ensure _ _) _ = _ => inv_bind H end;
      try (injection H as <- <-; apply stay; reflexivity).
    - unfold staking_delegate in H. inv_bind H. inv_bind H.
      destruct (kx_level x who); [|discriminate]. inv_bind H.
      destruct (kx_dpr x who !! N.to_nat level); [|discriminate].
      destruct (kx_dpr x who !! N.to_nat n); [|discriminate].
      destruct (transfer_keep _ _ _ _ _); [|discriminate]. inv_bind H. injection H as <- <-. now apply stay.
    - unfold usdt_delegate in H. inv_bind H. inv_bind H. destruct v as [cur rest].
      destruct (0 <? _); [inv_bind H|]; injection H as <- <-; now apply stay.
    - inv_bind H. injection H as <- <-. unfold bond in E.
      repeat match type of E with rbind (ensure _ _) _ = _ => inv_bind E end.
      injection E as <-. match goal with |- context [update_ledger cfg x ?s ?c ?l] => destruct (upd s c l) as [A B] end. apply stay; rewrite ?A, ?B; reflexivity.
    - inv_bind H. injection H as <- <-. unfold bond_extra in E.
      destruct (s_bonded (k_stk s) !! who) as [c|] eqn:Eb; [|discriminate].
      destruct (s_ledger (k_stk s) !! c) as [l|] eqn:El; [|discriminate].
      destruct (_ <? _); [injection E as <-; now apply stay|].
      inv_bind E. injection E as <-. match goal with |- context [update_ledger cfg x ?s ?c ?l] => destruct (upd s c l) as [A B] end. apply stay; rewrite ?A, ?B; reflexivity.
    - unfold unbond in H. destruct (s_ledger (k_stk s) !! who) as [l|] eqn:El; [|discriminate].
      inv_bind H. destruct (_ =? 0) eqn:Ez; [injection H as <- <-; now apply stay|].
      match type of H with context [let '(_, _) := ?e in _] => destruct e end. injection H as <- <-.
      match goal with |- context [update_ledger cfg x ?s ?c ?l] => destruct (upd s c l) as [A B] end. apply stay; rewrite ?A, ?B; reflexivity.
    - unfold withdraw_unbonded in H. destruct (s_ledger (k_stk s) !! who) as [l0|] eqn:El; [|discriminate].
      destruct (bool_decide _ && _) eqn:Ek in H.
      + inv_bind H. injection H as <- <-. destruct (kill _ _ _ E) as [A B]. apply stay; rewrite ?A, ?B; reflexivity.
      + injection H as <- <-. match goal with |- context [update_ledger cfg x ?s ?c ?l] => destruct (upd s c l) as [A B] end. apply stay; rewrite ?A, ?B; reflexivity.
    - destruct (s_ledger _ !! _); [|discriminate]. injection H as <- <-. now apply stay.
    - destruct (s_ledger _ !! _); [|discriminate]. injection H as <- <-. now apply stay.
    - destruct (s_ledger _ !! _); [|discriminate]. injection H as <- <-. now apply stay.
    - inv_bind H. injection H as <- <-. now apply stay.
    - injection H as <- <-. left. split; [eexists; split; [reflexivity|auto]|auto].
    - inv_bind H. injection H as <- <-. destruct (kill _ _ _ E) as [A B]. apply stay; rewrite ?A, ?B; reflexivity.
    - inv_bind H. injection H as <- <-. now apply stay.
    - inv_bind H. injection H as <- <-. unfold do_rebond in E.
      destruct (s_ledger (k_stk s) !! who) as [l|] eqn:El; [|discriminate].
      inv_bind E. inv_bind E. injection E as <-.
      match goal with |- context [update_ledger cfg x ?s ?c ?l] => destruct (upd s c l) as [A B] end. apply stay; rewrite ?A, ?B; reflexivity.
    - destruct (e_cur (k_era s)) as [e|] eqn:Ec; injection H as <- <-; [|now apply stay]. right. exists v. split; [auto|]. split; [reflexivity|].
      exists e. auto.
    - inv_bind H. injection H as <- <-. destruct (kill _ _ _ E0) as [A B]. apply stay; rewrite ?A, ?B; reflexivity.
    - inv_bind H. injection H as <- <-. now apply stay.
    - injection H as <- <-. assert (G : forall l s, k_par (fold_left undelegate_in l s) = k_par s /\ k_era (fold_left undelegate_in l s) = k_era s).
      { induction l0; intros s0; cbn; auto. destruct (IHl0 (undelegate_in s0 a)) as [-> ->]. auto. }
      destruct (G l s) as [A B]. apply stay; rewrite ?A, ?B; reflexivity.
    - unfold compensate in H. inv_bind H. destruct (Model_Operation.mint _ _ _ _). injection H as <- <-. now apply stay.
    - inv_bind H. injection H as <- <-. now apply stay.
    - unfold npow_mint in H. inv_bind H. destruct (Model_Operation.mint _ _ _ _). injection H as <- <-. now apply stay.
    - unfold validator_burn in H. destruct (s_ledger (k_stk s) !! who) as [l|] eqn:El; [|discriminate].
      cbn zeta in H. destruct (slash_ledger v ed l) as [l' am] eqn:Es.
      destruct (cslash _ _ _ _ _) as [[b g] m]. injection H as <- <-.
      match goal with |- context [update_ledger cfg x ?s ?c ?l] => destruct (upd s c l) as [A B] end. apply stay; rewrite ?A, ?B; reflexivity.
  Qed.
  Lemma call_points x s o c s' ev :
    dispatch cfg x s o c = ROk (s', ev) ->
    (exists f, k_era s' = set_e_force (k_era s) f) /\ p_depth (k_par s') = p_depth (k_par s) \/
    (exists v, c = KSetDepth v /\ k_par s' = set_p_depth (k_par s) v /\
       exists e, e_cur (k_era s) = Some e /\ k_era s' = clear_eras (k_era s) (ssub e (p_depth (k_par s))) (ssub e v)).
  Proof. intros H. apply call_forced in H as [[(f & A & _) B]|H]; [left; eauto|right; exact H]. Qed.
End model.
