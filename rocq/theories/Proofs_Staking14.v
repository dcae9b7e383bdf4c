(** Money in the staking pallet: what is minted, and whose money is taken. *)
From Verif Require Import Spec_Staking2 Base Balances Model_StakingLedger Model_Staking Spec_Staking
  Proofs_Balances Proofs_Arith Proofs_StakingLedger Proofs_Staking Proofs_Staking2 Proofs_Staking6.
From Verif Require Proofs_Operation Proofs_DeeperNode2.
From stdpp Require Import gmap.
Open Scope N_scope.

(** ** C61: the span found for an era is the span that contains it *)
Lemma priors_end : forall l i st sp,
  lsum l <= st -> sp ∈ priors i st l -> exists n, sn_len sp = Some n /\ sn_start sp + n <= st.
Proof.
  induction l as [|n r IH]; intros i st sp Hs Hin; cbn [priors lsum] in *; [now apply elem_of_nil in Hin|].
  apply elem_of_cons in Hin as [->|Hin].
  - exists n. cbn [sn_start sn_len]. split; [auto|lia].
  - destruct (IH (i - 1) (st - n) sp) as (m & A & B); [lia|auto|]. exists m. split; [auto|lia].
Qed.
Lemma era_span_found now s era :
  spans_ok now s -> now + 1 < two32 ->
  match era_span s era with
  | Some t => t ∈ spans_iter s /\ in_span t era
  | None => forall t, t ∈ spans_iter s -> ~ in_span t era
  end.
Proof.
  intros K Hn.
  assert (C : forall t, t ∈ spans_iter s -> contains_era t era = true <-> in_span t era).
  { intros t Hin. rewrite (spans_iter_exact now s K Hn) in Hin. destruct K as [A B C D E].
    unfold contains_era, in_span. rewrite andb_true_iff, N.leb_le.
    apply elem_of_cons in Hin as [->|Hin]; [cbn; tauto|].
    destruct (priors_end _ _ _ _ C Hin) as (n & -> & L).
    rewrite add32_exact by lia. rewrite N.ltb_lt. tauto. }
  unfold era_span. destruct (List.find _ _) as [t|] eqn:E.
  - apply find_some in E as [E1 E2]. apply elem_of_list_In in E1. split; [auto|]. now apply C.
  - intros t Hin Hs. apply (C t Hin) in Hs. apply elem_of_list_In in Hin. pose proof (find_none _ _ E t Hin). congruence.
Qed.

(** ** Money *)
Section money.
  Context (ed : N).
  (** From [b] to [b'], [m] is created and [t] taken out; nothing destroyed comes back; only accounts in [P], and
      accounts below the existential deposit, lose free balance; reserves stay. *)
  Definition bmv (P : N -> Prop) (b : bank) (m t : N) (b' : bank) : Prop :=
    (money b' + t = money b + m /\ lost b <= lost b') /\
    (forall a, free_of b' a < free_of b a -> P a \/ free_of b a < ed) /\
    (forall a, rsv (acct_of b' a) = rsv (acct_of b a)).
  Lemma bmv_refl (P : N -> Prop) b : bmv P b 0 0 b.
  Proof. split; [lia|]. split; [intros; lia|auto]. Qed.
  Lemma bmv_trans (P : N -> Prop) b m t b1 m1 t1 b2 : bmv P b m t b1 -> bmv P b1 m1 t1 b2 -> bmv P b (m + m1) (t + t1) b2.
  Proof.
    intros (A & B & C) (A1 & B1 & C1). split; [lia|]. split.
    - intros a H. destruct (N.lt_ge_cases (free_of b1 a) (free_of b a)) as [L|L]; [auto|].
      destruct (B1 a) as [Q|Q]; [lia|auto|right; lia].
    - intros a. now rewrite C1.
  Qed.
  Lemma bmv_weaken (P Q : N -> Prop) b m t b' : (forall a, P a -> Q a) -> bmv P b m t b' -> bmv Q b m t b'.
  Proof. intros H (A & B & C). split; [auto|]. split; [|auto]. intros a L. destruct (B a L); auto. Qed.
  Lemma bmv_eq (P : N -> Prop) b m t b' m' t' : bmv P b m t b' -> m' + t = m + t' -> bmv P b m' t' b'.
  Proof. intros (A & B & C) H. split; [lia|auto]. Qed.
  (** Balances out. *)
  Lemma bmv_net (P : N -> Prop) b m b' v : bmv P b (m + v) v b' -> bmv P b m 0 b'.
  Proof. intros H. apply (bmv_eq _ _ _ _ _ _ _ H). lia. Qed.

  Lemma put_bmv (P : N -> Prop) b w f z m t :
    f + t = free_of b w + m -> (f < free_of b w -> P w) ->
    bmv P b m t (put ed b w (Acct f (rsv (acct_of b w)) z)).
  Proof.
    intros E HP. split; [|split].
    - pose proof (put_money ed b w (Acct f (rsv (acct_of b w)) z)) as M. cbn in M. unfold free_of in E.
      destruct (put_lost ed b w (Acct f (rsv (acct_of b w)) z)) as [Hl _]. lia.
    - intros a L. destruct (decide (a = w)) as [->|Hn].
      + unfold free_of in *. unfold put, acct_of in *. cbn in *. destruct ((f <? ed) && _) eqn:F; cbn in *.
        * apply andb_true_iff in F as [F _]. apply N.ltb_lt in F.
          destruct (N.lt_ge_cases f (free (default acct0 (accts b !! w)))); [auto|right; lia].
        * rewrite lookup_insert in L. cbn in L. auto.
      + unfold free_of in L. rewrite put_acct_ne in L by auto. lia.
    - intros a. destruct (decide (a = w)) as [->|Hn]; [|now rewrite put_acct_ne].
      unfold put, acct_of. cbn. destruct ((f <? ed) && _) eqn:F; cbn; [|now rewrite lookup_insert].
      rewrite lookup_delete. apply andb_true_iff in F as [_ F]. apply N.eqb_eq in F. cbn. auto.
  Qed.
  Lemma deposit_bmv (P : N -> Prop) b w v : bmv P b v 0 (deposit_creating ed b w v).
  Proof.
    unfold deposit_creating. destruct (N.eqb_spec v 0) as [->|]; [apply bmv_refl|].
    destruct (_ && _); [split; [unfold money; cbn; lia|split; [unfold free_of, acct_of; cbn; intros; lia|auto]]|].
    destruct (_ <=? _); [split; [unfold money; cbn; lia|split; [unfold free_of, acct_of; cbn; intros; lia|auto]]|].
    apply put_bmv; unfold free_of; lia.
  Qed.
  Lemma mint_bmv (P : N -> Prop) b w v b' got : mint ed b w v = (b', got) -> bmv P b got 0 b'.
  Proof.
    unfold Model_Operation.mint. destruct (v =? 0); [intros [= <- <-]; apply bmv_refl|].
    destruct (_ && _); [intros [= <- <-]; apply bmv_refl|]. destruct (_ <=? _); intros [= <- <-]; [apply bmv_refl|].
    apply put_bmv; unfold free_of; lia.
  Qed.
  Lemma freeze_bmv (P : N -> Prop) cfg b w v : kc_ed cfg = ed -> bmv P b 0 0 (freeze cfg b w v).
  Proof. intros E. unfold freeze. rewrite E. apply put_bmv; unfold free_of; lia. Qed.
  Lemma burn_bmv (P : N -> Prop) b v : bmv P b v 0 (Bank (accts b) (lost b + v)).
  Proof. split; [unfold money; cbn; lia|]. split; [unfold free_of, acct_of; cbn; intros; lia|auto]. Qed.
  Lemma transfer_keep_bmv (P : N -> Prop) b src dst v b' : P src -> transfer_keep ed b src dst v = Some b' -> bmv P b 0 0 b'.
  Proof.
    intros HP. unfold transfer_keep. destruct (N.eqb_spec v 0); [intros [= <-]; apply bmv_refl|].
    destruct (N.eqb_spec src dst) as [|Hn]; [intros [= <-]; apply bmv_refl|]. cbn [orb].
    destruct (N.ltb_spec (free (acct_of b src)) v) as [|L]; [discriminate|].
    destruct (_ <? v); [discriminate|]. destruct (_ <? ed); [discriminate|]. destruct (_ <=? _); [discriminate|].
    intros [= <-].
    assert (A : bmv P b 0 v (put ed b src (Acct (free (acct_of b src) - v) (rsv (acct_of b src)) (frz (acct_of b src))))).
    { apply put_bmv; [unfold free_of; lia|auto]. }
    set (b1 := put ed b src _) in *.
    assert (E : acct_of b1 dst = acct_of b dst) by (apply put_acct_ne; congruence).
    rewrite <- E. refine (bmv_eq _ _ _ _ _ _ _ (bmv_trans _ _ _ _ _ v 0 _ A _) _); [|lia].
    apply put_bmv; unfold free_of; lia.
  Qed.
End money.

Section model.
  Context (cfg : kcfg).
  Local Notation ed := (kc_ed cfg).
  Local Notation bmv := (bmv ed).

  Lemma minted_app a b : minted (a ++ b) = minted a + minted b.
  Proof. unfold minted. rewrite map_app. induction a as [|x a IH]; cbn; lia. Qed.
  Lemma cslash_bmv x b w v b' got miss : cslash cfg x b w v = (b', got, miss) -> bmv (eq w) b 0 got b' /\ got + miss = v.
  Proof.
    unfold cslash. destruct (N.eqb_spec v 0) as [->|]; [intros [= <- <- <-]; split; [apply bmv_refl|auto]|].
    destruct (_ =? 0); [intros [= <- <- <-]; split; [apply bmv_refl|lia]|].
    intros H. injection H as <- <- <-.
    set (q := N.min v _). assert (q <= free (acct_of b w) /\ q <= v).
    { subst q. unfold ssub. destruct (kx_dies x w); lia. }
    split; [|lia]. apply put_bmv; [unfold free_of; lia|auto].
  Qed.
  Lemma mint_existing_bmv (P : N -> Prop) b w v b' got : mint_existing cfg b w v = (b', got) -> bmv P b got 0 b'.
  Proof.
    unfold mint_existing. destruct (v =? 0); [intros [= <- <-]; apply bmv_refl|].
    destruct (is_new _); [intros [= <- <-]; apply bmv_refl|]. destruct (_ <=? _); intros [= <- <-]; [apply bmv_refl|].
    apply put_bmv; unfold free_of; lia.
  Qed.
  Lemma set_lock_bmv (P : N -> Prop) x s st v : bmv P (k_bank s) 0 0 (k_bank (set_lock cfg x s st v)).
  Proof. unfold set_lock. destruct (v =? 0); [apply bmv_refl|]. cbn. now apply freeze_bmv. Qed.
  Lemma update_ledger_bmv (P : N -> Prop) x s c l : bmv P (k_bank s) 0 0 (k_bank (update_ledger cfg x s c l)).
  Proof. unfold update_ledger. cbn. apply set_lock_bmv. Qed.
  Lemma remove_lock_bmv (P : N -> Prop) x s st : bmv P (k_bank s) 0 0 (k_bank (remove_lock cfg x s st)).
  Proof. unfold remove_lock. cbn. now apply freeze_bmv. Qed.

  (** *** Payouts *)
  Lemma payout_bmv (P : N -> Prop) x s st v s' ev :
    validator_payout cfg x s st v = (s', ev) -> bmv P (k_bank s) (minted ev) 0 (k_bank s').
  Proof.
    unfold validator_payout, minted. destruct (default PStaked _).
    - destruct (_ !! st); [|intros [= <- <-]; apply bmv_refl]. destruct (_ !! n); [|intros [= <- <-]; apply bmv_refl].
      destruct (mint_existing _ _ _ _) eqn:E. intros H. injection H as <- <-. apply (mint_existing_bmv P) in E.
      cbn [map lsum fold_right]. refine (bmv_eq _ _ _ _ _ _ _ _ (bmv_trans _ _ _ _ _ _ _ _ _ E (update_ledger_bmv _ x (set_k_bank s b) _ _)) _). cbn. lia.
    - destruct (mint_existing _ _ _ _) eqn:E. intros H. injection H as <- <-. apply (mint_existing_bmv P) in E.
      cbn. now rewrite N.add_0_r.
    - destruct (_ !! st); [|intros [= <- <-]; apply bmv_refl].
      destruct (Model_Operation.mint _ _ _ _) eqn:E. intros H. injection H as <- <-. apply (mint_bmv _ P) in E.
      cbn. now rewrite N.add_0_r.
    - destruct (Model_Operation.mint _ _ _ _) eqn:E. intros H. injection H as <- <-. apply (mint_bmv _ P) in E.
      cbn. now rewrite N.add_0_r.
  Qed.
  Lemma pay_each_bmv (P : N -> Prop) x pts po : forall vs s t s' t' ev,
    pay_each cfg x pts po vs s t = (s', t', ev) -> bmv P (k_bank s) (minted ev) 0 (k_bank s').
  Proof.
    induction vs as [|v r IH]; intros s t s' t' ev H; cbn [pay_each] in H; [injection H as <- _ <-; apply bmv_refl|].
    destruct (_ =? 0); [eauto|].
    destruct (validator_payout _ _ _ _ _) as [s1 e1] eqn:E1. destruct (pay_each _ _ _ _ r s1 _) as [[s2 t2] e2] eqn:E2.
    injection H as <- _ <-. apply (payout_bmv P) in E1. apply IH in E2. rewrite minted_app. exact (bmv_trans _ _ _ _ _ _ _ _ _ E1 E2).
  Qed.
  Lemma pay_validators_bmv (P : N -> Prop) x s era s' ev :
    pay_validators cfg x s era = (s', ev) -> bmv P (k_bank s) (minted ev) 0 (k_bank s').
  Proof.
    unfold pay_validators. destruct (_ =? 0); [intros [= <- <-]; apply bmv_refl|].
    destruct (pay_each _ _ _ _ _ _ _) as [[s1 t1] e1] eqn:E. intros H. injection H as <- <-. cbn. eapply pay_each_bmv; eauto.
  Qed.
  Lemma pay_delegator_bmv (P : N -> Prop) x s d r pool s' p ev :
    pay_delegator cfg x s d r pool = (s', p, ev) -> bmv P (k_bank s) (minted ev) 0 (k_bank s').
  Proof.
    unfold pay_delegator. destruct (_ =? _); [intros [= <- _ <-]; apply bmv_refl|].
    destruct (kx_reward x d _ _); [|intros [= <- _ <-]; apply bmv_refl].
    destruct (Model_Operation.mint _ _ _ _) eqn:E. intros H; injection H as <- _ <-. apply (mint_bmv _ P) in E.
    unfold minted. cbn. now rewrite N.add_0_r.
  Qed.
  Lemma pay_referer_bmv (P : N -> Prop) s d rw pool s' p ev :
    pay_referer cfg s d rw pool = (s', p, ev) -> bmv P (k_bank s) (minted ev) 0 (k_bank s').
  Proof.
    unfold pay_referer. destruct (_ !! d); [|intros [= <- _ <-]; apply bmv_refl].
    destruct (bonus_rate _); [|intros [= <- _ <-]; apply bmv_refl].
    destruct (Model_Operation.mint _ _ _ _) eqn:E. intros H; injection H as <- _ <-. apply (mint_bmv _ P) in E.
    unfold minted. cbn. now rewrite N.add_0_r.
  Qed.
  Lemma pay_loop_bmv (P : N -> Prop) x : forall n l s pool last ct s' p' la' c' ev,
    pay_loop cfg x n l s pool last ct = (s', p', la', c', ev) -> bmv P (k_bank s) (minted ev) 0 (k_bank s').
  Proof.
    induction n as [|n IH]; intros l s pool last ct s' p' la' c' ev H; cbn [pay_loop] in H; [injection H as <- _ _ _ <-; apply bmv_refl|].
    destruct l as [|[d r] rest]; [injection H as <- _ _ _ <-; apply bmv_refl|].
    destruct (pay_delegator _ _ _ _ _ _) as [[s1 q1] e1] eqn:E1. apply (pay_delegator_bmv P) in E1.
    destruct (_ =? 0); [injection H as <- _ _ _ <-; auto|].
    destruct (pay_referer _ _ _ _ _) as [[s2 q2] e2] eqn:E2. apply (pay_referer_bmv P) in E2.
    destruct (_ =? 0); [injection H as <- _ _ _ <-; rewrite minted_app; exact (bmv_trans _ _ _ _ _ _ _ _ _ E1 E2)|].
    destruct (pay_loop _ _ _ _ _ _ _ _) as [[[[s3 q3] l3] c3] e3] eqn:E3. apply IH in E3. injection H as <- _ _ _ <-.
    rewrite !minted_app. exact (bmv_trans _ _ _ _ _ _ _ _ _ E1 (bmv_trans _ _ _ _ _ _ _ _ _ E2 E3)).
  Qed.

  (** *** Slashes *)
  Lemma undelegate_fold_bank l : forall s, k_bank (fold_left undelegate_in l s) = k_bank s.
  Proof. induction l as [|d l IH]; intros s; cbn; [auto|]. now rewrite IH. Qed.
  Lemma credit_fold_bank x l : forall s, k_bank (fold_left (credit_slash x) l s) = k_bank s.
  Proof. induction l as [|d l IH]; intros s; cbn; [auto|]. rewrite IH. unfold credit_slash. now destruct (kx_pass x d). Qed.
  Lemma pay_reps_bmv (P : N -> Prop) : forall l b each have b' left', pay_reps cfg b l each have = (b', left') ->
    exists m, bmv P b m 0 b' /\ m + left' = have.
  Proof.
    induction l as [|r l IH]; intros b each have b' left' H; cbn [pay_reps] in H.
    - injection H as <- <-. exists 0. split; [apply bmv_refl|lia].
    - apply IH in H as (m & H & E). exists (N.min each have + m). split; [|lia].
      refine (bmv_trans _ _ _ _ _ _ _ _ _ (deposit_bmv _ _ _ _ _) H).
  Qed.
  Lemma pay_reporters_bmv (P : N -> Prop) b pay sl l : bmv P b sl 0 (pay_reporters cfg b pay sl l).
  Proof.
    unfold pay_reporters. destruct (_ || _); [apply deposit_bmv|].
    destruct (pay_reps _ _ _ _ _) as [b1 have] eqn:E. apply (pay_reps_bmv P) in E as (m & A & B).
    refine (bmv_eq _ _ _ _ _ _ _ _ (bmv_trans _ _ _ _ _ _ _ _ _ A (deposit_bmv _ _ _ _ _)) _). lia.
  Qed.
  Definition slashed_in (ev : list kev) (a : N) : Prop := exists v, KSlashed a v ∈ ev.
  Lemma apply_slash_bmv x s u s' ev :
    apply_slash cfg x s u = (s', ev) -> bmv (slashed_in ev) (k_bank s) 0 0 (k_bank s') /\ minted ev = 0.
  Proof.
    unfold apply_slash. destruct (do_slash _ _ _ _ _ _) as [[[s1 pay] got] e1] eqn:E. intros H. injection H as <- <-.
    rewrite credit_fold_bank. cbn [k_bank set_k_bank].
    assert (Z : forall l, minted (map KCreditSlash l) = 0) by (induction l as [|a l IH]; cbn; auto).
    rewrite minted_app, Z.
    assert (A : bmv (slashed_in e1) (k_bank s) 0 got (k_bank s1) /\ minted e1 = 0).
    { unfold do_slash in E. destruct (_ !! u_val u); [|injection E as <- _ <- <-; split; [apply bmv_refl|auto]].
      destruct (_ !! n); [|injection E as <- _ <- <-; split; [apply bmv_refl|auto]].
      destruct (slash_ledger _ _ _) as [l' v]. destruct (v =? 0); [injection E as <- _ <- <-; split; [apply bmv_refl|auto]|].
      destruct (cslash _ _ _ _ _) as [[b g] ms] eqn:Ec. injection E as <- _ <- <-. apply cslash_bmv in Ec as [Ec _].
      split; [|reflexivity].
      refine (bmv_eq _ _ _ _ _ _ _ _ (bmv_trans _ _ _ _ _ _ _ _ _ _ (update_ledger_bmv _ x (set_k_bank s b) _ _)) _);
        [eapply bmv_weaken; [|exact Ec]|cbn; lia].
      intros a <-. exists v. left. }
    destruct A as [A ->]. split; [|auto].
    refine (bmv_eq _ _ _ _ _ _ _ _ (bmv_trans _ _ _ _ _ _ _ _ _ _ (pay_reporters_bmv _ _ _ _ _)) _).
    - eapply bmv_weaken; [|exact A]. intros a [v Hv]. exists v. apply elem_of_app. auto.
    - lia.
  Qed.
  Lemma slashed_app1 e1 e2 a : slashed_in e1 a -> slashed_in (e1 ++ e2) a.
  Proof. intros [v H]. exists v. apply elem_of_app. auto. Qed.
  Lemma slashed_app2 e1 e2 a : slashed_in e2 a -> slashed_in (e1 ++ e2) a.
  Proof. intros [v H]. exists v. apply elem_of_app. auto. Qed.
  Lemma apply_list_bmv x : forall l s s' ev,
    apply_list cfg x l s = (s', ev) -> bmv (slashed_in ev) (k_bank s) 0 0 (k_bank s') /\ minted ev = 0.
  Proof.
    induction l as [|u r IH]; intros s s' ev H; cbn [apply_list] in H; [injection H as <- <-; split; [apply bmv_refl|auto]|].
    destruct (apply_slash _ _ _ _) as [s1 e1] eqn:E1. destruct (apply_list _ _ r s1) as [s2 e2] eqn:E2. injection H as <- <-.
    apply apply_slash_bmv in E1 as [A Ma]. apply IH in E2 as [B Mb]. rewrite minted_app, Ma, Mb. split; [|auto].
    refine (bmv_trans _ _ _ 0 0 _ 0 0 _ _ _); (eapply bmv_weaken; [|eassumption]); intros a; [apply slashed_app1|apply slashed_app2].
  Qed.
  Lemma apply_eras_bmv x : forall n era s s' ev,
    apply_eras cfg x n era s = (s', ev) -> bmv (slashed_in ev) (k_bank s) 0 0 (k_bank s') /\ minted ev = 0.
  Proof.
    induction n as [|n IH]; intros era s s' ev H; cbn [apply_eras] in H; [injection H as <- <-; split; [apply bmv_refl|auto]|].
    destruct (apply_list _ _ _ _) as [s1 e1] eqn:E1. destruct (apply_eras _ _ n _ s1) as [s2 e2] eqn:E2. injection H as <- <-.
    apply apply_list_bmv in E1 as [A Ma]. apply IH in E2 as [B Mb]. rewrite minted_app, Ma, Mb. split; [|auto]. cbn in A.
    refine (bmv_trans _ _ _ 0 0 _ 0 0 _ _ _); (eapply bmv_weaken; [|eassumption]); intros a; [apply slashed_app1|apply slashed_app2].
  Qed.
  Lemma start_session_bmv x s i s' ev :
    start_session cfg x s i = (s', ev) -> bmv (slashed_in ev) (k_bank s) 0 0 (k_bank s') /\ minted ev = 0.
  Proof.
    unfold start_session. destruct (_ !! _); [|intros [= <- <-]; split; [apply bmv_refl|auto]].
    destruct (_ <=? i); [|intros [= <- <-]; split; [apply bmv_refl|auto]].
    unfold start_era, apply_unapplied. cbn zeta.
    match goal with |- context [s_first ?k] => destruct (s_first k) end; [|intros [= <- <-]; split; [apply bmv_refl|auto]].
    destruct (apply_eras _ _ _ _ _) as [s1 e1] eqn:E. intros H. injection H as <- <-. now apply apply_eras_bmv in E.
  Qed.
  Lemma kick_out_bank x s st era w now : k_bank (kick_out x s st era w now) = k_bank s.
  Proof.
    unfold kick_out. destruct (fetch_spans _ _ _) as [k0 sp]. destruct (era_span sp era); [|auto].
    destruct (_ =? _); [|auto]. now destruct (kick _ _ _ _ _ _ _) as [[[? ?] ?] ?].
  Qed.
  Lemma compute_bank x s st f ex era w now s' u ev :
    compute_slash x s st f ex era w now = (s', u, ev) -> k_bank s' = k_bank s /\ minted ev = 0.
  Proof.
    unfold compute_slash. destruct (_ =? 0); [intros [= <- _ <-]; split; [apply kick_out_bank|auto]|].
    destruct (_ <=? _); [intros [= <- _ <-]; auto|].
    destruct (fetch_spans _ _ _) as [k0 sp]. destruct (update_span _ _ _ _ _ _) as [[[[[k1 sp1] d1] df] rw] t].
    destruct (if bool_decide _ then _ else _) as [[[k2 e2] sp2] d2]. intros H. injection H as <- _ <-. split; [auto|].
    now destruct t.
  Qed.
  Lemma offender_bmv x era w act s ev o s' ev' :
    offender1 cfg x era w act (s, ev) o = (s', ev') -> exists e1, ev' = ev ++ e1 /\
    bmv (slashed_in e1) (k_bank s) 0 0 (k_bank s') /\ minted e1 = 0 /\ (kc_defer cfg <> 0 -> k_bank s' = k_bank s).
  Proof.
    destruct o as [[[st ex] reps] f]. unfold offender1. destruct (bool_decide _).
    { intros [= <- <-]. exists []. rewrite app_nil_r. split; [auto|]. split; [apply bmv_refl|]. auto. }
    destruct (compute_slash _ _ _ _ _ _ _ _) as [[s1 u] e1] eqn:E. apply compute_bank in E as [Eb Em]. destruct u as [u|].
    - destruct (N.eqb_spec (kc_defer cfg) 0) as [D|D].
      + destruct (apply_slash _ _ _ _) as [s2 e2] eqn:E2. intros H. injection H as <- <-. exists (e1 ++ e2). split; [auto|].
        apply apply_slash_bmv in E2 as [A Ma]. rewrite Eb in A. rewrite minted_app, Em, Ma. split; [|split; [auto|congruence]].
        eapply bmv_weaken; [|exact A]. intros a. apply slashed_app2.
      + intros H. injection H as <- <-. exists e1. split; [auto|]. cbn. rewrite Eb. split; [apply bmv_refl|]. auto.
    - intros H. injection H as <- <-. exists e1. split; [auto|]. rewrite Eb. split; [apply bmv_refl|]. auto.
  Qed.
  Lemma offenders_bmv x era w act : forall os s ev s' ev',
    fold_left (offender1 cfg x era w act) os (s, ev) = (s', ev') -> exists e1, ev' = ev ++ e1 /\
    bmv (slashed_in e1) (k_bank s) 0 0 (k_bank s') /\ minted e1 = 0 /\ (kc_defer cfg <> 0 -> k_bank s' = k_bank s).
  Proof.
    induction os as [|o os IH]; intros s ev s' ev' H; cbn [fold_left] in H.
    - injection H as <- <-. exists []. rewrite app_nil_r. split; [auto|]. split; [apply bmv_refl|]. auto.
    - destruct (offender1 _ _ _ _ _ _ o) as [s1 ev1] eqn:E. apply offender_bmv in E as (e1 & -> & A & Ma & Da).
      apply IH in H as (e2 & -> & B & Mb & Db). exists (e1 ++ e2). rewrite app_assoc. split; [auto|].
      rewrite minted_app, Ma, Mb. split; [|split; [auto|intros D; rewrite Db, Da; auto]].
      refine (bmv_trans _ _ _ 0 0 _ 0 0 _ _ _); (eapply bmv_weaken; [|eassumption]); intros a; [apply slashed_app1|apply slashed_app2].
  Qed.
  Lemma on_offence_bmv x s os i s' ev :
    on_offence cfg x s os i = (s', ev) ->
    bmv (slashed_in ev) (k_bank s) 0 0 (k_bank s') /\ minted ev = 0 /\ (kc_defer cfg <> 0 -> k_bank s' = k_bank s).
  Proof.
    unfold on_offence. destruct (e_act (k_era s)) as [[act b]|]; [|intros [= <- <-]; split; [apply bmv_refl|auto]].
    destruct (slash_era _ _ _); [|intros [= <- <-]; split; [apply bmv_refl|auto]].
    intros H. apply offenders_bmv in H as (e1 & -> & A). exact A.
  Qed.
  Lemma elect_bank s era s' o : elect cfg s era = (s', o) -> k_bank s' = k_bank s.
  Proof. unfold elect. destruct (_ <? _); now intros [= <- _]. Qed.
  Lemma new_session_bank s i s' ev : new_session cfg s i = (s', ev) -> k_bank s' = k_bank s /\ minted ev = 0.
  Proof.
    assert (N0 : forall s s' ev, new_era cfg s i = (s', ev) -> k_bank s' = k_bank s /\ minted ev = 0).
    { clear. intros s s' ev. unfold new_era. destruct (elect _ _ _) as [s1 o] eqn:E. apply elect_bank in E.
      destruct o; intros [= <- <-]; cbn; rewrite E; auto. }
    unfold new_session. destruct (e_cur (k_era s)); [|apply N0].
    destruct (e_force (k_era s)); [destruct (_ <=? _); [apply N0|now intros [= <- <-]]|intros H; apply N0 in H; exact H|now intros [= <- <-]|apply N0].
  Qed.

  (** Who may lose money in a step. *)
  Definition may_lose (s : kstate) (op : kop) (ev : list kev) (a : N) : Prop :=
    ((exists x i, op = KStartSession x i) \/ (exists x os i, op = KOffence x os i /\ kc_defer cfg = 0)) /\ slashed_in ev a \/
    (exists x level, op = KCall x (Signed a) (KStakeDelegate level)) \/
    (exists x c v l, op = KCall x (Signed c) (KBurnStake v) /\ s_ledger (k_stk s) !! c = Some l /\ l_stash l = a).

  Lemma call_bmv x s o c s' ev :
    dispatch cfg x s o c = ROk (s', ev) ->
    bmv (may_lose s (KCall x o c) ev) (k_bank s) (minted ev) 0 (k_bank s').
  Proof.
    intros H.
    assert (same : k_bank s' = k_bank s -> minted ev = 0 -> bmv (may_lose s (KCall x o c) ev) (k_bank s) (minted ev) 0 (k_bank s')).
    { intros -> ->. apply bmv_refl. }
    assert (Um : forall st n s1, unstake cfg x s st n = ROk s1 -> bmv (may_lose s (KCall x o c) ev) (k_bank s) 0 0 (k_bank s1)).
    { intros st n s1 E. unfold unstake in E. inv_bind E. injection E as <-. apply (remove_lock_bmv _ x (set_k_stk s v)). }
    destruct c; cbn [dispatch] in H; unfold admin, controlled, signed, root, quiet, with_par, with_del, with_stk in H;
      try (destruct o; try discriminate H; []);
      repeat match type of H with rbind (ensure _ _) _ = _ => inv_bind H end;
      try (now (injection H as <- <-; apply same)).
    - unfold staking_delegate in H. inv_bind H. inv_bind H.
      destruct (kx_level x who); [|discriminate]. inv_bind H.
      destruct (kx_dpr x who !! N.to_nat level); [|discriminate].
      destruct (kx_dpr x who !! N.to_nat n); [|discriminate].
      destruct (transfer_keep _ _ _ _ _) as [b|] eqn:Et; [|discriminate]. inv_bind H.
      injection H as <- <-. cbn. eapply transfer_keep_bmv; [|exact Et]. right. left. eauto.
    - unfold usdt_delegate in H. inv_bind H. inv_bind H. destruct v as [cur rest].
      destruct (0 <? _); [inv_bind H|]; injection H as <- <-; now apply same.
    - inv_bind H. injection H as <- <-. unfold bond in E.
      repeat match type of E with rbind (ensure _ _) _ = _ => inv_bind E end. injection E as <-.
      refine (update_ledger_bmv _ x (set_k_stk s _) _ _).
    - inv_bind H. injection H as <- <-. unfold bond_extra in E.
      destruct (s_bonded (k_stk s) !! who) as [c|]; [|discriminate]. destruct (s_ledger (k_stk s) !! c) as [l|]; [|discriminate].
      destruct (_ <? _); [injection E as <-; now apply same|]. inv_bind E. injection E as <-. apply update_ledger_bmv.
    - unfold unbond in H. destruct (s_ledger (k_stk s) !! who) as [l|]; [|discriminate].
      inv_bind H. destruct (_ =? 0); [injection H as <- <-; now apply same|].
      destruct (if _ <? _ then _ else _) as [v2 a2]. injection H as <- <-. apply update_ledger_bmv.
    - unfold withdraw_unbonded in H. destruct (s_ledger (k_stk s) !! who) as [l0|]; [|discriminate].
      destruct (bool_decide _ && _) in H.
      + inv_bind H. injection H as <- <-. apply Um in E. destruct (_ <? _); exact E.
      + injection H as <- <-. destruct (_ <? _); apply update_ledger_bmv.
    - destruct (s_ledger _ !! _); [|discriminate]. injection H as <- <-. now apply same.
    - destruct (s_ledger _ !! _); [|discriminate]. injection H as <- <-. now apply same.
    - destruct (s_ledger _ !! _); [|discriminate]. injection H as <- <-. now apply same.
    - inv_bind H. injection H as <- <-. now apply same.
    - inv_bind H. injection H as <- <-. now apply Um in E.
    - inv_bind H. injection H as <- <-. now apply same.
    - inv_bind H. injection H as <- <-. unfold do_rebond in E.
      destruct (s_ledger (k_stk s) !! who) as [l|]; [|discriminate].
      inv_bind E. inv_bind E. injection E as <-. apply update_ledger_bmv.
    - destruct (e_cur (k_era s)); injection H as <- <-; now apply same.
    - inv_bind H. injection H as <- <-. now apply Um in E0.
    - inv_bind H. injection H as <- <-. now apply same.
    - injection H as <- <-. apply same; [apply undelegate_fold_bank|]. clear. induction l as [|a l IH]; cbn; auto.
    - unfold compensate in H. inv_bind H. destruct (Model_Operation.mint _ _ _ _) eqn:Em. injection H as <- <-.
      unfold minted. cbn. rewrite N.add_0_r. eapply mint_bmv; eauto.
    - inv_bind H. injection H as <- <-. now apply same.
    - unfold npow_mint in H. inv_bind H. destruct (Model_Operation.mint _ _ _ _) eqn:Em. injection H as <- <-.
      unfold minted. cbn. rewrite N.add_0_r. eapply mint_bmv; eauto.
    - unfold validator_burn in H. destruct (s_ledger (k_stk s) !! who) as [l|] eqn:El; [|discriminate].
      destruct (slash_ledger _ _ _) as [l' amount]. destruct (cslash _ _ _ _ _) as [[b got] ms] eqn:Ec.
      injection H as <- <-. apply cslash_bmv in Ec as [Ec _].
      set (P := may_lose _ _ _).
      assert (A : bmv P (k_bank s) 0 0 (k_bank (remove_lock cfg x s (l_stash l)))) by apply remove_lock_bmv.
      assert (B : bmv P (k_bank (remove_lock cfg x s (l_stash l))) 0 got b).
      { eapply bmv_weaken; [|exact Ec]. intros a <-. right. right. eauto 8. }
      assert (C : bmv P b got 0 (Bank (accts b) (lost b + got))) by apply burn_bmv.
      pose proof (bmv_trans _ _ _ _ _ _ _ _ _ A (bmv_trans _ _ _ _ _ _ _ _ _ B C)) as D.
      set (s2 := set_k_bank _ _). pose proof (update_ledger_bmv P x s2 who l') as F.
      refine (bmv_eq _ _ _ _ _ _ _ _ (bmv_trans _ _ _ _ _ _ _ _ _ D F) _). cbn. lia.
  Qed.

  Lemma step_bmv s op s' out :
    (forall b, op <> KBank b) -> kstep cfg s op = (s', out) ->
    bmv (may_lose s op (events [out])) (k_bank s) (minted (events [out])) 0 (k_bank s').
  Proof.
    intros Nb H.
    assert (Ev : forall ev, events [KDone ev] = ev) by (intros ev; unfold events; cbn; apply app_nil_r).
    destruct op as [x o c|x| |i|x i|x i|a|x os i|b]; cbn [kstep] in H.
    - destruct (dispatch cfg x s o c) as [[s1 ev]|e|] eqn:E; cbn [settle] in H; injection H as <- <-; rewrite ?Ev.
      + now apply call_bmv.
      + apply bmv_refl.
      + apply bmv_refl.
    - unfold on_initialize in H. destruct (0 <? _); [|injection H as <- <-; apply bmv_refl].
      destruct (_ =? 0).
      + destruct (_ =? 0); injection H as <- <-; apply bmv_refl.
      + unfold pay_delegators in H. destruct (_ =? 0); [injection H as <- <-; apply bmv_refl|].
        destruct (pay_loop _ _ _ _ _ _ _) as [[[[s3 p3] l3] c3] e3] eqn:E3.
        cbn [settle] in H. injection H as <- <-. rewrite Ev. cbn. eapply pay_loop_bmv; eauto.
    - injection H as <- <-. unfold on_finalize. destruct (e_act (k_era s)) as [[? []]|]; apply bmv_refl.
    - destruct (new_session cfg s i) as [s1 ev] eqn:E. cbn [settle] in H. injection H as <- <-. rewrite Ev.
      apply new_session_bank in E as [-> ->]. apply bmv_refl.
    - destruct (start_session cfg x s i) as [s1 ev] eqn:E. cbn [settle] in H. injection H as <- <-. rewrite Ev.
      apply start_session_bmv in E as [A ->]. eapply bmv_weaken; [|exact A]. intros a Ha. left. eauto.
    - destruct (end_session cfg x s i) as [s1 ev] eqn:E. cbn [settle] in H. injection H as <- <-. rewrite Ev.
      unfold end_session in E. destruct (e_act (k_era s)) as [[i0 b]|]; [|injection E as <- <-; apply bmv_refl].
      destruct (_ !! _); [|injection E as <- <-; apply bmv_refl].
      destruct (_ && _); [|injection E as <- <-; apply bmv_refl]. eapply pay_validators_bmv; eauto.
    - injection H as <- <-. unfold note_author. destruct (e_act (k_era s)) as [[? ?]|]; [|apply bmv_refl].
      destruct (default (0, ∅) _). apply bmv_refl.
    - destruct (on_offence cfg x s os i) as [s1 ev] eqn:E. cbn [settle] in H. injection H as <- <-. rewrite Ev.
      apply on_offence_bmv in E as (A & -> & D). destruct (N.eq_dec (kc_defer cfg) 0) as [Z|Z].
      + eapply bmv_weaken; [|exact A]. intros a Ha. left. split; [|auto]. right. eauto 6.
      + rewrite (D Z). apply bmv_refl.
    - now destruct (Nb b).
  Qed.

  (** ** How much is lost *)
  (** From [b] to [b'] no account loses more than [L], except for the rest of an account
      that falls below the existential deposit. *)
  Definition lost_at_most (L : N -> N) (b b' : bank) : Prop :=
    forall a, free_of b a <= free_of b' a + L a \/ free_of b a < L a + ed.
  Lemma lam_trans (L1 L2 : N -> N) b b1 b2 :
    lost_at_most L1 b b1 -> lost_at_most L2 b1 b2 -> lost_at_most (fun a => L1 a + L2 a) b b2.
  Proof. intros A B a. specialize (A a). specialize (B a). cbn. lia. Qed.
  Lemma lam_ext (L1 L2 : N -> N) b b' : lost_at_most L1 b b' -> (forall a, L1 a = L2 a) -> lost_at_most L2 b b'.
  Proof. intros A E a. rewrite <- E. apply A. Qed.
  Lemma lam_bmv b m t b' : bmv (fun _ => False) b m t b' -> lost_at_most (fun _ => 0) b b'.
  Proof.
    intros (_ & B & _) a. destruct (N.lt_ge_cases (free_of b' a) (free_of b a)) as [H|H]; [|left; lia].
    destruct (B a H); [contradiction|right; lia].
  Qed.
  Lemma lam_only b b' (w v : N) m t : bmv (eq w) b m t b' ->
    free_of b w <= free_of b' w + v \/ free_of b w < v + ed ->
    lost_at_most (fun a => if w =? a then v else 0) b b'.
  Proof.
    intros (_ & B & _) H a. destruct (N.eqb_spec w a) as [<-|Hn]; [exact H|].
    destruct (N.lt_ge_cases (free_of b' a) (free_of b a)) as [Hl|Hl]; [|left; lia].
    destruct (B a Hl); [contradiction|right; lia].
  Qed.
  Lemma put_free b w f r z : free_of (put ed b w (Acct f r z)) w = f \/ f < ed.
  Proof.
    unfold free_of, put, acct_of. cbn. destruct ((f <? ed) && _) eqn:F; cbn.
    - apply andb_true_iff in F as [F _]. apply N.ltb_lt in F. auto.
    - rewrite lookup_insert. auto.
  Qed.
  Lemma cslash_lam x b w v b' got miss : cslash cfg x b w v = (b', got, miss) -> lost_at_most (fun a => if w =? a then v else 0) b b'.
  Proof.
    intros H. pose proof (cslash_bmv _ _ _ _ _ _ _ H) as [M _]. apply (lam_only _ _ _ _ _ _ M). revert H.
    unfold cslash. destruct (N.eqb_spec v 0) as [->|]; [intros [= <- <- <-]; left; lia|].
    destruct (_ =? 0); [intros [= <- <- <-]; left; lia|].
    intros H. injection H as <- <- <-. set (q := N.min v _). assert (q <= v) by (subst q; lia).
    destruct (put_free b w (free (acct_of b w) - q) (rsv (acct_of b w)) (frz (acct_of b w))) as [E|E].
    - rewrite E. left. unfold free_of. lia.
    - right. unfold free_of. lia.
  Qed.
  Lemma transfer_keep_lam b src dst v b' : transfer_keep ed b src dst v = Some b' -> lost_at_most (fun a => if a =? src then v else 0) b b'.
  Proof.
    unfold transfer_keep. destruct (N.eqb_spec v 0) as [->|]; [intros [= <-] a; left; lia|].
    destruct (N.eqb_spec src dst) as [|Hn]; [intros [= <-] a; left; lia|]. cbn [orb].
    destruct (N.ltb_spec (free (acct_of b src)) v) as [|L]; [discriminate|].
    destruct (_ <? v); [discriminate|]. destruct (_ <? ed); [discriminate|]. destruct (_ <=? _); [discriminate|].
    intros [= <-].
    set (b1 := put ed b src _).
    assert (A : lost_at_most (fun a => if a =? src then v else 0) b b1).
    { intros a. destruct (N.eqb_spec a src) as [->|Ha].
      - destruct (put_free b src (free (acct_of b src) - v) (rsv (acct_of b src)) (frz (acct_of b src))) as [E|E];
          fold b1 in E || idtac; [left; subst b1; rewrite E; unfold free_of; lia|right; unfold free_of; lia].
      - left. subst b1. unfold free_of. rewrite put_acct_ne by auto. lia. }
    refine (lam_ext _ _ _ _ (lam_trans _ _ _ _ _ A (lam_bmv _ v 0 _ _)) _); [|intros a; lia].
    assert (E : acct_of b1 dst = acct_of b dst) by (apply put_acct_ne; congruence).
    rewrite <- E. apply put_bmv; unfold free_of; lia.
  Qed.
  Lemma ss_app st a b : slash_sum st (a ++ b) = slash_sum st a + slash_sum st b.
  Proof. unfold slash_sum. rewrite map_app. induction a as [|e a IH]; cbn; lia. Qed.
  Lemma apply_slash_lam x s u s' ev :
    apply_slash cfg x s u = (s', ev) -> lost_at_most (fun a => slash_sum a ev) (k_bank s) (k_bank s').
  Proof.
    unfold apply_slash. destruct (do_slash _ _ _ _ _ _) as [[[s1 pay] got] e1] eqn:E. intros H. injection H as <- <-.
    rewrite credit_fold_bank. cbn [k_bank set_k_bank].
    assert (Z : forall a l, slash_sum a (map KCreditSlash l) = 0) by (intros a l; unfold slash_sum; induction l as [|b l IH]; cbn; auto).
    assert (A : lost_at_most (fun a => slash_sum a e1) (k_bank s) (k_bank s1)).
    { unfold do_slash in E. destruct (_ !! u_val u); [|injection E as <- _ <- <-; intros a; left; lia].
      destruct (_ !! n); [|injection E as <- _ <- <-; intros a; left; lia].
      destruct (slash_ledger _ _ _) as [l' v]. destruct (v =? 0); [injection E as <- _ <- <-; intros a; left; lia|].
      destruct (cslash _ _ _ _ _) as [[b g] ms] eqn:Ec. injection E as <- _ <- <-. apply cslash_lam in Ec.
      refine (lam_ext _ _ _ _ (lam_trans _ _ _ _ _ Ec (lam_bmv _ 0 0 _ (update_ledger_bmv _ x (set_k_bank s b) _ _))) _).
      intros a. unfold slash_sum. cbn. lia. }
    refine (lam_ext _ _ _ _ (lam_trans _ _ _ _ _ A (lam_bmv _ got 0 _ (pay_reporters_bmv _ _ _ _ _))) _).
    intros a. rewrite ss_app, Z. lia.
  Qed.
  Lemma apply_list_lam x : forall l s s' ev,
    apply_list cfg x l s = (s', ev) -> lost_at_most (fun a => slash_sum a ev) (k_bank s) (k_bank s').
  Proof.
    induction l as [|u r IH]; intros s s' ev H; cbn [apply_list] in H; [injection H as <- <-; intros a; left; lia|].
    destruct (apply_slash _ _ _ _) as [s1 e1] eqn:E1. destruct (apply_list _ _ r s1) as [s2 e2] eqn:E2. injection H as <- <-.
    refine (lam_ext _ _ _ _ (lam_trans _ _ _ _ _ (apply_slash_lam _ _ _ _ _ E1) (IH _ _ _ E2)) _). intros a. now rewrite ss_app.
  Qed.
  Lemma apply_eras_lam x : forall n era s s' ev,
    apply_eras cfg x n era s = (s', ev) -> lost_at_most (fun a => slash_sum a ev) (k_bank s) (k_bank s').
  Proof.
    induction n as [|n IH]; intros era s s' ev H; cbn [apply_eras] in H; [injection H as <- <-; intros a; left; lia|].
    destruct (apply_list _ _ _ _) as [s1 e1] eqn:E1. destruct (apply_eras _ _ n _ s1) as [s2 e2] eqn:E2. injection H as <- <-.
    refine (lam_ext _ _ _ _ (lam_trans _ _ _ _ _ (apply_list_lam _ _ _ _ _ E1) (IH _ _ _ _ E2)) _). intros a. now rewrite ss_app.
  Qed.
  Lemma start_session_lam x s i s' ev :
    start_session cfg x s i = (s', ev) -> lost_at_most (fun a => slash_sum a ev) (k_bank s) (k_bank s').
  Proof.
    unfold start_session. destruct (_ !! _); [|intros [= <- <-] a; left; lia].
    destruct (_ <=? i); [|intros [= <- <-] a; left; lia].
    unfold start_era, apply_unapplied. cbn zeta.
    match goal with |- context [s_first ?k] => destruct (s_first k) end; [|intros [= <- <-] a; left; cbn; lia].
    destruct (apply_eras _ _ _ _ _) as [s1 e1] eqn:E. intros H. injection H as <- <-. now apply apply_eras_lam in E.
  Qed.
  Lemma offenders_lam x era w act : forall os s ev s' ev',
    fold_left (offender1 cfg x era w act) os (s, ev) = (s', ev') -> exists e1, ev' = ev ++ e1 /\
    lost_at_most (fun a => slash_sum a e1) (k_bank s) (k_bank s').
  Proof.
    induction os as [|[[[st ex] reps] f] os IH]; intros s ev s' ev' H; cbn [fold_left] in H.
    - injection H as <- <-. exists []. rewrite app_nil_r. split; [auto|]. intros a. left. lia.
    - destruct (offender1 _ _ _ _ _ _ _) as [s1 ev1] eqn:E. apply IH in H as (e2 & -> & B).
      assert (A : exists e1, ev1 = ev ++ e1 /\ lost_at_most (fun a => slash_sum a e1) (k_bank s) (k_bank s1)).
      { unfold offender1 in E. destruct (bool_decide _).
        { injection E as <- <-. exists []. rewrite app_nil_r. split; [auto|]. intros a. left. lia. }
        destruct (compute_slash _ _ _ _ _ _ _ _) as [[s2 u] e1] eqn:Ec. apply compute_bank in Ec as [Eb _]. destruct u as [u|].
        - destruct (_ =? 0).
          + destruct (apply_slash _ _ _ _) as [s3 e3] eqn:E3. injection E as <- <-. exists (e1 ++ e3). split; [auto|].
            apply apply_slash_lam in E3. rewrite Eb in E3. intros a. specialize (E3 a). cbn in E3. rewrite ss_app. lia.
          + injection E as <- <-. exists e1. split; [auto|]. cbn. rewrite Eb. intros a. left. lia.
        - injection E as <- <-. exists e1. split; [auto|]. rewrite Eb. intros a. left. lia. }
      destruct A as (e1 & -> & A). exists (e1 ++ e2). rewrite app_assoc. split; [auto|].
      refine (lam_ext _ _ _ _ (lam_trans _ _ _ _ _ A B) _). intros a. now rewrite ss_app.
  Qed.
  Lemma on_offence_lam x s os i s' ev :
    on_offence cfg x s os i = (s', ev) -> lost_at_most (fun a => slash_sum a ev) (k_bank s) (k_bank s').
  Proof.
    unfold on_offence. destruct (e_act (k_era s)) as [[act b]|]; [|intros [= <- <-] a; left; lia].
    destruct (slash_era _ _ _); [|intros [= <- <-] a; left; lia].
    intros H. apply offenders_lam in H as (e1 & -> & A). exact A.
  Qed.
  Lemma step_lam s op s' out :
    linv (view s) -> (forall b, op <> KBank b) -> kstep cfg s op = (s', out) ->
    lost_at_most (cost s op (events [out])) (k_bank s) (k_bank s').
  Proof.
    intros I Nb H. pose proof (step_bmv _ _ _ _ Nb H) as (_ & M & _).
    assert (Ev : forall ev, events [KDone ev] = ev) by (intros ev; unfold events; cbn; apply app_nil_r).
    assert (none : (forall a, ~ may_lose s op (events [out]) a) -> lost_at_most (cost s op (events [out])) (k_bank s) (k_bank s')).
    { intros Z a. destruct (N.lt_ge_cases (free_of (k_bank s') a) (free_of (k_bank s) a)) as [L|L]; [|left; lia].
      destruct (M a L) as [Q|Q]; [now apply Z in Q|right; lia]. }
    assert (Fr : s' = s -> lost_at_most (cost s op (events [out])) (k_bank s) (k_bank s')).
    { intros -> a. left. lia. }
    Local Ltac nobody := let a := fresh in
      intros a [ [ [(? & ? & ?)|(? & ? & ? & ? & _)] _]|[(? & ? & ?)|(? & ? & ? & ? & ? & _)]]; discriminate.
    destruct op as [x o c|x| |i|x i|x i|a|x os i|b]; try (apply none; nobody).
    - destruct o as [|w|]; try (apply none; nobody). destruct c; try (apply none; nobody).
      + cbn [kstep] in H. destruct (dispatch _ _ _ _ _) as [[s1 ev]|e|] eqn:E; cbn [settle] in H; injection H as <- <-; [|now apply Fr|now apply Fr].
        cbn [dispatch signed] in E. inv_bind E. unfold staking_delegate in E. inv_bind E. inv_bind E.
        destruct (kx_level x w) as [cur|] eqn:El; [|discriminate]. inv_bind E.
        destruct (kx_dpr x w !! N.to_nat level) as [hi|] eqn:Eh; [|discriminate].
        destruct (kx_dpr x w !! N.to_nat cur) as [lo|] eqn:Eo; [|discriminate].
        destruct (transfer_keep _ _ _ _ _) as [b|] eqn:Et; [|discriminate]. inv_bind E. injection E as <- <-.
        apply transfer_keep_lam in Et. refine (lam_ext _ _ _ _ Et _). intros a. unfold cost. rewrite El. cbn [default from_option id].
        rewrite Eh, Eo. reflexivity.
      + cbn [kstep] in H. destruct (dispatch _ _ _ _ _) as [[s1 ev]|e|] eqn:E; cbn [settle] in H; injection H as <- <-; [|now apply Fr|now apply Fr].
        rewrite Ev. cbn [dispatch signed] in E. unfold validator_burn in E. destruct (s_ledger (k_stk s) !! w) as [l|] eqn:El; [|discriminate].
        destruct (slash_ledger _ _ _) as [l' amount]. destruct (cslash _ _ _ _ _) as [[b got] ms] eqn:Ec.
        injection E as <- <-. apply cslash_lam in Ec. pose proof (li_ledger _ I _ _ El) as Eb. cbn in Eb.
        assert (A : lost_at_most (fun _ => 0) (k_bank s) (k_bank (remove_lock cfg x s (l_stash l)))).
        { eapply lam_bmv, remove_lock_bmv. }
        set (s2 := set_k_bank _ _). assert (C : lost_at_most (fun _ => 0) b (k_bank (update_ledger cfg x s2 w l'))).
        { exact (lam_bmv _ _ _ _ (update_ledger_bmv _ x s2 w l')). }
        refine (lam_ext _ _ _ _ (lam_trans _ _ _ _ _ A (lam_trans _ _ _ _ _ Ec C)) _).
        intros a. unfold cost, burnt. cbn [map lsum]. destruct (N.eqb_spec (l_stash l) a) as [<-|Hn].
        * rewrite bool_decide_true by exact Eb. cbn. lia.
        * rewrite bool_decide_false; [cbn; lia|]. intros E. destruct (li_bonded _ I _ _ E) as (l1 & E1 & E2). cbn in E1. congruence.
    - cbn [kstep] in H. destruct (start_session _ _ _ _) as [s1 ev] eqn:E. cbn in H. injection H as <- <-. rewrite Ev.
      now apply start_session_lam in E.
    - cbn [kstep] in H. destruct (on_offence _ _ _ _ _) as [s1 ev] eqn:E. cbn in H. injection H as <- <-. rewrite Ev.
      now apply on_offence_lam in E.
  Qed.
End model.
