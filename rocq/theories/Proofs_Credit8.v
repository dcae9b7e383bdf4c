(** Which steps of the credit pallet can take an account's score below a threshold. *)
From Verif Require Import Base Balances Model_UserPrivileges Model_Credit Spec_Credit Proofs_Arith
  Proofs_Credit Proofs_Credit2 Proofs_Credit3 Proofs_Credit4 Proofs_Credit5 Proofs_Credit6 Proofs_Credit7.
From stdpp Require Import gmap.
Open Scope N_scope.

(** [M] are the devices in maintenance. *)
Definition drops (M : list N) (op : kop) (d : N) : Prop :=
  match op.2 with
  | inl (_, KUnstakingSlash w) | inl (_, KAddData w _) | inl (_, KExternalData w _) => w = d
  | inr (KUnstaking w) => w = d
  | inr (KSlash w n) => w = d /\ n <> Some 0
  | inr (KEvmUpdate _ u _ false) => kx_e2d op.1 u = Some d
  | inr (KGetReward w _ _) => w = d /\ 0 < kx_offline op.1 d /\ kx_offline op.1 d mod 3 = 0 /\ d ∉ M
  | _ => False
  end.

Section pass.
  Context (cfg : kcfg) (m : N) (Hmin : m <= U64MAX) (Hstep : kc_step cfg <> U64MAX).
  Definition over (s : kstate) (d : N) : Prop := exists r, k_uc s !! d = Some r /\ m <= cd_credit r.
  Lemma over_uc s s' d : k_uc s' !! d = k_uc s !! d -> over s d -> over s' d.
  Proof. intros E (r & H1 & H2). exists r. now rewrite E. Qed.
  Lemma over_insert s s' w r d : k_uc s' = <[w := r]> (k_uc s) -> (w = d -> over s d -> m <= cd_credit r) -> over s d -> over s' d.
  Proof.
    intros E H O. destruct (decide (w = d)) as [->|Hn].
    - exists r. rewrite E, lookup_insert. auto.
    - eapply over_uc; [|exact O]. now rewrite E, lookup_insert_ne.
  Qed.
  Lemma over_raise c n r : m <= cd_credit r -> cd_credit r = c -> m <= sadd64 c n.
  Proof. intros H <-. unfold sadd64. unfold U64MAX in Hmin. lia. Qed.
  Lemma update_over s w n d : (forall r, k_uc s !! w = Some r -> m <= cd_credit r -> m <= n) -> over s d -> over (update_credit s w n).1 d.
  Proof.
    intros H O. unfold update_credit. destruct (k_uc s !! w) as [r|] eqn:E; [|exact O]. cbn [fst].
    eapply over_insert; [reflexivity| |exact O]. intros -> (r' & H1 & H2). rewrite E in H1. injection H1 as <-. cbn. eapply H; eauto.
  Qed.
  Lemma score_over s w r n : k_uc s !! w = Some r -> m <= cd_credit r -> m <= sadd64 (default 0 (credit_score s w)) n.
  Proof. intros E H. unfold credit_score. rewrite E. cbn. eapply over_raise; eauto. Qed.

  Lemma kexec_over s x o c s' d : ~ drops (k_maintain s) (x, inl (o, c)) d -> kexec cfg s x o c = ROk s' -> over s d -> over s' d.
  Proof.
    intros Hd H O. destruct c; cbn [kexec] in H;
      try (inv_bind H; injection H as <-; exact O);
      try (inv_bind H; inv_bind H; injection H as <-; exact O).
    - unfold force_history in H. inv_bind H. destruct (k_hist s !! who); [|discriminate]. destruct (restamp _ _); [|discriminate].
      injection H as <-. exact O.
    - inv_bind H. inv_bind H. apply add_uc in H. eapply over_insert; [exact H| |exact O]. intros ->. now destruct Hd.
    - unfold burn_for_credit in H. inv_bind H. destruct (k_uc s !! a) as [r|] eqn:Er; [|discriminate].
      cbv zeta in H. destruct (_ <? _); [discriminate|]. destruct (withdraw _ _ _ _ _) as [b|]; [|discriminate].
      match type of H with context [update_credit ?t a ?n] => pose proof (update_over t a n d) as G; destruct (update_credit t a n) as [s2 ok] end.
      inv_bind H. apply update_history_uc in Ha0. injection H as <-. eapply over_uc; [cbn; now rewrite Ha0|]. apply G; [|exact O].
      cbn. intros r' E' Hr. rewrite Er in E'. injection E' as <-. eapply over_raise; eauto.
    - unfold burn_nft in H. inv_bind H. destruct (k_nft_credit s !! class); [|discriminate]. inv_bind H.
      destruct (k_nft_owner s !! _); [|discriminate]. inv_bind H. inv_bind H. injection H as <-.
      unfold by_burn_nft in Ha2.
      match type of Ha2 with context [update_credit ?t a ?n] => pose proof (update_over t a n d) as G; destruct (update_credit t a n) as [s2 ok] end.
      destruct ok; [|discriminate]. apply update_history_uc in Ha2. eapply over_uc; [cbn; now rewrite Ha2|]. apply G; [|exact O].
      intros r' E' Hr. now apply (score_over _ _ r').
    - inv_bind H. unfold unstaking_slash in H. destruct (k_ustake s !! who); [|discriminate].
      destruct (k_uc s !! who); [|discriminate]. cbv zeta in H. apply update_history_uc in H. cbn in H.
      eapply over_insert; [exact H| |exact O]. intros ->. now destruct Hd.
    - inv_bind H. inv_bind H. apply add_uc in H. eapply over_insert; [exact H| |exact O]. intros ->. now destruct Hd.
    - unfold submit_price in H. inv_bind H. inv_bind H. inv_bind H. inv_bind H. injection H as <-. exact O.
    - inv_bind H. destruct (bool_decide _); injection H as <-; exact O.
    - inv_bind H. destruct (list_find _ _) as [[? ?]|]; injection H as <-; exact O.
  Qed.
  Lemma slash_other_over s x w n s' d : slash_credit cfg s x w n = ROk s' -> w <> d -> over s d -> over s' d.
  Proof. intros H Hn. apply over_uc. apply (slash_other cfg s x w n s' d H). congruence. Qed.
  Lemma get_reward_over s x w f t s' r d :
    get_reward cfg s x w f t = ROk (s', r) -> ~ (0 < kx_offline x d /\ kx_offline x d mod 3 = 0 /\ d ∉ k_maintain s) -> over s d -> over s' d.
  Proof.
    intros H Ho O. destruct (decide (d = w)) as [->|Hn].
    2: { eapply over_uc; [|exact O]. apply (get_reward_other cfg s x w f t s' r d Hstep H Hn). }
    destruct O as (r0 & E0 & M). revert H. unfold get_reward. destruct (_ || _); [intros [= <- _]; now exists r0|].
    rewrite E0. destruct (cd_eras r0 =? 0); [intros [= <- _]; now exists r0|]. cbv zeta.
    set (s1 := match hist_of s w with [] => init_history s w r0 (era_of cfg (kx_now x)) | _ => s end).
    assert (U1 : k_uc s1 !! w = Some r0) by (subst s1; destruct (hist_of s w); exact E0).
    assert (M1 : k_maintain s1 = k_maintain s) by (subst s1; now destruct (hist_of s w)). clearbody s1.
    intros H. inv_bind H. unfold slash_offline in Ha. destruct (offline_slash_due s1 x w) eqn:Ed.
    { exfalso. apply Ho. unfold offline_slash_due in Ed. rewrite !andb_true_iff, N.ltb_lt, N.eqb_eq, M1, negb_true_iff, bool_decide_eq_false in Ed. tauto. }
    injection Ha as <-.
    assert (G : over s1 w) by now exists r0.
    destruct (hist_of s1 w) as [|[e0 d0] l]; [injection H as <- _; exact G|].
    destruct (negb _ && _); [injection H as <- _; exact G|]. inv_bind H.
    assert (U3 : over a w).
    { destruct (_ || _); [|injection Ha as <-; exact G]. inv_bind Ha. injection Ha as <-. destruct a0 as [c4 b]. cbn [fst].
      revert Ha0. unfold do_switch. destruct (k_noswitch s1 !! w); [intros [= <- _]; exact G|].
      destruct (k_switch s1 !! _); [|intros [= <- _]; exact G]. cbv zeta. intros H'. inv_bind H'. injection H' as <- _.
      apply update_history_uc in Ha. cbn in Ha. eapply over_insert; [exact Ha| |exact G]. intros _ _. now destruct (cd_camp r0 =? _). }
    destruct (get_credit_map _ _ _ _) as [[|p q]|]; [injection H as <- _; exact U3| |discriminate].
    inv_bind H. injection H as <- _. exact U3.
  Qed.
  Lemma kentry_over s x e s' r d : ~ drops (k_maintain s) (x, inr e) d -> kentry_exec cfg s x e = ROk (s', r) -> over s d -> over s' d.
  Proof.
    intros Hd H O. pose proof (kentry_rest cfg s x e s' r Hstep H) as R. destruct e; cbn [kentry_exec] in H; unfold drops in Hd; cbn [fst snd] in Hd.
    - inv_bind H. injection H as <- <-. unfold evm_update in Ha. destruct a as [s1 b]. cbn [fst].
      destruct (negb _); [injection Ha as <- <-; exact O|].
      destruct (kx_e2d x user) as [w|]; [|injection Ha as <- <-; exact O].
      destruct add.
      + destruct (k_uc s !! w) as [r0|] eqn:Er; [|injection Ha as <- <-; exact O]. inv_bind Ha. injection Ha as <- <-.
        apply add_uc in Ha0. eapply over_insert; [exact Ha0| |exact O]. intros -> (r1 & E1 & M). rewrite Er in E1. injection E1 as <-.
        cbn. eapply over_raise; eauto.
      + inv_bind Ha. injection Ha as <- <-. eapply slash_other_over; [exact Ha0| |exact O]. intros ->. now destruct Hd.
    - inv_bind H. injection H as <- <-. destruct (decide (who = d)) as [->|Hw]; [|eapply slash_other_over; eassumption].
      destruct (decide (score = Some 0)) as [->|Hw]; [|now destruct Hd].
      unfold slash_credit in Ha. cbn [default] in Ha. change (default (kc_step cfg) (Some 0) =? U64MAX) with false in Ha. cbv iota zeta in Ha.
      apply update_history_uc in Ha. destruct O as (r1 & E1 & L). rewrite E1 in Ha. eapply over_insert; [exact Ha| |now exists r1].
      intros _ _. cbn. unfold id. lia.
    - inv_bind H. injection H as <- <-. destruct a as [s1 q]. cbn [fst].
      destruct (decide (who = d)) as [->|Hn].
      + eapply get_reward_over; [exact Ha| |exact O]. tauto.
      + eapply over_uc; [|exact O]. assert (Hn' : d <> who) by congruence. apply (get_reward_other cfg s x who from to s1 q d Hstep Ha Hn').
    - inv_bind H. injection H as <- <-. unfold by_traffic in Ha.
      destruct (kx_onboard x who); [|injection Ha as <-; exact O].
      destruct (update_interval _ _ _ _ _) as [n0 used].
      destruct (_ <=? n0); [|injection Ha as <-; exact O].
      match type of Ha with context [update_credit ?t who ?n] => pose proof (update_over t who n d) as G; destruct (update_credit t who n) as [s1 ok] eqn:Eu end.
      inv_bind Ha. injection Ha as <-.
      assert (E : k_uc a0 = k_uc s1).
      { destruct ok; [|now injection Ha0 as <-]. now apply update_history_uc in Ha0. }
      assert (O1 : over s1 d) by (apply G; [intros; eapply score_over; eauto|exact O]).
      destruct used; (eapply over_uc; [|exact O1]); cbn; now rewrite E.
    - inv_bind H. injection H as <- <-. unfold by_tip in Ha. destruct (kx_onboard x who); [|injection Ha as <-; exact O].
      match type of Ha with context [update_credit ?t who ?n] => pose proof (update_over t who n d) as G; destruct (update_credit t who n) as [s1 ok] eqn:Eu end.
      assert (O1 : over s1 d) by (apply G; [intros; eapply score_over; eauto|exact O]).
      destruct ok; [apply update_history_uc in Ha|injection Ha as <-; exact O1]. eapply over_uc; [now rewrite Ha|exact O1].
    - unfold init_delegator_history in H. destruct (k_uc s !! who); injection H as <- <-; exact O.
    - inv_bind H. injection H as <- <-. unfold add_or_update in Ha. cbv zeta in Ha. inv_bind Ha. injection Ha as <-.
      apply add_uc in Ha0. assert (O1 : over a0 d); [|exact O1]. eapply over_insert; [exact Ha0| |exact O].
      intros -> (r1 & E1 & M). rewrite E1. cbn. eapply over_raise; eauto.
    - injection H as <- <-. exact O.
    - inv_bind H. injection H as <- <-. unfold unstaking_slash in Ha. destruct (k_ustake s !! who); [|discriminate].
      destruct (k_uc s !! who); [|discriminate]. cbv zeta in Ha. apply update_history_uc in Ha. cbn in Ha.
      eapply over_insert; [exact Ha| |exact O]. intros ->. now destruct Hd.
    - injection H as <- <-. exact O.
    - rewrite R. eapply over_uc; [|exact O]. now rewrite init_uc.
    - rewrite R. eapply over_uc; [|exact O]. unfold set_price. now destruct (k_prices s).
    - rewrite R. eapply over_uc; [|exact O]. now rewrite upgrade_uc.
    - injection H as <- <-. exact O.
    - injection H as <- <-. exact O.
  Qed.
  Lemma kdo_over s op d : ~ drops (k_maintain s) op d -> over s d -> over (kdo cfg s op) d.
  Proof.
    intros Hr O. destruct op as [x [[o c]|e]]; unfold kdo, kstep, kentry_step; cbn [fst snd] in *.
    - destruct (kexec cfg s x o c) eqn:E; [eapply kexec_over; eassumption|exact O..].
    - destruct (kentry_exec cfg s x e) as [[s' r]|er|] eqn:E; [eapply kentry_over; eassumption|exact O..].
  Qed.
End pass.
