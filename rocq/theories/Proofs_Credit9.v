(** The first era of a credit history, from which the reward period counts. *)
From Verif Require Import Base Balances Model_UserPrivileges Model_Credit Spec_Credit Proofs_Arith
  Proofs_Credit Proofs_Credit2 Proofs_Credit3 Proofs_Credit4 Proofs_Credit5 Proofs_Credit6 Proofs_Credit7.
From stdpp Require Import gmap.
Open Scope N_scope.

Definition start (s : kstate) (d : N) : option N := fst <$> head (hist_of s d).
Definition restarts (op : kop) (d : N) : Prop :=
  match op.2 with
  | inl (_, KForceHistory w _) | inr (KInitHistory w) => w = d
  | inr (KSlash w (Some n)) => w = d /\ n = U64MAX
  | inr (KEvmUpdate _ u n false) => kx_e2d op.1 u = Some d /\ n = U64MAX
  | _ => False
  end.

Lemma start_hist s s' d : k_hist s' !! d = k_hist s !! d -> start s' d = start s d.
Proof. intros E. unfold start, hist_of. now rewrite E. Qed.
Lemma update_start s w era s' d : update_history s w era = ROk s' -> start s' d = start s d.
Proof.
  unfold update_history. destruct (k_uc s !! w) as [r|]; [|discriminate]. destruct (last (hist_of s w)) as [[e r0]|] eqn:El; [|now intros [= <-]].
  cbv zeta. intros [= <-]. destruct (decide (w = d)) as [->|Hn]; [|apply start_hist; cbn; now rewrite lookup_insert_ne].
  unfold start. unfold hist_of at 1. cbn [k_hist set_k_hist]. rewrite lookup_insert. cbn [default from_option id].
  apply last_Some in El as (l & ->). destruct (N.eqb_spec e era) as [->|]; [|now destruct l].
  replace (length (l ++ [(era, r0)]) - 1)%nat with (length l) by (rewrite app_length; cbn; lia).
  rewrite take_app. now destruct l.
Qed.

Section start.
  Context (cfg : kcfg) (Hstep : kc_step cfg <> U64MAX).
  Lemma credit_start s w n d : start (update_credit s w n).1 d = start s d.
  Proof. unfold update_credit. now destruct (k_uc s !! w). Qed.
  Lemma add_start s x w r s' d : do_add_credit cfg s x w r = ROk s' -> start s' d = start s d.
  Proof.
    unfold do_add_credit. destruct (k_uc s !! w); [|now intros [= <-]]. cbv zeta. destruct (hist_of _ w); [now intros [= <-]|].
    intros H. now apply (update_start _ _ _ _ d) in H.
  Qed.
  Lemma unstaking_start s x w s' d : unstaking_slash cfg s x w = ROk s' -> start s' d = start s d.
  Proof.
    unfold unstaking_slash. destruct (k_ustake s !! w); [|discriminate]. destruct (k_uc s !! w); [|discriminate]. cbv zeta.
    intros H. now apply (update_start _ _ _ _ d) in H.
  Qed.
  Lemma slash_start s x w sc s' d : slash_credit cfg s x w sc = ROk s' -> ~ (w = d /\ sc = Some U64MAX) -> start s' d = start s d.
  Proof.
    intros H Hn. unfold slash_credit in H. destruct (N.eqb_spec (default (kc_step cfg) sc) U64MAX) as [E|E].
    - injection H as <-. apply start_hist. cbn. apply lookup_delete_ne. intros ->. apply Hn. split; [done|].
      destruct sc as [n|]; cbn in E; [unfold id in E; now subst|contradiction].
    - cbv zeta in H. apply (update_start _ _ _ _ d) in H. rewrite H. now destruct (k_uc s !! w).
  Qed.
  Lemma get_reward_start s x w f t s' r d : get_reward cfg s x w f t = ROk (s', r) -> (w = d -> start s d <> None) -> start s' d = start s d.
  Proof.
    intros H Hw. revert H. unfold get_reward. destruct (_ || _); [now intros [= <- _]|].
    destruct (k_uc s !! w) as [r0|]; [|now intros [= <- _]]. destruct (cd_eras r0 =? 0); [now intros [= <- _]|]. cbv zeta.
    set (s1 := match hist_of s w with [] => init_history s w r0 (era_of cfg (kx_now x)) | _ => s end).
    assert (S1 : start s1 d = start s d).
    { subst s1. destruct (hist_of s w) eqn:Eh; [|done]. apply start_hist. cbn. apply lookup_insert_ne. intros <-.
      apply Hw; [done|]. unfold start. now rewrite Eh. }
    clearbody s1. intros H. inv_bind H.
    assert (S2 : start a d = start s d).
    { rewrite <- S1. unfold slash_offline in Ha. destruct (offline_slash_due s1 x w); [|now injection Ha as <-].
      eapply slash_start; [exact Ha|]. intros [_ H2]. discriminate. }
    destruct (hist_of a w) as [|[e0 d0] l]; [now injection H as <- _|].
    destruct (negb _ && _); [now injection H as <- _|]. inv_bind H.
    assert (S3 : start a0 d = start s d).
    { destruct (_ || _); [|now injection Ha0 as <-]. inv_bind Ha0. injection Ha0 as <-. destruct a1 as [c4 b]. cbn [fst].
      revert Ha1. unfold do_switch. destruct (k_noswitch a !! w); [now intros [= <- _]|].
      destruct (k_switch a !! _); [|now intros [= <- _]]. cbv zeta. intros H'. inv_bind H'. injection H' as <- _.
      now apply (update_start _ _ _ _ d) in Ha0 as ->. }
    destruct (get_credit_map _ _ _ _) as [[|p m]|]; [now injection H as <- _| |discriminate].
    inv_bind H. now injection H as <- _.
  Qed.
  Lemma kexec_start s x o c s' d : ~ restarts (x, inl (o, c)) d -> kexec cfg s x o c = ROk s' -> start s' d = start s d.
  Proof.
    intros Hd H. destruct c; cbn [kexec] in H;
      try (inv_bind H; injection H as <-; done);
      try (inv_bind H; inv_bind H; injection H as <-; done).
    - unfold force_history in H. inv_bind H. destruct (k_hist s !! who); [|discriminate]. destruct (restamp _ _); [|discriminate].
      injection H as <-. apply start_hist. cbn. apply lookup_insert_ne. intros ->. now apply Hd.
    - inv_bind H. inv_bind H. eapply add_start; eauto.
    - unfold burn_for_credit in H. inv_bind H. destruct (k_uc s !! a) as [r|] eqn:Er; [|discriminate].
      cbv zeta in H. destruct (_ <? _); [discriminate|]. destruct (withdraw _ _ _ _ _) as [b|]; [|discriminate].
      match type of H with context [update_credit ?t a ?n] => pose proof (credit_start t a n d) as G; destruct (update_credit t a n) as [s2 ok] end.
      inv_bind H. apply (update_start _ _ _ _ d) in Ha0. injection H as <-. cbn [fst] in G. change (start a0 d = start s d). now rewrite Ha0, G.
    - unfold burn_nft in H. inv_bind H. destruct (k_nft_credit s !! class); [|discriminate]. inv_bind H.
      destruct (k_nft_owner s !! _); [|discriminate]. inv_bind H. inv_bind H. injection H as <-.
      unfold by_burn_nft in Ha2.
      match type of Ha2 with context [update_credit ?t a ?n] => pose proof (credit_start t a n d) as G; destruct (update_credit t a n) as [s2 ok] end.
      destruct ok; [|discriminate]. apply (update_start _ _ _ _ d) in Ha2. cbn [fst] in G. match goal with |- start (set_k_from_nft ?b _) _ = _ => change (start b d = start s d) end. now rewrite Ha2, G.
    - inv_bind H. eapply unstaking_start; eauto.
    - inv_bind H. inv_bind H. eapply add_start; eauto.
    - unfold submit_price in H. inv_bind H. inv_bind H. inv_bind H. inv_bind H. now injection H as <-.
    - inv_bind H. destruct (bool_decide _); now injection H as <-.
    - inv_bind H. destruct (list_find _ _) as [[? ?]|]; now injection H as <-.
  Qed.
  Lemma kentry_start s x e s' r d : ~ restarts (x, inr e) d -> (forall f t, e = KGetReward d f t -> start s d <> None) ->
    kentry_exec cfg s x e = ROk (s', r) -> start s' d = start s d.
  Proof.
    intros Hd Hg H. pose proof (kentry_rest cfg s x e s' r Hstep H) as R. destruct e; cbn [kentry_exec] in H; unfold restarts in Hd; cbn [fst snd] in Hd.
    - inv_bind H. injection H as <- <-. unfold evm_update in Ha. destruct a as [s1 b]. cbn [fst].
      destruct (negb _); [now injection Ha as <- <-|].
      destruct (kx_e2d x user) as [w|]; [|now injection Ha as <- <-].
      destruct add.
      + destruct (k_uc s !! w) as [r0|] eqn:Er; [|now injection Ha as <- <-]. inv_bind Ha. injection Ha as <- <-. eapply add_start; eauto.
      + inv_bind Ha. injection Ha as <- <-. eapply slash_start; [exact Ha0|]. intros [-> [= ->]]. now apply Hd.
    - inv_bind H. injection H as <- <-. eapply slash_start; [exact Ha|]. intros [-> ->]. now apply Hd.
    - inv_bind H. injection H as <- <-. destruct a as [s1 q]. cbn [fst]. eapply get_reward_start; [exact Ha|]. intros ->. eauto.
    - inv_bind H. injection H as <- <-. unfold by_traffic in Ha.
      destruct (kx_onboard x who); [|now injection Ha as <-].
      destruct (update_interval _ _ _ _ _) as [n0 used].
      destruct (_ <=? n0); [|now injection Ha as <-].
      match type of Ha with context [update_credit ?t who ?n] => pose proof (credit_start t who n d) as G; destruct (update_credit t who n) as [s1 ok] eqn:Eu end.
      inv_bind Ha. injection Ha as <-. cbn [fst] in G.
      assert (E : start a0 d = start s d).
      { destruct ok; [|now injection Ha0 as <-]. apply (update_start _ _ _ _ d) in Ha0. now rewrite Ha0. }
      now destruct used.
    - inv_bind H. injection H as <- <-. unfold by_tip in Ha. destruct (kx_onboard x who); [|now injection Ha as <-].
      match type of Ha with context [update_credit ?t who ?n] => pose proof (credit_start t who n d) as G; destruct (update_credit t who n) as [s1 ok] eqn:Eu end.
      cbn [fst] in G. destruct ok; [apply (update_start _ _ _ _ d) in Ha; now rewrite Ha|now injection Ha as <-].
    - unfold init_delegator_history in H. destruct (k_uc s !! who); injection H as <- <-; [|done]. apply start_hist. cbn. apply lookup_insert_ne. intros ->. now apply Hd.
    - inv_bind H. injection H as <- <-. unfold add_or_update in Ha. cbv zeta in Ha. inv_bind Ha. injection Ha as <-.
      now apply (add_start _ _ _ _ _ d) in Ha0.
    - now injection H as <- <-.
    - inv_bind H. injection H as <- <-. eapply unstaking_start; eauto.
    - now injection H as <- <-.
    - rewrite R. apply start_hist. now rewrite (proj2 (on_initialize_credit cfg s x)).
    - rewrite R. unfold set_price. now destruct (k_prices s).
    - rewrite R. apply start_hist. now rewrite (proj2 (on_upgrade_credit cfg s x)).
    - now injection H as <- <-.
    - now injection H as <- <-.
  Qed.
  Lemma kdo_start s op d : ~ restarts op d -> (forall f t, op.2 = inr (KGetReward d f t) -> start s d <> None) ->
    start (kdo cfg s op) d = start s d.
  Proof.
    intros Hr Hg. destruct op as [x [[o c]|e]]; unfold kdo, kstep, kentry_step; cbn [fst snd] in *.
    - destruct (kexec cfg s x o c) eqn:E; [eapply kexec_start; eassumption|done..].
    - destruct (kentry_exec cfg s x e) as [[s' r]|er|] eqn:E; [|done..]. eapply kentry_start; [exact Hr| |exact E]. intros f t ->. eauto.
  Qed.
End start.
