(** Which steps of the credit pallet remove a record, and where the price comes from. *)
From Verif Require Import Base Balances Model_UserPrivileges Model_Credit Spec_Credit Proofs_Arith
  Proofs_Credit Proofs_Credit2 Proofs_Credit3 Proofs_Credit4 Proofs_Credit6.
From stdpp Require Import gmap.
Open Scope N_scope.

(** Taking the largest number of points removes the record. *)
Definition removes (e : origin * kcall + kentry) : Prop :=
  match e with
  | inr (KSlash _ (Some n)) => n = U64MAX
  | inr (KEvmUpdate _ _ n false) => n = U64MAX
  | _ => False
  end.

Section records.
  Context (cfg : kcfg).
  Definition grown (s s' : kstate) : Prop := forall v, is_Some (k_uc s !! v) -> is_Some (k_uc s' !! v).
  Lemma grown_refl s : grown s s.
  Proof. now intros v. Qed.
  Lemma grown_uc s s' : k_uc s' = k_uc s -> grown s s'.
  Proof. intros E v. now rewrite E. Qed.
  Lemma grown_insert s s' w d : k_uc s' = <[w := d]> (k_uc s) -> grown s s'.
  Proof. intros E v H. rewrite E, lookup_insert_is_Some. destruct (decide (w = v)); auto. Qed.
  Lemma update_history_uc s w era s' : update_history s w era = ROk s' -> k_uc s' = k_uc s.
  Proof.
    unfold update_history. destruct (k_uc s !! w); [|discriminate]. destruct (last _) as [[e ?]|]; now intros [= <-].
  Qed.
  Lemma add_uc s x w d s' : do_add_credit cfg s x w d = ROk s' -> k_uc s' = <[w := d]> (k_uc s).
  Proof.
    unfold do_add_credit. destruct (k_uc s !! w); [|now intros [= <-]].
    cbv zeta. destruct (hist_of _ w); [now intros [= <-]|]. intros H. now apply update_history_uc in H.
  Qed.
  Lemma update_credit_uc s w n : grown s (update_credit s w n).1.
  Proof. unfold update_credit. destruct (k_uc s !! w); cbn [fst]; [eapply grown_insert; reflexivity|apply grown_refl]. Qed.
  Lemma fold_setting_uc l : forall s, k_uc (fold_left update_setting l s) = k_uc s.
  Proof. induction l as [|a l IH]; intros s; [done|]. cbn [fold_left]. now rewrite IH. Qed.

  Lemma init_uc s x : k_uc (on_initialize cfg s x) = k_uc s.
  Proof.
    unfold on_initialize. cbv zeta. destruct (kx_now x mod kc_bpe cfg =? 0); [|reflexivity].
    destruct (k_change_era s =? 0); [reflexivity|].
    match goal with |- k_uc (if ?b then _ else _) = _ => destruct b end; [|reflexivity].
    generalize (sub_genesis_apy ((era_of cfg (kx_now x) - k_change_era s) / 180)). intros l. apply fold_setting_uc.
  Qed.
  Lemma upgrade_uc s x : k_uc (on_upgrade cfg s x) = k_uc s.
  Proof.
    unfold on_upgrade. cbv zeta. destruct (k_version s =? 4); [|reflexivity].
    generalize half_campaign8. intros l. match goal with |- context [half_campaign7 ?n] => generalize (half_campaign7 n) end. intros l'.
    cbn [k_uc set_k_version]. now rewrite !fold_setting_uc.
  Qed.

  Lemma kexec_record s x o c s' : kexec cfg s x o c = ROk s' -> grown s s'.
  Proof.
    destruct c; cbn [kexec]; intros H;
      try (inv_bind H; injection H as <-; apply grown_uc; reflexivity);
      try (inv_bind H; inv_bind H; injection H as <-; apply grown_uc; reflexivity);
      try (inv_bind H; inv_bind H; apply add_uc in H; eapply grown_insert, H).
    - unfold force_history in H. inv_bind H. destruct (k_hist s !! who); [|discriminate]. destruct (restamp _ _); [|discriminate].
      injection H as <-. apply grown_uc. reflexivity.
    - unfold burn_for_credit in H. inv_bind H. destruct (k_uc s !! a) as [d|]; [|discriminate].
      cbv zeta in H. destruct (_ <? _); [discriminate|]. destruct (withdraw _ _ _ _ _) as [b|]; [|discriminate].
      match type of H with context [update_credit ?t a ?n] => pose proof (update_credit_uc t a n) as G; destruct (update_credit t a n) as [s2 ok] end.
      inv_bind H. apply update_history_uc in Ha0. injection H as <-. intros v Hv. cbn. rewrite Ha0. apply G. exact Hv.
    - unfold burn_nft in H. inv_bind H. destruct (k_nft_credit s !! class); [|discriminate]. inv_bind H.
      destruct (k_nft_owner s !! _); [|discriminate]. inv_bind H. inv_bind H. injection H as <-.
      unfold by_burn_nft in Ha2.
      match type of Ha2 with context [update_credit ?t a ?n] => pose proof (update_credit_uc t a n) as G; destruct (update_credit t a n) as [s2 ok] end.
      destruct ok; [|discriminate]. apply update_history_uc in Ha2. intros v Hv. cbn. rewrite Ha2. apply G. exact Hv.
    - inv_bind H. unfold unstaking_slash in H. destruct (k_ustake s !! who); [|discriminate].
      destruct (k_uc s !! who); [|discriminate]. cbv zeta in H. apply update_history_uc in H. cbn in H. eapply grown_insert, H.
    - unfold submit_price in H. inv_bind H. inv_bind H. inv_bind H. inv_bind H. injection H as <-. apply grown_uc. reflexivity.
    - inv_bind H. destruct (bool_decide _); injection H as <-; apply grown_uc; reflexivity.
    - inv_bind H. destruct (list_find _ _) as [[? ?]|]; injection H as <-; apply grown_uc; reflexivity.
  Qed.

  Lemma kentry_record s x e s' r :
    kc_step cfg <> U64MAX -> ~ removes (inr e) -> kentry_exec cfg s x e = ROk (s', r) -> grown s s'.
  Proof.
    intros Hs Hr H. pose proof (kentry_rest cfg s x e s' r Hs H) as R. destruct e; cbn [kentry_exec] in H.
    - inv_bind H. injection H as <- <-. unfold evm_update in Ha. destruct a as [s1 b]. cbn [fst].
      destruct (negb _); [injection Ha as <- <-; apply grown_refl|].
      destruct (kx_e2d x user) as [w|]; [|injection Ha as <- <-; apply grown_refl].
      destruct add.
      + destruct (k_uc s !! w); [|injection Ha as <- <-; apply grown_refl]. inv_bind Ha. injection Ha as <- <-.
        apply add_uc in Ha0. eapply grown_insert, Ha0.
      + inv_bind Ha. injection Ha as <- <-. intros v. now apply (slash_keeps cfg s x w (Some score) a v).
    - inv_bind H. injection H as <- <-. intros v. apply (slash_keeps cfg s x who score a v); [|done].
      destruct score; [exact Hr|exact Hs].
    - inv_bind H. injection H as <- <-. destruct a as [s1 q]. intros v. cbn [fst]. now apply (get_reward_keeps cfg s x who from to s1 q v).
    - inv_bind H. injection H as <- <-. unfold by_traffic in Ha.
      destruct (kx_onboard x who); [|injection Ha as <-; apply grown_refl].
      destruct (update_interval _ _ _ _ _) as [n0 used].
      destruct (_ <=? n0); [|injection Ha as <-; apply grown_refl].
      match type of Ha with context [update_credit ?t who ?n] => pose proof (update_credit_uc t who n) as G; destruct (update_credit t who n) as [s1 ok] eqn:Eu end.
      inv_bind Ha. injection Ha as <-.
      assert (E : k_uc a0 = k_uc s1).
      { destruct ok; [|now injection Ha0 as <-]. now apply update_history_uc in Ha0. }
      intros v Hv. destruct used; cbn; rewrite E; now apply G.
    - inv_bind H. injection H as <- <-. unfold by_tip in Ha. destruct (kx_onboard x who); [|injection Ha as <-; apply grown_refl].
      match type of Ha with context [update_credit ?t who ?n] => pose proof (update_credit_uc t who n) as G; destruct (update_credit t who n) as [s1 ok] eqn:Eu end.
      destruct ok; [apply update_history_uc in Ha|injection Ha as <-; exact G]. intros v Hv. rewrite Ha. now apply G.
    - unfold init_delegator_history in H. destruct (k_uc s !! who); injection H as <- <-; apply grown_uc; reflexivity.
    - inv_bind H. injection H as <- <-. unfold add_or_update in Ha. cbv zeta in Ha. inv_bind Ha. injection Ha as <-.
      apply add_uc in Ha0. cbn. eapply grown_insert. cbn. exact Ha0.
    - injection H as <- <-. apply grown_uc. reflexivity.
    - inv_bind H. injection H as <- <-. unfold unstaking_slash in Ha. destruct (k_ustake s !! who); [|discriminate].
      destruct (k_uc s !! who); [|discriminate]. cbv zeta in Ha. apply update_history_uc in Ha. cbn in Ha. eapply grown_insert, Ha.
    - injection H as <- <-. apply grown_uc. reflexivity.
    - rewrite R. apply grown_uc, init_uc.
    - rewrite R. apply grown_uc. unfold set_price. now destruct (k_prices s).
    - rewrite R. apply grown_uc, upgrade_uc.
    - injection H as <- <-. apply grown_uc. reflexivity.
    - injection H as <- <-. apply grown_uc. reflexivity.
  Qed.

  Lemma kdo_record s op : kc_step cfg <> U64MAX -> ~ removes op.2 -> grown s (kdo cfg s op).
  Proof.
    intros Hs Hr. destruct op as [x [[o c]|e]]; unfold kdo, kstep, kentry_step; cbn [fst snd] in *.
    - destruct (kexec cfg s x o c) eqn:E; [eapply kexec_record, E|apply grown_refl..].
    - destruct (kentry_exec cfg s x e) as [[s' r]|er|] eqn:E; [eapply kentry_record; eassumption|apply grown_refl..].
  Qed.

  (** ** Prices *)
  Definition prices (s : kstate) : list N * option N := (k_prices s, k_price s).
  Lemma fold_setting_prices l : forall s, prices (fold_left update_setting l s) = prices s.
  Proof. induction l as [|a l IH]; intros s; [done|]. cbn [fold_left]. now rewrite IH. Qed.
  Lemma init_prices s x : prices (on_initialize cfg s x) = prices s.
  Proof.
    unfold on_initialize. cbv zeta. destruct (kx_now x mod kc_bpe cfg =? 0); [|reflexivity].
    destruct (k_change_era s =? 0); [reflexivity|].
    match goal with |- prices (if ?b then _ else _) = _ => destruct b end; [|reflexivity].
    generalize (sub_genesis_apy ((era_of cfg (kx_now x) - k_change_era s) / 180)). intros l. apply fold_setting_prices.
  Qed.
  Lemma upgrade_prices s x : prices (on_upgrade cfg s x) = prices s.
  Proof.
    unfold on_upgrade. cbv zeta. destruct (k_version s =? 4); [|reflexivity].
    generalize half_campaign8. intros l. match goal with |- context [half_campaign7 ?n] => generalize (half_campaign7 n) end. intros l'.
    rewrite <- (fold_setting_prices l s), <- (fold_setting_prices l' (fold_left update_setting l s)). reflexivity.
  Qed.
  Lemma rest_prices s s' : same_rest s s' -> prices s' = prices s.
  Proof. intros ->. reflexivity. Qed.
  Lemma kdo_prices s op :
    kc_step cfg <> U64MAX ->
    prices (kdo cfg s op) = prices s \/
    (exists p, p <> 0 /\ prices (kdo cfg s op) = (k_prices s ++ [p], k_price s)) \/
    (op.2 = inr KFinalize /\ kdo cfg s op = set_price s).
  Proof.
    intros Hs. destruct op as [x [[o c]|e]]; unfold kdo, kstep, kentry_step; cbn [fst snd].
    - destruct (kexec cfg s x o c) as [s'|er|] eqn:E; [|now left..]. cbn [fst].
      pose proof (kexec_rest cfg s x o c s' E) as R.
      destruct c; try (right; left; destruct R as (a & _ & _ & Hp & _ & ->); exists price; split; [exact Hp|reflexivity]);
        left; repeat match type of R with ex _ => destruct R as [? R] | _ /\ _ => destruct R as [? R] end;
        try (apply rest_prices in R; rewrite R; reflexivity); try (rewrite R; reflexivity).
    - destruct (kentry_exec cfg s x e) as [[s' r]|er|] eqn:E; [|now left..]. cbn [fst].
      pose proof (kentry_rest cfg s x e s' r Hs E) as R.
      destruct e; try (left; apply rest_prices in R; rewrite R; reflexivity).
      + left. destruct R as [->|[R|[R|R]]]; [done|apply rest_prices in R; rewrite R; reflexivity..].
      + left. rewrite R. reflexivity.
      + left. rewrite R. reflexivity.
      + left. rewrite R. apply init_prices.
      + right. right. split; [done|exact R].
      + left. rewrite R. apply upgrade_prices.
      + left. destruct R as [? ->]. reflexivity.
      + left. rewrite R. reflexivity.
  Qed.
End records.
