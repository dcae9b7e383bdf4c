(** Proofs about what a credit record says besides its score. *)
From Verif Require Import Base Balances Model_UserPrivileges Model_Credit Spec_Credit Proofs_Arith
  Proofs_Credit Proofs_Credit7 Spec_Record.
From stdpp Require Import gmap.
From Coq Require Import Lia.
Open Scope N_scope.

Section record.
  Context (cfg : kcfg).

  (** Every record is an old one but for the score. *)
  Definition keeps (s s' : kstate) : Prop :=
    forall w d', k_uc s' !! w = Some d' -> exists d, k_uc s !! w = Some d /\ besides d' = besides d.

  Lemma keeps_uc s s' : k_uc s' = k_uc s -> keeps s s'.
  Proof. intros E w d'. rewrite E. eauto. Qed.
  Lemma keeps_trans s1 s2 s3 : keeps s1 s2 -> keeps s2 s3 -> keeps s1 s3.
  Proof.
    intros A B w d3 H. destruct (B w d3 H) as (d2 & H2 & E2). destruct (A w d2 H2) as (d1 & H1 & E1).
    exists d1. split; [exact H1|congruence].
  Qed.
  Lemma keeps_insert s s' w d d0 : k_uc s' = <[w := d]> (k_uc s) -> k_uc s !! w = Some d0 -> besides d = besides d0 ->
    keeps s s'.
  Proof.
    intros E H0 B v d'. rewrite E. destruct (decide (w = v)) as [<-|Hn].
    - rewrite lookup_insert. intros [= <-]. eauto.
    - rewrite lookup_insert_ne by exact Hn. eauto.
  Qed.

  Lemma keeps_update_credit s w n : keeps s (update_credit s w n).1.
  Proof.
    unfold update_credit. destruct (k_uc s !! w) as [d|] eqn:E; cbn [fst]; [|now apply keeps_uc].
    eapply keeps_insert; [reflexivity|exact E|reflexivity].
  Qed.
  Lemma keeps_history s w era s' : update_history s w era = ROk s' -> keeps s s'.
  Proof. intros H. apply keeps_uc. now apply update_history_uc in H. Qed.

  Lemma keeps_slash s x who sc s' : slash_credit cfg s x who sc = ROk s' -> keeps s s'.
  Proof.
    unfold slash_credit. set (p := default _ _). clearbody p.
    destruct (k_uc s !! who) as [d|] eqn:E.
    - destruct (p =? U64MAX).
      + intros [= <-] v d'. cbn. intros H. apply lookup_delete_Some in H as [_ H]. eauto.
      + intros H. apply keeps_history in H. eapply keeps_trans; [|exact H].
        eapply keeps_insert; [reflexivity|exact E|reflexivity].
    - destruct (p =? U64MAX); [|intros H; apply keeps_history in H; exact H].
      intros [= <-] v d'. cbn. intros H. apply lookup_delete_Some in H as [_ H]. eauto.
  Qed.

  (** The first era of a history stays. *)
  Definition first_era (s : kstate) (who : N) : option N := fst <$> head (hist_of s who).
  Lemma history_first s w era s' v : update_history s w era = ROk s' -> first_era s' v = first_era s v.
  Proof.
    unfold update_history, first_era, hist_of. destruct (k_uc s !! w); [|discriminate].
    destruct (last (default [] (k_hist s !! w))) as [[e d]|] eqn:L; [|now intros [= <-]].
    intros [= <-]. cbn. destruct (decide (w = v)) as [<-|Hn].
    - rewrite lookup_insert. cbn. revert L. destruct (default [] (k_hist s !! w)) as [|[e1 d1] l]; [discriminate|].
      destruct l as [|p l].
      + cbn. intros [= <- <-]. destruct (N.eqb_spec e1 era) as [->|]; reflexivity.
      + intros _. destruct (e =? era); reflexivity.
    - now rewrite lookup_insert_ne by exact Hn.
  Qed.
  Lemma slash_first s x who s' p r : slash_offline cfg s x who = ROk s' -> hist_of s' who = p :: r ->
    first_era s who = Some p.1.
  Proof.
    unfold slash_offline. destruct (offline_slash_due s x who).
    - unfold slash_credit. destruct (_ =? U64MAX).
      + intros [= <-]. unfold hist_of. cbn. rewrite lookup_delete. discriminate.
      + intros H E. apply (history_first _ _ _ _ who) in H. unfold first_era at 1 in H. rewrite E in H.
        cbn [head fmap option_fmap option_map] in H. rewrite H. destruct (k_uc s !! who); reflexivity.
    - intros [= <-] E. unfold first_era. now rewrite E.
  Qed.

  (** Same, or moved to another campaign. *)
  Lemma reward_record s x who from to s' r w d' :
    get_reward cfg s x who from to = ROk (s', r) -> k_uc s' !! w = Some d' ->
    exists d, k_uc s !! w = Some d /\
      (besides d' = besides d \/ (w = who /\ moves_on cfg s (x, inr (KGetReward who from to)) who d d')).
  Proof.
    unfold get_reward. cbv zeta. set (cur := era_of cfg (kx_now x)).
    assert (K : forall s2, keeps s s2 -> k_uc s2 !! w = Some d' -> exists d, k_uc s !! w = Some d /\
      (besides d' = besides d \/ (w = who /\ moves_on cfg s (x, inr (KGetReward who from to)) who d d'))).
    { intros s2 K H. destruct (K w d' H) as (d & E & B). eauto. }
    destruct ((to <? from) || (cur <=? to)); [intros [= <- <-]; apply K, keeps_uc; reflexivity|].
    destruct (k_uc s !! who) as [d|] eqn:Ed; [|intros [= <- <-]; apply K, keeps_uc; reflexivity].
    destruct (cd_eras d =? 0) eqn:Ez; [intros [= <- <-]; apply K, keeps_uc; reflexivity|].
    set (s1 := match hist_of s who with [] => init_history s who d cur | _ => s end).
    assert (U1 : k_uc s1 = k_uc s) by (subst s1; destruct (hist_of s who); reflexivity).
    assert (F1 : first_era s1 who = Some (paid_from cfg s x who)).
    { unfold first_era, paid_from. subst s1. unfold hist_of at 2.
      destruct (default [] (k_hist s !! who)) as [|[e d1] l] eqn:Eh.
      - unfold hist_of, init_history. cbn. rewrite lookup_insert. reflexivity.
      - unfold hist_of. rewrite Eh. reflexivity. }
    assert (R1 : k_noswitch s1 = k_noswitch s /\ k_switch s1 = k_switch s)
      by (subst s1; destruct (hist_of s who); split; reflexivity).
    intros H. inv_bind H. rename a into s2.
    assert (K2 : keeps s s2).
    { apply (keeps_trans s s1); [now apply keeps_uc|]. unfold slash_offline in Ha.
      destruct (offline_slash_due s1 x who); [now apply keeps_slash in Ha|]. injection Ha as <-. now apply keeps_uc. }
    assert (R2 : k_noswitch s2 = k_noswitch s /\ k_switch s2 = k_switch s).
    { destruct R1 as [<- <-]. unfold slash_offline in Ha. destruct (offline_slash_due s1 x who).
      - unfold slash_credit in Ha. destruct (_ =? U64MAX); [injection Ha as <-; split; reflexivity|].
        set (sx := match k_uc s1 !! who with Some d => _ | None => _ end) in Ha.
        assert (Rx : k_noswitch sx = k_noswitch s1 /\ k_switch sx = k_switch s1)
          by (subst sx; destruct (k_uc s1 !! who); split; reflexivity).
        destruct Rx as [<- <-]. clearbody sx. unfold update_history in Ha.
        destruct (k_uc sx !! who); [|discriminate]. destruct (last _) as [[? ?]|]; inversion Ha; split; reflexivity.
      - injection Ha as <-. split; reflexivity. }
    destruct (hist_of s2 who) as [|[e0 d0] l] eqn:Eh; [injection H as <- <-; now apply K|].
    pose proof (slash_first _ _ _ _ _ _ Ha Eh) as F2. rewrite F1 in F2. cbn [fst] in F2.
    assert (F3 : e0 = paid_from cfg s x who) by congruence. subst e0. clear F2. set (e0 := paid_from cfg s x who) in *. set (ex := sub32 (add32 e0 (cd_eras d)) 1) in *.
    destruct (negb ((from =? ex) || (cd_camp d <=? 6)) && (ex <? from)); [injection H as <- <-; now apply K|].
    inv_bind H. rename a into s3.
    assert (s' = s3) as ->.
    { destruct (get_credit_map _ _ _ _) as [[|p m]|]; [now injection H as <- <-| |discriminate].
      inv_bind H. now injection H as <- <-. }
    clear H. intros H3.
    destruct ((from =? ex) || (cd_camp d <=? 6)) eqn:Eb; [|injection Ha0 as <-; now apply (K s2)].
    inv_bind Ha0. destruct a as [sx b]. injection Ha0 as <-. cbn [fst] in H3. unfold do_switch in Ha1.
    destruct (k_noswitch s2 !! who) as [ns|] eqn:En; [injection Ha1 as <- <-; now apply (K s2)|].
    destruct (k_switch s2 !! cd_camp d) as [id|] eqn:Es; [|injection Ha1 as <- <-; now apply (K s2)].
    inv_bind Ha1. injection Ha1 as <- <-. apply update_history_uc in Ha0.
    cbn in Ha0. rewrite Ha0 in H3. destruct (decide (who = w)) as [<-|Hn].
    - rewrite lookup_insert in H3. exists d. split; [exact Ed|]. right. split; [reflexivity|].
      exists from, to, id. split; [reflexivity|]. destruct R2 as [N2 S2]. split.
      { apply orb_true_iff in Eb as [Eb|Eb]; [|left; now apply N.leb_le]. right.
        apply N.eqb_eq in Eb. intros Hlt. cbn [fst] in *. fold e0 in Hlt |- *. subst ex.
        assert (Hadd : add32 e0 (cd_eras d) = e0 + cd_eras d) by (unfold add32, w32; now apply N.mod_small).
        rewrite Hadd in Eb. rewrite Eb.
        apply N.eqb_neq in Ez.
        unfold sub32. change (w32 1) with 1. unfold w32.
        replace (e0 + cd_eras d + (two32 - 1)) with (e0 + cd_eras d - 1 + 1 * two32) by (unfold two32; lia).
        rewrite N.mod_add by (unfold two32; lia). rewrite N.mod_small by lia. lia. }
      split; [now rewrite <- N2|]. split; [now rewrite <- S2|]. injection H3 as <-.
      destruct (N.eqb_spec (cd_camp d) id) as [Hi|Hi]; cbn; [rewrite Hi; reflexivity|reflexivity].
    - rewrite lookup_insert_ne in H3 by exact Hn. now apply (K s2).
  Qed.
  Local Notation explained := (explained cfg).

  Lemma keeps_explained s s' op w d' : keeps s s' -> k_uc s' !! w = Some d' -> explained s op w d'.
  Proof. intros K H. destruct (K w d' H) as (d & E & B). left. eauto. Qed.

  Lemma add_explained s x op w0 d s' w d' : do_add_credit cfg s x w0 d = ROk s' ->
    writes op w0 d -> k_uc s' !! w = Some d' -> explained s op w d'.
  Proof.
    intros H W. rewrite (add_uc _ _ _ _ _ _ H). destruct (decide (w0 = w)) as [<-|Hn].
    - rewrite lookup_insert. intros [= <-]. right. now left.
    - rewrite lookup_insert_ne by exact Hn. intros E. left. eauto.
  Qed.

  Lemma unstake_explained s x op who s' w d' : unstaking_slash cfg s x who = ROk s' ->
    unstakes op who -> k_uc s' !! w = Some d' -> explained s op w d'.
  Proof.
    unfold unstaking_slash. destruct (k_ustake s !! who) as [st|]; [|discriminate].
    destruct (k_uc s !! who) as [d|] eqn:Ed; [|discriminate]. intros H U.
    apply update_history_uc in H. cbn in H. rewrite H. destruct (decide (who = w)) as [<-|Hn].
    - rewrite lookup_insert. intros [= <-]. left. exists d. split; [exact Ed|]. right. right. split; [exact U|].
      unfold begun, besides, cd_new. cbn. now rewrite level_of_band.
    - rewrite lookup_insert_ne by exact Hn. intros E. left. eauto.
  Qed.

  Lemma keeps_by_burn s x who add s' : by_burn_nft cfg s x who add = ROk s' -> keeps s s'.
  Proof.
    unfold by_burn_nft. pose proof (keeps_update_credit s who (sadd64 (default 0 (credit_score s who)) add)) as K.
    destruct (update_credit _ _ _) as [s1 ok]. cbn [fst] in K. destruct ok; [|discriminate].
    intros H. eapply keeps_trans; [exact K|]. now apply keeps_history in H.
  Qed.

  Lemma call_explained s x o c s' w d' : kexec cfg s x o c = ROk s' -> k_uc s' !! w = Some d' ->
    explained s (x, inl (o, c)) w d'.
  Proof.
    destruct c; cbn [kexec]; intros H;
      try (inv_bind H; injection H as <-; apply keeps_explained, keeps_uc; reflexivity);
      try (inv_bind H; inv_bind H; injection H as <-; apply keeps_explained, keeps_uc; reflexivity).
    - unfold force_history in H. inv_bind H. destruct (k_hist s !! who); [|discriminate]. destruct (restamp _ _); [|discriminate].
      injection H as <-. apply keeps_explained, keeps_uc. reflexivity.
    - inv_bind H. inv_bind H. apply (add_explained _ _ _ _ _ _ _ _ H). left. cbn.
      destruct o; cbn in Ha; try discriminate. reflexivity.
    - unfold burn_for_credit in H. inv_bind H. destruct (k_uc s !! a) as [d|]; [|discriminate]. cbv zeta in H.
      destruct (max_credit cfg s a <? _); [discriminate|]. destruct (withdraw _ _ _ _ _) as [b|]; [|discriminate].
      match type of H with context [update_credit ?s1 a ?t] =>
        pose proof (keeps_update_credit s1 a t) as K; destruct (update_credit s1 a t) as [s2 ok] end.
      cbn [fst] in K. inv_bind H. injection H as <-. apply keeps_explained. apply (keeps_trans s s2); [exact K|].
      apply (keeps_trans s2 a0); [now apply keeps_history in Ha0|apply keeps_uc; reflexivity].
    - unfold burn_nft in H. inv_bind H. destruct (k_nft_credit s !! class) as [cr|]; [|discriminate]. cbv zeta in H.
      inv_bind H. destruct (k_nft_owner s !! (class, item)); [|discriminate]. inv_bind H. inv_bind H. injection H as <-.
      apply keeps_explained. apply keeps_by_burn in Ha2. exact Ha2.
    - inv_bind H. apply (unstake_explained _ _ _ _ _ _ _ H). right. unfold ensure_admin in Ha. inv_bind Ha.
      inv_bind Ha. apply ensure_ok in Ha1. destruct o as [|a2|]; cbn in Ha0; try discriminate. injection Ha0 as ->. eauto.
    - inv_bind H. inv_bind H. apply (add_explained _ _ _ _ _ _ _ _ H). right. unfold ensure_admin in Ha. inv_bind Ha.
      inv_bind Ha. apply ensure_ok in Ha2. destruct o as [|a3|]; cbn in Ha1; try discriminate. injection Ha1 as ->. eauto.
    - unfold submit_price in H. inv_bind H. inv_bind H. inv_bind H. inv_bind H. injection H as <-. apply keeps_explained, keeps_uc. reflexivity.
    - inv_bind H. injection H as <-. apply keeps_explained, keeps_uc. destruct (bool_decide _); reflexivity.
    - inv_bind H. injection H as <-. apply keeps_explained, keeps_uc. destruct (list_find _ _) as [[? ?]|]; reflexivity.
  Qed.

  Lemma entry_explained s x e s' r w d' : kentry_exec cfg s x e = ROk (s', r) -> k_uc s' !! w = Some d' ->
    explained s (x, inr e) w d'.
  Proof.
    destruct e; cbn [kentry_exec]; intros H;
      try (injection H as <- <-; apply keeps_explained, keeps_uc; reflexivity).
    - inv_bind H. injection H as <- <-. destruct a as [s1 b]. cbn [fst]. unfold evm_update in Ha.
      destruct (negb _); [injection Ha as <- <-; apply keeps_explained, keeps_uc; reflexivity|].
      destruct (kx_e2d x user) as [u|]; [|injection Ha as <- <-; apply keeps_explained, keeps_uc; reflexivity].
      destruct add.
      + destruct (k_uc s !! u) as [d|] eqn:Ed; [|injection Ha as <- <-; apply keeps_explained, keeps_uc; reflexivity].
        inv_bind Ha. injection Ha as <- <-. apply add_uc in Ha0. apply keeps_explained.
        eapply keeps_insert; [exact Ha0|exact Ed|reflexivity].
      + inv_bind Ha. injection Ha as <- <-. apply keeps_explained. now apply keeps_slash in Ha0.
    - inv_bind H. injection H as <- <-. apply keeps_explained. now apply keeps_slash in Ha.
    - inv_bind H. injection H as <- <-. destruct a as [s1 rw]. cbn [fst]. intros Hw.
      destruct (reward_record _ _ _ _ _ _ _ _ _ Ha Hw) as (d & Ed & [B|[-> M]]); left; exists d; auto.
    - inv_bind H. injection H as <- <-. apply keeps_explained. unfold by_traffic in Ha.
      destruct (kx_onboard x who); [|injection Ha as <-; apply keeps_uc; reflexivity].
      destruct (update_interval _ _ _ _ _) as [n0 used]. destruct (_ <=? n0); [|injection Ha as <-; apply keeps_uc; reflexivity].
      pose proof (keeps_update_credit s who (sadd64 (default 0 (credit_score s who)) 1)) as K.
      destruct (update_credit _ _ _) as [s1 ok]. cbn [fst] in K. inv_bind Ha. injection Ha as <-.
      apply (keeps_trans s s1); [exact K|]. apply (keeps_trans s1 a0); [|apply keeps_uc; destruct used; reflexivity].
      destruct ok; [|injection Ha0 as <-; apply keeps_uc; reflexivity]. apply keeps_history in Ha0. exact Ha0.
    - inv_bind H. injection H as <- <-. apply keeps_explained. unfold by_tip in Ha.
      destruct (kx_onboard x who); [|injection Ha as <-; apply keeps_uc; reflexivity].
      pose proof (keeps_update_credit s who (sadd64 (default 0 (credit_score s who)) add)) as K.
      destruct (update_credit _ _ _) as [s1 ok]. cbn [fst] in K. apply (keeps_trans s s1); [exact K|].
      destruct ok; [|injection Ha as <-; apply keeps_uc; reflexivity]. now apply keeps_history in Ha.
    - unfold init_delegator_history in H. destruct (k_uc s !! who); injection H as <- <-; apply keeps_explained, keeps_uc; reflexivity.
    - inv_bind H. injection H as <- <-. unfold add_or_update in Ha. cbv zeta in Ha. inv_bind Ha. injection Ha as <-.
      apply add_uc in Ha0. cbn. rewrite Ha0. destruct (decide (who = w)) as [<-|Hn].
      + rewrite lookup_insert. intros [= <-]. destruct (k_uc s !! who) as [d|] eqn:Ed.
        * left. exists d. split; [exact Ed|]. now left.
        * right. right. split; [exact Ed|]. exists gap, camp. split; [reflexivity|]. split; [reflexivity|].
          unfold begun, besides, cd_new. cbn. now rewrite level_of_band.
      + rewrite lookup_insert_ne by exact Hn. intros E. left. eauto.
    - inv_bind H. injection H as <- <-. apply (unstake_explained _ _ _ _ _ _ _ Ha). now left.
    - injection H as <- <-. apply keeps_explained, keeps_uc, init_uc.
    - injection H as <- <-. apply keeps_explained, keeps_uc. unfold set_price. destruct (k_prices s); reflexivity.
    - injection H as <- <-. apply keeps_explained, keeps_uc, upgrade_uc.
  Qed.

  Lemma step_explained s op w d' : k_uc (kdo cfg s op) !! w = Some d' -> explained s op w d'.
  Proof.
    destruct op as [x [[o c]|e]]; unfold kdo; cbn [fst snd].
    - unfold kstep. destruct (kexec cfg s x o c) as [s'| |] eqn:E; cbn [fst].
      + now apply call_explained.
      + apply keeps_explained, keeps_uc. reflexivity.
      + apply keeps_explained, keeps_uc. reflexivity.
    - unfold kentry_step. destruct (kentry_exec cfg s x e) as [[s' r]| |] eqn:E; cbn [fst].
      + now apply entry_explained with (r := r).
      + apply keeps_explained, keeps_uc. reflexivity.
      + apply keeps_explained, keeps_uc. reflexivity.
  Qed.

  Lemma span_more b e : span b e -> span b ((e + 180) mod two32).
  Proof.
    intros [k ->]. exists (k + 1). rewrite N.add_mod_idemp_l by (unfold two32; lia). f_equal. lia.
  Qed.

  Lemma run_spans w (P : N -> Prop) : (forall e, P e -> P ((e + 180) mod two32)) -> P (10 * 365) ->
    forall h s, Forall (unwritten w) h -> (forall d, k_uc s !! w = Some d -> P (cd_eras d)) ->
    forall d, k_uc (krun cfg s h) !! w = Some d -> P (cd_eras d).
  Proof.
    intros P1 P2. induction h as [|op h IH]; intros s U H; [exact H|].
    apply Forall_cons in U as [U1 U]. change (krun cfg s (op :: h)) with (krun cfg (kdo cfg s op) h).
    apply IH; [exact U|]. intros d' E.
    destruct (step_explained s op w d' E) as [(d & Ed & [B|[M|[_ B]]])|[W|(_ & g & c & _ & _ & B)]].
    - injection B as _ _ _ _ ->. now apply H.
    - destruct M as (f & t & id & _ & _ & _ & _ & B). injection B as _ _ _ _ ->.
      destruct (cd_camp d =? id); [apply P1; now apply H|exact P2].
    - injection B as _ _ _ _ ->. exact P2.
    - destruct (U1 _ W).
    - injection B as _ _ _ _ ->. exact P2.
  Qed.
End record.
