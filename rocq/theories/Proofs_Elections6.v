(** The invariant holds in every state the chain can reach. *)
From Verif Require Import Base Balances Proofs_Arith Proofs_Balances Model_Elections Spec_Elections
  Proofs_Elections Proofs_Elections2 Proofs_Elections3 Proofs_Elections4 Proofs_Elections5.
From Coq Require Import Sorting.Sorted.
From stdpp Require Import gmap sorting.
Open Scope N_scope.

Definition good (cfg : ecfg) (s : estate) : Prop := roles cfg s /\ books cfg s.

Section good.
  Context (cfg : ecfg) (Hel : elect_ok cfg) (Hed : 0 < ec_ed cfg).
  Local Notation ed := (ec_ed cfg).

  Lemma install_standing s ws s' ev :
    install cfg s ws = (s', ev) -> roles cfg s -> books cfg s ->
    NoDup (fst <$> ws) -> (forall w, w ∈ fst <$> ws -> w ∈ role_ids s) ->
    standing s' ≡ₚ (fun p => (p.1, deposit_in (standing s) p.1)) <$> ranked s ws.
  Proof.
    intros H Hr Hb Hn Hsub.
    pose proof (install_facts cfg s ws s' ev H Hr Hb Hn Hsub) as (E1 & E2 & E3 & _).
    unfold standing at 1. rewrite E1, E2, E3. simpl. rewrite <- !list_fmap_compose.
    rewrite (ksort_perm fst), reverse_Permutation, <- fmap_app, take_drop. reflexivity.
  Qed.
  Lemma install_bonds s ws s' ev w :
    install cfg s ws = (s', ev) -> roles cfg s -> books cfg s ->
    NoDup (fst <$> ws) -> (forall w, w ∈ fst <$> ws -> w ∈ role_ids s) ->
    bonds s' w = if decide (w ∈ fst <$> ranked s ws) then bonds s w else 0.
  Proof.
    intros H Hr Hb Hn Hsub. rewrite !bonds_standing.
    rewrite (bond_in_perm _ _ w (install_standing s ws s' ev H Hr Hb Hn Hsub)).
    assert (Hids : fst <$> ((fun p => (p.1, deposit_in (standing s) p.1)) <$> ranked s ws) = fst <$> ranked s ws).
    { rewrite <- list_fmap_compose. reflexivity. }
    destruct (decide _) as [Hw|Hw].
    - apply bond_in_at.
      + rewrite Hids. eapply sublist_NoDup; [apply ranked_sub|done].
      + apply elem_of_list_fmap in Hw as (p & -> & Hp). apply elem_of_list_fmap. exists p. split; [|done].
        rewrite deposit_in_eq; [done|]. rewrite standing_ids. apply Hr.
    - apply bond_in_out. now rewrite Hids.
  Qed.
  Lemma install_good s ws s' ev :
    install cfg s ws = (s', ev) -> good cfg s ->
    NoDup (fst <$> ws) -> (forall w, w ∈ fst <$> ws -> w ∈ role_ids s) ->
    (length ws <= ec_runners cfg + ec_members cfg)%nat -> good cfg s'.
  Proof.
    intros H [Hr Hb] Hn Hsub Hlen.
    pose proof (install_standing s ws s' ev H Hr Hb Hn Hsub) as Hst.
    pose proof (install_facts cfg s ws s' ev H Hr Hb Hn Hsub)
      as (E1 & E2 & E3 & E4 & E5 & E6 & E7 & _ & _ & _ & _ & Ha & _).
    assert (Hns : NoDup (fst <$> ranked s ws)).
    { eapply sublist_NoDup; [apply ranked_sub|done]. }
    assert (Hlr : (length (ranked s ws) <= length ws)%nat).
    { pose proof (ranked_sub s ws) as Hs. apply sublist_length in Hs. now rewrite !fmap_length in Hs. }
    split.
    - split.
      + unfold cand_ids. rewrite E1. constructor.
      + unfold member_ids. rewrite E2, <- list_fmap_compose.
        change (s_who ∘ seat_of (standing s)) with (@fst N N). apply ksort_asc.
        eapply sublist_NoDup; [|exact Hns]. apply fmap_sublist, sublist_take.
      + rewrite <- standing_ids, Hst, <- list_fmap_compose. exact Hns.
      + rewrite E2, fmap_length, (ksort_perm fst), take_length. lia.
      + rewrite E3, fmap_length, reverse_length, drop_length. lia.
    - intros w. destruct (Hb w) as (Hs & Hx & Hz & Hv). unfold book_at, vote_at, others, vote_deposit in *.
      rewrite E4, E5, E6, E7, Ha, (install_bonds s ws s' ev w H Hr Hb Hn Hsub).
      destruct (decide _) as [Hw|Hw].
      + auto.
      + simpl. split; [|split; [lia|auto]]. destruct Hs as [Hs|Hs]; [now left|right].
        rewrite Hs. reflexivity.
  Qed.

  (** An election either does nothing or installs the winners. *)
  Lemma phragmen_cases s s' ev :
    do_phragmen cfg s = (s', ev) -> roles cfg s ->
    s' = s /\ (ev = [EEmptyTerm] /\ role_ids s = [] \/ ev = [EElectionError]) \/
    exists ws, install cfg s ws = (s', ev) /\ NoDup (fst <$> ws) /\
      (forall w, w ∈ fst <$> ws -> w ∈ role_ids s) /\
      (length ws <= ec_runners cfg + ec_members cfg)%nat /\
      (length (ballots s) <= ec_maxvoters cfg)%nat /\
      ec_elect cfg (ec_runners cfg + ec_members cfg) (role_ids s)
        ((fun b => (b.1.1, to_vote (issuance (e_bank s)) b.1.2, b.2)) <$> ballots s) = Some ws.
  Proof.
    unfold do_phragmen. intros H Hr. cbv zeta in H.
    destruct (Nat.eqb_spec (length (standing s)) 0) as [H0|H0].
    { injection H as <- <-. left. split; [done|]. left. split; [done|].
      rewrite <- standing_ids. destruct (standing s); [done|discriminate]. }
    destruct (Nat.ltb_spec (ec_maxvoters cfg) (length (ballots s))) as [Hm|Hm].
    { injection H as <- <-. left. auto. }
    rewrite standing_ids in H.
    destruct (ec_elect _ _ _ _) as [ws|] eqn:E.
    - right. exists ws. destruct (Hel _ _ _ _ (r_nodup _ _ Hr) E) as (H1 & H2 & H3). auto 6.
    - injection H as <- <-. left. auto.
  Qed.
  Lemma phragmen_good s : good cfg s -> good cfg (do_phragmen cfg s).1.
  Proof.
    intros Hg. destruct (do_phragmen cfg s) as [s' ev] eqn:E. simpl.
    apply phragmen_cases in E; [|apply Hg]. destruct E as [[-> _]|(ws & H & H1 & H2 & H3 & _)]; [done|].
    eapply install_good; eauto.
  Qed.

  Lemma dispatch_good s o c s' ev : dispatch cfg s o c = ROk (s', ev) -> good cfg s -> good cfg s'.
  Proof.
    intros H [Hr Hb]. destruct c; simpl in H; destruct o as [|w|]; simpl in H; try discriminate.
    - eapply vote_good; eauto.
    - unfold remove_voter, ensure in H. destruct (is_voter s w); [|discriminate]. injection H as <- _.
      now apply unvote_good.
    - split; [eapply submit_roles; eauto|eapply submit_books; eauto].
    - unfold renounce_member in H. destruct (remove_and_replace _ _ _ _) as [[[s1 ev1] rep]|?|] eqn:E; try discriminate.
      injection H as <- _. eapply remove_good; eauto.
    - eapply runner_good; eauto.
    - eapply cand_good; eauto.
    - unfold remove_member in H. destruct (remove_and_replace _ _ _ _) as [[[s1 ev1] rep]|?|] eqn:E; try discriminate.
      pose proof (remove_good cfg _ _ _ _ _ _ E Hr Hb) as Hg. cbn [rbind] in H.
      destruct rerun.
      + pose proof (phragmen_good s1 Hg) as Hg2. destruct (do_phragmen cfg s1) as [s2 ev2]. now injection H as <- _.
      + now injection H as <- _.
    - injection H as <- _. now apply clean_good.
  Qed.

  (** What the rest of the chain does. *)
  Lemma env_good s w b own oth rsv' f r z :
    good cfg s -> moved (e_bank s) b w (Acct f r z) ->
    (forall x, x <> w -> own !! x = e_own s !! x) -> (forall x, x <> w -> oth !! x = e_oth s !! x) ->
    (forall x, x <> w -> rsv' !! x = e_rsv s !! x) -> lock_of own w = lock_of (e_own s) w ->
    (ed <= f \/ Acct f r z = acct0) ->
    r + others s w = rsv (acct_of (e_bank s) w) + default 0 (rsv' !! w) ->
    z = N.max (lock_of own w) (lock_of oth w) ->
    good cfg (set_ersv (set_locks (set_ebank s b) own oth) rsv').
  Proof.
    intros [Hr Hb] Hm H1 H2 H3 H4 H5 H6 H7. split; [destruct Hr; split; auto|].
    intros x. destruct (decide (x = w)) as [->|Hn].
    - destruct (Hb w) as (Hs & Hx & Hz & Hv). unfold book_at. cbn [e_bank e_own e_oth set_ersv set_locks set_ebank].
      rewrite (moved_eq _ _ _ _ Hm). simpl. split; [done|]. split; [|split; [done|]].
      + unfold others, bonds, vote_deposit in *. simpl. lia.
      + unfold vote_at in *. simpl. rewrite H4. exact Hv.
    - apply (book_frame cfg s); [| | | | | |apply Hb]; simpl; auto. eapply moved_ne; eauto.
  Qed.
  Lemma env_bank s w b f r :
    good cfg s -> moved (e_bank s) b w (Acct f r (frz (acct_of (e_bank s) w))) ->
    (ed <= f \/ Acct f r (frz (acct_of (e_bank s) w)) = acct0) ->
    r = rsv (acct_of (e_bank s) w) -> good cfg (set_ebank s b).
  Proof.
    intros Hg Hm Hf ->.
    replace (set_ebank s b) with (set_ersv (set_locks (set_ebank s b) (e_own s) (e_oth s)) (e_rsv s)) by reflexivity.
    destruct Hg as [Hr Hb]. destruct (Hb w) as (_ & _ & Hz & _).
    eapply env_good; eauto. split; auto.
  Qed.
  Lemma env_same s : good cfg s -> good cfg (set_ebank s (e_bank s)).
  Proof. intros H. now destruct s. Qed.
  (** Removing an account that is neither reserved nor locked. *)
  Lemma env_put s w f :
    good cfg s -> let a := acct_of (e_bank s) w in
    (tied a = true -> ed <= free a -> ed <= f) -> (free a = 0 -> f = 0) ->
    good cfg (set_ebank s (put ed (e_bank s) w (Acct f (rsv a) (frz a)))).
  Proof.
    intros Hg a Ht Hf. pose proof Hg as [Hr Hb]. destruct (Hb w) as (Hs & _). fold a in Hs.
    destruct Hs as [Hs|Hs].
    - destruct (N.leb_spec ed f) as [Hle|Hle].
      + eapply env_bank; [done| |left; exact Hle|reflexivity]. apply put_moved. now left.
      + assert (Hn : tied a = false) by (destruct (tied a); [specialize (Ht eq_refl Hs); lia|done]).
        unfold tied in Hn. apply orb_false_iff in Hn as [Hn1 Hn2].
        apply negb_false_iff, N.eqb_eq in Hn1. apply negb_false_iff, N.eqb_eq in Hn2.
        apply (env_bank s w _ 0 0); [done| |right|].
        * fold a. rewrite Hn1, Hn2. destruct (put_any cfg (e_bank s) w (Acct f 0 0)) as [[_ [H|H]]|[H _]]; simpl in *; try lia. exact H.
        * fold a. now rewrite Hn2.
        * fold a. now rewrite Hn1.
    - apply (env_bank s w _ 0 0); [done| |right|]; fold a; rewrite Hs; simpl; auto.
      rewrite Hf by now rewrite Hs. apply put_moved. now right.
  Qed.

  Lemma step_good s op : good cfg s -> good cfg (eexec cfg s op).1.
  Proof.
    intros Hg. destruct op as [o c|n|w h|w v|w v|w v|w v|w v|w v]; simpl.
    - destruct (dispatch cfg s o c) as [[s' ev]|e|] eqn:E; simpl; auto. eapply dispatch_good; eauto.
    - unfold on_initialize. destruct (_ && _).
      + pose proof (phragmen_good s Hg). now destruct (do_phragmen cfg s).
      + done.
    - destruct Hg as [Hr Hb]. split; [destruct Hr; split; auto|]. intros x. apply Hb.
    - unfold deposit_creating. destruct (N.eqb_spec v 0); [now apply env_same|].
      destruct (is_new _ && _) eqn:En; [|destruct (_ <=? _)].
      + apply (env_bank s w _ (free (acct_of (e_bank s) w)) (rsv (acct_of (e_bank s) w))); auto.
        * intros x. destruct (N.eqb_spec x w) as [->|]; [|done].
          change (acct_of (Bank (accts (e_bank s)) (lost (e_bank s) + v)) w) with (acct_of (e_bank s) w).
          now destruct (acct_of (e_bank s) w).
        * destruct Hg as [_ Hb]. destruct (Hb w) as ([|Hz] & _); [now left|right]. now rewrite Hz.
      + apply (env_bank s w _ (free (acct_of (e_bank s) w)) (rsv (acct_of (e_bank s) w))); auto.
        * intros x. destruct (N.eqb_spec x w) as [->|]; [|done].
          change (acct_of (Bank (accts (e_bank s)) (lost (e_bank s) + v)) w) with (acct_of (e_bank s) w).
          now destruct (acct_of (e_bank s) w).
        * destruct Hg as [_ Hb]. destruct (Hb w) as ([|Hz] & _); [now left|right]. now rewrite Hz.
      + assert (Hl : ed <= free (acct_of (e_bank s) w) + v).
        { destruct Hg as [_ Hb]. destruct (Hb w) as ([|Hz] & _); [lia|]. rewrite Hz in *. simpl in *.
          apply N.ltb_ge in En. lia. }
        eapply env_bank; [done| |left; exact Hl|reflexivity]. apply put_moved. now left.
    - destruct (withdraw _ _ _ _ _) as [b|] eqn:E; [|done].
      unfold withdraw in E. destruct (N.eqb_spec v 0); [injection E as <-; now apply env_same|].
      destruct (N.ltb_spec (free (acct_of (e_bank s) w)) v) as [|Hv]; [discriminate|].
      destruct (_ && _ && _) eqn:Ek; [discriminate|]. destruct (_ <? frz _); [discriminate|]. injection E as <-.
      apply env_put; [done| |lia]. intros Ht Hle. rewrite Ht in Ek. simpl in Ek.
      apply N.leb_le in Hle. rewrite Hle, andb_true_r in Ek. apply N.ltb_ge in Ek. lia.
    - apply env_put; [done| |lia]. intros Ht Hle. rewrite Ht. lia.
    - destruct (reserve _ _ _ _) as [b|] eqn:E; [|done].
      apply reserve_moved in E as (Hm & Hle & Hed').
      replace (set_ersv (set_ebank s b) (<[w := lock_of (e_rsv s) w + v]> (e_rsv s)))
        with (set_ersv (set_locks (set_ebank s b) (e_own s) (e_oth s)) (<[w := lock_of (e_rsv s) w + v]> (e_rsv s))) by reflexivity.
      pose proof Hg as [Hr Hb]. destruct (Hb w) as (Hs & _ & Hz & _).
      eapply env_good; eauto.
      + intros x Hx. now rewrite lookup_insert_ne by auto.
      + destruct Hs as [Hs|Hs]; [left; lia|]. rewrite Hs in *. simpl in *.
        assert (v = 0) as -> by lia. right. reflexivity.
      + rewrite lookup_insert. simpl. unfold others, lock_of. lia.
    - set (v' := N.min v (lock_of (e_rsv s) w)).
      pose proof Hg as [Hr Hb]. destruct (Hb w) as (Hs & Hx & Hz & _).
      assert (Hv : v' <= rsv (acct_of (e_bank s) w)).
      { unfold others in Hx. fold (lock_of (e_rsv s) w) in Hx. lia. }
      pose proof (unreserve_moved cfg (e_bank s) w v' (books_sound _ _ Hb) Hv) as Hm.
      replace (set_ersv _ _)
        with (set_ersv (set_locks (set_ebank s (unreserve ed (e_bank s) w v')) (e_own s) (e_oth s)) (<[w := lock_of (e_rsv s) w - v']> (e_rsv s))) by reflexivity.
      eapply env_good; eauto.
      + intros x Hx'. now rewrite lookup_insert_ne by auto.
      + destruct Hs as [Hs|Hs]; [left; lia|]. rewrite Hs in *. simpl in *.
        assert (v' = 0) as -> by lia. right. reflexivity.
      + rewrite lookup_insert. simpl. unfold others. fold (lock_of (e_rsv s) w). lia.
    - unfold free_of. destruct (N.leb_spec ed (free (acct_of (e_bank s) w))) as [Hle|]; [|done].
      pose proof (relock_moved cfg s w (e_own s) (<[w := v]> (e_oth s)) (or_introl Hle)) as Hm.
      unfold relock. cbv zeta.
      match goal with |- good cfg (set_ebank _ ?b) =>
        replace (set_ebank (set_locks s (e_own s) (<[w := v]> (e_oth s))) b)
          with (set_ersv (set_locks (set_ebank s b) (e_own s) (<[w := v]> (e_oth s))) (e_rsv s)) by reflexivity end.
      eapply env_good; eauto.
      intros x Hx. now rewrite lookup_insert_ne by auto.
  Qed.
  Lemma run_good s hist : good cfg s -> good cfg (erun cfg s hist).
  Proof.
    revert s. induction hist as [|op hist IH]; intros s Hg; [done|]. apply IH. now apply step_good.
  Qed.
End good.
