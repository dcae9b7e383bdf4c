(** Who stands, what an election does, and what the council is told. *)
From Verif Require Import Base Balances Proofs_Arith Proofs_Balances Model_Elections Spec_Elections
  Proofs_Elections Proofs_Elections2 Proofs_Elections3 Proofs_Elections4 Proofs_Elections5 Proofs_Elections6
  Proofs_Elections7 Proofs_Elections8 Proofs_Elections9.
From Coq Require Import Sorting.Sorted.
From stdpp Require Import gmap sorting.
Open Scope N_scope.

Section election.
  Context (cfg : ecfg) (Hel : elect_ok cfg) (Hed : 0 < ec_ed cfg).
  Local Notation ed := (ec_ed cfg).

  Lemma ballots_list s :
    ((fun b => (b.1.1, to_vote (issuance (e_bank s)) b.1.2, b.2)) <$> ballots s) = ballot_list s.
  Proof.
    unfold ballots, ballot_list. rewrite <- list_fmap_compose. apply list_fmap_ext. now intros _ [w v] _.
  Qed.
  Lemma ballots_len s : length (ballots s) = size (e_voting s).
  Proof. unfold ballots. now rewrite fmap_length. Qed.

  Lemma roles_member s x : roles cfg s -> is_member s x = true <-> x ∈ member_ids s.
  Proof. intros Hr. unfold is_member. apply bsearch_found, Hr. Qed.
  Lemma roles_cand s x : roles cfg s -> is_candidate s x = true <-> x ∈ cand_ids s.
  Proof. intros Hr. unfold is_candidate. apply bsearch_found, Hr. Qed.
  Lemma roles_runner s x : is_runner_up s x = true <-> x ∈ runner_ids s.
  Proof.
    unfold is_runner_up, runner_ids. rewrite existsb_exists. rewrite elem_of_list_fmap.
    split; intros (r & H1 & H2).
    - exists r. apply N.eqb_eq in H2. split; [done|]. now apply elem_of_list_In.
    - exists r. split; [now apply elem_of_list_In|]. now apply N.eqb_eq.
  Qed.

  (** The three ways in which an election ends. *)
  Lemma phragmen_spec s s' ev :
    do_phragmen cfg s = (s', ev) -> roles cfg s ->
    role_ids s = [] /\ s' = s /\ ev = [EEmptyTerm] \/
    role_ids s <> [] /\ ((ec_maxvoters cfg < size (e_voting s))%nat \/
      ec_elect cfg (ec_runners cfg + ec_members cfg) (role_ids s) (ballot_list s) = None) /\
      s' = s /\ ev = [EElectionError] \/
    role_ids s <> [] /\ (size (e_voting s) <= ec_maxvoters cfg)%nat /\ exists ws,
      ec_elect cfg (ec_runners cfg + ec_members cfg) (role_ids s) (ballot_list s) = Some ws /\
      NoDup (fst <$> ws) /\ (forall w, w ∈ fst <$> ws -> w ∈ role_ids s) /\ install cfg s ws = (s', ev).
  Proof.
    unfold do_phragmen. intros H Hr. cbv zeta in H. rewrite ballots_list, ballots_len in H.
    assert (Hl : length (standing s) = length (role_ids s)).
    { rewrite <- standing_ids. now rewrite fmap_length. }
    rewrite Hl in H. destruct (Nat.eqb_spec (length (role_ids s)) 0) as [H0|H0].
    { injection H as <- <-. left. split; [|done]. now apply nil_length_inv. }
    assert (Hne : role_ids s <> []) by (intros E; now rewrite E in H0).
    destruct (Nat.ltb_spec (ec_maxvoters cfg) (size (e_voting s))) as [Hm|Hm].
    { injection H as <- <-. right. left. auto. }
    rewrite standing_ids in H.
    destruct (ec_elect _ _ _ _) as [ws|] eqn:E.
    - right. right. split; [done|]. split; [done|]. exists ws.
      destruct (Hel _ _ _ _ (r_nodup _ _ Hr) E) as (K1 & K2 & K3). auto.
    - injection H as <- <-. right. left. auto.
  Qed.

  Lemma install_term s ws s' ev :
    install cfg s ws = (s', ev) -> roles cfg s -> books cfg s ->
    NoDup (fst <$> ws) -> (forall w, w ∈ fst <$> ws -> w ∈ role_ids s) ->
    let won := filter (fun p => p.2 <> 0) ws in
    member_ids s' ≡ₚ fst <$> take (ec_members cfg) won /\
    reverse (runner_ids s') = fst <$> drop (ec_members cfg) won /\
    (forall m, m ∈ e_members s' ++ e_runners s' ->
       exists b, (s_who m, b) ∈ won /\ s_stake m = N.min (b * scale s) (2 ^ 128 - 1)) /\
    seat_ids s' ≡ₚ fst <$> won /\ e_council s' = member_ids s'.
  Proof.
    intros H Hr Hb Hn Hsub won.
    destruct (install_facts cfg s ws s' ev H Hr Hb Hn Hsub) as (_ & Em & Er & _ & _ & _ & _ & _ & _ & Ec & _).
    assert (Hid : forall k, fst <$> take k (ranked s ws) = fst <$> take k won).
    { intros k. unfold ranked, won. rewrite <- fmap_take, <- list_fmap_compose. now apply list_fmap_ext. }
    assert (Hid' : forall k, fst <$> drop k (ranked s ws) = fst <$> drop k won).
    { intros k. unfold ranked, won. rewrite <- fmap_drop, <- list_fmap_compose. now apply list_fmap_ext. }
    assert (E1 : member_ids s' = fst <$> ksort fst (take (ec_members cfg) (ranked s ws))).
    { unfold member_ids. rewrite Em, <- list_fmap_compose. now apply list_fmap_ext. }
    assert (E2 : runner_ids s' = reverse (fst <$> drop (ec_members cfg) won)).
    { unfold runner_ids. rewrite Er, <- list_fmap_compose, <- Hid', <- fmap_reverse. now apply list_fmap_ext. }
    assert (P1 : member_ids s' ≡ₚ fst <$> take (ec_members cfg) won).
    { rewrite E1, <- Hid. now rewrite (ksort_perm fst). }
    split; [done|]. split; [now rewrite E2, reverse_involutive|]. split; [|split].
    - intros m Hm.
      assert (Hs : exists p, p ∈ ranked s ws /\ m = seat_of (standing s) p).
      { apply elem_of_app in Hm as [Hm|Hm].
        - rewrite Em in Hm. apply elem_of_list_fmap in Hm as (p & -> & Hp). exists p. split; [|done].
          rewrite (ksort_perm fst) in Hp. eapply elem_of_submseteq; [exact Hp|]. apply sublist_submseteq, sublist_take.
        - rewrite Er in Hm. apply elem_of_list_fmap in Hm as (p & -> & Hp). exists p. split; [|done].
          rewrite elem_of_reverse in Hp. eapply elem_of_submseteq; [exact Hp|]. apply sublist_submseteq, sublist_drop. }
      destruct Hs as (p & Hp & ->). unfold ranked in Hp. apply elem_of_list_fmap in Hp as (q & -> & Hq).
      exists q.2. split; [now destruct q|]. reflexivity.
    - unfold seat_ids. rewrite P1, E2, reverse_Permutation. rewrite <- fmap_app. now rewrite take_drop.
    - now rewrite Ec, E1.
  Qed.

  (** What the election means for each account. *)
  Lemma install_account s ws s' ev :
    install cfg s ws = (s', ev) -> roles cfg s -> books cfg s ->
    NoDup (fst <$> ws) -> (forall w, w ∈ fst <$> ws -> w ∈ role_ids s) -> forall w,
    (w ∈ seat_ids s' -> w ∈ role_ids s /\ acct_of (e_bank s') w = acct_of (e_bank s) w /\ bonds s' w = bonds s w) /\
    (w ∉ seat_ids s' -> bonds s' w = 0 /\
       acct_of (e_bank s') w = Acct (free (acct_of (e_bank s) w)) (rsv (acct_of (e_bank s) w) - bonds s w)
                                 (frz (acct_of (e_bank s) w))) /\
    (forall d, ECandSlashed w d ∈ ev <-> w ∈ role_ids s /\ w ∉ seat_ids s' /\ d = bonds s w).
  Proof.
    intros H Hr Hb Hn Hsub w.
    destruct (install_term s ws s' ev H Hr Hb Hn Hsub) as (_ & _ & _ & Hp & _).
    destruct (install_facts cfg s ws s' ev H Hr Hb Hn Hsub) as (_ & _ & _ & _ & _ & _ & _ & _ & _ & _ & _ & Ha & _ & He).
    pose proof (install_bonds cfg s ws s' ev w H Hr Hb Hn Hsub) as Hbd.
    assert (Hk : w ∈ fst <$> ranked s ws <-> w ∈ seat_ids s').
    { rewrite Hp, ranked_ids. done. }
    specialize (Ha w). split; [|split].
    - intros Hw. destruct (decide (w ∈ fst <$> ranked s ws)) as [Hx|Hx]; [|tauto]. split; [|done].
      apply Hsub. eapply elem_of_submseteq; [exact Hx|]. apply sublist_submseteq, ranked_sub.
    - intros Hw. destruct (decide (w ∈ fst <$> ranked s ws)) as [Hx|Hx]; [tauto|done].
    - intros d. rewrite He, elem_of_cons, elem_of_app, elem_of_list_singleton.
      split.
      + intros [Hd|[Hd|Hd]]; try discriminate. apply elem_of_list_fmap in Hd as (p & Hd & Hp').
        injection Hd as -> ->. apply elem_of_list_filter in Hp' as [H1 H2].
        split; [|split; [tauto|]].
        * rewrite <- standing_ids. now apply elem_of_list_fmap_1.
        * rewrite bonds_standing. symmetry. apply bond_in_at; [|now destruct p].
          rewrite standing_ids. apply Hr.
      + intros (H1 & H2 & ->). right. left. rewrite <- standing_ids in H1.
        apply elem_of_list_fmap in H1 as ([c d] & -> & H1). apply elem_of_list_fmap. exists (c, d). split.
        * simpl. f_equal. rewrite bonds_standing. apply bond_in_at; [|done]. rewrite standing_ids. apply Hr.
        * apply elem_of_list_filter. simpl in *. tauto.
  Qed.

  (** Who stands after a step stood before, with the same bond, or has just submitted. *)
  Definition from_before (s s' : estate) : Prop := forall w d, (w, d) ∈ standing s' -> (w, d) ∈ standing s.
  Lemma from_perm s s' c d : standing s ≡ₚ (c, d) :: standing s' -> from_before s s'.
  Proof. intros Hp w e Hw. rewrite Hp. now right. Qed.
  Lemma from_same s s' : e_members s' = e_members s -> e_runners s' = e_runners s -> e_cands s' = e_cands s ->
    standing s' = standing s.
  Proof. intros E1 E2 E3. unfold standing. now rewrite E1, E2, E3. Qed.
  Lemma install_from s ws s' ev :
    install cfg s ws = (s', ev) -> roles cfg s -> books cfg s ->
    NoDup (fst <$> ws) -> (forall w, w ∈ fst <$> ws -> w ∈ role_ids s) -> from_before s s'.
  Proof.
    intros H Hr Hb Hn Hsub w d Hw. rewrite (install_standing cfg s ws s' ev H Hr Hb Hn Hsub) in Hw.
    apply elem_of_list_fmap in Hw as (p & E & Hp). injection E as -> ->.
    assert (Hx : p.1 ∈ fst <$> standing s).
    { rewrite standing_ids. apply Hsub. eapply elem_of_submseteq; [apply (elem_of_list_fmap_1 fst _ _ Hp)|].
      apply sublist_submseteq, ranked_sub. }
    apply elem_of_list_fmap in Hx as ([c e] & E & Hc). simpl in E. rewrite E in *.
    rewrite deposit_in_eq by (rewrite standing_ids; apply Hr).
    rewrite (bond_in_at (standing s) c e); auto. rewrite standing_ids. apply Hr.
  Qed.
  Lemma phragmen_from s s' ev : do_phragmen cfg s = (s', ev) -> good cfg s -> from_before s s'.
  Proof.
    intros H [Hr Hb]. apply phragmen_spec in H as [(_ & -> & _)|[(_ & _ & -> & _)|(_ & _ & ws & _ & H1 & H2 & H3)]]; auto.
    - now intros w d.
    - now intros w d.
    - eapply install_from; eauto.
  Qed.
  Lemma remove_from s w sl s' ev rep :
    remove_and_replace cfg s w sl = ROk (s', ev, rep) -> good cfg s -> from_before s s'.
  Proof.
    intros H [Hr Hb]. apply remove_facts in H as (i & m & ms & rs & b & Hi & Hw & Hp & _ & -> & _); [|done].
    eapply from_perm. eapply (promoted_standing s i m ms rs rep); eauto.
  Qed.
  Lemma clean_roles s : e_members (clean cfg s) = e_members s /\ e_runners (clean cfg s) = e_runners s /\
    e_cands (clean cfg s) = e_cands s.
  Proof.
    unfold clean. generalize (fst <$> filter (fun p : N * voter => is_defunct s (v_votes p.2) = true) (map_to_list (e_voting s))).
    intros l. revert s. induction l as [|w l IH]; intros s; [done|]. cbn [foldl].
    destruct (IH (do_remove_voter cfg s w)) as (-> & -> & ->). done.
  Qed.

  Lemma step_standing s op w d :
    good cfg s -> (w, d) ∈ standing (eexec cfg s op).1 ->
    (w, d) ∈ standing s \/
    exists n, op = ECall (Signed w) (ESubmit n) /\ w ∈ e_ident s /\ w ∉ role_ids s /\ d = ec_bond cfg /\
      (eexec cfg s op).2 = EDone [].
  Proof.
    intros Hg. destruct op as [o c|n|x has|x v|x v|x v|x v|x v|x v]; cbn [eexec].
    - destruct (dispatch cfg s o c) as [[s' ev]|e|] eqn:E; cbn [fst snd]; auto. intros Hw.
      destruct Hg as [Hr Hb].
      assert (Hsame : forall t, e_members t = e_members s -> e_runners t = e_runners s -> e_cands t = e_cands s ->
        s' = t -> (w, d) ∈ standing s).
      { intros t E1 E2 E3 ->. now rewrite (from_same s t) in Hw. }
      destruct c; simpl in E; unfold rbind in E; try destruct o as [|u|]; try discriminate; cbn [signed root] in E.
      + left. apply vote_facts in E as (b & f & f0 & r & z & _ & _ & _ & _ & _ & _ & _ & _ & _ & _ & _ & _ & E & _); auto.
        rewrite E in Hw. exact Hw.
      + left. unfold remove_voter, ensure in E. destruct (is_voter s u); [|discriminate]. injection E as <- _. exact Hw.
      + destruct (submit_facts cfg _ _ _ _ _ E Hr) as (b & i & -> & _ & _ & Hn & Hid & -> & _).
        rewrite submit_standing in Hw. apply elem_of_cons in Hw as [Hw|Hw]; [|now left].
        injection Hw as -> ->. right. exists count. auto.
      + left. unfold renounce_member in E. destruct (remove_and_replace _ _ _ _) as [[[s1 ev1] rep]|?|] eqn:E1; try discriminate.
        injection E as <- _. eapply remove_from; eauto. now split.
      + left. apply runner_facts in E as (i & r & Hi & Hu & _ & ->).
        rewrite (runner_standing s i r (unreserve ed (e_bank s) u (s_deposit r)) u Hi Hu). now right.
      + left. apply cand_facts in E as (i & e & Hi & _ & ->).
        rewrite (cand_standing s i e (unreserve ed (e_bank s) u e) u Hi). now right.
      + left. unfold remove_member, rbind in E. destruct (remove_and_replace _ _ _ _) as [[[s1 ev1] rep]|?|] eqn:E1; try discriminate.
        pose proof (remove_from _ _ _ _ _ _ E1 (conj Hr Hb)) as H1.
        destruct rerun; [|injection E as <- _; now apply H1].
        destruct (do_phragmen cfg s1) as [s2 ev2] eqn:E2. injection E as <- _. apply H1.
        eapply phragmen_from; eauto. eapply remove_good; eauto.
      + left. injection E as <- _. destruct (clean_roles s) as (E1 & E2 & E3). now rewrite (from_same s (clean cfg s)) in Hw.
    - unfold on_initialize. destruct (_ && _); [|now left].
      destruct (do_phragmen cfg s) as [s' ev] eqn:E. intros Hw. left. eapply phragmen_from; eauto.
    - now left.
    - now left.
    - destruct (withdraw _ _ _ _ _); now left.
    - now left.
    - destruct (reserve _ _ _ _); now left.
    - now left.
    - destruct (_ <=? _); now left.
  Qed.
End election.
