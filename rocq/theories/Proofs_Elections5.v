(** Elections. *)
From Verif Require Import Base Balances Proofs_Arith Proofs_Balances Model_Elections Spec_Elections
  Proofs_Elections Proofs_Elections2 Proofs_Elections3 Proofs_Elections4.
From Coq Require Import Sorting.Sorted.
From stdpp Require Import gmap sorting.
Open Scope N_scope.

Section elect.
  Context (cfg : ecfg).
  Local Notation ed := (ec_ed cfg).

  Definition keeps (ms rs : list N) (w : N) : bool :=
    found (bsearch id ms w) || found (bsearch id rs w).

  Lemma slash_money b w v :
    money (slash_reserved ed b w v).1 + (slash_reserved ed b w v).2 = money b.
  Proof.
    unfold slash_reserved. destruct (v =? 0); simpl; [lia|].
    pose proof (put_money ed b w (Acct (free (acct_of b w)) (rsv (acct_of b w) - N.min (rsv (acct_of b w)) v) (frz (acct_of b w)))).
    simpl in *. lia.
  Qed.
  Lemma slash_bond_money s w v : money (e_bank (slash_bond cfg s w v)) = money (e_bank s).
  Proof.
    rewrite slash_bond_eq. simpl. pose proof (slash_money (e_bank s) w v). unfold money in *. simpl. lia.
  Qed.

  Lemma losers_facts ms rs l s s' ev :
    slash_losers cfg s ms rs l = (s', ev) ->
    sound_bank cfg (e_bank s) -> NoDup (fst <$> l) ->
    (forall w, bond_in l w <= rsv (acct_of (e_bank s) w)) ->
    (exists b, s' = set_ebank s b) /\
    (forall w, acct_of (e_bank s') w =
       if keeps ms rs w then acct_of (e_bank s) w
       else Acct (free (acct_of (e_bank s) w)) (rsv (acct_of (e_bank s) w) - bond_in l w)
              (frz (acct_of (e_bank s) w))) /\
    ev = (fun p => ECandSlashed p.1 p.2) <$> filter (fun p => keeps ms rs p.1 = false) l /\
    money (e_bank s') = money (e_bank s).
  Proof.
    revert s s' ev. induction l as [|[c d] l IH]; intros s s' ev H Hs Hn Hr.
    - injection H as <- <-. split; [exists (e_bank s); now destruct s|]. split; [|done].
      intros w. destruct (keeps ms rs w); [done|]. unfold bond_in. simpl. rewrite N.sub_0_r.
      now destruct (acct_of (e_bank s) w).
    - rewrite fmap_cons in Hn. apply NoDup_cons in Hn as [Hc Hn]. simpl in Hc.
      rewrite filter_cons. cbn [slash_losers] in H. rewrite <- negb_orb in H. fold (keeps ms rs c) in H.
      simpl fst. destruct (keeps ms rs c) eqn:Ek; simpl negb in H.
      + apply IH in H as (Hb & Ha & He & Hm); auto.
        * split; [done|]. split; [|split; [|done]].
          -- intros w. rewrite Ha, bond_in_cons. unfold of_who. simpl.
             destruct (N.eqb_spec c w) as [->|]; [now rewrite Ek|done].
          -- now rewrite decide_False by auto.
        * intros w. specialize (Hr w). rewrite bond_in_cons in Hr. lia.
      + destruct (slash_losers cfg (slash_bond cfg s c d) ms rs l) as [s2 ev2] eqn:E2.
        injection H as <- <-.
        assert (Hd : d <= rsv (acct_of (e_bank s) c)).
        { specialize (Hr c). rewrite bond_in_cons in Hr. unfold of_who in Hr. simpl in Hr.
          rewrite N.eqb_refl in Hr. lia. }
        pose proof (slash_bond_moved cfg s c d Hs Hd) as Hm1.
        apply IH in E2 as ((b & ->) & Ha & He & Hm); auto.
        * split; [rewrite slash_bond_eq; eexists; reflexivity|].
          split; [|split; [|rewrite Hm; apply slash_bond_money]].
          -- intros w. rewrite Ha, bond_in_cons. unfold of_who. simpl.
             destruct (keeps ms rs w) eqn:Ekw.
             ++ assert (w <> c) by congruence. eapply moved_ne; eauto.
             ++ rewrite (N.eqb_sym c w). destruct (N.eqb_spec w c) as [->|Hnc].
                ** rewrite (moved_eq _ _ _ _ Hm1). simpl. rewrite (bond_in_out l c Hc).
                   f_equal. lia.
                ** rewrite (moved_ne _ _ _ _ _ Hm1 Hnc). now rewrite N.add_0_l.
          -- rewrite decide_True by auto. rewrite He. reflexivity.
        * eapply moved_sound; [exact Hs|exact Hm1|]. simpl. destruct (Hs c) as [|Hz]; [auto|].
          rewrite Hz. right. reflexivity.
        * intros w. specialize (Hr w). rewrite bond_in_cons in Hr. unfold of_who in Hr. simpl in Hr.
          destruct (decide (w = c)) as [->|Hnc].
          -- rewrite (bond_in_out l c Hc). lia.
          -- rewrite (moved_ne _ _ _ _ _ Hm1 Hnc). lia.
  Qed.

  Lemma deposit_in_eq l w : NoDup (fst <$> l) -> deposit_in l w = bond_in l w.
  Proof.
    intros Hn. unfold deposit_in. destruct (list_find _ l) as [[i p]|] eqn:E.
    - apply list_find_Some in E as (Hi & Hp & _). symmetry. apply bond_in_at; auto.
      destruct p as [c d]. simpl in *. subst c. eapply elem_of_list_lookup_2; eauto.
    - symmetry. apply bond_in_out. apply list_find_None in E. rewrite Forall_forall in E.
      intros Hi. apply elem_of_list_fmap in Hi as (p & -> & Hp). now apply (E p Hp).
  Qed.

  Lemma filter_sublist {A} (P : A -> Prop) `{!forall x, Decision (P x)} (l : list A) : filter P l `sublist_of` l.
  Proof. induction l as [|x l IH]; [done|]. rewrite filter_cons. destruct (decide (P x)); now constructor. Qed.

  Lemma sublist_NoDup {A} (l k : list A) : l `sublist_of` k -> NoDup k -> NoDup l.
  Proof.
    induction 1 as [|x l k Hs IH|x l k Hs IH]; intros Hn; [done| |]; apply NoDup_cons in Hn as [Hx Hn].
    - constructor; [|auto]. intros Hi. apply Hx. eapply elem_of_submseteq; [exact Hi|].
      now apply sublist_submseteq.
    - auto.
  Qed.

  (** The winners with some backing, best first, with their stake. *)
  Definition ranked (s : estate) (ws : list (N * N)) : list (N * N) :=
    (fun p => (p.1, to_currency (issuance (e_bank s)) p.2)) <$> filter (fun p => p.2 <> 0) ws.
  Lemma ranked_ids s ws : fst <$> ranked s ws = fst <$> filter (fun p => p.2 <> 0) ws.
  Proof. unfold ranked. rewrite <- list_fmap_compose. reflexivity. Qed.
  Lemma ranked_sub s ws : fst <$> ranked s ws `sublist_of` fst <$> ws.
  Proof. rewrite ranked_ids. apply fmap_sublist, filter_sublist. Qed.

  Definition seat_of (l : list (N * N)) (p : N * N) : seat := Seat p.1 p.2 (deposit_in l p.1).

  Lemma install_facts s ws s' ev :
    install cfg s ws = (s', ev) -> roles cfg s -> books cfg s ->
    NoDup (fst <$> ws) -> (forall w, w ∈ fst <$> ws -> w ∈ role_ids s) ->
    let set := ranked s ws in
    let n := ec_members cfg in
    e_cands s' = [] /\ e_members s' = seat_of (standing s) <$> ksort fst (take n set) /\
    e_runners s' = seat_of (standing s) <$> reverse (drop n set) /\
    e_voting s' = e_voting s /\ e_own s' = e_own s /\ e_oth s' = e_oth s /\ e_rsv s' = e_rsv s /\
    e_ident s' = e_ident s /\ e_rounds s' = add32 (e_rounds s) 1 /\
    e_council s' = fst <$> ksort fst (take n set) /\
    e_prime s' = pick_prime (count_votes ((fun p => (p.1, 0)) <$> ksort fst (take n set)) (ballots s)) /\
    (forall w, acct_of (e_bank s') w =
       if decide (w ∈ fst <$> set) then acct_of (e_bank s) w
       else Acct (free (acct_of (e_bank s) w)) (rsv (acct_of (e_bank s) w) - bonds s w)
              (frz (acct_of (e_bank s) w))) /\
    money (e_bank s') = money (e_bank s) /\
    ev = EChange (diff (e_council s') (member_ids s)) (diff (member_ids s) (e_council s')) (e_council s') ::
         ((fun p => ECandSlashed p.1 p.2) <$> filter (fun p => p.1 ∉ fst <$> set) (standing s)) ++
         [ENewTerm (ksort fst (take n set))].
  Proof.
    intros H Hr Hb Hn Hsub. cbv zeta.
    assert (Hns : NoDup (fst <$> ranked s ws)).
    { eapply sublist_NoDup; [apply ranked_sub|done]. }
    assert (Hnt : NoDup (fst <$> take (ec_members cfg) (ranked s ws))).
    { eapply sublist_NoDup; [|exact Hns]. apply fmap_sublist, sublist_take. }
    assert (Hnd : NoDup (fst <$> reverse (drop (ec_members cfg) (ranked s ws)))).
    { rewrite reverse_Permutation. eapply sublist_NoDup; [|exact Hns]. apply fmap_sublist, sublist_drop. }
    unfold install in H. fold (ranked s ws) in H. cbv zeta in H.
    set (set := ranked s ws) in *. set (n := ec_members cfg) in *.
    destruct (slash_losers _ _ _ _ _) as [s1 ev1] eqn:El. injection H as <- <-.
    apply losers_facts in El as ((b & ->) & Ha & He & Hm).
    2: { now apply books_sound. }
    2: { rewrite standing_ids. apply Hr. }
    2: { intros w. rewrite <- bonds_standing. destruct (Hb w) as (_ & -> & _). lia. }
    assert (Hk : forall w, keeps (fst <$> ksort fst (take n set)) (ksort id (fst <$> reverse (drop n set))) w = true <->
                      w ∈ fst <$> set).
    { intros w. unfold keeps. rewrite orb_true_iff.
      rewrite (bsearch_found id), (bsearch_found id).
      - rewrite !list_fmap_id. rewrite (ksort_perm id), (ksort_perm fst), reverse_Permutation.
        rewrite <- (take_drop n set) at 3. rewrite fmap_app, elem_of_app. tauto.
      - apply ksort_asc. now rewrite list_fmap_id.
      - rewrite list_fmap_id. now apply ksort_asc. }
    repeat (split; [reflexivity|]). split; [|split; [exact Hm|]].
    - intros w. cbn [e_bank set_rounds set_council set_roles set_ebank] in *. rewrite Ha, <- bonds_standing.
      specialize (Hk w). destruct (keeps _ _ w); destruct (decide _); try done; exfalso.
      + apply n0. now apply Hk.
      + assert (false = true) by now apply Hk. done.
    - rewrite He. do 3 f_equal. apply list_filter_iff. intros p. rewrite <- not_true_iff_false. now rewrite Hk.
  Qed.
End elect.
