(** Votes, seats, terms, limits, and when calls succeed. *)
From Verif Require Import Base Balances Proofs_Arith Proofs_Balances Model_Elections Spec_Elections
  Proofs_Elections Proofs_Elections2 Proofs_Elections3 Proofs_Elections4 Proofs_Elections5 Proofs_Elections6
  Proofs_Elections7 Proofs_Elections8 Proofs_Elections9 Proofs_Elections10 Proofs_Elections11.
From Coq Require Import Sorting.Sorted.
From stdpp Require Import gmap sorting.
Open Scope N_scope.

Section rest.
  Context (cfg : ecfg) (Hel : elect_ok cfg) (Hed : 0 < ec_ed cfg).
  Local Notation ed := (ec_ed cfg).

  Lemma phragmen_keeps s s' ev : do_phragmen cfg s = (s', ev) -> good cfg s ->
    e_voting s' = e_voting s /\ e_own s' = e_own s /\ e_ident s' = e_ident s /\
    (e_members s' = e_members s /\ e_runners s' = e_runners s /\ e_cands s' = e_cands s \/ e_cands s' = []) /\
    e_rounds s' = (e_rounds s + N.of_nat (length (List.filter is_term ev))) mod two32 \/
    s' = s /\ List.filter is_term ev = [].
  Proof.
    intros H [Hr Hb]. apply (phragmen_spec cfg Hel) in H as [(_ & -> & ->)|[(_ & _ & -> & ->)|(_ & _ & ws & _ & H1 & H2 & H3)]]; auto.
    left. destruct (install_facts cfg s ws s' ev H3 Hr Hb H1 H2) as (Ec & _ & _ & E1 & E2 & _ & _ & E3 & E4 & _ & _ & _ & _ & He).
    do 3 (split; [done|]). split; [now right|]. rewrite E4, He. cbn [List.filter is_term].
    rewrite List.filter_app. cbn.
    assert (List.filter is_term ((fun p : N * N => ECandSlashed p.1 p.2) <$>
      filter (fun p : N * N => p.1 ∉ fst <$> ranked s ws) (standing s)) = []) as ->.
    { generalize (filter (fun p : N * N => p.1 ∉ fst <$> ranked s ws) (standing s)). intros l.
      induction l as [|p l IH]; [done|]. exact IH. }
    reflexivity.
  Qed.

  Lemma step_voting s op x :
    good cfg s -> e_voting (eexec cfg s op).1 !! x <> e_voting s !! x ->
    (exists votes value, op = ECall (Signed x) (EVote votes value)) \/ op = ECall (Signed x) ERemoveVoter \/
    op = ECall Root EClean /\ exists v, e_voting s !! x = Some v /\ forall y, y ∈ v_votes v -> y ∉ role_ids s.
  Proof.
    intros Hg. destruct op as [o c|n|y has|y v|y v|y v|y v|y v|y v]; cbn [eexec].
    - destruct (dispatch cfg s o c) as [[s' ev]|e|] eqn:E; cbn [fst snd]; try done. intros Hv.
      destruct o as [|w|].
      + destruct c; try discriminate; cbn [dispatch root] in E; unfold rbind in E.
        * exfalso. apply Hv. unfold remove_member, rbind in E.
          destruct (remove_and_replace _ _ _ _) as [[[s1 ev1] rep]|?|] eqn:E1; try discriminate.
          pose proof (remove_view cfg Hed _ _ _ _ _ _ E1 Hg) as (_ & _ & _ & _ & _ & V & _).
          destruct rerun; [|injection E as <- _; congruence].
          destruct (do_phragmen cfg s1) as [s2 ev2] eqn:E2. injection E as <- _.
          assert (good cfg s1) as Hg1 by (split; eapply remove_good; eauto; apply Hg).
          destruct (phragmen_keeps _ _ _ E2 Hg1) as [(K & _)|[-> _]]; congruence.
        * right. right. split; [done|]. injection E as <- _.
          destruct (clean_facts cfg Hed s Hg) as (_ & _ & _ & _ & _ & _ & Hx). destruct (Hx x) as [_ Hx2].
          destruct (e_voting s !! x) as [v|] eqn:Ev.
          -- exists v. split; [done|]. intros y Hy Hr. apply Hv. destruct Hx2 as (-> & _); [|done]. right. eauto 6.
          -- exfalso. apply Hv. destruct Hx2 as (-> & _); [now left|done].
      + pose proof (signed_solo cfg Hed _ _ _ _ _ E Hg) as So.
        destruct (decide (x = w)) as [->|Hn]; [|exfalso; now apply Hv, So].
        destruct c; simpl in E; try discriminate; eauto; exfalso; apply Hv.
        * now apply submit_facts in E as (b & i & -> & _); [|apply Hg].
        * unfold renounce_member in E. destruct (remove_and_replace _ _ _ _) as [[[s1 ev1] rep]|?|] eqn:E1; try discriminate.
          pose proof (remove_view cfg Hed _ _ _ _ _ _ E1 Hg) as (_ & _ & _ & _ & _ & V & _).
          injection E as <- _. now rewrite V.
        * now apply runner_facts in E as (i & r & _ & _ & _ & ->).
        * now apply cand_facts in E as (i & r & _ & _ & ->).
      + destruct c; discriminate.
    - unfold on_initialize. destruct (_ && _); [|done].
      destruct (do_phragmen cfg s) as [s' ev] eqn:E. cbn [fst]. intros Hv. exfalso. apply Hv.
      destruct (phragmen_keeps _ _ _ E Hg) as [(-> & _)|[-> _]]; done.
    - done.
    - done.
    - destruct (withdraw _ _ _ _ _); done.
    - done.
    - destruct (reserve _ _ _ _); done.
    - done.
    - destruct (_ <=? _); done.
  Qed.

  Lemma step_seat s op x :
    good cfg s -> x ∈ seat_ids s -> x ∉ seat_ids (eexec cfg s op).1 ->
    op = ECall (Signed x) ERenounceMember \/ op = ECall (Signed x) ERenounceRunner \/
    (exists sl re, op = ECall Root (ERemoveMember x sl re)) \/
    (exists l, ENewTerm l ∈ events (eexec cfg s op).2) /\
      ((exists n, op = EBlock n) \/ exists w sl, op = ECall Root (ERemoveMember w sl true)).
  Proof.
    intros Hg Hx.
    assert (Hph : forall t t' ev, do_phragmen cfg t = (t', ev) -> good cfg t -> x ∈ seat_ids t -> x ∉ seat_ids t' ->
      exists l, ENewTerm l ∈ ev).
    { intros t t' ev E [Hr Hb] H1 H2.
      apply (phragmen_spec cfg Hel) in E as [(_ & -> & ->)|[(_ & _ & -> & ->)|(_ & _ & ws & _ & K1 & K2 & K3)]]; auto; try done.
      destruct (install_facts cfg t ws t' ev K3 Hr Hb K1 K2) as (_ & _ & _ & _ & _ & _ & _ & _ & _ & _ & _ & _ & _ & He).
      eexists. rewrite He. rewrite elem_of_cons, elem_of_app. right. right. now left. }
    destruct op as [o c|n|y has|y v|y v|y v|y v|y v|y v]; cbn [eexec].
    - destruct (dispatch cfg s o c) as [[s' ev]|e|] eqn:E; cbn [fst snd events]; try done. intros Hv.
      destruct o as [|w|].
      + destruct c; try discriminate; cbn [dispatch root] in E; unfold rbind in E.
        * destruct (decide (x = who)) as [->|Hn]; [eauto 7|]. unfold remove_member, rbind in E.
          destruct (remove_and_replace _ _ _ _) as [[[s1 ev1] rep]|?|] eqn:E1; try discriminate.
          pose proof (remove_view cfg Hed _ _ _ _ _ _ E1 Hg) as (_ & _ & _ & _ & _ & _ & _ & _ & _ & _ & _ & _ & V & _).
          assert (Hx1 : x ∈ seat_ids s1).
          { unfold seat_ids in *. rewrite elem_of_app in *. destruct (last (e_runners s)) as [r|] eqn:El.
            - destruct V as [V1 V2]. rewrite V2, elem_of_app, elem_of_list_singleton in Hx.
              assert (x ∈ who :: member_ids s1 \/ x ∈ runner_ids s1) as [Hy|]; [| |now right].
              { rewrite V1, elem_of_cons. tauto. }
              apply elem_of_cons in Hy as [|]; [done|now left].
            - destruct V as [V1 V2]. apply last_None in El. unfold runner_ids in Hx at 1. rewrite El in Hx.
              destruct Hx as [Hx|Hx]; [|now apply elem_of_nil in Hx]. rewrite <- V1, elem_of_cons in Hx.
              destruct Hx as [|]; [done|now left]. }
          destruct rerun; [|injection E as <- _; done].
          destruct (do_phragmen cfg s1) as [s2 ev2] eqn:E2. injection E as <- <-.
          assert (good cfg s1) as Hg1 by (split; eapply remove_good; eauto; apply Hg).
          destruct (Hph _ _ _ E2 Hg1 Hx1 Hv) as [l Hl]. do 3 right. split; [|eauto].
          exists l. apply elem_of_app. right. now right.
        * exfalso. apply Hv. injection E as <- _. destruct (clean_roles cfg s) as (E1 & E2 & _).
          unfold seat_ids, member_ids, runner_ids in *. now rewrite E1, E2.
      + pose proof (signed_solo cfg Hed _ _ _ _ _ E Hg) as So. unfold seat_ids in Hx, Hv. rewrite elem_of_app in Hx, Hv.
        destruct (decide (x = w)) as [->|Hn].
        2: { exfalso. apply Hv. destruct Hx as [Hx|Hx].
             - left. now apply So.
             - destruct (so_promote _ _ _ So x Hn Hx) as [|[_ ?]]; auto. }
        destruct c; simpl in E; try discriminate; eauto; exfalso; apply Hv.
        * apply vote_facts in E as (b & f & f0 & r & z & E); auto; [|apply Hg]. decompose [and] E.
          match goal with E : s' = set_voting _ _ |- _ => rewrite E end. exact Hx.
        * unfold remove_voter, ensure in E. destruct (is_voter s w); [|discriminate]. injection E as <- _. exact Hx.
        * now apply submit_facts in E as (b & i & -> & _); [|apply Hg].
        * now apply cand_facts in E as (i & r & _ & _ & ->).
      + destruct c; discriminate.
    - unfold on_initialize. destruct (_ && _); [|done].
      destruct (do_phragmen cfg s) as [s' ev] eqn:E. cbn [fst snd events]. intros Hv.
      destruct (Hph _ _ _ E Hg Hx Hv) as [l Hl]. do 3 right. eauto.
    - done.
    - done.
    - destruct (withdraw _ _ _ _ _); done.
    - done.
    - destruct (reserve _ _ _ _); done.
    - done.
    - destruct (_ <=? _); done.
  Qed.

  (** Terms are counted. *)
  Lemma step_rounds s op : good cfg s -> e_rounds s < two32 ->
    e_rounds (eexec cfg s op).1 =
    (e_rounds s + N.of_nat (length (List.filter is_term (events (eexec cfg s op).2)))) mod two32.
  Proof.
    intros Hg Hlt.
    assert (Hz : e_rounds s = (e_rounds s + N.of_nat 0) mod two32).
    { rewrite N.add_0_r, N.mod_small; done. }
    assert (Hph : forall t t' ev, do_phragmen cfg t = (t', ev) -> good cfg t -> e_rounds t = e_rounds s ->
      e_rounds t' = (e_rounds s + N.of_nat (length (List.filter is_term ev))) mod two32).
    { intros t t' ev E Hgt Et. destruct (phragmen_keeps _ _ _ E Hgt) as [(_ & _ & _ & _ & ->)|[-> ->]].
      - now rewrite Et.
      - now rewrite Et. }
    destruct op as [o c|n|y has|y v|y v|y v|y v|y v|y v]; cbn [eexec].
    - destruct (dispatch cfg s o c) as [[s' ev]|e|] eqn:E; cbn [fst snd events]; try exact Hz.
      destruct o as [|w|].
      + destruct c; try discriminate; cbn [dispatch root] in E; unfold rbind in E.
        * unfold remove_member, rbind in E.
          destruct (remove_and_replace _ _ _ _) as [[[s1 ev1] rep]|?|] eqn:E1; try discriminate.
          pose proof (remove_view cfg Hed _ _ _ _ _ _ E1 Hg) as
            (_ & _ & _ & _ & _ & _ & _ & _ & _ & _ & Er & _ & _ & _ & _ & He & _).
          assert (Hn : List.filter is_term ev1 = []) by (rewrite He; now destruct slash).
          destruct rerun.
          -- destruct (do_phragmen cfg s1) as [s2 ev2] eqn:E2. injection E as <- <-.
             assert (good cfg s1) as Hg1 by (split; eapply remove_good; eauto; apply Hg).
             rewrite List.filter_app, Hn. cbn. now apply (Hph s1).
          -- injection E as <- <-. rewrite List.filter_app, Hn. cbn. now rewrite Er.
        * injection E as <- <-. destruct (clean_facts cfg Hed s Hg) as (_ & _ & _ & -> & _). exact Hz.
      + pose proof (so_rest _ _ _ (signed_solo cfg Hed _ _ _ _ _ E Hg)) as (_ & _ & _ & ->).
        assert (List.filter is_term ev = []) as ->; [|exact Hz].
        destruct c; simpl in E; try discriminate.
        * apply vote_facts in E as (b & f & f0 & r & z & E); auto; [|apply Hg]. decompose [and] E. now subst ev.
        * unfold remove_voter, ensure in E. destruct (is_voter s w); [|discriminate]. now injection E as _ <-.
        * now apply submit_facts in E as (b & i & _ & _ & _ & _ & _ & -> & _); [|apply Hg].
        * unfold renounce_member in E. destruct (remove_and_replace _ _ _ _) as [[[s1 ev1] rep]|?|] eqn:E1; try discriminate.
          injection E as _ <-. pose proof (remove_view cfg Hed _ _ _ _ _ _ E1 Hg) as
            (_ & _ & _ & _ & _ & _ & _ & _ & _ & _ & _ & _ & _ & _ & _ & -> & _). done.
        * now apply runner_facts in E as (i & r & _ & _ & -> & _).
        * now apply cand_facts in E as (i & r & _ & -> & _).
      + destruct c; discriminate.
    - unfold on_initialize. destruct (_ && _); [|exact Hz].
      destruct (do_phragmen cfg s) as [s' ev] eqn:E. cbn [fst snd events]. now apply (Hph s).
    - exact Hz.
    - exact Hz.
    - destruct (withdraw _ _ _ _ _); exact Hz.
    - exact Hz.
    - destruct (reserve _ _ _ _); exact Hz.
    - exact Hz.
    - destruct (_ <=? _); exact Hz.
  Qed.
  Lemma run_rounds s hist : good cfg s -> e_rounds s < two32 ->
    e_rounds (erun cfg s hist) = (e_rounds s + terms cfg s hist) mod two32.
  Proof.
    revert s. induction hist as [|op hist IH]; intros s Hg Hlt.
    - unfold terms. simpl. rewrite N.add_0_r, N.mod_small; done.
    - pose proof (step_rounds s op Hg Hlt) as Hs.
      change (erun cfg s (op :: hist)) with (erun cfg (eexec cfg s op).1 hist).
      unfold terms. cbn [outputs fmap list_fmap lsum foldr].
      rewrite IH; [|now apply step_good|].
      + rewrite Hs. rewrite N.add_mod_idemp_l by (unfold two32; lia).
        change (lsum (N.of_nat (length (List.filter is_term (events (eexec cfg s op).2))) ::
          ((fun out => N.of_nat (length (List.filter is_term (events out)))) <$> outputs cfg (eexec cfg s op).1 hist)))
          with (N.of_nat (length (List.filter is_term (events (eexec cfg s op).2))) + terms cfg (eexec cfg s op).1 hist).
        now rewrite N.add_assoc.
      + rewrite Hs. apply N.mod_lt. unfold two32. lia.
  Qed.

  (** How many candidates there can be. *)
  Lemma step_cands s op c : good cfg s -> c ∈ cand_ids (eexec cfg s op).1 ->
    c ∈ cand_ids s \/ exists n, op = ECall (Signed c) (ESubmit n).
  Proof.
    intros Hg Hc.
    destruct op as [o k|n|y has|y v|y v|y v|y v|y v|y v]; cbn [eexec] in *; try (left; exact Hc).
    - destruct (dispatch cfg s o k) as [[s' ev]|e|] eqn:E; cbn [fst] in *; try (left; exact Hc).
      destruct o as [|w|].
      + left. destruct k; try discriminate; cbn [dispatch root] in E; unfold rbind in E.
        * unfold remove_member, rbind in E.
          destruct (remove_and_replace _ _ _ _) as [[[s1 ev1] rep]|?|] eqn:E1; try discriminate.
          pose proof (remove_view cfg Hed _ _ _ _ _ _ E1 Hg) as (_ & _ & _ & _ & _ & _ & _ & _ & _ & _ & _ & Ec & _).
          destruct rerun; [|injection E as <- _; congruence].
          destruct (do_phragmen cfg s1) as [s2 ev2] eqn:E2. injection E as <- _.
          assert (good cfg s1) as Hg1 by (split; eapply remove_good; eauto; apply Hg).
          destruct (phragmen_keeps _ _ _ E2 Hg1) as [(_ & _ & _ & [(_ & _ & K)|K] & _)|[-> _]].
          -- rewrite <- Ec. unfold cand_ids in *. now rewrite K in Hc.
          -- unfold cand_ids in Hc. rewrite K in Hc. now apply elem_of_nil in Hc.
          -- congruence.
        * injection E as <- _. destruct (clean_roles cfg s) as (_ & _ & E3). unfold cand_ids in *. now rewrite E3 in Hc.
      + pose proof (signed_solo cfg Hed _ _ _ _ _ E Hg) as So.
        destruct (decide (c = w)) as [->|Hn]; [|left; now apply So in Hc].
        destruct k; simpl in E; try discriminate; eauto; left.
        * apply vote_facts in E as (b & f & f0 & r & z & E); auto; [|apply Hg]. decompose [and] E.
          match goal with E : s' = set_voting _ _ |- _ => rewrite E in Hc end. exact Hc.
        * unfold remove_voter, ensure in E. destruct (is_voter s w); [|discriminate]. injection E as <- _. exact Hc.
        * unfold renounce_member in E. destruct (remove_and_replace _ _ _ _) as [[[s1 ev1] rep]|?|] eqn:E1; try discriminate.
          pose proof (remove_view cfg Hed _ _ _ _ _ _ E1 Hg) as (_ & _ & _ & _ & _ & _ & _ & _ & _ & _ & _ & Ec & _).
          injection E as <- _. congruence.
        * apply runner_facts in E as (i & r & _ & _ & _ & ->). exact Hc.
        * apply cand_facts in E as (i & r & _ & _ & ->). unfold cand_ids in *. simpl in Hc.
          eapply elem_of_submseteq; [exact Hc|]. apply sublist_submseteq, fmap_sublist, sublist_delete.
      + destruct k; discriminate.
    - left. unfold on_initialize in Hc. destruct (_ && _); [|exact Hc].
      destruct (do_phragmen cfg s) as [s' ev] eqn:E. cbn [fst] in Hc.
      destruct (phragmen_keeps _ _ _ E Hg) as [(_ & _ & _ & [(_ & _ & K)|K] & _)|[-> _]]; [| |done].
      + unfold cand_ids in *. now rewrite K in Hc.
      + unfold cand_ids in Hc. rewrite K in Hc. now apply elem_of_nil in Hc.
    - left. destruct (withdraw _ _ _ _ _); exact Hc.
    - left. destruct (reserve _ _ _ _); exact Hc.
    - left. destruct (_ <=? _); exact Hc.
  Qed.
  Lemma step_maxcand s op : good cfg s -> ec_maxcand cfg + 1 < two32 ->
    N.of_nat (length (e_cands s)) <= ec_maxcand cfg + 1 ->
    N.of_nat (length (e_cands (eexec cfg s op).1)) <= ec_maxcand cfg + 1.
  Proof.
    intros Hg Hm Hl. pose proof (step_good cfg Hel Hed s op Hg) as Hg'.
    assert (Hsub : (forall c n, op <> ECall (Signed c) (ESubmit n)) ->
      (length (e_cands (eexec cfg s op).1) <= length (e_cands s))%nat).
    { intros Hno.
      assert (Hlen : (length (cand_ids (eexec cfg s op).1) <= length (cand_ids s))%nat).
      { apply submseteq_length, NoDup_submseteq.
        - apply asc_NoDup, Hg'.
        - intros c Hc. destruct (step_cands s op c Hg Hc) as [|[n Hn]]; [done|]. now apply Hno in Hn. }
      unfold cand_ids in Hlen. now rewrite !fmap_length in Hlen. }
    destruct op as [o k|n|y has|y v|y v|y v|y v|y v|y v];
      try (specialize (Hsub ltac:(intros; discriminate)); lia).
    destruct o as [|w|]; try (specialize (Hsub ltac:(intros; discriminate)); lia).
    destruct k; try (specialize (Hsub ltac:(intros; discriminate)); lia).
    cbn [eexec]. destruct (dispatch _ _ _ _) as [[s' ev]|e|] eqn:E; try exact Hl. simpl in E.
    apply submit_facts in E as (b & i & -> & _ & _ & _ & _ & _ & Hle); [|apply Hg]. cbn [fst e_cands set_roles].
    rewrite (insert_at_perm i). cbn [length].
    rewrite w32_small in Hle by lia. lia.
  Qed.

  (** When the calls succeed. *)
  Lemma reserve_iff s w v : (exists b, reserve ed (e_bank s) w v = Some b) <-> can_reserve cfg s w v.
  Proof.
    unfold reserve, can_reserve. destruct (N.eqb_spec v 0); [split; eauto|].
    destruct (N.ltb_spec (free (acct_of (e_bank s) w)) v); [split; [intros [? ?]; discriminate|intros [|]; lia]|].
    destruct (N.ltb_spec (free (acct_of (e_bank s) w) - v) (frz (acct_of (e_bank s) w)));
      [split; [intros [? ?]; discriminate|intros [|]; lia]|].
    destruct (N.ltb_spec (free (acct_of (e_bank s) w) - v) ed);
      [split; [intros [? ?]; discriminate|intros [|]; lia]|].
    split; [intros _; right; lia|eauto].
  Qed.
  Lemma role_len s : length (role_ids s) = (length (e_cands s) + length (e_members s) + length (e_runners s))%nat.
  Proof. unfold role_ids, cand_ids, member_ids, runner_ids. rewrite !app_length, !fmap_length. lia. Qed.
  Lemma vote_iff s w votes value : good cfg s ->
    (exists r, vote cfg s w votes value = ROk r) <->
    (1 <= length votes <= 16)%nat /\ (length votes <= length (role_ids s))%nat /\ ed < value /\
    can_reserve cfg s w (deposit_of cfg (length votes) - vote_deposit s w).
  Proof.
    intros [Hr Hb]. rewrite role_len. unfold vote, ensure, MAXIMUM_VOTE.
    destruct (Nat.leb_spec (length votes) 16); [|split; [intros [? ?]; discriminate|lia]]. cbn [rbind].
    destruct (Nat.eqb_spec (length votes) 0); [split; [intros [? ?]; discriminate|lia]|]. cbn [rbind negb].
    destruct (Nat.eqb_spec (length (e_cands s) + length (e_members s) + length (e_runners s)) 0);
      [split; [intros [? ?]; discriminate|lia]|]. cbn [rbind negb].
    destruct (Nat.leb_spec (length votes) (length (e_cands s) + length (e_members s) + length (e_runners s)));
      [|split; [intros [? ?]; discriminate|lia]]. cbn [rbind].
    destruct (N.ltb_spec ed value); [|split; [intros [? ?]; discriminate|intros (_ & _ & ? & _); lia]]. cbn [rbind].
    rewrite deposit_default. pose proof (vote_deposit_small cfg s w Hb) as Hold.
    pose proof (deposit_small cfg (length votes)) as Hnew. unfold move_deposit.
    destruct (N.ltb_spec (vote_deposit s w) (deposit_of cfg (length votes))) as [Hl|Hl].
    - rewrite sub128_exact by lia. rewrite <- reserve_iff.
      destruct (reserve _ _ _ _) as [b|].
      + cbn. split; [intros _; split; [lia|split; [lia|split; [done|eauto]]]|eauto].
      + cbn. split; [intros [? ?]; discriminate|]. intros (_ & _ & _ & b & ?). discriminate.
    - assert (can_reserve cfg s w (deposit_of cfg (length votes) - vote_deposit s w)) by (left; lia).
      destruct (N.ltb_spec (deposit_of cfg (length votes)) (vote_deposit s w));
        (split; [intros _; split; [lia|split; [lia|split; done]]|eauto]).
  Qed.
  Lemma submit_iff s w n : good cfg s ->
    (exists r, submit_candidacy cfg s w n = ROk r) <->
    N.of_nat (length (e_cands s)) mod 2 ^ 32 <= N.min n (ec_maxcand cfg) /\ w ∈ e_ident s /\ w ∉ role_ids s /\
    can_reserve cfg s w (ec_bond cfg).
  Proof.
    intros [Hr Hb]. split.
    - intros [[s' ev] H]. apply submit_facts in H as (b & i & _ & Eb & _ & H1 & H2 & _ & H3); [|done].
      split; [exact H3|]. split; [done|]. split; [done|]. apply reserve_iff. eauto.
    - intros (H1 & H2 & H3 & H4). unfold submit_candidacy, ensure.
      change (N.of_nat (length (e_cands s)) mod 2 ^ 32) with (w32 (N.of_nat (length (e_cands s)))) in H1.
      destruct (N.leb_spec (w32 (N.of_nat (length (e_cands s)))) n); [|lia]. cbn [rbind].
      destruct (N.leb_spec (w32 (N.of_nat (length (e_cands s)))) (ec_maxcand cfg)); [|lia]. cbn [rbind].
      rewrite (bool_decide_eq_true_2 _ H2). cbn [rbind].
      unfold role_ids in H3. rewrite !elem_of_app in H3.
      destruct (bsearch fst (e_cands s) w) as [i|i] eqn:Ei.
      { exfalso. apply H3. left. apply (roles_cand cfg); [done|]. unfold is_candidate. now rewrite Ei. }
      destruct (is_member s w) eqn:Em; [exfalso; apply H3; right; left; now apply (roles_member cfg)|]. cbn [rbind negb].
      destruct (is_runner_up s w) eqn:Eu; [exfalso; apply H3; right; right; now apply roles_runner|]. cbn [rbind negb].
      apply reserve_iff in H4 as [b ->]. eauto.
  Qed.

  (** Renouncing. *)
  Lemma renounce_member_ok s w : good cfg s -> w ∈ member_ids s -> exists r, renounce_member cfg s w = ROk r.
  Proof.
    intros [Hr Hb] Hw. apply (roles_member cfg s w Hr) in Hw. unfold renounce_member, remove_and_replace, is_member in *.
    destruct (bsearch _ _ _); [|discriminate]. eauto.
  Qed.
  Lemma renounce_runner_ok s w : w ∈ runner_ids s -> exists r, renounce_runner cfg s w = ROk r.
  Proof.
    intros Hw. unfold renounce_runner. destruct (list_find _ _) as [[i r]|] eqn:E; [eauto|].
    apply list_find_None in E. unfold runner_ids in Hw. apply elem_of_list_fmap in Hw as (r & Hr & Hin).
    rewrite Forall_forall in E. now destruct (E r Hin).
  Qed.
  Lemma renounce_candidate_ok s w n : good cfg s -> w ∈ cand_ids s -> N.of_nat (length (e_cands s)) <= n ->
    exists r, renounce_candidate cfg s w n = ROk r.
  Proof.
    intros [Hr Hb] Hw Hn. apply (roles_cand cfg s w Hr) in Hw. unfold renounce_candidate, is_candidate, ensure in *.
    destruct (N.leb_spec (w32 (N.of_nat (length (e_cands s)))) n) as [|Hc].
    - cbn [rbind]. destruct (bsearch _ _ _); [eauto|discriminate].
    - exfalso. assert (w32 (N.of_nat (length (e_cands s))) <= N.of_nat (length (e_cands s))); [|lia].
      apply N.mod_le. unfold two32. lia.
  Qed.
  Lemma leave_view s w o c s' ev : good cfg s ->
    (c = ERenounceMember \/ c = ERenounceRunner \/ exists n, c = ERenounceCandidate n) ->
    dispatch cfg s (Signed o) c = ROk (s', ev) -> o = w ->
    w ∈ role_ids s /\ w ∉ role_ids s' /\ bonds s' w = 0 /\
    acct_of (e_bank s') w = Acct (free (acct_of (e_bank s) w) + bonds s w) (rsv (acct_of (e_bank s) w) - bonds s w)
                                 (frz (acct_of (e_bank s) w)).
  Proof.
    intros Hg Hc H ->. pose proof Hg as [Hr Hb].
    assert (Hgo : forall d t, standing s ≡ₚ (w, d) :: standing t -> e_bank t = unreserve ed (e_bank s) w d ->
       w ∈ role_ids s /\ w ∉ role_ids t /\ bonds t w = 0 /\
       acct_of (e_bank t) w = Acct (free (acct_of (e_bank s) w) + bonds s w) (rsv (acct_of (e_bank s) w) - bonds s w)
                                   (frz (acct_of (e_bank s) w))).
    { intros d t Hst Et. destruct (leave_ids _ _ _ _ Hst (r_nodup _ _ Hr)) as [_ Hnr].
      assert (Hbw : bonds s w = d).
      { rewrite bonds_standing. apply bond_in_at; [rewrite standing_ids; apply Hr|]. rewrite Hst. now left. }
      split. { rewrite <- standing_ids, Hst. now left. }
      split; [done|]. split. { rewrite bonds_standing. apply bond_in_out. now rewrite standing_ids. }
      rewrite Et, Hbw. apply (moved_eq (e_bank s) _ w). apply (unreserve_moved cfg); [now apply books_sound|].
      eapply bond_le; eauto. }
    destruct Hc as [->|[->|[n ->]]]; simpl in H.
    - unfold renounce_member in H. destruct (remove_and_replace _ _ _ _) as [[[s1 ev1] rep]|?|] eqn:E; try discriminate.
      injection H as <- _. pose proof (remove_view cfg Hed _ _ _ _ _ _ E Hg) as (V1 & V2 & V3 & V4 & _).
      split; [|done]. unfold role_ids. rewrite !elem_of_app. auto.
    - apply runner_facts in H as (i & r & Hi & Hw & _ & ->).
      eapply (Hgo (s_deposit r)); [|reflexivity]. now apply runner_standing.
    - apply cand_facts in H as (i & d & Hi & _ & ->). eapply (Hgo d); [|reflexivity]. now apply cand_standing.
  Qed.
End rest.
