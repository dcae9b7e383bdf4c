(** The council, the voters, the money, and when calls succeed. *)
From Verif Require Import Base Balances Proofs_Arith Proofs_Balances Model_Elections Spec_Elections
  Proofs_Elections Proofs_Elections2 Proofs_Elections3 Proofs_Elections4 Proofs_Elections5 Proofs_Elections6
  Proofs_Elections7 Proofs_Elections8 Proofs_Elections9 Proofs_Elections10.
From Coq Require Import Sorting.Sorted.
From stdpp Require Import gmap sorting.
Open Scope N_scope.

Section more.
  Context (cfg : ecfg) (Hel : elect_ok cfg) (Hed : 0 < ec_ed cfg).
  Local Notation ed := (ec_ed cfg).

  (** clean_defunct_voters. *)
  Lemma defunct_spec s votes : roles cfg s ->
    is_defunct s votes = true <-> forall v, v ∈ votes -> v ∉ role_ids s.
  Proof.
    intros Hr. unfold is_defunct. rewrite forallb_forall. split.
    - intros H v Hv. apply elem_of_list_In in Hv. specialize (H v Hv).
      rewrite !andb_true_iff, !negb_true_iff, <- !not_true_iff_false in H.
      rewrite (roles_member cfg), (roles_cand cfg), roles_runner in H by done.
      unfold role_ids. rewrite !elem_of_app. tauto.
    - intros H v Hv. apply elem_of_list_In in Hv. specialize (H v Hv).
      rewrite !andb_true_iff, !negb_true_iff, <- !not_true_iff_false.
      rewrite (roles_member cfg), (roles_cand cfg), roles_runner by done.
      unfold role_ids in H. rewrite !elem_of_app in H. tauto.
  Qed.
  Lemma fold_unvote l s : good cfg s -> NoDup l ->
    let s' := foldl (do_remove_voter cfg) s l in
    good cfg s' /\ same_money (e_bank s) (e_bank s') /\ e_ident s' = e_ident s /\ e_rounds s' = e_rounds s /\
    e_council s' = e_council s /\ e_prime s' = e_prime s /\
    forall x, if decide (x ∈ l)
      then e_voting s' !! x = None /\ lock_of (e_own s') x = 0 /\
        acct_of (e_bank s') x =
          Acct (free (acct_of (e_bank s) x) + vote_deposit s x) (rsv (acct_of (e_bank s) x) - vote_deposit s x)
               (lock_of (e_oth s) x)
      else e_voting s' !! x = e_voting s !! x /\ e_own s' !! x = e_own s !! x /\
        acct_of (e_bank s') x = acct_of (e_bank s) x.
  Proof.
    revert s. induction l as [|w l IH]; intros s Hg Hn; cbn [foldl].
    { split; [done|]. split; [split; reflexivity|]. do 4 (split; [done|]). intros x.
      destruct (decide _) as [Hx|Hx]; [now apply elem_of_nil in Hx|done]. }
    apply NoDup_cons in Hn as [Hw Hn]. destruct Hg as [Hr Hb].
    assert (Hg1 : good cfg (do_remove_voter cfg s w)) by (split; eapply unvote_good; eauto).
    destruct (IH _ Hg1 Hn) as (G & M & E1 & E2 & E3 & E4 & Hx). cbv zeta in *. clear IH.
    pose proof (unvote_same cfg Hed s w Hb) as M1.
    destruct (unvote_facts cfg s w Hb) as (b & E & Hm). rewrite E in *. clear E.
    split; [done|]. split; [eapply same_money_trans; [exact M1|exact M]|].
    do 4 (split; [now rewrite ?E1, ?E2, ?E3, ?E4|]). intros x. specialize (Hx x).
    unfold vote_deposit in *. cbn [e_voting e_own e_bank e_oth set_ebank set_locks set_voting] in *.
    destruct (decide (x ∈ l)) as [Hl|Hl].
    - assert (x <> w) by (intros ->; done). rewrite (moved_ne _ _ _ _ x Hm) in Hx by done.
      rewrite lookup_delete_ne in Hx by auto. destruct (decide (x ∈ w :: l)) as [|Hc]; [done|].
      exfalso. apply Hc. now right.
    - destruct (decide (x ∈ w :: l)) as [Hc|Hc].
      + apply elem_of_cons in Hc as [->|]; [|done]. rewrite lookup_delete in Hx.
        destruct Hx as (-> & E & ->). split; [done|]. split; [unfold lock_of; rewrite E; now rewrite lookup_delete|].
        apply (moved_eq _ _ _ _ Hm).
      + assert (x <> w) by (intros ->; apply Hc; now left). rewrite (moved_ne _ _ _ _ x Hm) in Hx by done.
        rewrite !lookup_delete_ne in Hx by auto. done.
  Qed.
  Lemma clean_facts s : good cfg s ->
    let s' := clean cfg s in
    good cfg s' /\ same_money (e_bank s) (e_bank s') /\ e_ident s' = e_ident s /\ e_rounds s' = e_rounds s /\
    e_council s' = e_council s /\ e_prime s' = e_prime s /\
    forall x,
      (forall v, e_voting s !! x = Some v -> (forall y, y ∈ v_votes v -> y ∉ role_ids s) ->
         e_voting s' !! x = None /\ lock_of (e_own s') x = 0 /\
         acct_of (e_bank s') x =
          Acct (free (acct_of (e_bank s) x) + vote_deposit s x) (rsv (acct_of (e_bank s) x) - vote_deposit s x)
               (lock_of (e_oth s) x)) /\
      ((e_voting s !! x = None \/ exists v y, e_voting s !! x = Some v /\ y ∈ v_votes v /\ y ∈ role_ids s) ->
         e_voting s' !! x = e_voting s !! x /\ e_own s' !! x = e_own s !! x /\
         acct_of (e_bank s') x = acct_of (e_bank s) x).
  Proof.
    intros Hg. unfold clean.
    set (l := fst <$> filter (fun p : N * voter => is_defunct s (v_votes p.2) = true) (map_to_list (e_voting s))).
    assert (Hn : NoDup l).
    { eapply sublist_NoDup; [apply fmap_sublist, filter_sublist|]. apply NoDup_fst_map_to_list. }
    assert (Hl : forall x, x ∈ l <-> exists v, e_voting s !! x = Some v /\ forall y, y ∈ v_votes v -> y ∉ role_ids s).
    { intros x. unfold l. rewrite elem_of_list_fmap. split.
      - intros ([k v] & -> & H). apply elem_of_list_filter in H as [H1 H2]. apply elem_of_map_to_list in H2.
        exists v. split; [done|]. apply defunct_spec; [apply Hg|done].
      - intros (v & H1 & H2). exists (x, v). split; [done|]. apply elem_of_list_filter. split.
        + simpl. apply defunct_spec; [apply Hg|done].
        + now apply elem_of_map_to_list. }
    destruct (fold_unvote l s Hg Hn) as (G & M & E1 & E2 & E3 & E4 & Hx). cbv zeta in *.
    do 6 (split; [done|]). intros x. specialize (Hx x). specialize (Hl x). split.
    - intros v Hv Hd. destruct (decide (x ∈ l)) as [|Hc]; [done|]. exfalso. apply Hc, Hl. eauto.
    - intros Hd. destruct (decide (x ∈ l)) as [Hc|]; [|done]. exfalso. apply Hl in Hc as (v & Hv & Hnone).
      destruct Hd as [Hd|(v' & y & Hd & Hy & Hr)]; [congruence|]. rewrite Hd in Hv. injection Hv as ->.
      now apply (Hnone y).
  Qed.

  (** Removal of a member, seen from outside. *)
  Lemma remove_view s w sl s' ev rep :
    remove_and_replace cfg s w sl = ROk (s', ev, rep) -> good cfg s ->
    w ∈ member_ids s /\ w ∉ role_ids s' /\ bonds s' w = 0 /\
    acct_of (e_bank s') w =
      Acct (free (acct_of (e_bank s) w) + (if sl then 0 else bonds s w)) (rsv (acct_of (e_bank s) w) - bonds s w)
           (frz (acct_of (e_bank s) w)) /\
    (forall x, x <> w -> acct_of (e_bank s') x = acct_of (e_bank s) x /\ bonds s' x = bonds s x) /\
    e_voting s' = e_voting s /\ e_own s' = e_own s /\ e_oth s' = e_oth s /\ e_rsv s' = e_rsv s /\
    e_ident s' = e_ident s /\ e_rounds s' = e_rounds s /\ cand_ids s' = cand_ids s /\
    match last (e_runners s) with
    | None => w :: member_ids s' ≡ₚ member_ids s /\ runner_ids s' = []
    | Some r => w :: member_ids s' ≡ₚ s_who r :: member_ids s /\ runner_ids s = runner_ids s' ++ [s_who r]
    end /\
    e_council s' = member_ids s' /\
    e_prime s' = (match e_prime s with Some p => if p =? w then None else Some p | None => None end) /\
    ev = (if sl then [ESeatSlashed w (bonds s w)] else []) ++
           [EChange (match last (e_runners s) with Some r => [s_who r] | None => [] end) [w] (member_ids s')] /\
    money (e_bank s') = money (e_bank s) /\ lost (e_bank s') = lost (e_bank s) + burnt ev /\
    rep = bool_decide (e_runners s <> []).
  Proof.
    intros H [Hr Hb]. apply remove_facts in H as (i & m & ms & rs & b & Hi & Hw & Hp & Eb & -> & ->); [|done].
    set (s' := set_council _ _ _).
    pose proof (promoted_standing s i m ms rs rep s' w Hi Hw Hp eq_refl eq_refl eq_refl) as Hst.
    pose proof (bond_le cfg _ _ _ _ Hb Hst) as Hle. pose proof (books_sound _ _ Hb) as Hs.
    destruct (leave_ids _ _ _ _ Hst (r_nodup _ _ Hr)) as [_ Hnr].
    assert (Hmem : w ∈ member_ids s).
    { rewrite <- Hw. apply elem_of_list_fmap_1. eapply elem_of_list_lookup_2; eauto. }
    assert (Hbw : bonds s w = s_deposit m).
    { rewrite bonds_standing. apply bond_in_at; [rewrite standing_ids; apply Hr|]. rewrite Hst. now left. }
    assert (Hb0 : bonds s' w = 0).
    { rewrite bonds_standing. apply bond_in_out. now rewrite standing_ids. }
    split; [done|]. split; [done|]. split; [done|].
    assert (Hmv : moved (e_bank s) b w (Acct (free (acct_of (e_bank s) w) + (if sl then 0 else bonds s w))
      (rsv (acct_of (e_bank s) w) - bonds s w) (frz (acct_of (e_bank s) w)))).
    { rewrite <- Eb, Hbw. destruct sl.
      - rewrite N.add_0_r. now apply slash_bond_moved.
      - now apply give_moved. }
    split; [apply (moved_eq _ _ _ _ Hmv)|]. split.
    { intros x Hx. split; [eapply moved_ne; eauto|].
      pose proof (bonds_cons _ _ _ _ x Hst) as Hc. destruct (N.eqb_spec w x); [congruence|lia]. }
    do 7 (split; [reflexivity|]). split.
    { assert (Hd : member_ids s ≡ₚ w :: (s_who <$> delete i (e_members s))).
      { unfold member_ids. rewrite (delete_perm _ _ _ Hi) at 1. rewrite fmap_cons. now rewrite Hw. }
      unfold s', member_ids, runner_ids. cbn [e_members e_runners set_council set_roles].
      inversion Hp as [H1 H2 H3 H4|rs' r j H1 H2 H3 H4 H5]; subst.
      - rewrite H1. cbn [last]. split; [|done]. symmetry. exact Hd.
      - rewrite H1, last_snoc. split.
        + rewrite (insert_at_perm j), fmap_cons. fold (member_ids s). rewrite Hd. apply perm_swap.
        + now rewrite fmap_app. }
    split; [reflexivity|]. split; [reflexivity|]. split; [now rewrite Hbw|].
    rewrite burnt_app. unfold s'. cbn [e_bank set_council set_roles set_ebank]. rewrite <- Eb.
    assert (Hrep : rep = bool_decide (e_runners s <> [])).
    { inversion Hp as [H1 H2 H3 H4|rs' r j H1 H2 H3 H4 H5]; subst; rewrite H1; [done|].
      symmetry. apply bool_decide_eq_true. now destruct rs. }
    destruct sl.
    - split; [apply slash_bond_money|]. split; [|done]. rewrite slash_bond_lost by done. unfold burnt. simpl. lia.
    - destruct (unreserve_same cfg (e_bank s) w (s_deposit m) Hs Hle) as [M1 M2].
      cbn [give_bond e_bank set_ebank]. rewrite M1, M2. split; [done|]. split; [|done]. unfold burnt. simpl. lia.
  Qed.

  (** Money: what calls and blocks burn is what their events say. *)
  Lemma phragmen_money s s' ev : do_phragmen cfg s = (s', ev) -> good cfg s ->
    money (e_bank s') = money (e_bank s) /\ lost (e_bank s') = lost (e_bank s) + burnt ev.
  Proof.
    intros H [Hr Hb]. apply (phragmen_spec cfg Hel) in H as [(_ & -> & ->)|[(_ & _ & -> & ->)|(_ & _ & ws & _ & H1 & H2 & H3)]]; auto.
    - split; [done|]. unfold burnt. simpl. lia.
    - split; [done|]. unfold burnt. simpl. lia.
    - split; [|eapply install_lost; eauto].
      now destruct (install_facts cfg s ws s' ev H3 Hr Hb H1 H2) as (_ & _ & _ & _ & _ & _ & _ & _ & _ & _ & _ & _ & Hm & _).
  Qed.
  Lemma dispatch_money s o c s' ev : dispatch cfg s o c = ROk (s', ev) -> good cfg s ->
    money (e_bank s') = money (e_bank s) /\ lost (e_bank s') = lost (e_bank s) + burnt ev.
  Proof.
    intros H Hg. destruct o as [|w|].
    - destruct c; try discriminate; cbn [dispatch root] in H; unfold rbind in H.
      + unfold remove_member, rbind in H.
        destruct (remove_and_replace _ _ _ _) as [[[s1 ev1] rep]|?|] eqn:E1; try discriminate.
        pose proof (remove_view _ _ _ _ _ _ E1 Hg) as V. decompose [and] V. clear V.
        destruct rerun.
        * destruct (do_phragmen cfg s1) as [s2 ev2] eqn:E2. injection H as <- <-.
          assert (good cfg s1) as Hg1 by (split; eapply remove_good; eauto; apply Hg).
          destruct (phragmen_money _ _ _ E2 Hg1) as [M1 M2]. rewrite burnt_app.
          change (burnt (EKicked who :: ev2)) with (0 + burnt ev2). split; [congruence|]. rewrite M2. lia.
        * injection H as <- <-. rewrite burnt_app. change (burnt [EKicked who]) with 0. split; [done|lia].
      + injection H as <- <-. destruct (clean_facts s Hg) as (_ & [M1 M2] & _). split; [done|]. unfold burnt. simpl. lia.
    - pose proof (so_money _ _ _ (signed_solo cfg Hed _ _ _ _ _ H Hg)) as [M1 M2].
      assert (burnt ev = 0) as ->; [|split; [done|lia]].
      destruct c; simpl in H; try discriminate.
      + apply vote_facts in H as (b & f & f0 & r & z & H); auto; [|apply Hg]. decompose [and] H. subst ev. done.
      + unfold remove_voter, ensure in H. destruct (is_voter s w); [|discriminate]. now injection H as _ <-.
      + apply submit_facts in H as (b & i & _ & _ & _ & _ & _ & -> & _); [done|apply Hg].
      + unfold renounce_member in H. destruct (remove_and_replace _ _ _ _) as [[[s1 ev1] rep]|?|] eqn:E; try discriminate.
        injection H as _ <-. pose proof (remove_view _ _ _ _ _ _ E Hg) as V. decompose [and] V. subst ev1.
        unfold burnt. simpl. lia.
      + now apply runner_facts in H as (i & r & _ & _ & -> & _).
      + now apply cand_facts in H as (i & r & _ & -> & _).
    - destruct c; discriminate.
  Qed.

  (** The council. *)
  Definition told (s : estate) : Prop := e_council s = member_ids s.
  Definition untold (s s' : estate) (ev : list eev) : Prop :=
    List.filter is_change ev = [] /\ member_ids s' = member_ids s /\ e_council s' = e_council s /\ e_prime s' = e_prime s.
  Definition prime_in (s : estate) : Prop := forall p, e_prime s = Some p -> p ∈ e_council s /\ told s.
  Definition retold (s s' : estate) (ev : list eev) : Prop :=
    List.filter is_change ev <> [] /\ told s' /\ (prime_in s -> prime_in s').

  Lemma install_retold s ws s' ev :
    install cfg s ws = (s', ev) -> roles cfg s -> books cfg s ->
    NoDup (fst <$> ws) -> (forall w, w ∈ fst <$> ws -> w ∈ role_ids s) -> retold s s' ev /\ prime_in s'.
  Proof.
    intros H Hr Hb Hn Hsub.
    destruct (install_term cfg s ws s' ev H Hr Hb Hn Hsub) as (_ & _ & _ & _ & Hc).
    destruct (install_facts cfg s ws s' ev H Hr Hb Hn Hsub) as (_ & _ & _ & _ & _ & _ & _ & _ & _ & Ec & Ep & _ & _ & He).
    assert (Hp : prime_in s').
    { intros p E. split; [|done]. rewrite Ep in E. rewrite Ec.
      pose proof (prime_spec s (ksort fst (take (ec_members cfg) (ranked s ws)))) as P. rewrite E in P.
      apply P. apply ksort_asc. eapply sublist_NoDup; [apply fmap_sublist, sublist_take|].
      eapply sublist_NoDup; [apply ranked_sub|done]. }
    split; [|done]. split; [|split; [done|auto]]. rewrite He. discriminate.
  Qed.
  Lemma phragmen_council s s' ev : do_phragmen cfg s = (s', ev) -> good cfg s -> untold s s' ev \/ retold s s' ev.
  Proof.
    intros H [Hr Hb]. apply (phragmen_spec cfg Hel) in H as [(_ & -> & ->)|[(_ & _ & -> & ->)|(_ & _ & ws & _ & H1 & H2 & H3)]]; auto.
    - now left.
    - now left.
    - right. eapply install_retold; eauto.
  Qed.
  Lemma remove_council s w sl s' ev rep :
    remove_and_replace cfg s w sl = ROk (s', ev, rep) -> good cfg s -> retold s s' ev.
  Proof.
    intros H Hg. pose proof (remove_view _ _ _ _ _ _ H Hg) as
      (_ & _ & _ & _ & _ & _ & _ & _ & _ & _ & _ & _ & Hm & Hc & Hp & He & _).
    split; [rewrite He; now destruct sl|]. split; [done|]. intros Hi p Ep.
    split; [|done]. rewrite Hc. rewrite Hp in Ep. destruct (e_prime s) as [q|] eqn:Eq; [|discriminate].
    destruct (N.eqb_spec q w); [discriminate|]. injection Ep as ->. destruct (Hi p Eq) as [Hin Ht].
    rewrite Ht in Hin. destruct (last (e_runners s)) as [r|].
    - destruct Hm as [Hm _]. assert (Hx : p ∈ s_who r :: member_ids s) by now right.
      rewrite <- Hm in Hx. apply elem_of_cons in Hx as [|]; [congruence|done].
    - destruct Hm as [Hm _]. rewrite <- Hm in Hin. apply elem_of_cons in Hin as [|]; [congruence|done].
  Qed.
  Lemma filter_change_app (l k : list eev) : List.filter is_change (l ++ k) = List.filter is_change l ++ List.filter is_change k.
  Proof. apply List.filter_app. Qed.
  Lemma dispatch_council s o c s' ev : dispatch cfg s o c = ROk (s', ev) -> good cfg s -> untold s s' ev \/ retold s s' ev.
  Proof.
    intros H Hg. destruct c; simpl in H; unfold rbind in H; try destruct o as [|w|]; try discriminate; cbn [signed root] in H.
    - left. apply vote_facts in H as (b & f & f0 & r & z & H); auto; [|apply Hg]. decompose [and] H. subst ev.
      match goal with E : s' = set_voting _ _ |- _ => rewrite E end. done.
    - left. unfold remove_voter, ensure in H. destruct (is_voter s w); [|discriminate]. now injection H as <- <-.
    - left. now apply submit_facts in H as (b & i & -> & _ & _ & _ & _ & -> & _); [|apply Hg].
    - right. unfold renounce_member in H. destruct (remove_and_replace _ _ _ _) as [[[s1 ev1] rep]|?|] eqn:E; try discriminate.
      injection H as <- <-. destruct (remove_council _ _ _ _ _ _ E Hg) as [H1 H2]. split; [|done].
      rewrite filter_change_app. cbn. rewrite app_nil_r. done.
    - left. now apply runner_facts in H as (i & r & _ & _ & -> & ->).
    - left. now apply cand_facts in H as (i & r & _ & -> & ->).
    - right. unfold remove_member, rbind in H.
      destruct (remove_and_replace _ _ _ _) as [[[s1 ev1] rep]|?|] eqn:E1; try discriminate.
      destruct (remove_council _ _ _ _ _ _ E1 Hg) as (H1 & H2 & H3).
      destruct rerun.
      + destruct (do_phragmen cfg s1) as [s2 ev2] eqn:E2. injection H as <- <-.
        assert (good cfg s1) as Hg1 by (split; eapply remove_good; eauto; apply Hg).
        split; [rewrite filter_change_app; intros Hc; apply app_eq_nil in Hc as [Hc _]; done|].
        destruct (phragmen_council _ _ _ E2 Hg1) as [(_ & U2 & U3 & U4)|(_ & U2 & U3)].
        * split; [unfold told in *; congruence|]. intros Hp p Ep. rewrite U4 in Ep. destruct (H3 Hp p Ep) as [K1 K2].
          unfold told in *. split; congruence.
        * split; [done|auto].
      + injection H as <- <-. split; [|done]. rewrite filter_change_app. cbn. rewrite app_nil_r. done.
    - left. injection H as <- <-. destruct (clean_facts s Hg) as (_ & _ & _ & _ & E3 & E4 & _).
      destruct (clean_roles cfg s) as (E1 & _). split; [done|]. unfold member_ids. now rewrite E1.
  Qed.
  Lemma step_council s op : good cfg s ->
    untold s (eexec cfg s op).1 (events (eexec cfg s op).2) \/ retold s (eexec cfg s op).1 (events (eexec cfg s op).2).
  Proof.
    intros Hg. destruct op as [o c|n|x has|x v|x v|x v|x v|x v|x v]; cbn [eexec].
    - destruct (dispatch cfg s o c) as [[s' ev]|e|] eqn:E; cbn [fst snd events]; [|now left|now left].
      eapply dispatch_council; eauto.
    - unfold on_initialize. destruct (_ && _); [|now left].
      destruct (do_phragmen cfg s) as [s' ev] eqn:E. cbn [fst snd events]. eapply phragmen_council; eauto.
    - now left.
    - now left.
    - destruct (withdraw _ _ _ _ _); now left.
    - now left.
    - destruct (reserve _ _ _ _); now left.
    - now left.
    - destruct (_ <=? _); now left.
  Qed.
End more.
