(** What each call does, seen from outside. *)
From Verif Require Import Base Balances Proofs_Arith Proofs_Balances Model_Elections Spec_Elections
  Proofs_Elections Proofs_Elections2 Proofs_Elections3 Proofs_Elections4 Proofs_Elections5 Proofs_Elections6
  Proofs_Elections7 Proofs_Elections8.
From Coq Require Import Sorting.Sorted.
From stdpp Require Import gmap sorting.
Open Scope N_scope.

Section outside.
  Context (cfg : ecfg) (Hel : elect_ok cfg) (Hed : 0 < ec_ed cfg).
  Local Notation ed := (ec_ed cfg).

  Lemma deposit_of_eq n : (n <= 16)%nat ->
    deposit_of cfg n = N.min (ec_base cfg + ec_factor cfg * N.of_nat n) (two128 - 1).
  Proof.
    intros Hn. unfold deposit_of, sadd, smul128. rewrite w32_small by (unfold two32; lia).
    generalize (two128 - 1). intros M. lia.
  Qed.

  (** A call by an account, seen by that account and by the others. *)
  Record solo (s s' : estate) (w : N) : Prop := {
    so_acct : forall x, x <> w -> acct_of (e_bank s') x = acct_of (e_bank s) x;
    so_wealth : wealth s' w = wealth s w;
    so_vote : forall x, x <> w -> e_voting s' !! x = e_voting s !! x;
    so_own : forall x, x <> w -> e_own s' !! x = e_own s !! x;
    so_bonds : forall x, x <> w -> bonds s' x = bonds s x;
    so_cand : forall x, x <> w -> (x ∈ cand_ids s' <-> x ∈ cand_ids s);
    so_member : forall x, x <> w -> x ∈ member_ids s -> x ∈ member_ids s';
    so_runner : forall x, x <> w -> x ∈ runner_ids s' -> x ∈ runner_ids s;
    so_promote : forall x, x <> w -> x ∈ runner_ids s -> x ∈ runner_ids s' \/ w ∈ member_ids s /\ x ∈ member_ids s';
    so_new : forall x, x <> w -> x ∈ member_ids s' -> x ∈ member_ids s \/ w ∈ member_ids s /\ x ∈ runner_ids s;
    so_rest : e_ident s' = e_ident s /\ e_rsv s' = e_rsv s /\ e_oth s' = e_oth s /\ e_rounds s' = e_rounds s;
    so_money : same_money (e_bank s) (e_bank s') }.

  (** Roles untouched. *)
  Lemma solo_roles s s' w :
    e_members s' = e_members s -> e_runners s' = e_runners s -> e_cands s' = e_cands s ->
    e_ident s' = e_ident s -> e_rsv s' = e_rsv s -> e_oth s' = e_oth s -> e_rounds s' = e_rounds s ->
    (forall x, x <> w -> acct_of (e_bank s') x = acct_of (e_bank s) x) -> wealth s' w = wealth s w ->
    (forall x, x <> w -> e_voting s' !! x = e_voting s !! x) ->
    (forall x, x <> w -> e_own s' !! x = e_own s !! x) -> same_money (e_bank s) (e_bank s') ->
    solo s s' w.
  Proof.
    intros E1 E2 E3 E4 E5 E6 E7 H1 H2 H3 H4 H5.
    split; auto; unfold bonds, cand_ids, member_ids, runner_ids; rewrite ?E1, ?E2, ?E3; auto.
  Qed.

  Lemma remove_slot {A} (key : A -> N) (l : list A) (i : nat) m (x : N) :
    l !! i = Some m -> x <> key m -> (x ∈ key <$> delete i l <-> x ∈ key <$> l).
  Proof.
    intros Hi Hx. rewrite (delete_perm l i m Hi) at 2. rewrite fmap_cons, elem_of_cons.
    split; [auto|]. intros [|]; [congruence|done].
  Qed.

  Lemma unreserve_wealth b w v :
    sound_bank cfg b -> v <= rsv (acct_of b w) ->
    free (acct_of (unreserve ed b w v) w) + rsv (acct_of (unreserve ed b w v) w) =
    free (acct_of b w) + rsv (acct_of b w).
  Proof. intros Hs Hv. rewrite (moved_eq _ _ _ _ (unreserve_moved cfg b w v Hs Hv)). simpl. lia. Qed.

  Lemma unvote_same s w : books cfg s -> same_money (e_bank s) (e_bank (do_remove_voter cfg s w)).
  Proof.
    intros Hb. unfold do_remove_voter. rewrite deposit_default. destruct (Hb w) as (Ha & Hr & Hz & Hv).
    assert (Hd : ed <= free (acct_of (e_bank s) w) \/
      acct_of (e_bank s) w = acct0 /\ N.max (lock_of (delete w (e_own s)) w) (lock_of (e_oth s) w) = 0).
    { destruct Ha as [Ha|Ha]; [now left|right]. split; [done|]. rewrite Ha in Hz. simpl in Hz. rewrite lock_delete. lia. }
    pose proof (relock_moved cfg (set_voting s (delete w (e_voting s))) w (delete w (e_own s)) (e_oth s) Hd) as Hm.
    pose proof (relock_same cfg (set_voting s (delete w (e_voting s))) w (delete w (e_own s)) (e_oth s) Hd) as Hsm.
    unfold give_bond, remove_lock. cbn [e_bank set_ebank e_own e_oth set_voting] in *.
    eapply same_money_trans; [exact Hsm|]. apply (unreserve_same cfg).
    - eapply moved_sound; [now apply books_sound|exact Hm|]. simpl. destruct Hd as [Hd|[Hd1 Hd2]]; [now left|right].
      rewrite Hd2, Hd1. reflexivity.
    - rewrite (moved_eq _ _ _ _ Hm). simpl. lia.
  Qed.
  Lemma unvote_solo s w : books cfg s -> solo s (do_remove_voter cfg s w) w.
  Proof.
    intros Hb. pose proof (unvote_same s w Hb) as Hsm.
    destruct (unvote_facts cfg s w Hb) as (b & E & Hm). rewrite E in *.
    apply solo_roles; try reflexivity; auto.
    - intros x Hx. eapply moved_ne; eauto.
    - unfold wealth. cbn [e_bank set_ebank]. rewrite (moved_eq _ _ _ _ Hm). simpl.
      destruct (Hb w) as (_ & Hr & _). lia.
    - intros x Hx. simpl. now rewrite lookup_delete_ne by auto.
    - intros x Hx. simpl. now rewrite lookup_delete_ne by auto.
  Qed.
  Lemma move_same s w new s1 : books cfg s -> new < two128 ->
    move_deposit cfg s w (vote_deposit s w) new = Some s1 -> same_money (e_bank s) (e_bank s1).
  Proof.
    intros Hb Hn. pose proof (vote_deposit_small cfg s w Hb) as Hold. unfold move_deposit.
    destruct (N.ltb_spec (vote_deposit s w) new).
    - destruct (reserve _ _ _ _) as [b|] eqn:E; [|discriminate]. intros [= <-]. eapply reserve_same; eauto.
    - destruct (N.ltb_spec new (vote_deposit s w)); intros [= <-]; [|done].
      apply (unreserve_same cfg); [now apply books_sound|]. rewrite sub128_exact by lia.
      destruct (Hb w) as (_ & Hr & _). lia.
  Qed.
  Lemma vote_same s w votes value s' ev :
    vote cfg s w votes value = ROk (s', ev) -> books cfg s -> same_money (e_bank s) (e_bank s').
  Proof.
    intros H Hb. unfold vote, ensure in H.
    repeat (match type of H with context[if ?b then _ else _] => destruct b; [|discriminate] end; cbn [rbind] in H).
    rewrite deposit_default in H.
    destruct (move_deposit _ _ _ _ _) as [s1|] eqn:E; [|discriminate].
    pose proof (move_same s w _ s1 Hb (deposit_small cfg _) E) as H1.
    apply move_facts in E as (b & f & -> & Hm & Hf & Ha); [|done|apply deposit_small].
    injection H as <- _. cbn [e_bank set_voting]. eapply same_money_trans; [exact H1|].
    unfold set_lock. cbn [e_bank set_ebank].
    destruct (N.eqb_spec (N.min value (free_of b w)) 0) as [|Hn0]; [split; reflexivity|].
    apply relock_same. left. unfold free_of in Hn0. cbn [e_bank set_ebank] in *.
    rewrite (moved_eq _ _ _ _ Hm) in *. simpl in *. destruct Ha as [|Ha]; [done|]. unfold acct0 in Ha. injection Ha as -> _ _. lia.
  Qed.
  Lemma vote_solo s w votes value s' ev :
    vote cfg s w votes value = ROk (s', ev) -> books cfg s -> solo s s' w.
  Proof.
    intros H Hb. pose proof (vote_same _ _ _ _ _ _ H Hb) as Hsm.
    apply vote_facts in H as (b & f & f0 & r & z & Hf & Hle & Hrr & Hf0 & Ha & Hz & Hm & Hlen & _ & _ & _ & Hown & E & Hoth); auto.
    destruct (Hb w) as (_ & Hx & _).
    apply solo_roles; rewrite E; try reflexivity.
    - intros x Hn. eapply moved_ne; eauto.
    - unfold wealth. cbn [e_bank set_voting set_locks set_ebank]. rewrite (moved_eq _ _ _ _ Hm). simpl. lia.
    - intros x Hn. simpl. now rewrite lookup_insert_ne by auto.
    - intros x Hn. simpl. auto.
    - now rewrite E in Hsm.
  Qed.
  Lemma submit_solo s w n s' ev :
    submit_candidacy cfg s w n = ROk (s', ev) -> good cfg s -> solo s s' w.
  Proof.
    intros H [Hr Hb]. apply submit_facts in H as (b & i & -> & Eb & Hi & Hw & _); [|done].
    pose proof (reserve_same cfg _ _ _ _ Eb) as Hsm. apply reserve_moved in Eb as (Hm & Hle & _).
    split; try done.
    - intros x Hn. eapply moved_ne; eauto.
    - unfold wealth. cbn [e_bank set_roles set_ebank]. rewrite (moved_eq _ _ _ _ Hm). simpl. lia.
    - intros x Hn. rewrite (bonds_cons _ _ _ _ x (submit_standing s w (ec_bond cfg) i b)).
      destruct (N.eqb_spec w x); [congruence|lia].
    - intros x Hn. unfold cand_ids. simpl. rewrite (insert_at_perm i), fmap_cons, elem_of_cons. simpl.
      split; [intros [|]; [congruence|done]|auto].
    - intros x Hn Hx. now left.
    - intros x Hn Hx. now left.
  Qed.
  Lemma runner_solo s w s' ev :
    renounce_runner cfg s w = ROk (s', ev) -> good cfg s -> solo s s' w.
  Proof.
    intros H [Hr Hb]. apply runner_facts in H as (i & r & Hi & Hw & _ & ->).
    pose proof (runner_standing s i r (unreserve ed (e_bank s) w (s_deposit r)) w Hi Hw) as Hp.
    pose proof (bond_le cfg _ _ _ _ Hb Hp) as Hle. pose proof (books_sound _ _ Hb) as Hs.
    split; try done.
    - intros x Hn. eapply moved_ne; [|exact Hn]. now apply (unreserve_moved cfg).
    - unfold wealth, give_bond. cbn [e_bank set_roles set_ebank]. now apply unreserve_wealth.
    - intros x Hn. pose proof (bonds_cons _ _ _ _ x Hp) as Hc. destruct (N.eqb_spec w x); [congruence|].
      unfold give_bond. rewrite Hc. cbn [e_bank set_roles]. lia.
    - intros x Hn. unfold runner_ids. simpl. intros Hx. eapply (remove_slot s_who); eauto. congruence.
    - intros x Hn Hx. left. unfold runner_ids. simpl. eapply (remove_slot s_who); eauto. congruence.
    - intros x Hn Hx. now left.
    - now apply (unreserve_same cfg).
  Qed.
  Lemma cand_solo s w n s' ev :
    renounce_candidate cfg s w n = ROk (s', ev) -> good cfg s -> solo s s' w.
  Proof.
    intros H [Hr Hb]. apply cand_facts in H as (i & d & Hi & _ & ->).
    pose proof (cand_standing s i d (unreserve ed (e_bank s) w d) w Hi) as Hp.
    pose proof (bond_le cfg _ _ _ _ Hb Hp) as Hle. pose proof (books_sound _ _ Hb) as Hs.
    split; try done.
    - intros x Hn. eapply moved_ne; [|exact Hn]. now apply (unreserve_moved cfg).
    - unfold wealth, give_bond. cbn [e_bank set_roles set_ebank]. now apply unreserve_wealth.
    - intros x Hn. pose proof (bonds_cons _ _ _ _ x Hp) as Hc. destruct (N.eqb_spec w x); [congruence|].
      unfold give_bond. rewrite Hc. cbn [e_bank set_roles]. lia.
    - intros x Hn. unfold cand_ids. simpl. eapply (remove_slot fst); eauto.
    - intros x Hn Hx. now left.
    - intros x Hn Hx. now left.
    - now apply (unreserve_same cfg).
  Qed.
  Lemma remove_solo s w s' ev rep :
    remove_and_replace cfg s w false = ROk (s', ev, rep) -> good cfg s -> solo s s' w.
  Proof.
    intros H [Hr Hb]. apply remove_facts in H as (i & m & ms & rs & b & Hi & Hw & Hp & Eb & -> & _); [|done].
    set (s' := set_council _ _ _).
    pose proof (promoted_standing s i m ms rs rep s' w Hi Hw Hp eq_refl eq_refl eq_refl) as Hst.
    pose proof (bond_le cfg _ _ _ _ Hb Hst) as Hle. pose proof (books_sound _ _ Hb) as Hs.
    cbn [e_bank give_bond set_ebank] in Eb.
    assert (Hmem : w ∈ member_ids s).
    { rewrite <- Hw. apply elem_of_list_fmap_1. eapply elem_of_list_lookup_2; eauto. }
    split; try done.
    - intros x Hn. unfold s'. cbn [e_bank set_council set_roles set_ebank]. rewrite <- Eb.
      eapply moved_ne; [|exact Hn]. now apply (unreserve_moved cfg).
    - unfold wealth, s'. cbn [e_bank set_council set_roles set_ebank]. rewrite <- Eb. now apply unreserve_wealth.
    - intros x Hn. pose proof (bonds_cons _ _ _ _ x Hst) as Hc. destruct (N.eqb_spec w x); [congruence|lia].
    - intros x Hn Hx. unfold s', member_ids in *. cbn [e_members set_council set_roles].
      rewrite <- (remove_slot s_who (e_members s) i m x) in Hx; auto; [|congruence].
      inversion Hp; subst; [done|]. rewrite (insert_at_perm j), fmap_cons. now right.
    - intros x Hn Hx. unfold s', runner_ids in *. cbn [e_runners set_council set_roles] in Hx.
      inversion Hp as [H1 H2 H3 H4|rs' r j H1 H2 H3 H4 H5]; subst; [now apply elem_of_nil in Hx|].
      rewrite H1, fmap_app. apply elem_of_app. now left.
    - intros x Hn Hx. unfold s', runner_ids, member_ids in *. cbn [e_runners e_members set_council set_roles].
      inversion Hp as [H1 H2 H3 H4|rs' r j H1 H2 H3 H4 H5]; subst.
      + rewrite H1 in Hx. now apply elem_of_nil in Hx.
      + rewrite H1, fmap_app, elem_of_app in Hx. destruct Hx as [Hx|Hx]; [now left|right]. split; [done|].
        simpl in Hx. apply elem_of_list_singleton in Hx as ->. rewrite (insert_at_perm j), fmap_cons. now left.
    - intros x Hn Hx. unfold s', runner_ids, member_ids in *. cbn [e_members set_council set_roles] in Hx.
      inversion Hp as [H1 H2 H3 H4|rs' r j H1 H2 H3 H4 H5]; subst.
      + left. rewrite (remove_slot s_who (e_members s) i m x) in Hx; auto.
      + rewrite (insert_at_perm j), fmap_cons, elem_of_cons in Hx. destruct Hx as [->|Hx].
        * right. split; [done|]. rewrite H1, fmap_app. apply elem_of_app. right. now left.
        * left. rewrite (remove_slot s_who (e_members s) i m x) in Hx; auto.
    - unfold s'. cbn [e_bank set_council set_roles set_ebank]. rewrite <- Eb. now apply (unreserve_same cfg).
  Qed.

  Lemma signed_solo s w c s' ev :
    dispatch cfg s (Signed w) c = ROk (s', ev) -> good cfg s -> solo s s' w.
  Proof.
    intros H Hg. destruct c; simpl in H; try discriminate.
    - eapply vote_solo; eauto. apply Hg.
    - unfold remove_voter, ensure in H. destruct (is_voter s w); [|discriminate]. injection H as <- _.
      apply unvote_solo, Hg.
    - eapply submit_solo; eauto.
    - unfold renounce_member in H. destruct (remove_and_replace _ _ _ _) as [[[s1 ev1] rep]|?|] eqn:E; try discriminate.
      injection H as <- _. eapply remove_solo; eauto.
    - eapply runner_solo; eauto.
    - eapply cand_solo; eauto.
  Qed.
End outside.
