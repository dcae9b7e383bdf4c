(** Searching, inserting and sorting. *)
From Verif Require Import Base Balances Model_Elections Spec_Elections.
From Coq Require Import Sorting.Sorted.
From stdpp Require Import gmap sorting.
Open Scope N_scope.

Section bsearch.
  Context {A : Type} (key : A -> N).
  Implicit Types (l : list A) (x : N).

  Lemma bsearch_from_inl l x fuel lo hi i :
    bsearch_from key l x fuel lo hi = inl i -> exists y, l !! i = Some y /\ key y = x.
  Proof.
    revert lo hi. induction fuel as [|n IH]; intros lo hi; cbn [bsearch_from]; [discriminate|].
    destruct (lo <? hi)%nat; [|discriminate]. cbv zeta.
    destruct (l !! (lo + (hi - lo) / 2)%nat) as [y|] eqn:E; [|discriminate].
    destruct (N.ltb_spec (key y) x); [apply IH|].
    destruct (N.ltb_spec x (key y)); [apply IH|].
    intros [= <-]. exists y. split; [done|lia].
  Qed.
  Lemma bsearch_inl l x i : bsearch key l x = inl i -> exists y, l !! i = Some y /\ key y = x.
  Proof. apply bsearch_from_inl. Qed.

  Lemma asc_lookup (m : list N) i j a b :
    ascending m -> m !! i = Some a -> m !! j = Some b -> (i < j)%nat -> a < b.
  Proof.
    intros Hs. revert i j. induction Hs as [|c r Hs IH Hc]; intros i j Hi Hj Hl; [done|].
    destruct i as [|i]; destruct j as [|j]; try lia; simpl in *.
    - simplify_eq. rewrite Forall_forall in Hc. apply Hc. eapply elem_of_list_lookup_2; eauto.
    - eapply IH; eauto. lia.
  Qed.
  Lemma asc_key_lookup l i j a b :
    ascending (key <$> l) -> l !! i = Some a -> l !! j = Some b -> (i < j)%nat -> key a < key b.
  Proof.
    intros Hs Hi Hj Hl. eapply (asc_lookup (key <$> l) i j); eauto.
    - now rewrite list_lookup_fmap, Hi.
    - now rewrite list_lookup_fmap, Hj.
  Qed.

  Lemma bsearch_from_inr l x fuel lo hi i :
    ascending (key <$> l) -> (hi - lo < fuel)%nat -> (lo <= hi <= length l)%nat ->
    (forall j y, l !! j = Some y -> (j < lo)%nat -> key y < x) ->
    (forall j y, l !! j = Some y -> (hi <= j)%nat -> x < key y) ->
    bsearch_from key l x fuel lo hi = inr i ->
    (forall j y, l !! j = Some y -> (j < i)%nat -> key y < x) /\
    (forall j y, l !! j = Some y -> (i <= j)%nat -> x < key y).
  Proof.
    intros Hs. revert lo hi. induction fuel as [|n IH]; intros lo hi Hf Hb Hlo Hhi; [lia|].
    cbn [bsearch_from]; cbv zeta. destruct (Nat.ltb_spec lo hi) as [Hl|Hl].
    2: { intros [= <-]. split; [auto|]. intros j y Hj Hge. apply (Hhi j); [done|lia]. }
    set (d := ((hi - lo) / 2)%nat).
    assert (Hd : (d < hi - lo)%nat) by (apply Nat.div_lt; lia).
    destruct (l !! (lo + d)%nat) as [y|] eqn:E.
    2: { apply lookup_ge_None in E. lia. }
    destruct (N.ltb_spec (key y) x) as [Hy|Hy].
    - apply IH; try lia; auto. intros j z Hj Hl2.
      destruct (decide (j = lo + d)%nat) as [->|].
      + rewrite E in Hj. injection Hj as <-. done.
      + assert (key z < key y); [|lia]. eapply asc_key_lookup; eauto. lia.
    - destruct (N.ltb_spec x (key y)) as [Hy2|Hy2]; [|discriminate].
      apply IH; try lia; auto. intros j z Hj Hl2.
      destruct (decide (j = lo + d)%nat) as [->|].
      + rewrite E in Hj. injection Hj as <-. done.
      + assert (key y < key z); [|lia]. eapply asc_key_lookup; eauto. lia.
  Qed.
  Lemma bsearch_inr l x i :
    ascending (key <$> l) -> bsearch key l x = inr i ->
    Forall (fun y => key y < x) (take i l) /\ Forall (fun y => x < key y) (drop i l).
  Proof.
    intros Hs H. unfold bsearch in H.
    apply bsearch_from_inr in H; auto; try lia.
    2: { intros j y Hj Hg. apply lookup_lt_Some in Hj. lia. }
    destruct H as [H1 H2]. split; apply Forall_lookup; intros j y Hj.
    - apply lookup_take_Some in Hj as [Hj Hl]. eauto.
    - rewrite lookup_drop in Hj. eapply H2; [done|lia].
  Qed.
  Lemma bsearch_found l x : ascending (key <$> l) -> found (bsearch key l x) = true <-> x ∈ key <$> l.
  Proof.
    intros Hs. destruct (bsearch key l x) as [i|i] eqn:E; simpl; split; intros H; try done.
    - apply bsearch_inl in E as (y & Hy & <-). apply elem_of_list_fmap_1. eapply elem_of_list_lookup_2; eauto.
    - apply bsearch_inr in E as [H1 H2]; auto.
      apply elem_of_list_fmap in H as (y & -> & Hy).
      rewrite <- (take_drop i l) in Hy. apply elem_of_app in Hy.
      rewrite Forall_forall in H1, H2. destruct Hy as [Hy|Hy]; [apply H1 in Hy|apply H2 in Hy]; lia.
  Qed.
  Lemma bsearch_not_found l x : ascending (key <$> l) -> found (bsearch key l x) = false <-> x ∉ key <$> l.
  Proof.
    intros Hs. rewrite <- (bsearch_found l x Hs). destruct (found _); split; intros H; try done.
  Qed.
  Lemma bsearch_inr_notin l x i : ascending (key <$> l) -> bsearch key l x = inr i -> x ∉ key <$> l.
  Proof. intros Hs E. apply bsearch_not_found; auto. now rewrite E. Qed.

End bsearch.

Lemma asc_app (l k : list N) :
  ascending (l ++ k) <-> ascending l /\ ascending k /\ forall x y, x ∈ l -> y ∈ k -> x < y.
Proof.
  split.
  - intros H. split; [|split].
    + eapply StronglySorted_app_inv_l; eauto.
    + eapply StronglySorted_app_inv_r; eauto.
    + intros x y. apply elem_of_StronglySorted_app; auto.
  - intros (Hl & Hk & H). induction Hl as [|a l Hl IH Ha]; [done|].
    simpl. constructor.
    + apply IH. intros x y Hx. apply H. now right.
    + apply Forall_app. split; [done|]. apply Forall_forall. intros y Hy. apply H; [now left|done].
Qed.
Lemma asc_sublist (l k : list N) : l `sublist_of` k -> ascending k -> ascending l.
Proof.
  induction 1 as [|x l k Hs IH|x l k Hs IH]; intros Ha; [done| |].
  - inversion Ha as [|? ? Ha' Hf]; subst. constructor; [now apply IH|].
    rewrite Forall_forall in Hf. apply Forall_forall. intros y Hy. apply Hf.
    eapply elem_of_submseteq; [done|].
    now apply sublist_submseteq.
  - inversion Ha; subst. now apply IH.
Qed.
Lemma asc_NoDup (l : list N) : ascending l -> NoDup l.
Proof.
  induction 1 as [|x l Hs IH Hf]; constructor; [|done].
  intros Hx. rewrite Forall_forall in Hf. apply Hf in Hx. lia.
Qed.

Section keyed.
  Context {A : Type} (key : A -> N).
  Implicit Types (l : list A).

  Lemma asc_insert l (x : N) i y :
    ascending (key <$> l) -> bsearch key l x = inr i -> key y = x -> ascending (key <$> insert_at i y l).
  Proof.
    intros Hs E <-. apply bsearch_inr in E as [H1 H2]; auto.
    unfold insert_at. rewrite fmap_app. simpl.
    rewrite <- (take_drop i l), fmap_app in Hs.
    apply asc_app in Hs as (Ha & Hb & Hc). apply asc_app. split; [done|]. split.
    - constructor; [done|]. now apply Forall_fmap.
    - intros a b Ha' Hb'. apply elem_of_cons in Hb' as [->|Hb']; [|auto].
      apply elem_of_list_fmap in Ha' as (c & -> & Hc'). rewrite Forall_forall in H1. auto.
  Qed.
  Lemma asc_delete l i : ascending (key <$> l) -> ascending (key <$> delete i l).
  Proof. apply asc_sublist, fmap_sublist, sublist_delete. Qed.
  Lemma insert_at_perm i x l : insert_at i x l ≡ₚ x :: l.
  Proof.
    unfold insert_at. rewrite <- (take_drop i l) at 3.
    now rewrite Permutation_middle.
  Qed.
  Lemma delete_perm l i x : l !! i = Some x -> l ≡ₚ x :: delete i l.
  Proof. apply delete_Permutation. Qed.

  Lemma kins_in x y l : y ∈ kins key x l <-> y = x \/ y ∈ l.
  Proof. rewrite (kins_perm key x l). apply elem_of_cons. Qed.
  Lemma kins_asc x l : key x ∉ key <$> l -> ascending (key <$> l) -> ascending (key <$> kins key x l).
  Proof.
    induction l as [|y r IH]; intros Hn Hs; simpl.
    - repeat constructor.
    - inversion Hs as [|? ? Hs' Hf]; subst. rewrite fmap_cons, elem_of_cons in Hn.
      destruct (N.leb_spec (key x) (key y)) as [Hl|Hl].
      + constructor; [exact Hs|]. constructor; [assert (key x <> key y) by tauto; lia|].
        eapply Forall_impl; [exact Hf|]. intros z Hz. simpl in Hz. lia.
      + simpl. constructor; [apply IH; tauto|].
        apply Forall_fmap, Forall_forall. intros z Hz. apply kins_in in Hz as [->|Hz]; [exact Hl|].
        rewrite Forall_fmap, Forall_forall in Hf. now apply Hf.
  Qed.
  Lemma ksort_asc l : NoDup (key <$> l) -> ascending (key <$> ksort key l).
  Proof.
    induction l as [|x r IH]; intros Hn; simpl; [constructor|].
    rewrite fmap_cons in Hn. apply NoDup_cons in Hn as [Hx Hn].
    apply kins_asc; [|auto]. change (foldr (kins key) [] r) with (ksort key r).
    intros Hi. apply Hx. now rewrite (ksort_perm key r) in Hi.
  Qed.
End keyed.
