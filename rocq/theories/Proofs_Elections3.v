(** The invariant of the pallet: roles and books. *)
From Verif Require Import Base Balances Proofs_Arith Proofs_Balances Model_Elections Spec_Elections
  Proofs_Elections Proofs_Elections2.
From Coq Require Import Sorting.Sorted.
From stdpp Require Import gmap sorting.
Open Scope N_scope.

Record roles (cfg : ecfg) (s : estate) : Prop := {
  r_cands : ascending (cand_ids s);
  r_members : ascending (member_ids s);
  r_nodup : NoDup (role_ids s);
  r_nm : (length (e_members s) <= ec_members cfg)%nat;
  r_nr : (length (e_runners s) <= ec_runners cfg)%nat }.

Definition vote_at (cfg : ecfg) (s : estate) (w : N) : Prop :=
  match e_voting s !! w with
  | None => lock_of (e_own s) w = 0
  | Some v =>
      (v_votes v <> [] /\ length (v_votes v) <= MAXIMUM_VOTE)%nat /\
      (v_deposit v = deposit_of cfg (length (v_votes v)) /\ lock_of (e_own s) w = v_stake v \/
       v_deposit v = 0 /\ lock_of (e_own s) w = 0 /\ v_votes v = [w])
  end.
Definition book_at (cfg : ecfg) (s : estate) (w : N) : Prop :=
  (ec_ed cfg <= free (acct_of (e_bank s) w) \/ acct_of (e_bank s) w = acct0) /\
  rsv (acct_of (e_bank s) w) = others s w + vote_deposit s w + bonds s w /\
  frz (acct_of (e_bank s) w) = N.max (lock_of (e_own s) w) (lock_of (e_oth s) w) /\
  vote_at cfg s w.
Definition books (cfg : ecfg) (s : estate) : Prop := forall w, book_at cfg s w.

Lemma books_sound cfg s : books cfg s -> sound_bank cfg (e_bank s).
Proof. intros H w. apply H. Qed.
Lemma book_frame cfg s s' w :
  acct_of (e_bank s') w = acct_of (e_bank s) w -> e_rsv s' !! w = e_rsv s !! w ->
  e_voting s' !! w = e_voting s !! w -> e_own s' !! w = e_own s !! w -> e_oth s' !! w = e_oth s !! w ->
  bonds s' w = bonds s w -> book_at cfg s w -> book_at cfg s' w.
Proof.
  intros H1 H2 H3 H4 H5 H6. unfold book_at, vote_at, others, vote_deposit, lock_of.
  now rewrite H1, H2, H3, H4, H5, H6.
Qed.

(** Who stands, when one account joins or leaves. *)
Lemma bonds_cons s s' c d w :
  standing s' ≡ₚ (c, d) :: standing s -> bonds s' w = (if c =? w then d else 0) + bonds s w.
Proof. intros H. rewrite !bonds_standing, (bond_in_perm _ _ w H), bond_in_cons. reflexivity. Qed.
Lemma ids_cons s s' c d : standing s' ≡ₚ (c, d) :: standing s -> role_ids s' ≡ₚ c :: role_ids s.
Proof. intros H. rewrite <- !standing_ids. now rewrite H. Qed.

Section calls.
  Context (cfg : ecfg).
  Local Notation ed := (ec_ed cfg).

  Lemma slash_bond_eq s w v :
    slash_bond cfg s w v =
    set_ebank s (Bank (accts (slash_reserved ed (e_bank s) w v).1)
                   (lost (slash_reserved ed (e_bank s) w v).1 + (slash_reserved ed (e_bank s) w v).2)).
  Proof. unfold slash_bond. now destruct (slash_reserved _ _ _ _). Qed.
  Lemma slash_bond_moved s w v :
    sound_bank cfg (e_bank s) -> v <= rsv (acct_of (e_bank s) w) ->
    moved (e_bank s) (e_bank (slash_bond cfg s w v)) w
      (Acct (free (acct_of (e_bank s) w)) (rsv (acct_of (e_bank s) w) - v) (frz (acct_of (e_bank s) w))).
  Proof.
    intros Hs Hv. rewrite slash_bond_eq. destruct (slash_moved cfg _ w v Hs Hv) as [Hm _]. exact Hm.
  Qed.

  (** An account leaves a role and its bond is given back or burnt. *)
  Lemma leave_books s s' w d f :
    books cfg s -> standing s ≡ₚ (w, d) :: standing s' ->
    e_rsv s' = e_rsv s -> e_voting s' = e_voting s -> e_own s' = e_own s -> e_oth s' = e_oth s ->
    moved (e_bank s) (e_bank s') w
      (Acct f (rsv (acct_of (e_bank s) w) - d) (frz (acct_of (e_bank s) w))) ->
    free (acct_of (e_bank s) w) <= f -> (d = 0 -> f = free (acct_of (e_bank s) w)) ->
    books cfg s'.
  Proof.
    intros Hb Hp E1 E2 E3 E4 Hm Hf Hf0 x.
    destruct (decide (x = w)) as [->|Hn].
    - pose proof (Hb w) as (Ha & Hr & Hz & Hv). pose proof (bonds_cons _ _ _ _ w Hp) as Hc.
      rewrite N.eqb_refl in Hc. unfold book_at. rewrite (moved_eq _ _ _ _ Hm). simpl.
      unfold vote_at, others, vote_deposit, lock_of in *. rewrite E1, E2, E3, E4.
      split; [|split; [lia|split; [exact Hz|exact Hv]]].
      destruct Ha as [Ha|Ha]; [left; lia|].
      rewrite Ha in *. simpl in *. right. assert (d = 0) by lia. rewrite Hf0 by auto.
      reflexivity.
    - apply (book_frame cfg s); [| | | | | |apply Hb]; try congruence.
      + eapply moved_ne; eauto.
      + pose proof (bonds_cons _ _ _ _ x Hp) as Hc. destruct (N.eqb_spec w x); [congruence|lia].
  Qed.
  Lemma bond_le s s' w d : books cfg s -> standing s ≡ₚ (w, d) :: standing s' ->
    d <= rsv (acct_of (e_bank s) w).
  Proof.
    intros Hb Hp. destruct (Hb w) as (_ & Hr & _). pose proof (bonds_cons _ _ _ _ w Hp) as Hc.
    rewrite N.eqb_refl in Hc. lia.
  Qed.

  (** submit_candidacy. *)
  Lemma submit_facts s w n s' ev :
    submit_candidacy cfg s w n = ROk (s', ev) -> roles cfg s ->
    exists b i, s' = set_roles (set_ebank s b) (e_members s) (e_runners s)
                       (insert_at i (w, ec_bond cfg) (e_cands s)) /\
    reserve ed (e_bank s) w (ec_bond cfg) = Some b /\ bsearch fst (e_cands s) w = inr i /\
    w ∉ role_ids s /\ w ∈ e_ident s /\ ev = [] /\
    w32 (N.of_nat (length (e_cands s))) <= N.min n (ec_maxcand cfg).
  Proof.
    unfold submit_candidacy, ensure. intros H [Hc Hm _ _ _].
    destruct (N.leb_spec (w32 (N.of_nat (length (e_cands s)))) n); [|discriminate].
    destruct (N.leb_spec (w32 (N.of_nat (length (e_cands s)))) (ec_maxcand cfg)); [|discriminate].
    destruct (bool_decide_reflect (w ∈ e_ident s)); [|discriminate]. cbn [rbind] in H.
    destruct (bsearch fst (e_cands s) w) as [i|i] eqn:E; [discriminate|].
    destruct (is_member s w) eqn:Em; [discriminate|].
    destruct (is_runner_up s w) eqn:Er; [discriminate|]. cbn [rbind negb] in H.
    destruct (reserve _ _ _ _) as [b|] eqn:Eb; [|discriminate]. injection H as <- <-.
    exists b, i. split; [done|]. split; [done|]. split; [done|]. split; [|split; [done|split; [done|lia]]].
    unfold role_ids. rewrite !not_elem_of_app. split; [|split].
    - eapply (bsearch_inr_notin fst); eauto.
    - apply (bsearch_not_found s_who); auto.
    - unfold runner_ids. intros Hi. apply elem_of_list_fmap in Hi as (r & -> & Hr).
      unfold is_runner_up in Er. rewrite <- not_true_iff_false, existsb_exists in Er. apply Er.
      exists r. split; [now apply elem_of_list_In|apply N.eqb_refl].
  Qed.
  Lemma submit_standing s w d i b :
    standing (set_roles (set_ebank s b) (e_members s) (e_runners s) (insert_at i (w, d) (e_cands s)))
      ≡ₚ (w, d) :: standing s.
  Proof. unfold standing. simpl. now rewrite insert_at_perm. Qed.
  Lemma submit_roles s w n s' ev :
    submit_candidacy cfg s w n = ROk (s', ev) -> roles cfg s -> roles cfg s'.
  Proof.
    intros H Hr. apply submit_facts in H as (b & i & -> & _ & Hi & Hw & _); [|done].
    destruct Hr as [H1 H2 H3 H4 H5]. split; auto.
    - unfold cand_ids. simpl. eapply asc_insert; eauto.
    - rewrite (ids_cons _ _ _ _ (submit_standing _ _ _ _ _)). now constructor.
  Qed.
  Lemma submit_books s w n s' ev :
    submit_candidacy cfg s w n = ROk (s', ev) -> roles cfg s -> books cfg s -> books cfg s'.
  Proof.
    intros H Hr Hb. apply submit_facts in H as (b & i & -> & Eb & Hi & Hw & _); [|done].
    apply reserve_moved in Eb as (Hm & Hle & Hed). intros x.
    pose proof (bonds_cons _ _ _ _ x (submit_standing s w (ec_bond cfg) i b)) as Hc.
    destruct (decide (x = w)) as [->|Hn].
    - rewrite N.eqb_refl in Hc. destruct (Hb w) as (Ha & Hx & Hz & Hv). unfold book_at.
      rewrite Hc. simpl e_bank. rewrite (moved_eq _ _ _ _ Hm). simpl.
      unfold others, vote_deposit, vote_at in *. simpl. split; [|split; [lia|split; [exact Hz|exact Hv]]].
      destruct Ha as [Ha|Ha].
      + left. lia.
      + rewrite Ha in *. simpl in *. destruct Hed as [->|Hed]; [right; reflexivity|left; lia].
    - apply (book_frame cfg s); [| | | | | |apply Hb]; try done.
      + eapply moved_ne; eauto.
      + destruct (N.eqb_spec w x); [congruence|lia].
  Qed.

  (** Leaving a role of one's own accord. *)
  Lemma runner_facts s w s' ev :
    renounce_runner cfg s w = ROk (s', ev) ->
    exists i r, e_runners s !! i = Some r /\ s_who r = w /\ ev = [ERenounced w] /\
      s' = give_bond cfg (set_roles s (e_members s) (delete i (e_runners s)) (e_cands s)) w (s_deposit r).
  Proof.
    unfold renounce_runner. destruct (list_find _ _) as [[i r]|] eqn:E; [|discriminate].
    intros [= <- <-]. apply list_find_Some in E as (Hi & Hw & _). eauto 6.
  Qed.
  Lemma runner_standing s i r b w :
    e_runners s !! i = Some r -> s_who r = w ->
    standing s ≡ₚ (w, s_deposit r) ::
      standing (set_ebank (set_roles s (e_members s) (delete i (e_runners s)) (e_cands s)) b).
  Proof.
    intros Hi <-. unfold standing. simpl. rewrite (delete_perm _ _ _ Hi) at 1. simpl.
    rewrite <- !Permutation_middle. reflexivity.
  Qed.
  Lemma cand_facts s w n s' ev :
    renounce_candidate cfg s w n = ROk (s', ev) ->
    exists i d, e_cands s !! i = Some (w, d) /\ ev = [ERenounced w] /\
      s' = give_bond cfg (set_roles s (e_members s) (e_runners s) (delete i (e_cands s))) w d.
  Proof.
    unfold renounce_candidate, ensure. destruct (_ <=? n); [|discriminate]. cbn [rbind].
    destruct (bsearch _ _ _) as [i|i] eqn:E; [|discriminate]. intros [= <- <-].
    apply bsearch_inl in E as ([c d] & Hi & Hc). simpl in Hc. subst c. rewrite Hi. eauto.
  Qed.
  Lemma cand_standing s i d b w :
    e_cands s !! i = Some (w, d) ->
    standing s ≡ₚ (w, d) :: standing (set_ebank (set_roles s (e_members s) (e_runners s) (delete i (e_cands s))) b).
  Proof. intros Hi. unfold standing. simpl. now rewrite (delete_perm _ _ _ Hi) at 1. Qed.

  Lemma leave_ids s s' c d : standing s ≡ₚ (c, d) :: standing s' -> NoDup (role_ids s) ->
    NoDup (role_ids s') /\ c ∉ role_ids s'.
  Proof.
    intros H Hn. rewrite (ids_cons _ _ _ _ H) in Hn. apply NoDup_cons in Hn. tauto.
  Qed.
  Lemma give_moved s w d : sound_bank cfg (e_bank s) -> d <= rsv (acct_of (e_bank s) w) ->
    moved (e_bank s) (e_bank (give_bond cfg s w d)) w
      (Acct (free (acct_of (e_bank s) w) + d) (rsv (acct_of (e_bank s) w) - d) (frz (acct_of (e_bank s) w))).
  Proof. apply unreserve_moved. Qed.

  Lemma runner_good s w s' ev :
    renounce_runner cfg s w = ROk (s', ev) -> roles cfg s -> books cfg s -> roles cfg s' /\ books cfg s'.
  Proof.
    intros H Hr Hb. apply runner_facts in H as (i & r & Hi & Hw & _ & ->).
    set (b := unreserve ed (e_bank s) w (s_deposit r)).
    pose proof (runner_standing s i r b w Hi Hw) as Hp. split.
    - destruct Hr as [H1 H2 H3 H4 H5]. split; auto.
      + eapply leave_ids; eauto.
      + simpl. rewrite length_delete by eauto. lia.
    - eapply (leave_books s _ w (s_deposit r) (free (acct_of (e_bank s) w) + s_deposit r) Hb Hp); try reflexivity.
      + apply (unreserve_moved cfg); [now apply books_sound|]. eapply bond_le; eauto.
      + lia.
      + lia.
  Qed.
  Lemma cand_good s w n s' ev :
    renounce_candidate cfg s w n = ROk (s', ev) -> roles cfg s -> books cfg s -> roles cfg s' /\ books cfg s'.
  Proof.
    intros H Hr Hb. apply cand_facts in H as (i & d & Hi & _ & ->).
    set (b := unreserve ed (e_bank s) w d).
    pose proof (cand_standing s i d b w Hi) as Hp. split.
    - destruct Hr as [H1 H2 H3 H4 H5]. split; auto.
      + unfold cand_ids. simpl. now apply asc_delete.
      + eapply leave_ids; eauto.
    - eapply (leave_books s _ w d (free (acct_of (e_bank s) w) + d) Hb Hp); try reflexivity.
      + apply (unreserve_moved cfg); [now apply books_sound|]. eapply bond_le; eauto.
      + lia.
      + lia.
  Qed.
End calls.
