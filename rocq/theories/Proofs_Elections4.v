(** Members leaving, and voters. *)
From Verif Require Import Base Balances Proofs_Arith Proofs_Balances Model_Elections Spec_Elections
  Proofs_Elections Proofs_Elections2 Proofs_Elections3.
From Coq Require Import Sorting.Sorted.
From stdpp Require Import gmap sorting.
Open Scope N_scope.

Section leave.
  Context (cfg : ecfg).
  Local Notation ed := (ec_ed cfg).

  (** The places of members and runners-up after a member has left. *)
  Inductive promoted (s : estate) (rest : list seat) : list seat -> list seat -> bool -> Prop :=
  | no_runner : e_runners s = [] -> promoted s rest rest [] false
  | best_runner rs b j : e_runners s = rs ++ [b] -> bsearch s_who rest (s_who b) = inr j ->
      promoted s rest (insert_at j b rest) rs true.

  Lemma remove_facts s w slash s' ev rep :
    remove_and_replace cfg s w slash = ROk (s', ev, rep) -> roles cfg s ->
    exists i m ms rs b, e_members s !! i = Some m /\ s_who m = w /\
      promoted s (delete i (e_members s)) ms rs rep /\
      e_bank (if slash then slash_bond cfg s w (s_deposit m) else give_bond cfg s w (s_deposit m)) = b /\
      s' = set_council (set_roles (set_ebank s b) ms rs (e_cands s)) (s_who <$> ms)
             (match e_prime s with Some p => if p =? w then None else Some p | None => None end) /\
      ev = (if slash then [ESeatSlashed w (s_deposit m)] else []) ++
           [EChange (match last (e_runners s) with Some r => [s_who r] | None => [] end) [w] (s_who <$> ms)].
  Proof.
    unfold remove_and_replace. intros H [Hc Hm Hn _ _].
    destruct (bsearch s_who (e_members s) w) as [i|i] eqn:E; [|discriminate].
    apply bsearch_inl in E as (m & Hi & Hw). rewrite Hi in H.
    assert (Hs : forall v, (if slash then slash_bond cfg s w v else give_bond cfg s w v) =
              set_ebank s (e_bank (if slash then slash_bond cfg s w v else give_bond cfg s w v))).
    { intros v. destruct slash; [rewrite slash_bond_eq|]; reflexivity. }
    rewrite Hs in H.
    assert (Hr : e_runners s = [] \/ exists rs b, e_runners s = rs ++ [b]).
    { destruct (last (e_runners s)) as [b|] eqn:El.
      - right. apply last_Some in El as [rs ->]. eauto.
      - left. now apply last_None in El. }
    destruct Hr as [Hr|(rs & b & Hr)].
    - rewrite Hr in H. cbn [last removelast] in H. injection H as <- <- <-.
      exists i, m, (delete i (e_members s)), []. eexists. split; [done|]. split; [done|].
      split; [now constructor|]. split; [reflexivity|]. split; [reflexivity|]. rewrite Hr. reflexivity.
    - rewrite Hr, last_snoc, removelast_last in H.
      destruct (bsearch s_who (delete i (e_members s)) (s_who b)) as [j|j] eqn:Ej.
      + exfalso. apply bsearch_inl in Ej as (y & Hy & Hyb).
        unfold role_ids in Hn. apply NoDup_app in Hn as (_ & _ & Hn).
        apply NoDup_app in Hn as (_ & Hd & _). apply (Hd (s_who b)).
        * rewrite <- Hyb. apply elem_of_list_fmap_1. apply elem_of_list_lookup_2 in Hy.
          eapply elem_of_submseteq; [exact Hy|]. apply sublist_submseteq, sublist_delete.
        * unfold runner_ids. rewrite Hr, fmap_app. apply elem_of_app. right. now left.
      + injection H as <- <- <-. exists i, m, (insert_at j b (delete i (e_members s))), rs. eexists.
        split; [done|]. split; [done|]. split; [now econstructor|]. split; [reflexivity|]. split; [reflexivity|].
        now rewrite Hr, last_snoc.
  Qed.
  Lemma promoted_standing s i m ms rs rep s' w :
    e_members s !! i = Some m -> s_who m = w -> promoted s (delete i (e_members s)) ms rs rep ->
    e_members s' = ms -> e_runners s' = rs -> e_cands s' = e_cands s ->
    standing s ≡ₚ (w, s_deposit m) :: standing s'.
  Proof.
    intros Hi <- Hp <- <- Hc. unfold standing. rewrite Hc.
    rewrite (delete_perm _ _ _ Hi) at 1. rewrite fmap_cons. simpl app at 2.
    rewrite <- Permutation_middle. apply Permutation_cons; [done|]. f_equiv.
    inversion Hp as [Hr Hm Hr' Hrep|rs b j Hr Hj Hm Hr' Hrep].
    - now rewrite Hr.
    - rewrite Hr, insert_at_perm, fmap_cons, fmap_app. simpl.
      rewrite (assoc_L (++)), (Permutation_app_comm _ [_]). reflexivity.
  Qed.
  Lemma promoted_len s i m ms rs rep :
    e_members s !! i = Some m -> promoted s (delete i (e_members s)) ms rs rep ->
    (length ms <= length (e_members s))%nat /\ (length rs <= length (e_runners s))%nat.
  Proof.
    intros Hi Hp. assert (Hl : S (length (delete i (e_members s))) = length (e_members s)).
    { rewrite length_delete by eauto. apply lookup_lt_Some in Hi. lia. }
    inversion Hp as [Hr Hm Hr' Hrep|rs' b j Hr Hj Hm Hr' Hrep]; subst.
    - simpl. lia.
    - rewrite (insert_at_perm j b). simpl. rewrite Hr, app_length. simpl. lia.
  Qed.

  Lemma remove_good s w slash s' ev rep :
    remove_and_replace cfg s w slash = ROk (s', ev, rep) -> roles cfg s -> books cfg s ->
    roles cfg s' /\ books cfg s'.
  Proof.
    intros H Hr Hb. apply remove_facts in H as (i & m & ms & rs & b & Hi & Hw & Hp & Eb & -> & _); [|done].
    pose proof (promoted_len _ _ _ _ _ _ Hi Hp) as [Hl1 Hl2].
    set (s' := set_council _ _ _).
    pose proof (promoted_standing s i m ms rs rep s' w Hi Hw Hp eq_refl eq_refl eq_refl) as Hst.
    split.
    - destruct Hr as [H1 H2 H3 H4 H5]. split; auto.
      + unfold member_ids, s'. cbn [e_members set_council set_roles].
        pose proof (asc_delete s_who _ i H2) as Hd.
        inversion Hp; subst; [done|]. eapply asc_insert; eauto.
      + eapply leave_ids; eauto.
      + unfold s'. cbn. lia.
      + unfold s'. cbn. lia.
    - pose proof (books_sound _ _ Hb) as Hs. pose proof (bond_le cfg _ _ _ _ Hb Hst) as Hle.
      destruct slash.
      + eapply (leave_books cfg s _ w (s_deposit m) (free (acct_of (e_bank s) w)) Hb Hst); try reflexivity.
        * unfold s'. cbn [e_bank set_council set_roles set_ebank]. rewrite <- Eb. now apply slash_bond_moved.
      + eapply (leave_books cfg s _ w (s_deposit m) (free (acct_of (e_bank s) w) + s_deposit m) Hb Hst); try reflexivity.
        * unfold s'. cbn [e_bank set_council set_roles set_ebank]. rewrite <- Eb. now apply give_moved.
        * lia.
        * lia.
  Qed.

  (** Voters. *)
  Lemma deposit_small n : deposit_of cfg n < two128.
  Proof. unfold deposit_of, sadd, two128. lia. Qed.
  Lemma vote_deposit_small s w : books cfg s -> vote_deposit s w < two128.
  Proof.
    intros Hb. destruct (Hb w) as (_ & _ & _ & Hv). unfold vote_deposit, vote_at in *.
    destruct (e_voting s !! w) as [v|]; [|done].
    destruct Hv as [_ [[-> _]|[-> _]]]; [apply deposit_small|done].
  Qed.
  Lemma deposit_default s w : v_deposit (default voter0 (e_voting s !! w)) = vote_deposit s w.
  Proof. unfold vote_deposit. now destruct (e_voting s !! w). Qed.

  Lemma move_facts s w new s1 :
    books cfg s -> new < two128 -> move_deposit cfg s w (vote_deposit s w) new = Some s1 ->
    exists b f, s1 = set_ebank s b /\
      moved (e_bank s) b w (Acct f (rsv (acct_of (e_bank s) w) + new - vote_deposit s w)
                              (frz (acct_of (e_bank s) w))) /\
      f + new = free (acct_of (e_bank s) w) + vote_deposit s w /\
      (ed <= f \/ acct_of b w = acct0).
  Proof.
    intros Hb Hnew. pose proof (vote_deposit_small s w Hb) as Hold.
    destruct (Hb w) as (Ha & Hr & _). unfold move_deposit.
    destruct (N.ltb_spec (vote_deposit s w) new) as [Hl|Hl].
    - destruct (reserve _ _ _ _) as [b|] eqn:E; [|discriminate]. intros [= <-].
      rewrite sub128_exact in E by lia. apply reserve_moved in E as (Hm & Hle & Hed).
      exists b, (free (acct_of (e_bank s) w) - (new - vote_deposit s w)). split; [done|].
      split; [|split; [lia|left; lia]].
      replace (rsv (acct_of (e_bank s) w) + new - vote_deposit s w)
        with (rsv (acct_of (e_bank s) w) + (new - vote_deposit s w)) by lia. exact Hm.
    - destruct (N.ltb_spec new (vote_deposit s w)) as [Hl2|Hl2]; intros [= <-].
      + exists (unreserve ed (e_bank s) w (vote_deposit s w - new)), (free (acct_of (e_bank s) w) + (vote_deposit s w - new)).
        unfold give_bond. rewrite sub128_exact by lia. split; [done|].
        split; [|split; [lia|]].
        * replace (rsv (acct_of (e_bank s) w) + new - vote_deposit s w)
            with (rsv (acct_of (e_bank s) w) - (vote_deposit s w - new)) by lia.
          apply unreserve_moved; [now apply books_sound|lia].
        * destruct Ha as [Ha|Ha]; [left; lia|]. rewrite Ha in *. simpl in *. lia.
      + assert (new = vote_deposit s w) as -> by lia.
        exists (e_bank s), (free (acct_of (e_bank s) w)). split; [now destruct s|].
        split; [|split; [lia|destruct Ha; auto]].
        replace (rsv (acct_of (e_bank s) w) + vote_deposit s w - vote_deposit s w)
          with (rsv (acct_of (e_bank s) w)) by lia.
        destruct (acct_of (e_bank s) w) eqn:E. simpl. rewrite <- E. apply moved_refl.
  Qed.

  Lemma relock_moved s w own oth :
    let a := acct_of (e_bank s) w in
    ed <= free a \/ a = acct0 /\ N.max (lock_of own w) (lock_of oth w) = 0 ->
    moved (e_bank s) (e_bank (relock cfg s w own oth)) w
      (Acct (free a) (rsv a) (N.max (lock_of own w) (lock_of oth w))).
  Proof.
    intros a H. unfold relock. cbn [e_bank set_ebank set_locks]. apply put_moved. simpl.
    destruct H as [H|[H ->]]; [now left|]. fold a. rewrite H. right. reflexivity.
  Qed.
  Lemma lock_insert (m : gmap N N) w v : lock_of (<[w := v]> m) w = v.
  Proof. unfold lock_of. now rewrite lookup_insert. Qed.
  Lemma lock_delete (m : gmap N N) w : lock_of (delete w m) w = 0.
  Proof. unfold lock_of. now rewrite lookup_delete. Qed.

  Lemma vote_facts s w votes value s' ev :
    vote cfg s w votes value = ROk (s', ev) -> books cfg s -> 0 < ed ->
    exists b f f0 r z,
      f = free (acct_of (e_bank s) w) + vote_deposit s w - deposit_of cfg (length votes) /\
      deposit_of cfg (length votes) <= free (acct_of (e_bank s) w) + vote_deposit s w /\
      r = rsv (acct_of (e_bank s) w) + deposit_of cfg (length votes) - vote_deposit s w /\
      f0 = N.min value f /\ (ed <= f \/ f = 0 /\ r = 0 /\ z = 0) /\
      z = N.max f0 (lock_of (e_oth s) w) /\
      moved (e_bank s) b w (Acct f r z) /\
      (votes <> [] /\ length votes <= MAXIMUM_VOTE)%nat /\ ed < value /\ ev = [] /\
      (length votes <= length (e_cands s) + length (e_members s) + length (e_runners s))%nat /\
      lock_of (e_own s') w = f0 /\
      s' = set_voting (set_locks (set_ebank s b) (e_own s') (e_oth s)) (<[w := Voter votes f0 (deposit_of cfg (length votes))]> (e_voting s)) /\
      (forall x, x <> w -> e_own s' !! x = e_own s !! x).
  Proof.
    unfold vote, ensure. intros H Hb Hed.
    destruct (Nat.leb_spec (length votes) MAXIMUM_VOTE) as [Hlen|]; [|discriminate].
    destruct (Nat.eqb_spec (length votes) 0) as [|Hnz]; [discriminate|]. cbn [rbind negb] in H.
    destruct (Nat.eqb_spec (length (e_cands s) + length (e_members s) + length (e_runners s)) 0); [discriminate|].
    cbn [rbind negb] in H. destruct (Nat.leb_spec (length votes) (length (e_cands s) + length (e_members s) + length (e_runners s))) as [Hal|]; [|discriminate].
    cbn [rbind] in H. destruct (N.ltb_spec ed value) as [Hval|]; [|discriminate]. cbn [rbind] in H.
    rewrite deposit_default in H.
    destruct (move_deposit _ _ _ _ _) as [s1|] eqn:E; [|discriminate].
    pose proof (deposit_small (length votes)) as Hds.
    apply move_facts in E as (b1 & f & -> & Hm & Hf & Hal'); auto.
    set (d := deposit_of cfg (length votes)) in *.
    destruct (Hb w) as (Ha & Hr & Hz & Hv).
    assert (Hff : f = free (acct_of (e_bank s) w) + vote_deposit s w - d) by lia.
    assert (Hnil : votes <> []) by (intros ->; apply Hnz; reflexivity).
    cbn [e_bank set_ebank] in H. unfold free_of in H. rewrite (moved_eq _ _ _ _ Hm) in H. cbn [free] in H.
    unfold set_lock in H. destruct (N.eqb_spec (N.min value f) 0) as [H0|H0].
    - (* no balance at all: nothing is locked *)
      injection H as <- <-. assert (f = 0) as Hf0 by lia.
      destruct Hal' as [Hal'|Hal']; [lia|].
      rewrite (moved_eq _ _ _ _ Hm) in Hal'. injection Hal' as _ Hrr Hzz.
      exists b1, f, 0, 0, 0. rewrite <- Hff. split; [done|]. split; [lia|]. split; [lia|]. split; [lia|].
      split; [right; auto|]. split; [lia|].
      split. { rewrite Hf0, Hrr, Hzz in Hm. now rewrite Hf0. }
      split; [auto|]. split; [done|]. split; [done|]. split; [done|]. split.
      { simpl. lia. }
      split; [|done]. rewrite H0. simpl. now destruct s.
    - set (s2 := relock _ _ _ _ _) in H. injection H as <- <-.
      assert (Hal2 : ed <= f).
      { destruct Hal' as [|Hal']; [done|]. rewrite (moved_eq _ _ _ _ Hm) in Hal'. injection Hal' as -> _ _. lia. }
      pose proof (relock_moved (set_ebank s b1) w (<[w := N.min value f]> (e_own s)) (e_oth s)) as Hm2.
      cbn [e_bank set_ebank e_own] in Hm2. cbv zeta in Hm2. rewrite (moved_eq _ _ _ _ Hm) in Hm2.
      cbn [free rsv frz] in Hm2. specialize (Hm2 (or_introl Hal2)).
      eexists _, f, (N.min value f), _, _. rewrite <- Hff. split; [done|]. split; [lia|]. split; [reflexivity|].
      split; [done|]. split; [left; done|].
      rewrite lock_insert in Hm2. split; [reflexivity|].
      split; [eapply moved_trans; [exact Hm|exact Hm2]|].
      split; [auto|]. split; [done|]. split; [done|]. split; [done|].
      split; [simpl; apply lock_insert|]. split; [reflexivity|].
      intros x Hx. simpl. now rewrite lookup_insert_ne by auto.
  Qed.
  Lemma vote_good s w votes value s' ev :
    vote cfg s w votes value = ROk (s', ev) -> roles cfg s -> books cfg s -> 0 < ed ->
    roles cfg s' /\ books cfg s'.
  Proof.
    intros H Hr Hb Hed.
    apply vote_facts in H as (b & f & f0 & r & z & Hf & Hle & Hrr & Hf0 & Ha & Hz & Hm & Hlen & _ & _ & _ & Hown & -> & Hoth); auto.
    split; [destruct Hr; split; auto|]. intros x. destruct (decide (x = w)) as [->|Hn].
    - unfold book_at. cbn [e_bank set_voting set_locks set_ebank]. rewrite (moved_eq _ _ _ _ Hm).
      cbn [free rsv frz]. destruct (Hb w) as (_ & Hx & _).
      split; [|split; [|split]].
      + destruct Ha as [Ha|(-> & -> & ->)]; [now left|right; reflexivity].
      + unfold vote_deposit at 1. cbn [e_voting set_voting set_locks set_ebank]. rewrite lookup_insert. simpl.
        unfold others, bonds in *. simpl. lia.
      + cbn [e_own e_oth set_voting set_locks set_ebank]. now rewrite Hown.
      + unfold vote_at. cbn [e_voting e_own set_voting set_locks set_ebank]. rewrite lookup_insert. simpl. auto.
    - apply (book_frame cfg s); [| | | | | |apply Hb]; try done.
      + eapply moved_ne; eauto.
      + simpl. now rewrite lookup_insert_ne by auto.
      + simpl. auto.
  Qed.

  Lemma unvote_facts s w :
    books cfg s ->
    exists b, do_remove_voter cfg s w =
      set_ebank (set_locks (set_voting s (delete w (e_voting s))) (delete w (e_own s)) (e_oth s)) b /\
      moved (e_bank s) b w
        (Acct (free (acct_of (e_bank s) w) + vote_deposit s w) (rsv (acct_of (e_bank s) w) - vote_deposit s w)
              (lock_of (e_oth s) w)).
  Proof.
    intros Hb. unfold do_remove_voter. rewrite deposit_default. eexists. split; [reflexivity|].
    destruct (Hb w) as (Ha & Hr & Hz & Hv).
    pose proof (relock_moved (set_voting s (delete w (e_voting s))) w (delete w (e_own s)) (e_oth s)) as Hm.
    cbv zeta in Hm. cbn [e_bank set_voting] in Hm. rewrite lock_delete, N.max_0_l in Hm.
    assert (Hm' : moved (e_bank s) (e_bank (relock cfg (set_voting s (delete w (e_voting s))) w (delete w (e_own s)) (e_oth s))) w
        (Acct (free (acct_of (e_bank s) w)) (rsv (acct_of (e_bank s) w)) (lock_of (e_oth s) w))).
    { apply Hm. destruct Ha as [Ha|Ha]; [now left|right]. split; [done|]. rewrite Ha in Hz. simpl in Hz. lia. }
    clear Hm. unfold remove_lock. cbn [e_own e_oth set_voting].
    eapply moved_trans; [exact Hm'|].
    match type of Hm' with moved _ ?b _ _ => set (b1 := b) in * end. clearbody b1. pose proof (moved_eq _ _ _ _ Hm') as E.
    pose proof (unreserve_moved cfg b1 w (vote_deposit s w)) as Hu. rewrite E in Hu. cbn [free rsv frz] in Hu.
    apply Hu; [|lia]. eapply moved_sound; [now apply books_sound|exact Hm'|].
    simpl. destruct Ha as [Ha|Ha]; [now left|right]. rewrite Ha in *. simpl in *.
    assert (lock_of (e_oth s) w = 0) as -> by lia. reflexivity.
  Qed.
  Lemma unvote_good s w : roles cfg s -> books cfg s ->
    roles cfg (do_remove_voter cfg s w) /\ books cfg (do_remove_voter cfg s w).
  Proof.
    intros Hr Hb. destruct (unvote_facts s w Hb) as (b & -> & Hm).
    split; [destruct Hr; split; auto|]. intros x. destruct (decide (x = w)) as [->|Hn].
    - unfold book_at. cbn [e_bank set_voting set_locks set_ebank]. rewrite (moved_eq _ _ _ _ Hm).
      cbn [free rsv frz]. destruct (Hb w) as (Ha & Hx & Hz & _). split; [|split; [|split]].
      + destruct Ha as [Ha|Ha]; [left; lia|]. rewrite Ha in *. simpl in *.
        right. assert (vote_deposit s w = 0) as -> by lia. assert (lock_of (e_oth s) w = 0) as -> by lia. reflexivity.
      + unfold vote_deposit at 2. cbn [e_voting set_voting set_locks set_ebank]. rewrite lookup_delete.
        unfold others, bonds in *. simpl. lia.
      + cbn [e_own e_oth set_voting set_locks set_ebank]. rewrite lock_delete. lia.
      + unfold vote_at. cbn [e_voting e_own set_voting set_locks set_ebank]. rewrite lookup_delete. apply lock_delete.
    - apply (book_frame cfg s); [| | | | | |apply Hb]; try done.
      + eapply moved_ne; eauto.
      + simpl. now rewrite lookup_delete_ne by auto.
      + simpl. now rewrite lookup_delete_ne by auto.
  Qed.
  Lemma clean_good s : roles cfg s -> books cfg s -> roles cfg (clean cfg s) /\ books cfg (clean cfg s).
  Proof.
    unfold clean. generalize (fst <$> filter (fun p => is_defunct s (v_votes p.2) = true) (map_to_list (e_voting s))).
    intros l. revert s. induction l as [|w l IH]; intros s Hr Hb; simpl; [auto|].
    destruct (unvote_good s w Hr Hb). now apply IH.
  Qed.
End leave.
