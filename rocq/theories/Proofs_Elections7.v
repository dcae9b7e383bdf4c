(** Genesis, money, and the prime. *)
From Verif Require Import Base Balances Proofs_Arith Proofs_Balances Model_Elections Spec_Elections
  Proofs_Elections Proofs_Elections2 Proofs_Elections3 Proofs_Elections4 Proofs_Elections5 Proofs_Elections6.
From Coq Require Import Sorting.Sorted.
From stdpp Require Import gmap sorting.
Open Scope N_scope.

Section genesis.
  Context (cfg : ecfg).
  Local Notation ed := (ec_ed cfg).

  Lemma genesis_members_facts b l ms vs ms' vs' :
    genesis_members b l ms vs = Some (ms', vs') ->
    ascending (s_who <$> ms) -> Forall (fun m => s_deposit m = 0) ms ->
    (forall w v, vs !! w = Some v -> v_votes v = [w] /\ v_deposit v = 0) ->
    ascending (s_who <$> ms') /\ Forall (fun m => s_deposit m = 0) ms' /\
    (forall w v, vs' !! w = Some v -> v_votes v = [w] /\ v_deposit v = 0) /\
    length ms' = (length ms + length l)%nat /\
    (forall w, w ∈ s_who <$> ms' <-> w ∈ s_who <$> ms \/ w ∈ fst <$> l).
  Proof.
    revert ms vs. induction l as [|[w st] l IH]; intros ms vs; simpl.
    { intros [= <- <-] H1 H2 H3. split; [done|]. split; [done|]. split; [done|]. split; [lia|].
      intros w. rewrite elem_of_nil. tauto. }
    destruct (_ <? st); [discriminate|]. destruct (bsearch s_who ms w) as [i|i] eqn:E; [discriminate|].
    intros H Ha Hd Hv. apply IH in H as (H1 & H2 & H3 & H4 & H5).
    - split; [done|]. split; [done|]. split; [done|]. split.
      + rewrite H4, (insert_at_perm i). simpl. lia.
      + intros x. rewrite H5, (insert_at_perm i), fmap_cons, !elem_of_cons. simpl. tauto.
    - eapply asc_insert; eauto.
    - rewrite (insert_at_perm i). now constructor.
    - intros x v Hx. destruct (decide (x = w)) as [->|Hn].
      + rewrite lookup_insert in Hx. injection Hx as <-. done.
      + rewrite lookup_insert_ne in Hx by auto. auto.
  Qed.
  Lemma bonds_zero s w : e_cands s = [] -> e_runners s = [] -> Forall (fun m => s_deposit m = 0) (e_members s) ->
    bonds s w = 0.
  Proof.
    intros H1 H2 H3. unfold bonds. rewrite H1, H2.
    assert (E : lsum ((fun m => of_who w (s_who m, s_deposit m)) <$> e_members s) = 0); [|rewrite E; reflexivity].
    induction H3 as [|m ms Hm _ IH]; [done|]. rewrite fmap_cons. cbn [lsum]. rewrite IH, Hm.
    unfold of_who. simpl. now destruct (_ =? w).
  Qed.
  Lemma genesis_facts b l s :
    genesis cfg b l = Some s ->
    e_bank s = b /\ e_cands s = [] /\ e_runners s = [] /\ e_council s = [] /\ e_prime s = None /\
    e_rounds s = 0 /\ e_own s = ∅ /\ e_ident s = ∅ /\ e_oth s = frz <$> accts b /\ e_rsv s = rsv <$> accts b /\
    ascending (member_ids s) /\ Forall (fun m => s_deposit m = 0) (e_members s) /\
    (forall w v, e_voting s !! w = Some v -> v_votes v = [w] /\ v_deposit v = 0) /\
    length (e_members s) = length l /\ (length l <= ec_members cfg)%nat /\
    (forall w, w ∈ member_ids s <-> w ∈ fst <$> l).
  Proof.
    unfold genesis. destruct (Nat.ltb_spec (ec_members cfg) (length l)); [discriminate|].
    destruct (genesis_members b l [] ∅) as [[ms vs]|] eqn:E; [|discriminate]. intros [= <-]. simpl.
    apply genesis_members_facts in E as (H1 & H2 & H3 & H4 & H5).
    - repeat (split; [done|]). intros w. unfold member_ids. simpl. rewrite H5. simpl.
      rewrite elem_of_nil. tauto.
    - constructor.
    - constructor.
    - intros w v Hw. now rewrite lookup_empty in Hw.
  Qed.
  Lemma genesis_good b l s : sound_bank cfg b -> genesis cfg b l = Some s -> good cfg s.
  Proof.
    intros Hs H. apply genesis_facts in H as (E1 & E2 & E3 & _ & _ & _ & E4 & _ & E5 & E6 & Ha & Hd & Hv & Hl1 & Hl2 & _).
    split.
    - split.
      + unfold cand_ids. rewrite E2. constructor.
      + done.
      + unfold role_ids, cand_ids, runner_ids. rewrite E2, E3. simpl. rewrite app_nil_r. now apply asc_NoDup.
      + lia.
      + rewrite E3. simpl. lia.
    - intros w. unfold book_at. rewrite E1, (bonds_zero s w E2 E3 Hd). split; [apply Hs|].
      unfold others, vote_deposit, vote_at, lock_of. rewrite E4, E5, E6, !lookup_fmap, lookup_empty.
      unfold acct_of. split; [|split].
      + assert (match e_voting s !! w with Some v => v_deposit v | None => 0 end = 0) as ->.
        { destruct (e_voting s !! w) as [v|] eqn:Ev; [|done]. now destruct (Hv _ _ Ev). }
        destruct (accts b !! w); simpl; lia.
      + destruct (accts b !! w); simpl; lia.
      + destruct (e_voting s !! w) as [v|] eqn:Ev; [|done]. destruct (Hv _ _ Ev) as [-> ->].
        split; [|right; auto]. split; [done|]. unfold MAXIMUM_VOTE. simpl. lia.
  Qed.
End genesis.

Lemma reached_good cfg s : elect_ok cfg -> 0 < ec_ed cfg -> reached cfg s -> good cfg s.
Proof.
  intros He Hd (b & l & s0 & hist & Hb & Hg & ->). apply run_good; auto. eapply genesis_good; eauto.
Qed.
Lemma reached_step cfg s op : reached cfg s -> reached cfg (eexec cfg s op).1.
Proof.
  intros (b & l & s0 & hist & Hb & Hg & ->). exists b, l, s0, (hist ++ [op]). split; [done|]. split; [done|].
  unfold erun. now rewrite foldl_app.
Qed.

(** What is burnt is announced. *)
Section money.
  Context (cfg : ecfg).
  Local Notation ed := (ec_ed cfg).

  Definition same_money (b b' : bank) : Prop := money b' = money b /\ lost b' = lost b.
  Lemma same_money_trans b b' b'' : same_money b b' -> same_money b' b'' -> same_money b b''.
  Proof. unfold same_money. intuition congruence. Qed.

  Lemma put_lost_eq b w a : ed <= free a \/ a = acct0 -> lost (put ed b w a) = lost b.
  Proof.
    unfold put. intros [H| ->].
    - apply N.ltb_ge in H. now rewrite H.
    - simpl. rewrite andb_true_r. destruct (0 <? ed); simpl; lia.
  Qed.
  Lemma put_same b w a :
    ed <= free a \/ a = acct0 -> free a + rsv a = free (acct_of b w) + rsv (acct_of b w) ->
    same_money b (put ed b w a).
  Proof.
    intros H1 H2. split; [|now apply put_lost_eq]. pose proof (put_money ed b w a). lia.
  Qed.
  Lemma unreserve_same b w v : sound_bank cfg b -> v <= rsv (acct_of b w) -> same_money b (unreserve ed b w v).
  Proof.
    intros Hs Hv. unfold unreserve. destruct (N.eqb_spec v 0); [done|]. rewrite N.min_r by lia.
    apply put_same; simpl; [|lia]. left. destruct (Hs w) as [|Hz]; [lia|]. rewrite Hz in Hv. simpl in Hv. lia.
  Qed.
  Lemma reserve_same b w v b' : reserve ed b w v = Some b' -> same_money b b'.
  Proof.
    intros H. pose proof (reserve_moved cfg b w v b' H) as (_ & Hle & Hed). unfold reserve in H.
    destruct (N.eqb_spec v 0); [now injection H as <-|].
    destruct (_ <? v); [discriminate|]. destruct (_ <? frz _); [discriminate|]. destruct (_ <? ed); [discriminate|].
    injection H as <-. apply put_same; simpl; [left; lia|lia].
  Qed.
  Lemma relock_same s w own oth :
    ed <= free (acct_of (e_bank s) w) \/
    acct_of (e_bank s) w = acct0 /\ N.max (lock_of own w) (lock_of oth w) = 0 ->
    same_money (e_bank s) (e_bank (relock cfg s w own oth)).
  Proof.
    intros H. unfold relock. cbn [e_bank set_ebank set_locks]. apply put_same; [|done]. simpl.
    destruct H as [H|[H ->]]; [now left|right]. rewrite H. reflexivity.
  Qed.
  Lemma slash_bond_lost s w v : sound_bank cfg (e_bank s) -> v <= rsv (acct_of (e_bank s) w) ->
    lost (e_bank (slash_bond cfg s w v)) = lost (e_bank s) + v.
  Proof.
    intros Hs Hv. rewrite slash_bond_eq. simpl. destruct (slash_moved cfg _ w v Hs Hv) as [_ ->].
    unfold slash_reserved. destruct (v =? 0); simpl; [lia|]. rewrite put_lost_eq; [done|].
    simpl. destruct (Hs w) as [|Hz]; [now left|]. right. rewrite Hz in *. simpl in *. reflexivity.
  Qed.

  Lemma burnt_app l k : burnt (l ++ k) = burnt l + burnt k.
  Proof. unfold burnt. now rewrite fmap_app, lsum_app. Qed.

  Lemma losers_lost ms rs l s s' ev :
    slash_losers cfg s ms rs l = (s', ev) -> sound_bank cfg (e_bank s) -> NoDup (fst <$> l) ->
    (forall w, bond_in l w <= rsv (acct_of (e_bank s) w)) ->
    lost (e_bank s') = lost (e_bank s) + burnt ev.
  Proof.
    revert s s' ev. induction l as [|[c d] l IH]; intros s s' ev H Hs Hn Hr.
    - injection H as <- <-. unfold burnt. simpl. lia.
    - rewrite fmap_cons in Hn. apply NoDup_cons in Hn as [Hc Hn]. simpl in Hc.
      cbn [slash_losers] in H. destruct (_ && _).
      + destruct (slash_losers cfg (slash_bond cfg s c d) ms rs l) as [s2 ev2] eqn:E2. injection H as <- <-.
        assert (Hd : d <= rsv (acct_of (e_bank s) c)).
        { specialize (Hr c). rewrite bond_in_cons in Hr. unfold of_who in Hr. simpl in Hr.
          rewrite N.eqb_refl in Hr. lia. }
        pose proof (slash_bond_moved cfg s c d Hs Hd) as Hm1.
        apply IH in E2; auto.
        * rewrite E2, slash_bond_lost by auto. change (burnt (ECandSlashed c d :: ev2)) with (d + burnt ev2). lia.
        * eapply moved_sound; [exact Hs|exact Hm1|]. simpl. destruct (Hs c) as [|Hz]; [auto|].
          rewrite Hz. right. reflexivity.
        * intros w. specialize (Hr w). rewrite bond_in_cons in Hr. unfold of_who in Hr. simpl in Hr.
          destruct (decide (w = c)) as [->|Hnc].
          -- rewrite (bond_in_out l c Hc). lia.
          -- rewrite (moved_ne _ _ _ _ _ Hm1 Hnc). lia.
      + eapply IH; eauto. intros w. specialize (Hr w). rewrite bond_in_cons in Hr. lia.
  Qed.
  Lemma install_lost s ws s' ev :
    install cfg s ws = (s', ev) -> roles cfg s -> books cfg s ->
    lost (e_bank s') = lost (e_bank s) + burnt ev.
  Proof.
    intros H Hr Hb. unfold install in H. cbv zeta in H.
    destruct (slash_losers _ _ _ _ _) as [s1 ev1] eqn:El. injection H as <- <-.
    apply losers_lost in El.
    - cbn [e_bank set_rounds set_council set_roles]. rewrite El.
      unfold burnt. rewrite fmap_cons, fmap_app. cbn [lsum burnt_by]. rewrite lsum_app. simpl. lia.
    - now apply books_sound.
    - rewrite standing_ids. apply Hr.
    - intros w. rewrite <- bonds_standing. destruct (Hb w) as (_ & -> & _). lia.
  Qed.

  Lemma issuance_money b : issuance b + lost b = money b.
  Proof. reflexivity. Qed.
End money.
