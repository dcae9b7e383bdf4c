(** The prime member is the winner of the Borda count. *)
From Verif Require Import Base Balances Proofs_Arith Proofs_Balances Model_Elections Spec_Elections
  Proofs_Elections Proofs_Elections2 Proofs_Elections3 Proofs_Elections4 Proofs_Elections5 Proofs_Elections6
  Proofs_Elections7.
From Coq Require Import Sorting.Sorted.
From stdpp Require Import gmap sorting.
Open Scope N_scope.

Notation MAX128 := (two128 - 1).

Lemma add_vote_map pv st pos who :
  ascending (fst <$> pv) ->
  add_vote pv st pos who =
  (fun p => (p.1, if p.1 =? who then N.min MAX128 (p.2 + N.min (st * N.of_nat (MAXIMUM_VOTE - pos)) MAX128) else p.2)) <$> pv.
Proof.
  intros Ha. unfold add_vote. destruct (bsearch fst pv who) as [i|i] eqn:E.
  - apply bsearch_inl in E as (y & Hi & Hy). apply list_eq. intros j. rewrite list_lookup_fmap.
    destruct (decide (j = i)) as [->|Hn].
    + rewrite list_lookup_alter, Hi. simpl. rewrite Hy, N.eqb_refl. f_equal. f_equal.
      unfold sadd, smul128. apply N.min_comm.
    + rewrite list_lookup_alter_ne by auto. destruct (pv !! j) as [z|] eqn:Ej; [|done]. simpl.
      destruct (N.eqb_spec z.1 who) as [Hz|]; [|now destruct z].
      exfalso. apply Hn. apply asc_NoDup in Ha. apply (NoDup_lookup _ _ _ who Ha).
      * rewrite list_lookup_fmap, Ej. simpl. congruence.
      * rewrite list_lookup_fmap, Hi. simpl. congruence.
  - pose proof (bsearch_inr_notin fst pv who i Ha E) as Hn.
    rewrite <- (list_fmap_id pv) at 1. apply list_fmap_ext. intros j p Hj.
    destruct (N.eqb_spec p.1 who) as [Hp|]; [|now destruct p].
    exfalso. apply Hn. rewrite <- Hp. apply elem_of_list_fmap_1. eapply elem_of_list_lookup_2; eauto.
Qed.
(** Votes counted from position [pos] on. *)
Definition weight_from (m : N) (pos : nat) (votes : list N) : N :=
  lsum (imap (fun i x => if x =? m then 16 - N.of_nat (pos + i) else 0) votes).
Lemma weight_from_cons m pos x votes :
  weight_from m pos (x :: votes) = (if x =? m then 16 - N.of_nat pos else 0) + weight_from m (S pos) votes.
Proof.
  unfold weight_from. rewrite imap_cons. cbn [lsum]. rewrite Nat.add_0_r. do 2 f_equal.
  apply imap_ext. intros i y _. simpl. now rewrite Nat.add_succ_r.
Qed.
Lemma add_votes_map pv st pos votes :
  ascending (fst <$> pv) -> Forall (fun p => p.2 <= MAX128) pv ->
  add_votes pv st pos votes =
  (fun p => (p.1, N.min MAX128 (p.2 + st * weight_from p.1 pos votes))) <$> pv.
Proof.
  revert pv pos. induction votes as [|x votes IH]; intros pv pos Ha Hs.
  - simpl. rewrite <- (list_fmap_id pv) at 1. apply list_fmap_ext. intros j p Hj. unfold weight_from. simpl.
    apply elem_of_list_lookup_2 in Hj. rewrite Forall_forall in Hs. apply Hs in Hj.
    destruct p as [c v]. cbn [fst snd] in *. unfold id. f_equal.
    rewrite N.mul_0_r, N.add_0_r, N.min_r; [done|exact Hj].
  - cbn [add_votes]. rewrite add_vote_map by auto. rewrite IH.
    + rewrite <- list_fmap_compose. apply list_fmap_ext. intros j p Hj. unfold compose. cbn [fst snd].
      rewrite weight_from_cons, (N.eqb_sym x). f_equal.
      assert (E : N.of_nat (MAXIMUM_VOTE - pos) = 16 - N.of_nat pos) by (unfold MAXIMUM_VOTE; lia). rewrite E.
      apply elem_of_list_lookup_2 in Hj. rewrite Forall_forall in Hs. apply Hs in Hj.
      destruct (p.1 =? x); [|f_equal; lia].
      rewrite N.mul_add_distr_l. generalize (st * (16 - N.of_nat pos)). generalize (st * weight_from p.1 (S pos) votes).
      intros a b. revert Hj. generalize MAX128. intros. lia.
    + rewrite <- list_fmap_compose. exact Ha.
    + apply Forall_fmap. eapply Forall_impl; [exact Hs|]. intros p Hp. unfold compose. cbn [fst snd] in *.
      destruct (_ =? x); [apply N.le_min_l|exact Hp].
Qed.
Lemma count_votes_map pv bs :
  ascending (fst <$> pv) -> Forall (fun p => p.2 <= MAX128) pv ->
  count_votes pv bs =
  (fun p => (p.1, N.min MAX128 (p.2 + lsum ((fun b => b.1.2 * weight_from p.1 0 b.2) <$> bs)))) <$> pv.
Proof.
  revert pv. induction bs as [|b bs IH]; intros pv Ha Hs.
  - simpl. rewrite <- (list_fmap_id pv) at 1. apply list_fmap_ext. intros j p Hj. simpl.
    apply elem_of_list_lookup_2 in Hj. rewrite Forall_forall in Hs. apply Hs in Hj.
    destruct p as [c v]. cbn [fst snd] in *. unfold id. f_equal. rewrite N.add_0_r, N.min_r; [done|exact Hj].
  - change (count_votes pv (b :: bs)) with (count_votes (add_votes pv b.1.2 0 b.2) bs).
    rewrite add_votes_map by auto. rewrite IH.
    + rewrite <- list_fmap_compose. apply list_fmap_ext. intros j p Hj. unfold compose. cbn [fst snd].
      rewrite fmap_cons. cbn [lsum]. f_equal.
      generalize (b.1.2 * weight_from p.1 0 b.2). generalize (lsum ((fun b => b.1.2 * weight_from p.1 0 b.2) <$> bs)).
      generalize MAX128. intros. lia.
    + rewrite <- list_fmap_compose. exact Ha.
    + apply Forall_fmap. apply Forall_forall. intros p Hp. unfold compose. cbn [snd]. apply N.le_min_l.
Qed.
Lemma msum_list {V} (f : N -> V -> N) (m : gmap N V) :
  msum f m = lsum ((fun p => f p.1 p.2) <$> map_to_list m).
Proof.
  unfold msum. induction m as [|k v m Hk IH] using map_ind.
  - now rewrite map_fold_empty, map_to_list_empty.
  - rewrite map_fold_insert_L; [|intros; lia|done]. rewrite IH.
    erewrite (lsum_perm (_ <$> map_to_list (<[k:=v]> m))); [|rewrite map_to_list_insert by auto; reflexivity].
    reflexivity.
Qed.
Lemma score_ballots s m :
  score s m = N.min MAX128 (lsum ((fun b => b.1.2 * weight_from m 0 b.2) <$> ballots s)).
Proof.
  unfold score. f_equal. rewrite msum_list. unfold ballots. rewrite <- list_fmap_compose. f_equal.
  apply list_fmap_ext. intros i [w v] _. unfold compose. simpl. reflexivity.
Qed.

(** [pick_prime] takes the last of the largest. *)
Lemma pick_fold (l : list (N * N)) (p : N * N) :
  ascending (p.1 :: (fst <$> l)) ->
  let r := foldl (fun best x => if best.2 <=? x.2 then x else best) p l in
  r ∈ p :: l /\ forall q, q ∈ p :: l -> q.2 < r.2 \/ q.2 = r.2 /\ q.1 <= r.1.
Proof.
  revert p. induction l as [|x l IH]; intros p Ha; simpl.
  - split; [now left|]. intros q Hq. apply elem_of_list_singleton in Hq as ->. lia.
  - inversion Ha as [|? ? Ha' Hf]; subst. simpl in Hf. apply Forall_cons in Hf as [Hpx Hf].
    destruct (N.leb_spec p.2 x.2) as [Hle|Hle].
    + destruct (IH x Ha') as [H1 H2]. split; [now right|]. intros q Hq.
      apply elem_of_cons in Hq as [->|Hq]; [|now apply H2].
      destruct (H2 x ltac:(now left)) as [H|[H H']]; lia.
    + assert (Ha2 : ascending (p.1 :: (fst <$> l))).
      { inversion Ha'; subst. constructor; auto. }
      destruct (IH p Ha2) as [H1 H2]. split.
      { apply elem_of_cons in H1 as [H1|H1]; [rewrite H1; now left|now do 2 right]. }
      intros q Hq. apply elem_of_cons in Hq as [->|Hq]; [apply H2; now left|].
      apply elem_of_cons in Hq as [->|Hq]; [|apply H2; now right].
      destruct (H2 p ltac:(now left)) as [H|[H H']]; lia.
Qed.
Lemma prime_spec s (ms : list (N * N)) :
  ascending (fst <$> ms) ->
  match pick_prime (count_votes ((fun p => (p.1, 0)) <$> ms) (ballots s)) with
  | None => ms = []
  | Some p => p ∈ fst <$> ms /\
      forall m, m ∈ fst <$> ms -> score s m < score s p \/ score s m = score s p /\ m <= p
  end.
Proof.
  intros Ha. rewrite count_votes_map.
  2: { rewrite <- list_fmap_compose. exact Ha. }
  2: { apply Forall_fmap, Forall_forall. intros p _. simpl. discriminate. }
  rewrite <- list_fmap_compose.
  assert (E : (compose (fun p => (p.1, N.min MAX128 (p.2 + lsum ((fun b => b.1.2 * weight_from p.1 0 b.2) <$> ballots s)))) (fun p => (p.1, 0))) <$> ms
              = (fun p => (p.1, score s p.1)) <$> ms).
  { apply list_fmap_ext. intros i p _. unfold compose. cbn [fst snd]. rewrite score_ballots, N.add_0_l. reflexivity. }
  rewrite E. clear E. destruct ms as [|p ms]; [done|]. rewrite fmap_cons. unfold pick_prime.
  pose proof (pick_fold ((fun p => (p.1, score s p.1)) <$> ms) (p.1, score s p.1)) as Hp.
  cbv zeta in Hp. set (r := foldl _ _ _) in *. destruct Hp as [H1 H2].
  { rewrite <- list_fmap_compose. exact Ha. }
  assert (Hr : exists q, q ∈ p :: ms /\ r = (q.1, score s q.1)).
  { rewrite <- (fmap_cons (fun p => (p.1, score s p.1))) in H1.
    apply elem_of_list_fmap in H1 as (q & -> & Hq). eauto. }
  destruct Hr as (q & Hq & Er). rewrite Er in *. cbn [fst snd] in *.
  split; [now apply elem_of_list_fmap_1|]. intros m Hm. apply elem_of_list_fmap in Hm as (x & -> & Hx).
  apply (H2 (x.1, score s x.1)). rewrite <- (fmap_cons (fun p => (p.1, score s p.1))).
  apply (elem_of_list_fmap_1 (fun p => (p.1, score s p.1))). exact Hx.
Qed.
