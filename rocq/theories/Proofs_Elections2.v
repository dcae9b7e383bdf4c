(** What the pallet's bookkeeping does to accounts and records. *)
From Verif Require Import Base Balances Proofs_Arith Proofs_Balances Model_Elections Spec_Elections Proofs_Elections.
From Coq Require Import Sorting.Sorted.
From stdpp Require Import gmap sorting.
Open Scope N_scope.

(** The account of [w] becomes [a], all others stay. *)
Definition moved (b b' : bank) (w : N) (a : acct) : Prop :=
  forall x, acct_of b' x = if x =? w then a else acct_of b x.

Lemma moved_eq b b' w a : moved b b' w a -> acct_of b' w = a.
Proof. intros H. rewrite H, N.eqb_refl. done. Qed.
Lemma moved_ne b b' w a x : moved b b' w a -> x <> w -> acct_of b' x = acct_of b x.
Proof. intros H Hn. rewrite H. destruct (N.eqb_spec x w); [done|reflexivity]. Qed.
Lemma moved_refl b w : moved b b w (acct_of b w).
Proof. intros x. now destruct (N.eqb_spec x w) as [->|]. Qed.
Lemma moved_trans b b' b'' w a a' : moved b b' w a -> moved b' b'' w a' -> moved b b'' w a'.
Proof. intros H H' x. rewrite H', H. now destruct (x =? w). Qed.

Section bank.
  Context (cfg : ecfg).
  Local Notation ed := (ec_ed cfg).
  Local Notation sound := (sound_bank cfg).

  Lemma put_moved b w a : ed <= free a \/ a = acct0 -> moved b (put ed b w a) w a.
  Proof.
    intros H x. destruct (N.eqb_spec x w) as [->|Hn]; [|now apply put_acct_ne].
    destruct H as [H| ->]; [apply put_acct_eq; auto|].
    unfold put, acct_of. simpl. rewrite andb_true_r. destruct (0 <? ed); simpl.
    - now rewrite lookup_delete.
    - now rewrite lookup_insert.
  Qed.
  (** A [put] leaves the account as told, or takes it away. *)
  Lemma put_any b w a :
    moved b (put ed b w a) w a /\ (ed <= free a \/ rsv a <> 0) \/
    moved b (put ed b w a) w acct0 /\ free a < ed /\ rsv a = 0.
  Proof.
    destruct (N.leb_spec ed (free a)) as [H|H].
    { left. split; [|auto]. intros x. destruct (N.eqb_spec x w) as [->|Hn]; [|now apply put_acct_ne].
      now apply put_acct_eq; left. }
    destruct (N.eqb_spec (rsv a) 0) as [H0|H0].
    - right. split; [|auto]. intros x. destruct (N.eqb_spec x w) as [->|Hn]; [|now apply put_acct_ne].
      unfold put, acct_of. apply N.ltb_lt in H. rewrite H, H0. simpl. now rewrite lookup_delete.
    - left. split; [|auto]. intros x. destruct (N.eqb_spec x w) as [->|Hn]; [|now apply put_acct_ne].
      now apply put_acct_eq; right.
  Qed.
  Lemma moved_sound b b' w a : sound b -> moved b b' w a -> ed <= free a \/ a = acct0 -> sound b'.
  Proof. intros Hs Hm Ha x. rewrite Hm. destruct (x =? w); [exact Ha|apply Hs]. Qed.

  Lemma unreserve_moved b w v :
    sound b -> v <= rsv (acct_of b w) ->
    moved b (unreserve ed b w v) w
      (Acct (free (acct_of b w) + v) (rsv (acct_of b w) - v) (frz (acct_of b w))).
  Proof.
    intros Hs Hv. unfold unreserve. destruct (N.eqb_spec v 0) as [->|Hn].
    - rewrite N.add_0_r, N.sub_0_r. destruct (acct_of b w) eqn:E. simpl. rewrite <- E. apply moved_refl.
    - rewrite N.min_r by lia. apply put_moved. left. simpl.
      destruct (Hs w) as [H|H]; [lia|]. rewrite H in Hv. simpl in Hv. lia.
  Qed.
  Lemma reserve_moved b w v b' :
    reserve ed b w v = Some b' ->
    moved b b' w (Acct (free (acct_of b w) - v) (rsv (acct_of b w) + v) (frz (acct_of b w))) /\
    v <= free (acct_of b w) /\ (v = 0 \/ ed <= free (acct_of b w) - v).
  Proof.
    unfold reserve. destruct (N.eqb_spec v 0) as [->|Hn].
    - intros [= <-]. rewrite N.add_0_r, N.sub_0_r. destruct (acct_of b w) eqn:E. simpl.
      rewrite <- E. split; [apply moved_refl|]. lia.
    - destruct (N.ltb_spec (free (acct_of b w)) v); [discriminate|].
      destruct (_ <? frz _); [discriminate|].
      destruct (N.ltb_spec (free (acct_of b w) - v) ed); [discriminate|]. intros [= <-].
      split; [|lia]. apply put_moved. left. simpl. lia.
  Qed.
  Lemma slash_moved b w v :
    sound b -> v <= rsv (acct_of b w) ->
    moved b (slash_reserved ed b w v).1 w
      (Acct (free (acct_of b w)) (rsv (acct_of b w) - v) (frz (acct_of b w))) /\
    (slash_reserved ed b w v).2 = v.
  Proof.
    intros Hs Hv. unfold slash_reserved. destruct (N.eqb_spec v 0) as [->|Hn]; simpl.
    - rewrite N.sub_0_r. destruct (acct_of b w) eqn:E. simpl. rewrite <- E. split; [apply moved_refl|done].
    - rewrite N.min_r by lia. split; [|done]. apply put_moved. left. simpl.
      destruct (Hs w) as [H|H]; [lia|]. rewrite H in Hv. simpl in Hv. lia.
  Qed.
End bank.

(** Sums of bonds over the records of all roles. *)
Definition bond_in (l : list (N * N)) (w : N) : N := lsum (of_who w <$> l).
Lemma lsum_perm (l k : list N) : l ≡ₚ k -> lsum l = lsum k.
Proof. induction 1; simpl; lia. Qed.
Lemma bond_in_perm l k w : l ≡ₚ k -> bond_in l w = bond_in k w.
Proof. intros H. apply lsum_perm. now rewrite H. Qed.
Lemma bond_in_cons p l w : bond_in (p :: l) w = of_who w p + bond_in l w.
Proof. reflexivity. Qed.
Lemma bond_in_app l k w : bond_in (l ++ k) w = bond_in l w + bond_in k w.
Proof. unfold bond_in. now rewrite fmap_app, lsum_app. Qed.
Lemma bond_in_out l w : w ∉ fst <$> l -> bond_in l w = 0.
Proof.
  induction l as [|[c d] l IH]; intros H; [done|]. rewrite fmap_cons, elem_of_cons in H.
  rewrite bond_in_cons, IH by tauto. unfold of_who. simpl in *.
  destruct (N.eqb_spec c w); [|done]. subst. tauto.
Qed.
Lemma bond_in_at l w d : NoDup (fst <$> l) -> (w, d) ∈ l -> bond_in l w = d.
Proof.
  induction l as [|[c e] l IH]; intros Hn Hi; [now apply elem_of_nil in Hi|].
  rewrite fmap_cons in Hn. apply NoDup_cons in Hn as [Hc Hn]. rewrite bond_in_cons. unfold of_who. simpl in *.
  apply elem_of_cons in Hi as [[= -> ->]|Hi].
  - rewrite N.eqb_refl, bond_in_out by auto. lia.
  - destruct (N.eqb_spec c w) as [->|].
    + exfalso. apply Hc. apply elem_of_list_fmap. exists (w, d). auto.
    + rewrite IH; auto.
Qed.
Lemma bonds_standing s w : bonds s w = bond_in (standing s) w.
Proof.
  unfold bonds, standing. rewrite !bond_in_app. unfold bond_in. rewrite <- !list_fmap_compose.
  unfold compose. lia.
Qed.
Lemma standing_ids s : fst <$> standing s = role_ids s.
Proof.
  unfold standing, role_ids, cand_ids, member_ids, runner_ids.
  rewrite !fmap_app, <- !list_fmap_compose. reflexivity.
Qed.
