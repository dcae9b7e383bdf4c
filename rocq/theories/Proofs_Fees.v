(** Proofs about transaction fees. *)
From Verif Require Import Base Balances Proofs_Balances Model_Fees Spec_Fees.
From stdpp Require Import gmap.
From Coq Require Import Lia.
Open Scope N_scope.

Lemma ration_most x : x * 80 < two128 -> ration x = (most x, x - most x).
Proof.
  intros H. unfold ration, most. rewrite N.min_l by lia.
  replace (x * 80 / 100) with (4 * x / 5); [reflexivity|].
  replace (x * 80) with (4 * x * 20) by lia. replace 100 with (5 * 20) by reflexivity.
  by rewrite N.div_mul_cancel_r by lia.
Qed.
Lemma most_le x : most x <= x.
Proof. unfold most. apply N.div_le_upper_bound; lia. Qed.
Lemma ration_sum x : (ration x).1 + (ration x).2 = x.
Proof.
  unfold ration. cbn [fst snd].
  assert (N.min (x * 80) (two128 - 1) / 100 <= x); [|lia].
  etransitivity; [apply N.div_le_mono; [lia|apply N.le_min_l]|]. apply N.div_le_upper_bound; lia.
Qed.

Lemma existing_money ed b who v b' : deposit_existing ed b who v = Some b' -> money b' = money b + v.
Proof.
  unfold deposit_existing. destruct (N.eqb_spec v 0) as [->|]; [intros [= ->]; lia|].
  destruct (is_new _); [discriminate|]. destruct (_ <=? _); [discriminate|]. intros [= <-].
  pose proof (put_money ed b who (Acct (free (acct_of b who) + v) (rsv (acct_of b who)) (frz (acct_of b who)))) as P.
  simpl in P. lia.
Qed.
Lemma deal_money ed tr au b fee tip : money (deal ed tr au b fee tip) = money b + fee + tip.
Proof.
  unfold deal. pose proof (ration_sum fee). pose proof (ration_sum tip).
  destruct (ration fee) as [f1 f2], (ration tip) as [t1 t2]. cbn [fst snd] in *.
  unfold to_author. destruct au as [a|].
  - rewrite !deposit_money. lia.
  - pose proof (deposit_money ed b tr (f1 + t1)) as P. unfold money in *. cbn [accts lost]. lia.
Qed.
Lemma settle_money ed tr au b who fee actual tip :
  money (settle ed tr au b who fee actual tip) = money b + fee.
Proof.
  unfold settle. destruct (N.eqb_spec fee 0) as [->|]; [lia|].
  destruct (deposit_existing ed b who (fee - actual)) as [b1|] eqn:E.
  - apply existing_money in E. rewrite deal_money. lia.
  - rewrite deal_money. lia.
Qed.

(** A deposit into a living account. *)
Lemma deposit_alive ed b who v w : alive ed b who -> money b + v < two128 ->
  acct_of (deposit_creating ed b who v) w =
    Acct (free_of b w + if_is w who v) (rsv (acct_of b w)) (frz (acct_of b w)).
Proof.
  intros Ha Hm. unfold if_is. destruct (N.eqb_spec w who) as [->|Hn].
  - unfold deposit_creating. destruct (N.eqb_spec v 0) as [->|Hv].
    { unfold free_of. rewrite N.add_0_r. by destruct (acct_of b who). }
    assert (is_new (acct_of b who) && (v <? ed) = false) as ->.
    { destruct (is_new _ && _) eqn:E; [|reflexivity]. apply andb_true_iff in E as [E1 E2]. unfold is_new in E1.
      rewrite !andb_true_iff, !N.eqb_eq in E1. apply N.ltb_lt in E2. unfold alive, free_of in Ha. lia. }
    destruct (N.leb_spec two128 (free (acct_of b who) + v)).
    { pose proof (free_le_money b who). unfold free_of in *. lia. }
    apply put_acct_eq. unfold alive, free_of in *. cbn [free rsv]. lia.
  - rewrite deposit_ne by exact Hn. unfold free_of. rewrite N.add_0_r. by destruct (acct_of b w).
Qed.
Lemma deposit_keeps_alive ed b who v w : alive ed b who -> money b + v < two128 -> alive ed b w ->
  alive ed (deposit_creating ed b who v) w.
Proof.
  intros Ha Hm Hw. unfold alive, free_of. rewrite (deposit_alive ed b who v w Ha Hm). cbn [free rsv].
  unfold alive, free_of in *. lia.
Qed.
Lemma existing_is ed b who v : 0 < ed -> alive ed b who -> money b + v < two128 ->
  deposit_existing ed b who v = Some (deposit_creating ed b who v).
Proof.
  intros Hed Ha Hm. unfold deposit_existing, deposit_creating. destruct (N.eqb_spec v 0); [reflexivity|].
  assert (is_new (acct_of b who) = false) as ->.
  { destruct (is_new _) eqn:E; [|reflexivity]. unfold is_new in E. rewrite !andb_true_iff, !N.eqb_eq in E.
    unfold alive, free_of in Ha. lia. }
  cbn [andb]. destruct (N.leb_spec two128 (free (acct_of b who) + v)); [|reflexivity].
  pose proof (free_le_money b who). unfold free_of in *. lia.
Qed.
Lemma existing_dead ed b who v : is_new (acct_of b who) = true -> 0 < v -> deposit_existing ed b who v = None.
Proof. intros Hn Hv. unfold deposit_existing. destruct (N.eqb_spec v 0); [lia|]. by rewrite Hn. Qed.

Lemma deal_free ed tr au b fee tip w :
  alive ed b tr -> (forall a, au = Some a -> alive ed b a) -> money b + fee + tip < two128 ->
  (fee + tip) * 80 < two128 ->
  free_of (deal ed tr au b fee tip) w =
    free_of b w + if_is w tr (most fee + most tip) + if_some w au (fee - most fee + (tip - most tip)) /\
  (au = None -> lost (deal ed tr au b fee tip) = lost b + (fee - most fee + (tip - most tip))) /\
  (au <> None -> lost (deal ed tr au b fee tip) = lost b) /\
  rsv (acct_of (deal ed tr au b fee tip) w) = rsv (acct_of b w).
Proof.
  intros Ht Ha Hm Hs. unfold deal. rewrite !ration_most by lia.
  pose proof (most_le fee). pose proof (most_le tip).
  set (v1 := most fee + most tip). set (v2 := fee - most fee + (tip - most tip)).
  assert (H1 : money b + v1 < two128) by (unfold v1; lia).
  assert (L : forall b who v, alive ed b who -> money b + v < two128 -> lost (deposit_creating ed b who v) = lost b).
  { intros b0 who v Hal Hmm. unfold deposit_creating. destruct (N.eqb_spec v 0); [reflexivity|].
    assert (is_new (acct_of b0 who) && (v <? ed) = false) as ->.
    { destruct (is_new _ && _) eqn:E; [|reflexivity]. apply andb_true_iff in E as [E1 E2]. unfold is_new in E1.
      rewrite !andb_true_iff, !N.eqb_eq in E1. apply N.ltb_lt in E2. unfold alive, free_of in Hal. lia. }
    destruct (N.leb_spec two128 (free (acct_of b0 who) + v)).
    { pose proof (free_le_money b0 who). unfold free_of in *. lia. }
    unfold put. cbn [free rsv].
    destruct ((free (acct_of b0 who) + v <? ed) && (rsv (acct_of b0 who) =? 0)) eqn:E; [|reflexivity].
    apply andb_true_iff in E as [E1 E2]. apply N.ltb_lt in E1. apply N.eqb_eq in E2.
    unfold alive, free_of in Hal. lia. }
  unfold to_author. destruct au as [a|]; cbn [if_some].
  - assert (Ha1 : alive ed (deposit_creating ed b tr v1) a) by (apply deposit_keeps_alive; auto).
    assert (H2 : money (deposit_creating ed b tr v1) + v2 < two128) by (rewrite deposit_money; unfold v1, v2; lia).
    split; [|split; [discriminate|split]].
    + unfold free_of at 1. rewrite (deposit_alive ed _ a v2 w Ha1 H2). cbn [free].
      unfold free_of at 1. rewrite (deposit_alive ed _ tr v1 w Ht H1). cbn [free]. lia.
    + intros _. rewrite (L _ _ _ Ha1 H2). by apply L.
    + rewrite (deposit_alive ed _ a v2 w Ha1 H2). cbn [rsv]. by rewrite (deposit_alive ed _ tr v1 w Ht H1).
  - split; [|split; [|split]].
    + unfold free_of, acct_of. cbn [accts]. fold (acct_of (deposit_creating ed b tr v1) w).
      rewrite (deposit_alive ed _ tr v1 w Ht H1). cbn [free]. unfold free_of, acct_of. lia.
    + intros _. cbn [lost]. by rewrite (L _ _ _ Ht H1).
    + contradiction.
    + unfold acct_of at 1. cbn [accts]. fold (acct_of (deposit_creating ed b tr v1) w).
      by rewrite (deposit_alive ed _ tr v1 w Ht H1).
Qed.
