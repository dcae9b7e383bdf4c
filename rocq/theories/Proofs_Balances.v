(** Conservation and frame lemmas about the bank. *)
From Verif Require Import Base Balances.
From stdpp Require Import gmap.
Open Scope N_scope.

Notation worth := (fun (_ : N) (a : acct) => free a + rsv a).

Lemma acct_of_lookup b who a : accts b !! who = Some a -> acct_of b who = a.
Proof. unfold acct_of. now intros ->. Qed.

Lemma msum_acct b who :
  msum worth (accts b) =
  free (acct_of b who) + rsv (acct_of b who) + msum worth (delete who (accts b)).
Proof.
  unfold acct_of. destruct (accts b !! who) as [a|] eqn:E; simpl.
  - now rewrite (msum_delete _ _ _ _ E).
  - rewrite delete_notin by auto. reflexivity.
Qed.

Lemma worth_le_money b who : free_of b who + rsv (acct_of b who) + lost b <= money b.
Proof. unfold money, free_of. rewrite (msum_acct b who). lia. Qed.

Lemma free_le_money b who : free_of b who <= money b.
Proof. pose proof (worth_le_money b who). lia. Qed.

Lemma put_money ed b who a :
  money (put ed b who a) + free (acct_of b who) + rsv (acct_of b who) =
  money b + free a + rsv a.
Proof.
  unfold put, money.
  destruct ((free a <? ed) && (rsv a =? 0)) eqn:E; simpl.
  - apply andb_true_iff in E as [_ E]. apply N.eqb_eq in E.
    rewrite (msum_acct b who). lia.
  - rewrite (msum_acct b who). rewrite <- insert_delete_insert.
    rewrite msum_insert by apply lookup_delete. lia.
Qed.

Lemma put_acct_ne ed b who a w : w <> who -> acct_of (put ed b who a) w = acct_of b w.
Proof.
  intros Hn. unfold put, acct_of.
  destruct (_ && _); simpl; [rewrite lookup_delete_ne|rewrite lookup_insert_ne]; auto.
Qed.

Lemma put_acct_eq ed b who a :
  ed <= free a \/ rsv a <> 0 -> acct_of (put ed b who a) who = a.
Proof.
  intros H. unfold put, acct_of.
  destruct ((free a <? ed) && (rsv a =? 0)) eqn:E.
  - apply andb_true_iff in E as [E1 E2].
    apply N.ltb_lt in E1. apply N.eqb_eq in E2. lia.
  - simpl. now rewrite lookup_insert.
Qed.

Lemma put_lost ed b who a :
  lost b <= lost (put ed b who a) /\
  (lost (put ed b who a) <> lost b -> free a < ed /\ lost (put ed b who a) = lost b + free a).
Proof.
  unfold put. destruct ((free a <? ed) && (rsv a =? 0)) eqn:E; simpl; [|lia].
  apply andb_true_iff in E as [E1 E2]. apply N.ltb_lt in E1. lia.
Qed.

Lemma withdraw_money ed k b who v b' :
  withdraw ed k b who v = Some b' -> money b = money b' + v.
Proof.
  unfold withdraw. destruct (N.eqb_spec v 0) as [->|Hv].
  { intros [= ->]. lia. }
  destruct (N.ltb_spec (free (acct_of b who)) v) as [|Hf]; [discriminate|].
  destruct (k && _ && _); [discriminate|].
  destruct (_ <? _); [discriminate|]. intros [= <-].
  pose proof (put_money ed b who
    (Acct (free (acct_of b who) - v) (rsv (acct_of b who)) (frz (acct_of b who)))) as P.
  simpl in P. lia.
Qed.

Lemma withdraw_ne ed k b who v b' w :
  withdraw ed k b who v = Some b' -> w <> who -> acct_of b' w = acct_of b w.
Proof.
  unfold withdraw. intros H Hn. destruct (v =? 0); [now simplify_eq|].
  destruct (_ <? _); [discriminate|]. destruct (k && _ && _); [discriminate|].
  destruct (_ <? _); [discriminate|]. simplify_eq. now apply put_acct_ne.
Qed.

Lemma deposit_money ed b who v : money (deposit_creating ed b who v) = money b + v.
Proof.
  unfold deposit_creating. destruct (N.eqb_spec v 0) as [->|Hv]; [lia|].
  destruct (_ && _). { unfold money; simpl. lia. }
  destruct (_ <=? _). { unfold money; simpl. lia. }
  pose proof (put_money ed b who
    (Acct (free (acct_of b who) + v) (rsv (acct_of b who)) (frz (acct_of b who)))) as P.
  simpl in P. lia.
Qed.

Lemma deposit_ne ed b who v w :
  w <> who -> acct_of (deposit_creating ed b who v) w = acct_of b w.
Proof.
  intros Hn. unfold deposit_creating. destruct (_ =? _); [done|].
  destruct (_ && _); [done|]. destruct (_ <=? _); [done|]. now apply put_acct_ne.
Qed.

(** A deposit that is large enough, or goes to a live account, is credited. *)
Lemma deposit_eq ed b who v :
  money b + v < two128 ->
  ed <= free_of b who + v ->
  (ed <= v \/ ed <= free_of b who \/ rsv (acct_of b who) <> 0) ->
  acct_of (deposit_creating ed b who v) who =
  Acct (free_of b who + v) (rsv (acct_of b who)) (frz (acct_of b who)).
Proof.
  intros Hm He Hl. unfold deposit_creating, free_of in *.
  destruct (N.eqb_spec v 0) as [->|Hv].
  { destruct (acct_of b who); simpl. f_equal. lia. }
  destruct (is_new (acct_of b who) && (v <? ed)) eqn:E.
  { apply andb_true_iff in E as [E1 E2]. unfold is_new in E1.
    rewrite !andb_true_iff, !N.eqb_eq in E1. apply N.ltb_lt in E2. lia. }
  destruct (N.leb_spec two128 (free (acct_of b who) + v)) as [Ho|].
  { pose proof (free_le_money b who). unfold free_of in *. lia. }
  apply put_acct_eq. simpl. lia.
Qed.

(** A deposit destroys less than one existential deposit, and only when the
    account's free balance ends below it. *)
Lemma deposit_lost ed b who v :
  money b + v < two128 ->
  lost b <= lost (deposit_creating ed b who v) /\
  (lost (deposit_creating ed b who v) <> lost b ->
   lost (deposit_creating ed b who v) < lost b + ed /\ free_of b who + v < ed).
Proof.
  intros Hm. unfold deposit_creating, free_of. destruct (N.eqb_spec v 0); [lia|].
  destruct (is_new (acct_of b who) && (v <? ed)) eqn:E.
  { apply andb_true_iff in E as [E1 E2]. unfold is_new in E1.
    rewrite !andb_true_iff, !N.eqb_eq in E1. apply N.ltb_lt in E2. simpl. lia. }
  destruct (N.leb_spec two128 (free (acct_of b who) + v)) as [Ho|].
  { pose proof (free_le_money b who). unfold free_of in *. lia. }
  pose proof (put_lost ed b who
    (Acct (free (acct_of b who) + v) (rsv (acct_of b who)) (frz (acct_of b who)))) as P.
  simpl in P. lia.
Qed.

Lemma two_puts_money ed b src dst v :
  src <> dst -> v <= free (acct_of b src) ->
  let a := acct_of b src in let d := acct_of b dst in
  money (put ed (put ed b src (Acct (free a - v) (rsv a) (frz a))) dst
           (Acct (free d + v) (rsv d) (frz d))) = money b.
Proof.
  intros Hn Hv a d.
  pose proof (put_money ed b src (Acct (free a - v) (rsv a) (frz a))) as P1.
  pose proof (put_money ed (put ed b src (Acct (free a - v) (rsv a) (frz a))) dst
                (Acct (free d + v) (rsv d) (frz d))) as P2.
  rewrite put_acct_ne in P2 by congruence. simpl in *. unfold a, d in *. lia.
Qed.

Lemma transfer_allow_money ed b src dst v b' :
  transfer_allow ed b src dst v = Some b' -> money b' = money b.
Proof.
  unfold transfer_allow. destruct (N.eqb_spec v 0); simpl; [now intros [= ->]|].
  destruct (N.eqb_spec src dst); simpl; [now intros [= ->]|].
  destruct (N.ltb_spec (free (acct_of b src)) v); [discriminate|].
  destruct (_ <? v); [discriminate|]. destruct (_ && negb _); [discriminate|].
  destruct (_ <? ed); [discriminate|]. destruct (_ <=? _); [discriminate|].
  intros [= <-]. now apply two_puts_money.
Qed.

Lemma transfer_keep_money ed b src dst v b' :
  transfer_keep ed b src dst v = Some b' -> money b' = money b.
Proof.
  unfold transfer_keep. destruct (N.eqb_spec v 0); simpl; [now intros [= ->]|].
  destruct (N.eqb_spec src dst); simpl; [now intros [= ->]|].
  destruct (N.ltb_spec (free (acct_of b src)) v); [discriminate|].
  destruct (_ <? v); [discriminate|].
  destruct (_ <? ed); [discriminate|]. destruct (_ <=? _); [discriminate|].
  intros [= <-]. now apply two_puts_money.
Qed.

Lemma transfer_allow_ne ed b src dst v b' w :
  transfer_allow ed b src dst v = Some b' -> w <> src -> w <> dst -> acct_of b' w = acct_of b w.
Proof.
  unfold transfer_allow. destruct (_ || _); [now intros [= ->]|].
  destruct (_ <? v); [discriminate|]. destruct (_ <? v); [discriminate|].
  destruct (_ && negb _); [discriminate|].
  destruct (_ <? ed); [discriminate|]. destruct (_ <=? _); [discriminate|].
  intros [= <-] H1 H2. now rewrite !put_acct_ne.
Qed.

Lemma put_free_le ed b who a w :
  free_of (put ed b who a) w <= (if w =? who then free a else free_of b w).
Proof.
  unfold free_of. destruct (N.eqb_spec w who) as [->|Hn].
  - unfold put, acct_of. destruct (_ && _); simpl.
    + rewrite lookup_delete. simpl. lia.
    + now rewrite lookup_insert.
  - now rewrite put_acct_ne.
Qed.

Lemma transfer_allow_free_le ed b src dst v b' w :
  transfer_allow ed b src dst v = Some b' -> w <> dst -> free_of b' w <= free_of b w.
Proof.
  unfold transfer_allow. destruct (_ || _); [now intros [= ->]|].
  destruct (_ <? v); [discriminate|]. destruct (_ <? v); [discriminate|].
  destruct (_ && negb _); [discriminate|].
  destruct (_ <? ed); [discriminate|]. destruct (_ <=? _); [discriminate|].
  intros [= <-] H1.
  etransitivity; [apply put_free_le|]. simpl.
  destruct (N.eqb_spec w dst); [done|].
  etransitivity; [apply put_free_le|]. simpl. unfold free_of.
  destruct (N.eqb_spec w src) as [->|]; [lia|done].
Qed.

Lemma transfer_allow_lost ed b src dst v b' :
  transfer_allow ed b src dst v = Some b' ->
  lost b <= lost b' /\ (lost b' <> lost b -> lost b' < lost b + 2 * ed).
Proof.
  unfold transfer_allow. destruct (_ || _); [intros [= ->]; lia|].
  destruct (_ <? v); [discriminate|]. destruct (_ <? v); [discriminate|].
  destruct (_ && negb _); [discriminate|].
  destruct (_ <? ed); [discriminate|]. destruct (_ <=? _); [discriminate|].
  intros [= <-].
  match goal with |- context [put ?e (put ?e ?b ?w ?a) ?w2 ?a2] =>
    pose proof (put_lost e b w a) as [P1 P2];
    pose proof (put_lost e (put e b w a) w2 a2) as [Q1 Q2];
    generalize dependent (lost (put e (put e b w a) w2 a2));
    generalize dependent (lost (put e b w a)) end.
  intros l1 P1 P2 l2 Q1 Q2. simpl in P2, Q2.
  destruct (N.eq_dec l1 (lost b)), (N.eq_dec l2 l1); lia.
Qed.
