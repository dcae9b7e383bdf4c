(** Properties of transaction fees. *)
From Verif Require Import Base Balances Proofs_Balances Model_Fees Spec_Fees Proofs_Fees.
From stdpp Require Import gmap.
From Coq Require Import Lia.
Open Scope N_scope.

(** C128. Of the fee and of the tip, four fifths go to the treasury and the rest to the block's
    author; nobody else's balance changes but for the payer's refund; no money appears or
    vanishes. Without an author their share is destroyed. *)
Theorem C128_shares : forall ed treasury author b who fee actual tip,
  0 < ed -> tip <= actual <= fee -> fee <> 0 -> money b + fee < two128 -> fee * 80 < two128 ->
  alive ed b who -> alive ed b treasury -> (forall a, author = Some a -> alive ed b a) ->
  let b' := settle ed treasury author b who fee actual tip in
  let net := actual - tip in
  (forall w, free_of b' w = free_of b w + if_is w who (fee - actual) +
     if_is w treasury (most net + most tip) + if_some w author (net - most net + (tip - most tip))) /\
  lost b' = lost b + match author with Some _ => 0 | None => net - most net + (tip - most tip) end.
Proof.
  intros ed treasury author b who fee actual tip Hed Hta Hf Hm Hs Hw Ht Ha b' net.
  unfold b', settle. rewrite (proj2 (N.eqb_neq _ _) Hf).
  rewrite existing_is by (try assumption; lia).
  replace (N.min (fee - (fee - actual)) tip) with tip by lia.
  replace (fee - (fee - actual) - tip) with net by (unfold net; lia).
  set (b1 := deposit_creating ed b who (fee - actual)).
  assert (H1 : money b + (fee - actual) < two128) by lia.
  assert (K : forall x, alive ed b x -> alive ed b1 x) by (intros x Hx; by apply deposit_keeps_alive).
  assert (M : money b1 = money b + (fee - actual)) by apply deposit_money.
  assert (L : lost b1 = lost b).
  { unfold b1. destruct (deposit_lost ed b who (fee - actual) H1) as [P1 P2].
    destruct (N.eq_dec (lost b1) (lost b)) as [E|E]; [exact E|]. destruct (P2 E) as [_ X].
    destruct Hw as [Hw|Hw]; [lia|]. exfalso. apply E. unfold b1, deposit_creating in *.
    destruct (fee - actual =? 0); [reflexivity|].
    assert (is_new (acct_of b who) = false) as ->.
    { destruct (is_new _) eqn:E1; [|reflexivity]. unfold is_new in E1. rewrite !andb_true_iff, !N.eqb_eq in E1. lia. }
    cbn [andb]. destruct (N.leb_spec two128 (free (acct_of b who) + (fee - actual))).
    { pose proof (free_le_money b who). unfold free_of in *. lia. }
    unfold put. cbn [free rsv]. rewrite (proj2 (N.eqb_neq _ _) Hw), andb_false_r. reflexivity. }
  assert (D := fun w => deal_free ed treasury author b1 net tip w (K _ Ht) (fun a e => K _ (Ha a e))).
  split.
  - intros w. destruct (D w) as [D1 _]; [unfold net; lia|unfold net; lia|]. rewrite D1.
    assert (F : free_of b1 w = free_of b w + if_is w who (fee - actual)).
    { unfold free_of at 1. unfold b1. by rewrite (deposit_alive ed b who _ w Hw H1). }
    rewrite F. lia.
  - destruct (D 0) as (_ & D2 & D3 & _); [unfold net; lia|unfold net; lia|].
    destruct author; [rewrite D3 by discriminate|rewrite D2 by reflexivity]; rewrite L; lia.
Qed.
Theorem C128_conserved : forall ed treasury author b who fee b1 b2 actual tip,
  charge ed b who fee = Some b1 -> money b2 = money b1 ->
  money (settle ed treasury author b2 who fee actual tip) = money b.
Proof.
  intros ed treasury author b who fee b1 b2 actual tip H E.
  rewrite settle_money, E. symmetry. by apply withdraw_money in H.
Qed.
Definition xbank : bank := Bank {[1 := Acct 1000 0 0; 2 := Acct 500 0 0; 3 := Acct 500 0 0]} 0.
Example C128_example :
  let b1 := charge 10 xbank 1 103 in
  let b2 := match b1 with Some b => settle 10 2 (Some 3) b 1 103 83 7 | None => xbank end in
  alive 10 xbank 1 /\ alive 10 xbank 2 /\ alive 10 xbank 3 /\
  free_of b2 1 = 917 /\ free_of b2 2 = 565 /\ free_of b2 3 = 518 /\ lost b2 = 0.
Proof. split; [left; vm_compute; discriminate|]. split; [left; vm_compute; discriminate|]. split; [left; vm_compute; discriminate|]. vm_compute. auto. Qed.
Print Assumptions C128_shares.
Print Assumptions C128_conserved.

(** C129. The payer is charged the actual fee: the difference to the fee taken in advance comes
    back, whatever the call did in between. *)
Definition C129_claim : Prop := forall ed treasury author b b1 who fee b2 actual tip,
  0 < ed -> tip <= actual <= fee -> money b < two128 -> fee * 80 < two128 ->
  charge ed b who fee = Some b1 -> money b2 <= money b1 -> who <> treasury -> author <> Some who ->
  free_of (settle ed treasury author b2 who fee actual tip) who = free_of b2 who + (fee - actual).
(** It fails when the call empties the account: the refund is then kept as fee. *)
Theorem C129_refuted : ~ C129_claim.
Proof.
  intros H.
  pose (b1 := default xbank (charge 10 xbank 1 100)).
  pose (b2 := default xbank (transfer_allow 10 b1 1 3 900)).
  assert (E : free_of (settle 10 2 (Some 3) b2 1 100 60 0) 1 = free_of b2 1 + (100 - 60)).
  { apply (H 10 2 (Some 3) xbank b1 1 100 b2 60 0); try reflexivity; try lia; try discriminate. }
  vm_compute in E. discriminate E.
Qed.
Print Assumptions C129_refuted.
(** It holds as long as the account lives on; otherwise the whole advance is split as a fee
    (missing: refunds to accounts the call removed). The advance is taken exactly if it can be
    taken without removing the account or touching its locks. *)
Theorem C129_partial : forall ed treasury author b2 who fee actual tip,
  0 < ed -> tip <= actual <= fee -> fee <> 0 -> money b2 + fee < two128 -> fee * 80 < two128 ->
  alive ed b2 treasury -> (forall a, author = Some a -> alive ed b2 a) ->
  who <> treasury -> author <> Some who ->
  let b3 := settle ed treasury author b2 who fee actual tip in
  (alive ed b2 who -> free_of b3 who = free_of b2 who + (fee - actual)) /\
  (is_new (acct_of b2 who) = true -> actual < fee ->
     free_of b3 who = free_of b2 who /\
     forall w, free_of b3 w = free_of b2 w + if_is w treasury (most (fee - tip) + most tip) +
       if_some w author (fee - tip - most (fee - tip) + (tip - most tip))).
Proof.
  intros ed treasury author b2 who fee actual tip Hed Hta Hf Hm Hs Ht Ha N1 N2 b3.
  assert (Z1 : forall v, if_is who treasury v = 0).
  { intros v. unfold if_is. by rewrite (proj2 (N.eqb_neq _ _) N1). }
  assert (Z2 : forall v, if_some who author v = 0).
  { intros v. destruct author as [a|]; [|reflexivity]. cbn. unfold if_is.
    destruct (N.eqb_spec who a) as [->|]; [contradiction|reflexivity]. }
  split.
  - intros Hw.
    destruct (C128_shares ed treasury author b2 who fee actual tip Hed Hta Hf Hm Hs Hw Ht Ha) as [S _].
    unfold b3. rewrite (S who), Z1, Z2. unfold if_is. rewrite N.eqb_refl. lia.
  - intros Hn Hlt.
    assert (G : forall w, free_of b3 w = free_of b2 w + if_is w treasury (most (fee - tip) + most tip) +
       if_some w author (fee - tip - most (fee - tip) + (tip - most tip))).
    { intros w. unfold b3, settle. rewrite (proj2 (N.eqb_neq _ _) Hf).
      rewrite existing_dead by (try assumption; lia). replace (N.min fee tip) with tip by lia.
      destruct (deal_free ed treasury author b2 (fee - tip) tip w Ht Ha) as [D _]; [lia|lia|exact D]. }
    split; [|exact G]. rewrite (G who), Z1, Z2. lia.
Qed.
Theorem C129_charged : forall ed b who fee, fee <> 0 -> ed <= free_of b who ->
  ((exists b1, charge ed b who fee = Some b1) <->
   fee + N.max ed (frz (acct_of b who)) <= free_of b who) /\
  forall b1, charge ed b who fee = Some b1 ->
    free_of b1 who + fee = free_of b who /\ ed <= free_of b1 who /\
    forall w, w <> who -> acct_of b1 w = acct_of b w.
Proof.
  intros ed b who fee Hf He. unfold charge.
  assert (X : withdraw ed true b who fee =
    if fee + N.max ed (frz (acct_of b who)) <=? free_of b who
    then Some (put ed b who (Acct (free_of b who - fee) (rsv (acct_of b who)) (frz (acct_of b who)))) else None).
  { unfold withdraw. rewrite (proj2 (N.eqb_neq _ _) Hf). unfold free_of in *. cbn [andb].
    destruct (N.ltb_spec (free (acct_of b who)) fee); [destruct (N.leb_spec (fee + N.max ed (frz (acct_of b who))) (free (acct_of b who))); [lia|reflexivity]|].
    destruct (N.ltb_spec (free (acct_of b who) - fee) ed), (N.leb_spec ed (free (acct_of b who))); cbn [andb]; try lia.
    - destruct (N.leb_spec (fee + N.max ed (frz (acct_of b who))) (free (acct_of b who))); [lia|reflexivity].
    - destruct (N.ltb_spec (free (acct_of b who) - fee) (frz (acct_of b who))),
        (N.leb_spec (fee + N.max ed (frz (acct_of b who))) (free (acct_of b who))); try lia; reflexivity. }
  rewrite X. destruct (N.leb_spec (fee + N.max ed (frz (acct_of b who))) (free_of b who)) as [H|H].
  - split; [split; [done|eauto]|]. intros b1 [= <-].
    assert (F : free_of (put ed b who (Acct (free_of b who - fee) (rsv (acct_of b who)) (frz (acct_of b who)))) who = free_of b who - fee).
    { unfold free_of at 1. rewrite put_acct_eq; [reflexivity|]. cbn [free]. lia. }
    rewrite F. split; [lia|]. split; [lia|]. intros w Hn. by apply put_acct_ne.
  - split; [|discriminate]. split; [intros [? X']; discriminate|lia].
Qed.
Example C129_example :
  let b1 := default xbank (charge 10 xbank 1 100) in
  let b2 := default xbank (transfer_allow 10 b1 1 3 900) in
  let b3 := default xbank (transfer_allow 10 b1 1 3 800) in
  free_of b1 1 = 900 /\ is_new (acct_of b2 1) = true /\
  free_of (settle 10 2 (Some 3) b2 1 100 60 0) 1 = 0 /\ free_of (settle 10 2 (Some 3) b2 1 100 60 0) 2 = 580 /\
  free_of (settle 10 2 (Some 3) b3 1 100 60 0) 1 = 140 /\ free_of (settle 10 2 (Some 3) b3 1 100 60 0) 2 = 548 /\
  charge 10 xbank 1 991 = None /\ is_Some (charge 10 xbank 1 990).
Proof. vm_compute. repeat split. eexists. reflexivity. Qed.
Print Assumptions C129_partial.
Print Assumptions C129_charged.
