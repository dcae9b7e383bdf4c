(** Operation pallet, second part: property C89. *)
From Verif Require Import Base Balances Proofs_Balances Proofs_DeeperNode2 Proofs_Adsc4 Model_Operation
  Spec_Operation Proofs_Operation Proofs_Operation2 Proofs_Operation3 Props_Operation.
From stdpp Require Import gmap sorting.
Open Scope N_scope.

(** * C89: lock calls act on the named accounts only *)
(** Reserving moves the amount from the free to the reserved balance of the account. *)
Theorem C89_reserve :
  forall cfg s x o who v s' evs,
    0 < v -> ostep cfg s x o (OReserve who v) = (s', ROk evs) ->
    let a := acct_of (o_bank s) who in
    v + oc_ed cfg <= free a /\ v + frz a <= free a /\
    acct_of (o_bank s') who = Acct (free a - v) (rsv a + v) (frz a) /\
    (forall w, w <> who -> acct_of (o_bank s') w = acct_of (o_bank s) w).
Proof.
  intros cfg s x o who v s' evs Hv E a. unfold ostep in E. cbn [oexec] in E.
  unfold signed, ensure, rbind in E. break_match; try discriminate. injection E as <- <-.
  match goal with H : ROk _ = ROk _ |- _ => injection H as <- <- end. cbn [o_bank set_o_bank].
  match goal with H : reserve _ _ _ _ = _ |- _ => unfold reserve in H; fold a in H end.
  destruct (N.eqb_spec v 0); [lia|]. destruct (N.ltb_spec (free a) v); [discriminate|].
  destruct (N.ltb_spec (free a - v) (frz a)); [discriminate|]. destruct (N.ltb_spec (free a - v) (oc_ed cfg)); [discriminate|].
  match goal with H : Some _ = Some _ |- _ => injection H as <- end.
  split; [lia|]. split; [lia|]. unfold put, acct_of. cbn [free rsv frz].
  destruct (N.ltb_spec (free a - v) (oc_ed cfg)); [lia|]. cbn [andb accts].
  split; [now rewrite lookup_insert|]. intros w Hw. now rewrite lookup_insert_ne by congruence.
Qed.
Print Assumptions C89_reserve.
Lemma remove_lock_same x b who :
  (forall w, free_of (remove_lock x b who) w = free_of b w /\ rsv (acct_of (remove_lock x b who) w) = rsv (acct_of b w)) /\
  (forall w, w <> who -> acct_of (remove_lock x b who) w = acct_of b w).
Proof.
  unfold remove_lock, free_of, acct_of. destruct (accts b !! who) as [a|] eqn:Ea; cbn [accts]; [|auto].
  split; [|intros w Hw; now rewrite lookup_insert_ne by congruence].
  intros w. destruct (N.eq_dec w who) as [->|Hw]; [rewrite lookup_insert, Ea; cbn; auto|rewrite lookup_insert_ne by congruence; auto].
Qed.
(** Removing a lock leaves every free and reserved balance alone and frees at most
    what no other lock freezes. *)
Theorem C89_remove :
  forall cfg s x o who s' evs,
    ostep cfg s x o (ORemoveLock who) = (s', ROk evs) ->
    (forall w, free_of (o_bank s') w = free_of (o_bank s) w /\
               rsv (acct_of (o_bank s') w) = rsv (acct_of (o_bank s) w)) /\
    frz (acct_of (o_bank s') who) = N.min (frz (acct_of (o_bank s) who)) (ox_frozen x who) /\
    (forall w, w <> who -> acct_of (o_bank s') w = acct_of (o_bank s) w).
Proof.
  intros cfg s x o who s' evs E. unfold ostep in E. cbn [oexec] in E.
  unfold root, rbind in E. break_match; try discriminate. injection E as <- <-.
  match goal with H : ROk _ = ROk _ |- _ => injection H as <- <- end. cbn [o_bank set_o_bank].
  destruct (remove_lock_same x (o_bank s) who) as [F A]. split; [exact F|]. split; [|exact A].
  unfold remove_lock, acct_of. destruct (accts (o_bank s) !! who) as [ac|] eqn:Ea; cbn [accts];
    [now rewrite lookup_insert|rewrite Ea; cbn; now destruct (ox_frozen x who)].
Qed.
Print Assumptions C89_remove.
(** Unlocking by Root moves exactly the amount; less than the existential deposit left
    behind is burnt; reserves and everybody else are left alone. *)
Theorem C89_unlock :
  forall cfg s x o from to v s' evs,
    0 < v -> from <> to -> oc_ed cfg <> 0 -> ostep cfg s x o (OUnlockDemocracy from to v) = (s', ROk evs) ->
    v <= free_of (o_bank s) from /\
    (free_of (o_bank s') from = free_of (o_bank s) from - v \/
     free_of (o_bank s') from = 0 /\ free_of (o_bank s) from - v < oc_ed cfg) /\
    (free_of (o_bank s') to = free_of (o_bank s) to + v) /\
    (forall w, rsv (acct_of (o_bank s') w) = rsv (acct_of (o_bank s) w)) /\
    (forall w, w <> from -> w <> to -> acct_of (o_bank s') w = acct_of (o_bank s) w).
Proof.
  intros cfg s x o from to v s' evs Hv Hne He E. unfold ostep in E. cbn [oexec] in E.
  unfold root, rbind, do_unlock in E. break_match; try discriminate. injection E as <- <-.
  match goal with H : ROk _ = ROk _ |- _ => injection H as <- <- end. cbn [o_bank set_o_bank].
  match goal with H : transfer_allow _ _ _ _ _ = Some ?b |- _ => rename H into T; set (b' := b) in * end.
  destruct (remove_lock_same x (o_bank s) from) as [F A].
  destruct (transfer_allow_spec _ _ _ _ _ _ T Hne) as (S1 & S2 & S3).
  destruct (F from) as [Ff Fr], (F to) as [Ft _]. rewrite Ff in S1. rewrite Ft in S2. rewrite Ff, Fr in S3.
  split; [lia|]. split; [|split; [exact S2|split]].
  - destruct (N.eqb_spec v 0); [lia|]. destruct ((_ <? _) && _) eqn:Q; [|auto].
    apply andb_true_iff in Q as [Q _]. apply N.ltb_lt in Q. auto.
  - intros w. rewrite (transfer_allow_rsv _ _ _ _ _ _ w T). apply F.
  - intros w H1 H2. rewrite (transfer_allow_ne _ _ _ _ _ _ w T H1 H2). now apply A.
Qed.
Print Assumptions C89_unlock.
Example C89_example :
  let s1 := fst (ostep ycfg ys0 (yx 0) (Signed 9) (OReserve 1 (30 * DPR))) in
  let s2 := fst (ostep ycfg s1 (yx 0) Root (OUnlockDemocracy 1 2 (100 * DPR))) in
  acct_of (o_bank s1) 1 = Acct (970 * DPR) (30 * DPR) 0 /\
  acct_of (o_bank s2) 1 = Acct (870 * DPR) (30 * DPR) 0 /\
  free_of (o_bank s2) 2 = free_of (o_bank s1) 2 + 100 * DPR /\
  snd (ostep ycfg s2 (yx 0) Root (ORemoveLock 1)) = ROk [].
Proof. vm_compute. repeat split. Qed.
(** An application for a bridge transfer names its signer and changes nothing. *)
Theorem C89_apply :
  forall cfg s x o v chain s' evs,
    ostep cfg s x o (OApply v chain) = (s', ROk evs) ->
    s' = s /\ exists me, o = Signed me /\ evs = [EApply me v chain].
Proof.
  intros cfg s x o v chain s' evs E. unfold ostep in E. cbn [oexec] in E.
  unfold signed, rbind in E. destruct o as [|me|]; try discriminate. injection E as <- <-. eauto.
Qed.
Print Assumptions C89_apply.
