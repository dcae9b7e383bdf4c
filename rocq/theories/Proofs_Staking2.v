(** Stashes, ledgers and locks: the invariants. *)
From Verif Require Import Base Balances Model_StakingLedger Model_Staking Spec_Staking
  Proofs_Arith Proofs_StakingLedger Proofs_Staking.
From stdpp Require Import gmap.
Open Scope N_scope.

Record linv (m : lview) : Prop := {
  li_bonded : forall st c, v_bonded m !! st = Some c ->
    exists l, v_ledger m !! c = Some l /\ l_stash l = st;
  li_ledger : forall c l, v_ledger m !! c = Some l -> v_bonded m !! l_stash l = Some c;
  li_sound : forall c l, v_ledger m !! c = Some l -> sound l;
  li_small : forall c l, v_ledger m !! c = Some l -> l_total l < two128;
  li_lock : forall c l, v_ledger m !! c = Some l -> l_total l <> 0 -> v_lock m !! l_stash l = Some (l_total l);
  li_held : forall st v, v_lock m !! st = Some v -> v <> 0 /\ is_Some (v_bonded m !! st) }.

Definition lab_fits (m : lview) (lb : lab) : Prop :=
  match lb with
  | LBond _ _ v => v < two128
  | LUpd c (HReward v) => forall l, v_ledger m !! c = Some l -> l_total l + v < two128
  | LUpd c (HRebond v) => v < two128
  | _ => True
  end.

Lemma lsum_snoc (l : list chunk) c : lsum (map c_val (l ++ [c])) = lsum (map c_val l) + c_val c.
Proof. rewrite map_app, lsum_app. cbn. lia. Qed.

Lemma change_sound ed h l :
  sound l -> l_total l < two128 -> change_ok h l ->
  (forall v, h = HReward v -> l_total l + v < two128) -> (forall v, h = HRebond v -> v < two128) ->
  sound (change ed h l) /\ l_total (change ed h l) < two128.
Proof.
  intros S T C R B. destruct h as [|v|v era|era|v|v|v|v]; cbn [change change_ok] in *.
  - auto.
  - unfold sound in *. cbn. unfold unlocking in *. cbn.
    rewrite (add128_exact (l_total l) v) by lia. rewrite (add128_exact (l_active l) v) by lia. split; lia.
  - unfold sound, unlocking in *. cbn [l_total l_active l_unl]. rewrite lsum_snoc. cbn [c_val]. split; lia.
  - destruct (consolidate_spec era l S) as (A & _ & _ & E). split; [exact A|lia].
  - destruct (rebond_spec v l S T (B v eq_refl)) as (A & _ & E & _). split; [exact A|lia].
  - destruct (slash_ledger v ed l) as [l' g] eqn:E. destruct (slash_ledger_spec _ _ _ _ _ S E) as (A & _ & Et & _).
    cbn. split; [exact A|lia].
  - destruct (slash_ledger v ed l) as [l' g] eqn:E. destruct (slash_ledger_spec _ _ _ _ _ S E) as (A & _ & Et & _).
    cbn. split; [exact A|lia].
  - specialize (R v eq_refl). unfold sound in *. cbn. unfold unlocking in *. cbn.
    rewrite (add128_exact (l_total l) v) by lia. rewrite (add128_exact (l_active l) v) by lia. split; lia.
Qed.

Lemma set_lock_ne m st v st' : st <> st' -> set_lock_of m st v !! st' = m !! st'.
Proof. intros. unfold set_lock_of. destruct (v =? 0); [auto|]. now rewrite lookup_insert_ne. Qed.
Lemma set_lock_eq m st v : v <> 0 -> set_lock_of m st v !! st = Some v.
Proof. intros. unfold set_lock_of. destruct (N.eqb_spec v 0); [contradiction|]. apply lookup_insert. Qed.
Lemma set_lock_inv m st v st' w :
  set_lock_of m st v !! st' = Some w -> m !! st' = Some w \/ (st' = st /\ w = v /\ v <> 0).
Proof.
  unfold set_lock_of. destruct (N.eqb_spec v 0); [auto|].
  destruct (decide (st = st')) as [->|Hn]; [rewrite lookup_insert|rewrite lookup_insert_ne by auto]; auto.
  intros [= <-]. auto.
Qed.

Lemma lmove_inv ed m lb m' : linv m -> lmove ed m lb m' -> lab_fits m lb -> linv m'.
Proof.
  intros I M F. destruct M as [m st c v Hb Hl|m c h l Hl Hc|m st c Hb|m st c old l Hb Hl Hne Ho]; cbn in F.
  - (* bond *)
    assert (Hst : forall c' l', v_ledger m !! c' = Some l' -> l_stash l' <> st).
    { intros c' l' H E. apply (li_ledger _ I) in H. rewrite E in H. congruence. }
    constructor; cbn.
    + intros st' c' H. destruct (decide (st = st')) as [<-|Hn].
      * rewrite lookup_insert in H. injection H as <-. rewrite lookup_insert. eauto.
      * rewrite lookup_insert_ne in H by auto. destruct (li_bonded _ I _ _ H) as (l & A & B).
        exists l. split; [|auto]. rewrite lookup_insert_ne; [auto|congruence].
    + intros c' l' H. destruct (decide (c = c')) as [<-|Hn].
      * rewrite lookup_insert in H. injection H as <-. cbn. apply lookup_insert.
      * rewrite lookup_insert_ne in H by auto. rewrite lookup_insert_ne; [now apply (li_ledger _ I)|].
        apply not_eq_sym, (Hst c' l' H).
    + intros c' l' H. destruct (decide (c = c')) as [<-|Hn].
      * rewrite lookup_insert in H. injection H as <-. unfold sound, unlocking. cbn. lia.
      * rewrite lookup_insert_ne in H by auto. now apply (li_sound _ I c').
    + intros c' l' H. destruct (decide (c = c')) as [<-|Hn].
      * rewrite lookup_insert in H. injection H as <-. cbn. auto.
      * rewrite lookup_insert_ne in H by auto. now apply (li_small _ I c').
    + intros c' l' H Ht. destruct (decide (c = c')) as [<-|Hn].
      * rewrite lookup_insert in H. injection H as <-. cbn in *. now apply set_lock_eq.
      * rewrite lookup_insert_ne in H by auto. rewrite set_lock_ne; [now apply (li_lock _ I c')|].
        apply not_eq_sym, (Hst c' l' H).
    + intros st' w H. apply set_lock_inv in H as [H|(-> & -> & H)].
      * destruct (li_held _ I _ _ H) as [A B]. split; [auto|].
        destruct (decide (st = st')) as [<-|Hn]; [rewrite lookup_insert; eauto|now rewrite lookup_insert_ne].
      * split; [auto|]. rewrite lookup_insert. eauto.
  - (* update *)
    assert (G : sound (change ed h l) /\ l_total (change ed h l) < two128).
    { apply change_sound; auto.
      - now apply (li_sound _ I c).
      - now apply (li_small _ I c).
      - intros v ->. now apply F.
      - intros v ->. exact F. }
    destruct G as [G1 G2]. pose proof (change_stash ed h l) as Es.
    pose proof (li_ledger _ I _ _ Hl) as Hlb.
    set (lk := match h with HBurn _ => delete (l_stash l) (v_lock m) | _ => v_lock m end).
    assert (Lk : forall st, st <> l_stash l -> lk !! st = v_lock m !! st).
    { intros st Hn. unfold lk. destruct h; auto. now rewrite lookup_delete_ne by congruence. }
    assert (Lk' : forall st w, lk !! st = Some w -> v_lock m !! st = Some w).
    { intros st w. unfold lk. destruct h; auto. intros H. now apply lookup_delete_Some in H as [_ H]. }
    constructor; cbn.
    + intros st' c' H. destruct (li_bonded _ I _ _ H) as (l' & A & B).
      destruct (decide (c = c')) as [<-|Hn].
      * rewrite lookup_insert. eexists. split; [reflexivity|]. congruence.
      * rewrite lookup_insert_ne by auto. eauto.
    + intros c' l' H. destruct (decide (c = c')) as [<-|Hn].
      * rewrite lookup_insert in H. injection H as <-. now rewrite Es.
      * rewrite lookup_insert_ne in H by auto. now apply (li_ledger _ I).
    + intros c' l' H. destruct (decide (c = c')) as [<-|Hn].
      * rewrite lookup_insert in H. now injection H as <-.
      * rewrite lookup_insert_ne in H by auto. now apply (li_sound _ I c').
    + intros c' l' H. destruct (decide (c = c')) as [<-|Hn].
      * rewrite lookup_insert in H. now injection H as <-.
      * rewrite lookup_insert_ne in H by auto. now apply (li_small _ I c').
    + intros c' l' H Ht. destruct (decide (c = c')) as [<-|Hn].
      * rewrite lookup_insert in H. injection H as <-. rewrite Es. now apply set_lock_eq.
      * rewrite lookup_insert_ne in H by auto.
        assert (Hs : l_stash l' <> l_stash l).
        { intros E. apply (li_ledger _ I) in H. rewrite E in H. congruence. }
        rewrite set_lock_ne by congruence. rewrite Lk by auto. now apply (li_lock _ I c').
    + intros st' w H. apply set_lock_inv in H as [H|(-> & -> & H)].
      * now apply (li_held _ I), Lk'.
      * split; [auto|]. rewrite Hlb. eauto.
  - (* kill *)
    destruct (li_bonded _ I _ _ Hb) as (l & Hl & Est).
    assert (Hst : forall c' l', c <> c' -> v_ledger m !! c' = Some l' -> l_stash l' <> st).
    { intros c' l' Hn H E. apply (li_ledger _ I) in H. rewrite E in H. congruence. }
    constructor; cbn.
    + intros st' c' H. apply lookup_delete_Some in H as [Hn H].
      destruct (li_bonded _ I _ _ H) as (l' & A & B). exists l'. split; [|auto].
      rewrite lookup_delete_ne; [auto|]. intros <-. congruence.
    + intros c' l' H. apply lookup_delete_Some in H as [Hn H].
      rewrite lookup_delete_ne; [now apply (li_ledger _ I)|]. apply not_eq_sym. now apply (Hst c').
    + intros c' l' H. apply lookup_delete_Some in H as [Hn H]. now apply (li_sound _ I c').
    + intros c' l' H. apply lookup_delete_Some in H as [Hn H]. now apply (li_small _ I c').
    + intros c' l' H Ht. apply lookup_delete_Some in H as [Hn H].
      rewrite lookup_delete_ne; [now apply (li_lock _ I c')|]. apply not_eq_sym. now apply (Hst c').
    + intros st' w H. apply lookup_delete_Some in H as [Hn H]. destruct (li_held _ I _ _ H) as [A B].
      split; [auto|]. now rewrite lookup_delete_ne.
  - (* controller *)
    destruct (li_bonded _ I _ _ Hb) as (l0 & Hl0 & Est). rewrite Hl0 in Ho. subst l.
    assert (Inv : forall c' l', <[c := l0]> (delete old (v_ledger m)) !! c' = Some l' ->
        (c' = c /\ l' = l0) \/ (c' <> c /\ c' <> old /\ v_ledger m !! c' = Some l')).
    { intros c' l' H. destruct (decide (c = c')) as [<-|Hn].
      - rewrite lookup_insert in H. injection H as <-. auto.
      - rewrite lookup_insert_ne in H by auto. apply lookup_delete_Some in H as [Hn' H]. right. auto. }
    constructor; cbn.
    + intros st' c' H. destruct (decide (st = st')) as [<-|Hn].
      * rewrite lookup_insert in H. injection H as <-. rewrite lookup_insert. eauto.
      * rewrite lookup_insert_ne in H by auto. destruct (li_bonded _ I _ _ H) as (l' & A & B).
        exists l'. split; [|auto]. rewrite lookup_insert_ne by congruence.
        rewrite lookup_delete_ne; [auto|]. intros <-. congruence.
    + intros c' l' H. apply Inv in H as [[-> ->]|(Hn & Hn' & H)].
      * rewrite Est. apply lookup_insert.
      * pose proof (li_ledger _ I _ _ H) as H'. rewrite lookup_insert_ne; [auto|]. intros E. rewrite <- E in H'. congruence.
    + intros c' l' H. apply Inv in H as [[-> ->]|(Hn & Hn' & H)]; [now apply (li_sound _ I old)|now apply (li_sound _ I c')].
    + intros c' l' H. apply Inv in H as [[-> ->]|(Hn & Hn' & H)]; [now apply (li_small _ I old)|now apply (li_small _ I c')].
    + intros c' l' H Ht. apply Inv in H as [[-> ->]|(Hn & Hn' & H)]; [now apply (li_lock _ I old)|now apply (li_lock _ I c')].
    + intros st' w H. destruct (li_held _ I _ _ H) as [A B]. split; [auto|].
      destruct (decide (st = st')) as [<-|Hn]; [rewrite lookup_insert; eauto|now rewrite lookup_insert_ne].
Qed.

Lemma lpath_inv ed m ls m' :
  lpath ed m ls m' -> linv m ->
  (forall lb, lb ∈ ls -> match lb with LBond _ _ v => v < two128
      | LUpd _ (HRebond v) => v < two128 | LUpd _ (HReward v) => False | _ => True end) -> linv m'.
Proof.
  induction 1 as [|m lb m1 ls m2 M P IH]; intros I F; [auto|]. apply IH.
  - apply (lmove_inv ed m lb m1 I M). specialize (F lb (elem_of_list_here _ _)).
    destruct lb as [|? []| |]; cbn; auto; contradiction.
  - intros lb' Hin. apply F. now right.
Qed.
(** Rewards: the budget shrinks with each payment. *)
Lemma lpath_reward ed r m ls m' :
  lpath ed m ls m' -> linv m ->
  (forall lb, lb ∈ ls -> exists c v, lb = LUpd c (HReward v) /\ v <= r) ->
  (forall c l, v_ledger m !! c = Some l -> l_total l + N.of_nat (length ls) * r < two128) -> linv m'.
Proof.
  induction 1 as [|m lb m1 ls m2 M P IH]; intros I F B; [auto|].
  destruct (F lb (elem_of_list_here _ _)) as (c & v & -> & Hv). cbn [length] in B.
  apply IH.
  - apply (lmove_inv ed m _ m1 I M). cbn. intros l Hl. specialize (B c l Hl). nia.
  - intros lb' Hin. apply F. now right.
  - inversion M; subst. cbn. intros c' l' H'. destruct (decide (c = c')) as [<-|Hn].
    + rewrite lookup_insert in H'. injection H' as <-. cbn.
      match goal with H : v_ledger m !! c = Some ?l |- _ => specialize (B c l H) end.
      rewrite add128_exact by nia. nia.
    + rewrite lookup_insert_ne in H' by auto. specialize (B c' l' H'). nia.
Qed.

Section model.
  Context (cfg : kcfg).
  Local Notation ed := (kc_ed cfg).

  Lemma step_linv s op s' out :
    fits cfg s -> op_typed op -> linv (view s) -> kstep cfg s op = (s', out) -> linv (view s').
  Proof.
    intros (Ty & Ro & _) Ot I H. destruct (step_path cfg _ _ _ _ Ty H) as (ls & P & L & N0).
    rewrite Forall_forall in L.
    destruct (match op with KEndSession _ _ => true | _ => false end) eqn:Eo.
    - destruct op; try discriminate. destruct N0 as [i0 N0].
      apply (lpath_reward ed (p_reward (k_par s)) _ _ _ P I).
      + intros lb Hin. specialize (L lb Hin). destruct lb as [st c v|c []|st|st c]; cbn in L;
          try (repeat match goal with H : exists _, _ |- _ => destruct H as [? H] | H : _ /\ _ |- _ => destruct H
                 | H : _ \/ _ |- _ => destruct H end; discriminate).
        destruct L as [_ L]. eauto.
      + intros c l Hl. specialize (Ro c l i0 Hl). cbn in Hl. nia.
    - apply (lpath_inv ed _ _ _ P I). intros lb Hin. specialize (L lb Hin).
      destruct lb as [st c v|c []|st|st c]; cbn in L; auto.
      + destruct L as (x & v0 & d & -> & -> & _). pose proof (Ty st). lia.
      + destruct L as (x & ->). exact Ot.
      + destruct L as ((x & i & ->) & _). discriminate.
  Qed.
  Lemma genesis_linv b p : linv (view (kgenesis b p)).
  Proof. constructor; cbn; intros *; rewrite lookup_empty; discriminate. Qed.
  Lemma run_linv : forall h s, sane cfg s h -> linv (view s) -> linv (view (krun cfg s h)).
  Proof.
    induction h as [|op h IH]; intros s [F S] I; cbn; auto. destruct S as [T S].
    apply IH; [auto|]. destruct (kstep cfg s op) as [s' out] eqn:E. cbn. eapply step_linv; eauto.
  Qed.
  Lemma krun_app h1 h2 : forall s, krun cfg s (h1 ++ h2) = krun cfg (krun cfg s h1) h2.
  Proof. induction h1; intros; cbn; auto. Qed.
End model.
