(** Delegations are mirrored, delegators and referrals counted. *)
From Verif Require Import Base Balances Model_StakingLedger Model_Staking Spec_Staking
  Proofs_Arith Proofs_StakingLedger Proofs_Staking Proofs_Staking8.
From stdpp Require Import gmap sorting.
Open Scope N_scope.

(** ** Sets of delegators *)
Definition dels_in (m : gmap N cand) (v : N) : gset N := cd_dels (default cand0 (m !! v)).
Lemma leave1_in d m w v : dels_in (leave1 d m w) v = if decide (v = w) then dels_in m v ∖ {[d]} else dels_in m v.
Proof.
  unfold leave1, dels_in. cbn zeta. cbn [cd_dels]. destruct (bool_decide_reflect (cd_dels (default cand0 (m !! w)) ∖ {[d]} = ∅)) as [E|E].
  - destruct (decide (v = w)) as [->|Hn]; [now rewrite lookup_delete, E|now rewrite lookup_delete_ne by congruence].
  - destruct (decide (v = w)) as [->|Hn]; [now rewrite lookup_insert|now rewrite lookup_insert_ne by congruence].
Qed.
Lemma enter1_in d m w v : dels_in (enter1 d m w) v = if decide (v = w) then dels_in m v ∪ {[d]} else dels_in m v.
Proof.
  unfold enter1, dels_in. destruct (m !! w) as [c|] eqn:E.
  - destruct (decide (v = w)) as [->|Hn]; [now rewrite lookup_insert, E|now rewrite lookup_insert_ne by congruence].
  - destruct (decide (v = w)) as [->|Hn]; [|now rewrite lookup_insert_ne by congruence].
    rewrite lookup_insert, E. cbn. set_solver.
Qed.
Lemma leave_in d vs : forall m v e,
  e ∈ dels_in (leave d vs m) v <-> e ∈ dels_in m v /\ ~ (e = d /\ v ∈ vs).
Proof.
  unfold leave. induction vs as [|w vs IH]; intros m v e; cbn [fold_left]; [set_solver|].
  rewrite IH, leave1_in. destruct (decide (v = w)); set_solver.
Qed.
Lemma enter_in d vs : forall m v e,
  e ∈ dels_in (enter d vs m) v <-> e ∈ dels_in m v \/ (e = d /\ v ∈ vs).
Proof.
  unfold enter. induction vs as [|w vs IH]; intros m v e; cbn [fold_left]; [set_solver|].
  rewrite IH, enter1_in. destruct (decide (v = w)); set_solver.
Qed.

(** ** The mirror *)
Definition mirror (k : dels) : Prop := forall d v,
  d ∈ dels_in (d_cand k) v <-> exists r, d_recs k !! d = Some r /\ dr_on r = true /\ v ∈ dr_vals r.

Lemma mirror_move k l k' : dmove k l k' -> mirror k -> mirror k'.
Proof.
  intros H M. destruct H as [k k' R C|k k' R C|k k' R C|k x d vs k' E|k era d|k x d r o R S|k who ref k' E|k who].
  - intros d v. rewrite R, C. apply M.
  - intros d v. rewrite R, C. apply M.
  - intros d v. rewrite R. unfold dels_in. specialize (C v). unfold cand_of in C. rewrite C. apply M.
  - unfold do_delegate in E. inv_bind E. injection E as <-.
    intros e v. cbn [d_cand d_recs set_d_cand]. rewrite enter_in.
    destruct (d_recs k !! d) as [r|] eqn:Er.
    + assert (Q : d_recs (set_d_recs (if dr_on r then k else set_d_active k (sadd32 (d_active k) 1))
          (<[d:=DRec vs (Some (default (kx_era x) (dr_since r))) true]>
          (d_recs (if dr_on r then k else set_d_active k (sadd32 (d_active k) 1))))) =
          <[d:=DRec vs (Some (default (kx_era x) (dr_since r))) true]> (d_recs k)) by now destruct (dr_on r).
      cbn [d_recs d_cand set_d_cand set_d_recs] in Q |- *. rewrite Q.
      replace (d_cand (if dr_on r then k else set_d_active k (sadd32 (d_active k) 1))) with (d_cand k) by now destruct (dr_on r).
      rewrite leave_in. destruct (decide (e = d)) as [->|Hn].
      * rewrite lookup_insert. rewrite (M d v). split.
        -- intros [[(r' & E1 & E2 & E3) N]|[_ Hv]]; [|eexists; eauto].
           assert (r' = r) as -> by congruence. exfalso. apply N. auto.
        -- intros (r' & [= <-] & _ & Hv). right. auto.
      * rewrite lookup_insert_ne by congruence. rewrite (M e v). split; [intros [[G _]|[? _]]; [auto|congruence]|].
        intros G. left. split; [auto|]. intros [? _]. congruence.
    + cbn [d_recs d_cand set_d_cand set_d_recs set_d_count set_d_active].
      destruct (decide (e = d)) as [->|Hn].
      * rewrite lookup_insert, (M d v). split.
        -- intros [(r' & E1 & _)|[_ Hv]]; [congruence|eexists; eauto].
        -- intros (r' & [= <-] & _ & Hv). right. auto.
      * rewrite lookup_insert_ne by congruence. rewrite (M e v). split; [intros [G|[? _]]; [auto|congruence]|auto].
  - unfold undelegate. destruct (d_recs k !! d) as [r|] eqn:Er; [|exact M].
    destruct (dr_on r) eqn:Eo; [|exact M]. cbn zeta.
    assert (A : forall e v, e ∈ dels_in (leave d (dr_vals r) (d_cand k)) v <->
      e <> d /\ exists r', d_recs k !! e = Some r' /\ dr_on r' = true /\ v ∈ dr_vals r').
    { intros e v. rewrite leave_in, (M e v). split.
      - intros [(r' & E1 & E2 & E3) N]. assert (e <> d) by (intros ->; apply N; split; [auto|congruence]). eauto.
      - intros [N G]. split; [auto|]. intros [? _]. auto. }
    assert (gone : mirror (set_d_count (set_d_recs (set_d_active (set_d_cand k (leave d (dr_vals r) (d_cand k)))
        (ssub (d_active k) 1)) (delete d (d_recs k))) (ssub (d_count k) 1))).
    { intros e v. cbn. rewrite A. destruct (decide (e = d)) as [->|Hn].
      - rewrite lookup_delete. split; [tauto|intros (? & ? & _); discriminate].
      - rewrite lookup_delete_ne by congruence. tauto. }
    destruct (dr_since r) as [e0|]; [destruct (_ =? _)|]; try exact gone.
    intros e v. cbn. rewrite A. destruct (decide (e = d)) as [->|Hn].
    + rewrite lookup_insert. split; [tauto|intros (? & [= <-] & ? & _); discriminate].
    + rewrite lookup_insert_ne by congruence. tauto.
  - unfold paid_rec. destruct (dr_on r) eqn:Eo; intros e v; cbn; rewrite (M e v).
    + destruct (decide (e = d)) as [->|Hn]; [|now rewrite lookup_insert_ne by congruence].
      rewrite lookup_insert, R. split; intros (r' & [= <-] & ? & Hv); eexists; eauto.
    + destruct (decide (e = d)) as [->|Hn]; [|now rewrite lookup_delete_ne by congruence].
      rewrite lookup_delete, R. split; intros (r' & G & ? & Hv); [congruence|discriminate].
  - unfold set_referer in E. inv_bind E. injection E as <-. exact M.
  - unfold unset_referer. now destruct (d_ref k !! who).
Qed.

(** ** Counting entries of a map *)
Section count.
  Context {A : Type} (P : A -> bool).
  Definition having (m : gmap N A) : gset N := dom (filter (fun p : N * A => P p.2 = true) m).
  Lemma having_elem m d : d ∈ having m <-> exists r, m !! d = Some r /\ P r = true.
  Proof.
    unfold having. rewrite elem_of_dom. split.
    - intros [r H]. apply map_filter_lookup_Some in H as [H1 H2]. eauto.
    - intros (r & H1 & H2). exists r. now apply map_filter_lookup_Some.
  Qed.
  Lemma having_insert m d r : having (<[d := r]> m) = if P r then {[d]} ∪ having m else having m ∖ {[d]}.
  Proof.
    apply set_eq. intros e. rewrite having_elem. destruct (decide (e = d)) as [->|Hn].
    - rewrite lookup_insert. destruct (P r) eqn:E; [|split; [intros (r' & [= <-] & ?); congruence|intros G; apply elem_of_difference in G as [_ G]; exfalso; apply G; now apply elem_of_singleton]].
      split; [intros _; apply elem_of_union; left; now apply elem_of_singleton|]. intros _. eauto.
    - rewrite lookup_insert_ne by congruence. rewrite <- having_elem. destruct (P r); set_solver.
  Qed.
  Lemma having_delete m d : having (delete d m) = having m ∖ {[d]}.
  Proof.
    apply set_eq. intros e. rewrite having_elem. destruct (decide (e = d)) as [->|Hn].
    - rewrite lookup_delete. split; [intros (? & ? & _); discriminate|set_solver].
    - rewrite lookup_delete_ne by congruence. rewrite <- having_elem. set_solver.
  Qed.
End count.
Definition sz (X : gset N) : N := N.of_nat (size X).
Lemma sz_add d X : d ∉ X -> sz ({[d]} ∪ X) = sz X + 1.
Proof. intros H. unfold sz. rewrite size_union by set_solver. rewrite size_singleton. lia. Qed.
Lemma sz_same (d : N) (X : gset N) : d ∈ X -> {[d]} ∪ X = X.
Proof. intros. apply set_eq. set_solver. Qed.
Lemma sz_sub d X : d ∈ X -> sz (X ∖ {[d]}) = sz X - 1 /\ 0 < sz X.
Proof.
  intros H. assert (E : sz X = sz (X ∖ {[d]}) + 1).
  { rewrite <- (sz_add d) by set_solver. f_equal. apply set_eq. intros e. destruct (decide (e = d)); set_solver. }
  lia.
Qed.
Lemma sz_none (d : N) (X : gset N) : d ∉ X -> X ∖ {[d]} = X.
Proof. intros. apply set_eq. set_solver. Qed.
Lemma having_subset {A} (P : A -> bool) m : having P m ⊆ dom m.
Proof. intros d H. apply having_elem in H as (r & H & _). apply elem_of_dom. eauto. Qed.
Lemma having_le {A} (P : A -> bool) m : sz (having P m) <= N.of_nat (size m).
Proof. unfold sz. rewrite <- size_dom. pose proof (subseteq_size _ _ (having_subset P m)). lia. Qed.
Lemma sadd32_exact a b : a + b < two32 -> sadd32 a b = a + b.
Proof. unfold sadd32, sadd. lia. Qed.

Definition counted (k : dels) : Prop :=
  d_count k = N.of_nat (size (d_recs k)) /\ d_active k = sz (having dr_on (d_recs k)).
Definition referred (k : dels) : Prop :=
  (forall a, default 0 (d_refc k !! a) = sz (having (fun r => r =? a) (d_ref k))) /\
  (forall w, d_ref k !! w <> Some w).

Definition room (n : N) (k : dels) : Prop :=
  N.of_nat (size (d_recs k)) + n < two32 /\ N.of_nat (size (d_ref k)) + n < two32.

Lemma size_delete_N {A} (m : gmap N A) d : is_Some (m !! d) -> N.of_nat (size (delete d m)) = N.of_nat (size m) - 1.
Proof. intros H. rewrite map_size_delete_Some; [lia|auto]. Qed.
Lemma size_insert_N {A} (m : gmap N A) d r : is_Some (m !! d) -> size (<[d := r]> m) = size m.
Proof. intros H. now apply map_size_insert_Some. Qed.
Lemma size_new_N {A} (m : gmap N A) d r : m !! d = None -> N.of_nat (size (<[d := r]> m)) = N.of_nat (size m) + 1.
Proof. intros H. rewrite map_size_insert_None; [lia|auto]. Qed.

Lemma counted_move k l k' : dmove k l k' -> room (N.of_nat (grows l)) k -> counted k -> counted k'.
Proof.
  intros H B M. destruct H as [k k' R C N A|k k' R C N A|k k' R C N A|k x d vs k' E|k era d|k x d r o R S|k who ref k' E|k who].
  - unfold counted. rewrite R, N, A. exact M.
  - unfold counted. rewrite R, N, A. exact M.
  - unfold counted. rewrite R, N, A. exact M.
  - unfold do_delegate in E. inv_bind E. injection E as <-. destruct M as [M1 M2]. destruct B as [B _]. cbn in B.
    pose proof (having_le dr_on (d_recs k)) as L.
    destruct (d_recs k !! d) as [r|] eqn:Er.
    + unfold counted. destruct (dr_on r) eqn:Eo; cbn.
      * rewrite size_insert_N by eauto. rewrite having_insert. cbn.
        rewrite sz_same; [auto|]. apply having_elem. eauto.
      * rewrite size_insert_N by eauto. rewrite having_insert. cbn. split; [auto|].
        rewrite sz_add; [rewrite sadd32_exact; lia|]. rewrite having_elem. intros (r' & E1 & E2). congruence.
    + unfold counted. cbn. rewrite size_new_N by auto. rewrite having_insert. cbn.
      rewrite sz_add; [rewrite !sadd32_exact; lia|]. rewrite having_elem. intros (r' & E1 & E2). congruence.
  - unfold undelegate. destruct (d_recs k !! d) as [r|] eqn:Er; [|exact M].
    destruct (dr_on r) eqn:Eo; [|exact M]. cbn zeta. destruct M as [M1 M2].
    destruct (sz_sub d (having dr_on (d_recs k))) as [Z1 Z2]; [apply having_elem; eauto|].
    assert (gone : counted (set_d_count (set_d_recs (set_d_active (set_d_cand k (leave d (dr_vals r) (d_cand k)))
        (ssub (d_active k) 1)) (delete d (d_recs k))) (ssub (d_count k) 1))).
    { unfold counted. cbn. rewrite size_delete_N, having_delete by eauto. unfold ssub. rewrite Z1. lia. }
    destruct (dr_since r) as [e0|]; [destruct (_ =? _)|]; try exact gone.
    unfold counted. cbn. rewrite size_insert_N by eauto. rewrite having_insert. cbn. unfold ssub. rewrite Z1. lia.
  - destruct M as [M1 M2]. unfold paid_rec. destruct (dr_on r) eqn:Eo; unfold counted; cbn.
    + rewrite size_insert_N by eauto. rewrite having_insert. cbn. try rewrite Eo.
      rewrite sz_same; [auto|]. apply having_elem. eauto.
    + rewrite size_delete_N by eauto. rewrite having_delete. unfold ssub. split; [lia|].
      rewrite sz_none; [auto|]. rewrite having_elem. intros (r' & E1 & E2). congruence.
  - unfold set_referer in E. inv_bind E. injection E as <-. exact M.
  - unfold unset_referer. now destruct (d_ref k !! who).
Qed.

Lemma referred_move k l k' : dmove k l k' -> room (N.of_nat (grows l)) k -> referred k -> referred k'.
Proof.
  intros H B M. destruct H as [k k' R C N A F G|k k' R C N A F G|k k' R C N A F G|k x d vs k' E|k era d|k x d r o R S|k who ref k' E|k who].
  - unfold referred. rewrite F, G. exact M.
  - unfold referred. rewrite F, G. exact M.
  - unfold referred. rewrite F, G. exact M.
  - unfold do_delegate in E. inv_bind E. injection E as <-.
    destruct (d_recs k !! d) as [r|]; [destruct (dr_on r)|]; exact M.
  - unfold undelegate. destruct (d_recs k !! d) as [r|]; [|exact M].
    destruct (dr_on r); [|exact M]. cbn zeta. destruct (dr_since r) as [e0|]; [destruct (_ =? _)|]; exact M.
  - unfold paid_rec. destruct (dr_on r); exact M.
  - unfold set_referer in E. inv_bind E. injection E as <-. destruct M as [M1 M2]. destruct B as [_ B]. cbn in B.
    apply negb_true_iff, N.eqb_neq in E0.
    assert (L : forall a, sz (having (fun r => r =? a) (d_ref k)) <= N.of_nat (size (d_ref k))) by (intros; apply having_le).
    assert (M3 : forall w, (<[who:=ref]> (d_ref k)) !! w <> Some w).
    { intros w. destruct (decide (w = who)) as [->|Hn]; [rewrite lookup_insert; congruence|rewrite lookup_insert_ne by congruence; auto]. }
    split; [|exact M3]. intros a. cbn [d_refc d_ref set_d_refc set_d_ref]. rewrite having_insert.
    unfold bump, drop1. specialize (L a).
    destruct (d_ref k !! who) as [old|] eqn:Eo.
    + destruct (N.eqb_spec ref a) as [->|Hr].
      * destruct (decide (old = a)) as [->|Ha].
        -- rewrite lookup_insert, lookup_insert. cbn. rewrite M1. unfold ssub.
           rewrite sz_same by (apply having_elem; exists a; split; [auto|apply N.eqb_refl]).
           rewrite sadd32_exact by lia. lia.
        -- rewrite lookup_insert_ne, lookup_insert by congruence. cbn. rewrite M1.
           rewrite sz_add; [rewrite sadd32_exact; lia|]. rewrite having_elem. intros (r' & E1 & E2).
           apply N.eqb_eq in E2. congruence.
      * destruct (decide (old = a)) as [->|Ha].
        -- rewrite lookup_insert. rewrite lookup_insert_ne by congruence. cbn. rewrite M1. unfold ssub.
           destruct (sz_sub who (having (fun r => r =? a) (d_ref k))); [|lia].
           apply having_elem. exists a. split; [auto|apply N.eqb_refl].
        -- rewrite lookup_insert_ne, lookup_insert_ne by congruence. rewrite M1.
           rewrite sz_none; [auto|]. rewrite having_elem. intros (r' & E1 & E2). apply N.eqb_eq in E2. congruence.
    + destruct (N.eqb_spec ref a) as [->|Hr].
      * rewrite lookup_insert. cbn. rewrite M1. rewrite sz_add; [rewrite sadd32_exact; lia|].
        rewrite having_elem. intros (r' & E1 & E2). congruence.
      * rewrite lookup_insert_ne by congruence. rewrite M1. rewrite sz_none; [auto|].
        rewrite having_elem. intros (r' & E1 & E2). congruence.
  - unfold unset_referer. destruct (d_ref k !! who) as [old|] eqn:Eo; [|exact M]. destruct M as [M1 M2].
    assert (M3 : forall w, (delete who (d_ref k)) !! w <> Some w).
    { intros w. destruct (decide (w = who)) as [->|Hn]; [now rewrite lookup_delete|rewrite lookup_delete_ne by congruence; auto]. }
    split; [|exact M3]. intros a. cbn [d_refc d_ref set_d_refc set_d_ref]. rewrite having_delete. unfold drop1.
    destruct (decide (old = a)) as [->|Ha].
    + rewrite lookup_insert. cbn. rewrite M1. unfold ssub.
      destruct (sz_sub who (having (fun r => r =? a) (d_ref k))); [|lia].
      apply having_elem. exists a. split; [auto|apply N.eqb_refl].
    + rewrite lookup_insert_ne by congruence. rewrite M1. rewrite sz_none; [auto|].
      rewrite having_elem. intros (r' & E1 & E2). apply N.eqb_eq in E2. congruence.
Qed.

(** A change adds at most as many entries as its label says. *)
Lemma room_move k l k' n : dmove k l k' -> room (N.of_nat (grows l) + n) k -> room n k'.
Proof.
  intros H [B1 B2]. unfold room.
  destruct H as [k k' R C N A F G|k k' R C N A F G|k k' R C N A F G|k x d vs k' E|k era d|k x d r o R S|k who ref k' E|k who]; cbn [grows] in *.
  - rewrite R, F. lia.
  - rewrite R, F. lia.
  - rewrite R, F. lia.
  - unfold do_delegate in E. inv_bind E. injection E as <-.
    destruct (d_recs k !! d) as [r|] eqn:Er; [destruct (dr_on r)|]; cbn.
    + rewrite size_insert_N by eauto. lia.
    + rewrite size_insert_N by eauto. lia.
    + rewrite size_new_N by auto. lia.
  - unfold undelegate. destruct (d_recs k !! d) as [r|] eqn:Er; [|lia].
    destruct (dr_on r); [|lia]. cbn zeta.
    destruct (dr_since r) as [e0|]; [destruct (_ =? _)|]; cbn; rewrite ?size_insert_N, ?size_delete_N by eauto; lia.
  - unfold paid_rec. destruct (dr_on r); cbn; rewrite ?size_insert_N, ?size_delete_N by eauto; lia.
  - unfold set_referer in E. inv_bind E. injection E as <-. cbn.
    destruct (d_ref k !! who) as [old|] eqn:Eo; [rewrite size_insert_N by eauto|rewrite size_new_N by auto]; lia.
  - unfold unset_referer. destruct (d_ref k !! who) as [old|] eqn:Eo; [|lia]. cbn. rewrite size_delete_N by eauto. lia.
Qed.

Definition dinv (k : dels) : Prop := mirror k /\ counted k /\ referred k.
Lemma dinv_path k ls k' : dpath k ls k' -> room (N.of_nat (growth ls)) k -> dinv k -> dinv k'.
Proof.
  induction 1 as [|k l k1 ls k' H P IH]; intros B I; [auto|]. unfold growth in B. cbn in B. fold (growth ls) in B.
  rewrite Nat2N.inj_add in B. destruct I as (I1 & I2 & I3).
  assert (B1 : room (N.of_nat (grows l)) k) by (unfold room in *; lia).
  apply IH; [now apply (room_move _ _ _ _ H)|]. split; [eapply mirror_move; eauto|]. split; [eapply counted_move; eauto|eapply referred_move; eauto].
Qed.

Section model.
  Context (cfg : kcfg).
  Lemma step_dinv s op : countable s -> dinv (k_del s) -> dinv (k_del (kstep cfg s op).1).
  Proof.
    intros B I. destruct (kstep cfg s op) as [s' out] eqn:E. apply step_del in E as (ls & P & _ & _ & G). cbn.
    eapply dinv_path; [exact P| |exact I]. unfold countable in B. unfold room. lia.
  Qed.
  Lemma run_dinv h : forall s, always cfg countable s h -> dinv (k_del s) -> dinv (k_del (krun cfg s h)).
  Proof.
    induction h as [|op h IH]; intros s B I; cbn [krun]; [auto|]. destruct B as [B1 B2].
    apply IH; [auto|]. now apply step_dinv.
  Qed.
  (** The mirror needs no bound. *)
  Lemma run_mirror h : forall s, mirror (k_del s) -> mirror (k_del (krun cfg s h)).
  Proof.
    induction h as [|op h IH]; intros s I; cbn [krun]; [auto|]. apply IH.
    destruct (kstep cfg s op) as [s1 o] eqn:E. pose proof (step_del cfg _ _ _ _ E) as (ls & P & _). cbn.
    clear - P I. induction P; eauto using mirror_move.
  Qed.
End model.
