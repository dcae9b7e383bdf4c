(** No era is rewarded twice. *)
From Verif Require Import Base Balances Model_StakingLedger Model_Staking Spec_Staking
  Proofs_Arith Proofs_StakingLedger Proofs_Staking Proofs_Staking8.
From stdpp Require Import gmap sorting.
Open Scope N_scope.

Lemma asks_app d a b : asks d (a ++ b) = asks d a ++ asks d b.
Proof. unfold asks. apply omap_app. Qed.
Lemma asks_part d ev : asks d (ask_part ev) = asks d ev.
Proof.
  induction ev as [|e ev IH]; [auto|]. change (e :: ev) with ([e] ++ ev). rewrite ask_part_app, !asks_app, IH. f_equal.
  now destruct e as [[]| | | | | | | | | | |].
Qed.
Lemma payments_app d a b : payments d (a ++ b) = (payments d a + payments d b)%nat.
Proof. unfold payments. now rewrite List.filter_app, app_length. Qed.
Lemma payments_part d ev : payments d (ask_part ev) = payments d ev.
Proof.
  induction ev as [|e ev IH]; [auto|]. change (e :: ev) with ([e] ++ ev). rewrite ask_part_app, !payments_app, IH. f_equal.
  now destruct e as [[]| | | | | | | | | | |].
Qed.

Lemma successive_snoc l f t :
  successive l -> Forall (fun q => q.2 < f) l -> f <= t -> successive (l ++ [(f, t)]).
Proof.
  induction l as [|[f0 t0] l IH]; cbn; intros S F L; [repeat split; auto; constructor|].
  destruct S as (S1 & S2 & S3). apply Forall_cons in F as [F1 F2]. cbn in F1. repeat split; [auto| |now apply IH].
  apply Forall_app. split; [auto|]. constructor; [auto|constructor].
Qed.
Lemma successive_app a b : successive (a ++ b) -> successive b.
Proof. induction a as [|[f t] a IH]; cbn; [auto|]. intros (_ & _ & S). auto. Qed.

Definition aok (e : N) (k : dels) (ev : list kev) : Prop :=
  (forall d, successive (asks d ev)) /\
  (forall d, Forall (fun q => q.2 < e) (asks d ev)) /\
  (forall d r s, d_recs k !! d = Some r -> dr_since r = Some s ->
     s <= e /\ Forall (fun q => q.2 < s) (asks d ev)).

Lemma aok_later e e' k ev : e <= e' -> aok e k ev -> aok e' k ev.
Proof.
  intros L (A & B & C). split; [auto|]. split.
  - intros d. eapply Forall_impl; [apply B|]. cbn. lia.
  - intros d r s H1 H2. destruct (C d r s H1 H2). split; [lia|auto].
Qed.

Definition at_era (e : N) (xo : option kctx) : Prop :=
  match xo with Some x => kx_era x = e /\ e < two32 | None => True end.

Lemma aok_move e xo j k l k' ev :
  at_era e xo -> dlab_ok (xo, j) l -> dmove k l k' -> aok e k ev -> aok e k' (ev ++ lab_asks l).
Proof.
  intros X O H (A & B & C).
  destruct H as [k k' R|k k' R|k k' R|k x d vs k' E|k era d|k x d r o R S|k who ref k' E|k who]; cbn [lab_asks]; rewrite ?app_nil_r.
  - split; [auto|]. split; [auto|]. now rewrite R.
  - split; [auto|]. split; [auto|]. now rewrite R.
  - split; [auto|]. split; [auto|]. now rewrite R.
  - cbn in O. injection O as -> ->. destruct X as [X _]. unfold do_delegate in E. inv_bind E. injection E as <-.
    split; [auto|]. split; [auto|]. intros d' r' s Hr Hs. cbn [d_recs set_d_cand] in Hr.
    destruct (d_recs k !! d) as [r|] eqn:Er.
    + replace (d_recs _) with (<[d:=DRec vs (Some (default (kx_era x) (dr_since r))) true]> (d_recs k)) in Hr by now destruct (dr_on r).
      destruct (decide (d' = d)) as [->|Hn]; [|rewrite lookup_insert_ne in Hr by congruence; eauto].
      rewrite lookup_insert in Hr. injection Hr as <-. cbn in Hs. injection Hs as <-.
      destruct (dr_since r) as [s|] eqn:Es; cbn; [eapply C; eauto|]. rewrite X. split; [lia|apply B].
    + cbn in Hr. destruct (decide (d' = d)) as [->|Hn]; [|rewrite lookup_insert_ne in Hr by congruence; eauto].
      rewrite lookup_insert in Hr. injection Hr as <-. cbn in Hs. injection Hs as <-. rewrite X. split; [lia|apply B].
  - split; [auto|]. split; [auto|]. intros d' r' s Hr Hs. unfold undelegate in Hr.
    destruct (d_recs k !! d) as [r|] eqn:Er; [|eauto]. destruct (dr_on r) eqn:Eo; [|eauto].
    cbn zeta in Hr. destruct (dr_since r) as [e0|] eqn:Es; [destruct (_ =? _)|]; cbn in Hr.
    + destruct (decide (d' = d)) as [->|Hn]; [now rewrite lookup_delete in Hr|rewrite lookup_delete_ne in Hr by congruence; eauto].
    + destruct (decide (d' = d)) as [->|Hn]; [|rewrite lookup_insert_ne in Hr by congruence; eauto].
      rewrite lookup_insert in Hr. injection Hr as <-. cbn in Hs. injection Hs as <-. eauto.
    + destruct (decide (d' = d)) as [->|Hn]; [now rewrite lookup_delete in Hr|rewrite lookup_delete_ne in Hr by congruence; eauto].
  - cbn in O. injection O as -> ->. destruct X as [X Y].
    destruct (dr_since r) as [s|] eqn:Es; [|cbn in S; congruence]. cbn in S.
    destruct (C d r s R Es) as [C1 C2]. rewrite X in *. cbn [default from_option].
    assert (T : sub32 e 1 = e - 1) by (apply sub32_exact; lia).
    assert (Q : forall d', asks d' (ev ++ KAsk d s (sub32 e 1) :: match o with Some g => [KMint MDelegator d g] | None => [] end)
        = asks d' ev ++ if d =? d' then [(s, e - 1)] else []).
    { intros d'. rewrite asks_app, T. f_equal. unfold asks. destruct o; cbn; now destruct (d =? d'). }
    split; [|split].
    + intros d'. rewrite Q. destruct (N.eqb_spec d d') as [<-|Hn]; [|rewrite app_nil_r; auto].
      apply successive_snoc; [auto|auto|lia].
    + intros d'. rewrite Q. apply Forall_app. split; [auto|]. destruct (_ =? _); [|constructor].
      constructor; [cbn; lia|constructor].
    + intros d' r' s' Hr Hs. rewrite Q. unfold paid_rec in Hr.
      destruct (decide (d' = d)) as [->|Hn].
      * destruct (dr_on r); cbn in Hr; [|now rewrite lookup_delete in Hr].
        rewrite lookup_insert in Hr. injection Hr as <-. cbn in Hs. injection Hs as <-.
        split; [lia|]. apply Forall_app. split; [auto|]. destruct (_ =? _); constructor; [cbn; lia|constructor].
      * destruct (N.eqb_spec d d') as [->|_]; [congruence|]. rewrite app_nil_r.
        destruct (dr_on r); cbn in Hr; [rewrite lookup_insert_ne in Hr by congruence|rewrite lookup_delete_ne in Hr by congruence]; eauto.
  - unfold set_referer in E. inv_bind E. injection E as <-. split; [auto|]. split; [auto|]. exact C.
  - unfold unset_referer. split; [auto|]. split; [auto|]. destruct (d_ref k !! who); exact C.
Qed.
Lemma aok_path e xo j k ls k' : at_era e xo -> dpath k ls k' -> forall ev, Forall (dlab_ok (xo, j)) ls ->
  aok e k ev -> aok e k' (ev ++ concat (map lab_asks ls)).
Proof.
  intros X P. induction P as [|k l k1 ls k' H P IH]; intros ev F A; cbn; [now rewrite app_nil_r|].
  apply Forall_cons in F as [F1 F2]. rewrite app_assoc. apply IH; [auto|]. eapply aok_move; eauto.
Qed.
Lemma aok_part e k a ev : aok e k (a ++ ask_part ev) -> aok e k (a ++ ev).
Proof.
  assert (Q : forall d, asks d (a ++ ask_part ev) = asks d (a ++ ev)) by (intros; now rewrite !asks_app, asks_part).
  intros (A & B & C). split; [intros d; now rewrite <- Q|]. split; [intros d; rewrite <- Q; auto|].
  intros d r s H1 H2. rewrite <- Q. eauto.
Qed.

Section model.
  Context (cfg : kcfg).
  Lemma events_cons o l : events (o :: l) = events [o] ++ events l.
  Proof. unfold events. cbn. now rewrite app_nil_r. Qed.
  Lemma step_aok e s op ev :
    at_era e (ctx_of op) -> aok e (k_del s) ev ->
    aok e (k_del (kstep cfg s op).1) (ev ++ events [(kstep cfg s op).2]).
  Proof.
    intros X A. destruct (kstep cfg s op) as [s' out] eqn:E. apply step_del in E as (ls & P & F & Q & _). cbn [fst snd].
    apply aok_part. rewrite Q. eapply aok_path; eauto.
  Qed.
  Lemma run_aok h : forall e s ev, credit_eras e h -> aok e (k_del s) ev ->
    exists e', aok e' (k_del (krun cfg s h)) (ev ++ events (kouts cfg s h)).
  Proof.
    induction h as [|op h IH]; intros e s ev E A; cbn [krun kouts].
    { exists e. unfold events. cbn. now rewrite app_nil_r. }
    rewrite events_cons, app_assoc. cbn in E. destruct (ctx_of op) as [x|] eqn:X.
    - destruct E as (L & B & E). apply (IH (kx_era x)); [auto|]. apply step_aok; [rewrite X; cbn; auto|]. eapply aok_later; eauto.
    - apply (IH e); [auto|]. apply step_aok; [now rewrite X|auto].
  Qed.
  Lemma run_asks h e b p d : credit_eras e h -> successive (asks d (events (kouts cfg (kgenesis b p) h))).
  Proof.
    intros E. destruct (run_aok h e (kgenesis b p) [] E) as (e' & A & _); [|exact (A d)].
    split; [cbn; auto|]. split; [intros; constructor|]. intros d' r s H. cbn in H. now rewrite lookup_empty in H.
  Qed.

  (** Within an era every question ends at the era before. *)
  Lemma step_to e s op d : match ctx_of op with Some x => kx_era x = e | None => True end ->
    Forall (fun q => q.2 = sub32 e 1) (asks d (events [(kstep cfg s op).2])) /\
    (payments d (events [(kstep cfg s op).2]) <= length (asks d (events [(kstep cfg s op).2])))%nat.
  Proof.
    intros X. destruct (kstep cfg s op) as [s' out] eqn:E. apply step_del in E as (ls & P & F & Q & _). cbn [snd].
    rewrite <- asks_part, <- payments_part, Q. clear - F X. induction ls as [|l ls IH]; [cbn; split; [constructor|auto]|].
    cbn [map concat].
    apply Forall_cons in F as [F1 F2]. destruct (IH F2) as [I1 I2].
    rewrite asks_app, payments_app, app_length. rewrite Forall_app. unfold asks, payments in I1, I2 |- *.
    destruct l as [| | | | |x d' r o| |]; cbn; try (split; [split; [constructor|auto]|lia]).
    cbn in F1. injection F1 as F1 _. rewrite F1 in X. rewrite X. destruct o; cbn; destruct (d' =? d); cbn; (split; [split; [repeat constructor|auto]|lia]).
  Qed.
  Lemma run_to e h : forall s d, within e h ->
    Forall (fun q => q.2 = sub32 e 1) (asks d (events (kouts cfg s h))) /\
    (payments d (events (kouts cfg s h)) <= length (asks d (events (kouts cfg s h))))%nat.
  Proof.
    induction h as [|op h IH]; intros s d W; cbn [kouts]; [split; [constructor|auto]|].
    apply Forall_cons in W as [W1 W2]. rewrite events_cons, asks_app, payments_app, app_length.
    destruct (step_to e s op d W1) as [A1 A2]. destruct (IH (kstep cfg s op).1 d W2) as [B1 B2].
    split; [now apply Forall_app|lia].
  Qed.
  Lemma kouts_app h1 : forall s h2, kouts cfg s (h1 ++ h2) = kouts cfg s h1 ++ kouts cfg (krun cfg s h1) h2.
  Proof. induction h1 as [|op h IH]; intros s h2; [auto|]. cbn. now rewrite IH. Qed.
  Lemma events_app a b : events (a ++ b) = events a ++ events b.
  Proof. induction a as [|o a IH]; [auto|]. cbn [app]. rewrite events_cons, IH, (events_cons o a). now rewrite app_assoc. Qed.
  Lemma once_per_era e0 e b p h1 h2 d :
    credit_eras e0 (h1 ++ h2) -> within e h2 ->
    (payments d (events (kouts cfg (krun cfg (kgenesis b p) h1) h2)) <= 1)%nat.
  Proof.
    intros E W. pose proof (run_asks _ _ b p d E) as S. rewrite kouts_app, events_app, asks_app in S.
    apply successive_app in S. destruct (run_to e h2 (krun cfg (kgenesis b p) h1) d W) as [A L].
    destruct (asks d _) as [|[f1 t1] [|[f2 t2] l]]; cbn in L; [lia|lia|].
    exfalso. apply Forall_cons in A as [A1 A]. apply Forall_cons in A as [A2 _]. cbn in A1, A2.
    cbn in S. destruct S as (_ & S & S2 & _). apply Forall_cons in S as [S _]. cbn in S. lia.
  Qed.
End model.
